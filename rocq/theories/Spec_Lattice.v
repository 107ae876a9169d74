(** Vocabulary of the lattice properties. *)
From Coq Require Import Reals ZArith List Sorted Permutation.
From Verif Require Import Base Cplx Model_Lattice.
Import ListNotations.
Open Scope R_scope.

(** Two plane vectors span the plane. *)
Definition independent (a b : vec2) : Prop := fst a * snd b - snd a * fst b <> 0.
Definition as_arg (a : vec2) : lattice_arg := LList [fst a; snd a].

(** The inner product. *)
Definition inner (a b : vec2) : R := fst a * fst b + snd a * snd b.

(** The reciprocal vector (without 2 pi) of an order, and its squared length. *)
Definition recip (lk1 lk2 : vec2) (g : Z * Z) : vec2 :=
  (IZR (fst g) * fst lk1 + IZR (snd g) * fst lk2,
   IZR (fst g) * snd lk1 + IZR (snd g) * snd lk2).
Definition len2 (lk1 lk2 : vec2) (g : Z * Z) : R :=
  let k := recip lk1 lk2 g in fst k * fst k + snd k * snd k.

(** What is assumed of numpy.argsort: it returns the indices of the list, each
    once, in an order in which the values do not decrease. *)
Definition sorts (argsort : list R -> list nat) : Prop :=
  forall l, Permutation (argsort l) (seq 0 (length l))
            /\ StronglySorted Rle (map (fun i => nth i l 0) (argsort l)).

Definition neg_order (g : Z * Z) : Z * Z := ((- fst g)%Z, (- snd g)%Z).
