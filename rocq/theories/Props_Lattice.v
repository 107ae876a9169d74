(** Property theorems C44, C45 and C46 (first part): lattice, orders and wave vectors of TRCWA. *)
From Coq Require Import Reals ZArith String List Bool Lra Lia.
From Verif Require Import Base BaseLemmas Cplx CplxLemmas Model_Lattice Spec_Lattice Proof_Lattice Proof_Lattice2
  Proof_Lattice3 Proof_Lattice4.
Import ListNotations.
Open Scope R_scope.

(** C44: the reciprocal vectors of two independent lattice vectors are dual to
    them. *)
Theorem C44_dual : forall (a b : vec2),
  independent a b ->
  exists k1 k2, Lattice_Reciprocate (as_arg a) (as_arg b) = Ok (k1, k2)
    /\ inner k1 a = 1 /\ inner k1 b = 0 /\ inner k2 a = 0 /\ inner k2 b = 1.
Proof. exact reciprocate_dual. Qed.
Print Assumptions C44_dual.
(** They are the only dual vectors, *)
Theorem C44_unique : forall (a b k1 k2 : vec2),
  inner k1 a = 1 -> inner k1 b = 0 -> inner k2 a = 0 -> inner k2 b = 1 ->
  Lattice_Reciprocate (as_arg a) (as_arg b) = Ok (k1, k2).
Proof. exact reciprocate_unique. Qed.
Print Assumptions C44_unique.
(** taking the reciprocal twice gives the lattice back, *)
Theorem C44_involution : forall (a b k1 k2 : vec2),
  Lattice_Reciprocate (as_arg a) (as_arg b) = Ok (k1, k2) ->
  Lattice_Reciprocate (as_arg k1) (as_arg k2) = Ok (a, b).
Proof. exact reciprocate_twice. Qed.
Print Assumptions C44_involution.
(** and dependent vectors are rejected. *)
Theorem C44_dependent_raises : forall (a b : vec2),
  ~ independent a b -> Lattice_Reciprocate (as_arg a) (as_arg b) = Err ZeroDivisionError.
Proof. exact reciprocate_dependent. Qed.
Print Assumptions C44_dependent_raises.
Theorem C44_independent : forall (a b k1 k2 : vec2),
  Lattice_Reciprocate (as_arg a) (as_arg b) = Ok (k1, k2) -> independent k1 k2.
Proof. exact reciprocate_independent. Qed.
Print Assumptions C44_independent.
Example C44_case : independent (1, 1/2) (0, 3).
Proof. unfold independent; cbn [fst snd]; lra. Qed.

(** C45: fewer than nG distinct orders, in order of length, the zero order first. *)
Theorem C45_selected : forall argsort nG lk1 lk2,
  sorts argsort -> independent lk1 lk2 -> (1 <= nG)%Z ->
  exists G, Lattice_getG argsort (OInt nG) lk1 lk2 0 = Ok (G, Z.of_nat (length G))
    /\ (Z.of_nat (length G) <= nG - 1)%Z
    /\ NoDup G
    /\ (forall i j, (i <= j)%nat -> (j < length G)%nat ->
          len2 lk1 lk2 (nth i G (0,0)%Z) <= len2 lk1 lk2 (nth j G (0,0)%Z))
    /\ (G <> [] -> nth 0 G (1,1)%Z = (0,0)%Z).
Proof. exact orders_selected. Qed.
Print Assumptions C45_selected.
(** Of all integer orders, none that is as short as a returned one is missing:
    only complete shells are returned. *)
Theorem C45_complete_shells : forall argsort nG lk1 lk2 G n,
  sorts argsort -> independent lk1 lk2 ->
  Lattice_getG argsort (OInt nG) lk1 lk2 0 = Ok (G, n) ->
  forall g h, In h G ->
    len2 lk1 lk2 g <= len2 lk1 lk2 h
                      + / 10 ^ 10 * Rmax (len2 lk1 lk2 (1, 0)%Z) (len2 lk1 lk2 (0, 1)%Z) ->
    In g G.
Proof. exact orders_complete. Qed.
Print Assumptions C45_complete_shells.
Theorem C45_symmetric : forall argsort nG lk1 lk2 G n,
  sorts argsort -> independent lk1 lk2 ->
  Lattice_getG argsort (OInt nG) lk1 lk2 0 = Ok (G, n) ->
  forall g, In g G -> In (neg_order g) G.
Proof. exact orders_symmetric. Qed.
Print Assumptions C45_symmetric.
(** Every complete disc of fewer than nG orders is contained in the result. *)
Theorem C45_maximal : forall argsort nG lk1 lk2 G n S rho,
  sorts argsort -> independent lk1 lk2 ->
  Lattice_getG argsort (OInt nG) lk1 lk2 0 = Ok (G, n) ->
  NoDup S -> (Z.of_nat (length S) < nG)%Z ->
  (forall g, In g S <-> len2 lk1 lk2 g <= rho) ->
  (forall g, rho < len2 lk1 lk2 g ->
     rho + / 10 ^ 10 * Rmax (len2 lk1 lk2 (1, 0)%Z) (len2 lk1 lk2 (0, 1)%Z) < len2 lk1 lk2 g) ->
  incl S G.
Proof. exact orders_maximal. Qed.
Print Assumptions C45_maximal.
(** Asking for one order gives none; *)
Theorem C45_single_order : forall argsort lk1 lk2,
  sorts argsort -> independent lk1 lk2 ->
  Lattice_getG argsort (OInt 1) lk1 lk2 0 = Ok ([], 0%Z).
Proof. exact single_order. Qed.
Print Assumptions C45_single_order.
(** asking for five on a square lattice gives one, although the five shortest
    orders are complete shells. *)
Theorem C45_five_on_square : forall argsort (s : R),
  sorts argsort -> 0 < s ->
  Lattice_getG argsort (OInt 5) (s, 0) (0, s) 0 = Ok ([(0,0)%Z], 1%Z)
  /\ (forall g, len2 (s, 0) (0, s) g <= s * s <->
        In g [(0,0); (1,0); (-1,0); (0,1); (0,-1)]%Z)
  /\ (forall g, s * s < len2 (s, 0) (0, s) g -> 2 * (s * s) <= len2 (s, 0) (0, s) g).
Proof. exact square_five. Qed.
Print Assumptions C45_five_on_square.
Theorem C45_nonpositive_raises : forall argsort nG lk1 lk2,
  independent lk1 lk2 -> (nG <= 0)%Z ->
  Lattice_getG argsort (OInt nG) lk1 lk2 0
  = Err (if (nG =? 0)%Z then UnboundLocalError else ValueError).
Proof. exact no_orders. Qed.
Print Assumptions C45_nonpositive_raises.
Theorem C45_other_arguments_raise : forall argsort nG lk1 lk2 method,
  Lattice_getG argsort OOther lk1 lk2 method = Err AssertionError
  /\ Lattice_getG argsort (OInt nG) lk1 lk2 1 = Err TypeError
  /\ ((method <> 0)%Z -> (method <> 1)%Z -> Lattice_getG argsort (OInt nG) lk1 lk2 method = Err PlainException).
Proof. exact getG_other. Qed.
Print Assumptions C45_other_arguments_raise.
Example C45_case : sorts isort /\ independent (1, 0) (0, 1)
  /\ (forall g, In g [(0,0)%Z] <-> len2 (1, 0) (0, 1) g <= 0).
Proof.
  split; [exact isort_sorts|]. split; [unfold independent; cbn [fst snd]; lra|].
  intros g. destruct (square_five isort 1 isort_sorts ltac:(lra)) as (_ & H & _). cbn [In]. split.
  - intros [<-|[]]. unfold len2, recip; cbn [fst snd]. lra.
  - intros L. left. destruct (proj1 (H g) ltac:(lra)) as [<-|K]; [reflexivity|exfalso].
    cbn in K. decompose [or] K; subst; try contradiction; revert L; unfold len2, recip; cbn [fst snd]; lra.
Qed.

(** C46 (wave vectors): each order adds 2 pi times its reciprocal vector to the
    incident wave vector. *)
Theorem C46_wave_vectors : forall G kx0 ky0 lk1 lk2 i,
  (i < length G)%nat ->
  let g := nth i G (0, 0)%Z in
  length (fst (Lattice_SetKs G kx0 ky0 lk1 lk2)) = length G
  /\ length (snd (Lattice_SetKs G kx0 ky0 lk1 lk2)) = length G
  /\ nth i (fst (Lattice_SetKs G kx0 ky0 lk1 lk2)) C0
     = Cadd kx0 (RtoC (2 * PI * fst (recip lk1 lk2 g)))
  /\ nth i (snd (Lattice_SetKs G kx0 ky0 lk1 lk2)) C0
     = Cadd ky0 (RtoC (2 * PI * snd (recip lk1 lk2 g))).
Proof. exact setks_entry. Qed.
Print Assumptions C46_wave_vectors.
Example C46_wave_case : (1 < length [(0,0)%Z; (1,0)%Z])%nat
  /\ recip (1, 0) (0, 1) (1, 0)%Z = (1, 0).
Proof. split; [cbn; lia|]. unfold recip; cbn. f_equal; ring. Qed.
