(** The film recursion solves the interface equations. *)
From Coq Require Import Reals List Lia Lra.
From Verif Require Import Base Cplx CplxLemmas Spec_Film.
Import ListNotations.

Section Chain.
Context (omega : C) (A B ns : nat -> C) (ts : nat -> R).
Let d l := film_phase omega (ns l) (ts l).
Definition interface l : Prop :=
  (A l * d l + B l)%C = (A (S l) + B (S l) * d (S l))%C
  /\ ((A l * d l - B l) * ns (S l))%C = ((A (S l) - B (S l) * d (S l)) * ns l)%C.

Lemma film_sound : forall m s, (forall l, s <= l <= s + m -> interface l)%nat -> B (s + m + 1)%nat = C0 ->
  let '(X, D, P) := film omega (ns s) (map (fun l => (ns l, ts l)) (seq (S s) m)) (ns (s + m + 1)%nat) in
  (P * (A s * d s))%C = (D * A (s + m + 1)%nat)%C /\ (P * B s)%C = (X * A (s + m + 1)%nat)%C.
Proof.
  induction m as [|m IH]; intros s H HB.
  - cbn [seq map film]. destruct (H s ltac:(lia)) as [H1 H2].
    replace (s + 0 + 1)%nat with (S s) in * by lia. rewrite HB in H1, H2.
    assert (E1 : (A s * d s + B s)%C = A (S s)) by (rewrite H1; ring).
    assert (E2 : ((A s * d s - B s) * ns (S s))%C = (A (S s) * ns s)%C) by (rewrite H2; ring).
    replace (RtoC 2) with (C1 + C1)%C by (apply Ceq; cbn; ring). split.
    + transitivity (((A s * d s + B s) * ns (S s)) + ((A s * d s - B s) * ns (S s)))%C; [ring|]. rewrite E1, E2. ring.
    + transitivity (((A s * d s + B s) * ns (S s)) - ((A s * d s - B s) * ns (S s)))%C; [ring|]. rewrite E1, E2. ring.
  - cbn [seq map film]. destruct (H s ltac:(lia)) as [H1 H2].
    assert (Hm : forall l, (S s <= l <= S s + m)%nat -> interface l) by (intros; apply H; lia).
    assert (EB : B (S s + m + 1)%nat = C0) by (rewrite <- HB; f_equal; lia).
    specialize (IH (S s) Hm EB). replace (S s + m + 1)%nat with (s + S m + 1)%nat in IH by lia.
    destruct (film omega (ns (S s)) _ _) as [[X D] P]. destruct IH as [I1 I2].
    set (aN := A (s + S m + 1)%nat) in *. fold (d (S s)).
    replace (RtoC 2) with (C1 + C1)%C by (apply Ceq; cbn; ring).
    assert (U : (((C1 + C1) * ns (S s)) * (A s * d s))%C = ((ns (S s) + ns s) * A (S s) + (ns (S s) - ns s) * (B (S s) * d (S s)))%C).
    { transitivity (((A s * d s + B s) * ns (S s)) + ((A s * d s - B s) * ns (S s)))%C; [ring|]. rewrite H1, H2. ring. }
    assert (V : (((C1 + C1) * ns (S s)) * B s)%C = ((ns (S s) - ns s) * A (S s) + (ns (S s) + ns s) * (B (S s) * d (S s)))%C).
    { transitivity (((A s * d s + B s) * ns (S s)) - ((A s * d s - B s) * ns (S s)))%C; [ring|]. rewrite H1, H2. ring. }
    split.
    + transitivity (d (S s) * P * (((C1 + C1) * ns (S s)) * (A s * d s)))%C; [ring|]. rewrite U.
      transitivity ((ns (S s) + ns s) * (P * (A (S s) * d (S s))) + (ns (S s) - ns s) * (d (S s) * d (S s) * (P * B (S s))))%C; [ring|].
      rewrite I1, I2. ring.
    + transitivity (d (S s) * P * (((C1 + C1) * ns (S s)) * B s))%C; [ring|]. rewrite V.
      transitivity ((ns (S s) - ns s) * (P * (A (S s) * d (S s))) + (ns (S s) + ns s) * (d (S s) * d (S s) * (P * B (S s))))%C; [ring|].
      rewrite I1, I2. ring.
Qed.
End Chain.

(** The transmitted factor never vanishes. *)
Lemma film_P omega nN : nN <> C0 -> forall l n, (forall n' t, In (n', t) l -> n' <> C0) ->
  snd (film omega n l nN) <> C0.
Proof.
  intros HN. assert (T2 : RtoC 2 <> C0) by (intros E; apply (f_equal fst) in E; cbn in E; lra).
  induction l as [|[n' t] l IH]; intros n H.
  - cbn. apply Cmul_neq_0; auto.
  - cbn [film]. specialize (IH n' (fun a b K => H a b (or_intror K))).
    destruct (film omega n' l nN) as [[X D] P]. cbn [snd] in *.
    repeat apply Cmul_neq_0; auto. apply (H n' t); left; auto. apply Cexp_neq_0.
Qed.

Lemma film_den omega n l nN (a u : C) :
  let '(X, D, P) := film omega n l nN in
  P <> C0 -> u <> C0 -> (P * u)%C = (D * a)%C -> D <> C0.
Proof.
  destruct (film omega n l nN) as [[X D] P]. intros HP Hu H1 E.
  rewrite E in H1. assert (Z : (P * u)%C = C0) by (rewrite H1; ring). revert Z. apply Cmul_neq_0; auto.
Qed.
Lemma film_ratio (X D P a b u : C) :
  P <> C0 -> D <> C0 -> (P * u)%C = (D * a)%C -> (P * b)%C = (X * a)%C ->
  b = (X / D * u)%C /\ a = (P / D * u)%C.
Proof.
  intros HP HD H1 H2. assert (Ea : a = (P / D * u)%C).
  { transitivity (D * a / D)%C; [field; auto|]. rewrite <- H1. field; auto. }
  split; [|exact Ea]. transitivity (P * b / P)%C; [field; auto|]. rewrite H2, Ea. field; auto.
Qed.

(** * Special cases *)
Lemma film_same omega n : forall l, (forall n' t, In (n', t) l -> n' = n) ->
  let '(X, D, P) := film omega n l n in
  X = C0 /\ (P = film_phase omega n (fold_right Rplus 0 (map snd l)) * D)%C.
Proof.
  induction l as [|[n' t] l IH]; intros H.
  - cbn. assert (E : film_phase omega n 0 = C1).
    { unfold film_phase. replace (Ci * (n * omega) * RtoC 0)%C with C0 by (apply Ceq; cbn; ring). apply Cexp_0. }
    rewrite E. split; [ring|]. replace (RtoC 2) with (C1 + C1)%C by (apply Ceq; cbn; ring). ring.
  - cbn [film map fold_right snd]. assert (n' = n) by (apply (H n' t); left; auto). subst n'.
    specialize (IH (fun a b K => H a b (or_intror K))). destruct (film omega n l n) as [[X D] P].
    destruct IH as [-> ->]. split; [ring|].
    assert (E : film_phase omega n (t + fold_right Rplus 0 (map snd l))
              = (film_phase omega n t * film_phase omega n (fold_right Rplus 0 (map snd l)))%C).
    { unfold film_phase. rewrite <- Cexp_add. f_equal. rewrite RtoC_add. ring. }
    rewrite E. replace (RtoC 2) with (C1 + C1)%C by (apply Ceq; cbn; ring). ring.
Qed.

Lemma film_fresnel omega n nN : film omega n [] nN = (nN - n, nN + n, RtoC 2 * nN)%C.
Proof. reflexivity. Qed.

(** Airy's formula for one film *)
Lemma film_airy omega n n1 t nN :
  (n1 + n <> C0)%C -> (nN + n1 <> C0)%C ->
  let '(X, D, P) := film omega n [(n1, t)] nN in
  let r01 := ((n1 - n) / (n1 + n))%C in let r12 := ((nN - n1) / (nN + n1))%C in
  let t01 := (RtoC 2 * n1 / (n1 + n))%C in let t12 := (RtoC 2 * nN / (nN + n1))%C in
  let d := film_phase omega n1 t in
  D <> C0 ->
  (X / D = (r01 + r12 * (d * d)) / (C1 + r01 * r12 * (d * d)) /\ P / D = t01 * t12 * d / (C1 + r01 * r12 * (d * d)))%C.
Proof.
  intros H1 H2. cbn [film]. cbv zeta. set (d := film_phase omega n1 t). intros HD.
  assert (E : (C1 + (n1 - n) / (n1 + n) * ((nN - n1) / (nN + n1)) * (d * d) =
     ((n1 + n) * (nN + n1) + (n1 - n) * (d * d * (nN - n1))) / ((n1 + n) * (nN + n1)))%C) by (field; auto).
  rewrite E. split; field; repeat split; auto.
Qed.
