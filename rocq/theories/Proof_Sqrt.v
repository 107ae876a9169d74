(** The complex square root and the choice of the mode number. *)
From Coq Require Import Reals Lra Psatz.
From Verif Require Import Base Cplx CplxLemmas Model_Modes.
Open Scope R_scope.

Lemma Cabs_Re z : - Cabs z <= Re z <= Cabs z.
Proof.
  pose proof (Cabs_sq z) as H. pose proof (Cabs_nonneg z) as P. unfold Cnorm2 in H.
  split; nra.
Qed.

Lemma Csqrt_sq z : Cmul (Csqrt z) (Csqrt z) = z.
Proof.
  pose proof (Cabs_Re z) as [A B]. pose proof (Cabs_sq z) as S. unfold Cnorm2 in S.
  unfold Csqrt. set (x := sqrt ((Cabs z + Re z) / 2)). set (y := sqrt ((Cabs z - Re z) / 2)).
  assert (X : x * x = (Cabs z + Re z) / 2) by (apply sqrt_sqrt; lra).
  assert (Y : y * y = (Cabs z - Re z) / 2) by (apply sqrt_sqrt; lra).
  assert (X0 : 0 <= x) by apply sqrt_pos. assert (Y0 : 0 <= y) by apply sqrt_pos.
  assert (XY : 2 * (x * y) = Rabs (Im z)).
  { assert (P0 : 0 <= x * y) by nra.
    assert (E : (2 * (x * y)) * (2 * (x * y)) = Im z * Im z).
    { replace ((2 * (x * y)) * (2 * (x * y))) with (4 * (x * x) * (y * y)) by ring. rewrite X, Y.
      replace (4 * ((Cabs z + Re z) / 2) * ((Cabs z - Re z) / 2)) with (Cabs z * Cabs z - Re z * Re z) by field.
      rewrite S. ring. }
    rewrite <- (Rabs_right (2 * (x * y))) by lra.
    apply Rsqr_eq_abs_0. exact E. }
  apply Ceq; unfold Cmul; cbn [Re Im fst snd].
  - destruct Rlt_dec; cbn; fold (Re z); nra.
  - destruct Rlt_dec as [H|H]; cbn.
    + rewrite Rabs_left in XY by exact H. fold (Im z). nra.
    + rewrite Rabs_right in XY by lra. fold (Im z). nra.
Qed.

Lemma Csqrt_Re z : 0 <= Re (Csqrt z).
Proof. unfold Csqrt; cbn. apply sqrt_pos. Qed.

(** The mode number of the square [w]: a root of [w] in the upper half plane; if
    real, not negative. *)
Lemma mode_number w :
  let q := branch_cut (Csqrt w) in
  Cmul q q = w /\ 0 <= Im q /\ (Im q = 0 -> 0 <= Re q).
Proof.
  cbn zeta. unfold branch_cut. destruct Rlt_dec as [H|H].
  - change (let q := Copp (Csqrt w) in Cmul q q = w /\ 0 <= Im q /\ (Im q = 0 -> 0 <= Re q)). cbn zeta.
    assert (E : Im (Copp (Csqrt w)) = - Im (Csqrt w)) by reflexivity. rewrite E.
    split; [|split; [lra|intros K; exfalso; lra]].
    rewrite <- (Csqrt_sq w) at 3. ring.
  - split; [apply Csqrt_sq|]. split; [exact (Rnot_lt_le _ _ H)|]. intros _. apply Csqrt_Re.
Qed.

(** ... and there is only one such number. *)
Lemma mode_number_unique (p q : C) :
  Cmul p p = Cmul q q -> 0 <= Im p -> 0 <= Im q -> (Im p = 0 -> 0 <= Re p) -> (Im q = 0 -> 0 <= Re q) -> p = q.
Proof.
  intros E P0 Q0 P1 Q1.
  assert (F : Cmul (Csub p q) (Cadd p q) = C0).
  { replace (Cmul (Csub p q) (Cadd p q)) with (Csub (Cmul p p) (Cmul q q)) by ring. rewrite E. ring. }
  destruct (Req_EM_T (Cnorm2 (Csub p q)) 0) as [H|H].
  { apply Cnorm2_zero in H. apply Csub_eq0. exact H. }
  assert (G : Cadd p q = C0).
  { destruct (Req_EM_T (Cnorm2 (Cadd p q)) 0) as [K|K]; [apply Cnorm2_zero; exact K|].
    exfalso. apply (Cmul_neq_0 (Csub p q) (Cadd p q)); auto; intros Z; rewrite Z in *; [apply H|apply K];
    unfold Cnorm2, C0; cbn; ring. }
  assert (R1 : Re p + Re q = 0) by (apply (f_equal fst) in G; exact G).
  assert (I1 : Im p + Im q = 0) by (apply (f_equal snd) in G; exact G).
  assert (Im p = 0 /\ Im q = 0) as [Ip Iq] by (split; lra).
  specialize (P1 Ip). specialize (Q1 Iq). apply Ceq; lra.
Qed.

Lemma mode_number_real (r : R) : 0 <= r -> branch_cut (Csqrt (RtoC (r * r))) = RtoC r.
Proof.
  intros H. destruct (mode_number (RtoC (r * r))) as (A & B & D). cbn zeta in *.
  apply mode_number_unique; auto.
  - rewrite A. apply RtoC_mul.
  - cbn; lra.
Qed.

(** Mode numbers of [eps * omega^2] with real positive [eps]. *)
Lemma mode_number_index (omega : C) (n : R) : 0 < n -> 0 <= Im omega -> (Im omega = 0 -> 0 <= Re omega) ->
  branch_cut (Csqrt (Cmul (RtoC (n * n)) (Cmul omega omega))) = Cmul (RtoC n) omega.
Proof.
  intros Hn H0 H1. destruct (mode_number (Cmul (RtoC (n * n)) (Cmul omega omega))) as (A & B & D). cbn zeta in *.
  apply mode_number_unique; auto.
  - rewrite A, RtoC_mul. ring.
  - cbn. nra.
  - cbn. intros H. assert (Im omega = 0) by nra. specialize (H1 H2). nra.
Qed.

(** Waves do not grow in the direction they travel. *)
Lemma wave_bounded (q : C) (z : R) : 0 <= Im q -> 0 <= z ->
  Cnorm2 (Cexp (Cmul (Cmul Ci q) (RtoC z))) <= 1.
Proof.
  intros Hq Hz. rewrite Cexp_norm2.
  assert (E : Re (Cmul (Cmul Ci q) (RtoC z)) = - (Im q * z)) by (cbn; unfold Im; ring).
  rewrite E, <- exp_plus, <- exp_0. assert (P : 0 <= Im q * z) by nra.
  destruct (Req_dec (Im q * z) 0) as [F|F].
  - right. f_equal. lra.
  - left. apply exp_increasing. lra.
Qed.
