(** The waves of one diffraction order in a uniform medium. *)
From Coq Require Import Reals Lra Psatz.
From Verif Require Import Cplx CplxLemmas.
Open Scope R_scope.

(** The electric field of one order: [u], [v] are the two components of the wave,
    [q] its mode number. *)
Definition order_Ex (omega q kx ky u v : C) (e : R) : C :=
  (omega * omega * (u / (omega * q)) - / RtoC e * (- ky * (- ky * (u / (omega * q)) + kx * (v / (omega * q)))))%C.
Definition order_Ey (omega q kx ky u v : C) (e : R) : C :=
  (omega * omega * (v / (omega * q)) - / RtoC e * (kx * (- ky * (u / (omega * q)) + kx * (v / (omega * q)))))%C.
Definition order_flux (omega q kx ky u v : C) (e : R) : R :=
  Re (Cconj (order_Ex omega q kx ky u v e) * u + Cconj (order_Ey omega q kx ky u v e) * v)%C.

Lemma order_flux_form (omega q u v : C) (x y e : R) : omega <> C0 -> q <> C0 -> 0 < e ->
  order_flux omega q (RtoC x) (RtoC y) u v e
  = Re (omega * Cconj q)%C / Cnorm2 q * (Cnorm2 u + Cnorm2 v)
    - Re (omega * q)%C / (Cnorm2 omega * Cnorm2 q * e) * Cnorm2 (RtoC x * v - RtoC y * u)%C.
Proof.
  intros Ho Hq He. pose proof (Cnorm2_pos _ Ho) as Po. pose proof (Cnorm2_pos _ Hq) as Pq.
  assert (E1 : forall z, (z / (omega * q))%C = (z * (Cconj (omega * q)) * RtoC (/ (Cnorm2 omega * Cnorm2 q)))%C).
  { intros [z1 z2]. unfold Cdiv, Cinv. rewrite Cnorm2_mul. destruct omega as [a b], q as [c d].
    apply Ceq; unfold Cnorm2 in *; cbn in *; field; lra. }
  unfold order_flux, order_Ex, order_Ey. rewrite !E1. clear E1.
  assert (E2 : (/ RtoC e)%C = RtoC (/ e)). { apply Ceq; unfold Cinv, Cnorm2; cbn; field; lra. }
  rewrite E2. clear E2.
  assert (Eo : Cnorm2 omega = Re omega * Re omega + Im omega * Im omega) by reflexivity.
  assert (Eq : Cnorm2 q = Re q * Re q + Im q * Im q) by reflexivity.
  set (M := Cnorm2 omega) in *. set (N := Cnorm2 q) in *. clearbody M N.
  destruct omega as [a b], q as [c d], u as [u1 u2], v as [v1 v2]; cbn in Eo, Eq.
  unfold Cnorm2; cbn. rewrite <- !Rminus_0_l.
  assert (H1 : forall r, r / N = r * (M * / (M * N))) by (intros r; field; lra).
  assert (H2 : forall r, r / (M * N * e) = r * / (M * N) * / e) by (intros r; field; lra).
  rewrite H1, H2. set (K := / (M * N)). clearbody K. clear H1 H2. subst M. ring.
Qed.

Lemma order_identity (omega q : C) (x y e : R) :
  (q * q)%C = (RtoC e * omega * omega - RtoC x * RtoC x - RtoC y * RtoC y)%C ->
  Re (omega * q)%C * (x * x + y * y) = (e * Cnorm2 omega - Cnorm2 q) * Re (omega * Cconj q)%C.
Proof.
  intros H. pose proof (f_equal Re H) as H1. pose proof (f_equal Im H) as H2.
  destruct omega as [a b], q as [c d]. unfold Cnorm2. cbn in *.
  assert (K : x * x + y * y = e * (a * a - b * b) - (c * c - d * d)) by nra.
  rewrite K.
  assert (K2 : c * d = e * (a * b)) by nra.
  transitivity ((e * (a * a + b * b) - (c * c + d * d)) * (a * c + b * d)); [|ring].
  apply Rminus_diag_uniq.
  transitivity (2 * (c * d - e * (a * b)) * (b * c + a * d)); [ring|rewrite K2; ring].
Qed.

(** A wave whose mode number lies in the same quadrant as the frequency carries no
    power backwards. *)
Lemma order_flux_nonneg (omega q u v : C) (x y e : R) : omega <> C0 -> q <> C0 -> 0 < e ->
  0 <= Re (omega * Cconj q)%C ->
  (q * q)%C = (RtoC e * omega * omega - RtoC x * RtoC x - RtoC y * RtoC y)%C ->
  0 <= order_flux omega q (RtoC x) (RtoC y) u v e.
Proof.
  intros Ho Hq He H Hqq. rewrite order_flux_form by assumption.
  pose proof (order_identity _ _ _ _ _ Hqq) as I.
  pose proof (Cnorm2_pos _ Ho) as Po. pose proof (Cnorm2_pos _ Hq) as Pq.
  set (M := Cnorm2 omega) in *. set (N := Cnorm2 q) in *.
  set (s := Re (omega * Cconj q)%C) in *. set (r := Re (omega * q)%C) in *.
  pose proof (Cnorm2_nonneg u) as Pu. pose proof (Cnorm2_nonneg v) as Pv.
  pose proof (Cnorm2_nonneg (RtoC x * v - RtoC y * u)%C) as Pw.
  pose proof (Cnorm2_nonneg (RtoC x * u + RtoC y * v)%C) as Pz.
  assert (L : Cnorm2 (RtoC x * v - RtoC y * u)%C = (x * x + y * y) * (Cnorm2 u + Cnorm2 v) - Cnorm2 (RtoC x * u + RtoC y * v)%C).
  { destruct u, v; unfold Cnorm2; cbn; ring. }
  set (U := Cnorm2 u + Cnorm2 v) in *. set (W := Cnorm2 (RtoC x * v - RtoC y * u)%C) in *.
  set (Z := Cnorm2 (RtoC x * u + RtoC y * v)%C) in *. clearbody M N s r W Z.
  assert (HU : 0 <= U) by (unfold U; lra). clearbody U.
  assert (Pk : 0 < / (M * N * e)). { apply Rinv_0_lt_compat. assert (0 < M * N) by nra. nra. }
  replace (s / N * U - r / (M * N * e) * W) with (/ (M * N * e) * (s * (M * e) * U - r * W)) by (field; lra).
  apply Rmult_le_pos; [lra|].
  destruct (Rle_dec r 0) as [Hr|Hr].
  - assert (0 <= s * (M * e) * U) by (apply Rmult_le_pos; [apply Rmult_le_pos; [|nra]|]; lra). nra.
  - rewrite L. replace (s * (M * e) * U - r * ((x * x + y * y) * U - Z))
      with ((s * (M * e) - r * (x * x + y * y)) * U + r * Z) by ring.
    rewrite I. replace (s * (M * e) - (e * M - N) * s) with (s * N) by ring.
    assert (0 <= r * Z) by nra. assert (0 <= s * N) by nra. nra.
Qed.

(** Mode numbers of the first quadrant *)
Lemma root_quadrant (omega q : C) (x y e : R) : 0 < e -> 0 <= Re omega -> 0 <= Im omega ->
  (q * q)%C = (RtoC e * omega * omega - RtoC x * RtoC x - RtoC y * RtoC y)%C ->
  0 <= Im q -> (Im q = 0 -> 0 <= Re q) -> 0 <= Re q /\ 0 <= Re (omega * Cconj q)%C.
Proof.
  intros He A B H Iq Rq. pose proof (f_equal Im H) as H2.
  assert (D : 0 <= Re q).
  { destruct (Rle_lt_or_eq_dec _ _ Iq) as [L|E]; [|apply Rq; auto].
    destruct omega as [a b], q as [c d]. cbn in *.
    assert (0 <= e * (a * b)) by (apply Rmult_le_pos; nra). assert (c * d = e * (a * b)) by nra. nra. }
  split; [assumption|]. destruct omega as [a b], q as [c d]. cbn in *.
  replace (a * c - b * - d) with (a * c + b * d) by ring. nra.
Qed.
