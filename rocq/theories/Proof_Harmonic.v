From Coq Require Import Reals ZArith List Bool Lra Lia Psatz.
From Verif Require Import Base BaseLemmas Cplx CplxLemmas Model_FDTD Spec_FDTD Proof_Propagate Proof_Wave Spec_Harmonic.
Import ListNotations.
Open Scope R_scope.

(** ** Boundaries and sources outside the columns *)

Definition outside (N : shape3) (lo hi : nat) (b : boundary) : Prop :=
  match b with
  | Periodic a => a = AY
  | PMLb pm => p_axis pm = AX /\ if p_high pm then (hi < N AX - p_thick pm)%nat else (p_thick pm <= lo)%nat
  | _ => True end.

Definition column_field (N : shape3) (lo hi : nat) (F : field) (W : nat -> axis -> R) : Prop :=
  forall p c, in_grid N p -> (lo <= coord AX p <= hi)%nat -> F p c = W (coord AX p) c.

Lemma outside_pml N lo hi pm p : outside N lo hi (PMLb pm) -> in_grid N p -> (lo <= coord AX p <= hi)%nat -> in_pml N pm p = false.
Proof.
  intros [Ax O] G L. unfold in_pml, pml_offset. rewrite Ax. destruct (p_high pm).
  - apply andb_false_iff. left. apply Nat.leb_gt. lia.
  - apply andb_false_iff. right. apply Nat.ltb_ge. lia.
Qed.

Lemma in_grid_row N p v : in_grid N p -> (v < N AY)%nat -> in_grid N (setc AY v p).
Proof. intros G H a. rewrite coord_setc. destruct a; cbn [axis_eqb]; [apply G|exact H|apply G]. Qed.

Lemma boundaries_E N lo hi lo' hi' co ie W bs : Forall (outside N lo hi) bs -> (lo <= lo')%nat -> (hi' <= hi)%nat -> forall F,
  column_field N lo' hi' F W -> column_field N lo' hi' (fold_left (fun E b => boundary_update_E N co ie b E) bs F) W.
Proof.
  intros O L1 L2. induction O as [|b bs Ob Os IH]; intros F HF; [exact HF|]. cbn [fold_left]. apply IH. clear IH.
  intros p c G L. destruct b as [a| |pm|]; cbn [boundary_update_E]; try (apply HF; assumption).
  - cbn in Ob. subst a. destruct (coord AY p =? 0)%nat; [|apply HF; assumption].
    rewrite HF.
    + rewrite coord_setc. reflexivity.
    + apply in_grid_row; [exact G|]. specialize (G AY). lia.
    + rewrite coord_setc. exact L.
  - rewrite (outside_pml N lo hi) by (try assumption; lia). apply HF; assumption.
Qed.
Lemma boundaries_H N lo hi lo' hi' co im W bs : Forall (outside N lo hi) bs -> (lo <= lo')%nat -> (hi' <= hi)%nat -> forall F,
  column_field N lo' hi' F W -> column_field N lo' hi' (fold_left (fun H b => boundary_update_H N co im b H) bs F) W.
Proof.
  intros O L1 L2. induction O as [|b bs Ob Os IH]; intros F HF; [exact HF|]. cbn [fold_left]. apply IH. clear IH.
  intros p c G L. destruct b as [a| |pm|]; cbn [boundary_update_H]; try (apply HF; assumption).
  - cbn in Ob. subst a. destruct (coord AY p =? N AY - 1)%nat; [|apply HF; assumption].
    rewrite HF.
    + rewrite coord_setc. reflexivity.
    + apply in_grid_row; [exact G|]. specialize (G AY). lia.
    + rewrite coord_setc. exact L.
  - rewrite (outside_pml N lo hi) by (try assumption; lia). apply HF; assumption.
Qed.

Lemma phi_E_outside N lo hi H bs : forall bs', map_res (boundary_phi_E N H) bs = Ok bs' -> Forall (outside N lo hi) bs -> Forall (outside N lo hi) bs'.
Proof.
  induction bs as [|b bs IH]; intros bs' M O; cbn [map_res] in M; [injection M as <-; constructor|].
  destruct (boundary_phi_E N H b) as [b'|] eqn:B; [|discriminate]. cbn [bind] in M.
  destruct (map_res _ bs) as [r|]; [|discriminate]. cbn [bind] in M. injection M as <-.
  inversion O as [|? ? O1 O2]; subst. constructor; [|apply IH; [reflexivity|exact O2]].
  destruct b; cbn [boundary_phi_E] in B; try (injection B as <-; exact O1); try discriminate.
  destruct (_ <=? _)%nat; [|discriminate]. injection B as <-. exact O1.
Qed.
Lemma phi_H_outside N lo hi H bs : forall bs', map_res (boundary_phi_H N H) bs = Ok bs' -> Forall (outside N lo hi) bs -> Forall (outside N lo hi) bs'.
Proof.
  induction bs as [|b bs IH]; intros bs' M O; cbn [map_res] in M; [injection M as <-; constructor|].
  destruct (boundary_phi_H N H b) as [b'|] eqn:B; [|discriminate]. cbn [bind] in M.
  destruct (map_res _ bs) as [r|]; [|discriminate]. cbn [bind] in M. injection M as <-.
  inversion O as [|? ? O1 O2]; subst. constructor; [|apply IH; [reflexivity|exact O2]].
  destruct b; cbn [boundary_phi_H] in B; try (injection B as <-; exact O1); try discriminate.
  destruct (_ <=? _)%nat; [|discriminate]. injection B as <-. exact O1.
Qed.

Definition source_outside (N : shape3) (lo hi : nat) (s : source) : Prop :=
  exists x0, source_in_plane N AX x0 s /\ ~ (lo <= x0 <= hi)%nat.
Lemma sources_E N lo hi lo' hi' q ss : Forall (source_outside N lo hi) ss -> (lo <= lo')%nat -> (hi' <= hi)%nat -> forall F F' W,
  fold_res (source_update_E N q) ss F = Ok F' -> column_field N lo' hi' F W -> column_field N lo' hi' F' W.
Proof.
  intros O L1 L2. induction O as [|s ss (x0 & Pl & Out) Os IH]; intros F F' W HF C0; cbn [fold_res] in HF; [injection HF as <-; exact C0|].
  destruct (source_update_E N q s F) as [F1|] eqn:U; [|discriminate]. cbn [bind] in HF. apply (IH F1 F' W HF).
  pose proof (plane_source_E N AX x0 (fun p => lo' <= coord AX p <= hi')%nat q s F F1) as A.
  intros p c G L. rewrite <- (C0 p c G L). apply A; try assumption. intros r Hr. lia.
Qed.
Lemma sources_H N lo hi q ss : Forall (source_outside N lo hi) ss -> forall F F',
  fold_res (source_update_H N q) ss F = Ok F' -> F' = F.
Proof.
  induction 1 as [|s ss (x0 & Pl & Out) Os IH]; intros F F' HF; cbn [fold_res] in HF; [injection HF as <-; reflexivity|].
  rewrite (plane_source_H N AX x0 q s F Pl) in HF. cbn [bind] in HF. apply IH, HF.
Qed.

(** ** One step *)

Definition EW (w : R) (A : nat -> C) (n : nat) (x : nat) (c : axis) : R :=
  match c with AZ => Re (A x * Cis (- (w * INR n)))%C | _ => 0 end.
Definition HW (co w : R) (A : nat -> C) (n : nat) (x : nat) (c : axis) : R :=
  match c with
  | AY => Re (Ci * RtoC (co / (2 * sin (w / 2))) * (A (S x) - A x) * Cis (- (w * (INR n + / 2))))%C
  | _ => 0
  end.

Lemma col_dbwd_x N lo hi F W c p : column_field N lo hi F W -> in_grid N p -> (S lo <= coord AX p <= hi)%nat ->
  dbwd F AX c p = W (coord AX p) c - W (coord AX p - 1)%nat c.
Proof.
  intros HF G L. unfold dbwd. destruct (Nat.leb_spec 1 (coord AX p)) as [_|X]; [|lia].
  rewrite !HF; try assumption; try lia.
  - rewrite coord_setc. reflexivity.
  - intros a. rewrite coord_setc. destruct a; cbn [axis_eqb]; try apply G. specialize (G AX). lia.
  - rewrite coord_setc. cbn [axis_eqb]. lia.
Qed.
Lemma col_dbwd_0 N lo hi F W b c p : column_field N lo hi F W -> in_grid N p -> (lo <= coord AX p <= hi)%nat -> b <> AX -> dbwd F b c p = 0.
Proof.
  intros HF G L Hb. unfold dbwd. destruct (Nat.leb_spec 1 (coord b p)) as [X|X]; [|reflexivity].
  rewrite !HF; try assumption; try lia.
  - rewrite coord_setc. destruct b; [congruence| |]; cbn [axis_eqb]; ring.
  - intros a. rewrite coord_setc. pose proof (G a) as Ga. destruct a, b; cbn [axis_eqb]; try exact Ga; lia.
  - rewrite coord_setc. destruct b; [congruence| |]; cbn [axis_eqb]; exact L.
Qed.
Lemma col_dfwd_x N lo hi F W c p : column_field N lo hi F W -> in_grid N p -> (lo <= coord AX p < hi)%nat -> (hi < N AX)%nat ->
  dfwd N F AX c p = W (S (coord AX p)) c - W (coord AX p) c.
Proof.
  intros HF G L Hh. unfold dfwd. destruct (Nat.ltb_spec (S (coord AX p)) (N AX)) as [_|X]; [|lia].
  rewrite !HF; try assumption; try lia.
  - rewrite coord_setc. reflexivity.
  - intros a. rewrite coord_setc. destruct a; cbn [axis_eqb]; try apply G. lia.
  - rewrite coord_setc. cbn [axis_eqb]. lia.
Qed.
Lemma col_dfwd_0 N lo hi F W b c p : column_field N lo hi F W -> in_grid N p -> (lo <= coord AX p <= hi)%nat -> b <> AX -> dfwd N F b c p = 0.
Proof.
  intros HF G L Hb. unfold dfwd. destruct (Nat.ltb_spec (S (coord b p)) (N b)) as [X|X]; [|reflexivity].
  rewrite !HF; try assumption; try lia.
  - rewrite coord_setc. destruct b; [congruence| |]; cbn [axis_eqb]; ring.
  - intros a. rewrite coord_setc. pose proof (G a) as Ga. destruct a, b; cbn [axis_eqb]; try exact Ga; exact X.
  - rewrite coord_setc. destruct b; [congruence| |]; cbn [axis_eqb]; exact L.
Qed.

(** the time factors around half a step *)
Lemma cis_back w n : Cis (- (w * INR n)) = (Cis (- (w * (INR n + / 2))) * Cis (w / 2))%C.
Proof. rewrite <- Cis_add. f_equal. field. Qed.
Lemma cis_forth w n : Cis (- (w * INR (S n))) = (Cis (- (w * (INR n + / 2))) * Cis (- (w / 2)))%C.
Proof. rewrite <- Cis_add. f_equal. rewrite S_INR. field. Qed.

Lemma E_equation co w e s A n x : sin (w / 2) <> 0 -> co <> 0 -> e <> 0 -> 1 + s <> 0 ->
  balanced co w (fun _ => e) (fun _ => s) A x -> (1 <= x)%nat ->
  EW w A n x AZ * ((1 - s) / (1 + s)) + co * / e * (HW co w A n x AY - HW co w A n (x - 1) AY) / (1 + s) = EW w A (S n) x AZ.
Proof.
  intros HS HC He Hs B Hx. unfold EW, HW. replace (S (x - 1)) with x by lia. unfold balanced in B.
  rewrite cis_back, cis_forth. set (T := Cis (- (w * (INR n + / 2)))).
  assert (B' : (A (S x) - A x - (A x - A (x - 1)%nat))%C = (- RtoC (4 * sin (w / 2) * e / co ^ 2) * (sin (w / 2), (s * cos (w / 2))%R) * A x)%C).
  { replace (A (S x) - A x - (A x - A (x - 1)%nat))%C with ((A (S x) + A (x - 1)%nat) - RtoC 2 * A x)%C.
    - rewrite B. ring.
    - change (RtoC 2) with (1 + 1, 0)%R. replace ((1 + 1)%R, 0) with (C1 + C1)%C by (apply Ceq; cbn; ring). ring. }
  set (a := A x) in *. set (d1 := (A (S x) - a)%C) in *. set (d0 := (a - A (x - 1)%nat)%C) in *.
  assert (D : forall z : C, Re (Ci * RtoC (co / (2 * sin (w / 2))) * d1 * z)%C - Re (Ci * RtoC (co / (2 * sin (w / 2))) * d0 * z)%C
     = Re (Ci * RtoC (co / (2 * sin (w / 2))) * (d1 - d0) * z)%C).
  { intros z. destruct d1, d0, z. cbn. ring. }
  rewrite D, B'. destruct a as [a1 a2], T as [t1 t2]. cbn. rewrite cos_neg, sin_neg. set (S0 := sin (w / 2)) in *. set (c0 := cos (w / 2)) in *.
  field. repeat split; assumption.
Qed.

Lemma H_equation co w A n x : sin (w / 2) <> 0 ->
  HW co w A n x AY + co * 1 * (EW w A (S n) (S x) AZ - EW w A (S n) x AZ) = HW co w A (S n) x AY.
Proof.
  intros HS. unfold EW, HW.
  assert (T1 : Cis (- (w * (INR n + / 2))) = (Cis (- (w * INR (S n))) * Cis (w / 2))%C) by (rewrite <- Cis_add; f_equal; rewrite S_INR; field).
  assert (T2 : Cis (- (w * (INR (S n) + / 2))) = (Cis (- (w * INR (S n))) * Cis (- (w / 2)))%C) by (rewrite <- Cis_add; f_equal; field).
  rewrite T1, T2. set (T := Cis (- (w * INR (S n)))). destruct (A (S x)) as [b1 b2], (A x) as [a1 a2], T as [t1 t2]. cbn. rewrite cos_neg, sin_neg.
  set (S0 := sin (w / 2)) in *. set (c0 := cos (w / 2)). field. exact HS.
Qed.
