(** Adjoint curls, energy balance and stability of the FDTD step. *)
From Coq Require Import Reals ZArith String List Bool Lra Lia Psatz FunctionalExtensionality.
From Verif Require Import Base BaseLemmas Model_FDTD Model_Register Spec_FDTD Proof_Torus Proof_FDTD.
Import ListNotations.
Open Scope R_scope.

Section Box.
Variable N : shape3.
Variable per : axis -> bool.
Hypothesis Hper : forall a, per a = true -> (1 < N a)%nat.

Let M : shape3 := H_hi per N.

(** Folding the last layer of a periodic pair onto the first. *)
Definition wrap1 (a : axis) (p : pos) : pos :=
  if per a && (coord a p =? N a - 1)%nat then setc a 0%nat p else p.
Definition wrap (p : pos) : pos := wrap1 AX (wrap1 AY (wrap1 AZ p)).

Definition wrapc (a : axis) (x : nat) : nat :=
  if per a && (x =? N a - 1)%nat then 0%nat else x.

Lemma coord_wrap1 a b p : coord a (wrap1 b p) = if axis_eqb a b then wrapc a (coord a p) else coord a p.
Proof.
  unfold wrap1, wrapc. destruct (axis_eqb_spec a b) as [->|].
  - destruct (per b && _)%bool; [apply coord_setc_same|reflexivity].
  - destruct (per b && _)%bool; [apply coord_setc_other; auto|reflexivity].
Qed.
Lemma coord_wrap a p : coord a (wrap p) = wrapc a (coord a p).
Proof. unfold wrap. rewrite !coord_wrap1. destruct a; reflexivity. Qed.

Lemma wrap1_in a p : in_grid N p -> in_grid N (wrap1 a p).
Proof.
  intros H b. rewrite coord_wrap1. specialize (H b). unfold wrapc.
  destruct (axis_eqb b a); [|exact H].
  destruct (per b && _)%bool eqn:E; [|exact H]. lia.
Qed.

Lemma wrap1_val a F p c : periodic_ok per N F -> in_grid N p -> F (wrap1 a p) c = F p c.
Proof.
  intros HF Hp. unfold wrap1. destruct (per a) eqn:Ea; cbn; [|reflexivity].
  destruct (Nat.eqb_spec (coord a p) (N a - 1)) as [E|]; [|reflexivity].
  rewrite (HF a Ea (setc a 0%nat p) c).
  - rewrite setc_setc, <- E, setc_coord. reflexivity.
  - intros b. rewrite coord_setc. destruct (axis_eqb_spec b a) as [->|]; [|apply Hp].
    pose proof (Hper a Ea); lia.
  - apply coord_setc_same.
Qed.
Lemma wrap_val F p c : periodic_ok per N F -> in_grid N p -> F (wrap p) c = F p c.
Proof.
  intros HF Hp. unfold wrap.
  rewrite !wrap1_val; auto; repeat apply wrap1_in; exact Hp.
Qed.

Lemma inT_in_grid p : inT M p -> in_grid N p.
Proof.
  intros H a. specialize (H a). unfold M, H_hi in H. destruct (per a); lia.
Qed.

Lemma setc_in_grid a v p : in_grid N p -> (v < N a)%nat -> in_grid N (setc a v p).
Proof.
  intros Hp Hv b. rewrite coord_setc. destruct (axis_eqb_spec b a) as [->|]; auto.
Qed.

(** The forward difference in the box is the one on the periodic box, unless we
    stand on the high side of a wall. *)
Lemma dfwd_torus E b c p : periodic_ok per N E -> inT M p ->
  dfwd N E b c p = dl M b (fun q => E q c) p
  \/ (per b = false /\ (1 < N b)%nat /\ coord b p = (N b - 1)%nat /\ dfwd N E b c p = 0).
Proof.
  intros HE Hp. pose proof (inT_in_grid p Hp) as Hg. pose proof (Hp b) as Hb. pose proof (Hg b) as Hgb.
  unfold dfwd, dl, nxt. unfold M, H_hi in *.
  destruct (per b) eqn:Eb.
  - left. pose proof (Hper b Eb).
    destruct (Nat.ltb_spec (S (coord b p)) (N b)) as [H1|H1]; [|lia].
    destruct (Nat.eqb_spec (S (coord b p)) (N b - 1)) as [E1|E1]; [|reflexivity].
    rewrite (HE b Eb (setc b 0%nat p) c).
    + rewrite setc_setc, <- E1. reflexivity.
    + apply setc_in_grid; [exact Hg|lia].
    + apply coord_setc_same.
  - destruct (Nat.ltb_spec (S (coord b p)) (N b)) as [H1|H1].
    + left. destruct (Nat.eqb_spec (S (coord b p)) (N b)); [lia|reflexivity].
    + destruct (Nat.leb_spec (N b) 1) as [H2|H2].
      * left. destruct (Nat.eqb_spec (S (coord b p)) (N b)) as [E1|]; [|lia].
        assert (coord b p = 0%nat) as E0 by lia.
        rewrite <- E0, setc_coord. ring.
      * right. repeat split; lia.
Qed.

(** The backward difference at an electric cell, seen from the wrapped cell. *)
Lemma dbwd_torus H b c p : periodic_ok per N H ->
  (forall a, (E_lo per a <= coord a p < E_hi N a)%nat) ->
  dbwd H b c p = - dm M b (fun q => H q c) (wrap p)
  \/ (per b = false /\ (1 < N b)%nat /\ coord b p = 0%nat /\ dbwd H b c p = 0).
Proof.
  intros HH Hp. assert (Hg : in_grid N p) by (intros a; apply (Hp a)).
  pose proof (Hp b) as Hb. unfold E_lo, E_hi in Hb.
  unfold dbwd, dm.
  assert (K : forall x, (x < N b)%nat -> coord b (setc b x p) = x ->
     wrap (setc b x p) = prv M b (wrap p) ->
     H (setc b x p) c = H (prv M b (wrap p)) c).
  { intros x Hx _ E. rewrite <- E. symmetry. apply wrap_val; [exact HH|].
    apply setc_in_grid; auto. }
  assert (W : forall x, wrapc b x = (if (wrapc b (coord b p) =? 0)%nat then M b - 1
                  else wrapc b (coord b p) - 1)%nat -> wrap (setc b x p) = prv M b (wrap p)).
  { intros x E. apply pos_ext. intros a. unfold prv. rewrite coord_wrap, !coord_setc, !coord_wrap.
    destruct (axis_eqb_spec a b) as [->|]; [exact E|reflexivity]. }
  destruct (Nat.leb_spec 1 (coord b p)) as [H1|H1].
  - left. rewrite (wrap_val H p c HH Hg).
    rewrite (K (coord b p - 1)%nat); [ring|lia|apply coord_setc_same|].
    apply W. unfold wrapc, M, H_hi. destruct (per b) eqn:Eb; cbn [andb].
    + pose proof (Hper b Eb).
      destruct (Nat.eqb_spec (coord b p) (N b - 1)) as [E1|E1].
      * destruct (Nat.eqb_spec (coord b p - 1) (N b - 1)); cbn; lia.
      * destruct (Nat.eqb_spec (coord b p - 1) (N b - 1)); [lia|].
        destruct (Nat.eqb_spec (coord b p) 0); lia.
    + destruct (Nat.eqb_spec (coord b p) 0); lia.
  - assert (E0 : coord b p = 0%nat) by lia.
    destruct (per b) eqn:Eb; [lia|].
    destruct (Nat.leb_spec (N b) 1) as [H2|H2].
    + left. rewrite (wrap_val H p c HH Hg).
      assert (prv M b (wrap p) = wrap p) as ->; [|rewrite (wrap_val H p c HH Hg); ring].
      apply pos_ext. intros a. unfold prv. rewrite !coord_setc, !coord_wrap.
      destruct (axis_eqb_spec a b) as [->|]; [|reflexivity].
      unfold wrapc, M, H_hi. rewrite Eb. cbn [andb]. rewrite E0. cbn. lia.
    + right. repeat split; auto.
Qed.

Lemma pair_H_torus E H : closed_E per N E -> closed_H per N H ->
  pair_H per N H (curl_E N E) = T M (fun p => sum3 (fun c => H p c * curlT M E p c)).
Proof.
  intros [HpE HwE] [HpH HwH]. apply box_sum_ext. intros p Hp.
  pose proof (inT_in_grid p Hp) as Hg.
  assert (K : forall b c d, c <> b -> H p c * dfwd N E b d p = H p c * dl M b (fun q => E q d) p).
  { intros b c d Hcb. destruct (dfwd_torus E b d p HpE Hp) as [-> | (Eb & H1 & H2 & ->)]; [reflexivity|].
    destruct (HwH b Eb H1 p Hg) as [_ Hh]. rewrite (Hh H2 c Hcb). ring. }
  unfold sum3, curl_E, curlT; cbv zeta.
  rewrite !Rmult_minus_distr_l, !K by discriminate. reflexivity.
Qed.

Lemma pair_E_torus E H : closed_E per N E -> closed_H per N H ->
  pair_E per N E (curl_H H) = T M (fun p => sum3 (fun c => E p c * curlT' M H p c)).
Proof.
  intros [HpE HwE] [HpH HwH].
  unfold T. rewrite <- (box_sum_reindex (E_lo per) (E_hi N) (fun _ => 0%nat) M wrap).
  - apply box_sum_ext. intros p Hp.
    assert (Hg : in_grid N p) by (intros a; apply (Hp a)).
    rewrite <- !(wrap_val E p _ HpE Hg) || idtac.
    assert (K : forall b c d, c <> b ->
       E p c * dbwd H b d p = - (E (wrap p) c * dm M b (fun q => H q d) (wrap p))).
    { intros b c d Hcb. rewrite (wrap_val E p c HpE Hg).
      destruct (dbwd_torus H b d p HpH Hp) as [-> | (Eb & H1 & H2 & ->)]; [ring|].
      destruct (HwE b Eb H1 p Hg) as [Hh _]. rewrite (Hh H2 c Hcb). ring. }
    unfold sum3, curl_H, curlT'; cbv zeta.
    rewrite !Rmult_minus_distr_l, !K by discriminate. ring.
  - intros p Hp a. rewrite coord_wrap. specialize (Hp a). unfold wrapc, M, H_hi, E_lo, E_hi in *.
    destruct (per a) eqn:Ea; cbn [andb].
    + pose proof (Hper a Ea). destruct (Nat.eqb_spec (coord a p) (N a - 1)); lia.
    + lia.
  - intros p q Hp Hq E1. apply pos_ext. intros a.
    assert (E2 : coord a (wrap p) = coord a (wrap q)) by congruence.
    rewrite !coord_wrap in E2. specialize (Hp a). specialize (Hq a).
    unfold wrapc, E_lo, E_hi in *. destruct (per a) eqn:Ea; cbn [andb] in *; [|exact E2].
    destruct (Nat.eqb_spec (coord a p) (N a - 1)), (Nat.eqb_spec (coord a q) (N a - 1)); lia.
  - intros a. unfold E_hi, E_lo, M, H_hi. destruct (per a); lia.
Qed.

Lemma curl_adjoint E H : closed_E per N E -> closed_H per N H ->
  pair_H per N H (curl_E N E) = pair_E per N E (curl_H H).
Proof.
  intros HE HH. rewrite pair_H_torus, pair_E_torus by assumption. apply curlT_adjoint.
Qed.

(** Electric sums over independent cells and over the periodic box agree. *)
Lemma E_sum_torus (E : field) : periodic_ok per N E ->
  box_sum (E_lo per) (E_hi N) (fun p => sum3 (fun c => E p c ^ 2))
  = T M (fun p => sum3 (fun c => E p c ^ 2)).
Proof.
  intros HE. unfold T. rewrite <- (box_sum_reindex (E_lo per) (E_hi N) (fun _ => 0%nat) M wrap).
  - apply box_sum_ext. intros p Hp.
    assert (Hg : in_grid N p) by (intros a; apply (Hp a)).
    unfold sum3. rewrite !(wrap_val E p _ HE Hg). reflexivity.
  - intros p Hp a. rewrite coord_wrap. specialize (Hp a). unfold wrapc, M, H_hi, E_lo, E_hi in *.
    destruct (per a) eqn:Ea; cbn [andb].
    + pose proof (Hper a Ea). destruct (Nat.eqb_spec (coord a p) (N a - 1)); lia.
    + lia.
  - intros p q Hp Hq E1. apply pos_ext. intros a.
    assert (E2 : coord a (wrap p) = coord a (wrap q)) by congruence.
    rewrite !coord_wrap in E2. specialize (Hp a). specialize (Hq a).
    unfold wrapc, E_lo, E_hi in *. destruct (per a) eqn:Ea; cbn [andb] in *; [|exact E2].
    destruct (Nat.eqb_spec (coord a p) (N a - 1)), (Nat.eqb_spec (coord a q) (N a - 1)); lia.
  - intros a. unfold E_hi, E_lo, M, H_hi. destruct (per a); lia.
Qed.

Lemma dimT_le : (dimT M <= sim_dim N)%nat.
Proof.
  unfold dimT, sim_dim, M, H_hi.
  assert (K : forall a, ((if (1 <? (if per a then N a - 1 else N a))%nat then 1 else 0)
                        <= (if (1 <? N a)%nat then 1 else 0))%nat).
  { intros a. destruct (per a); destruct (Nat.ltb_spec 1 (N a - 1)), (Nat.ltb_spec 1 (N a)); lia. }
  pose proof (K AX). pose proof (K AY). pose proof (K AZ). lia.
Qed.

Lemma coupling_box E H : closed_E per N E -> closed_H per N H ->
  Rabs (pair_H per N H (curl_E N E))
  <= sqrt (INR (sim_dim N)) *
     (box_sum (E_lo per) (E_hi N) (fun p => sum3 (fun c => E p c ^ 2))
      + box_sum H_lo (H_hi per N) (fun p => sum3 (fun c => H p c ^ 2))).
Proof.
  intros HE HH. rewrite pair_H_torus by assumption. rewrite E_sum_torus by apply HE.
  eapply Rle_trans; [apply coupling_bound|].
  apply Rmult_le_compat_r.
  - apply Rplus_le_le_0_compat; apply box_sum_nonneg; intros p _.
    + apply (sum3_sq_nonneg (E p)).
    + apply (sum3_sq_nonneg (H p)).
  - apply sqrt_le_1_alt, le_INR, dimT_le.
Qed.
End Box.

(** * Periodic copies *)

Lemma periodic_on_gt bs N a : periodic_on bs N a = true -> (1 < N a)%nat.
Proof. unfold periodic_on. intros H. apply andb_prop in H as [_ H]. apply Nat.ltb_lt, H. Qed.

Lemma periodic_on_in bs N a : In (Periodic a) bs -> (1 < N a)%nat -> periodic_on bs N a = true.
Proof.
  intros Hin HN. unfold periodic_on. apply andb_true_intro. split; [|apply Nat.ltb_lt, HN].
  apply existsb_exists. exists (Periodic a). split; [exact Hin|apply axis_eqb_refl].
Qed.

Lemma periodic_on_inv bs N a : periodic_on bs N a = true -> In (Periodic a) bs.
Proof.
  unfold periodic_on. intros H. apply andb_prop in H as [H _].
  apply existsb_exists in H as (b & Hin & Hb). destruct b; cbn in Hb; try discriminate.
  destruct (axis_eqb_spec a a0); [subst; exact Hin|discriminate].
Qed.

Lemma setc_in_grid' N a v p : in_grid N p -> (v < N a)%nat -> in_grid N (setc a v p).
Proof.
  intros Hp Hv b. rewrite coord_setc. destruct (axis_eqb_spec b a) as [->|]; auto.
Qed.

Definition per_on (N : shape3) (F : field) (a : axis) : Prop :=
  forall p c, in_grid N p -> coord a p = 0%nat -> F p c = F (setc a (N a - 1) p) c.

Section Copies.
Variables (N : shape3) (c : R) (m : field).
Let copyE := boundary_update_E N c m.
Let copyH := boundary_update_H N c m.

Lemma copyE_keeps a b F : per_on N F a -> per_on N (copyE (Periodic b) F) a.
Proof.
  intros HF p d Hp Ha. unfold copyE, boundary_update_E.
  destruct (axis_eqb_spec a b) as [<-|Hab].
  - rewrite Ha. cbn [Nat.eqb]. rewrite coord_setc_same, setc_setc.
    destruct (Nat.eqb_spec (N a - 1) 0) as [E|E]; [rewrite E|]; reflexivity.
  - rewrite (coord_setc_other b a) by auto.
    destruct (coord b p =? 0)%nat.
    + rewrite (setc_comm b a) by auto. apply HF.
      * apply setc_in_grid'; [exact Hp|]. specialize (Hp b); lia.
      * rewrite coord_setc_other by auto. exact Ha.
    + apply HF; assumption.
Qed.
Lemma copyE_gains b F : per_on N (copyE (Periodic b) F) b.
Proof.
  intros p d Hp Ha. unfold copyE, boundary_update_E. rewrite Ha. cbn [Nat.eqb].
  rewrite coord_setc_same, setc_setc.
  destruct (Nat.eqb_spec (N b - 1) 0) as [E|E]; [rewrite E|]; reflexivity.
Qed.
Lemma copyH_keeps a b F : per_on N F a -> per_on N (copyH (Periodic b) F) a.
Proof.
  intros HF p d Hp Ha. unfold copyH, boundary_update_H.
  destruct (axis_eqb_spec a b) as [<-|Hab].
  - rewrite coord_setc_same, setc_setc, Nat.eqb_refl, Ha.
    rewrite <- Ha at 2 3 4 || idtac.
    assert (setc a 0%nat p = p) as E by (rewrite <- Ha; apply setc_coord). rewrite E.
    destruct (0 =? N a - 1)%nat; reflexivity.
  - rewrite (coord_setc_other b a) by auto.
    destruct (coord b p =? N b - 1)%nat.
    + rewrite (setc_comm b a) by auto. apply HF.
      * apply setc_in_grid'; [exact Hp|]. specialize (Hp b); lia.
      * rewrite coord_setc_other by auto. exact Ha.
    + apply HF; assumption.
Qed.
Lemma copyH_gains b F : per_on N (copyH (Periodic b) F) b.
Proof.
  intros p d Hp Ha. unfold copyH, boundary_update_H.
  rewrite coord_setc_same, setc_setc, Nat.eqb_refl, Ha.
  assert (setc b 0%nat p = p) as E by (rewrite <- Ha; apply setc_coord). rewrite E.
  destruct (0 =? N b - 1)%nat; reflexivity.
Qed.

Lemma copies_E_periodic bs : no_pml bs -> forall F a,
  per_on N F a \/ In (Periodic a) bs ->
  per_on N (fold_left (fun F b => copyE b F) bs F) a.
Proof.
  induction 1 as [|b bs Hb _ IH]; intros F a Ha; cbn [fold_left].
  - destruct Ha as [Ha|[]]; exact Ha.
  - apply IH. destruct Ha as [Ha|[->|Ha]].
    + left. destruct b; cbn in Hb; try contradiction; [apply copyE_keeps, Ha|exact Ha].
    + left. apply copyE_gains.
    + right; exact Ha.
Qed.
Lemma copies_H_periodic bs : no_pml bs -> forall F a,
  per_on N F a \/ In (Periodic a) bs ->
  per_on N (fold_left (fun F b => copyH b F) bs F) a.
Proof.
  induction 1 as [|b bs Hb _ IH]; intros F a Ha; cbn [fold_left].
  - destruct Ha as [Ha|[]]; exact Ha.
  - apply IH. destruct Ha as [Ha|[->|Ha]].
    + left. destruct b; cbn in Hb; try contradiction; [apply copyH_keeps, Ha|exact Ha].
    + left. apply copyH_gains.
    + right; exact Ha.
Qed.

(** Cells that are not copy targets keep their value. *)
Lemma copies_E_keep bs : no_pml bs -> forall F p d,
  (forall a, In (Periodic a) bs -> coord a p <> 0%nat) ->
  fold_left (fun F b => copyE b F) bs F p d = F p d.
Proof.
  induction 1 as [|b bs Hb _ IH]; intros F p d Hp; cbn [fold_left]; [reflexivity|].
  rewrite IH by (intros a Ha; apply Hp; right; exact Ha).
  destruct b; cbn in Hb; try contradiction; [|reflexivity].
  unfold copyE, boundary_update_E. destruct (Nat.eqb_spec (coord a p) 0); [|reflexivity].
  exfalso. apply (Hp a); [left; reflexivity|assumption].
Qed.
Lemma copies_H_keep bs : no_pml bs -> forall F p d,
  (forall a, In (Periodic a) bs -> coord a p <> (N a - 1)%nat) ->
  fold_left (fun F b => copyH b F) bs F p d = F p d.
Proof.
  induction 1 as [|b bs Hb _ IH]; intros F p d Hp; cbn [fold_left]; [reflexivity|].
  rewrite IH by (intros a Ha; apply Hp; right; exact Ha).
  destruct b; cbn in Hb; try contradiction; [|reflexivity].
  unfold copyH, boundary_update_H. destruct (Nat.eqb_spec (coord a p) (N a - 1)); [|reflexivity].
  exfalso. apply (Hp a); [left; reflexivity|assumption].
Qed.
(** Copies along a one-cell axis do nothing, so the same holds when only the
    effective periodic axes are avoided. *)
Lemma copies_E_keep' bs : no_pml bs -> forall F p d, in_grid N p ->
  (forall a, In (Periodic a) bs -> (1 < N a)%nat -> coord a p <> 0%nat) ->
  fold_left (fun F b => copyE b F) bs F p d = F p d.
Proof.
  induction 1 as [|b bs Hb _ IH]; intros F p d Hg Hp; cbn [fold_left]; [reflexivity|].
  rewrite IH; [|exact Hg|intros a Ha; apply Hp; right; exact Ha].
  destruct b; cbn in Hb; try contradiction; [|reflexivity].
  unfold copyE, boundary_update_E. destruct (Nat.eqb_spec (coord a p) 0) as [E0|]; [|reflexivity].
  destruct (Nat.leb_spec (N a) 1).
  - replace (N a - 1)%nat with 0%nat by lia. rewrite <- E0, setc_coord. reflexivity.
  - exfalso. apply (Hp a); [left; reflexivity|assumption|assumption].
Qed.
Lemma copies_H_keep' bs : no_pml bs -> forall F p d, in_grid N p ->
  (forall a, In (Periodic a) bs -> (1 < N a)%nat -> coord a p <> (N a - 1)%nat) ->
  fold_left (fun F b => copyH b F) bs F p d = F p d.
Proof.
  induction 1 as [|b bs Hb _ IH]; intros F p d Hg Hp; cbn [fold_left]; [reflexivity|].
  rewrite IH; [|exact Hg|intros a Ha; apply Hp; right; exact Ha].
  destruct b; cbn in Hb; try contradiction; [|reflexivity].
  unfold copyH, boundary_update_H. destruct (Nat.eqb_spec (coord a p) (N a - 1)) as [E0|]; [|reflexivity].
  destruct (Nat.leb_spec (N a) 1).
  - assert (E1 : coord a p = 0%nat) by (specialize (Hg a); lia).
    rewrite <- E1, setc_coord. reflexivity.
  - exfalso. apply (Hp a); [left; reflexivity|assumption|assumption].
Qed.

(** Copies respect the wall conditions of the other axes. *)
Lemma copies_E_wall per bs : no_pml bs ->
  (forall a, In (Periodic a) bs -> (1 < N a)%nat -> per a = true) ->
  forall F, wall_E_ok per N F -> wall_E_ok per N (fold_left (fun F b => copyE b F) bs F).
Proof.
  induction 1 as [|b bs Hb _ IH]; intros Hper F HF; cbn [fold_left]; [exact HF|].
  apply IH; [intros a Ha; apply Hper; right; exact Ha|].
  destruct b; cbn in Hb; try contradiction; [|exact HF].
  intros x Hx HNx p Hp. unfold copyE, boundary_update_E.
  destruct (coord a p =? 0)%nat; [|apply (HF x Hx HNx p Hp)].
  assert (a <> x) as Hne.
  { intros ->. rewrite (Hper x) in Hx; [discriminate|left; reflexivity|exact HNx]. }
  destruct (HF x Hx HNx (setc a (N a - 1) p)) as [H1 H2].
  { apply setc_in_grid'; [exact Hp|]. specialize (Hp a); lia. }
  rewrite coord_setc_other in H1, H2 by auto. split; assumption.
Qed.
Lemma copies_H_wall per bs : no_pml bs ->
  (forall a, In (Periodic a) bs -> (1 < N a)%nat -> per a = true) ->
  forall F, wall_H_ok per N F -> wall_H_ok per N (fold_left (fun F b => copyH b F) bs F).
Proof.
  induction 1 as [|b bs Hb _ IH]; intros Hper F HF; cbn [fold_left]; [exact HF|].
  apply IH; [intros a Ha; apply Hper; right; exact Ha|].
  destruct b; cbn in Hb; try contradiction; [|exact HF].
  intros x Hx HNx p Hp. unfold copyH, boundary_update_H.
  destruct (coord a p =? N a - 1)%nat; [|apply (HF x Hx HNx p Hp)].
  assert (a <> x) as Hne.
  { intros ->. rewrite (Hper x) in Hx; [discriminate|left; reflexivity|exact HNx]. }
  destruct (HF x Hx HNx (setc a 0%nat p)) as [H1 H2].
  { apply setc_in_grid'; [exact Hp|]. specialize (Hp a); lia. }
  rewrite coord_setc_other in H1, H2 by auto. split; assumption.
Qed.
End Copies.

(** * The bulk update respects walls *)

Ltac neq_axis := try discriminate; try congruence.

Lemma dbwd_zero (F : field) b c p :
  ((1 <= coord b p)%nat -> F p c = 0 /\ F (setc b (coord b p - 1) p) c = 0) -> dbwd F b c p = 0.
Proof.
  intros H. unfold dbwd. destruct (Nat.leb_spec 1 (coord b p)); [|reflexivity].
  destruct H as [-> ->]; [assumption|]. ring.
Qed.
Lemma dfwd_zero N (F : field) b c p :
  ((S (coord b p) < N b)%nat -> F p c = 0 /\ F (setc b (S (coord b p)) p) c = 0) -> dfwd N F b c p = 0.
Proof.
  intros H. unfold dfwd. destruct (Nat.ltb_spec (S (coord b p)) (N b)); [|reflexivity].
  destruct H as [-> ->]; [assumption|]. ring.
Qed.

Lemma curl_H_wall per N H : wall_H_ok per N H -> wall_E_ok per N (curl_H H).
Proof.
  intros HH a Ha HN p Hp.
  assert (L : forall b, b <> a -> coord a p = 0%nat -> dbwd H b a p = 0).
  { intros b Hb H0. apply dbwd_zero. intros H1. split.
    - exact (proj1 (HH a Ha HN p Hp) H0).
    - refine (proj1 (HH a Ha HN (setc b (coord b p - 1) p) _) _).
      + apply setc_in_grid'; [exact Hp|]. specialize (Hp b); lia.
      + rewrite coord_setc_other by auto. exact H0. }
  assert (L0 : forall c, coord a p = 0%nat -> dbwd H a c p = 0).
  { intros c H0. unfold dbwd. rewrite H0. reflexivity. }
  assert (U : forall b c, b <> a -> c <> a -> coord a p = (N a - 1)%nat -> dbwd H b c p = 0).
  { intros b c Hb Hc H0. apply dbwd_zero. intros H1. split.
    - exact (proj2 (HH a Ha HN p Hp) H0 c Hc).
    - refine (proj2 (HH a Ha HN (setc b (coord b p - 1) p) _) _ c Hc).
      + apply setc_in_grid'; [exact Hp|]. specialize (Hp b); lia.
      + rewrite coord_setc_other by auto. exact H0. }
  split.
  - intros H0 c Hc. destruct a, c; try congruence; cbn [curl_H];
      rewrite ?L0 by assumption; rewrite ?L by (assumption || discriminate); ring.
  - intros H0. destruct a; cbn [curl_H]; rewrite !U by (assumption || discriminate); ring.
Qed.

Lemma curl_E_wall per N E : wall_E_ok per N E -> wall_H_ok per N (curl_E N E).
Proof.
  intros HE a Ha HN p Hp.
  assert (U : forall b, b <> a -> coord a p = (N a - 1)%nat -> dfwd N E b a p = 0).
  { intros b Hb H0. apply dfwd_zero. intros H1. split.
    - exact (proj2 (HE a Ha HN p Hp) H0).
    - refine (proj2 (HE a Ha HN (setc b (S (coord b p)) p) _) _).
      + apply setc_in_grid'; [exact Hp|]. exact H1.
      + rewrite coord_setc_other by auto. exact H0. }
  assert (U0 : forall c, coord a p = (N a - 1)%nat -> dfwd N E a c p = 0).
  { intros c H0. unfold dfwd. destruct (Nat.ltb_spec (S (coord a p)) (N a)); [lia|reflexivity]. }
  assert (L : forall b c, b <> a -> c <> a -> coord a p = 0%nat -> dfwd N E b c p = 0).
  { intros b c Hb Hc H0. apply dfwd_zero. intros H1. split.
    - exact (proj1 (HE a Ha HN p Hp) H0 c Hc).
    - refine (proj1 (HE a Ha HN (setc b (S (coord b p)) p) _) _ c Hc).
      + apply setc_in_grid'; [exact Hp|]. exact H1.
      + rewrite coord_setc_other by auto. exact H0. }
  split.
  - intros H0. destruct a; cbn [curl_E]; rewrite !L by (assumption || discriminate); ring.
  - intros H0 c Hc. destruct a, c; try congruence; cbn [curl_E];
      rewrite ?U0 by assumption; rewrite ?U by (assumption || discriminate); ring.
Qed.

Lemma bulk_E_wall per g : wall_E_ok per (g_N g) (g_E g) -> wall_H_ok per (g_N g) (g_H g) ->
  wall_E_ok per (g_N g) (bulk_E g).
Proof.
  intros HE HH. pose proof (curl_H_wall _ _ _ HH) as HC.
  intros a Ha HN p Hp. specialize (HE a Ha HN p Hp). specialize (HC a Ha HN p Hp).
  unfold bulk_E. split.
  - intros H0 c Hc. rewrite (proj1 HE H0 c Hc), (proj1 HC H0 c Hc). unfold Rdiv. ring.
  - intros H0. rewrite (proj2 HE H0), (proj2 HC H0). unfold Rdiv. ring.
Qed.
Lemma new_H_wall per N (co : R) im (H E : field) : wall_E_ok per N E -> wall_H_ok per N H ->
  wall_H_ok per N (fun p c => H p c - co * im p c * curl_E N E p c).
Proof.
  intros HE HH. pose proof (curl_E_wall _ _ _ HE) as HC.
  intros a Ha HN p Hp. specialize (HH a Ha HN p Hp). specialize (HC a Ha HN p Hp).
  split.
  - intros H0. rewrite (proj1 HH H0), (proj1 HC H0). ring.
  - intros H0 c Hc. rewrite (proj2 HH H0 c Hc), (proj2 HC H0 c Hc). ring.
Qed.

(** One quiet step of a closed grid. *)
Lemma closed_step g g' : no_pml (g_boundaries g) -> quiet_from (g_steps g) g -> closed_grid g ->
  step g = Ok g' ->
  closed_grid g' /\ quiet_from (g_steps g') g' /\ g_boundaries g' = g_boundaries g
  /\ (let per := periodic_on (g_boundaries g) (g_N g) in
      (forall p c, (forall a, (E_lo per a <= coord a p < E_hi (g_N g) a)%nat) ->
         g_E g' p c = bulk_E g p c)
      /\ (forall p c, (forall a, (H_lo a <= coord a p < H_hi per (g_N g) a)%nat) ->
         g_H g' p c = g_H g p c - g_courant g * g_im g p c * curl_E (g_N g) (g_E g') p c)).
Proof.
  intros Hb Hq [[HpE HwE] [HpH HwH]] Hs.
  destruct (step_no_pml g g' Hb Hs) as (dsE & dsH & HE & HH & _ & _ & Hg).
  rewrite (proj1 (Hq (g_steps g) _ (le_n _))) in HE.
  rewrite (proj2 (Hq (g_steps g) _ (le_n _))) in HH.
  assert (HE' : fold_left (fun E b => boundary_update_E (g_N g) (g_courant g) (g_ie g) b E)
       (g_boundaries g) (bulk_E g) = g_E g') by congruence.
  assert (HH' : fold_left (fun H b => boundary_update_H (g_N g) (g_courant g) (g_im g) b H)
       (g_boundaries g) (fun p c => g_H g p c - g_courant g * g_im g p c * curl_E (g_N g) (g_E g') p c)
       = g_H g') by congruence.
  clear HE HH.
  destruct (step_static g g' Hs) as [St Ht]. static St.
  assert (Hbb : g_boundaries g' = g_boundaries g) by (rewrite Hg; reflexivity).
  set (per := periodic_on (g_boundaries g) (g_N g)) in *.
  assert (HinPer : forall a, In (Periodic a) (g_boundaries g) -> (1 < g_N g a)%nat -> per a = true)
    by (intros; apply periodic_on_in; assumption).
  assert (WE : wall_E_ok per (g_N g) (g_E g')).
  { rewrite <- HE'. apply (copies_E_wall (g_N g) (g_courant g) (g_ie g)); auto.
    apply bulk_E_wall; assumption. }
  assert (WH : wall_H_ok per (g_N g) (g_H g')).
  { rewrite <- HH'. apply (copies_H_wall (g_N g) (g_courant g) (g_im g)); auto.
    apply new_H_wall; assumption. }
  split; [|split; [|split; [exact Hbb|split]]].
  - unfold closed_grid. rewrite Hbb. replace (g_N g') with (g_N g). fold per. split; split; auto.
    + intros a Ha. rewrite <- HE'. apply (copies_E_periodic (g_N g) (g_courant g) (g_ie g)); [exact Hb|].
      right. eapply periodic_on_inv, Ha.
    + intros a Ha. rewrite <- HH'. apply (copies_H_periodic (g_N g) (g_courant g) (g_im g)); [exact Hb|].
      right. eapply periodic_on_inv, Ha.
  - intros q F Hq'. replace (g_N g') with (g_N g). replace (g_sources g') with (g_sources g).
    apply Hq. lia.
  - intros p c Hp. rewrite <- HE'. apply (copies_E_keep' (g_N g) (g_courant g) (g_ie g)); [exact Hb| |].
    + intros a; apply (Hp a).
    + intros a Ha HN C. specialize (Hp a). unfold E_lo in Hp. rewrite (HinPer a Ha HN) in Hp. lia.
  - intros p c Hp. rewrite <- HH'.
    rewrite (copies_H_keep' (g_N g) (g_courant g) (g_im g)); [reflexivity|exact Hb| |].
    + intros a. specialize (Hp a). unfold H_hi in Hp. destruct (per a); lia.
    + intros a Ha HN C. specialize (Hp a). unfold H_hi in Hp. rewrite (HinPer a Ha HN) in Hp. lia.
Qed.

(** * Energy balance *)


Lemma in_E_range_grid per N p : (forall a, (E_lo per a <= coord a p < E_hi N a)%nat) -> in_grid N p.
Proof. intros H a; apply (H a). Qed.
Lemma in_H_range_grid per N p : (forall a, (H_lo a <= coord a p < H_hi per N a)%nat) -> in_grid N p.
Proof. intros H a. specialize (H a). unfold H_hi in H. destruct (per a); lia. Qed.

Lemma curl_E_plus N (A B : field) p c :
  curl_E N (fun p c => A p c + B p c) p c = curl_E N A p c + curl_E N B p c.
Proof.
  destruct c; cbn [curl_E]; unfold dfwd;
  repeat match goal with |- context [if ?b then _ else _] => destruct b end; ring.
Qed.

(** The leapfrog energy in terms of the later state alone. *)
Definition state_energy (g : grid) : R :=
  let per := periodic_on (g_boundaries g) (g_N g) in
  box_sum (E_lo per) (E_hi (g_N g)) (fun p => sum3 (fun c => g_E g p c ^ 2 / g_ie g p c))
  + box_sum H_lo (H_hi per (g_N g)) (fun p => sum3 (fun c => g_H g p c ^ 2 / g_im g p c))
  + g_courant g * pair_H per (g_N g) (g_H g) (curl_E (g_N g) (g_E g)).

Lemma energy_between_state g g' :
  no_pml (g_boundaries g) -> quiet_from (g_steps g) g -> closed_grid g ->
  grid_material_ok g -> step g = Ok g' ->
  energy_between g g' = state_energy g'.
Proof.
  intros Hb Hq Hc Hm Hs.
  destruct (closed_step g g' Hb Hq Hc Hs) as (_ & _ & Hbb & HE & HH).
  destruct (step_static g g' Hs) as [St _]. static St.
  unfold energy_between, state_energy. rewrite Hbb.
  replace (g_N g') with (g_N g). replace (g_ie g') with (g_ie g). replace (g_im g') with (g_im g).
  replace (g_courant g') with (g_courant g).
  set (per := periodic_on (g_boundaries g) (g_N g)) in *.
  rewrite Rplus_assoc. f_equal.
  unfold pair_H. rewrite <- box_sum_scal, <- box_sum_plus. apply box_sum_ext. intros p Hp.
  pose proof (in_H_range_grid _ _ _ Hp) as Hg.
  assert (K : forall c, g_H g p c * g_H g' p c / g_im g p c
     = g_H g' p c ^ 2 / g_im g p c + g_courant g * (g_H g' p c * curl_E (g_N g) (g_E g') p c)).
  { intros c. destruct (Hm p c Hg) as (_ & H1 & _).
    replace (g_H g p c) with (g_H g' p c + g_courant g * g_im g p c * curl_E (g_N g) (g_E g') p c).
    - field. exact H1.
    - rewrite (HH p c Hp). ring. }
  unfold sum3. rewrite !K. ring.
Qed.

Lemma state_energy_step g g' :
  no_pml (g_boundaries g) -> quiet_from (g_steps g) g -> closed_grid g ->
  grid_material_ok g -> step g = Ok g' ->
  state_energy g' = state_energy g - absorbed_between g g'.
Proof.
  intros Hb Hq Hc Hm Hs. rewrite <- (energy_between_state g g') by assumption.
  destruct (closed_step g g' Hb Hq Hc Hs) as (Hc' & _ & Hbb & HE & HH).
  destruct (step_static g g' Hs) as [St _]. static St.
  destruct Hc as [CE CH]. destruct Hc' as [CE' CH'].
  rewrite Hbb in CE'. replace (g_N g') with (g_N g) in CE'.
  unfold energy_between, state_energy, absorbed_between.
  set (per := periodic_on (g_boundaries g) (g_N g)) in *.
  set (N := g_N g) in *.
  assert (Hper : forall a, per a = true -> (1 < N a)%nat) by (intros a; apply periodic_on_gt).
  pose proof (curl_adjoint N per Hper (g_E g) (g_H g) CE CH) as A1.
  pose proof (curl_adjoint N per Hper (g_E g') (g_H g) CE' CH) as A2.
  assert (HHsum : box_sum H_lo (H_hi per N) (fun p => sum3 (fun c => g_H g p c * g_H g' p c / g_im g p c))
     = box_sum H_lo (H_hi per N) (fun p => sum3 (fun c => g_H g p c ^ 2 / g_im g p c))
       - g_courant g * pair_H per N (g_H g) (curl_E N (g_E g'))).
  { unfold pair_H. rewrite <- box_sum_scal, <- box_sum_minus. apply box_sum_ext. intros p Hp.
    pose proof (in_H_range_grid _ _ _ Hp) as Hg. unfold sum3. rewrite !(HH p _ Hp).
    destruct (Hm p AX Hg) as (_ & H1 & _). destruct (Hm p AY Hg) as (_ & H1' & _).
    destruct (Hm p AZ Hg) as (_ & H1'' & _). field. auto. }
  assert (HEsum : box_sum (E_lo per) (E_hi N) (fun p => sum3 (fun c => g_E g' p c ^ 2 / g_ie g p c))
     = box_sum (E_lo per) (E_hi N) (fun p => sum3 (fun c => g_E g p c ^ 2 / g_ie g p c))
       - box_sum (E_lo per) (E_hi N) (fun p => sum3 (fun c =>
           g_abs g p c * (g_E g p c + g_E g' p c) ^ 2 / g_ie g p c))
       + g_courant g * (pair_E per N (g_E g) (curl_H (g_H g)) + pair_E per N (g_E g') (curl_H (g_H g)))).
  { unfold pair_E. rewrite <- box_sum_plus, <- box_sum_scal, <- box_sum_minus, <- box_sum_plus.
    apply box_sum_ext. intros p Hp. pose proof (in_E_range_grid _ _ _ Hp) as Hg.
    assert (K : forall c, g_E g' p c ^ 2 / g_ie g p c = g_E g p c ^ 2 / g_ie g p c
       - g_abs g p c * (g_E g p c + g_E g' p c) ^ 2 / g_ie g p c
       + g_courant g * (g_E g p c * curl_H (g_H g) p c + g_E g' p c * curl_H (g_H g) p c)).
    { intros c. destruct (Hm p c Hg) as (H1 & _ & H2). rewrite (HE p c Hp). unfold bulk_E.
      field. auto. }
    unfold sum3. rewrite !K. ring. }
  rewrite HHsum, HEsum, A1, A2. ring.
Qed.

(** Material in the energy range is unchanged by steps. *)
Lemma material_static g g' : same_static g g' -> grid_material_ok g -> grid_material_ok g'.
Proof.
  intros St; unfold grid_material_ok; static St.
  replace (g_N g') with (g_N g). replace (g_ie g') with (g_ie g). replace (g_im g') with (g_im g).
  replace (g_abs g') with (g_abs g). auto.
Qed.

Lemma closed_run n : forall g g', no_pml (g_boundaries g) -> quiet_from (g_steps g) g ->
  closed_grid g -> run_steps n g = Ok g' ->
  closed_grid g' /\ quiet_from (g_steps g') g' /\ g_boundaries g' = g_boundaries g.
Proof.
  induction n as [|n IH]; intros g g' Hb Hq Hc H; cbn in H.
  - inversion H; subst. auto.
  - binv H. destruct (closed_step g r Hb Hq Hc Er) as (C & Q & B & _).
    destruct (IH r g') as (C' & Q' & B'); try assumption.
    + rewrite B; exact Hb.
    + split; [exact C'|split; [exact Q'|congruence]].
Qed.

(** Sum of what is absorbed over the first [n] steps. *)
Fixpoint absorbed_run (n : nat) (g : grid) : R :=
  match n with
  | O => 0
  | S m => match step g with
           | Ok g' => absorbed_between g g' + absorbed_run m g'
           | Err _ => 0
           end
  end.

Lemma state_energy_run n : forall g g', no_pml (g_boundaries g) -> quiet_from (g_steps g) g ->
  closed_grid g -> grid_material_ok g -> run_steps n g = Ok g' ->
  state_energy g' = state_energy g - absorbed_run n g.
Proof.
  induction n as [|n IH]; intros g g' Hb Hq Hc Hm H; cbn in H.
  - inversion H; subst. cbn. ring.
  - binv H. destruct (closed_step g r Hb Hq Hc Er) as (C & Q & B & _).
    cbn [absorbed_run]. rewrite Er.
    rewrite (IH r g'); try assumption.
    + rewrite (state_energy_step g r) by assumption. ring.
    + rewrite B; exact Hb.
    + destruct (step_static g r Er) as [St _]. eapply material_static; eassumption.
Qed.

(** * Stability *)


Lemma passive_material m g : 0 < m -> passive m g -> grid_material_ok g.
Proof. intros Hm H p c Hp. destruct (H p c Hp) as (H1 & H2 & H3). repeat split; lra. Qed.

Lemma passive_static m g g' : same_static g g' -> passive m g -> passive m g'.
Proof.
  intros St. static St. unfold passive. rewrite SN, Sie, Sim, Sab. auto.
Qed.

Lemma div_between x a m : 0 < m -> m <= a <= 1 -> x ^ 2 <= x ^ 2 / a <= / m * x ^ 2.
Proof.
  intros Hm [H1 H2]. pose proof (pow2_ge_0 x) as Hx. unfold Rdiv.
  assert (1 <= / a). { rewrite <- Rinv_1. apply Rinv_le_contravar; lra. }
  assert (/ a <= / m) by (apply Rinv_le_contravar; lra).
  split; [rewrite <- (Rmult_1_r (x ^ 2)) at 1|rewrite (Rmult_comm (/ m))];
    apply Rmult_le_compat_l; assumption.
Qed.

Lemma state_energy_bounds m g : 0 < m -> passive m g -> closed_grid g ->
  let k := Rabs (g_courant g) * sqrt (INR (sim_dim (g_N g))) in
  (1 - k) * total_square g <= state_energy g <= (/ m + k) * total_square g.
Proof.
  intros Hm Hp [CE CH] k. unfold state_energy, total_square.
  set (per := periodic_on (g_boundaries g) (g_N g)) in *. set (N := g_N g) in *.
  set (SE := box_sum (E_lo per) (E_hi N) (fun p => sum3 (fun c => g_E g p c ^ 2))).
  set (SH := box_sum H_lo (H_hi per N) (fun p => sum3 (fun c => g_H g p c ^ 2))).
  assert (Hper : forall a, per a = true -> (1 < N a)%nat) by (intros a; apply periodic_on_gt).
  pose proof (coupling_box N per Hper (g_E g) (g_H g) CE CH) as HB. fold SE SH in HB.
  assert (BE : SE <= box_sum (E_lo per) (E_hi N) (fun p => sum3 (fun c => g_E g p c ^ 2 / g_ie g p c)) <= / m * SE).
  { unfold SE. rewrite <- box_sum_scal. split; apply box_sum_le; intros p Hr;
    pose proof (in_E_range_grid _ _ _ Hr) as Hg;
    pose proof (fun c => div_between (g_E g p c) (g_ie g p c) m Hm (proj1 (Hp p c Hg))) as K;
    pose proof (K AX); pose proof (K AY); pose proof (K AZ); unfold sum3; lra. }
  assert (BH : SH <= box_sum H_lo (H_hi per N) (fun p => sum3 (fun c => g_H g p c ^ 2 / g_im g p c)) <= / m * SH).
  { unfold SH. rewrite <- box_sum_scal. split; apply box_sum_le; intros p Hr;
    pose proof (in_H_range_grid _ _ _ Hr) as Hg;
    pose proof (fun c => div_between (g_H g p c) (g_im g p c) m Hm (proj1 (proj2 (Hp p c Hg)))) as K;
    pose proof (K AX); pose proof (K AY); pose proof (K AZ); unfold sum3; lra. }
  assert (BC : Rabs (g_courant g * pair_H per N (g_H g) (curl_E N (g_E g))) <= k * (SE + SH)).
  { rewrite Rabs_mult. unfold k. rewrite Rmult_assoc. apply Rmult_le_compat_l; [apply Rabs_pos|exact HB]. }
  revert BC. unfold Rabs at 1. destruct (Rcase_abs _); intros BC; nra.
Qed.

Lemma absorbed_nonneg m g g' : 0 < m -> passive m g -> 0 <= absorbed_between g g'.
Proof.
  intros Hm Hp. unfold absorbed_between. apply box_sum_nonneg. intros p Hr.
  pose proof (in_E_range_grid _ _ _ Hr) as Hg.
  assert (K : forall c, 0 <= g_abs g p c * (g_E g p c + g_E g' p c) ^ 2 / g_ie g p c).
  { intros c. destruct (Hp p c Hg) as (H1 & _ & H3).
    apply Rmult_le_pos; [apply Rmult_le_pos; [exact H3|apply pow2_ge_0]|].
    left. apply Rinv_0_lt_compat. lra. }
  pose proof (K AX). pose proof (K AY). pose proof (K AZ). unfold sum3. lra.
Qed.

Lemma state_energy_decreases m n : 0 < m -> forall g g', passive m g ->
  no_pml (g_boundaries g) -> quiet_from (g_steps g) g -> closed_grid g ->
  run_steps n g = Ok g' -> state_energy g' <= state_energy g.
Proof.
  intros Hm. induction n as [|n IH]; intros g g' Hp Hb Hq Hc H; cbn in H.
  - inversion H; subst. lra.
  - binv H. destruct (closed_step g r Hb Hq Hc Er) as (C & Q & B & _).
    destruct (step_static g r Er) as [St _].
    assert (state_energy g' <= state_energy r).
    { apply IH; try assumption; [eapply passive_static; eassumption|rewrite B; exact Hb]. }
    pose proof (state_energy_step g r Hb Hq Hc (passive_material m g Hm Hp) Er).
    pose proof (absorbed_nonneg m g r Hm Hp). lra.
Qed.

Lemma bounded_run m n g g' : 0 < m -> passive m g ->
  no_pml (g_boundaries g) -> quiet_from (g_steps g) g -> closed_grid g ->
  Rabs (g_courant g) * sqrt (INR (sim_dim (g_N g))) < 1 ->
  run_steps n g = Ok g' ->
  total_square g'
  <= (/ m + Rabs (g_courant g) * sqrt (INR (sim_dim (g_N g))))
     / (1 - Rabs (g_courant g) * sqrt (INR (sim_dim (g_N g)))) * total_square g.
Proof.
  intros Hm Hp Hb Hq Hc Hk H.
  destruct (closed_run n g g' Hb Hq Hc H) as (C' & _ & _).
  destruct (run_steps_static n g g' H) as [St _].
  pose proof (passive_static m g g' St Hp) as Hp'.
  pose proof (state_energy_decreases m n Hm g g' Hp Hb Hq Hc H) as D.
  pose proof (proj1 (state_energy_bounds m g' Hm Hp' C')) as L.
  pose proof (proj2 (state_energy_bounds m g Hm Hp Hc)) as U.
  static St. rewrite SN, Sco in L. cbv zeta in L, U.
  set (k := Rabs (g_courant g) * sqrt (INR (sim_dim (g_N g)))) in *.
  apply Rmult_le_reg_l with (1 - k); [lra|].
  replace ((1 - k) * ((/ m + k) / (1 - k) * total_square g)) with ((/ m + k) * total_square g)
    by (field; lra).
  lra.
Qed.

Lemma total_square_cell g p c : closed_grid g -> in_grid (g_N g) p ->
  g_E g p c ^ 2 <= total_square g /\ g_H g p c ^ 2 <= total_square g.
Proof.
  intros [[HpE HwE] [HpH HwH]] Hp. unfold total_square.
  set (per := periodic_on (g_boundaries g) (g_N g)) in *. set (N := g_N g) in *.
  assert (Hper : forall a, per a = true -> (1 < N a)%nat) by (intros a; apply periodic_on_gt).
  assert (Hw : forall a, (H_lo a <= coord a (wrap N per p) < H_hi per N a)%nat).
  { intros a. rewrite coord_wrap. specialize (Hp a). unfold wrapc, H_hi, H_lo.
    destruct (per a) eqn:Ea; cbn [andb]; [|lia]. pose proof (Hper a Ea).
    destruct (Nat.eqb_spec (coord a p) (N a - 1)); lia. }
  assert (PE : 0 <= box_sum (E_lo per) (E_hi N) (fun p => sum3 (fun c => g_E g p c ^ 2)))
    by (apply box_sum_nonneg; intros; apply (sum3_sq_nonneg (g_E g p0))).
  assert (PH : 0 <= box_sum H_lo (H_hi per N) (fun p => sum3 (fun c => g_H g p c ^ 2)))
    by (apply box_sum_nonneg; intros; apply (sum3_sq_nonneg (g_H g p0))).
  split.
  - rewrite (E_sum_torus N per Hper) in * by assumption.
    assert (K : sum3 (fun c => g_E g (wrap N per p) c ^ 2) <= T (H_hi per N) (fun p => sum3 (fun c => g_E g p c ^ 2))).
    { apply (box_sum_ge_one _ _ (fun p => sum3 (fun c => g_E g p c ^ 2))).
      - exact Hw.
      - intros q _. apply (sum3_sq_nonneg (g_E g q)). }
    pose proof (sum3_sq_ge (g_E g (wrap N per p)) c) as K'.
    rewrite (wrap_val N per Hper) in K' by assumption. lra.
  - assert (K : sum3 (fun c => g_H g (wrap N per p) c ^ 2) <= box_sum H_lo (H_hi per N) (fun p => sum3 (fun c => g_H g p c ^ 2))).
    { apply (box_sum_ge_one _ _ (fun p => sum3 (fun c => g_H g p c ^ 2))).
      - exact Hw.
      - intros q _. apply (sum3_sq_nonneg (g_H g q)). }
    pose proof (sum3_sq_ge (g_H g (wrap N per p)) c) as K'.
    rewrite (wrap_val N per Hper) in K' by assumption. lra.
Qed.

(** The statements used for the properties. *)
Lemma curls_adjoint (N : shape3) (per : axis -> bool) (E H : field) :
  (forall a, per a = true -> (1 < N a)%nat) ->
  closed_E per N E -> closed_H per N H ->
  pair_H per N H (curl_E N E) = pair_E per N E (curl_H H).
Proof. intros. apply curl_adjoint; assumption. Qed.

Lemma curl_at_most_double (N : shape3) (per : axis -> bool) (E H : field) :
  (forall a, per a = true -> (1 < N a)%nat) ->
  closed_E per N E -> closed_H per N H ->
  Rabs (pair_H per N H (curl_E N E))
  <= sqrt (INR (sim_dim N)) * (pair_E per N E E + pair_H per N H H).
Proof.
  intros Hp HE HH. eapply Rle_trans; [apply coupling_box; assumption|].
  apply Req_le. f_equal. unfold pair_E, pair_H. f_equal; apply box_sum_ext; intros p _; unfold sum3; ring.
Qed.

Lemma energy_balance_step g g1 g2 :
  no_pml (g_boundaries g) -> quiet_from (g_steps g) g -> closed_grid g -> grid_material_ok g ->
  step g = Ok g1 -> step g1 = Ok g2 ->
  energy_between g1 g2 = energy_between g g1 - absorbed_between g1 g2.
Proof.
  intros Hb Hq Hc Hm H1 H2.
  destruct (closed_step g g1 Hb Hq Hc H1) as (C & Q & B & _).
  destruct (step_static g g1 H1) as [St _].
  assert (Hb1 : no_pml (g_boundaries g1)) by (rewrite B; exact Hb).
  pose proof (material_static g g1 St Hm) as Hm1.
  rewrite (energy_between_state g g1), (energy_between_state g1 g2) by assumption.
  apply state_energy_step; assumption.
Qed.

(** Without absorption the energy after any number of steps is the initial one. *)
Lemma energy_conserved n g g1 gn gn1 :
  no_pml (g_boundaries g) -> quiet_from (g_steps g) g -> closed_grid g -> grid_material_ok g ->
  (forall p c, in_grid (g_N g) p -> g_abs g p c = 0) ->
  step g = Ok g1 -> run_steps n g = Ok gn -> step gn = Ok gn1 ->
  energy_between gn gn1 = energy_between g g1.
Proof.
  intros Hb Hq Hc Hm Ha. revert g Hb Hq Hc Hm Ha g1 gn gn1.
  induction n as [|n IH]; intros g Hb Hq Hc Hm Ha g1 gn gn1 H1 Hn Hn1; cbn in Hn.
  - inversion Hn; subst. congruence.
  - binv Hn. assert (r = g1) by congruence. subst r.
    destruct (closed_step g g1 Hb Hq Hc H1) as (C & Q & B & _).
    destruct (step_static g g1 H1) as [St _].
    assert (Hb1 : no_pml (g_boundaries g1)) by (rewrite B; exact Hb).
    pose proof (material_static g g1 St Hm) as Hm1.
    assert (Ha1 : forall p c, in_grid (g_N g1) p -> g_abs g1 p c = 0)
      by (static St; rewrite SN, Sab; exact Ha).
    (* one further step exists: either the last or the first of the rest *)
    assert (exists g2, step g1 = Ok g2) as [g2 H2].
    { destruct n; cbn in Hn; [inversion Hn; subst; eauto|]. binv Hn. eauto. }
    rewrite (IH g1 Hb1 Q C Hm1 Ha1 g2 gn gn1 H2 Hn Hn1).
    rewrite (energy_balance_step g g1 g2) by assumption.
    assert (absorbed_between g1 g2 = 0) as ->; [|ring].
    unfold absorbed_between. erewrite box_sum_ext; [apply box_sum_zero|].
    intros p Hr. pose proof (in_E_range_grid _ _ _ Hr) as Hg.
    unfold sum3. rewrite !Ha1 by exact Hg. unfold Rdiv. ring.
Qed.

(** * Driven cavities *)

Lemma add_at_other F p c v q d : pos_eqb p q = false -> add_at F p c v q d = F q d.
Proof. unfold add_at. intros ->. reflexivity. Qed.

Lemma pos_eqb_true p q : pos_eqb p q = true -> p = q.
Proof.
  destruct p as [[i j] k], q as [[a b] c]. cbn. intros H.
  apply andb_prop in H as [H H3]. apply andb_prop in H as [H1 H2].
  apply Nat.eqb_eq in H1, H2, H3. congruence.
Qed.

Lemma pos_eqb_neq p q : p <> q -> pos_eqb p q = false.
Proof. intros H. destruct (pos_eqb p q) eqn:E; [|reflexivity]. apply pos_eqb_true in E. contradiction. Qed.

Lemma interior_source_update N q s E E' : interior_source N s ->
  source_update_E N q s E = Ok E' -> forall p c, ~ interior N p -> E' p c = E p c.
Proof.
  intros Hs H p c Hp. destruct s as [cell amp sg|cells prof sg| |]; cbn in Hs; try contradiction.
  - cbn in H. binv H. binv H. inversion H; subst. apply add_at_other, pos_eqb_neq.
    intros ->. apply Hp, Hs, Er0.
  - cbn in H. binv H.
    assert (K : forall l (F F' : field), (forall cv, In cv l -> In (fst cv) cells) ->
       fold_res (fun cv F => let! p := resolve3 N (fst cv) in Ok (add_at F p AZ (snd cv * r))) l F = Ok F' ->
       F' p c = F p c).
    { induction l as [|cv l IH]; intros F F' Hl HF; cbn in HF; [congruence|].
      binv HF. destruct (resolve3 N (fst cv)) as [x|] eqn:Ex; cbn in Er0; [|discriminate].
      rewrite (IH _ F' (fun v Hv => Hl v (or_intror Hv)) HF). inversion Er0; subst.
      apply add_at_other, pos_eqb_neq. intros ->. apply Hp.
      apply (Hs (fst cv)); [apply Hl; left; reflexivity|exact Ex]. }
    apply (K _ _ _ (fun cv Hcv => in_combine_l cells prof (fst cv) (snd cv)
              (eq_ind cv (fun x => In x (combine cells prof)) Hcv (fst cv, snd cv) (surjective_pairing cv))) H).
Qed.

Lemma interior_sources_update N q ss : Forall (interior_source N) ss -> forall E E',
  fold_res (source_update_E N q) ss E = Ok E' -> forall p c, ~ interior N p -> E' p c = E p c.
Proof.
  induction 1 as [|s ss Hs _ IH]; intros E E' H p c Hp; cbn in H; [congruence|].
  binv H. rewrite (IH _ _ H p c Hp). eapply interior_source_update; eassumption.
Qed.

Lemma interior_sources_H N q ss : Forall (interior_source N) ss -> forall H,
  fold_res (source_update_H N q) ss H = Ok H.
Proof.
  induction 1 as [|s ss Hs _ IH]; intros H; cbn; [reflexivity|].
  destruct s; cbn in Hs; try contradiction; cbn; apply IH.
Qed.

Lemma face_not_interior N a p : (1 < N a)%nat -> coord a p = 0%nat \/ coord a p = (N a - 1)%nat ->
  ~ interior N p.
Proof. intros HN Hf Hi. specialize (Hi a HN). lia. Qed.

Lemma closed_E_interior per N (E E' : field) : (forall a, per a = true -> (1 < N a)%nat) ->
  (forall p c, ~ interior N p -> E' p c = E p c) -> closed_E per N E -> closed_E per N E'.
Proof.
  intros Hper He [HP HW]. split.
  - intros a Ha p c Hp H0. pose proof (Hper a Ha) as HN. rewrite !He.
    + apply HP; assumption.
    + apply (face_not_interior N a); [exact HN|]. right. apply coord_setc_same.
    + apply (face_not_interior N a); auto.
  - intros a Ha HN p Hp. destruct (HW a Ha HN p Hp) as [H1 H2]. split.
    + intros H0 c Hc. rewrite He; [auto|]. apply (face_not_interior N a); auto.
    + intros H0. rewrite He; [auto|]. apply (face_not_interior N a); auto.
Qed.

(** Interior sources keep the cavity closed. *)
Lemma closed_driven_step g g' : no_pml (g_boundaries g) ->
  Forall (interior_source (g_N g)) (g_sources g) -> closed_grid g ->
  step g = Ok g' -> closed_grid g' /\ g_boundaries g' = g_boundaries g.
Proof.
  intros Hb Hi [[HpE HwE] [HpH HwH]] Hs.
  destruct (step_no_pml g g' Hb Hs) as (dsE & dsH & HE & HH & _ & _ & Hg).
  rewrite interior_sources_H in HH by exact Hi.
  assert (HH' : fold_left (fun H b => boundary_update_H (g_N g) (g_courant g) (g_im g) b H)
       (g_boundaries g) (fun p c => g_H g p c - g_courant g * g_im g p c * curl_E (g_N g) (g_E g') p c)
       = g_H g') by congruence.
  pose proof (interior_sources_update _ _ _ Hi _ _ HE) as Heq.
  destruct (step_static g g' Hs) as [St _]. static St.
  assert (Hbb : g_boundaries g' = g_boundaries g) by (rewrite Hg; reflexivity).
  unfold closed_grid. rewrite Hbb, SN.
  set (per := periodic_on (g_boundaries g) (g_N g)) in *.
  assert (Hper : forall a, per a = true -> (1 < g_N g a)%nat) by (intros a; apply periodic_on_gt).
  assert (HinPer : forall a, In (Periodic a) (g_boundaries g) -> (1 < g_N g a)%nat -> per a = true)
    by (intros; apply periodic_on_in; assumption).
  assert (CE : closed_E per (g_N g) (g_E g')).
  { eapply closed_E_interior; [exact Hper|exact Heq|]. split.
    - intros a Ha. apply (copies_E_periodic (g_N g) (g_courant g) (g_ie g)); [exact Hb|].
      right. eapply periodic_on_inv, Ha.
    - apply (copies_E_wall (g_N g) (g_courant g) (g_ie g)); auto. apply bulk_E_wall; assumption. }
  split; [|reflexivity]. split; [exact CE|]. split.
  - intros a Ha. rewrite <- HH'. apply (copies_H_periodic (g_N g) (g_courant g) (g_im g)); [exact Hb|].
    right. eapply periodic_on_inv, Ha.
  - rewrite <- HH'. apply (copies_H_wall (g_N g) (g_courant g) (g_im g)); auto.
    apply new_H_wall; [apply CE|exact HwH].
Qed.

Lemma closed_driven_run n : forall g g', no_pml (g_boundaries g) ->
  Forall (interior_source (g_N g)) (g_sources g) -> closed_grid g ->
  run_steps n g = Ok g' -> closed_grid g' /\ g_boundaries g' = g_boundaries g.
Proof.
  induction n as [|n IH]; intros g g' Hb Hi Hc H; cbn in H.
  - inversion H; subst. auto.
  - binv H. destruct (closed_driven_step g r Hb Hi Hc Er) as (C & B).
    destruct (step_static g r Er) as [St _]. static St.
    destruct (IH r g') as (C' & B'); try assumption.
    + rewrite B; exact Hb.
    + rewrite SN, Ssr; exact Hi.
    + split; congruence || assumption.
Qed.

Lemma resting_closed g : (forall p c, in_grid (g_N g) p -> g_E g p c = 0 /\ g_H g p c = 0) ->
  closed_grid g.
Proof.
  intros H. set (per := periodic_on (g_boundaries g) (g_N g)).
  assert (Hl : forall a p, in_grid (g_N g) p -> in_grid (g_N g) (setc a (g_N g a - 1) p)).
  { intros a p Hp. apply setc_in_grid'; [exact Hp|]. specialize (Hp a). lia. }
  split; split.
  - intros a _ p c Hp _. destruct (H p c Hp) as [-> _].
    destruct (H (setc a (g_N g a - 1) p) c (Hl a p Hp)) as [-> _]. reflexivity.
  - intros a _ _ p Hp. split; intros; apply (H p _ Hp).
  - intros a _ p c Hp _. destruct (H p c Hp) as [_ ->].
    destruct (H (setc a (g_N g a - 1) p) c (Hl a p Hp)) as [_ ->]. reflexivity.
  - intros a _ _ p Hp. split; intros; apply (H p _ Hp).
Qed.
