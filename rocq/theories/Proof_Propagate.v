(** Changes travel at most one cell per step. *)
From Coq Require Import Reals ZArith String List Bool Lra Lia Psatz.
From Verif Require Import Base BaseLemmas Model_FDTD Spec_FDTD Proof_Torus Proof_FDTD.
Import ListNotations.
Open Scope R_scope.

Section Travel.
Variables (N : shape3) (a : axis) (x0 : nat).

(** At least [r] cells above or [l] cells below index [x0] along [a]. *)
Definition far (l r : nat) (p : pos) : Prop :=
  in_grid N p /\ ((x0 + r <= coord a p)%nat \/ (coord a p + l <= x0)%nat).

Definition fields_agree (P : pos -> Prop) (F1 F2 : field) : Prop :=
  forall p c, P p -> F1 p c = F2 p c.

Lemma far_down l r b p : far l (S r) p -> (1 <= coord b p)%nat ->
  far l r (setc b (coord b p - 1) p).
Proof.
  intros [Hg Hf] Hb. split.
  - intros x. rewrite coord_setc. specialize (Hg x). destruct (axis_eqb_spec x b) as [->|]; lia.
  - rewrite coord_setc. destruct (axis_eqb_spec a b) as [<-|]; lia.
Qed.
Lemma far_up l r b p : far (S l) r p -> (S (coord b p) < N b)%nat ->
  far l r (setc b (S (coord b p)) p).
Proof.
  intros [Hg Hf] Hb. split.
  - intros x. rewrite coord_setc. specialize (Hg x). destruct (axis_eqb_spec x b) as [->|]; lia.
  - rewrite coord_setc. destruct (axis_eqb_spec a b) as [<-|]; lia.
Qed.
Lemma far_S_r l r p : far l (S r) p -> far l r p.
Proof. intros [Hg Hf]. split; [exact Hg|lia]. Qed.
Lemma far_S_l l r p : far (S l) r p -> far l r p.
Proof. intros [Hg Hf]. split; [exact Hg|lia]. Qed.

Lemma dbwd_agree l r F1 F2 b c p : fields_agree (far l r) F1 F2 -> far l (S r) p ->
  dbwd F1 b c p = dbwd F2 b c p.
Proof.
  intros HF Hp. unfold dbwd. destruct (Nat.leb_spec 1 (coord b p)); [|reflexivity].
  rewrite (HF p c (far_S_r _ _ _ Hp)), (HF _ c (far_down _ _ b p Hp H)). reflexivity.
Qed.
Lemma dfwd_agree l r F1 F2 b c p : fields_agree (far l r) F1 F2 -> far (S l) r p ->
  dfwd N F1 b c p = dfwd N F2 b c p.
Proof.
  intros HF Hp. unfold dfwd. destruct (Nat.ltb_spec (S (coord b p)) (N b)); [|reflexivity].
  rewrite (HF p c (far_S_l _ _ _ Hp)), (HF _ c (far_up _ _ b p Hp H)). reflexivity.
Qed.

Lemma curl_H_agree l r H1 H2 : fields_agree (far l r) H1 H2 ->
  fields_agree (far l (S r)) (curl_H H1) (curl_H H2).
Proof.
  intros HF p c Hp. destruct c; cbn [curl_H]; rewrite !(dbwd_agree l r H1 H2) by assumption; reflexivity.
Qed.
Lemma curl_E_agree l r E1 E2 : fields_agree (far l r) E1 E2 ->
  fields_agree (far (S l) r) (curl_E N E1) (curl_E N E2).
Proof.
  intros HF p c Hp. destruct c; cbn [curl_E]; rewrite !(dfwd_agree l r E1 E2) by assumption; reflexivity.
Qed.

(** ** PML *)

Lemma pml_cell_setc pm b v q : b <> p_axis pm ->
  pml_cell N pm (setc b v q) = setc b v (pml_cell N pm q).
Proof.
  intros Hb. unfold pml_cell. rewrite coord_setc_other by auto. apply setc_comm. auto.
Qed.
Lemma pml_cell_setc_axis pm v q :
  pml_cell N pm (setc (p_axis pm) v q) = setc (p_axis pm) (v + pml_offset N pm) q.
Proof. unfold pml_cell. rewrite coord_setc_same, setc_setc. reflexivity. Qed.
Lemma coord_pml_cell pm b q :
  coord b (pml_cell N pm q) = if axis_eqb b (p_axis pm) then (coord b q + pml_offset N pm)%nat else coord b q.
Proof.
  unfold pml_cell. rewrite coord_setc. destruct (axis_eqb_spec b (p_axis pm)) as [->|]; reflexivity.
Qed.

Lemma local_dbwd pm l r H1 H2 b c q : fields_agree (far l r) H1 H2 ->
  far l (S r) (pml_cell N pm q) ->
  dbwd (fun q c => H1 (pml_cell N pm q) c) b c q = dbwd (fun q c => H2 (pml_cell N pm q) c) b c q.
Proof.
  intros HF Hq. unfold dbwd. destruct (Nat.leb_spec 1 (coord b q)); [|reflexivity].
  rewrite (HF _ c (far_S_r _ _ _ Hq)). f_equal. apply HF.
  assert (E : pml_cell N pm (setc b (coord b q - 1) q)
              = setc b (coord b (pml_cell N pm q) - 1) (pml_cell N pm q)).
  { apply pos_ext. intros x. rewrite coord_pml_cell, !coord_setc, !coord_pml_cell.
    destruct (axis_eqb_spec x b) as [->|]; [|reflexivity].
    destruct (axis_eqb_spec b (p_axis pm)); lia. }
  rewrite E. apply far_down; [exact Hq|]. rewrite coord_pml_cell. destruct (axis_eqb b (p_axis pm)); lia.
Qed.
Lemma local_dfwd pm l r E1 E2 b c q : (p_thick pm <= N (p_axis pm))%nat ->
  fields_agree (far l r) E1 E2 -> far (S l) r (pml_cell N pm q) ->
  dfwd (pml_shape N pm) (fun q c => E1 (pml_cell N pm q) c) b c q
  = dfwd (pml_shape N pm) (fun q c => E2 (pml_cell N pm q) c) b c q.
Proof.
  intros Ht HF Hq. unfold dfwd. destruct (Nat.ltb_spec (S (coord b q)) (pml_shape N pm b)) as [Hlt|]; [|reflexivity].
  rewrite (HF _ c (far_S_l _ _ _ Hq)). f_equal. apply HF.
  assert (E : pml_cell N pm (setc b (S (coord b q)) q)
              = setc b (S (coord b (pml_cell N pm q))) (pml_cell N pm q)).
  { apply pos_ext. intros x. rewrite coord_pml_cell, !coord_setc, !coord_pml_cell.
    destruct (axis_eqb_spec x b) as [->|]; [|reflexivity].
    destruct (axis_eqb_spec b (p_axis pm)); lia. }
  rewrite E. apply far_up; [exact Hq|]. rewrite coord_pml_cell. unfold pml_shape in Hlt.
  destruct (axis_eqb_spec b (p_axis pm)) as [->|]; [|exact Hlt].
  unfold pml_offset. destruct (p_high pm); lia.
Qed.

(** Agreement of boundaries, with the electric / magnetic corrections agreeing
    on possibly different regions. *)
Definition bnd_agree (P : pos -> Prop) (b1 b2 : boundary) : Prop := pml_agree P N b1 b2.

Definition phiE_agree (P : pos -> Prop) (b1 b2 : boundary) : Prop :=
  match b1, b2 with
  | PMLb p1, PMLb p2 => forall q c, P (pml_cell N p1 q) -> p_phiE p1 q c = p_phiE p2 q c
  | _, _ => True
  end.
Definition phiH_agree (P : pos -> Prop) (b1 b2 : boundary) : Prop :=
  match b1, b2 with
  | PMLb p1, PMLb p2 => forall q c, P (pml_cell N p1 q) -> p_phiH p1 q c = p_phiH p2 q c
  | _, _ => True
  end.

Lemma pml_cell_eq p1 p2 q : p_axis p1 = p_axis p2 -> p_high p1 = p_high p2 -> p_thick p1 = p_thick p2 ->
  pml_cell N p1 q = pml_cell N p2 q.
Proof. intros H1 H2 H3. unfold pml_cell, pml_offset. rewrite H1, H2, H3. reflexivity. Qed.
Lemma pml_shape_eq p1 p2 : p_axis p1 = p_axis p2 -> p_thick p1 = p_thick p2 ->
  pml_shape N p1 = pml_shape N p2.
Proof. intros H1 H3. unfold pml_shape. rewrite H1, H3. reflexivity. Qed.

Lemma dbwd_ext (F G : field) b c q : (forall p, F p c = G p c) -> dbwd F b c q = dbwd G b c q.
Proof. intros H. unfold dbwd. rewrite !H. reflexivity. Qed.
Lemma dfwd_ext L (F G : field) b c q : (forall p, F p c = G p c) -> dfwd L F b c q = dfwd L G b c q.
Proof. intros H. unfold dfwd. rewrite !H. reflexivity. Qed.

Lemma phi_E_agree l r H1 H2 b1 b2 b1' b2' : fields_agree (far l r) H1 H2 ->
  bnd_agree (far l r) b1 b2 ->
  boundary_phi_E N H1 b1 = Ok b1' -> boundary_phi_E N H2 b2 = Ok b2' ->
  bnd_agree (far l (S r)) b1' b2' /\ phiE_agree (far l (S r)) b1' b2'.
Proof.
  intros HF Hb E1 E2.
  destruct b1 as [ax|p1| |], b2 as [ax2|p2| |]; cbn in Hb; try congruence;
    cbn in E1, E2; try (inversion E1; inversion E2; subst; cbn; split; solve [congruence | auto]).
  destruct (p_thick p1 <=? N (p_axis p1))%nat; [|discriminate].
  destruct (p_thick p2 <=? N (p_axis p2))%nat; [|discriminate].
  inversion E1; inversion E2; subst b1' b2'. clear E1 E2.
  destruct Hb as (B1 & B2 & B3 & B4 & B5 & B6 & B7 & Bpsi).
  assert (K : forall x q c, far l (S r) (pml_cell N p1 q) ->
     p_psiE (pml_phi_E N H1 p1) x q c = p_psiE (pml_phi_E N H2 p2) x q c).
  { intros x q c Hq. cbn. rewrite (proj1 (Bpsi q x c (far_S_r _ _ _ Hq))), B4, B5. f_equal.
    assert (D : forall b d, dbwd (fun q c => H1 (pml_cell N p1 q) c) b d q
                          = dbwd (fun q c => H2 (pml_cell N p2 q) c) b d q).
    { intros b d. rewrite (local_dbwd p1 l r H1 H2) by assumption.
      apply dbwd_ext. intros p. rewrite (pml_cell_eq p1 p2) by assumption. reflexivity. }
    destruct x, c; try reflexivity; rewrite D; reflexivity. }
  split.
  - unfold bnd_agree, pml_agree. do 7 (split; [assumption|]). intros q x c Hq. split.
    + apply K. exact Hq.
    + apply (Bpsi q x c (far_S_r _ _ _ Hq)).
  - intros q c Hq.
    change (p_phiE (pml_phi_E N H1 p1) q c = p_phiE (pml_phi_E N H2 p2) q c).
    assert (Kq := fun x c => K x q c Hq).
    destruct c; cbn in *; rewrite ?(Kq AX AY), ?(Kq AX AZ), ?(Kq AY AZ), ?(Kq AY AX), ?(Kq AZ AX), ?(Kq AZ AY); try reflexivity.
Qed.

Lemma phi_H_agree l r E1 E2 b1 b2 b1' b2' : fields_agree (far l r) E1 E2 ->
  bnd_agree (far l r) b1 b2 ->
  boundary_phi_H N E1 b1 = Ok b1' -> boundary_phi_H N E2 b2 = Ok b2' ->
  bnd_agree (far (S l) r) b1' b2' /\ phiH_agree (far (S l) r) b1' b2'.
Proof.
  intros HF Hb X1 X2.
  destruct b1 as [ax|p1| |], b2 as [ax2|p2| |]; cbn in Hb; try congruence;
    cbn in X1, X2; try (inversion X1; inversion X2; subst; cbn; split; solve [congruence | auto]).
  destruct (Nat.leb_spec (p_thick p1) (N (p_axis p1))) as [Ht|]; [|discriminate].
  destruct (p_thick p2 <=? N (p_axis p2))%nat; [|discriminate].
  inversion X1; inversion X2; subst b1' b2'. clear X1 X2.
  destruct Hb as (B1 & B2 & B3 & B4 & B5 & B6 & B7 & Bpsi).
  assert (K : forall x q c, far (S l) r (pml_cell N p1 q) ->
     p_psiH (pml_phi_H N E1 p1) x q c = p_psiH (pml_phi_H N E2 p2) x q c).
  { intros x q c Hq. cbn. rewrite (proj2 (Bpsi q x c (far_S_l _ _ _ Hq))), B6, B7. f_equal.
    assert (D : forall b d, dfwd (pml_shape N p1) (fun q c => E1 (pml_cell N p1 q) c) b d q
                          = dfwd (pml_shape N p2) (fun q c => E2 (pml_cell N p2 q) c) b d q).
    { intros b d. rewrite (local_dfwd p1 l r E1 E2) by assumption.
      rewrite (pml_shape_eq p1 p2) by assumption.
      apply dfwd_ext. intros p. rewrite (pml_cell_eq p1 p2) by assumption. reflexivity. }
    destruct x, c; try reflexivity; rewrite D; reflexivity. }
  split.
  - unfold bnd_agree, pml_agree. do 7 (split; [assumption|]). intros q x c Hq. split.
    + apply (Bpsi q x c (far_S_l _ _ _ Hq)).
    + apply K. exact Hq.
  - intros q c Hq.
    change (p_phiH (pml_phi_H N E1 p1) q c = p_phiH (pml_phi_H N E2 p2) q c).
    assert (Kq := fun x c => K x q c Hq).
    destruct c; cbn in *; rewrite ?(Kq AX AY), ?(Kq AX AZ), ?(Kq AY AZ), ?(Kq AY AX), ?(Kq AZ AX), ?(Kq AZ AY); try reflexivity.
Qed.

Lemma map_phi_E_agree l r H1 H2 : fields_agree (far l r) H1 H2 -> forall bs1 bs2 bs1' bs2',
  Forall2 (bnd_agree (far l r)) bs1 bs2 ->
  map_res (boundary_phi_E N H1) bs1 = Ok bs1' -> map_res (boundary_phi_E N H2) bs2 = Ok bs2' ->
  Forall2 (fun b1 b2 => bnd_agree (far l (S r)) b1 b2 /\ phiE_agree (far l (S r)) b1 b2) bs1' bs2'.
Proof.
  intros HF bs1 bs2 bs1' bs2' HB. revert bs1' bs2'.
  induction HB as [|b1 b2 bs1 bs2 Hb _ IH]; intros bs1' bs2' X1 X2; cbn in X1, X2.
  - inversion X1; inversion X2. constructor.
  - binv X1. binv X1. binv X2. binv X2. inversion X1; inversion X2; subst.
    constructor; [eapply phi_E_agree; eassumption|auto].
Qed.
Lemma map_phi_H_agree l r E1 E2 : fields_agree (far l r) E1 E2 -> forall bs1 bs2 bs1' bs2',
  Forall2 (bnd_agree (far l r)) bs1 bs2 ->
  map_res (boundary_phi_H N E1) bs1 = Ok bs1' -> map_res (boundary_phi_H N E2) bs2 = Ok bs2' ->
  Forall2 (fun b1 b2 => bnd_agree (far (S l) r) b1 b2 /\ phiH_agree (far (S l) r) b1 b2) bs1' bs2'.
Proof.
  intros HF bs1 bs2 bs1' bs2' HB. revert bs1' bs2'.
  induction HB as [|b1 b2 bs1 bs2 Hb _ IH]; intros bs1' bs2' X1 X2; cbn in X1, X2.
  - inversion X1; inversion X2. constructor.
  - binv X1. binv X1. binv X2. binv X2. inversion X1; inversion X2; subst.
    constructor; [eapply phi_H_agree; eassumption|auto].
Qed.

Lemma in_pml_eq p1 p2 p : p_axis p1 = p_axis p2 -> p_high p1 = p_high p2 -> p_thick p1 = p_thick p2 ->
  in_pml N p1 p = in_pml N p2 p /\ pml_local N p1 p = pml_local N p2 p.
Proof. intros H1 H2 H3. unfold in_pml, pml_local, pml_offset. rewrite H1, H2, H3. auto. Qed.
Lemma pml_cell_local pm p : in_pml N pm p = true -> pml_cell N pm (pml_local N pm p) = p.
Proof.
  intros H. apply andb_prop in H as [H _]. apply Nat.leb_le in H.
  unfold pml_cell, pml_local. rewrite coord_setc_same, setc_setc.
  replace (coord (p_axis pm) p - pml_offset N pm + pml_offset N pm)%nat with (coord (p_axis pm) p) by lia.
  apply setc_coord.
Qed.

Lemma far_setc l r b v p : b <> a -> (v < N b)%nat -> far l r p -> far l r (setc b v p).
Proof.
  intros Hb Hv [Hg Hf]. split.
  - intros x. rewrite coord_setc. destruct (axis_eqb_spec x b) as [->|]; auto.
  - rewrite coord_setc_other by auto. exact Hf.
Qed.

Lemma far_bound l r p b : far l r p -> (0 < N b)%nat.
Proof. intros [Hg _]. specialize (Hg b). lia. Qed.

Lemma update_E_agree l r co ie1 ie2 : (fields_agree (far l r) ie1 ie2) -> forall bs1 bs2,
  Forall2 (fun b1 b2 => bnd_agree (far l r) b1 b2 /\ phiE_agree (far l r) b1 b2) bs1 bs2 ->
  no_wrap a bs1 -> forall F1 F2, fields_agree (far l r) F1 F2 ->
  fields_agree (far l r)
    (fold_left (fun E b => boundary_update_E N co ie1 b E) bs1 F1)
    (fold_left (fun E b => boundary_update_E N co ie2 b E) bs2 F2).
Proof.
  intros Hie bs1 bs2 HB. induction HB as [|b1 b2 bs1 bs2 [Hb Hphi] _ IH]; intros Hw F1 F2 HF; cbn [fold_left].
  - exact HF.
  - inversion Hw as [|? ? Hw1 Hw2]; subst. apply IH; [exact Hw2|].
    destruct b1 as [ax|p1| |], b2 as [ax2|p2| |]; cbn in Hb; try congruence; try exact HF.
    + inversion Hb; subst ax2. cbn in Hw1.
      assert (Hax : ax <> a) by (intros ->; rewrite axis_eqb_refl in Hw1; discriminate).
      intros p c Hp. cbn [boundary_update_E]. destruct (coord ax p =? 0)%nat; apply HF; [|exact Hp].
      apply far_setc; [exact Hax| |exact Hp]. pose proof (far_bound _ _ _ ax Hp). lia.
    + destruct Hb as (B1 & B2 & B3 & _). intros p c Hp. cbn [boundary_update_E].
      destruct (in_pml_eq p1 p2 p B1 B2 B3) as [<- <-].
      destruct (in_pml N p1 p) eqn:Ep; [|apply HF; exact Hp].
      rewrite (HF p c Hp), (Hie p c Hp). cbn in Hphi. rewrite Hphi; [reflexivity|].
      rewrite pml_cell_local by exact Ep. exact Hp.
Qed.
Lemma update_H_agree l r co im1 im2 : (fields_agree (far l r) im1 im2) -> forall bs1 bs2,
  Forall2 (fun b1 b2 => bnd_agree (far l r) b1 b2 /\ phiH_agree (far l r) b1 b2) bs1 bs2 ->
  no_wrap a bs1 -> forall F1 F2, fields_agree (far l r) F1 F2 ->
  fields_agree (far l r)
    (fold_left (fun E b => boundary_update_H N co im1 b E) bs1 F1)
    (fold_left (fun E b => boundary_update_H N co im2 b E) bs2 F2).
Proof.
  intros Him bs1 bs2 HB. induction HB as [|b1 b2 bs1 bs2 [Hb Hphi] _ IH]; intros Hw F1 F2 HF; cbn [fold_left].
  - exact HF.
  - inversion Hw as [|? ? Hw1 Hw2]; subst. apply IH; [exact Hw2|].
    destruct b1 as [ax|p1| |], b2 as [ax2|p2| |]; cbn in Hb; try congruence; try exact HF.
    + inversion Hb; subst ax2. cbn in Hw1.
      assert (Hax : ax <> a) by (intros ->; rewrite axis_eqb_refl in Hw1; discriminate).
      intros p c Hp. cbn [boundary_update_H]. destruct (coord ax p =? N ax - 1)%nat; apply HF; [|exact Hp].
      apply far_setc; [exact Hax| |exact Hp]. apply (far_bound _ _ _ ax Hp).
    + destruct Hb as (B1 & B2 & B3 & _). intros p c Hp. cbn [boundary_update_H].
      destruct (in_pml_eq p1 p2 p B1 B2 B3) as [<- <-].
      destruct (in_pml N p1 p) eqn:Ep; [|apply HF; exact Hp].
      rewrite (HF p c Hp), (Him p c Hp). cbn in Hphi. rewrite Hphi; [reflexivity|].
      rewrite pml_cell_local by exact Ep. exact Hp.
Qed.

(** ** Sources *)

Lemma source_E_agree (P : pos -> Prop) q s F1 F2 F1' F2' : fields_agree P F1 F2 ->
  source_update_E N q s F1 = Ok F1' -> source_update_E N q s F2 = Ok F2' -> fields_agree P F1' F2'.
Proof.
  intros HF X1 X2. destruct s as [cell amp sg|cells prof sg|lo hi ep hp amp per ph|]; cbn [source_update_E source_update_H] in X1, X2.
  - binv X1. binv X1. binv X2. binv X2. inversion X1; inversion X2; subst.
    assert (r = r1) by congruence. assert (r0 = r2) by congruence. subst.
    intros p c Hp. unfold add_at. rewrite (HF p c Hp). reflexivity.
  - binv X1. binv X2. assert (r = r0) by congruence. subst r0. clear Er Er0.
    revert F1 F2 HF X1 X2. generalize (combine cells prof) as L.
    induction L as [|cv L IH]; intros F1 F2 HF X1 X2; cbn in X1, X2.
    + inversion X1; inversion X2; subst. exact HF.
    + binv X1. binv X2. binv Er. binv Er0. apply (IH r0 r1); [|exact X1|exact X2].
      assert (r2 = r3) by congruence. subst. inversion Er; inversion Er0; subst.
      intros p c Hp. unfold add_at. rewrite (HF p c Hp). reflexivity.
  - destruct (per =? 0)%Z; [discriminate|]. destruct (negb (box_fits N (plane_extent lo hi) lo hi)); [discriminate|].
    inversion X1; inversion X2; subst. intros p c Hp.
    rewrite (HF p c Hp). reflexivity.
  - discriminate.
Qed.
Lemma source_H_agree (P : pos -> Prop) q s F1 F2 F1' F2' : fields_agree P F1 F2 ->
  source_update_H N q s F1 = Ok F1' -> source_update_H N q s F2 = Ok F2' -> fields_agree P F1' F2'.
Proof.
  intros HF X1 X2. destruct s as [cell amp sg|cells prof sg|lo hi ep hp amp per ph|]; cbn [source_update_E source_update_H] in X1, X2;
    try (inversion X1; inversion X2; subst; exact HF).
  destruct (per =? 0)%Z; [discriminate|]. destruct (negb (box_fits N (plane_extent lo hi) lo hi)); [discriminate|].
  inversion X1; inversion X2; subst. intros p c Hp. rewrite (HF p c Hp). reflexivity.
Qed.
Lemma sources_E_agree P q ss : forall F1 F2 F1' F2', fields_agree P F1 F2 ->
  fold_res (source_update_E N q) ss F1 = Ok F1' -> fold_res (source_update_E N q) ss F2 = Ok F2' ->
  fields_agree P F1' F2'.
Proof.
  induction ss as [|s ss IH]; intros F1 F2 F1' F2' HF X1 X2; cbn in X1, X2.
  - inversion X1; inversion X2; subst. exact HF.
  - binv X1. binv X2. eapply IH; [|exact X1|exact X2]. eapply source_E_agree; eassumption.
Qed.
Lemma sources_H_agree P q ss : forall F1 F2 F1' F2', fields_agree P F1 F2 ->
  fold_res (source_update_H N q) ss F1 = Ok F1' -> fold_res (source_update_H N q) ss F2 = Ok F2' ->
  fields_agree P F1' F2'.
Proof.
  induction ss as [|s ss IH]; intros F1 F2 F1' F2' HF X1 X2; cbn in X1, X2.
  - inversion X1; inversion X2; subst. exact HF.
  - binv X1. binv X2. eapply IH; [|exact X1|exact X2]. eapply source_H_agree; eassumption.
Qed.

Lemma plane_source_E (P : pos -> Prop) q s F F' : (forall p, P p -> coord a p <> x0) ->
  source_in_plane N a x0 s -> source_update_E N q s F = Ok F' -> fields_agree P F' F.
Proof.
  intros HP Hs X. destruct s as [cell amp sg|cells prof sg|lo hi ep hp amp per ph|];
    cbn [source_update_E source_in_plane] in X, Hs; try contradiction.
  - binv X. binv X. inversion X; subst. intros p c Hp. unfold add_at.
    destruct (pos_eqb r0 p) eqn:Ep; [|reflexivity]. exfalso.
    apply (HP p Hp). rewrite <- (Hs r0 Er0). f_equal.
    destruct r0 as [[? ?] ?], p as [[? ?] ?]. cbn in Ep.
    apply andb_prop in Ep as [Ep E3]. apply andb_prop in Ep as [E1 E2].
    apply Nat.eqb_eq in E1, E2, E3. subst; reflexivity.
  - binv X. clear Er. assert (Hs' : forall cv p, In cv (combine cells prof) -> resolve3 N (fst cv) = Ok p -> coord a p = x0).
    { intros [cell v] p Hin Hr. eapply Hs; [|exact Hr]. eapply in_combine_l, Hin. }
    clear Hs. revert F X Hs'. generalize (combine cells prof) as L.
    induction L as [|cv L IH]; intros F X Hs'; cbn in X.
    + inversion X; subst. intros p c _; reflexivity.
    + binv X. binv Er. inversion Er; subst. intros p c Hp.
      rewrite (IH _ X (fun x p Hx => Hs' x p (or_intror Hx)) p c Hp). unfold add_at.
      destruct (pos_eqb r1 p) eqn:Ep; [|reflexivity]. exfalso.
      apply (HP p Hp). rewrite <- (Hs' cv r1 (or_introl eq_refl) Er0). f_equal.
      destruct r1 as [[? ?] ?], p as [[? ?] ?]. cbn in Ep.
      apply andb_prop in Ep as [Ep E3]. apply andb_prop in Ep as [E1 E2].
      apply Nat.eqb_eq in E1, E2, E3. subst; reflexivity.
Qed.
Lemma plane_source_H q s F : source_in_plane N a x0 s -> source_update_H N q s F = Ok F.
Proof. destruct s; cbn; try contradiction; reflexivity. Qed.

Lemma sources_E_match (P : pos -> Prop) q s1 s2 : (forall p, P p -> coord a p <> x0) ->
  sources_match N a x0 s1 s2 -> forall F1 F2 F1' F2', fields_agree P F1 F2 ->
  fold_res (source_update_E N q) s1 F1 = Ok F1' -> fold_res (source_update_E N q) s2 F2 = Ok F2' ->
  fields_agree P F1' F2'.
Proof.
  intros HP. induction 1 as [|s l1 l2 _ IH|s l1 l2 Hs _ IH|s l1 l2 Hs _ IH]; intros F1 F2 F1' F2' HF X1 X2.
  - cbn in X1, X2. inversion X1; inversion X2; subst. exact HF.
  - cbn in X1, X2. binv X1. binv X2. eapply IH; [|exact X1|exact X2]. eapply source_E_agree; eassumption.
  - cbn [fold_res] in X1. binv X1. eapply IH; [|exact X1|exact X2].
    intros p c Hp. rewrite (plane_source_E P q s F1 r HP Hs Er p c Hp). apply HF, Hp.
  - cbn [fold_res] in X2. binv X2. eapply IH; [|exact X1|exact X2].
    intros p c Hp. rewrite (plane_source_E P q s F2 r HP Hs Er p c Hp). apply HF, Hp.
Qed.
Lemma sources_H_match (P : pos -> Prop) q s1 s2 :
  sources_match N a x0 s1 s2 -> forall F1 F2 F1' F2', fields_agree P F1 F2 ->
  fold_res (source_update_H N q) s1 F1 = Ok F1' -> fold_res (source_update_H N q) s2 F2 = Ok F2' ->
  fields_agree P F1' F2'.
Proof.
  induction 1 as [|s l1 l2 _ IH|s l1 l2 Hs _ IH|s l1 l2 Hs _ IH]; intros F1 F2 F1' F2' HF X1 X2.
  - cbn in X1, X2. inversion X1; inversion X2; subst. exact HF.
  - cbn in X1, X2. binv X1. binv X2. eapply IH; [|exact X1|exact X2]. eapply source_H_agree; eassumption.
  - cbn [fold_res] in X1. rewrite plane_source_H in X1 by exact Hs. cbn [bind] in X1. eapply IH; eassumption.
  - cbn [fold_res] in X2. rewrite plane_source_H in X2 by exact Hs. cbn [bind] in X2. eapply IH; eassumption.
Qed.

(** ** Detectors *)
Definition far_detector (l r : nat) (d : detector) : Prop :=
  match d with
  | FieldDetector cells _ _ => forall cell p, In cell cells -> resolve3 N cell = Ok p -> far l r p
  | _ => False
  end.

Lemma resolve_lt n z i : resolve n z = Ok i -> (i < n)%nat.
Proof.
  unfold resolve. destruct ((0 <=? z) && (z <? Z.of_nat n))%Z eqn:E1.
  - intros X; inversion X; subst. apply andb_prop in E1 as [H1 H2].
    apply Z.leb_le in H1. apply Z.ltb_lt in H2. lia.
  - destruct ((- Z.of_nat n <=? z) && (z <? 0))%Z eqn:E2; [|discriminate].
    intros X; inversion X; subst. apply andb_prop in E2 as [H1 H2].
    apply Z.leb_le in H1. apply Z.ltb_lt in H2. lia.
Qed.
Lemma resolve3_in z p : resolve3 N z = Ok p -> in_grid N p.
Proof.
  destruct z as [[x y] z]. cbn. intros H. binv H. binv H. binv H. inversion H; subst.
  intros [| |]; cbn; eapply resolve_lt; eassumption.
Qed.

Lemma sample_agree P F1 F2 cells v1 v2 : fields_agree P F1 F2 ->
  (forall cell p, In cell cells -> resolve3 N cell = Ok p -> P p) ->
  sample N F1 cells = Ok v1 -> sample N F2 cells = Ok v2 ->
  map (fun v => (v AX, v AY, v AZ)) v1 = map (fun v : vec => (v AX, v AY, v AZ)) v2.
Proof.
  intros HF. revert v1 v2. induction cells as [|cell cells IH]; intros v1 v2 HP X1 X2; cbn in X1, X2.
  - inversion X1; inversion X2; reflexivity.
  - binv X1. binv X1. binv X2. binv X2. binv Er. binv Er1. inversion X1; inversion X2; subst.
    inversion Er; inversion Er1; subst. assert (r3 = r4) by congruence. subst r4.
    cbn. rewrite (IH r0 r2); [|intros; eapply HP; [right|]; eassumption|eassumption|eassumption].
    assert (P r3) by (eapply HP; [left; reflexivity|eassumption]).
    rewrite !(HF r3) by assumption. reflexivity.
Qed.
End Travel.

Definition det_cells (d : detector) : list zpos :=
  match d with FieldDetector c _ _ | CurrentDetector c _ => c | UnplacedDetector => [] end.

Section Run.
Variables (a : axis) (x0 : nat).

(** Two runs agreeing at distance. *)
Definition agree (l r : nat) (g1 g2 : grid) : Prop :=
  g_N g1 = g_N g2 /\ g_courant g1 = g_courant g2 /\ g_spacing g1 = g_spacing g2
  /\ g_steps g1 = g_steps g2
  /\ ((1 <= l)%nat /\ (1 <= r)%nat /\ sources_match (g_N g1) a x0 (g_sources g1) (g_sources g2))
  /\ fields_agree (far (g_N g1) a x0 l r) (g_E g1) (g_E g2)
  /\ fields_agree (far (g_N g1) a x0 l r) (g_H g1) (g_H g2)
  /\ fields_agree (far (g_N g1) a x0 l r) (g_abs g1) (g_abs g2)
  /\ fields_agree (far (g_N g1) a x0 l r) (g_ie g1) (g_ie g2)
  /\ fields_agree (far (g_N g1) a x0 l r) (g_im g1) (g_im g2)
  /\ Forall2 (bnd_agree (g_N g1) (far (g_N g1) a x0 l r)) (g_boundaries g1) (g_boundaries g2)
  /\ no_wrap a (g_boundaries g1).

Lemma fields_weaken (P Q : pos -> Prop) F1 F2 : (forall p, Q p -> P p) ->
  fields_agree P F1 F2 -> fields_agree Q F1 F2.
Proof. intros H HF p c Hp. apply HF, H, Hp. Qed.

Lemma phi_E_no_wrap N H bs bs' : map_res (boundary_phi_E N H) bs = Ok bs' ->
  no_wrap a bs -> no_wrap a bs'.
Proof.
  revert bs'. induction bs as [|b bs IH]; intros bs' X Hw; cbn in X.
  - inversion X. constructor.
  - binv X. binv X. inversion X; subst. inversion Hw; subst. constructor; [|apply IH; assumption].
    destruct b; cbn in Er; try (inversion Er; subst; assumption).
    + destruct (p_thick p <=? N (p_axis p))%nat; inversion Er; subst; reflexivity.
Qed.
Lemma phi_H_no_wrap N H bs bs' : map_res (boundary_phi_H N H) bs = Ok bs' ->
  no_wrap a bs -> no_wrap a bs'.
Proof.
  revert bs'. induction bs as [|b bs IH]; intros bs' X Hw; cbn in X.
  - inversion X. constructor.
  - binv X. binv X. inversion X; subst. inversion Hw; subst. constructor; [|apply IH; assumption].
    destruct b; cbn in Er; try (inversion Er; subst; assumption).
    + destruct (p_thick p <=? N (p_axis p))%nat; inversion Er; subst; reflexivity.
Qed.

Lemma Forall2_impl' {A B} (P Q : A -> B -> Prop) l1 l2 : (forall x y, P x y -> Q x y) ->
  Forall2 P l1 l2 -> Forall2 Q l1 l2.
Proof. intros H. induction 1; constructor; auto. Qed.

Lemma agree_update_E l r g1 g2 g1' g2' : agree l r g1 g2 ->
  update_E g1 = Ok g1' -> update_E g2 = Ok g2' ->
  agree l (S r) g1' g2'.
Proof.
  intros (AN & Aco & Asp & Ast & (Al & Ar & Asr) & AE & AH & Aab & Aie & Aim & AB & AW) U1 U2.
  apply update_E_inv in U1 as (bs1 & E1 & ds1 & P1 & S1 & D1 & ->).
  apply update_E_inv in U2 as (bs2 & E2 & ds2 & P2 & S2 & D2 & ->).
  rewrite <- AN, <- ?Aco, <- ?Ast in *.
  set (N := g_N g1) in *.
  pose proof (map_phi_E_agree N a x0 l r _ _ AH _ _ _ _ AB P1 P2) as HB.
  pose proof (fields_weaken _ _ _ _ (far_S_r N a x0 l r) Aie) as Aie'.
  pose proof (fields_weaken _ _ _ _ (far_S_r N a x0 l r) Aab) as Aab'.
  pose proof (fields_weaken _ _ _ _ (far_S_r N a x0 l r) AE) as AE'.
  assert (HE : fields_agree (far N a x0 l (S r)) E1 E2).
  { eapply (sources_E_match N a x0); [|exact Asr| |exact S1|exact S2]; [intros p [_ Hf]; lia|].
    apply update_E_agree; [exact Aie'|exact HB|eapply phi_E_no_wrap; eassumption|].
    intros p c Hp. unfold bulk_E.
    rewrite (AE' p c Hp), (Aab' p c Hp), (Aie' p c Hp), Aco, (curl_H_agree N a x0 l r _ _ AH p c Hp).
    reflexivity. }
  unfold agree, with_fields; cbn. fold N.
  repeat split; try assumption; try lia.
  - apply (fields_weaken _ _ _ _ (far_S_r N a x0 l r) AH).
  - apply (fields_weaken _ _ _ _ (far_S_r N a x0 l r) Aim).
  - eapply Forall2_impl'; [|exact HB]. intros ? ? [? _]; assumption.
  - eapply phi_E_no_wrap; eassumption.
Qed.

Lemma agree_update_H l r g1 g2 g1' g2' : agree l r g1 g2 ->
  update_H g1 = Ok g1' -> update_H g2 = Ok g2' ->
  agree (S l) r g1' g2'.
Proof.
  intros (AN & Aco & Asp & Ast & (Al & Ar & Asr) & AE & AH & Aab & Aie & Aim & AB & AW) U1 U2.
  apply update_H_inv in U1 as (bs1 & E1 & ds1 & P1 & S1 & D1 & ->).
  apply update_H_inv in U2 as (bs2 & E2 & ds2 & P2 & S2 & D2 & ->).
  rewrite <- AN, <- ?Aco, <- ?Ast in *.
  set (N := g_N g1) in *.
  pose proof (map_phi_H_agree N a x0 l r _ _ AE _ _ _ _ AB P1 P2) as HB.
  pose proof (fields_weaken _ _ _ _ (far_S_l N a x0 l r) Aim) as Aim'.
  pose proof (fields_weaken _ _ _ _ (far_S_l N a x0 l r) AH) as AH'.
  assert (HE : fields_agree (far N a x0 (S l) r) E1 E2).
  { eapply (sources_H_match N a x0); [exact Asr| |exact S1|exact S2].
    apply update_H_agree; [exact Aim'|exact HB|eapply phi_H_no_wrap; eassumption|].
    intros p c Hp. unfold bulk_H.
    rewrite (AH' p c Hp), (Aim' p c Hp), Aco. fold N. rewrite <- AN.
    rewrite (curl_E_agree N a x0 l r _ _ AE p c Hp). reflexivity. }
  unfold agree, with_fields; cbn. fold N.
  repeat split; try assumption; try lia.
  - apply (fields_weaken _ _ _ _ (far_S_l N a x0 l r) AE).
  - apply (fields_weaken _ _ _ _ (far_S_l N a x0 l r) Aab).
  - apply (fields_weaken _ _ _ _ (far_S_l N a x0 l r) Aie).
  - eapply Forall2_impl'; [|exact HB]. intros ? ? [? _]; assumption.
  - eapply phi_H_no_wrap; eassumption.
Qed.

Lemma agree_step l r g1 g2 g1' g2' : agree l r g1 g2 -> step g1 = Ok g1' -> step g2 = Ok g2' ->
  agree (S l) (S r) g1' g2'.
Proof.
  intros HA S1 S2.
  apply step_inv in S1 as (h1 & k1 & U1 & V1 & ->).
  apply step_inv in S2 as (h2 & k2 & U2 & V2 & ->).
  pose proof (agree_update_E _ _ _ _ _ _ HA U1 U2) as HB.
  destruct (agree_update_H _ _ _ _ _ _ HB V1 V2) as (AN & Aco & Asp & Ast & (Al & Ar & Asr) & AE & AH & Aab & Aie & Aim & AB & AW).
  unfold agree, with_fields; cbn. repeat split; try assumption. lia.
Qed.

Lemma agree_run n : forall l r g1 g2 g1' g2', agree l r g1 g2 ->
  run_steps n g1 = Ok g1' -> run_steps n g2 = Ok g2' -> agree (n + l) (n + r) g1' g2'.
Proof.
  induction n as [|n IH]; intros l r g1 g2 g1' g2' HA R1 R2; cbn in R1, R2.
  - inversion R1; inversion R2; subst. exact HA.
  - binv R1. binv R2. pose proof (agree_step _ _ _ _ _ _ HA Er Er0) as HB.
    pose proof (IH _ _ _ _ _ _ HB R1 R2) as HC.
    rewrite !Nat.add_succ_comm. exact HC.
Qed.

(** Recordings of a far field detector. *)
Definition det_agree (d1 d2 : detector) : Prop :=
  det_cells d1 = det_cells d2 /\ recordings d1 = recordings d2
  /\ (exists c e h, d1 = FieldDetector c e h) /\ (exists c e h, d2 = FieldDetector c e h).

Lemma map_res_nth {A B} (f : A -> res B) l l' i x : map_res f l = Ok l' ->
  nth_error l i = Some x -> exists y, f x = Ok y /\ nth_error l' i = Some y.
Proof.
  revert l' i. induction l as [|a' l IH]; intros l' i X Hx; cbn in X.
  - destruct i; discriminate.
  - binv X. binv X. inversion X; subst. destruct i as [|i]; cbn in Hx.
    + inversion Hx; subst. eauto.
    + cbn. eapply IH; eassumption.
Qed.

Lemma detect_E_agree N P F1 F2 d1 d2 d1' d2' : fields_agree P F1 F2 -> det_agree d1 d2 ->
  (forall cell p, In cell (det_cells d1) -> resolve3 N cell = Ok p -> P p) ->
  detect_E N F1 d1 = Ok d1' -> detect_E N F2 d2 = Ok d2' -> det_agree d1' d2' /\ det_cells d1' = det_cells d1.
Proof.
  intros HF (Hc & Hr & (c1 & e1 & h1 & ->) & (c2 & e2 & h2 & ->)) HP X1 X2. cbn in *. subst c2.
  binv X1. binv X2. inversion X1; inversion X2; subst. inversion Hr as [[He Hh]].
  pose proof (sample_agree N P F1 F2 _ _ _ HF HP Er Er0) as K.
  unfold det_agree; cbn. repeat split; eauto. rewrite !map_app, He, Hh. cbn.
  change (map vec3 r = map vec3 r0) in K. rewrite K. reflexivity.
Qed.
Lemma detect_H_agree N sp P F1 F2 d1 d2 d1' d2' : fields_agree P F1 F2 -> det_agree d1 d2 ->
  (forall cell p, In cell (det_cells d1) -> resolve3 N cell = Ok p -> P p) ->
  detect_H N sp F1 d1 = Ok d1' -> detect_H N sp F2 d2 = Ok d2' -> det_agree d1' d2' /\ det_cells d1' = det_cells d1.
Proof.
  intros HF (Hc & Hr & (c1 & e1 & h1 & ->) & (c2 & e2 & h2 & ->)) HP X1 X2. cbn in *. subst c2.
  binv X1. binv X2. inversion X1; inversion X2; subst. inversion Hr as [[He Hh]].
  pose proof (sample_agree N P F1 F2 _ _ _ HF HP Er Er0) as K.
  unfold det_agree; cbn. repeat split; eauto. rewrite !map_app, He, Hh. cbn.
  change (map vec3 r = map vec3 r0) in K. rewrite K. reflexivity.
Qed.

Lemma far_mono N l r l' r' p : (l' <= l)%nat -> (r' <= r)%nat -> far N a x0 l r p -> far N a x0 l' r' p.
Proof. intros Hl Hr [Hg Hf]. split; [exact Hg|lia]. Qed.

Lemma det_agree_step l r g1 g2 g1' g2' i d1 d2 : agree l r g1 g2 ->
  step g1 = Ok g1' -> step g2 = Ok g2' ->
  nth_error (g_detectors g1) i = Some d1 -> nth_error (g_detectors g2) i = Some d2 ->
  det_agree d1 d2 ->
  (forall cell p, In cell (det_cells d1) -> resolve3 (g_N g1) cell = Ok p -> far (g_N g1) a x0 (S l) (S r) p) ->
  exists d1' d2', nth_error (g_detectors g1') i = Some d1' /\ nth_error (g_detectors g2') i = Some d2'
    /\ det_agree d1' d2' /\ det_cells d1' = det_cells d1.
Proof.
  intros HA S1 S2 N1 N2 HD HP.
  apply step_inv in S1 as (h1 & k1 & U1 & V1 & ->).
  apply step_inv in S2 as (h2 & k2 & U2 & V2 & ->).
  pose proof (agree_update_E _ _ _ _ _ _ HA U1 U2) as HB.
  pose proof (agree_update_H _ _ _ _ _ _ HB V1 V2) as HC.
  apply update_E_inv in U1 as (bs1 & E1 & ds1 & P1 & SS1 & D1 & ->).
  apply update_E_inv in U2 as (bs2 & E2 & ds2 & P2 & SS2 & D2 & ->).
  apply update_H_inv in V1 as (bs1' & H1 & ds1' & P1' & SS1' & D1' & ->).
  apply update_H_inv in V2 as (bs2' & H2 & ds2' & P2' & SS2' & D2' & ->).
  cbn in *.
  destruct HA as (AN & _ & Asp & _). destruct HB as (_ & _ & _ & _ & _ & BE & _). destruct HC as (_ & _ & _ & _ & _ & _ & CH & _).
  cbn in *. rewrite <- AN in *. rewrite <- Asp in *.
  destruct (map_res_nth _ _ _ _ _ D1 N1) as (m1 & M1 & Q1).
  destruct (map_res_nth _ _ _ _ _ D2 N2) as (m2 & M2 & Q2).
  destruct (detect_E_agree (g_N g1) (far (g_N g1) a x0 l (S r)) E1 E2 d1 d2 m1 m2 BE HD) as [HD1 Hc1]; try assumption.
  { intros cell p Hin Hres. eapply far_mono; [| |eapply HP; eassumption]; lia. }
  destruct (map_res_nth _ _ _ _ _ D1' Q1) as (w1 & W1 & T1).
  destruct (map_res_nth _ _ _ _ _ D2' Q2) as (w2 & W2 & T2).
  destruct (detect_H_agree (g_N g1) (g_spacing g1) (far (g_N g1) a x0 (S l) (S r)) H1 H2 m1 m2 w1 w2 CH HD1) as [HD2 Hc2];
    try assumption.
  { rewrite Hc1. exact HP. }
  exists w1, w2. repeat split; try assumption; try apply HD2. congruence.
Qed.

Lemma det_agree_run n : forall l r g1 g2 g1' g2' i d1 d2, agree l r g1 g2 ->
  run_steps n g1 = Ok g1' -> run_steps n g2 = Ok g2' ->
  nth_error (g_detectors g1) i = Some d1 -> nth_error (g_detectors g2) i = Some d2 ->
  det_agree d1 d2 ->
  (forall cell p, In cell (det_cells d1) -> resolve3 (g_N g1) cell = Ok p -> far (g_N g1) a x0 (n + l) (n + r) p) ->
  exists d1' d2', nth_error (g_detectors g1') i = Some d1' /\ nth_error (g_detectors g2') i = Some d2'
    /\ det_agree d1' d2'.
Proof.
  induction n as [|n IH]; intros l r g1 g2 g1' g2' i d1 d2 HA R1 R2 N1 N2 HD HP; cbn in R1, R2.
  - inversion R1; inversion R2; subst. eauto.
  - binv R1. binv R2. pose proof (agree_step _ _ _ _ _ _ HA Er Er0) as HB.
    destruct (det_agree_step _ _ _ _ _ _ i d1 d2 HA Er Er0 N1 N2 HD) as (e1 & e2 & Q1 & Q2 & HD' & Hc).
    { intros. eapply far_mono; [| |eapply HP; eassumption]; lia. }
    destruct (step_static _ _ Er) as [St _]. static St.
    eapply IH; try eassumption.
    rewrite Hc, SN, !Nat.add_succ_r. exact HP.
Qed.
End Run.

Lemma Forall2_diag {A} (P : A -> A -> Prop) l : (forall x, P x x) -> Forall2 P l l.
Proof. intros H. induction l; constructor; auto. Qed.
Lemma pml_agree_refl P N b : pml_agree P N b b.
Proof. destruct b; cbn; auto. repeat split; auto. Qed.

Lemma differ_agree a x0 g1 g2 : differ_in_plane a x0 g1 g2 -> no_wrap a (g_boundaries g1) -> agree a x0 1 1 g1 g2.
Proof.
  intros (HN & Hsp & Hc & Ht & Hb & Hs & HF) Hw.
  assert (F : forall p, far (g_N g1) a x0 1 1 p -> in_grid (g_N g1) p /\ coord a p <> x0).
  { intros p [Hg Hf]. split; [exact Hg|lia]. }
  assert (K : forall p c, far (g_N g1) a x0 1 1 p ->
     g_E g1 p c = g_E g2 p c /\ g_H g1 p c = g_H g2 p c /\ g_abs g1 p c = g_abs g2 p c
     /\ g_ie g1 p c = g_ie g2 p c /\ g_im g1 p c = g_im g2 p c).
  { intros p c Hp. destruct (F p Hp). apply HF; assumption. }
  unfold agree, fields_agree.
  repeat (split; [solve [assumption | intros p c Hp; apply (K p c Hp) | split; [lia|split; [lia|exact Hs]]]|]).
  split; [|exact Hw].
  rewrite <- Hb. apply Forall2_diag. intros; apply pml_agree_refl.
Qed.

(** A change confined to the plane [x0] is felt at most [n] cells away. *)
Lemma change_stays_near n a x0 g1 g2 g1' g2' :
  differ_in_plane a x0 g1 g2 -> no_wrap a (g_boundaries g1) ->
  run_steps n g1 = Ok g1' -> run_steps n g2 = Ok g2' ->
  forall p c, in_grid (g_N g1) p -> (n < dist1 (coord a p) x0)%nat ->
    g_E g1' p c = g_E g2' p c /\ g_H g1' p c = g_H g2' p c.
Proof.
  intros HD Hw R1 R2 p c Hp Hd.
  pose proof (agree_run a x0 n 1 1 g1 g2 g1' g2' (differ_agree _ _ _ _ HD Hw) R1 R2)
    as (_ & _ & _ & _ & _ & AE & AH & _).
  destruct (run_steps_static n g1 g1' R1) as [St _]. static St. rewrite SN in AE, AH.
  assert (far (g_N g1) a x0 (n + 1) (n + 1) p) by (split; [exact Hp|unfold dist1 in Hd; lia]).
  split; [apply AE|apply AH]; assumption.
Qed.

Lemma change_not_recorded n a x0 g1 g2 g1' g2' i cells Es1 Hs1 Es2 Hs2 :
  differ_in_plane a x0 g1 g2 -> no_wrap a (g_boundaries g1) ->
  run_steps n g1 = Ok g1' -> run_steps n g2 = Ok g2' ->
  nth_error (g_detectors g1) i = Some (FieldDetector cells Es1 Hs1) ->
  nth_error (g_detectors g2) i = Some (FieldDetector cells Es2 Hs2) ->
  recordings (FieldDetector cells Es1 Hs1) = recordings (FieldDetector cells Es2 Hs2) ->
  (forall cell p, In cell cells -> resolve3 (g_N g1) cell = Ok p -> (n < dist1 (coord a p) x0)%nat) ->
  exists d1 d2, nth_error (g_detectors g1') i = Some d1 /\ nth_error (g_detectors g2') i = Some d2
    /\ recordings d1 = recordings d2.
Proof.
  intros HD Hw R1 R2 N1 N2 HR Hfar.
  destruct (det_agree_run a x0 n 1 1 g1 g2 g1' g2' i _ _ (differ_agree _ _ _ _ HD Hw) R1 R2 N1 N2)
    as (d1 & d2 & Q1 & Q2 & (_ & Q3 & _)).
  - repeat split; cbn; eauto.
  - intros cell p Hin Hr. cbn in Hin. specialize (Hfar cell p Hin Hr). split; [eapply resolve3_in, Hr|].
    unfold dist1 in Hfar. lia.
  - eauto.
Qed.
