(** In a grid one cell thick along an axis the two polarizations do not mix. *)
From Coq Require Import Reals ZArith List Bool Lra Lia Psatz.
From Verif Require Proof_Plane.
From Verif Require Import Base BaseLemmas Model_FDTD Spec_FDTD Proof_FDTD Proof_Propagate Proof_Reverse Proof_Causal Spec_Twin.
Import ListNotations.
Open Scope R_scope.

Section Step.
  Variables (ax0 : axis) (z : bool) (N : shape3).
  Hypothesis NZ : N ax0 = 1%nat.
  Definition same_phiE (b1 b2 : boundary) : Prop :=
    match b1, b2 with PMLb p1, PMLb p2 => forall q c, in_grid N (pml_cell N p1 q) -> part ax0 z c -> p_phiE p1 q c = p_phiE p2 q c | _, _ => True end.
  Definition same_phiH (b1 b2 : boundary) : Prop :=
    match b1, b2 with PMLb p1, PMLb p2 => forall q c, in_grid N (pml_cell N p1 q) -> part ax0 (negb z) c -> p_phiH p1 q c = p_phiH p2 q c | _, _ => True end.
  Lemma grid_z p : in_grid N p -> coord ax0 p = 0%nat.
  Proof using NZ. intros G. pose proof (G ax0). lia. Qed.
  Lemma grid_down b p : in_grid N p -> in_grid N (setc b (coord b p - 1) p).
  Proof using. clear NZ. intros G a. rewrite coord_setc. pose proof (G a). destruct (axis_eqb_spec a b) as [->|]; lia. Qed.
  Lemma grid_up b p : in_grid N p -> (S (coord b p) < N b)%nat -> in_grid N (setc b (S (coord b p)) p).
  Proof using. clear NZ. intros G B a. rewrite coord_setc. pose proof (G a). destruct (axis_eqb_spec a b) as [->|]; lia. Qed.
  Lemma dbwd_same y F1 F2 b c p : same_part ax0 y N F1 F2 -> in_grid N p -> part ax0 y c -> dbwd F1 b c p = dbwd F2 b c p.
  Proof using. clear NZ. intros A G C. unfold dbwd. rewrite (A p c G C), (A _ c (grid_down b p G) C). reflexivity. Qed.
  Lemma dfwd_same y F1 F2 b c p : same_part ax0 y N F1 F2 -> in_grid N p -> part ax0 y c -> dfwd N F1 b c p = dfwd N F2 b c p.
  Proof using.
    clear NZ. intros A G C. unfold dfwd. destruct (Nat.ltb_spec (S (coord b p)) (N b)) as [B|B]; [|reflexivity].
    rewrite (A p c G C), (A _ c (grid_up b p G B) C). reflexivity.
  Qed.
  Lemma dbwd_none F c p : in_grid N p -> dbwd F ax0 c p = 0.
  Proof using NZ. intros G. unfold dbwd. rewrite (grid_z p G). reflexivity. Qed.
  Lemma dfwd_none F c p : in_grid N p -> dfwd N F ax0 c p = 0.
  Proof using NZ. intros G. unfold dfwd. rewrite (grid_z p G), NZ. reflexivity. Qed.
  Lemma cell_same p1 p2 q : p_axis p1 = p_axis p2 -> p_high p1 = p_high p2 -> p_thick p1 = p_thick p2 -> pml_cell N p1 q = pml_cell N p2 q.
  Proof using. intros A B C. unfold pml_cell, pml_offset. rewrite A, B, C. reflexivity. Qed.
  Lemma curl_H_same H1 H2 p c : same_part ax0 (negb z) N H1 H2 -> in_grid N p -> part ax0 z c -> curl_H H1 p c = curl_H H2 p c.
  Proof using NZ.
    intros A G C. assert (D : forall b d, part ax0 (negb z) d -> dbwd H1 b d p = dbwd H2 b d p) by (intros; eapply dbwd_same; eassumption).
    assert (Z : forall F d, dbwd F ax0 d p = 0) by (intros; apply dbwd_none, G). unfold curl_H. clear NZ. destruct ax0; destruct z; destruct c; cbn [part negb] in C, D; try congruence; rewrite ?Z; rewrite ?D by (reflexivity || discriminate); reflexivity.
  Qed.
  Lemma curl_E_same E1 E2 p c : same_part ax0 z N E1 E2 -> in_grid N p -> part ax0 (negb z) c -> curl_E N E1 p c = curl_E N E2 p c.
  Proof using NZ.
    intros A G C. assert (D : forall b d, part ax0 z d -> dfwd N E1 b d p = dfwd N E2 b d p) by (intros; eapply dfwd_same; eassumption).
    assert (Z : forall F d, dfwd N F ax0 d p = 0) by (intros; apply dfwd_none, G). unfold curl_E. clear NZ. destruct ax0; destruct z; destruct c; cbn [part negb] in C, D; try congruence; rewrite ?Z; rewrite ?D by (reflexivity || discriminate); reflexivity.
  Qed.

  Lemma twin_phi_E H1 H2 b1 b2 b1' b2' : same_part ax0 (negb z) N H1 H2 -> same_part_boundary ax0 z N b1 b2 -> boundary_phi_E N H1 b1 = Ok b1' -> boundary_phi_E N H2 b2 = Ok b2' ->
    same_part_boundary ax0 z N b1' b2' /\ same_phiE b1' b2'.
  Proof using NZ.
    intros HF Hb E1 E2. destruct b1 as [ax|p1| |], b2 as [ax2|p2| |]; cbn in Hb; try congruence;
      cbn in E1, E2; try (inversion E1; inversion E2; subst; cbn; split; solve [congruence | auto]).
    destruct (p_thick p1 <=? N (p_axis p1))%nat; [|discriminate]. destruct (p_thick p2 <=? N (p_axis p2))%nat; [|discriminate].
    inversion E1; inversion E2; subst b1' b2'. clear E1 E2. destruct Hb as (B1 & B2 & B3 & B4 & B5 & B6 & B7 & Bpsi).
    assert (K : forall q x c, in_grid N (pml_cell N p1 q) -> part ax0 z x -> p_psiE (pml_phi_E N H1 p1) x q c = p_psiE (pml_phi_E N H2 p2) x q c).
    { intros q x c G X. cbn [pml_phi_E p_psiE]. rewrite (proj1 (Bpsi q x c G) X), B4, B5. f_equal.
      assert (D : forall b d, part ax0 (negb z) d -> dbwd (fun q c => H1 (pml_cell N p1 q) c) b d q = dbwd (fun q c => H2 (pml_cell N p2 q) c) b d q).
      { intros b d Nd. unfold dbwd. destruct (Nat.leb_spec 1 (coord b q)) as [B|B]; [|reflexivity]. rewrite <- !(cell_same p1 p2) by assumption.
        rewrite cell_down by exact B. rewrite (HF _ d G Nd), (HF _ d (grid_down b _ G) Nd). reflexivity. }
      assert (Z : forall F d, dbwd F ax0 d q = 0).
      { intros F d. unfold dbwd. pose proof (G ax0) as Gz. rewrite cell_coord in Gz. destruct (Nat.leb_spec 1 (coord ax0 q)); [|reflexivity]. destruct (axis_eqb ax0 (p_axis p1)); lia. }
      destruct ax0; destruct z; destruct x; cbn [part negb] in X, D; try congruence; destruct c; try reflexivity; rewrite ?Z; rewrite ?D by (reflexivity || discriminate); reflexivity. }
    split.
    - do 7 (split; [assumption|]). intros q x c G. split; [apply K, G|apply (Bpsi q x c G)].
    - intros q c G X. destruct c.
      + change (p_psiE (pml_phi_E N H1 p1) AX q AY - p_psiE (pml_phi_E N H1 p1) AX q AZ = p_psiE (pml_phi_E N H2 p2) AX q AY - p_psiE (pml_phi_E N H2 p2) AX q AZ).
        rewrite !K by assumption. reflexivity.
      + change (p_psiE (pml_phi_E N H1 p1) AY q AZ - p_psiE (pml_phi_E N H1 p1) AY q AX = p_psiE (pml_phi_E N H2 p2) AY q AZ - p_psiE (pml_phi_E N H2 p2) AY q AX).
        rewrite !K by assumption. reflexivity.
      + change (p_psiE (pml_phi_E N H1 p1) AZ q AX - p_psiE (pml_phi_E N H1 p1) AZ q AY = p_psiE (pml_phi_E N H2 p2) AZ q AX - p_psiE (pml_phi_E N H2 p2) AZ q AY).
        rewrite !K by assumption. reflexivity.
  Qed.
  Lemma twin_phi_H E1 E2 b1 b2 b1' b2' : same_part ax0 z N E1 E2 -> same_part_boundary ax0 z N b1 b2 -> boundary_phi_H N E1 b1 = Ok b1' -> boundary_phi_H N E2 b2 = Ok b2' ->
    same_part_boundary ax0 z N b1' b2' /\ same_phiH b1' b2'.
  Proof using NZ.
    intros HF Hb X1 X2. destruct b1 as [ax|p1| |], b2 as [ax2|p2| |]; cbn in Hb; try congruence;
      cbn in X1, X2; try (inversion X1; inversion X2; subst; cbn; split; solve [congruence | auto]).
    destruct (Nat.leb_spec (p_thick p1) (N (p_axis p1))) as [Ht|]; [|discriminate]. destruct (p_thick p2 <=? N (p_axis p2))%nat; [|discriminate].
    inversion X1; inversion X2; subst b1' b2'. clear X1 X2. destruct Hb as (B1 & B2 & B3 & B4 & B5 & B6 & B7 & Bpsi).
    assert (K : forall q x c, in_grid N (pml_cell N p1 q) -> part ax0 (negb z) x -> p_psiH (pml_phi_H N E1 p1) x q c = p_psiH (pml_phi_H N E2 p2) x q c).
    { intros q x c G X. cbn [pml_phi_H p_psiH]. rewrite (proj2 (Bpsi q x c G) X), B6, B7. f_equal.
      assert (ES : pml_shape N p1 = pml_shape N p2) by (unfold pml_shape; rewrite B1, B3; reflexivity). rewrite <- ES.
      assert (D : forall b d, part ax0 z d -> dfwd (pml_shape N p1) (fun q c => E1 (pml_cell N p1 q) c) b d q = dfwd (pml_shape N p1) (fun q c => E2 (pml_cell N p2 q) c) b d q).
      { intros b d Nd. unfold dfwd. destruct (Nat.ltb_spec (S (coord b q)) (pml_shape N p1 b)) as [B|B]; [|reflexivity]. rewrite <- !(cell_same p1 p2) by assumption.
        assert (U : (S (coord b (pml_cell N p1 q)) < N b)%nat).
        { rewrite cell_coord. unfold pml_shape in B. destruct (axis_eqb_spec b (p_axis p1)) as [e|]; [|exact B]. rewrite e in *. unfold pml_offset. destruct (p_high p1); lia. }
        rewrite cell_up. rewrite (HF _ d G Nd), (HF _ d (grid_up b _ G U) Nd). reflexivity. }
      assert (Z : forall F d, dfwd (pml_shape N p1) F ax0 d q = 0).
      { intros F d. unfold dfwd, pml_shape. destruct (axis_eqb_spec ax0 (p_axis p1)) as [e|e].
        - rewrite <- e in Ht. destruct (Nat.ltb_spec (S (coord ax0 q)) (p_thick p1)); [lia|reflexivity].
        - destruct (Nat.ltb_spec (S (coord ax0 q)) (N ax0)); [lia|reflexivity]. }
      destruct ax0; destruct z; destruct x; cbn [part negb] in X, D; try congruence; destruct c; try reflexivity; rewrite ?Z; rewrite ?D by (reflexivity || discriminate); reflexivity. }
    split.
    - do 7 (split; [assumption|]). intros q x c G. split; [apply (Bpsi q x c G)|apply K, G].
    - intros q c G X. destruct c.
      + change (p_psiH (pml_phi_H N E1 p1) AX q AY - p_psiH (pml_phi_H N E1 p1) AX q AZ = p_psiH (pml_phi_H N E2 p2) AX q AY - p_psiH (pml_phi_H N E2 p2) AX q AZ).
        rewrite !K by assumption. reflexivity.
      + change (p_psiH (pml_phi_H N E1 p1) AY q AZ - p_psiH (pml_phi_H N E1 p1) AY q AX = p_psiH (pml_phi_H N E2 p2) AY q AZ - p_psiH (pml_phi_H N E2 p2) AY q AX).
        rewrite !K by assumption. reflexivity.
      + change (p_psiH (pml_phi_H N E1 p1) AZ q AX - p_psiH (pml_phi_H N E1 p1) AZ q AY = p_psiH (pml_phi_H N E2 p2) AZ q AX - p_psiH (pml_phi_H N E2 p2) AZ q AY).
        rewrite !K by assumption. reflexivity.
  Qed.
  Lemma twins_phi_E H1 H2 : same_part ax0 (negb z) N H1 H2 -> forall bs1 bs2 bs1' bs2', Forall2 (same_part_boundary ax0 z N) bs1 bs2 ->
    map_res (boundary_phi_E N H1) bs1 = Ok bs1' -> map_res (boundary_phi_E N H2) bs2 = Ok bs2' ->
    Forall2 (fun b1 b2 => same_part_boundary ax0 z N b1 b2 /\ same_phiE b1 b2) bs1' bs2'.
  Proof using NZ.
    intros HF bs1 bs2 bs1' bs2' HB. revert bs1' bs2'. induction HB as [|b1 b2 r1 r2 Hb _ IH]; intros bs1' bs2' X1 X2; cbn [map_res] in X1, X2.
    - injection X1 as <-. injection X2 as <-. constructor.
    - apply bind_ok in X1 as (c1 & Y1 & X1). apply bind_ok in X1 as (s1 & Z1 & X1). injection X1 as <-.
      apply bind_ok in X2 as (c2 & Y2 & X2). apply bind_ok in X2 as (s2 & Z2 & X2). injection X2 as <-.
      constructor; [eapply twin_phi_E; eassumption|apply IH; assumption].
  Qed.
  Lemma twins_phi_H E1 E2 : same_part ax0 z N E1 E2 -> forall bs1 bs2 bs1' bs2', Forall2 (same_part_boundary ax0 z N) bs1 bs2 ->
    map_res (boundary_phi_H N E1) bs1 = Ok bs1' -> map_res (boundary_phi_H N E2) bs2 = Ok bs2' ->
    Forall2 (fun b1 b2 => same_part_boundary ax0 z N b1 b2 /\ same_phiH b1 b2) bs1' bs2'.
  Proof using NZ.
    intros HF bs1 bs2 bs1' bs2' HB. revert bs1' bs2'. induction HB as [|b1 b2 r1 r2 Hb _ IH]; intros bs1' bs2' X1 X2; cbn [map_res] in X1, X2.
    - injection X1 as <-. injection X2 as <-. constructor.
    - apply bind_ok in X1 as (c1 & Y1 & X1). apply bind_ok in X1 as (s1 & Z1 & X1). injection X1 as <-.
      apply bind_ok in X2 as (c2 & Y2 & X2). apply bind_ok in X2 as (s2 & Z2 & X2). injection X2 as <-.
      constructor; [eapply twin_phi_H; eassumption|apply IH; assumption].
  Qed.
  Lemma local_cell pm p : in_pml N pm p = true -> pml_cell N pm (pml_local N pm p) = p.
  Proof using.
    clear NZ. unfold in_pml. intros H. apply andb_prop in H as [H _]. apply Nat.leb_le in H. unfold pml_cell, pml_local. apply pos_ext. intros a. rewrite !coord_setc.
    destruct (axis_eqb_spec a (p_axis pm)) as [->|]; [|reflexivity]. destruct (axis_eqb_spec (p_axis pm) (p_axis pm)); [lia|congruence].
  Qed.
  Lemma face_grid a v p : in_grid N p -> (v < N a)%nat -> in_grid N (setc a v p).
  Proof using. clear NZ. intros G B b. rewrite coord_setc. destruct (axis_eqb_spec b a) as [->|]; [exact B|apply G]. Qed.
  Lemma update_E_same co ie1 ie2 bs1 bs2 : same_part ax0 z N ie1 ie2 -> Forall2 (fun b1 b2 => same_part_boundary ax0 z N b1 b2 /\ same_phiE b1 b2) bs1 bs2 -> forall E1 E2, same_part ax0 z N E1 E2 ->
    same_part ax0 z N (fold_left (fun E b => boundary_update_E N co ie1 b E) bs1 E1) (fold_left (fun E b => boundary_update_E N co ie2 b E) bs2 E2).
  Proof using.
    clear NZ. intros HI. induction 1 as [|b1 b2 r1 r2 [Hb Hp] _ IH]; intros E1 E2 HE; [exact HE|]. cbn [fold_left]. apply IH. clear IH. intros p c G C.
    destruct b1 as [ax|p1| |], b2 as [ax2|p2| |]; cbn in Hb; try congruence; cbn [boundary_update_E]; try (apply HE; assumption).
    - injection Hb as <-. destruct (_ =? _)%nat; [|apply HE; assumption]. apply HE; [|exact C]. apply face_grid; [exact G|]. pose proof (G ax). lia.
    - destruct Hb as (B1 & B2 & B3 & _). assert (EI : in_pml N p2 p = in_pml N p1 p) by (unfold in_pml, pml_offset; rewrite B1, B2, B3; reflexivity). rewrite EI.
      destruct (in_pml N p1 p) eqn:Ip; [|apply HE; assumption]. assert (EL : pml_local N p2 p = pml_local N p1 p) by (unfold pml_local, pml_offset; rewrite B1, B2, B3; reflexivity).
      rewrite EL, (HE p c G C), (HI p c G C), (Hp (pml_local N p1 p) c) by (try assumption; rewrite local_cell by exact Ip; exact G). reflexivity.
  Qed.
  Lemma update_H_same co im1 im2 bs1 bs2 : same_part ax0 (negb z) N im1 im2 -> Forall2 (fun b1 b2 => same_part_boundary ax0 z N b1 b2 /\ same_phiH b1 b2) bs1 bs2 -> forall H1 H2, same_part ax0 (negb z) N H1 H2 ->
    same_part ax0 (negb z) N (fold_left (fun H b => boundary_update_H N co im1 b H) bs1 H1) (fold_left (fun H b => boundary_update_H N co im2 b H) bs2 H2).
  Proof using.
    clear NZ. intros HI. induction 1 as [|b1 b2 r1 r2 [Hb Hp] _ IH]; intros H1 H2 HE; [exact HE|]. cbn [fold_left]. apply IH. clear IH. intros p c G C.
    destruct b1 as [ax|p1| |], b2 as [ax2|p2| |]; cbn in Hb; try congruence; cbn [boundary_update_H]; try (apply HE; assumption).
    - injection Hb as <-. destruct (_ =? _)%nat; [|apply HE; assumption]. apply HE; [|exact C]. apply face_grid; [exact G|]. pose proof (G ax). lia.
    - destruct Hb as (B1 & B2 & B3 & _). assert (EI : in_pml N p2 p = in_pml N p1 p) by (unfold in_pml, pml_offset; rewrite B1, B2, B3; reflexivity). rewrite EI.
      destruct (in_pml N p1 p) eqn:Ip; [|apply HE; assumption]. assert (EL : pml_local N p2 p = pml_local N p1 p) by (unfold pml_local, pml_offset; rewrite B1, B2, B3; reflexivity).
      rewrite EL, (HE p c G C), (HI p c G C), (Hp (pml_local N p1 p) c) by (try assumption; rewrite local_cell by exact Ip; exact G). reflexivity.
  Qed.
  Lemma source_E_same y q s F1 F2 F1' F2' : same_part ax0 y N F1 F2 -> source_update_E N q s F1 = Ok F1' -> source_update_E N q s F2 = Ok F2' -> same_part ax0 y N F1' F2'.
  Proof using.
    clear NZ. intros HF X1 X2. destruct s as [cell amp sg|cells prof sg|lo hi ep hp amp per ph|]; cbn [source_update_E] in X1, X2.
    - apply bind_ok in X1 as (v1 & V1 & X1). apply bind_ok in X1 as (c1 & C1 & X1). injection X1 as <-.
      apply bind_ok in X2 as (v2 & V2 & X2). apply bind_ok in X2 as (c2 & C2 & X2). injection X2 as <-.
      rewrite V1 in V2. injection V2 as <-. rewrite C1 in C2. injection C2 as <-. intros p c G C. unfold add_at. rewrite (HF p c G C). reflexivity.
    - apply bind_ok in X1 as (v1 & V1 & X1). apply bind_ok in X2 as (v2 & V2 & X2). rewrite V1 in V2. injection V2 as <-. clear V1.
      revert F1 F2 HF X1 X2. generalize (combine cells prof) as L. induction L as [|cv L IH]; intros F1 F2 HF X1 X2; cbn [fold_res] in X1, X2.
      + injection X1 as <-. injection X2 as <-. exact HF.
      + apply bind_ok in X1 as (G1 & Y1 & X1). apply bind_ok in X2 as (G2 & Y2 & X2). apply (IH G1 G2); [|exact X1|exact X2].
        apply bind_ok in Y1 as (c1 & C1 & Y1). injection Y1 as <-. apply bind_ok in Y2 as (c2 & C2 & Y2). injection Y2 as <-.
        rewrite C1 in C2. injection C2 as <-. intros p c G C. unfold add_at. rewrite (HF p c G C). reflexivity.
    - destruct (per =? 0)%Z; [discriminate|]. destruct (negb _); [discriminate|]. injection X1 as <-. injection X2 as <-. intros p c G C. rewrite (HF p c G C). reflexivity.
    - discriminate.
  Qed.
  Lemma sources_E_same y q ss : forall F1 F2 F1' F2', same_part ax0 y N F1 F2 -> fold_res (source_update_E N q) ss F1 = Ok F1' -> fold_res (source_update_E N q) ss F2 = Ok F2' -> same_part ax0 y N F1' F2'.
  Proof using.
    clear NZ. induction ss as [|s ss IH]; intros F1 F2 F1' F2' HF X1 X2; cbn [fold_res] in X1, X2.
    - injection X1 as <-. injection X2 as <-. exact HF.
    - apply bind_ok in X1 as (G1 & Y1 & X1). apply bind_ok in X2 as (G2 & Y2 & X2). eapply IH; [|exact X1|exact X2]. eapply source_E_same; eassumption.
  Qed.
  Lemma source_H_same y q s F1 F2 F1' F2' : same_part ax0 y N F1 F2 -> source_update_H N q s F1 = Ok F1' -> source_update_H N q s F2 = Ok F2' -> same_part ax0 y N F1' F2'.
  Proof using.
    clear NZ. intros HF X1 X2. destruct s as [cell amp sg|cells prof sg|lo hi ep hp amp per ph|]; cbn [source_update_H] in X1, X2;
      try (injection X1 as <-; injection X2 as <-; exact HF); try discriminate.
    destruct (per =? 0)%Z; [discriminate|]. destruct (negb _); [discriminate|]. injection X1 as <-. injection X2 as <-. intros p c G C. rewrite (HF p c G C). reflexivity.
  Qed.
  Lemma sources_H_same y q ss : forall F1 F2 F1' F2', same_part ax0 y N F1 F2 -> fold_res (source_update_H N q) ss F1 = Ok F1' -> fold_res (source_update_H N q) ss F2 = Ok F2' -> same_part ax0 y N F1' F2'.
  Proof using.
    clear NZ. induction ss as [|s ss IH]; intros F1 F2 F1' F2' HF X1 X2; cbn [fold_res] in X1, X2.
    - injection X1 as <-. injection X2 as <-. exact HF.
    - apply bind_ok in X1 as (G1 & Y1 & X1). apply bind_ok in X2 as (G2 & Y2 & X2). eapply IH; [|exact X1|exact X2]. eapply source_H_same; eassumption.
  Qed.
  Lemma twin_forget (Q : boundary -> boundary -> Prop) l1 l2 : Forall2 (fun b1 b2 => same_part_boundary ax0 z N b1 b2 /\ Q b1 b2) l1 l2 -> Forall2 (same_part_boundary ax0 z N) l1 l2.
  Proof using. clear NZ. induction 1 as [|b1 b2 r1 r2 [H _] _ IH]; constructor; assumption. Qed.
End Step.

Lemma twin_step ax0 z g1 g2 g1' g2' : same_polarization ax0 z g1 g2 -> step g1 = Ok g1' -> step g2 = Ok g2' -> same_polarization ax0 z g1' g2'.
Proof.
  intros (N0 & NZ & Co & St & So & ZE & AH & ZI & ZA & AI & BB) S1 S2.
  apply step_inv in S1 as (h1 & k1 & UE1 & UH1 & ->). apply step_inv in S2 as (h2 & k2 & UE2 & UH2 & ->).
  apply update_E_inv in UE1 as (b1 & E1 & d1 & MB1 & FE1 & _ & ->). apply update_E_inv in UE2 as (b2 & E2 & d2 & MB2 & FE2 & _ & ->).
  apply update_H_inv in UH1 as (b1' & H1 & d1' & MH1 & FH1 & _ & ->). apply update_H_inv in UH2 as (b2' & H2 & d2' & MH2 & FH2 & _ & ->).
  cbn [with_fields g_boundaries g_sources g_N g_E g_H g_steps g_detectors g_courant g_im g_ie g_abs] in *.
  rewrite <- N0, <- St, <- So, <- Co in *.
  pose proof (twins_phi_E ax0 z (g_N g1) NZ _ _ AH _ _ _ _ BB MB1 MB2) as P1.
  assert (BE : same_part ax0 z (g_N g1) (bulk_E g1) (bulk_E g2)).
  { intros p c G C. unfold bulk_E. rewrite (ZE p c G C), (ZI p c G C), (ZA p c G C), <- Co. rewrite (curl_H_same ax0 z (g_N g1) NZ (g_H g1) (g_H g2)) by assumption. reflexivity. }
  assert (Z3 : same_part ax0 z (g_N g1) E1 E2) by (eapply sources_E_same; [|exact FE1|exact FE2]; apply update_E_same; assumption).
  pose proof (twins_phi_H ax0 z (g_N g1) NZ _ _ Z3 _ _ _ _ (twin_forget _ _ _ _ _ _ P1) MH1 MH2) as P2.
  assert (BH : same_part ax0 (negb z) (g_N g1) (bulk_H (with_fields g1 E1 (g_H g1) (g_steps g1) b1 d1)) (bulk_H (with_fields g2 E2 (g_H g2) (g_steps g1) b2 d2))).
  { intros p c G C. unfold bulk_H. cbn [with_fields g_N g_E g_H g_courant g_im]. rewrite (AH p c G C), (AI p c G C), <- Co, <- N0.
    rewrite (curl_E_same ax0 z (g_N g1) NZ E1 E2) by assumption. reflexivity. }
  assert (A3 : same_part ax0 (negb z) (g_N g1) H1 H2) by (eapply sources_H_same; [|exact FH1|exact FH2]; apply update_H_same; assumption).
  unfold same_polarization. cbn [with_fields g_boundaries g_sources g_N g_E g_H g_steps g_detectors g_courant g_im g_ie g_abs].
  repeat (split; [first [assumption|reflexivity|congruence]|]). eapply twin_forget, P2.
Qed.
Lemma twin_run ax0 z n : forall g1 g2 g1' g2', same_polarization ax0 z g1 g2 -> run_steps n g1 = Ok g1' -> run_steps n g2 = Ok g2' -> same_polarization ax0 z g1' g2'.
Proof.
  induction n as [|n IH]; intros g1 g2 g1' g2' T R1 R2; cbn [run_steps] in R1, R2.
  - injection R1 as <-. injection R2 as <-. exact T.
  - apply bind_ok in R1 as (k1 & S1 & R1). apply bind_ok in R2 as (k2 & S2 & R2). eapply IH; [eapply twin_step; eassumption|exact R1|exact R2].
Qed.
