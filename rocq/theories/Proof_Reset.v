(** Resetting a grid; silence with and without a PML; witnesses. *)
From Coq Require Import Reals ZArith String List Bool Lra Lia Psatz.
From Verif Require Import Base BaseLemmas Model_FDTD Model_Register Spec_FDTD Proof_Torus Proof_FDTD Proof_Energy Proof_Propagate Proof_Steps Proof_Linear.
Import ListNotations.
Open Scope R_scope.

(** Two grids with the same dynamics and the same fields on all cells. *)
Definition equal_state (g1 g2 : grid) : Prop :=
  same_setup g1 g2 /\ g_steps g1 = g_steps g2 /\ g_sources g1 = g_sources g2
  /\ g_boundaries g1 = g_boundaries g2
  /\ fields_agree (in_grid (g_N g1)) (g_E g1) (g_E g2)
  /\ fields_agree (in_grid (g_N g1)) (g_H g1) (g_H g2).

Lemma copies_E_agree N co ie bs : no_pml bs -> forall F1 F2, fields_agree (in_grid N) F1 F2 ->
  fields_agree (in_grid N) (fold_left (fun E x => boundary_update_E N co ie x E) bs F1)
                   (fold_left (fun E x => boundary_update_E N co ie x E) bs F2).
Proof.
  induction 1 as [|x bs Hx _ IH]; intros F1 F2 HF; cbn [fold_left]; [exact HF|].
  apply IH. destruct x; cbn in Hx; try contradiction; cbn [boundary_update_E]; [|exact HF].
  intros p c Hp. destruct (coord a p =? 0)%nat; apply HF; [|exact Hp].
  apply setc_in_grid'; [exact Hp|]. specialize (Hp a). lia.
Qed.
Lemma copies_H_agree N co im bs : no_pml bs -> forall F1 F2, fields_agree (in_grid N) F1 F2 ->
  fields_agree (in_grid N) (fold_left (fun E x => boundary_update_H N co im x E) bs F1)
                   (fold_left (fun E x => boundary_update_H N co im x E) bs F2).
Proof.
  induction 1 as [|x bs Hx _ IH]; intros F1 F2 HF; cbn [fold_left]; [exact HF|].
  apply IH. destruct x; cbn in Hx; try contradiction; cbn [boundary_update_H]; [|exact HF].
  intros p c Hp. destruct (coord a p =? N a - 1)%nat; apply HF; [|exact Hp].
  apply setc_in_grid'; [exact Hp|]. specialize (Hp a). lia.
Qed.
Lemma dbwd_agree' N (F1 F2 : field) x c p : fields_agree (in_grid N) F1 F2 -> in_grid N p -> dbwd F1 x c p = dbwd F2 x c p.
Proof.
  intros HF Hp. unfold dbwd. destruct (Nat.leb_spec 1 (coord x p)); [|reflexivity].
  rewrite !(HF _ c); [reflexivity| |exact Hp]. apply setc_in_grid'; [exact Hp|]. specialize (Hp x). lia.
Qed.
Lemma dfwd_agree' N (F1 F2 : field) x c p : fields_agree (in_grid N) F1 F2 -> in_grid N p -> dfwd N F1 x c p = dfwd N F2 x c p.
Proof.
  intros HF Hp. unfold dfwd. destruct (Nat.ltb_spec (S (coord x p)) (N x)); [|reflexivity].
  rewrite !(HF _ c); [reflexivity|exact Hp|]. apply setc_in_grid'; [exact Hp|exact H].
Qed.

Lemma equal_step g1 g2 g1' g2' : no_pml (g_boundaries g1) -> equal_state g1 g2 ->
  step g1 = Ok g1' -> step g2 = Ok g2' -> equal_state g1' g2'.
Proof.
  intros Hb ((HN & HP & HC & HA & HI & HM) & HT & HS & HB & HE & HH) X1 X2.
  assert (Hb2 : no_pml (g_boundaries g2)) by (rewrite <- HB; exact Hb).
  destruct (step_no_pml g1 g1' Hb X1) as (d1 & e1 & RE1 & RH1 & _ & _ & G1).
  destruct (step_no_pml g2 g2' Hb2 X2) as (d2 & e2 & RE2 & RH2 & _ & _ & G2).
  destruct (step_static _ _ X1) as [St1 Ht1]. destruct (step_static _ _ X2) as [St2 Ht2].
  destruct St1 as (SN & Ssp & Sco & Sts & Sab & Sie & Sim & Ssr & Sob & Sat).
  destruct St2 as (SN2 & Ssp2 & Sco2 & Sts2 & Sab2 & Sie2 & Sim2 & Ssr2 & Sob2 & Sat2).
  rewrite <- HB, <- HS, <- HT, <- ?HI, <- ?HC, <- ?HN, <- ?HM in RE2.
  rewrite <- HB, <- HS, <- HT, <- ?HI, <- ?HC, <- ?HN, <- ?HM in RH2.
  assert (AE : fields_agree (in_grid (g_N g1)) (g_E g1') (g_E g2')).
  { eapply sources_E_agree; [|exact RE1|exact RE2]. apply copies_E_agree; [exact Hb|].
    intros p c Hp. unfold bulk_E. rewrite HA, HC, HI, (HE p c Hp).
    assert (curl_H (g_H g1) p c = curl_H (g_H g2) p c) as ->; [|reflexivity].
    destruct c; cbn [curl_H]; rewrite !(dbwd_agree' (g_N g1) (g_H g1) (g_H g2)) by assumption; reflexivity. }
  assert (AH : fields_agree (in_grid (g_N g1)) (g_H g1') (g_H g2')).
  { eapply sources_H_agree; [|exact RH1|exact RH2]. apply copies_H_agree; [exact Hb|].
    intros p c Hp. rewrite (HH p c Hp).
    assert (curl_E (g_N g1) (g_E g1') p c = curl_E (g_N g1) (g_E g2') p c) as ->; [|reflexivity].
    destruct c; cbn [curl_E]; rewrite !(dfwd_agree' (g_N g1) (g_E g1') (g_E g2')) by assumption; reflexivity. }
  unfold equal_state, same_setup. rewrite SN, SN2, Ssp, Ssp2, Sco, Sco2, Sab, Sab2, Sie, Sie2, Sim, Sim2, Ssr, Ssr2, Ht1, Ht2.
  assert (B1 : g_boundaries g1' = g_boundaries g1) by (rewrite G1; reflexivity).
  assert (B2 : g_boundaries g2' = g_boundaries g2) by (rewrite G2; reflexivity).
  rewrite B1, B2. repeat (split; [repeat split; congruence|]). split; assumption.
Qed.

Lemma equal_run n : forall g1 g2 g1' g2', no_pml (g_boundaries g1) -> equal_state g1 g2 ->
  run_steps n g1 = Ok g1' -> run_steps n g2 = Ok g2' -> equal_state g1' g2'.
Proof.
  induction n as [|n IH]; intros g1 g2 g1' g2' Hb HE X1 X2; cbn in X1, X2.
  - inversion X1; inversion X2; subst; exact HE.
  - binv X1. binv X2. eapply (IH r r0); try eassumption.
    + destruct (step_shapes _ _ Er) as [Sh _]. eapply shape_no_pml; eassumption.
    + eapply equal_step; eassumption.
Qed.

(** A grid without PML that was run and reset behaves like the fresh one. *)
Lemma reset_reproduces m n g0 g g1 g2 :
  no_pml (g_boundaries g0) -> resting g0 -> g_steps g0 = 0%nat ->
  run_steps m g0 = Ok g ->
  run_steps n g0 = Ok g1 -> run_steps n (reset g) = Ok g2 ->
  g_steps g2 = g_steps g1
  /\ forall p c, in_grid (g_N g0) p -> g_E g2 p c = g_E g1 p c /\ g_H g2 p c = g_H g1 p c.
Proof.
  intros Hb Hr Ht Hm H1 H2.
  destruct (run_steps_static m g0 g Hm) as [St _]. static St.
  assert (B : g_boundaries g = g_boundaries g0).
  { clear -Hm Hb. revert g0 Hm Hb. induction m as [|m IH]; intros g0 Hm Hb; cbn in Hm; [inversion Hm; reflexivity|].
    binv Hm. destruct (step_no_pml g0 r Hb Er) as (? & ? & _ & _ & _ & _ & G).
    assert (g_boundaries r = g_boundaries g0) by (rewrite G; reflexivity).
    rewrite (IH r Hm); [assumption|]. rewrite H; exact Hb. }
  assert (EQ : equal_state (reset g) g0).
  { unfold equal_state, same_setup, reset, with_fields, fields_agree; cbn.
    repeat (split; [repeat split; congruence|]).
    rewrite SN. split; intros p c Hp; destruct (Hr p c Hp) as [R1 R2]; rewrite ?R1, ?R2; ring. }
  assert (Hb' : no_pml (g_boundaries (reset g))) by (cbn; rewrite B; exact Hb).
  destruct (equal_run n _ _ _ _ Hb' EQ H2 H1) as ((N1 & _) & T1 & _ & _ & E1 & F1).
  destruct (run_steps_static n _ _ H2) as [St2 _].
  destruct St2 as (SN2 & _). rewrite SN2 in E1, F1.
  assert (NN : g_N (reset g) = g_N g0) by (cbn; exact SN). rewrite NN in E1, F1.
  split; [exact T1|]. intros p c Hp. split; [apply E1, Hp|apply F1, Hp].
Qed.

(** * PML injects a constant *)

Lemma dbwd_zero_field (F : field) x c q : (forall p, F p c = 0) -> dbwd F x c q = 0.
Proof. intros H. unfold dbwd. destruct (1 <=? coord x q)%nat; [rewrite !H; ring|reflexivity]. Qed.

Lemma pml_silence_broken g g' pm :
  g_boundaries g = [PMLb pm] -> g_sources g = [] ->
  (forall p c, g_E g p c = 0 /\ g_H g p c = 0) ->
  (forall x q c, p_psiE pm x q c = 0) ->
  step g = Ok g' ->
  forall p c, g_E g' p c = if in_pml (g_N g) pm p then g_courant g * g_ie g p c * / 10 ^ 16 else 0.
Proof.
  intros Hb Hs Hz Hpsi H p c.
  apply step_inv in H as (g1 & g2 & HE & HH & ->).
  apply update_E_inv in HE as (bs & E3 & ds & Hbs1 & HsE & _ & ->).
  apply update_H_inv in HH as (bs' & H3 & ds' & Hbs2 & HsH & _ & ->). cbn in *.
  rewrite Hs in HsE. cbn in HsE. rewrite Hb in Hbs1. cbn in Hbs1.
  destruct (p_thick pm <=? g_N g (p_axis pm))%nat; [|discriminate]. cbn in Hbs1. inversion Hbs1; subst bs.
  cbn [fold_left] in HsE. inversion HsE as [HE']. clear HsE.
  assert (BE : forall p c, bulk_E g p c = 0).
  { intros q d. unfold bulk_E. rewrite (proj1 (Hz q d)).
    assert (curl_H (g_H g) q d = 0) as ->; [|unfold Rdiv; ring].
    destruct d; cbn [curl_H]; rewrite !dbwd_zero_field; try ring; intros; apply Hz. }
  cbn [boundary_update_E]. rewrite <- ?HE'. cbn [boundary_update_E]. change (in_pml (g_N g) (pml_phi_E (g_N g) (g_H g) pm) p) with (in_pml (g_N g) pm p).
  destruct (in_pml (g_N g) pm p); rewrite BE; [|reflexivity].
  assert (D : forall q x d, dbwd (fun q c => g_H g (pml_cell (g_N g) pm q) c) x d q = 0)
    by (intros; apply dbwd_zero_field; intros; apply Hz).
  destruct c; rewrite !Hpsi, !D; unfold pml_bias; field.
Qed.

(** * When a run raises *)

Lemma resolve_ok n z : is_ok (resolve n z) = true <-> index_ok n z.
Proof.
  unfold resolve, index_ok.
  destruct (Z.leb_spec 0 z), (Z.ltb_spec z (Z.of_nat n)), (Z.leb_spec (- Z.of_nat n) z), (Z.ltb_spec z 0);
    cbn; split; intros; try reflexivity; try discriminate; lia.
Qed.
Lemma resolve3_ok N c : is_ok (resolve3 N c) = true <-> cell_ok N c.
Proof.
  destruct c as [[x y] z]. cbn [resolve3 cell_ok].
  rewrite <- !resolve_ok.
  destruct (resolve (N AX) x), (resolve (N AY) y), (resolve (N AZ) z); cbn; intuition discriminate.
Qed.

Lemma boundary_ready_ok N b : boundary_ok N b = true <-> boundary_ready N b.
Proof. destruct b; cbn; try tauto; [apply Nat.leb_le|]. split; [discriminate|tauto]. Qed.

Lemma forallb_Forall_iff {A} (f : A -> bool) (P : A -> Prop) l : (forall x, f x = true <-> P x) ->
  (forallb f l = true <-> Forall P l).
Proof. intros H. rewrite forallb_forall, Forall_forall. split; intros K x Hx; apply H, K, Hx. Qed.

Lemma index_ok_pred n z : index_ok n z -> index_ok n (z - 1) \/ z = (- Z.of_nat n)%Z.
Proof. unfold index_ok. lia. Qed.

Lemma current_ready_ok N c : is_ok (point_current N 0 zero_field c) = true
  <-> (let '(x, y, z) := c in cell_ok N (x, y, z) /\ cell_ok N (x - 1, y - 1, z - 1)%Z).
Proof.
  destruct c as [[x y] z]. cbn [point_current cell_ok resolve3].
  rewrite <- !resolve_ok.
  destruct (resolve (N AX) x), (resolve (N AY) y), (resolve (N AZ) z),
    (resolve (N AX) (x - 1)), (resolve (N AY) (y - 1)), (resolve (N AZ) (z - 1)); cbn; intuition discriminate.
Qed.

Lemma detector_ready_ok N d : detector_ok N d = true <-> detector_ready N d.
Proof.
  destruct d; cbn [detector_ok detector_ready].
  - apply forallb_Forall_iff. apply resolve3_ok.
  - apply forallb_Forall_iff. apply current_ready_ok.
  - split; [discriminate|tauto].
Qed.

Lemma Reqb_iff x y : Reqb x y = true <-> x = y.
Proof. unfold Reqb. destruct (Req_EM_T x y); split; congruence. Qed.

Lemma line_fold_ok N f L F : is_ok (fold_res (fun cv G => let! p := resolve3 N (fst cv) in Ok (add_at G p AZ (snd cv * f))) L F)
  = forallb (fun cv => is_ok (resolve3 N (fst cv))) L.
Proof.
  revert F. induction L as [|cv L IH]; intros F; cbn [fold_res forallb]; [reflexivity|].
  destruct (resolve3 N (fst cv)); cbn [bind is_ok andb]; [apply IH|reflexivity].
Qed.
Lemma combine_forallb {A B} (f : A -> bool) (l : list A) (m : list B) :
  forallb (fun cv => f (fst cv)) (combine l m) = forallb f (firstn (length m) l).
Proof. revert m. induction l as [|x l IH]; intros [|y m]; cbn; try reflexivity. rewrite IH. reflexivity. Qed.

Lemma source_ready_ok N q s : source_ok N q s = true <-> source_ready N q s.
Proof.
  unfold source_ok. destruct s as [cell amp sg|cells prof sg|lo hi ep hp amp per ph|]; cbn [source_update_E source_update_H source_ready].
  - cbn [is_ok]. rewrite andb_true_r, <- resolve3_ok.
    destruct sg as [per ph|f dt cy|gpw co]; cbn [point_value signal_ready].
    + destruct (Z.eqb_spec per 0); cbn [bind is_ok].
      * split; [discriminate|]. tauto.
      * destruct (resolve3 N cell); cbn; intuition.
    + destruct (Reqb cy 0) eqn:E1; [apply Reqb_iff in E1; cbn; split; [discriminate|tauto]|].
      destruct (Reqb (f * dt / cy) 0) eqn:E2; [apply Reqb_iff in E2; cbn; split; [discriminate|tauto]|].
      assert (cy <> 0) by (intros X; apply Reqb_iff in X; congruence).
      assert (f * dt / cy <> 0) by (intros X; apply Reqb_iff in X; congruence).
      cbn [orb]. destruct (Z.of_nat q <? hanning_end f dt cy)%Z; cbn [bind];
        destruct (resolve3 N cell); cbn; intuition.
    + destruct (Rltb (INR q) (gpw * 6)) eqn:E; cbn [bind is_ok].
      * apply Rltb_true in E. split; [discriminate|]. intros [H _]. specialize (H eq_refl). lra.
      * apply Rltb_false in E. destruct (resolve3 N cell); cbn; intuition; lra.
  - cbn [is_ok]. rewrite andb_true_r.
    rewrite <- (forallb_Forall_iff (fun c => is_ok (resolve3 N c)) (cell_ok N)) by apply resolve3_ok.
    rewrite <- combine_forallb.
    destruct sg as [per ph|f dt cy|gpw co]; cbn [line_factor signal_ready].
    + destruct (Z.eqb_spec per 0); cbn [bind].
      * split; [discriminate|]. tauto.
      * rewrite line_fold_ok. tauto.
    + destruct (Reqb cy 0) eqn:E1; [apply Reqb_iff in E1; cbn; split; [discriminate|tauto]|].
      destruct (Reqb (f * dt / cy) 0) eqn:E2; [apply Reqb_iff in E2; cbn; split; [discriminate|tauto]|].
      assert (cy <> 0) by (intros X; apply Reqb_iff in X; congruence).
      assert (f * dt / cy <> 0) by (intros X; apply Reqb_iff in X; congruence).
      cbn [orb]. destruct (Z.of_nat q <? hanning_end f dt cy)%Z; cbn [bind]; rewrite line_fold_ok; tauto.
    + destruct (Rltb (INR q) (gpw * 6)); cbn [bind]; rewrite line_fold_ok; intuition; discriminate.
  - destruct (Z.eqb_spec per 0); cbn [is_ok andb]; [split; [discriminate|tauto]|].
    destruct (box_fits N (plane_extent lo hi) lo hi) eqn:B; cbn [negb is_ok andb].
    + split; [|reflexivity]. intros _. split; [assumption|].
      unfold box_fits in B. rewrite forallb_forall in B. intros a.
      specialize (B a). rewrite orb_true_iff, !Z.eqb_eq in B. apply B. destruct a; cbn; tauto.
    + split; [discriminate|]. intros [_ H]. exfalso. unfold box_fits in B.
      match type of B with ?x = _ => assert (x = true) end; [|congruence].
      apply forallb_forall. intros a _. rewrite orb_true_iff, !Z.eqb_eq. apply H.
  - cbn. split; [discriminate|tauto].
Qed.

Lemma run_raises_iff n g : (exists g', run_steps n g = Ok g') <->
  n = 0%nat \/
  (Forall (boundary_ready (g_N g)) (g_boundaries g)
   /\ Forall (detector_ready (g_N g)) (g_detectors g)
   /\ forall k, (k < n)%nat -> Forall (source_ready (g_N g) (g_steps g + k)) (g_sources g)).
Proof.
  rewrite <- is_ok_iff, run_ok.
  rewrite (forallb_Forall_iff _ (boundary_ready (g_N g))) by apply boundary_ready_ok.
  rewrite (forallb_Forall_iff _ (detector_ready (g_N g))) by apply detector_ready_ok.
  assert (S : (forall k, (k < n)%nat -> forallb (source_ok (g_N g) (g_steps g + k)) (g_sources g) = true)
     <-> (forall k, (k < n)%nat -> Forall (source_ready (g_N g) (g_steps g + k)) (g_sources g))).
  { split; intros H k Hk; specialize (H k Hk).
    - apply (forallb_Forall_iff _ _ _ (source_ready_ok (g_N g) (g_steps g + k))); exact H.
    - apply (forallb_Forall_iff _ _ _ (source_ready_ok (g_N g) (g_steps g + k))); exact H. }
  rewrite S. split.
  - intros [[H|[H1 H2]] H3]; [left; exact H|right; auto].
  - intros [->|(H1 & H2 & H3)]; [split; [left; reflexivity|intros k Hk; lia]|auto].
Qed.

(** * Finite speed, one cell *)
Lemma cell_change_stays_near n p0 g1 g2 g1' g2' :
  differ_at_cell p0 g1 g2 ->
  run_steps n g1 = Ok g1' -> run_steps n g2 = Ok g2' ->
  forall p c a, in_grid (g_N g1) p -> no_wrap a (g_boundaries g1) ->
    (n < dist1 (coord a p) (coord a p0))%nat ->
    g_E g1' p c = g_E g2' p c /\ g_H g1' p c = g_H g2' p c.
Proof.
  intros (HN & Hsp & Hc & Ht & Hb & Hs & HF) R1 R2 p c a Hp Hw Hd.
  eapply (change_stays_near n a (coord a p0) g1 g2); try eassumption.
  unfold differ_in_plane. do 5 (split; [assumption|]). split.
  - rewrite <- Hs. clear. induction (g_sources g1); constructor; assumption.
  - intros q d Hq Hne. apply HF; [exact Hq|]. intros ->. congruence.
Qed.

(** run(a) then run(b) is run(a+b); ints and floats. *)
Lemma run_int_add a b g : (0 <= a)%Z -> (0 <= b)%Z ->
  run_int (a + b) g = bind (run_int a g) (run_int b).
Proof. intros Ha Hb. unfold run_int. rewrite Z2Nat.inj_add by assumption. apply run_steps_add. Qed.
Lemma run_int_neg a g : (a <= 0)%Z -> run_int a g = Ok g.
Proof. intros H. unfold run_int. replace (Z.to_nat a) with 0%nat by lia. reflexivity. Qed.
Lemma run_counts n g g' : run_int n g = Ok g' ->
  g_steps g' = (g_steps g + Z.to_nat n)%nat
  /\ time_passed g' = time_passed g + INR (Z.to_nat n) * g_time_step g.
Proof. intros H. split; [apply run_count, H|apply time_passed_run, H]. Qed.
Lemma run_float_steps t g g' : 0 <= t -> 0 < g_time_step g -> run_float t g = Ok g' ->
  time_passed g' <= time_passed g + t < time_passed g' + g_time_step g.
Proof.
  intros Ht Hs H. unfold run_float in H. pose proof (time_passed_run _ _ _ H) as K.
  assert (0 <= t / g_time_step g) by (apply Rmult_le_pos; [exact Ht|left; apply Rinv_0_lt_compat, Hs]).
  rewrite K. destruct (Rfloor_spec (t / g_time_step g)) as [F1 F2]. rewrite <- Rtrunc_nonneg in F1, F2 by exact H0.
  pose proof (Rtrunc_nonneg_Z _ H0) as Z0. rewrite INR_IZR_INZ, Z2Nat.id by exact Z0.
  set (k := IZR (Rtrunc (t / g_time_step g))) in *.
  assert (T : t = t / g_time_step g * g_time_step g) by (field; lra).
  set (x := t / g_time_step g) in *. rewrite T. split; nra.
Qed.

Lemma reset_state g : g_steps (reset g) = 0%nat /\ time_passed (reset g) = 0
  /\ (forall p c, g_E (reset g) p c = 0 /\ g_H (reset g) p c = 0)
  /\ g_detectors (reset g) = g_detectors g /\ g_sources (reset g) = g_sources g
  /\ g_boundaries (reset g) = g_boundaries g.
Proof.
  unfold time_passed. cbn. split; [reflexivity|]. split; [ring|]. split; [intros; split; ring|]. auto.
Qed.

(** * Records in plain terms *)
Lemma sample_reads N F cells v : sample N F cells = Ok v -> reads N F cells v.
Proof.
  unfold sample, reads. revert v. induction cells as [|c cells IH]; intros v H; cbn in H.
  - inversion H; constructor.
  - binv H. binv Er. inversion Er; subst. binv H. inversion H; subst. constructor; [eauto|auto].
Qed.
Lemma records_run n g g' i cells Es Hs : run_steps n g = Ok g' ->
  nth_error (g_detectors g) i = Some (FieldDetector cells Es Hs) ->
  exists newE newH,
    nth_error (g_detectors g') i = Some (FieldDetector cells (Es ++ newE) (Hs ++ newH))
    /\ length newE = n /\ length newH = n
    /\ (forall k gk, (k < n)%nat -> run_steps (S k) g = Ok gk ->
          exists e h, nth_error newE k = Some e /\ nth_error newH k = Some h
            /\ reads (g_N g) (g_E gk) cells e /\ reads (g_N g) (g_H gk) cells h).
Proof.
  intros H Hd. destruct (run_records n g g' i cells Es Hs H Hd) as (nE & nH & Q & L1 & L2 & K).
  exists nE, nH. split; [exact Q|]. split; [exact L1|]. split; [exact L2|].
  intros k gk Hk Hr. destruct (K k gk Hk Hr) as (e & h & A & B & C & D).
  exists e, h. auto using sample_reads.
Qed.
