(** Proofs about soft sources. *)
From Coq Require Import Reals ZArith String List Bool Lra Lia FunctionalExtensionality.
From Verif Require Import Base BaseLemmas Model_FDTD Model_Register Model_Soft Spec_FDTD Spec_Soft Proof_FDTD Proof_Reset Proof_Propagate Proof_Steps.
Import ListNotations.
Open Scope R_scope.

(** * Placing *)

Definition lift (g : grid) (l : list soft_source) (o : option exn) : sgrid * option exn := (mkSG g l, o).

Lemma soft_placed key x y z wave imp sg i j k :
  pad_key key = Ok (x, y, z) ->
  handle_key (g_spacing (sg_grid sg)) x = HList [i] -> handle_key (g_spacing (sg_grid sg)) y = HList [j] ->
  handle_key (g_spacing (sg_grid sg)) z = HList [k] ->
  set_soft key wave None imp sg
  = (mkSG (add_detector_ (CurrentDetector [(i, j, k)] []) (sg_grid sg))
          (sg_soft sg ++ [mkSoft wave imp (Some (i, j, k)) (Some (length (g_detectors (sg_grid sg)))) [] []]), None).
Proof.
  intros P X Y Z. unfold set_soft. rewrite P, X, Y, Z. reflexivity.
Qed.
Lemma soft_named key wave n imp sg : exists sg' e, set_soft key wave (Some n) imp sg = (sg', Some e)
  /\ (e = KeyError \/ e = ValueError \/ e = UnboundLocalError).
Proof.
  unfold set_soft. destruct (pad_key key) as [[[x y] z]|e] eqn:E.
  - unfold register_soft. destruct (claim_name (Some n) (sg_grid sg)) as [g1|e] eqn:C.
    + set (h := handle_key (g_spacing (sg_grid sg))). destruct (h x) as [[|i [|]]|], (h y) as [[|j [|]]|], (h z) as [[|k [|]]|];
        eexists _, _; (split; [reflexivity|tauto]).
    + eexists _, _; (split; [reflexivity|]). cbn in C. destruct (has_attr _ n); inversion C; tauto.
  - eexists _, _. split; [reflexivity|]. unfold pad_key in E. destruct key as [|a [|b [|c [|]]]]; inversion E; tauto.
Qed.
Lemma soft_named_cell key x y z wave n imp sg i j k :
  pad_key key = Ok (x, y, z) ->
  handle_key (g_spacing (sg_grid sg)) x = HList [i] -> handle_key (g_spacing (sg_grid sg)) y = HList [j] ->
  handle_key (g_spacing (sg_grid sg)) z = HList [k] ->
  has_attr (sg_grid sg) n = false ->
  exists g', claim_name (Some n) (sg_grid sg) = Ok g' /\
  set_soft key wave (Some n) imp sg
  = (mkSG g' (sg_soft sg ++ [mkSoft wave imp (Some (i, j, k)) None [] []]), Some UnboundLocalError).
Proof.
  intros P X Y Z A. unfold set_soft, register_soft. rewrite P, X, Y, Z. unfold claim_name. rewrite A. eexists. split; reflexivity.
Qed.
Lemma soft_elsewhere key x y z wave imp sg :
  pad_key key = Ok (x, y, z) ->
  (forall i j k, (handle_key (g_spacing (sg_grid sg)) x, handle_key (g_spacing (sg_grid sg)) y,
                  handle_key (g_spacing (sg_grid sg)) z) <> (HList [i], HList [j], HList [k])) ->
  snd (set_soft key wave None imp sg) = Some ValueError.
Proof.
  intros P N. unfold set_soft, register_soft. rewrite P. cbn [claim_name].
  set (h := handle_key (g_spacing (sg_grid sg))) in *. destruct (h x) as [[|i [|]]|], (h y) as [[|j [|]]|], (h z) as [[|k [|]]|]; try reflexivity.
  exfalso. apply (N i j k). reflexivity.
Qed.

(** * One step *)

Lemma pos_eqb_sym p q : pos_eqb p q = pos_eqb q p.
Proof.
  destruct p as [[a b] c], q as [[x y] z]. unfold pos_eqb. cbn. rewrite (Nat.eqb_sym a), (Nat.eqb_sym b), (Nat.eqb_sym c). reflexivity.
Qed.

Lemma soft_one N sp q ds s E s' E' : soft_update_E N sp q ds s E = Ok (s', E') ->
  same_soft s s' /\ exists p cur, so_cell s <> None /\ (forall c, so_cell s = Some c -> resolve3 N c = Ok p)
  /\ soft_current q ds s = Ok cur
  /\ so_in s' = so_in s ++ [soft_input q s]
  /\ so_out s' = so_out s ++ [if Rltb 0 (so_impedance s) then soft_input q s + so_impedance s * cur else soft_input q s]
  /\ E' = add_at E p AZ (last (so_out s') 0 / sp).
Proof.
  unfold soft_update_E. intros H. binv H. destruct (so_cell s) as [c|] eqn:C; [|discriminate]. binv H.
  inversion H; subst. clear H. split; [repeat split; cbn; congruence|].
  eexists _, _. split; [discriminate|]. split; [intros c0 Hc; inversion Hc; subst; eassumption|].
  split; [eassumption|]. cbn [so_in so_out]. split; [reflexivity|]. split; [reflexivity|]. now rewrite last_last.
Qed.

Lemma softs_all N sp q ds l : forall E l' E', softs_update_E N sp q ds l E = Ok (l', E') ->
  Forall2 (fun s s' => exists F F', soft_update_E N sp q ds s F = Ok (s', F')) l l'.
Proof.
  induction l as [|s r IH]; intros E l' E' H; cbn [softs_update_E] in H.
  - inversion H. constructor.
  - apply bind_inv in H as ([s1 E1] & H0 & H). apply bind_inv in H as ([r1 E2] & H1 & H). cbn [fst snd] in *. inversion H; subst. constructor; eauto.
Qed.

Definition contribution_ (N : shape3) (sp : R) (p : pos) (s : soft_source) : R :=
  if sits_at N s p then last (so_out s) 0 / sp else 0.
Lemma softs_field N sp q ds l : forall E l' E', softs_update_E N sp q ds l E = Ok (l', E') -> forall p c,
  E' p c = E p c + (if axis_eqb c AZ then Rsum (map (contribution_ N sp p) l') else 0).
Proof.
  induction l as [|s r IH]; intros E l' E' H p c; cbn [softs_update_E] in H.
  - inversion H; subst. cbn. destruct (axis_eqb c AZ); lra.
  - apply bind_inv in H as ([s1 E1] & H0 & H). apply bind_inv in H as ([r1 E2] & H1 & H). cbn [fst snd] in *. inversion H; subst. clear H.
    rewrite (IH _ _ _ H1 p c). apply soft_one in H0. destruct H0 as [(S1 & S2 & S3 & S4) (p' & cur & N1 & N2 & _ & _ & _ & ->)].
    cbn [map Rsum fold_right]. unfold contribution_ at 2, sits_at. rewrite S3.
    destruct (so_cell s) as [cc|]; [|congruence]. rewrite (N2 cc eq_refl). unfold add_at.
    rewrite (pos_eqb_sym p' p).
    destruct c; cbn [axis_eqb]; destruct (pos_eqb p p'); cbn [andb]; unfold Rsum; lra.
Qed.

(** Whether the fields of a step are those of the grid alone. *)
Lemma detect_E_any N F F' ds r : map_res (detect_E N F) ds = Ok r -> exists r', map_res (detect_E N F') ds = Ok r'.
Proof.
  intros H. apply is_ok_iff. rewrite map_res_ok. assert (K : is_ok (map_res (detect_E N F) ds) = true) by (rewrite H; reflexivity).
  rewrite map_res_ok in K. rewrite <- K. clear. induction ds as [|d r IH]; [reflexivity|]. cbn [forallb].
  rewrite IH. rewrite !detect_E_ok. reflexivity.
Qed.
Lemma ordinary_update_E sg sg' : update_E_soft sg = Ok sg' -> exists g1, update_E (sg_grid sg) = Ok g1
  /\ softs_update_E (g_N (sg_grid sg)) (g_spacing (sg_grid sg)) (g_steps (sg_grid sg)) (g_detectors (sg_grid sg)) (sg_soft sg) (g_E g1)
     = Ok (sg_soft sg', g_E (sg_grid sg'))
  /\ g_N (sg_grid sg') = g_N (sg_grid sg) /\ g_spacing (sg_grid sg') = g_spacing (sg_grid sg)
  /\ g_steps (sg_grid sg') = g_steps (sg_grid sg)
  /\ map_res (detect_E (g_N (sg_grid sg)) (g_E (sg_grid sg'))) (g_detectors (sg_grid sg)) = Ok (g_detectors (sg_grid sg'))
  /\ (g_E g1 = g_E (sg_grid sg') -> g1 = sg_grid sg').
Proof.
  unfold update_E_soft, update_E. intros H. apply bind_inv in H as (bs & H0 & H). rewrite H0. cbn [bind].
  apply bind_inv in H as (E3 & H1 & H). rewrite H1. cbn [bind]. apply bind_inv in H as ([l' E'] & H2 & H). apply bind_inv in H as (ds & H3 & H).
  inversion H; subst. clear H. cbn [fst snd sg_grid sg_soft g_E with_fields g_N g_spacing g_steps] in *.
  destruct (detect_E_any _ _ E3 _ _ H3) as [ds' Hd].
  rewrite Hd. eexists. split; [reflexivity|]. cbn [g_E with_fields g_detectors]. split; [assumption|]. repeat (split; [reflexivity|]). split; [assumption|].
  intros ->. rewrite H3 in Hd. inversion Hd. reflexivity.
Qed.
Lemma update_H_keeps g g' : update_H g = Ok g' ->
  g_N g' = g_N g /\ g_spacing g' = g_spacing g /\ g_steps g' = g_steps g /\ g_E g' = g_E g
  /\ exists F, map_res (detect_H (g_N g) (g_spacing g) F) (g_detectors g) = Ok (g_detectors g').
Proof.
  unfold update_H. intros H. apply bind_inv in H as (bs & H0 & H). apply bind_inv in H as (E3 & H1 & H). apply bind_inv in H as (ds & H2 & H).
  inversion H; subst. repeat split. exists E3. exact H2.
Qed.
Lemma step_soft_inv sg sg' : step_soft sg = Ok sg' -> exists s1 g2, update_E_soft sg = Ok s1
  /\ update_H (sg_grid s1) = Ok g2
  /\ sg' = mkSG (with_fields g2 (g_E g2) (g_H g2) (S (g_steps g2)) (g_boundaries g2) (g_detectors g2)) (sg_soft s1).
Proof.
  unfold step_soft, update_H_soft. intros H. apply bind_inv in H as (s1 & H0 & H). apply bind_inv in H as (s2 & H1 & H).
  apply bind_inv in H1 as (g2 & H2 & H1). inversion H1; subst. inversion H; subst. cbn [sg_grid sg_soft]. eauto.
Qed.

Lemma step_E g g1 : step g = Ok g1 -> exists g0, update_E g = Ok g0 /\ g_E g1 = g_E g0.
Proof.
  unfold step. intros H. apply bind_inv in H as (g0 & H0 & H). apply bind_inv in H as (g2 & H1 & H). inversion H; subst.
  exists g0. split; [exact H0|]. cbn. apply update_H_keeps in H1. tauto.
Qed.

(** The ordinary part of a step succeeds if the whole does. *)
Lemma update_H_ok_any g E E' ds ds' : Forall2 (fun d d' => det_shape d' = det_shape d) ds ds' -> forall H n bs,
  is_ok (update_H (with_fields g E H n bs ds)) = is_ok (update_H (with_fields g E' H n bs ds')).
Proof.
  intros S H n bs. unfold update_H. cbn [with_fields g_N g_E g_H g_boundaries g_sources g_detectors g_steps g_courant g_im g_spacing].
  set (K := forallb (boundary_ok (g_N g)) bs && (forallb (fun s => is_ok (source_update_H (g_N g) n s zero_field)) (g_sources g)
       && forallb (detector_ok (g_N g)) ds)).
  assert (A : forall F dd, forallb (detector_ok (g_N g)) dd = forallb (detector_ok (g_N g)) ds ->
    is_ok (let! bs' := map_res (boundary_phi_H (g_N g) F) bs in
           let H1 := bulk_H (with_fields g F H n bs dd) in
           let H2 := fold_left (fun H b => boundary_update_H (g_N g) (g_courant g) (g_im g) b H) bs' H1 in
           let! H3 := fold_res (source_update_H (g_N g) n) (g_sources g) H2 in
           let! dd' := map_res (detect_H (g_N g) (g_spacing g) H3) dd in
           Ok (with_fields (with_fields g F H n bs dd) F H3 n bs' dd')) = K).
  { intros F dd Hdd. unfold K. rewrite <- Hdd. rewrite <- (forallb_ext' _ _ _ (phi_H_ok (g_N g) F)), <- map_res_ok.
    apply is_ok_bind. intros bs' _. cbv zeta.
    rewrite <- (fold_source_ok _ (source_H_ok (g_N g) n) (g_sources g)
        (fold_left (fun H b => boundary_update_H (g_N g) (g_courant g) (g_im g) b H) bs' (bulk_H (with_fields g F H n bs dd)))).
    apply is_ok_bind. intros H3 _. rewrite <- (forallb_ext' _ _ _ (detect_H_ok (g_N g) (g_spacing g) H3)), <- map_res_ok.
    destruct (map_res (detect_H (g_N g) (g_spacing g) H3) dd); reflexivity. }
  etransitivity; [apply (A E ds eq_refl)|]. symmetry. apply (A E' ds').
  symmetry. eapply forallb_Forall2; [|exact S]. intros d d' Hs. symmetry. apply detector_ok_shape. exact Hs.
Qed.
Lemma detect_E_shapes N F ds ds' : map_res (detect_E N F) ds = Ok ds' -> Forall2 (fun d d' => det_shape d' = det_shape d) ds ds'.
Proof. intros H. eapply map_res_Forall2; [|exact H]. apply detect_E_keeps. Qed.
Lemma Forall2_flip_eq {A B} (f : A -> B) l l' : Forall2 (fun d d' => f d' = f d) l l' -> Forall2 (fun d d' => f d' = f d) l' l.
Proof. induction 1; constructor; auto. Qed.

(** What a step with soft sources is: the ordinary step with their contributions
    in the electric field. *)
Lemma step_soft_parts sg sg' : step_soft sg = Ok sg' -> exists g1,
  step (sg_grid sg) = Ok g1
  /\ softs_update_E (g_N (sg_grid sg)) (g_spacing (sg_grid sg)) (g_steps (sg_grid sg)) (g_detectors (sg_grid sg)) (sg_soft sg) (g_E g1)
     = Ok (sg_soft sg', g_E (sg_grid sg'))
  /\ g_N (sg_grid sg') = g_N (sg_grid sg) /\ g_spacing (sg_grid sg') = g_spacing (sg_grid sg)
  /\ g_steps (sg_grid sg') = S (g_steps (sg_grid sg))
  /\ (exists ds, map_res (detect_E (g_N (sg_grid sg)) (g_E (sg_grid sg'))) (g_detectors (sg_grid sg)) = Ok ds
      /\ map_res (detect_H (g_N (sg_grid sg)) (g_spacing (sg_grid sg)) (g_H (sg_grid sg'))) ds = Ok (g_detectors (sg_grid sg')))
  /\ (g_E g1 = g_E (sg_grid sg') -> g1 = sg_grid sg').
Proof.
  intros H. apply step_soft_inv in H as (s1 & g2 & HE & HH & ->).
  unfold update_E_soft in HE. apply bind_inv in HE as (bs & H0 & HE). apply bind_inv in HE as (E3 & H1 & HE).
  apply bind_inv in HE as ([l' E'] & H2 & HE). apply bind_inv in HE as (ds & H3 & HE). inversion HE; subst s1. clear HE.
  cbn [fst snd sg_grid sg_soft] in *.
  destruct (detect_E_any _ _ E3 _ _ H3) as [ds' Hd].
  assert (HU : update_E (sg_grid sg) = Ok (with_fields (sg_grid sg) E3 (g_H (sg_grid sg)) (g_steps (sg_grid sg)) bs ds')).
  { unfold update_E. rewrite H0. cbn [bind]. rewrite H1. cbn [bind]. rewrite Hd. reflexivity. }
  assert (HV : exists g3, update_H (with_fields (sg_grid sg) E3 (g_H (sg_grid sg)) (g_steps (sg_grid sg)) bs ds') = Ok g3).
  { apply is_ok_iff. rewrite (update_H_ok_any (sg_grid sg) E3 E' ds' ds).
    - rewrite HH. reflexivity.
    - eapply Forall2_trans_eq; [apply Forall2_flip_eq, (detect_E_shapes _ _ _ _ Hd)|apply (detect_E_shapes _ _ _ _ H3)]. }
  destruct HV as [g3 HV].
  eexists. split; [unfold step; rewrite HU; cbn [bind]; rewrite HV; cbn [bind]; reflexivity|].
  pose proof HV as HV'. pose proof HH as HH'.
  apply update_H_inv in HV' as (bs1 & X3 & dd & _ & _ & _ & ->). apply update_H_inv in HH' as (bs2 & Y3 & dd2 & _ & _ & K & ->).
  cbn [g_E g_N g_spacing g_steps g_detectors g_H with_fields] in *.
  split; [exact H2|]. repeat (split; [reflexivity|]). split; [exists ds; split; [exact H3|exact K]|].
  intros ->. rewrite Hd in H3. inversion H3; subst. rewrite HV in HH. inversion HH; subst. reflexivity.
Qed.

Lemma soft_emits sg sg' : step_soft sg = Ok sg' -> exists g1, step (sg_grid sg) = Ok g1
  /\ forall p c, g_E (sg_grid sg') p c
     = g_E g1 p c + (if axis_eqb c AZ then Rsum (map (contribution (sg_grid sg) p) (sg_soft sg')) else 0).
Proof.
  intros H. apply step_soft_parts in H as (g1 & S1 & F & _). exists g1. split; [exact S1|]. intros p c.
  rewrite (softs_field _ _ _ _ _ _ _ _ F p c). reflexivity.
Qed.

Lemma soft_input_is q s : soft_input q s = voltage_at (so_wave s) q.
Proof.
  unfold soft_input, voltage_at. destruct (q <? length (so_wave s))%nat eqn:E; [reflexivity|].
  apply Nat.ltb_ge in E. symmetry. now apply nth_overflow.
Qed.
Lemma soft_current_is q ds s cur : soft_current q ds s = Ok cur ->
  (q = 0%nat /\ cur = 0) \/ ((0 < q)%nat /\ exists d cells Is more, so_det s = Some d
     /\ nth_error ds d = Some (CurrentDetector cells (Is ++ [cur :: more]))).
Proof.
  unfold soft_current. destruct (0 <? q)%nat eqn:E.
  - apply Nat.ltb_lt in E. destruct (so_det s) as [d|] eqn:D; [|discriminate].
    destruct (nth d ds UnplacedDetector) as [|cells Is|] eqn:N; try discriminate.
    destruct (rev Is) as [|[|i more] r] eqn:V; try discriminate. intros H. inversion H; subst.
    right. split; [exact E|]. exists d, cells, (rev r), more. split; [reflexivity|].
    assert (L : (d < length ds)%nat).
    { destruct (Nat.lt_ge_cases d (length ds)); [assumption|]. rewrite nth_overflow in N by assumption. discriminate. }
    rewrite (nth_error_nth' _ UnplacedDetector L), N. f_equal. f_equal.
    rewrite <- (rev_involutive Is), V. reflexivity.
  - apply Nat.ltb_ge in E. intros H. inversion H. left. split; [lia|reflexivity].
Qed.

Lemma Forall2_imp {A B} (P Q : A -> B -> Prop) l l' : (forall a b, P a b -> Q a b) -> Forall2 P l l' -> Forall2 Q l l'.
Proof. intros H. induction 1; constructor; auto. Qed.

Lemma soft_voltages sg sg' : step_soft sg = Ok sg' ->
  Forall2 (fun s s' => same_soft s s' /\ exists current,
    (g_steps (sg_grid sg) = 0%nat -> current = 0)
    /\ ((0 < g_steps (sg_grid sg))%nat -> last_reading (sg_grid sg) s current)
    /\ so_in s' = so_in s ++ [voltage_at (so_wave s) (g_steps (sg_grid sg))]
    /\ so_out s' = so_out s ++ [voltage_at (so_wave s) (g_steps (sg_grid sg))
                                + (if Rltb 0 (so_impedance s) then so_impedance s * current else 0)])
  (sg_soft sg) (sg_soft sg').
Proof.
  intros H. apply step_soft_parts in H as (g1 & _ & F & _). apply softs_all in F.
  eapply Forall2_imp; [|exact F]. cbn beta. intros s s' (E & E' & U). apply soft_one in U as [Sm (p & cur & _ & _ & C & I & O & _)].
  split; [exact Sm|]. exists cur. rewrite I, O, soft_input_is. apply soft_current_is in C.
  split; [intros; destruct C as [[_ ->]|[? _]]; [reflexivity|lia]|]. split.
  { intros L. destruct C as [[? _]|[_ C]]; [lia|exact C]. }
  split; [reflexivity|]. destruct (Rltb 0 (so_impedance s)); [reflexivity|]. now rewrite Rplus_0_r.
Qed.

(** * Runs *)

Lemma step_soft_current sg sg' d cells Is : step_soft sg = Ok sg' ->
  nth_error (g_detectors (sg_grid sg)) d = Some (CurrentDetector cells Is) ->
  exists v, map_res (point_current (g_N (sg_grid sg)) (g_spacing (sg_grid sg)) (g_H (sg_grid sg'))) cells = Ok v
    /\ nth_error (g_detectors (sg_grid sg')) d = Some (CurrentDetector cells (Is ++ [v])).
Proof.
  intros H Hd. apply step_soft_parts in H as (g1 & _ & _ & _ & _ & _ & (ds & D1 & D2) & _).
  destruct (map_res_nth _ _ _ _ _ D1 Hd) as (d1 & Q1 & Hd1). cbn in Q1. inversion Q1; subst d1.
  destruct (map_res_nth _ _ _ _ _ D2 Hd1) as (d2 & Q2 & Hd2). cbn in Q2. apply bind_inv in Q2 as (v & V & Q2). inversion Q2; subst d2.
  exists v. split; [exact V|exact Hd2].
Qed.

Lemma run_soft_snoc n : forall sg sg', run_soft (S n) sg = Ok sg' -> exists s1, run_soft n sg = Ok s1 /\ step_soft s1 = Ok sg'.
Proof.
  induction n as [|n IH]; intros sg sg' H.
  - cbn in H. apply bind_inv in H as (s & H0 & H). inversion H; subst. exists sg. split; [reflexivity|exact H0].
  - cbn [run_soft] in H. apply bind_inv in H as (s & H0 & H). destruct (IH s sg') as (s1 & R1 & St).
    { cbn [run_soft]. exact H. }
    exists s1. split; [cbn [run_soft]; rewrite H0; exact R1|exact St].
Qed.

Lemma run_soft_clock n : forall sg sg', run_soft n sg = Ok sg' -> g_steps (sg_grid sg') = (g_steps (sg_grid sg) + n)%nat
  /\ g_N (sg_grid sg') = g_N (sg_grid sg) /\ g_spacing (sg_grid sg') = g_spacing (sg_grid sg).
Proof.
  induction n as [|n IH]; intros sg sg' H; cbn in H.
  - inversion H; subst. repeat split. lia.
  - apply bind_inv in H as (s & H0 & H). apply step_soft_parts in H0 as (g1 & _ & _ & Hn & Hs & Hq & _).
    destruct (IH _ _ H) as (A & B & C). rewrite A, B, C, Hq, Hn, Hs. repeat split. lia.
Qed.

Lemma run_soft_inputs n : forall sg sg', run_soft n sg = Ok sg' ->
  Forall2 (fun s s' => same_soft s s' /\ so_in s' = so_in s ++ map (voltage_at (so_wave s)) (seq (g_steps (sg_grid sg)) n))
  (sg_soft sg) (sg_soft sg').
Proof.
  induction n as [|n IH]; intros sg sg' H.
  - inversion H; subst. induction (sg_soft sg') as [|s r IHr]; constructor; [|exact IHr].
    split; [repeat split|]. cbn. now rewrite app_nil_r.
  - apply run_soft_snoc in H as (s1 & R1 & St). pose proof (IH _ _ R1) as I1. apply soft_voltages in St.
    apply run_soft_clock in R1 as (Q & _). rewrite Q in St. clear IH.
    revert I1 St. generalize (sg_soft sg) (sg_soft s1) (sg_soft sg'). intros l1 l2 l3 F1. revert l3.
    induction F1 as [|a b l1 l2 [(W & W2 & W3 & W4) Hab] F1 IH]; intros l3 F2; inversion F2 as [|? c ? l3' Hbc F2']; subst; constructor.
    + destruct Hbc as [(V & V2 & V3 & V4) (cur & _ & _ & Hin & _)]. split; [repeat split; congruence|].
      rewrite Hin, Hab, W, seq_S, map_app, app_assoc. reflexivity.
    + now apply IH.
Qed.

(** The whole history of one source placed on a grid at time 0. *)
Lemma Forall2_nth {A B} (P : A -> B -> Prop) l l' i a : Forall2 P l l' -> nth_error l i = Some a ->
  exists b, nth_error l' i = Some b /\ P a b.
Proof.
  intros F. revert i. induction F; intros [|i] E; cbn in *; try discriminate; [inversion E; subst; eauto|eauto].
Qed.

Lemma soft_history n : forall sg sg' i s d cell,
  run_soft n sg = Ok sg' -> g_steps (sg_grid sg) = 0%nat ->
  nth_error (sg_soft sg) i = Some s -> so_in s = [] -> so_out s = [] -> so_det s = Some d ->
  nth_error (g_detectors (sg_grid sg)) d = Some (CurrentDetector [cell] []) ->
  exists s' Is, nth_error (sg_soft sg') i = Some s' /\ same_soft s s'
  /\ nth_error (g_detectors (sg_grid sg')) d = Some (CurrentDetector [cell] (map (fun i => [i]) Is))
  /\ length Is = n /\ voltages_follow (so_impedance s) (so_in s') (so_out s') Is
  /\ so_in s' = map (voltage_at (so_wave s)) (seq 0 n)
  /\ (forall k sk, (k < n)%nat -> run_soft (S k) sg = Ok sk ->
        point_current (g_N (sg_grid sg)) (g_spacing (sg_grid sg)) (g_H (sg_grid sk)) cell = Ok (nth k Is 0)).
Proof.
  induction n as [|n IH]; intros sg sg' i s d cell H T Hs I0 O0 Hd Hdet.
  - inversion H; subst. exists s, []. split; [exact Hs|]. split; [repeat split|]. split; [exact Hdet|]. split; [reflexivity|].
    split; [|split; [now rewrite I0|intros; lia]]. unfold voltages_follow. rewrite I0, O0. repeat split; intros; cbn in *; lia.
  - pose proof H as HR. apply run_soft_snoc in H as (s1 & R1 & St).
    destruct (IH _ _ _ _ _ _ R1 T Hs I0 O0 Hd Hdet) as (s2 & Is & N2 & (Sm & Sm2 & Sm3 & Sm4) & D2 & L & (HL1 & HL2 & HH) & Hin & HI).
    destruct (step_soft_current _ _ _ _ _ St D2) as (v & V & D3).
    destruct (run_soft_clock _ _ _ R1) as (Q & QN & QS). rewrite T in Q.
    cbn [map_res] in V. apply bind_inv in V as (iv & V & V'). inversion V'; subst v. clear V'.
    destruct (Forall2_nth _ _ _ _ _ (soft_voltages _ _ St) N2) as (s3 & N3 & (W & W2 & W3 & W4) & cur & C0 & C1 & In3 & Out3).
    rewrite Q in *. exists s3, (Is ++ [iv]). split; [exact N3|]. split; [repeat split; congruence|].
    split; [rewrite map_app; exact D3|]. split; [rewrite app_length, L; cbn; lia|]. split.
    + unfold voltages_follow. rewrite In3, Out3, !app_length, HL1, HL2, L. cbn [length]. split; [reflexivity|]. split; [reflexivity|].
      intros t Ht. rewrite <- Sm2. destruct (Nat.eq_dec t n) as [->|Nt].
      * rewrite !app_nth2 by lia. rewrite HL1, HL2, L, Nat.sub_diag. cbn [nth]. f_equal.
        destruct (Rltb 0 (so_impedance s2)); [|reflexivity]. f_equal. destruct n as [|n']; [apply C0; reflexivity|].
        destruct C1 as (d' & cells & Is' & more & E1 & E2); [lia|]. rewrite Sm4, Hd in E1. inversion E1; subst d'. rewrite D2 in E2.
        apply (f_equal (fun o => match o with Some (CurrentDetector _ l) => last l [] | _ => [] end)) in E2. rewrite last_last in E2.
        destruct (exists_last (l:=Is)) as (I' & il & ->); [intros ->; discriminate L|]. rewrite map_app in E2. cbn [map] in E2. rewrite last_last in E2.
        inversion E2. rewrite app_length in L. cbn in L. rewrite !app_nth1 by (rewrite app_length; cbn; lia). rewrite app_nth2 by lia.
        replace (n' - length I')%nat with 0%nat by lia. reflexivity.
      * rewrite !app_nth1 by lia. rewrite (HH t) by lia. rewrite Sm2. destruct t as [|t']; [reflexivity|]. rewrite app_nth1 by lia. reflexivity.
    + split; [rewrite In3, Hin, Sm, seq_S, map_app; reflexivity|].
      intros k sk Hk Rk. destruct (Nat.eq_dec k n) as [->|Nk].
      * rewrite HR in Rk. inversion Rk; subst sk. rewrite app_nth2 by lia. rewrite L, Nat.sub_diag. cbn [nth]. rewrite <- QN, <- QS. exact V.
      * rewrite app_nth1 by lia. apply HI; [lia|exact Rk].
Qed.

Lemma soft_history_placed key wave imp sg sg1 n sg2 : set_soft key wave None imp sg = (sg1, None) ->
  g_steps (sg_grid sg) = 0%nat -> run_soft n sg1 = Ok sg2 ->
  exists s cell Is, nth_error (sg_soft sg2) (length (sg_soft sg)) = Some s
  /\ so_cell s = Some cell /\ so_wave s = wave /\ so_impedance s = imp
  /\ nth_error (g_detectors (sg_grid sg2)) (length (g_detectors (sg_grid sg))) = Some (CurrentDetector [cell] (map (fun i => [i]) Is))
  /\ length Is = n /\ so_in s = map (voltage_at wave) (seq 0 n)
  /\ voltages_follow imp (so_in s) (so_out s) Is
  /\ (forall k sk, (k < n)%nat -> run_soft (S k) sg1 = Ok sk ->
        point_current (g_N (sg_grid sg1)) (g_spacing (sg_grid sg1)) (g_H (sg_grid sk)) cell = Ok (nth k Is 0)).
Proof.
  intros H T Rn. unfold set_soft in H. destruct (pad_key key) as [[[x y] z]|] eqn:P; [|discriminate].
  unfold register_soft in H. cbn [claim_name] in H. set (h := handle_key (g_spacing (sg_grid sg))) in *.
  destruct (h x) as [[|i [|]]|], (h y) as [[|j [|]]|], (h z) as [[|k [|]]|]; try discriminate.
  cbn in H. inversion H; subst. clear H.
  destruct (soft_history n _ _ (length (sg_soft sg)) (mkSoft wave imp (Some (i, j, k)) (Some (length (g_detectors (sg_grid sg)))) [] []) (length (g_detectors (sg_grid sg))) (i, j, k) Rn)
    as (s' & Is & A & (B1 & B2 & B3 & B4) & C & D & E & F & G).
  - exact T.
  - cbn [sg_soft]. rewrite nth_error_app2, Nat.sub_diag by lia. reflexivity.
  - reflexivity.
  - reflexivity.
  - reflexivity.
  - cbn [sg_grid add_detector_ g_detectors]. rewrite nth_error_app2, Nat.sub_diag by lia. reflexivity.
  - exists s', (i, j, k), Is. cbn in B1, B2, B3, E, F. rewrite B1, B2. repeat (split; [assumption || reflexivity|]). exact G.
Qed.

(** * Where it fails *)

Lemma late_fails N sp q ds s E : (0 < q)%nat -> (exists d cells, so_det s = Some d /\ nth_error ds d = Some (CurrentDetector cells [])) ->
  soft_update_E N sp q ds s E = Err IndexError.
Proof.
  intros Q (d & cells & D & Nd). unfold soft_update_E, soft_current. apply Nat.ltb_lt in Q. rewrite Q, D, (nth_error_nth _ _ _ Nd). reflexivity.
Qed.
Lemma step_ready_parts g : is_ok (step g) = true -> exists bs E3, map_res (boundary_phi_E (g_N g) (g_H g)) (g_boundaries g) = Ok bs
  /\ fold_res (source_update_E (g_N g) (g_steps g)) (g_sources g)
     (fold_left (fun E b => boundary_update_E (g_N g) (g_courant g) (g_ie g) b E) bs (bulk_E g)) = Ok E3.
Proof.
  intros H. apply is_ok_iff in H as [g1 H]. unfold step in H. apply bind_inv in H as (g2 & H & _).
  apply update_E_inv in H as (bs & E3 & ds & A & B & _). eauto.
Qed.
Lemma step_soft_one sg s : is_ok (step (sg_grid sg)) = true -> sg_soft sg = [s] -> forall e,
  (forall E, soft_update_E (g_N (sg_grid sg)) (g_spacing (sg_grid sg)) (g_steps (sg_grid sg)) (g_detectors (sg_grid sg)) s E = Err e) ->
  step_soft sg = Err e.
Proof.
  intros H S e K. destruct (step_ready_parts _ H) as (bs & E3 & A & B). unfold step_soft, update_E_soft.
  rewrite A. cbn [bind]. rewrite B. cbn [bind]. rewrite S. cbn [softs_update_E]. rewrite K. reflexivity.
Qed.
Lemma soft_late sg key wave imp sg1 : set_soft key wave None imp sg = (sg1, None) -> sg_soft sg = [] ->
  is_ok (step (sg_grid sg1)) = true -> (0 < g_steps (sg_grid sg))%nat ->
  step_soft sg1 = Err IndexError.
Proof.
  intros H S0 Rd Q. unfold set_soft in H. destruct (pad_key key) as [[[x y] z]|] eqn:P; [|discriminate].
  unfold register_soft in H. cbn [claim_name] in H. set (h := handle_key (g_spacing (sg_grid sg))) in *.
  destruct (h x) as [[|i [|]]|], (h y) as [[|j [|]]|], (h z) as [[|k [|]]|]; try discriminate.
  cbn in H. inversion H; subst. clear H. rewrite S0 in Rd |- *. cbn [app] in Rd |- *.
  eapply step_soft_one; [exact Rd|reflexivity|]. intros E. apply late_fails; [exact Q|].
  eexists _, _. split; [reflexivity|]. cbn [sg_grid add_detector_ g_detectors]. rewrite nth_error_app2 by lia. rewrite Nat.sub_diag. reflexivity.
Qed.
Lemma soft_orphan sg s : sg_soft sg = [s] -> so_det s = None -> is_ok (step (sg_grid sg)) = true ->
  (0 < g_steps (sg_grid sg))%nat -> step_soft sg = Err AttributeError.
Proof.
  intros S D Rd Q. eapply step_soft_one; [exact Rd|exact S|]. intros E. unfold soft_update_E, soft_current. apply Nat.ltb_lt in Q.
  rewrite Q, D. reflexivity.
Qed.
Lemma soft_unplaced sg s : sg_soft sg = [s] -> so_det s = None -> so_cell s = None -> is_ok (step (sg_grid sg)) = true ->
  step_soft sg = Err AttributeError.
Proof.
  intros S D C Rd. eapply step_soft_one; [exact Rd|exact S|]. intros E. unfold soft_update_E, soft_current. rewrite D, C.
  destruct (0 <? g_steps (sg_grid sg))%nat; reflexivity.
Qed.

(** * Silence *)

Lemma soft_quiet sg sg' : step_soft sg = Ok sg' ->
  Forall (fun s => so_impedance s <= 0 /\ voltage_at (so_wave s) (g_steps (sg_grid sg)) = 0) (sg_soft sg) ->
  step (sg_grid sg) = Ok (sg_grid sg').
Proof.
  intros H Q. pose proof (soft_voltages _ _ H) as V. apply step_soft_parts in H as (g1 & St & F & _ & _ & _ & _ & Same).
  rewrite St. f_equal. apply Same. extensionality p. extensionality c. rewrite (softs_field _ _ _ _ _ _ _ _ F p c).
  replace (Rsum _) with 0; [destruct (axis_eqb c AZ); lra|]. clear F Same St. revert Q V.
  generalize (sg_soft sg) (sg_soft sg'). intros l l' Q V. induction V as [|a b l l' [_ (cur & _ & _ & _ & O)] V IH]; [reflexivity|].
  inversion Q as [|? ? [Ha1 Ha2] Q']; subst. cbn [map Rsum fold_right]. unfold Rsum in IH. rewrite <- (IH Q').
  unfold contribution_. rewrite O, last_last, Ha2. unfold Rltb. destruct (Rlt_dec 0 (so_impedance a)); [lra|].
  destruct (sits_at _ b p); unfold Rdiv; lra.
Qed.

(** * Success *)

Lemma step_soft_ok sg : is_ok (step (sg_grid sg)) = true ->
  (forall E, exists r, softs_update_E (g_N (sg_grid sg)) (g_spacing (sg_grid sg)) (g_steps (sg_grid sg)) (g_detectors (sg_grid sg)) (sg_soft sg) E = Ok r) ->
  exists sg', step_soft sg = Ok sg'.
Proof.
  intros H K. apply is_ok_iff in H as [g1 H]. unfold step in H. apply bind_inv in H as (g2 & H & H'). apply bind_inv in H' as (g3 & HH & _).
  pose proof H as HU. apply update_E_inv in H as (bs & E3 & ds & A & B & C & ->). unfold step_soft, update_E_soft, update_H_soft.
  rewrite A. cbn [bind]. rewrite B. cbn [bind]. destruct (K E3) as ([l E'] & ->). cbn [bind fst snd].
  destruct (detect_E_any _ _ E' _ _ C) as (ds' & D). rewrite D. cbn [bind sg_grid].
  assert (exists g4, update_H (with_fields (sg_grid sg) E' (g_H (sg_grid sg)) (g_steps (sg_grid sg)) bs ds') = Ok g4) as [g4 ->].
  { apply is_ok_iff. rewrite <- (update_H_ok_any (sg_grid sg) E3 E' ds ds').
    - rewrite HH. reflexivity.
    - eapply Forall2_trans_eq; [apply Forall2_flip_eq, (detect_E_shapes _ _ _ _ C)|apply (detect_E_shapes _ _ _ _ D)]. }
  cbn [bind]. eexists. reflexivity.
Qed.

Lemma step_soft_static sg sg' : step_soft sg = Ok sg' ->
  g_sources (sg_grid sg') = g_sources (sg_grid sg)
  /\ Forall2 (fun b b' => bnd_shape b' = bnd_shape b) (g_boundaries (sg_grid sg)) (g_boundaries (sg_grid sg'))
  /\ Forall2 (fun d d' => det_shape d' = det_shape d) (g_detectors (sg_grid sg)) (g_detectors (sg_grid sg')).
Proof.
  intros H. apply step_soft_inv in H as (s1 & g2 & HE & HH & ->).
  unfold update_E_soft in HE. apply bind_inv in HE as (bs & H0 & HE). apply bind_inv in HE as (E3 & H1 & HE).
  apply bind_inv in HE as ([l' E'] & H2 & HE). apply bind_inv in HE as (ds & H3 & HE). inversion HE; subst s1. clear HE.
  apply update_H_inv in HH as (bs' & X & ds' & K1 & _ & K2 & ->). cbn in *. split; [reflexivity|]. split.
  - eapply Forall2_trans_eq; eapply (map_res_Forall2 _ (fun b b' => bnd_shape b' = bnd_shape b)); try eassumption;
      [apply phi_E_shape|apply phi_H_shape].
  - eapply Forall2_trans_eq; eapply (map_res_Forall2 _ (fun d d' => det_shape d' = det_shape d)); try eassumption;
      [apply detect_E_keeps|apply detect_H_keeps].
Qed.

Lemma soft_runs n : forall sg s d cell p Is,
  is_ok (run_steps n (sg_grid sg)) = true -> sg_soft sg = [s] -> so_cell s = Some cell -> resolve3 (g_N (sg_grid sg)) cell = Ok p ->
  so_det s = Some d -> nth_error (g_detectors (sg_grid sg)) d = Some (CurrentDetector [cell] (map (fun i => [i]) Is)) ->
  (g_steps (sg_grid sg) = 0%nat \/ Is <> []) ->
  exists sg', run_soft n sg = Ok sg'.
Proof.
  induction n as [|n IH]; intros sg s d cell p Is Hr S C P D Nd Q; [eexists; reflexivity|].
  apply run_ok in Hr as [[Hr|[Hb Hd]] Hs]; [discriminate|].
  assert (Rd : is_ok (step (sg_grid sg)) = true).
  { rewrite step_ok. unfold step_ready. rewrite Hb, Hd. specialize (Hs 0%nat (Nat.lt_0_succ n)). rewrite Nat.add_0_r in Hs. rewrite Hs. reflexivity. }
  destruct (step_soft_ok sg Rd) as [sg1 S1].
  { intros E. rewrite S. cbn [softs_update_E]. unfold soft_update_E.
    assert (exists c, soft_current (g_steps (sg_grid sg)) (g_detectors (sg_grid sg)) s = Ok c) as [c ->].
    { unfold soft_current. destruct (0 <? _)%nat eqn:L; [|eauto]. apply Nat.ltb_lt in L. rewrite D, (nth_error_nth _ _ _ Nd).
      destruct Q as [Q|Q]; [lia|]. destruct (exists_last Q) as (I' & i & ->). rewrite map_app, rev_app_distr. cbn. eauto. }
    cbn [bind]. rewrite C, P. cbn [bind]. eauto. }
  cbn [run_soft]. rewrite S1. cbn [bind].
  destruct (step_soft_current _ _ _ _ _ S1 Nd) as (v & V & Nd1). cbn [map_res] in V. apply bind_inv in V as (iv & _ & V). inversion V; subst v.
  pose proof (soft_voltages _ _ S1) as F. rewrite S in F. inversion F as [|? s' ? l' [(W1 & W2 & W3 & W4) _] F' E1 E2]. inversion F'; subst.
  destruct (step_soft_static _ _ S1) as (Ss & Sb & Sd). pose proof S1 as S1'. apply step_soft_parts in S1' as (g1 & _ & _ & QN & _ & Qs & _).
  eapply (IH sg1 s' d cell p (Is ++ [iv])).
  - apply run_ok. rewrite QN, Ss, Qs. split.
    + right. split.
      * rewrite <- Hb. symmetry. eapply forallb_Forall2; [|exact Sb]. intros; symmetry; apply boundary_ok_shape; assumption.
      * rewrite <- Hd. symmetry. eapply forallb_Forall2; [|exact Sd]. intros; symmetry; apply detector_ok_shape; assumption.
    + intros k Hk. rewrite Nat.add_succ_l, <- Nat.add_succ_r. apply Hs. lia.
  - congruence.
  - congruence.
  - congruence.
  - congruence.
  - rewrite map_app. exact Nd1.
  - right. intros X. destruct Is; discriminate X.
Qed.

Lemma resolve_nonneg n a : (0 <= a < Z.of_nat n)%Z -> exists i, resolve n a = Ok i.
Proof. intros H. unfold resolve. replace ((0 <=? a)%Z && (a <? Z.of_nat n)%Z) with true; [eauto|]. symmetry. apply andb_true_intro. split; lia. Qed.
Lemma resolve_before n a : (0 <= a < Z.of_nat n)%Z -> exists i, resolve n (a - 1) = Ok i.
Proof.
  intros H. unfold resolve. destruct ((0 <=? a - 1)%Z && (a - 1 <? Z.of_nat n)%Z) eqn:E; [eauto|].
  replace ((- Z.of_nat n <=? a - 1)%Z && (a - 1 <? 0)%Z) with true; [eauto|]. symmetry. apply andb_true_intro.
  apply andb_false_iff in E. destruct E as [E|E]; split; lia.
Qed.
Lemma inside_current N sp F x y z : (0 <= x < Z.of_nat (N AX))%Z -> (0 <= y < Z.of_nat (N AY))%Z -> (0 <= z < Z.of_nat (N AZ))%Z ->
  is_ok (point_current N sp F (x, y, z)) = true.
Proof.
  intros X Y Z. unfold point_current, resolve3.
  destruct (resolve_nonneg _ _ X) as [x0 ->], (resolve_nonneg _ _ Y) as [y0 ->], (resolve_nonneg _ _ Z) as [z0 ->].
  destruct (resolve_before _ _ X) as [x1 ->], (resolve_before _ _ Y) as [y1 ->], (resolve_before _ _ Z) as [z1 ->]. reflexivity.
Qed.

Lemma soft_works key wave imp sg sg1 x y z n : set_soft key wave None imp sg = (sg1, None) -> sg_soft sg = [] ->
  g_steps (sg_grid sg) = 0%nat -> map so_cell (sg_soft sg1) = [Some (x, y, z)] ->
  (0 <= x < Z.of_nat (g_N (sg_grid sg) AX))%Z -> (0 <= y < Z.of_nat (g_N (sg_grid sg) AY))%Z ->
  (0 <= z < Z.of_nat (g_N (sg_grid sg) AZ))%Z ->
  is_ok (run_steps n (sg_grid sg)) = true -> exists sg2, run_soft n sg1 = Ok sg2.
Proof.
  intros H S0 T C X Y Z Rn. unfold set_soft in H. destruct (pad_key key) as [[[kx ky] kz]|] eqn:P; [|discriminate].
  unfold register_soft in H. cbn [claim_name] in H. set (h := handle_key (g_spacing (sg_grid sg))) in *.
  destruct (h kx) as [[|i [|]]|], (h ky) as [[|j [|]]|], (h kz) as [[|k [|]]|]; try discriminate.
  cbn in H. inversion H; subst. clear H. rewrite S0 in *. cbn in C. inversion C; subst i j k.
  assert (exists p, resolve3 (g_N (sg_grid sg)) (x, y, z) = Ok p) as [p I].
  { unfold resolve3. destruct (resolve_nonneg _ _ X) as [x0 ->], (resolve_nonneg _ _ Y) as [y0 ->], (resolve_nonneg _ _ Z) as [z0 ->]. eexists. reflexivity. }
  eapply (soft_runs n _ _ (length (g_detectors (sg_grid sg))) (x, y, z) p []); try reflexivity.
  - apply run_ok in Rn as [Rn Hs]. apply run_ok. cbn. split; [|exact Hs]. destruct Rn as [Rn|[Hb Hd]]; [left; exact Rn|right].
    split; [exact Hb|]. rewrite forallb_app, Hd. cbn [forallb detector_ok andb]. rewrite andb_true_r.
    apply andb_true_intro. split; [apply inside_current; assumption|reflexivity].
  - exact I.
  - cbn [sg_grid add_detector_ g_detectors]. rewrite nth_error_app2, Nat.sub_diag by lia. reflexivity.
  - left. exact T.
Qed.

(** After a reset the waveforms start anew; the recorded voltages are kept. *)
Lemma reset_inputs sg n sg1 m sg2 : run_soft n sg = Ok sg1 -> run_soft m (reset_soft sg1) = Ok sg2 ->
  Forall2 (fun s s' => same_soft s s' /\ so_in s' = so_in s ++ map (voltage_at (so_wave s)) (seq (g_steps (sg_grid sg)) n ++ seq 0 m))
  (sg_soft sg) (sg_soft sg2).
Proof.
  intros H K. apply run_soft_inputs in H. apply run_soft_inputs in K. cbn [reset_soft sg_soft sg_grid] in K.
  change (g_steps (reset (sg_grid sg1))) with 0%nat in K. revert K.
  generalize (sg_soft sg2). induction H as [|a b l1 l2 [(W & W2 & W3 & W4) Hab] F IH]; intros l3 K; inversion K as [|? c ? l3' Hbc K']; subst; constructor.
  - destruct Hbc as [(V & V2 & V3 & V4) Hin]. split; [repeat split; congruence|]. rewrite Hin, Hab, W, map_app, app_assoc. reflexivity.
  - now apply IH.
Qed.
Lemma reset_clears sg : g_steps (sg_grid (reset_soft sg)) = 0%nat /\ sg_soft (reset_soft sg) = sg_soft sg
  /\ forall p c, g_E (sg_grid (reset_soft sg)) p c = 0 /\ g_H (sg_grid (reset_soft sg)) p c = 0.
Proof.
  split; [reflexivity|]. split; [reflexivity|]. intros p c. destruct (reset_state (sg_grid sg)) as (_ & _ & H & _). apply H.
Qed.
