(** Proofs for C76, continued: the items of the picture. *)
From Coq Require Import Reals ZArith String List Bool Arith Lra Lia.
From Verif Require Import Base BaseLemmas Model_FDTD Model_Register Model_Runs Model_Output Model_Visualize Spec_Visualize Proof_FDTD Proof_Visualize.
Import ListNotations.
Open Scope list_scope.
Open Scope R_scope.

Lemma rects_app o l m : rects o (l ++ m) = rects o l ++ rects o m. Proof. apply flat_map_app. Qed.
Lemma curves_app o l m : curves o (l ++ m) = curves o l ++ curves o m. Proof. apply flat_map_app. Qed.
Lemma markers_app o l m : markers o (l ++ m) = markers o l ++ markers o m. Proof. apply flat_map_app. Qed.

(** What an item is of. *)
Definition item_role (i : item) : role := match i with Lines o _ | Marker o _ | Patch o _ _ _ _ => o end.
Lemma other_role (l : list item) o o' : Forall (fun i => item_role i = o') l -> o <> o' -> rects o l = [] /\ curves o l = [] /\ markers o l = [].
Proof.
  intros F Ne. induction F as [|i l H F (IH1 & IH2 & IH3)]; [auto|].
  change (rects o (i :: l)) with (rects o ([i] ++ l)). change (curves o (i :: l)) with (curves o ([i] ++ l)). change (markers o (i :: l)) with (markers o ([i] ++ l)).
  rewrite rects_app, curves_app, markers_app, IH1, IH2, IH3. unfold rects, curves, markers. cbn [flat_map].
  assert (role_eqb o o' = false) by (destruct o, o'; try reflexivity; contradiction).
  destruct i; cbn in H; subst; rewrite ?H0; auto.
Qed.
Lemma src_roles a l : Forall (fun i => item_role i = SrcRole) (map (source_item a) l).
Proof. apply Forall_forall. intros i I. apply in_map_iff in I as (s & <- & _). destruct s as [|[|]| |]; reflexivity. Qed.
Lemma det_roles a l : Forall (fun i => item_role i = DetRole) (map (det_item a) l).
Proof. apply Forall_forall. intros i I. apply in_map_iff in I as (s & <- & _). reflexivity. Qed.
Lemma obj_roles a l : Forall (fun i => item_role i = ObjRole) (map (obj_item a) l).
Proof. apply Forall_forall. intros i I. apply in_map_iff in I as (s & <- & _). unfold obj_item. destruct (s (down a)), (s (across a)); reflexivity. Qed.
Lemma bound_roles N a l o : o <> PmlRole -> o <> PbRole -> rects o (flat_map (draw_boundary N a) l) = [] /\ curves o (flat_map (draw_boundary N a) l) = [] /\ markers o (flat_map (draw_boundary N a) l) = [].
Proof.
  intros H K. induction l as [|b l (IH1 & IH2 & IH3)]; [auto|]. cbn [flat_map]. rewrite rects_app, curves_app, markers_app, IH1, IH2, IH3, !app_nil_r.
  unfold draw_boundary. destruct b as [d|pm| |]; auto.
  - destruct (axis_eqb d (row_axis a)); [|destruct (axis_eqb d (col_axis a))]; destruct o; auto; contradiction.
  - destruct (axis_eqb _ _); [|destruct (axis_eqb _ _)]; auto; destruct (p_high pm); destruct o; auto; contradiction.
Qed.

Lemma asks_fun x y z a k a' k' : asks x y z a k -> asks x y z a' k' -> a = a' /\ k = k'.
Proof. intros H K. apply choose_asks in H. apply choose_asks in K. rewrite H in K. injection K; auto. Qed.
(** The parts of the picture. *)
Lemma picture_parts x y z norm grad st pic a k : asks x y z a k -> visualize x y z norm grad st = Ok pic ->
  let g := st_grid st in
  Forall (source_drawable (g_N g) a) (g_sources g) /\ Forall (fun d => detector_drawable (snd d)) (dets_of st) /\ Forall (object_drawable a) (st_objs st)
  /\ rects SrcRole (pic_items pic) = rects SrcRole (map (source_item a) (g_sources g))
  /\ curves SrcRole (pic_items pic) = curves SrcRole (map (source_item a) (g_sources g))
  /\ markers SrcRole (pic_items pic) = markers SrcRole (map (source_item a) (g_sources g))
  /\ curves DetRole (pic_items pic) = curves DetRole (map (det_item a) (dets_of st))
  /\ rects ObjRole (pic_items pic) = rects ObjRole (map (obj_item a) (st_objs st))
  /\ rects PmlRole (pic_items pic) = rects PmlRole (flat_map (draw_boundary (g_N g) a) (g_boundaries g))
  /\ curves PbRole (pic_items pic) = curves PbRole (flat_map (draw_boundary (g_N g) a) (g_boundaries g)).
Proof.
  intros Ha E. apply visualize_ok in E. cbn zeta in *. destruct E as (a' & k1 & k' & _ & Ea & _ & _ & _ & Fs & Fd & Fo & _ & _ & _ & _ & It & _).
  destruct (asks_fun _ _ _ _ _ _ _ Ha Ea) as [-> _]. rewrite It. rewrite !rects_app, !curves_app, !markers_app.
  repeat (split; [assumption|]).
  pose proof (fun o => other_role _ o _ (src_roles a' (g_sources (st_grid st)))) as S.
  pose proof (fun o => other_role _ o _ (det_roles a' (dets_of st))) as D.
  pose proof (fun o => other_role _ o _ (obj_roles a' (st_objs st))) as O.
  pose proof (bound_roles (g_N (st_grid st)) a' (g_boundaries (st_grid st))) as B.
  destruct (S DetRole) as (S1 & S2 & S3); [discriminate|]. destruct (S ObjRole) as (S4 & S5 & S6); [discriminate|].
  destruct (S PmlRole) as (S7 & S8 & S9); [discriminate|]. destruct (S PbRole) as (S10 & S11 & S12); [discriminate|].
  destruct (D SrcRole) as (D1 & D2 & D3); [discriminate|]. destruct (D ObjRole) as (D4 & D5 & D6); [discriminate|].
  destruct (D PmlRole) as (D7 & D8 & D9); [discriminate|]. destruct (D PbRole) as (D10 & D11 & D12); [discriminate|].
  destruct (O SrcRole) as (O1 & O2 & O3); [discriminate|]. destruct (O DetRole) as (O4 & O5 & O6); [discriminate|].
  destruct (O PmlRole) as (O7 & O8 & O9); [discriminate|]. destruct (O PbRole) as (O10 & O11 & O12); [discriminate|].
  destruct (B SrcRole) as (B1 & B2 & B3); [discriminate|discriminate|]. destruct (B DetRole) as (B4 & B5 & B6); [discriminate|discriminate|].
  destruct (B ObjRole) as (B7 & B8 & B9); [discriminate|discriminate|].
  rewrite ?S1, ?S2, ?S3, ?S4, ?S5, ?S6, ?S7, ?S8, ?S9, ?S10, ?S11, ?S12, ?D1, ?D2, ?D3, ?D4, ?D5, ?D6, ?D7, ?D8, ?D9, ?D10, ?D11, ?D12,
    ?O1, ?O2, ?O3, ?O4, ?O5, ?O6, ?O7, ?O8, ?O9, ?O10, ?O11, ?O12, ?B1, ?B2, ?B3, ?B4, ?B5, ?B6, ?B7, ?B8, ?B9.
  rewrite ?app_nil_r. cbn [app]. repeat split.
Qed.

(** Pixels and half-integers. *)
Lemma half_le z n : IZR z - / 2 <= INR n <-> (z <= Z.of_nat n)%Z.
Proof.
  rewrite INR_IZR_INZ. split; intros H.
  - apply Z.nlt_ge. intros K. assert (Z.of_nat n + 1 <= z)%Z by lia. apply IZR_le in H0. rewrite plus_IZR in H0. lra.
  - apply IZR_le in H. lra.
Qed.
Lemma half_ge z n : INR n <= IZR z - / 2 <-> (Z.of_nat n < z)%Z.
Proof.
  rewrite INR_IZR_INZ. split; intros H.
  - apply Z.nle_gt. intros K. apply IZR_le in K. lra.
  - assert (K : (Z.of_nat n + 1 <= z)%Z) by lia. apply IZR_le in K. rewrite plus_IZR in K. lra.
Qed.
Lemma span_pixels lo hi n w : w = IZR hi - IZR lo -> (IZR lo - / 2 <= INR n <= IZR lo - / 2 + w <-> (lo <= Z.of_nat n < hi)%Z).
Proof.
  intros ->. replace (IZR lo - / 2 + (IZR hi - IZR lo)) with (IZR hi - / 2) by ring.
  rewrite half_le, half_ge. reflexivity.
Qed.

(** ** Objects *)
Lemma picture_objects x y z norm grad st pic a k : asks x y z a k -> visualize x y z norm grad st = Ok pic ->
  Forall2 (fun o rect => exists r0 r1 c0 c1, o (down a) = Some (r0, r1) /\ o (across a) = Some (c0, c1)
    /\ forall r c, holds_pixel rect r c <-> (Z.min r0 r1 <= Z.of_nat r < Z.max r0 r1 /\ Z.min c0 c1 <= Z.of_nat c < Z.max c0 c1)%Z)
  (st_objs st) (rects ObjRole (pic_items pic)).
Proof.
  intros Ha E. destruct (picture_parts _ _ _ _ _ _ _ _ _ Ha E) as (_ & _ & Fo & _ & _ & _ & _ & -> & _). clear E.
  induction Fo as [|o l H Fo IH]; [constructor|]. cbn [map]. change (obj_item a o :: map (obj_item a) l) with ([obj_item a o] ++ map (obj_item a) l).
  rewrite rects_app. apply drawable_axes in H as [H1 H2]. unfold obj_item at 1.
  destruct (o (down a)) as [[r0 r1]|] eqn:R0; [|contradiction]. destruct (o (across a)) as [[c0 c1]|] eqn:C0; [|contradiction].
  cbn [rects flat_map role_eqb app fst snd]. constructor; [|exact IH]. exists r0, r1, c0, c1. split; [exact R0|]; split; [exact C0|].
  intros r c. cbn [holds_pixel]. rewrite !span_pixels by reflexivity. tauto.
Qed.

(** ** Sources *)
Lemma plane_cons s l : plane_sources (s :: l) = plane_sources [s] ++ plane_sources l. Proof. exact (flat_map_app _ [s] l). Qed.
Lemma line_cons s l : line_sources (s :: l) = line_sources [s] ++ line_sources l. Proof. exact (flat_map_app _ [s] l). Qed.
Lemma point_cons s l : point_sources (s :: l) = point_sources [s] ++ point_sources l. Proof. exact (flat_map_app _ [s] l). Qed.
Lemma squeeze_pixels lo hi n : (lo < hi)%Z ->
  (IZR (fst (squeeze lo hi)) - / 2 <= INR n <= IZR (fst (squeeze lo hi)) - / 2 + IZR (snd (squeeze lo hi) - fst (squeeze lo hi))
   <-> (lo <= Z.of_nat n < hi)%Z /\ (lo + 1 < hi)%Z).
Proof.
  intros L. unfold squeeze. destruct (Z.ltb_spec (lo + 1) hi); cbn [fst snd].
  - rewrite span_pixels by (apply minus_IZR). lia.
  - rewrite (span_pixels lo lo) by apply minus_IZR. lia.
Qed.
Lemma picture_planes x y z norm grad st pic a k : asks x y z a k -> visualize x y z norm grad st = Ok pic ->
  (forall lo hi b, In (lo, hi) (plane_sources (g_sources (st_grid st))) -> (zcoord b lo < zcoord b hi)%Z) ->
  Forall2 (fun lh rect => forall r c, holds_pixel rect r c <->
     (zcoord (down a) (fst lh) <= Z.of_nat r < zcoord (down a) (snd lh))%Z /\ (zcoord (across a) (fst lh) <= Z.of_nat c < zcoord (across a) (snd lh))%Z
     /\ (forall b, b <> a -> zcoord b (snd lh) <> zcoord b (fst lh) + 1)%Z)
  (plane_sources (g_sources (st_grid st))) (rects SrcRole (pic_items pic)).
Proof.
  intros Ha E O. destruct (picture_parts _ _ _ _ _ _ _ _ _ Ha E) as (_ & _ & _ & -> & _). clear E.
  induction (g_sources (st_grid st)) as [|s l IH]; [constructor|]. cbn [map]. change (source_item a s :: map (source_item a) l) with ([source_item a s] ++ map (source_item a) l).
  rewrite rects_app. rewrite (plane_cons s l) in O |- *. apply Forall2_app.
  - destruct s as [cell amp sg|[|p r] pr sg|lo hi e h amp pe ph|]; try constructor; [|constructor].
    cbn [fst snd]. intros r c. cbn [holds_pixel]. assert (B : forall b, (zcoord b lo < zcoord b hi)%Z) by (intros b; apply (O lo hi b); left; reflexivity).
    rewrite !squeeze_pixels by apply B. pose proof (B (down a)). pose proof (B (across a)). split.
    + intros [[H1 H2] [H3 H4]]. repeat (split; [lia|]). intros b Hb. apply axes_of in Hb as [-> | ->]; lia.
    + intros (H1 & H2 & H3). pose proof (H3 (down a)) as K1. pose proof (H3 (across a)) as K2.
      assert (down a <> a) by (apply axes_of; auto). assert (across a <> a) by (apply axes_of; auto). specialize (K1 H4). specialize (K2 H5). lia.
  - apply IH. intros lo hi b I. apply O. apply in_or_app. right. exact I.
Qed.
Lemma picture_lines x y z norm grad st pic a k : asks x y z a k -> visualize x y z norm grad st = Ok pic ->
  Forall2 (fun cells curve => exists p r, cells = p :: r /\ joins a p (last r p) curve)
  (line_sources (g_sources (st_grid st))) (curves SrcRole (pic_items pic)).
Proof.
  intros Ha E. destruct (picture_parts _ _ _ _ _ _ _ _ _ Ha E) as (Fs & _ & _ & _ & -> & _). clear E.
  induction Fs as [|s l H Fs IH]; [constructor|]. cbn [map]. change (source_item a s :: map (source_item a) l) with ([source_item a s] ++ map (source_item a) l).
  rewrite curves_app. rewrite (line_cons s l). apply Forall2_app; [|exact IH].
  destruct s as [cell amp sg|[|p r] pr sg|lo hi e h amp pe ph|]; cbn in H; try constructor; try contradiction; [|constructor].
  exists p, r. split; reflexivity.
Qed.
Lemma picture_markers x y z norm grad st pic a k : asks x y z a k -> visualize x y z norm grad st = Ok pic ->
  markers SrcRole (pic_items pic)
  = map (fun cell => (IZR (zcoord (match a with AY => AY | _ => across a end) cell) - / 2, IZR (zcoord (down a) cell) - / 2)) (point_sources (g_sources (st_grid st))).
Proof.
  intros Ha E. destruct (picture_parts _ _ _ _ _ _ _ _ _ Ha E) as (_ & _ & _ & _ & _ & -> & _). clear E.
  induction (g_sources (st_grid st)) as [|s l IH]; [reflexivity|]. cbn [map]. change (source_item a s :: map (source_item a) l) with ([source_item a s] ++ map (source_item a) l).
  rewrite markers_app, IH. rewrite (point_cons s l). rewrite map_app. f_equal.
  destruct s as [cell amp sg|[|p r] pr sg|lo hi e h amp pe ph|]; destruct a; reflexivity.
Qed.

(** ** Detectors *)
Lemma picture_detectors x y z norm grad st pic a k : asks x y z a k -> visualize x y z norm grad st = Ok pic ->
  Forall2 (fun d curve => exists p r, cells_read (snd d) = Some (p :: r) /\
     (snd (fst d) <> DBlock -> joins a p (last r p) curve) /\ (snd (fst d) = DBlock -> outlines a p (last r p) curve))
  (combine (ss_dets (st_session st)) (g_detectors (st_grid st))) (curves DetRole (pic_items pic)).
Proof.
  intros Ha E. destruct (picture_parts _ _ _ _ _ _ _ _ _ Ha E) as (_ & Fd & _ & _ & _ & _ & -> & _). clear E. unfold dets_of in *.
  induction Fd as [|d l (p & r & H) Fd IH]; [constructor|]. cbn [map]. change (det_item a d :: map (det_item a) l) with ([det_item a d] ++ map (det_item a) l).
  rewrite curves_app. unfold det_item at 1. rewrite H. cbn [curves flat_map role_eqb app]. constructor; [|exact IH]. exists p, r. split; [exact H|].
  destruct (snd (fst d)); split; intros K; try contradiction; try discriminate; try reflexivity.
  unfold outlines, spot. do 4 eexists. repeat split.
Qed.

(** ** Boundaries *)
Lemma picture_pml x y z norm grad st pic a k p : asks x y z a k -> visualize x y z norm grad st = Ok pic ->
  let g := st_grid st in (forall b, (coord b p < g_N g b)%nat) ->
  ((exists rect, In rect (rects PmlRole (pic_items pic)) /\ holds_pixel rect (coord (down a) p) (coord (across a) p))
   <-> exists pm, In (PMLb pm) (g_boundaries g) /\ p_axis pm <> a
       /\ (if p_high pm then g_N g (p_axis pm) <= coord (p_axis pm) p + p_thick pm else coord (p_axis pm) p < p_thick pm)%nat).
Proof.
  intros Ha E g Hp. destruct (picture_parts _ _ _ _ _ _ _ _ _ Ha E) as (_ & _ & _ & _ & _ & _ & _ & _ & -> & _). clear E. fold g.
  assert (X : forall b, (exists rect, In rect (rects PmlRole (draw_boundary (g_N g) a b)) /\ holds_pixel rect (coord (down a) p) (coord (across a) p))
    <-> exists pm, b = PMLb pm /\ p_axis pm <> a /\ (if p_high pm then g_N g (p_axis pm) <= coord (p_axis pm) p + p_thick pm else coord (p_axis pm) p < p_thick pm)%nat).
  { intros b. unfold draw_boundary. change (row_axis a) with (down a). change (col_axis a) with (across a). destruct b as [d|pm| |].
    - split; [|intros (pm & Q & _); discriminate]. destruct (axis_eqb d (down a)); [|destruct (axis_eqb d (across a))]; intros (rect & [] & _).
    - assert (Z : forall n m t : nat, INR n - / 2 - INR t <= INR m <-> (n <= m + t)%nat).
      { intros n m t. split; intros H.
        - apply Nat.nlt_ge. intros K. apply le_INR in K. rewrite S_INR, plus_INR in K. lra.
        - apply le_INR in H. rewrite plus_INR in H. lra. }
      assert (Y : forall m t : nat, INR m <= - / 2 + INR t <-> (m < t)%nat).
      { intros m t. split; intros H.
        - apply Nat.nle_gt. intros K. apply le_INR in K. lra.
        - apply le_INR in H. rewrite S_INR in H. lra. }
      assert (W : forall b, - / 2 <= INR (coord b p) <= - / 2 + INR (g_N g b)).
      { intros b. split; [pose proof (pos_INR (coord b p)); lra|]. apply Y. apply Hp. }
      assert (Z' : forall n m t : nat, (m < n)%nat -> INR n - / 2 - INR t <= INR m <= INR n - / 2 - INR t + INR t <-> (n <= m + t)%nat).
      { intros n m t K. rewrite <- Z. split; [tauto|]. intros H. split; [exact H|]. apply le_INR in K. rewrite S_INR in K. lra. }
      assert (Y' : forall m t : nat, - / 2 <= INR m <= - / 2 + INR t <-> (m < t)%nat).
      { intros m t. rewrite <- Y. split; [tauto|]. intros H. split; [pose proof (pos_INR m); lra|exact H]. }
      destruct (axis_eqb (p_axis pm) (across a)) eqn:A1; [|destruct (axis_eqb (p_axis pm) (down a)) eqn:A2].
      + assert (Q : p_axis pm = across a) by (destruct (p_axis pm), a; try discriminate; reflexivity).
        split.
        * intros (rect & I & H). exists pm. split; [reflexivity|]. split; [apply axes_of; auto|]. rewrite Q. destruct (p_high pm); destruct I as [<- | []]; cbn [holds_pixel] in H.
          -- apply Z'; [apply Hp|]. tauto.
          -- apply Y'. tauto.
        * intros (pm' & R & _ & H). injection R as <-. rewrite Q in H. destruct (p_high pm); (eexists; split; [left; reflexivity|]); cbn [holds_pixel]; (split; [|apply W]); [apply Z'; [apply Hp|exact H]|apply Y'; exact H].
      + assert (Q : p_axis pm = down a) by (destruct (p_axis pm), a; try discriminate; reflexivity).
        assert (T : forall n t : R, n - t - / 2 = n - / 2 - t) by (intros; ring).
        split.
        * intros (rect & I & H). exists pm. split; [reflexivity|]. split; [apply axes_of; auto|]. rewrite Q. destruct (p_high pm); destruct I as [<- | []]; cbn [holds_pixel] in H.
          -- rewrite T in H. apply Z'; [apply Hp|]. tauto.
          -- apply Y'. tauto.
        * intros (pm' & R & _ & H). injection R as <-. rewrite Q in H. destruct (p_high pm); (eexists; split; [left; reflexivity|]); cbn [holds_pixel]; (split; [apply W|]); [rewrite T; apply Z'; [apply Hp|exact H]|apply Y'; exact H].
      + split; [intros (rect & [] & _)|]. intros (pm' & R & H & _). injection R as <-. apply axes_of in H as [H|H]; rewrite H in *; destruct a; discriminate.
    - split; [intros (rect & [] & _)|intros (pm & Q & _); discriminate].
    - split; [intros (rect & [] & _)|intros (pm & Q & _); discriminate]. }
  split.
  - intros (rect & I & H). unfold rects in I. rewrite flat_map_concat_map in I. apply in_concat in I as (l1 & I1 & I2). apply in_map_iff in I1 as (it & <- & I1).
    apply in_flat_map in I1 as (b & Ib & I1). destruct (proj1 (X b)) as (pm & -> & H1 & H2).
    + exists rect. split; [|exact H]. unfold rects. apply in_flat_map. eauto.
    + eauto.
  - intros (pm & I & H1 & H2). destruct (proj2 (X (PMLb pm))) as (rect & I1 & I2); [eauto|]. exists rect. split; [|exact I2].
    unfold rects in *. apply in_flat_map in I1 as (it & I1 & I3). apply in_flat_map. exists it. split; [|exact I3]. apply in_flat_map. eauto.
Qed.
Lemma picture_periodic x y z norm grad st pic a k : asks x y z a k -> visualize x y z norm grad st = Ok pic ->
  let g := st_grid st in let nr := INR (g_N g (down a)) in let nc := INR (g_N g (across a)) in
  forall curve, In curve (curves PbRole (pic_items pic)) <->
    (In (Periodic (down a)) (g_boundaries g)
       /\ curve = [Some (- / 2, - / 2); Some (nc - / 2, - / 2); None; Some (- / 2, nr - / 2); Some (nc - / 2, nr - / 2)])
    \/ (In (Periodic (across a)) (g_boundaries g)
       /\ curve = [Some (- / 2, - / 2); Some (- / 2, nr - / 2); None; Some (nc - / 2, - / 2); Some (nc - / 2, nr - / 2)]).
Proof.
  intros Ha E g nr nc curve. destruct (picture_parts _ _ _ _ _ _ _ _ _ Ha E) as (_ & _ & _ & _ & _ & _ & _ & _ & _ & ->). clear E. fold g.
  induction (g_boundaries g) as [|b l IH]; [cbn; tauto|]. cbn [flat_map]. rewrite curves_app, in_app_iff, IH. cbn [In].
  assert (Neq : across a <> down a) by (destruct a; discriminate).
  assert (X : In curve (curves PbRole (draw_boundary (g_N g) a b)) <->
     (b = Periodic (down a) /\ curve = [Some (- / 2, - / 2); Some (nc - / 2, - / 2); None; Some (- / 2, nr - / 2); Some (nc - / 2, nr - / 2)])
     \/ (b = Periodic (across a) /\ curve = [Some (- / 2, - / 2); Some (- / 2, nr - / 2); None; Some (nc - / 2, - / 2); Some (nc - / 2, nr - / 2)])).
  { unfold draw_boundary. change (row_axis a) with (down a). change (col_axis a) with (across a). fold nr nc. destruct b as [d|pm| |].
    - assert (S : forall u v, axis_eqb u v = true <-> u = v) by (intros [] []; cbn; split; congruence).
      destruct (axis_eqb d (down a)) eqn:D1; [|destruct (axis_eqb d (across a)) eqn:D2].
      + apply S in D1 as ->. cbn. split; [intros [<- | []]; auto|]. intros [[_ ->]|[Q _]]; [auto|]. injection Q as Q. congruence.
      + apply S in D2 as ->. cbn. split; [intros [<- | []]; auto|]. intros [[Q _]|[_ ->]]; [|auto]. injection Q as Q. congruence.
      + cbn. split; [intros []|]. intros [[Q _]|[Q _]]; injection Q as ->; rewrite (proj2 (S _ _) eq_refl) in *; discriminate.
    - split; [|intros [[Q _]|[Q _]]; discriminate]. destruct (axis_eqb _ _); [|destruct (axis_eqb _ _)]; try (intros []); destruct (p_high pm); intros [].
    - split; [intros []|intros [[Q _]|[Q _]]; discriminate].
    - split; [intros []|intros [[Q _]|[Q _]]; discriminate]. }
  rewrite X. tauto.
Qed.

(** ** The colour scale *)
Lemma greatest_spec l x : In x l -> In (greatest l) l /\ forall y, In y l -> y <= greatest l.
Proof.
  assert (G : forall r a, In (fold_left Rmax r a) (a :: r) /\ forall y, In y (a :: r) -> y <= fold_left Rmax r a).
  { induction r as [|b r IH]; intros a.
    - cbn. split; [auto|]. intros y [<- | []]. lra.
    - cbn [fold_left]. destruct (IH (Rmax a b)) as [H1 H2]. split.
      + destruct H1 as [H1|H1]; [|right; right; exact H1]. rewrite <- H1. unfold Rmax. destruct (Rle_dec a b); [right; left|left]; reflexivity.
      + intros y [<- |[<-|I]].
        * eapply Rle_trans; [apply (Rmax_l a b)|]. apply H2. left; reflexivity.
        * eapply Rle_trans; [apply (Rmax_r a b)|]. apply H2. left; reflexivity.
        * apply H2. right; exact I. }
  destruct l as [|a r]; [intros []|]. intros _. apply G.
Qed.
Lemma in_pixels nr nc px v : In v (pixels nr nc px) <-> exists r c, (r < nr)%nat /\ (c < nc)%nat /\ v = px r c.
Proof.
  unfold pixels. rewrite in_flat_map. split.
  - intros (r & R1 & I). apply in_map_iff in I as (c & <- & C). apply in_seq in R1. apply in_seq in C. exists r, c. repeat split; lia.
  - intros (r & c & R1 & C & ->). exists r. split; [apply in_seq; lia|]. apply in_map. apply in_seq. lia.
Qed.
Lemma picture_scale x y z norm grad st pic : visualize x y z norm grad st = Ok pic ->
  (norm <> "log"%string -> pic_vmax pic = None)
  /\ (norm = "log"%string -> exists m, pic_vmax pic = Some (m + / 10 ^ 4) /\ 0 <= m
       /\ (forall r c, (r < pic_rows pic)%nat -> (c < pic_cols pic)%nat -> pic_pixel pic r c <= m)
       /\ exists r c, (r < pic_rows pic)%nat /\ (c < pic_cols pic)%nat /\ pic_pixel pic r c = m).
Proof.
  intros E. apply visualize_ok in E. cbn zeta in E. destruct E as (a & k & k' & _ & _ & S1 & S2 & _ & _ & _ & _ & _ & Er & Ec & Px & _ & V).
  rewrite V. split.
  - intros H. apply String.eqb_neq in H. now rewrite H.
  - intros ->. cbn [String.eqb Ascii.eqb Bool.eqb]. 
    assert (I : In (pic_pixel pic 0 0) (pixels (pic_rows pic) (pic_cols pic) (pic_pixel pic))).
    { apply in_pixels. exists 0%nat, 0%nat. rewrite Er, Ec. repeat split; lia. }
    destruct (greatest_spec _ _ I) as [G1 G2]. exists (greatest (pixels (pic_rows pic) (pic_cols pic) (pic_pixel pic))). split; [reflexivity|].
    assert (B : forall r c, (r < pic_rows pic)%nat -> (c < pic_cols pic)%nat -> pic_pixel pic r c <= greatest (pixels (pic_rows pic) (pic_cols pic) (pic_pixel pic))).
    { intros r c Hr Hc. apply G2. apply in_pixels. eauto. }
    apply in_pixels in G1 as (r & c & Hr & Hc & G1).
    split; [|split; [exact B|exists r, c; auto]]. rewrite G1. 
    destruct (Px r c) as [P1 P2].
    assert (D : pic_pixel pic r c = 0 \/ pic_pixel pic r c = energy (st_grid st) (cell_at a k' r c)).
    { assert (Dec : (exists s, In s (g_sources (st_grid st)) /\ source_blanks (g_N (st_grid st)) a s r c) \/ ~ (exists s, In s (g_sources (st_grid st)) /\ source_blanks (g_N (st_grid st)) a s r c)).
      { clear. induction (g_sources (st_grid st)) as [|s' l IH]; [right; intros (s & [] & _)|]. destruct IH as [(t & I & B)|H]; [left; exists t; split; [right|]; assumption|].
        assert (X : source_blanks (g_N (st_grid st)) a s' r c \/ ~ source_blanks (g_N (st_grid st)) a s' r c).
        { destruct s'; cbn [source_blanks]; auto. rewrite blanks_resolve.
          destruct (resolve _ _) as [i|]; [|right; intros [Q _]; discriminate]. destruct (resolve _ _) as [j|]; [|right; intros [_ Q]; discriminate].
          destruct (Nat.eq_dec i r), (Nat.eq_dec j c); subst; auto; right; intros [Q1 Q2]; congruence. }
        destruct X as [X|X]; [left; exists s'; split; [left; reflexivity|exact X]|].
        right. intros (t & [<-|I] & B); [contradiction|]. apply H. eauto. }
      destruct Dec; auto. }
    destruct D as [-> | ->]; [lra|]. rewrite energy_is. unfold energy_in.
    repeat apply Rplus_le_le_0_compat; apply pow2_ge_0.
Qed.
