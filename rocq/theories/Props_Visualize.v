(** Property theorems C76: the picture of a plane of the grid. *)
From Coq Require Import Reals ZArith String List Bool Arith Lra Lia.
From Verif Require Import Base BaseLemmas Model_Units Model_FDTD Model_Register Model_Runs Model_Output Model_Visualize Spec_FDTD Spec_Register Spec_Visualize
  Proof_FDTD Proof_PML Proof_Output Proof_Visualize Proof_Visualize2 Proof_Visualize3 Proof_Visualize4.
Import ListNotations.
Open Scope list_scope.
Open Scope R_scope.

(** A picture is drawn exactly if one plane of the grid is asked for that is more
    than one cell wide and high, and every source, detector and object can be
    drawn. *)
Theorem C76_draws : forall x y z norm grad st,
  let g := st_grid st in
  (exists pic, visualize x y z norm grad st = Ok pic)
  <-> known_norm norm /\ grad = false /\ exists a k, asks x y z a k
      /\ (forall b, b <> a -> (1 < g_N g b)%nat) /\ an_index (g_N g a) k
      /\ Forall (source_drawable (g_N g) a) (g_sources g)
      /\ Forall (fun d => detector_drawable (snd d)) (combine (ss_dets (st_session st)) (g_detectors g))
      /\ Forall (object_drawable a) (st_objs st).
Proof. exact picture_iff. Qed.
Print Assumptions C76_draws.
Theorem C76_refused : forall x y z norm grad st,
  visualize x y z norm grad st = Err ValueError <-> ~ known_norm norm \/ ~ exists a k, asks x y z a k.
Proof. exact picture_value_error. Qed.
Print Assumptions C76_refused.
(** After a history in which nothing was rejected. *)
Theorem C76_after_history : forall g cwd fs l st x y z norm a k,
  g_sources g = [] -> g_detectors g = [] ->
  play_studio l (mkStudio (start g cwd fs) []) = Some st ->
  known_norm norm -> asks x y z a k -> (forall b, b <> a -> (1 < g_N (st_grid st) b)%nat) -> an_index (g_N (st_grid st) a) k ->
  (forall cell, In cell (point_sources (g_sources (st_grid st))) -> exists r c, blanks (g_N (st_grid st)) a cell r c) ->
  (forall cells, In cells (line_sources (g_sources (st_grid st))) -> cells <> []) ->
  (forall d, In d (g_detectors (st_grid st)) -> cells_read d <> Some []) ->
  exists pic, visualize x y z norm false st = Ok pic.
Proof. exact clean_pictures. Qed.
Print Assumptions C76_after_history.
(** The image shows the energy of the cells of the plane; the pixels of point
    sources are 0. *)
Theorem C76_image : forall x y z norm grad st pic,
  visualize x y z norm grad st = Ok pic ->
  let g := st_grid st in
  exists a k k', asks x y z a k /\ names_index (g_N g a) k k'
  /\ pic_rows pic = g_N g (down a) /\ pic_cols pic = g_N g (across a)
  /\ forall p, coord a p = k' ->
     ((exists cell, In cell (point_sources (g_sources g)) /\ blanks (g_N g) a cell (coord (down a) p) (coord (across a) p)) ->
        pic_pixel pic (coord (down a) p) (coord (across a) p) = 0)
     /\ ((forall cell, In cell (point_sources (g_sources g)) -> ~ blanks (g_N g) a cell (coord (down a) p) (coord (across a) p)) ->
        pic_pixel pic (coord (down a) p) (coord (across a) p) = energy_in g p).
Proof. exact picture_image. Qed.
Print Assumptions C76_image.
(** The limit of the logarithmic scale. *)
Theorem C76_scale : forall x y z norm grad st pic,
  visualize x y z norm grad st = Ok pic ->
  (norm <> "log"%string -> pic_vmax pic = None)
  /\ (norm = "log"%string -> exists m, pic_vmax pic = Some (m + / 10 ^ 4) /\ 0 <= m
       /\ (forall r c, (r < pic_rows pic)%nat -> (c < pic_cols pic)%nat -> pic_pixel pic r c <= m)
       /\ exists r c, (r < pic_rows pic)%nat /\ (c < pic_cols pic)%nat /\ pic_pixel pic r c = m).
Proof. exact picture_scale. Qed.
Print Assumptions C76_scale.
(** Objects: one rectangle for each. *)
Theorem C76_objects : forall x y z norm grad st pic a k,
  asks x y z a k -> visualize x y z norm grad st = Ok pic ->
  Forall2 (fun o rect => exists r0 r1 c0 c1, o (down a) = Some (r0, r1) /\ o (across a) = Some (c0, c1)
    /\ forall r c, holds_pixel rect r c <-> (Z.min r0 r1 <= Z.of_nat r < Z.max r0 r1 /\ Z.min c0 c1 <= Z.of_nat c < Z.max c0 c1)%Z)
  (st_objs st) (rects ObjRole (pic_items pic)).
Proof. exact picture_objects. Qed.
Print Assumptions C76_objects.
Theorem C76_object_where : forall ax bx ay by_ az bz nm eps cond st st' x y z norm grad pic a k lo hi,
  perform_in (Assign [int_slice ax bx; int_slice ay by_; int_slice az bz] (CObject nm eps cond)) st = Some (st', None) ->
  slice_range (g_N (st_grid st) AX) ax bx (coord AX lo) (coord AX hi) ->
  slice_range (g_N (st_grid st) AY) ay by_ (coord AY lo) (coord AY hi) ->
  slice_range (g_N (st_grid st) AZ) az bz (coord AZ lo) (coord AZ hi) ->
  asks x y z a k -> visualize x y z norm grad st' = Ok pic ->
  exists earlier rect, rects ObjRole (pic_items pic) = earlier ++ [rect]
  /\ forall r c, holds_pixel rect r c <-> (coord (down a) lo <= r < coord (down a) hi)%nat /\ (coord (across a) lo <= c < coord (across a) hi)%nat.
Proof. exact object_where. Qed.
Print Assumptions C76_object_where.
(** Sources. *)
Theorem C76_planes : forall x y z norm grad st pic a k,
  asks x y z a k -> visualize x y z norm grad st = Ok pic ->
  (forall lo hi b, In (lo, hi) (plane_sources (g_sources (st_grid st))) -> (zcoord b lo < zcoord b hi)%Z) ->
  Forall2 (fun lh rect => forall r c, holds_pixel rect r c <->
     (zcoord (down a) (fst lh) <= Z.of_nat r < zcoord (down a) (snd lh))%Z /\ (zcoord (across a) (fst lh) <= Z.of_nat c < zcoord (across a) (snd lh))%Z
     /\ (forall b, b <> a -> zcoord b (snd lh) <> zcoord b (fst lh) + 1)%Z)
  (plane_sources (g_sources (st_grid st))) (rects SrcRole (pic_items pic)).
Proof. exact picture_planes. Qed.
Print Assumptions C76_planes.
Theorem C76_lines : forall x y z norm grad st pic a k,
  asks x y z a k -> visualize x y z norm grad st = Ok pic ->
  Forall2 (fun cells curve => exists p r, cells = p :: r /\ joins a p (last r p) curve)
  (line_sources (g_sources (st_grid st))) (curves SrcRole (pic_items pic)).
Proof. exact picture_lines. Qed.
Print Assumptions C76_lines.
Theorem C76_markers : forall x y z norm grad st pic a k,
  asks x y z a k -> visualize x y z norm grad st = Ok pic ->
  markers SrcRole (pic_items pic)
  = map (fun cell => (IZR (zcoord (match a with AY => AY | _ => across a end) cell) - / 2, IZR (zcoord (down a) cell) - / 2)) (point_sources (g_sources (st_grid st))).
Proof. exact picture_markers. Qed.
Print Assumptions C76_markers.
(** Detectors. *)
Theorem C76_detectors : forall x y z norm grad st pic a k,
  asks x y z a k -> visualize x y z norm grad st = Ok pic ->
  Forall2 (fun d curve => exists p r, cells_read (snd d) = Some (p :: r) /\
     (snd (fst d) <> DBlock -> joins a p (last r p) curve) /\ (snd (fst d) = DBlock -> outlines a p (last r p) curve))
  (combine (ss_dets (st_session st)) (g_detectors (st_grid st))) (curves DetRole (pic_items pic)).
Proof. exact picture_detectors. Qed.
Print Assumptions C76_detectors.
Theorem C76_block : forall key nm st st' x y z norm grad pic a k,
  (forall l, ~ In (KList l) key) ->
  perform_in (Assign key (CDetector DBlock nm)) st = Some (st', None) ->
  length (ss_dets (st_session st)) = length (g_detectors (st_grid st)) ->
  asks x y z a k -> visualize x y z norm grad st' = Ok pic ->
  exists ds d cells p q cs curve, g_detectors (st_grid st') = ds ++ [d] /\ cells_read d = Some cells
  /\ curves DetRole (pic_items pic) = cs ++ [curve] /\ outlines a p q curve /\ forall c, In c cells -> within a p q c.
Proof. exact block_drawn. Qed.
Print Assumptions C76_block.
(** Boundaries: the shaded pixels are those of the absorbing cells of the layers
    seen from the side. *)
Theorem C76_pml : forall x y z norm grad st pic a k p,
  asks x y z a k -> visualize x y z norm grad st = Ok pic ->
  let g := st_grid st in (forall b, (coord b p < g_N g b)%nat) ->
  ((exists rect, In rect (rects PmlRole (pic_items pic)) /\ holds_pixel rect (coord (down a) p) (coord (across a) p))
   <-> exists pm, In (PMLb pm) (g_boundaries g) /\ p_axis pm <> a
       /\ (if p_high pm then g_N g (p_axis pm) <= coord (p_axis pm) p + p_thick pm else coord (p_axis pm) p < p_thick pm)%nat).
Proof. exact picture_pml. Qed.
Print Assumptions C76_pml.
Theorem C76_periodic : forall x y z norm grad st pic a k,
  asks x y z a k -> visualize x y z norm grad st = Ok pic ->
  let g := st_grid st in let nr := INR (g_N g (down a)) in let nc := INR (g_N g (across a)) in
  forall curve, In curve (curves PbRole (pic_items pic)) <->
    (In (Periodic (down a)) (g_boundaries g)
       /\ curve = [Some (- / 2, - / 2); Some (nc - / 2, - / 2); None; Some (- / 2, nr - / 2); Some (nc - / 2, nr - / 2)])
    \/ (In (Periodic (across a)) (g_boundaries g)
       /\ curve = [Some (- / 2, - / 2); Some (- / 2, nr - / 2); None; Some (nc - / 2, - / 2); Some (nc - / 2, nr - / 2)]).
Proof. exact picture_periodic. Qed.
Print Assumptions C76_periodic.
(** Not everything on the grid can be seen: a plane source that is one cell thick
    and seen from its edge has no pixel, a detector given by negative indices is
    outside of the picture, and a point source far out along y spoils the pictures
    of planes across y. *)
Theorem C76_edge_refuted : forall x y z norm grad st pic a k lo hi b,
  asks x y z a k -> visualize x y z norm grad st = Ok pic ->
  plane_sources (g_sources (st_grid st)) = [(lo, hi)] -> (forall c, zcoord c lo < zcoord c hi)%Z -> b <> a -> (zcoord b hi = zcoord b lo + 1)%Z ->
  exists rect, rects SrcRole (pic_items pic) = [rect] /\ forall r c, ~ holds_pixel rect r c.
Proof. exact plane_edge_on. Qed.
Print Assumptions C76_edge_refuted.
Theorem C76_negative_refuted : forall x y z norm grad st pic a k nk d p r b,
  asks x y z a k -> visualize x y z norm grad st = Ok pic ->
  combine (ss_dets (st_session st)) (g_detectors (st_grid st)) = [(nk, d)] -> cells_read d = Some (p :: r) -> b <> a -> (zcoord b p < 0)%Z ->
  exists curve rest u v, curves DetRole (pic_items pic) = [curve] /\ curve = Some (u, v) :: rest /\ (u <= -1 \/ v <= -1).
Proof. exact negative_detector_off. Qed.
Print Assumptions C76_negative_refuted.
Theorem C76_zx_refuted : forall x y z norm grad st k cell,
  asks x y z AY k -> In cell (point_sources (g_sources (st_grid st))) ->
  ~ an_index (g_N (st_grid st) AX) (zcoord AY cell) -> forall pic, visualize x y z norm grad st <> Ok pic.
Proof. exact zx_point_refused. Qed.
Print Assumptions C76_zx_refuted.

Definition nowhere : files stored := fun _ => None.
Definition building : list op :=
  [Assign [int_slice (Some 2%Z) (Some 5%Z); full_slice; full_slice] (CObject None 4 None);
   Assign [KNum (PInt 6); int_slice (Some 0%Z) (Some 2%Z); KNum (PInt 0)] (CDetector DBlock (Some "d"%string));
   Assign [KNum (PInt 1); KNum (PInt 1); KNum (PInt 0)] (CPoint None (mkSource (PInt 10) 1 0 5 None SRicker));
   Assign [int_slice (Some 0%Z) (Some 2%Z); full_slice; full_slice] (CPML (Some "pml"%string) 0)].
Example C76_case : g_sources demo_grid = [] /\ g_detectors demo_grid = []
  /\ exists st pic, play_studio building (mkStudio (start demo_grid [] nowhere) []) = Some st
  /\ asks NoCoordinate NoCoordinate (IntCoordinate 0) AZ 0 /\ visualize NoCoordinate NoCoordinate (IntCoordinate 0) "log" false st = Ok pic
  /\ length (st_objs st) = 1%nat /\ length (g_detectors (st_grid st)) = 1%nat /\ length (g_boundaries (st_grid st)) = 1%nat
  /\ point_sources (g_sources (st_grid st)) = [(1, 1, 0)%Z].
Proof.
  split; [reflexivity|]. split; [reflexivity|].
  destruct (play_studio building (mkStudio (start demo_grid [] nowhere) [])) as [st|] eqn:E; [|discriminate].
  assert (P : length (st_objs st) = 1%nat /\ length (g_detectors (st_grid st)) = 1%nat /\ length (g_boundaries (st_grid st)) = 1%nat
    /\ point_sources (g_sources (st_grid st)) = [(1, 1, 0)%Z] /\ line_sources (g_sources (st_grid st)) = [] /\ g_N (st_grid st) = g_N demo_grid
    /\ forall d, In d (g_detectors (st_grid st)) -> cells_read d <> Some []).
  { injection E as <-. repeat (split; [reflexivity|]). intros d [<- |[]]. discriminate. }
  destruct P as (P1 & P2 & P3 & P4 & P5 & P6 & P7).
  assert (A : asks NoCoordinate NoCoordinate (IntCoordinate 0) AZ 0) by (repeat split).
  destruct (clean_pictures demo_grid [] nowhere building st NoCoordinate NoCoordinate (IntCoordinate 0) "log" AZ 0) as [pic Hp]; auto.
  - right. right. reflexivity.
  - rewrite P6. intros [] Hb; cbn; lia || contradiction.
  - rewrite P6. unfold an_index. cbn. lia.
  - rewrite P4, P6. intros cell [<- |[]]. exists 1%nat, 1%nat. cbn. unfold names_index. lia.
  - rewrite P5. intros cells [].
  - exists st, pic. auto 10.
Qed.
(** A plane source seen from the edge and a detector in the last layer. *)
Definition box : grid :=
  mkGrid (shape_of 2 5 2) 1 (1 / 2) 1 zero_field zero_field zero_field (fun _ _ => 1) (fun _ _ => 1) 0
    [PlaneSource (0, 2, 0)%Z (2, 3, 2)%Z AZ AX 1 10 0] [] [FieldDetector [(-1, 0, 0)%Z] [] []] 0 [].
Definition box_studio : studio := mkStudio (mkSession box [(None, DLine)] None "" [] nowhere) [].
Example C76_hidden_case : (exists pic, visualize NoCoordinate NoCoordinate (IntCoordinate 1) "linear" false box_studio = Ok pic)
  /\ asks NoCoordinate NoCoordinate (IntCoordinate 1) AZ 1 /\ AY <> AZ /\ AX <> AZ
  /\ (exists lo hi, plane_sources (g_sources (st_grid box_studio)) = [(lo, hi)] /\ (forall c, zcoord c lo < zcoord c hi)%Z /\ (zcoord AY hi = zcoord AY lo + 1)%Z)
  /\ (exists d p, combine (ss_dets (st_session box_studio)) (g_detectors (st_grid box_studio)) = [(None, DLine, d)] /\ cells_read d = Some [p] /\ (zcoord AX p < 0)%Z).
Proof.
  split; [|split; [repeat split|split; [discriminate|split; [discriminate|split]]]].
  - apply picture_iff. split; [left; reflexivity|]. split; [reflexivity|]. exists AZ, 1%Z. split; [repeat split|].
    split; [intros [] H; cbn; lia || contradiction|]. split; [unfold an_index; cbn; lia|]. split; [repeat constructor|]. split; [|constructor].
    constructor; [|constructor]. exists (-1, 0, 0)%Z, []. reflexivity.
  - exists (0, 2, 0)%Z, (2, 3, 2)%Z. split; [reflexivity|]. split; [intros []; cbn; lia|reflexivity].
  - exists (FieldDetector [(-1, 0, 0)%Z] [] []), (-1, 0, 0)%Z. split; [reflexivity|]. split; [reflexivity|]. cbn. lia.
Qed.
(** A point source within the grid that spoils the pictures of planes across y. *)
Example C76_zx_case : exists st cell, play_studio [Assign [KNum (PInt 1); KNum (PInt 4); KNum (PInt 1)] (CPoint None (mkSource (PInt 10) 1 0 5 None SRicker))]
    (mkStudio (start box [] nowhere) []) = Some st
  /\ point_sources (g_sources (st_grid st)) = [cell] /\ (forall b, 0 <= zcoord b cell < Z.of_nat (g_N (st_grid st) b))%Z
  /\ ~ an_index (g_N (st_grid st) AX) (zcoord AY cell) /\ asks NoCoordinate (IntCoordinate 0) NoCoordinate AY 0.
Proof.
  do 2 eexists. split; [reflexivity|]. split; [reflexivity|]. split; [intros []; cbn; lia|]. split; [unfold an_index; cbn; lia|repeat split].
Qed.
