(** Property theorems C77: the frames of a film. *)
From Coq Require Import Reals ZArith String List Bool Arith Lra Lia.
From Verif Require Import Base BaseLemmas Model_Units Model_FDTD Model_Register Model_Runs Model_Output Model_Visualize Spec_FDTD Spec_Register Spec_Runs Spec_Output Spec_Visualize
  Proof_Total Proof_Reset Proof_FDTD Proof_PML Proof_Runs Proof_Output Proof_Visualize Proof_Frames.
Import ListNotations.
Open Scope nat_scope.
Open Scope string_scope.

(** Frames of different indices are different files, named as ffmpeg expects
    (file%04d.png) and in alphabetical order below 10000. *)
Theorem C77_distinct : forall i j,
  frame_name (Some i) = frame_name (Some j) -> i = j.
Proof. exact frame_inj_name. Qed.
Print Assumptions C77_distinct.
Theorem C77_distinct_none : forall i,
  frame_name (Some i) <> frame_name None.
Proof. exact frame_not_none. Qed.
Print Assumptions C77_distinct_none.
Theorem C77_name : forall i,
  i < 10 ^ 4 -> frame_name (Some i) = "file" ++ four_digits i ++ ".png".
Proof. exact frame_four. Qed.
Print Assumptions C77_name.
Theorem C77_order : forall i j,
  i < j -> j < 10 ^ 4 -> String.compare (frame_name (Some i)) (frame_name (Some j)) = Lt.
Proof. exact frame_order. Qed.
Print Assumptions C77_order.
Theorem C77_order_refuted : exists i j, i < j /\ String.compare (frame_name (Some j)) (frame_name (Some i)) = Lt.
Proof. exact frame_order_refuted. Qed.
Print Assumptions C77_order_refuted.
(** Saving a frame writes one file and changes nothing else; a refused one changes
    nothing. *)
Theorem C77_saved : forall x y z norm grad f index st,
  (exists pic, visualize x y z norm grad st = Ok pic) ->
  ss_files (st_session st) f = Some Dir -> ss_files (st_session st) (frame_name index :: f) <> Some Dir ->
  exists st', save_frame x y z norm grad (Some f) index st = (st', None) /\ only_files st st'
  /\ ss_files (st_session st') (frame_name index :: f) = Some (File (Some Frame))
  /\ forall p, p <> frame_name index :: f -> ss_files (st_session st') p = ss_files (st_session st) p.
Proof. exact frame_saved. Qed.
Print Assumptions C77_saved.
Theorem C77_refused : forall x y z norm grad folder index st st' e,
  save_frame x y z norm grad folder index st = (st', Some e) -> st' = st.
Proof. exact frame_refused. Qed.
Print Assumptions C77_refused.
Theorem C77_no_folder : forall x y z norm grad index st,
  (exists pic, visualize x y z norm grad st = Ok pic) ->
  save_frame x y z norm grad None index st = (st, Some (Raised TypeError)).
Proof. exact frame_no_folder. Qed.
Print Assumptions C77_no_folder.
(** If one picture can be drawn, a film of any length can be made of a grid that
    runs. *)
Theorem C77_film : forall n,
  forall x y z norm i0 st f g', ss_folder (st_session st) = Some f -> ss_files (st_session st) f = Some Dir ->
  (forall i, i0 <= i < i0 + n -> ss_files (st_session st) (frame f i) <> Some Dir) ->
  (exists pic, visualize x y z norm false st = Ok pic) -> run_steps n (st_grid st) = Ok g' ->
  exists st', film x y z norm i0 n st = Some (st', None) /\ st_grid st' = g' /\ st_objs st' = st_objs st /\ ss_dets (st_session st') = ss_dets (st_session st)
  /\ ss_folder (st_session st') = Some f /\ ss_sim (st_session st') = ss_sim (st_session st) /\ ss_cwd (st_session st') = ss_cwd (st_session st)
  /\ (forall i, i0 <= i < i0 + n -> ss_files (st_session st') (frame f i) = Some (File (Some Frame)))
  /\ forall p, (forall i, i0 <= i < i0 + n -> p <> frame f i) -> ss_files (st_session st') p = ss_files (st_session st) p.
Proof. exact film_made. Qed.
Print Assumptions C77_film.
(** Made into a video, nothing else is left of the film. *)
Theorem C77_video : forall x y z norm i0 n st f g' nm now,
  ss_folder (st_session st) = Some f -> ss_files (st_session st) f = Some Dir -> ss_sim (st_session st) = full_name nm now -> slashless_name nm ->
  (forall p, image_in f p -> ss_files (st_session st) p = None) ->
  (exists pic, visualize x y z norm false st = Ok pic) -> run_steps n (st_grid st) = Ok g' ->
  exists st' st'', film x y z norm i0 n st = Some (st', None) /\ perform_in (GenerateVideo true Writes) st' = Some (st'', None) /\ st_grid st'' = g'
  /\ (forall i, i0 <= i < i0 + n -> ss_files (st_session st') (frame f i) = Some (File (Some Frame)))
  /\ forall p, p <> ("fdtd_sim_video_" ++ full_name nm now ++ ".mp4") :: f -> ss_files (st_session st'') p = ss_files (st_session st) p.
Proof. exact film_video. Qed.
Print Assumptions C77_video.

Definition set_ : grid :=
  mkGrid (shape_of 8 3 1) 1 (1 / 2)%R 1 zero_field zero_field zero_field (fun _ _ => 1%R) (fun _ _ => 1%R) 0 [] [] [] 0 [].
Definition reel : place := ["reel"].
Definition shelf : files stored := fun p => if place_eqb p reel then Some Dir else None.
Definition camera : studio := mkStudio (mkSession set_ [] (Some reel) (full_name (Some "x") (fun _ => mkTime 22 11 2 12 0 0)) [] shelf) [].
Example C77_case : ss_folder (st_session camera) = Some reel /\ ss_files (st_session camera) reel = Some Dir
  /\ (forall p, image_in reel p -> ss_files (st_session camera) p = None) /\ slashless_name (Some "x")
  /\ (exists pic, visualize NoCoordinate NoCoordinate (IntCoordinate 0) "log" false camera = Ok pic)
  /\ forall n, exists g', run_steps n (st_grid camera) = Ok g'.
Proof.
  split; [reflexivity|]. split; [reflexivity|]. split; [|split; [|split]].
  - intros p (a & -> & _). cbn. unfold shelf, reel. destruct (place_eqb_spec ((a ++ ".png") :: ["reel"]) ["reel"]); [discriminate|reflexivity].
  - intros m E. injection E as <-. intros (a & b & E). repeat (destruct a as [|? a]; [discriminate|injection E as _ E]); destruct a; discriminate.
  - apply picture_iff. split; [right; right; reflexivity|]. split; [reflexivity|]. exists AZ, 0%Z. split; [repeat split|].
    split; [intros [] H; cbn; lia || contradiction|]. split; [unfold an_index; cbn; lia|]. repeat split; constructor.
  - intros n. destruct (proj2 (run_raises_iff n set_)) as [g E]; [|exists g; exact E].
    right. split; [constructor|]. split; [constructor|]. intros; constructor.
Qed.
Example C77_name_case : frame_name (Some 27) = "file0027.png" /\ frame_name None = "fileNone.png".
Proof. split; reflexivity. Qed.
