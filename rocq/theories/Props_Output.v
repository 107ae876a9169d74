(** Property theorems C72: saved detector readings. *)
From Coq Require Import Reals ZArith String List Bool Arith Lia.
From Verif Require Import Base BaseLemmas Model_Units Model_FDTD Model_Register Model_Runs Model_Output Spec_FDTD Spec_Register Spec_Runs Spec_Output
  Proof_Total Proof_Reset Proof_Runs Proof_Register Proof_PML Proof_Output Proof_Output2.
Import ListNotations.
Open Scope nat_scope.
Open Scope string_scope.

(** What [save_data] writes: two arrays for each detector, nothing else. *)
Theorem C72_stored : forall s folder,
  length (ss_dets s) = length (g_detectors (ss_grid s)) ->
  Forall storable (ss_dets s) -> NoDup (map name_of_det (ss_dets s)) ->
  ss_folder s = Some folder -> ss_files s folder = Some Dir -> ss_files s ("detector_readings.npz" :: folder) <> Some Dir ->
  exists s' r, save_data s = (s', None) /\ ss_files s' ("detector_readings.npz" :: folder) = Some (File (Some (Readings r)))
  /\ map fst r = flat_map (fun d => [name_of_det d ++ " (E)"; name_of_det d ++ " (H)"]) (ss_dets s)
  /\ (forall i n k d, nth_error (ss_dets s) i = Some (Some n, k) -> nth_error (g_detectors (ss_grid s)) i = Some d ->
        array r (n ++ " (E)") = Some (records_E d) /\ array r (n ++ " (H)") = Some (records_H d))
  /\ (forall p, p <> "detector_readings.npz" :: folder -> ss_files s' p = ss_files s p).
Proof. exact data_stored. Qed.
Print Assumptions C72_stored.
(** In a history in which nothing raised, the arrays of a detector have one sample
    for each step run since it was placed, the fields after that step. *)
Theorem C72_samples : forall g cwd fs l1 key k n l2 s folder x y z,
  g_detectors g = [] -> k <> DCurrent -> pad_key key = Ok (x, y, z) ->
  play_clean (l1 ++ Assign key (CDetector k (Some n)) :: l2) (start g cwd fs) = Some s ->
  Forall storable (ss_dets s) ->
  ss_folder s = Some folder -> ss_files s folder = Some Dir -> ss_files s ("detector_readings.npz" :: folder) <> Some Dir ->
  exists s' r E H cells s1, save_data s = (s', None) /\ ss_files s' ("detector_readings.npz" :: folder) = Some (File (Some (Readings r)))
  /\ array r (n ++ " (E)") = Some E /\ array r (n ++ " (H)") = Some H
  /\ length E = steps_in l2 /\ length H = steps_in l2
  /\ play_clean (l1 ++ [Assign key (CDetector k (Some n))]) (start g cwd fs) = Some s1
  /\ (let c m := handle_key (g_spacing g) m in
      match k with DLine => line_cells 0 (g_N g) (c x) (c y) (c z) | _ => block_cells (g_N g) (c x) (c y) (c z) end = Ok cells)
  /\ forall a m b sa j gk, l2 = (a ++ Run m :: b)%list -> play a s1 = Some sa -> j < m -> run_steps (S j) (ss_grid sa) = Ok gk ->
     exists e h, nth_error E (steps_in a + j) = Some e /\ nth_error H (steps_in a + j) = Some h
       /\ reads (g_N g) (g_E gk) cells e /\ reads (g_N g) (g_H gk) cells h.
Proof. exact readings_saved. Qed.
Print Assumptions C72_samples.
(** When [save_data] raises, and that it then leaves everything as it was. *)
Theorem C72_refused : forall s e folder,
  length (ss_dets s) = length (g_detectors (ss_grid s)) -> ss_folder s = Some folder ->
  (snd (save_data s) = Some (Raised e) <-> exists a x b, ss_dets s = (a ++ x :: b)%list /\ Forall storable a /\ stumbles x e)
  /\ (snd (save_data s) <> None -> fst (save_data s) = s).
Proof. exact data_refused. Qed.
Print Assumptions C72_refused.
Theorem C72_no_folder : forall s,
  ss_folder s = None -> save_data s = (s, Some (Raised PlainException)) /\ forall d how, generate_video d how s = (s, Some (Raised PlainException)).
Proof. exact no_folder. Qed.
Print Assumptions C72_no_folder.
(** A detector that was refused because its name was taken, the exception being
    caught, replaces the readings of the detector that has the name. *)
Theorem C72_refused_twin_refuted : forall s key k n s' e folder,
  length (ss_dets s) = length (g_detectors (ss_grid s)) -> Forall storable (ss_dets s) ->
  k <> DCurrent -> perform (Assign key (CDetector k (Some n))) s = Some (s', Some (Raised e)) -> (exists x, pad_key key = Ok x) ->
  ss_folder s = Some folder -> ss_files s folder = Some Dir -> ss_files s ("detector_readings.npz" :: folder) <> Some Dir ->
  exists s'' r, save_data s' = (s'', None) /\ ss_files s'' ("detector_readings.npz" :: folder) = Some (File (Some (Readings r)))
    /\ array r (n ++ " (E)") = Some [] /\ array r (n ++ " (H)") = Some [].
Proof. exact twin_erases. Qed.
Print Assumptions C72_refused_twin_refuted.

(** Where a simulation is saved. *)
Theorem C72_folder : forall n now s,
  slashless_name n -> named_place (ss_cwd s) -> folders_exist (ss_files s) (ss_cwd s) ->
  let folder := ("fdtd_output_" ++ full_name n now) :: "fdtd_output" :: ss_cwd s in
  let s' := fst (save_simulation n now s) in
  (snd (save_simulation n now s) = None <-> ~ a_file (ss_files s) ("fdtd_output" :: ss_cwd s) /\ ~ a_file (ss_files s) folder)
  /\ (snd (save_simulation n now s) <> None -> snd (save_simulation n now s) = Some FileError)
  /\ (snd (save_simulation n now s) = None -> ss_folder s' = Some folder /\ ss_files s' folder = Some Dir /\ ss_files s' ("fdtd_output" :: ss_cwd s) = Some Dir
      /\ forall p, p <> folder -> p <> "fdtd_output" :: ss_cwd s -> ss_files s' p = ss_files s p)
  /\ (forall p, ss_files s p <> None -> ss_files s' p = ss_files s p)
  /\ ss_cwd s' = ss_cwd s /\ ss_dets s' = ss_dets s /\ g_detectors (ss_grid s') = g_detectors (ss_grid s).
Proof. exact simulation_saved. Qed.
Print Assumptions C72_folder.
Theorem C72_place : forall cwd n now t,
  slashless_name n -> steady now t -> sim_folder cwd (full_name n now) = run_place cwd n t.
Proof. exact folder_steady. Qed.
Print Assumptions C72_place.
(** A simulation is not always kept in the folder fdtd_output: a name with slashes
    can leave it. *)
Theorem C72_inside_refuted : forall cwd m now,
  (~ exists a b, m = a ++ "/" ++ b) ->
  sim_folder cwd (full_name (Some ("/../../" ++ m)) now) = (m ++ ")") :: cwd.
Proof. exact name_escapes. Qed.
Print Assumptions C72_inside_refuted.
Theorem C72_same_place : forall cwd cwd' n n' t t',
  run_place cwd n t = run_place cwd' n' t' <-> cwd = cwd' /\ t = t' /\ n = n'.
Proof. exact place_inj. Qed.
Print Assumptions C72_same_place.
(** The clock is read six times: simulations nearly an hour apart share a place. *)
Theorem C72_distinct_refuted : exists now now' : nat -> time,
  (forall i j, i <= j < 6 -> moment (now i) <= moment (now j) <= moment (now i) + 1) /\
  (forall i j, i <= j < 6 -> moment (now' i) <= moment (now' j) <= moment (now' i) + 1) /\
  moment (now 5) + 3000 <= moment (now' 0) /\ forall cwd n, sim_folder cwd (full_name n now) = sim_folder cwd (full_name n now').
Proof. exact rollover. Qed.
Print Assumptions C72_distinct_refuted.

(** Readings on disk stay until [save_data] is called again. *)
Theorem C72_survive : forall l,
  forall s s' folder v, ~ In SaveData l -> play l s = Some s' ->
  ss_files s ("detector_readings.npz" :: folder) = Some (File v) -> ss_files s' ("detector_readings.npz" :: folder) = Some (File v).
Proof. exact readings_survive. Qed.
Print Assumptions C72_survive.
(** Videos. *)
Theorem C72_video : forall s folder d n now,
  ss_folder s = Some folder -> ss_files s folder = Some Dir -> slashless_name n -> ss_sim s = full_name n now ->
  let video := ("fdtd_sim_video_" ++ full_name n now ++ ".mp4") :: folder in
  exists s', generate_video d Writes s = (s', None) /\ ss_cwd s' = ss_cwd s /\ ss_folder s' = ss_folder s /\ ss_grid s' = ss_grid s /\ ss_dets s' = ss_dets s
  /\ ss_files s' video = Some (File (Some Video))
  /\ forall p, p <> video -> (image_in folder p /\ d = true -> ss_files s' p = None) /\ (~ (image_in folder p /\ d = true) -> ss_files s' p = ss_files s p).
Proof. exact video_made. Qed.
Print Assumptions C72_video.
Theorem C72_video_fails : forall s folder d how,
  ss_folder s = Some folder -> ss_files s folder = Some Dir -> how <> Writes ->
  exists s', generate_video d how s = (s', Some (Raised TypeError)) /\ ss_cwd s' = folder /\ ss_files s' = ss_files s /\ ss_folder s' = ss_folder s
  /\ forall n now s2, slashless_name n -> save_simulation n now s' = (s2, None) ->
     ss_folder s2 = Some (("fdtd_output_" ++ full_name n now) :: "fdtd_output" :: folder).
Proof. exact video_fails. Qed.
Print Assumptions C72_video_fails.

(** A case: a simulation is saved, a detector placed, the grid reset and three
    steps are run. *)
Definition home : files stored := fun p => if place_eqb p ["home"] then Some Dir else None.
Definition noon : nat -> time := fun _ => mkTime 22 11 2 12 0 0.
Definition placing : op := Assign [KNum (PInt 2); int_slice (Some 0%Z) (Some 2%Z); KNum (PInt 0)] (CDetector DBlock (Some "d")).
Definition running : list op := [ResetGrid; Run 3].
Example C72_case : g_detectors demo_grid = [] /\ (exists x y z, pad_key [KNum (PInt 2); int_slice (Some 0%Z) (Some 2%Z); KNum (PInt 0)] = Ok (x, y, z))
  /\ named_place ["home"] /\ folders_exist home ["home"]
  /\ exists s folder, play_clean ([SaveSimulation (Some "first") noon] ++ placing :: running) (start demo_grid ["home"] home) = Some s
  /\ Forall storable (ss_dets s) /\ NoDup (map name_of_det (ss_dets s))
  /\ ss_folder s = Some folder /\ ss_files s folder = Some Dir
  /\ ss_files s ("detector_readings.npz" :: folder) <> Some Dir /\ steps_in running = 3.
Proof.
  split; [reflexivity|]. split; [repeat eexists|].
  split; [intros c [<-|[]]; repeat split; discriminate|].
  split; [intros a b E NB; destruct a as [|x a]; [cbn in E; rewrite <- E; reflexivity|]; injection E as _ E; symmetry in E; apply app_eq_nil in E as [_ E]; contradiction|].
  cbn [app play_clean].
  destruct (perform (SaveSimulation (Some "first") noon) (start demo_grid ["home"] home)) as [[s1 e1]|] eqn:P1; [|discriminate].
  assert (S1 : e1 = None /\ ss_grid s1 = set_attr "full_sim_name" demo_grid /\ ss_dets s1 = [] /\
    exists fo, ss_folder s1 = Some fo /\ ss_files s1 fo = Some Dir /\ ss_files s1 ("detector_readings.npz" :: fo) = None).
  { cbn [perform] in P1. inversion P1 as [[H1 H2]]. split; [reflexivity|]. split; [reflexivity|]. split; [reflexivity|]. eexists. repeat split; reflexivity. }
  destruct S1 as (-> & G1 & D1 & fo & F1 & F2 & F3). clear P1.
  destruct (perform placing s1) as [[s2 e2]|] eqn:P2; [|unfold placing in P2; cbn [perform] in P2; destruct (setitem _ _ _); discriminate].
  assert (S2 : e2 = None /\ (exists cells, g_detectors (ss_grid s2) = [FieldDetector cells [] []] /\ Forall (cell_ok (g_N demo_grid)) cells) /\ g_sources (ss_grid s2) = [] /\ g_boundaries (ss_grid s2) = [] /\ g_N (ss_grid s2) = g_N demo_grid
    /\ ss_dets s2 = [(Some "d", DBlock)] /\ ss_folder s2 = ss_folder s1 /\ ss_files s2 = ss_files s1).
  { unfold placing in P2. cbn [perform] in P2. rewrite G1, D1 in P2. cbn in P2. inversion P2; subst. split; [reflexivity|].
    split; [eexists; split; [reflexivity|]; repeat constructor; lia|]. repeat split. }
  destruct S2 as (-> & (cells & D2 & CO) & So & Bo & N2 & Dd & Fo2 & Fi2). clear P2.
  destruct (proj2 (run_raises_iff 3 (reset (ss_grid s2)))) as [g3 R3].
  { right. unfold reset. cbn [with_fields g_boundaries g_detectors g_sources g_N]. rewrite Bo, D2, So, N2. split; [constructor|]. split; [|intros; constructor]. constructor; [exact CO|constructor]. }
  unfold running. cbn [play_clean perform with_grid ss_grid]. rewrite R3. do 2 eexists. split; [reflexivity|]. cbn [with_grid ss_grid ss_dets ss_folder ss_files ss_sim ss_cwd].
  rewrite Dd, Fo2, Fi2. split; [repeat constructor; discriminate|]. split; [constructor; [intros []|constructor]|]. split; [exact F1|]. split; [exact F2|]. split; [rewrite F3; discriminate|reflexivity].
Qed.
(** A detector with readings and a second one of its name. *)
Definition measured : session :=
  mkSession (mkGrid (g_N demo_grid) (g_spacing demo_grid) (g_courant demo_grid) (g_time_step demo_grid) (g_E demo_grid) (g_H demo_grid)
    (g_abs demo_grid) (g_ie demo_grid) (g_im demo_grid) 1 [] [] [FieldDetector [(2, 0, 0)%Z] [[fun _ => 1%R]] [[fun _ => 1%R]]] 0 ("d" :: g_attrs demo_grid))
    [(Some "d", DLine)] (Some ["home"]) "x" ["home"] home.
Example C72_twin_case : array [("d (E)", [[fun _ : axis => 1%R]])] "d (E)" <> Some []
  /\ Forall storable (ss_dets measured) /\ length (ss_dets measured) = length (g_detectors (ss_grid measured))
  /\ exists s', perform placing measured = Some (s', Some (Raised ValueError)).
Proof. split; [discriminate|]. split; [repeat constructor; discriminate|]. split; [reflexivity|]. eexists. reflexivity. Qed.
(** Times and names. *)
Example C72_name_case : steady noon (mkTime 22 11 2 12 0 0) /\ slashless_name (Some "first").
Proof.
  split; [intros i _; reflexivity|]. intros m E. injection E as <-. intros (a & b & E).
  repeat (destruct a as [|? a]; [discriminate|injection E as _ E]); destruct a; discriminate.
Qed.
