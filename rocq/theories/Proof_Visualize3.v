(** Proofs for C76, continued: pictures of grids built by assignments. *)
From Coq Require Import Reals ZArith String List Bool Arith Lra Lia.
From Verif Require Import Base BaseLemmas Model_Units Model_FDTD Model_Register Model_Runs Model_Output Model_Visualize Spec_FDTD Spec_Register Spec_Visualize
  Proof_FDTD Proof_Register Proof_Index Proof_Output Proof_Visualize Proof_Visualize2.
Import ListNotations.
Open Scope list_scope.
Open Scope R_scope.

Definition same_placed (g g' : grid) : Prop :=
  g_sources g' = g_sources g /\ map cells_read (g_detectors g') = map cells_read (g_detectors g).
Lemma detect_placed N F ds : forall ds', map_res (detect_E N F) ds = Ok ds' -> map cells_read ds' = map cells_read ds.
Proof.
  induction ds as [|d ds IH]; intros ds' H; cbn in H; [inversion H; reflexivity|].
  apply bind_inv in H as (y & Hy & H). apply bind_inv in H as (r & Hr & H). inversion H; subst. cbn. rewrite (IH _ Hr). f_equal.
  destruct d; cbn in Hy; [apply bind_inv in Hy as (v & _ & Hy)| |discriminate]; inversion Hy; reflexivity.
Qed.
Lemma detect_placed_H N s F ds : forall ds', map_res (detect_H N s F) ds = Ok ds' -> map cells_read ds' = map cells_read ds.
Proof.
  induction ds as [|d ds IH]; intros ds' H; cbn in H; [inversion H; reflexivity|].
  apply bind_inv in H as (y & Hy & H). apply bind_inv in H as (r & Hr & H). inversion H; subst. cbn. rewrite (IH _ Hr). f_equal.
  destruct d; cbn in Hy; [apply bind_inv in Hy as (v & _ & Hy)|apply bind_inv in Hy as (v & _ & Hy)|discriminate]; inversion Hy; reflexivity.
Qed.
Lemma run_placed n : forall g g', run_steps n g = Ok g' -> same_placed g g'.
Proof.
  induction n as [|n IH]; intros g g' H; cbn [run_steps] in H; [inversion H; split; reflexivity|].
  apply bind_inv in H as (g1 & H1 & H). apply IH in H as [A B]. cut (same_placed g g1); [intros [C D]; split; congruence|].
  clear IH A B. unfold step in H1. apply bind_inv in H1 as (h1 & H1 & Hs). apply bind_inv in Hs as (h2 & H2 & Hs).
  unfold update_E in H1. apply bind_inv in H1 as (bs & _ & H1). apply bind_inv in H1 as (E3 & _ & H1). apply bind_inv in H1 as (ds & D1 & H1).
  unfold update_H in H2. apply bind_inv in H2 as (bs2 & _ & H2). apply bind_inv in H2 as (H3 & _ & H2). apply bind_inv in H2 as (ds2 & D2 & H2).
  inversion H1; subst; clear H1. inversion H2; subst; clear H2. inversion Hs; subst; clear Hs. cbn in *.
  split; cbn; [reflexivity|]. apply detect_placed in D1. apply detect_placed_H in D2. congruence.
Qed.

(** ** Clean histories *)
Definition tidy (st : studio) : Prop :=
  Forall (fun s => s <> UnplacedSource) (g_sources (st_grid st)) /\ Forall (fun c => c <> None) (map cells_read (g_detectors (st_grid st)))
  /\ Forall (fun o => forall b : axis, o b <> None) (st_objs st) /\ length (ss_dets (st_session st)) = length (g_detectors (st_grid st)).
Lemma claim_placed n g g1 : claim_name n g = Ok g1 -> g_sources g1 = g_sources g /\ g_detectors g1 = g_detectors g.
Proof. unfold claim_name. destruct n as [s|]; [destruct (has_attr g s); [discriminate|]|]; intros E; inversion E; auto. Qed.
Lemma assign_placed key c g g' : setitem key c g = (g', None) ->
  (exists l, g_sources g' = g_sources g ++ l /\ Forall (fun s => s <> UnplacedSource) l)
  /\ (exists l, g_detectors g' = g_detectors g ++ l /\ Forall (fun d => cells_read d <> None) l).
Proof.
  assert (Nil : forall h, g_sources h = g_sources g -> g_detectors h = g_detectors g ->
    (exists l, g_sources h = g_sources g ++ l /\ Forall (fun s => s <> UnplacedSource) l)
    /\ (exists l, g_detectors h = g_detectors g ++ l /\ Forall (fun d => cells_read d <> None) l)).
  { intros h A B. rewrite A, B. split; exists []; rewrite app_nil_r; split; try reflexivity; constructor. }
  unfold setitem. destruct (pad_key key) as [[[x y] z]|]; [|discriminate].
  generalize (handle_key (g_spacing g) x) (handle_key (g_spacing g) y) (handle_key (g_spacing g) z). clear x y z. intros x y z.
  destruct c; cbn [register]; intros E.
  - unfold register_periodic in E.
    destruct (boundary_slice x); cbn [bind] in E; [|discriminate]. destruct (boundary_slice y); cbn [bind] in E; [|discriminate].
    destruct (boundary_slice z); cbn [bind] in E; [|discriminate]. destruct (claim_name name g) as [g1|] eqn:C; cbn [bind] in E; [|discriminate].
    apply claim_placed in C as [C1 C2].
    assert (P : forall ax, place_periodic ax g1 = (g', None) -> g_sources g' = g_sources g /\ g_detectors g' = g_detectors g).
    { intros ax Q. unfold place_periodic in Q. destruct (_ || _); [discriminate|]. inversion Q; subst. cbn. auto. }
    destruct (at_border _); [apply P in E as [? ?]; apply Nil; assumption|]. destruct (at_border _); [apply P in E as [? ?]; apply Nil; assumption|].
    destruct (at_border _); [apply P in E as [? ?]; apply Nil; assumption|]. discriminate.
  - unfold register_pml in E.
    destruct (pml_slice x); cbn [bind] in E; [|discriminate]. destruct (pml_slice y); cbn [bind] in E; [|discriminate].
    destruct (pml_slice z); cbn [bind] in E; [|discriminate]. destruct (claim_name name g) as [g1|] eqn:C; cbn [bind] in E; [|discriminate].
    apply claim_placed in C as [C1 C2].
    assert (P : forall ax h t, place_pml ax h t a g1 = (g', None) -> g_sources g' = g_sources g /\ g_detectors g' = g_detectors g).
    { intros ax h t Q. unfold place_pml in Q. destruct (has_attr _ _); [discriminate|]. inversion Q; subst. cbn. auto. }
    destruct (low_slice _); [apply P in E as [? ?]; apply Nil; assumption|]. destruct (high_slice _); [apply P in E as [? ?]; apply Nil; assumption|].
    destruct (low_slice _); [apply P in E as [? ?]; apply Nil; assumption|]. destruct (high_slice _); [apply P in E as [? ?]; apply Nil; assumption|].
    destruct (low_slice _); [apply P in E as [? ?]; apply Nil; assumption|]. destruct (high_slice _); [apply P in E as [? ?]; apply Nil; assumption|]. discriminate.
  - unfold register_object in E. destruct (claim_name name (add_object_ g)) as [g1|] eqn:C; [|discriminate]. apply claim_placed in C as [C1 C2].
    destruct (object_region _ _ _ _) as [[lo hi]|]; [|discriminate]. destruct (negb _); [discriminate|].
    destruct cond; [destruct (negb _); [discriminate|]; destruct (raw_region _ _ _ _) as [[rlo rhi]|]; [|discriminate]|]; inversion E; subst; apply Nil; assumption.
  - discriminate.
  - unfold register_detector in E. destruct (claim_name name g) as [g1|] eqn:C; [|discriminate]. apply claim_placed in C as [C1 C2].
    destruct (match k with DLine => _ | _ => _ end) as [cells|]; [|discriminate]. inversion E; subst; clear E. cbn [add_detector_ g_sources g_detectors]. rewrite C1, C2.
    split; [exists []; rewrite app_nil_r; split; [reflexivity|constructor]|]. eexists. split; [reflexivity|]. constructor; [|constructor]. destruct k; discriminate.
  - unfold register_point in E. destruct (claim_name name g) as [g1|] eqn:C; [|discriminate]. apply claim_placed in C as [C1 C2].
    destruct x as [[|i [|]]|]; try discriminate. destruct y as [[|j [|]]|]; try discriminate. destruct z as [[|k [|]]|]; try discriminate.
    inversion E; subst; clear E. cbn [add_source_ g_sources g_detectors]. rewrite C1, C2.
    split; [|exists []; rewrite app_nil_r; split; [reflexivity|constructor]]. eexists. split; [reflexivity|]. constructor; [discriminate|constructor].
  - unfold register_line in E. destruct (claim_name name g) as [g1|] eqn:C; [|discriminate]. apply claim_placed in C as [C1 C2].
    destruct (line_cells _ _ _ _ _) as [[|p cells]|]; try discriminate. destruct (Reqb _ _); [discriminate|].
    inversion E; subst; clear E. cbn [add_source_ g_sources g_detectors]. rewrite C1, C2.
    split; [|exists []; rewrite app_nil_r; split; [reflexivity|constructor]]. eexists. split; [reflexivity|]. constructor; [discriminate|constructor].
  - unfold register_plane in E. destruct (claim_name name g) as [g1|] eqn:C; [|discriminate]. apply claim_placed in C as [C1 C2].
    destruct (plane_place _ _ _ _ _) as [[[[lo hi] ep] hp]|]; [|discriminate].
    inversion E; subst; clear E. cbn [add_source_ g_sources g_detectors]. rewrite C1, C2.
    split; [|exists []; rewrite app_nil_r; split; [reflexivity|constructor]]. eexists. split; [reflexivity|]. constructor; [discriminate|constructor].
Qed.

(** The object placed by an assignment. *)
Lemma object_placed key n eps cond g g' x y z : pad_key key = Ok (x, y, z) -> setitem key (CObject n eps cond) g = (g', None) ->
  let h := handle_key (g_spacing g) in
  exists lo hi o, object_region (g_N g) (h x) (h y) (h z) = Ok (lo, hi) /\ appended_obj key (CObject n eps cond) g = [o]
  /\ forall b, o b = Some (zcoord b lo, zcoord b hi).
Proof.
  intros Hk E h. unfold setitem in E. rewrite Hk in E. cbn [register] in E. fold h in E. unfold appended_obj. rewrite Hk. fold h.
  unfold register_object in E. destruct (claim_name n (add_object_ g)) as [g1|] eqn:C; [|discriminate].
  assert (C' : exists g2, claim_name n g = Ok g2).
  { unfold claim_name in *. destruct n as [s|]; [|eauto]. unfold has_attr in *. cbn [add_object_ g_attrs] in C. destruct (existsb _ _); [discriminate|eauto]. }
  destruct C' as [g2 ->]. destruct (object_region _ _ _ _) as [[lo hi]|] eqn:Q; [|discriminate].
  exists lo, hi. eexists. split; [reflexivity|]. split; [reflexivity|]. unfold object_region in Q.
  apply bind_inv in Q as ([x0 x1] & Qx & Q). apply bind_inv in Q as ([y0 y1] & Qy & Q). apply bind_inv in Q as ([z0 z1] & Qz & Q). cbn [fst snd] in Q. inversion Q; subst.
  intros b. unfold object_slices. rewrite Qx, Qy, Qz. destruct b; reflexivity.
Qed.
Lemma appended_tidy key c g g' : setitem key c g = (g', None) -> Forall (fun o => forall b : axis, o b <> None) (appended_obj key c g).
Proof.
  intros E. unfold appended_obj. destruct (pad_key key) as [[[x y] z]|] eqn:Hk; [|constructor]. destruct c; try constructor.
  destruct (object_placed _ _ _ _ _ _ _ _ _ Hk E) as (lo & hi & o & _ & A & O). unfold appended_obj in A. rewrite Hk in A. cbn zeta in A. rewrite A.
  constructor; [|constructor]. intros b. rewrite O. discriminate.
Qed.

Lemma perform_tidy o st st' : perform_in o st = Some (st', None) -> tidy st -> tidy st'.
Proof.
  unfold perform_in. destruct (perform o (st_session st)) as [[s e]|] eqn:P; [|discriminate]. intros E. inversion E; subst; clear E.
  intros (T1 & T2 & T3 & T4). pose proof (perform_keeps _ _ _ _ P) as (_ & _ & _ & L). specialize (L T4).
  unfold tidy, st_grid in *. cbn [st_session st_objs].
  assert (X : (exists l, g_sources (ss_grid s) = g_sources (ss_grid (st_session st)) ++ l /\ Forall (fun s => s <> UnplacedSource) l)
    /\ (exists l, map cells_read (g_detectors (ss_grid s)) = map cells_read (g_detectors (ss_grid (st_session st))) ++ l /\ Forall (fun c => c <> None) l)
    /\ Forall (fun q => forall b : axis, q b <> None) (match o with Assign key c => appended_obj key c (ss_grid (st_session st)) | _ => [] end)).
  { assert (Same : same_placed (ss_grid (st_session st)) (ss_grid s) -> (forall k c, o <> Assign k c) ->
      (exists l, g_sources (ss_grid s) = g_sources (ss_grid (st_session st)) ++ l /\ Forall (fun s => s <> UnplacedSource) l)
      /\ (exists l, map cells_read (g_detectors (ss_grid s)) = map cells_read (g_detectors (ss_grid (st_session st))) ++ l /\ Forall (fun c => c <> None) l)
      /\ Forall (fun q => forall b : axis, q b <> None) (match o with Assign key c => appended_obj key c (ss_grid (st_session st)) | _ => [] end)).
    { intros [A B] Q. rewrite A, B. split; [exists []; rewrite app_nil_r; split; [reflexivity|constructor]|].
      split; [exists []; rewrite app_nil_r; split; [reflexivity|constructor]|]. destruct o; try constructor. exfalso. eapply Q. reflexivity. }
    destruct o as [key c|n| |nm now| |d how].
    - clear Same. cbn [perform] in P. destruct (setitem key c (ss_grid (st_session st))) as [g' [e|]] eqn:Q; [inversion P|]. inversion P; subst; clear P. cbn [with_grid ss_grid].
      destruct (assign_placed _ _ _ _ Q) as [(l & A & B) (m & C & D)]. split; [eauto|]. split; [|eapply appended_tidy; exact Q].
      exists (map cells_read m). rewrite C, map_app. split; [reflexivity|]. apply Forall_map. exact D.
    - apply Same; [|discriminate]. cbn [perform] in P. destruct (run_steps n _) as [g'|] eqn:Q; [|discriminate]. inversion P; subst. cbn. exact (run_placed _ _ _ Q).
    - apply Same; [|discriminate]. cbn [perform] in P. inversion P; subst. split; reflexivity.
    - apply Same; [|discriminate]. cbn [perform] in P. inversion P as [Q]. pose proof (save_sim_same nm now (st_session st)) as [_ B]. rewrite Q in B. cbn [fst] in B.
      destruct B as [-> | ->]; split; reflexivity.
    - apply Same; [|discriminate]. cbn [perform] in P. inversion P as [Q]. pose proof (save_data_same (st_session st)) as [B _]. rewrite Q in B. cbn [fst] in B. rewrite B. split; reflexivity.
    - apply Same; [|discriminate]. cbn [perform] in P. inversion P as [Q]. pose proof (video_same d how (st_session st)) as [B _]. rewrite Q in B. cbn [fst] in B. rewrite B. split; reflexivity. }
  destruct X as ((l & A & B) & (m & C & D) & F). rewrite A, C. split; [apply Forall_app; auto|]. split; [apply Forall_app; auto|]. split; [apply Forall_app; auto|exact L].
Qed.
Lemma play_tidy l : forall st st', play_studio l st = Some st' -> tidy st -> tidy st'.
Proof.
  induction l as [|o l IH]; intros st st' H T; cbn [play_studio] in H; [inversion H; subst; exact T|].
  destruct (perform_in o st) as [[st1 [e|]]|] eqn:P; try discriminate. eapply IH; [exact H|]. eapply perform_tidy; eassumption.
Qed.
(** After a history in which nothing raised, a picture can be drawn unless a point
    source is outside or a detector has no cell. *)
Lemma clean_pictures g cwd fs l st x y z norm a k : g_sources g = [] -> g_detectors g = [] ->
  play_studio l (mkStudio (start g cwd fs) []) = Some st ->
  known_norm norm -> asks x y z a k -> (forall b, b <> a -> (1 < g_N (st_grid st) b)%nat) -> an_index (g_N (st_grid st) a) k ->
  (forall cell, In cell (point_sources (g_sources (st_grid st))) -> exists r c, blanks (g_N (st_grid st)) a cell r c) ->
  (forall cells, In cells (line_sources (g_sources (st_grid st))) -> cells <> []) ->
  (forall d, In d (g_detectors (st_grid st)) -> cells_read d <> Some []) ->
  exists pic, visualize x y z norm false st = Ok pic.
Proof.
  intros Gs Gd P Nm Ha S Ik Pt Ln Dt. assert (T : tidy st).
  { eapply play_tidy; [exact P|]. unfold tidy, st_grid. cbn. rewrite Gs, Gd. repeat split; constructor. }
  destruct T as (T1 & T2 & T3 & T4). apply picture_iff. split; [exact Nm|]. split; [reflexivity|]. exists a, k. repeat (split; [assumption|]).
  split; [|split].
  - apply Forall_forall. intros s I. rewrite Forall_forall in T1. specialize (T1 s I). destruct s; cbn [source_drawable]; try exact Logic.I; try contradiction.
    + apply Pt. apply in_flat_map. eexists. split; [exact I|left; reflexivity].
    + apply Ln. apply in_flat_map. eexists. split; [exact I|left; reflexivity].
  - apply Forall_forall. intros [nk d] I. apply in_combine_r in I. cbn [snd]. rewrite Forall_forall in T2.
    assert (Q : cells_read d <> None) by (apply T2; apply in_map; exact I).
    unfold detector_drawable. specialize (Dt d I). destruct (cells_read d) as [[|p r]|]; [contradiction|eauto|contradiction].
  - apply Forall_forall. intros o I b _. rewrite Forall_forall in T3. exact (T3 o I b).
Qed.
