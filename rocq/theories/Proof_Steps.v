(** When steps raise; time bookkeeping; detectors; silence; periodic faces;
    divergence of the magnetic field. *)
From Coq Require Import Reals ZArith String List Bool Lra Lia Psatz.
From Verif Require Import Base BaseLemmas Model_FDTD Spec_FDTD Proof_Torus Proof_FDTD Proof_Energy Proof_Propagate.
Import ListNotations.
Open Scope R_scope.

(** * When a step raises *)

Lemma is_ok_iff {A} (x : res A) : is_ok x = true <-> exists a, x = Ok a.
Proof.
  split; [|intros [a ->]; reflexivity]. destruct x; [eauto|discriminate].
Qed.

Lemma map_res_ok {A B} (f : A -> res B) l : is_ok (map_res f l) = forallb (fun x => is_ok (f x)) l.
Proof.
  induction l as [|x l IH]; cbn; [reflexivity|]. destruct (f x); cbn; [|reflexivity].
  rewrite <- IH. destruct (map_res f l); reflexivity.
Qed.

Lemma source_E_ok N q s F G : is_ok (source_update_E N q s F) = is_ok (source_update_E N q s G).
Proof.
  destruct s as [cell amp sg|cells prof sg|lo hi ep hp amp per ph|]; cbn [source_update_E].
  - destruct (point_value amp sg q); cbn [bind]; [|reflexivity].
    destruct (resolve3 N cell); reflexivity.
  - destruct (line_factor sg q); cbn [bind]; [|reflexivity].
    revert F G. induction (combine cells prof) as [|cv L IH]; intros F G; cbn [fold_res]; [reflexivity|].
    destruct (resolve3 N (fst cv)); cbn [bind]; [apply IH|reflexivity].
  - destruct (per =? 0)%Z; [reflexivity|]. destruct (negb (box_fits N (plane_extent lo hi) lo hi)); reflexivity.
  - reflexivity.
Qed.
Lemma source_H_ok N q s F G : is_ok (source_update_H N q s F) = is_ok (source_update_H N q s G).
Proof.
  destruct s as [cell amp sg|cells prof sg|lo hi ep hp amp per ph|]; cbn [source_update_H]; try reflexivity.
  destruct (per =? 0)%Z; [reflexivity|]. destruct (negb (box_fits N (plane_extent lo hi) lo hi)); reflexivity.
Qed.
Lemma fold_source_ok (f : source -> field -> res field) :
  (forall s F G, is_ok (f s F) = is_ok (f s G)) -> forall ss F,
  is_ok (fold_res f ss F) = forallb (fun s => is_ok (f s zero_field)) ss.
Proof.
  intros Hf. induction ss as [|s ss IH]; intros F; cbn [fold_res forallb]; [reflexivity|].
  rewrite (Hf s zero_field F). destruct (f s F) as [F'|]; cbn [bind is_ok andb]; [apply IH|reflexivity].
Qed.

Definition det_shape (d : detector) : option (bool * list zpos) :=
  match d with
  | FieldDetector c _ _ => Some (true, c)
  | CurrentDetector c _ => Some (false, c)
  | UnplacedDetector => None
  end.

Lemma sample_ok N F cells : is_ok (sample N F cells) = forallb (fun c => is_ok (resolve3 N c)) cells.
Proof.
  unfold sample. rewrite map_res_ok. induction cells as [|c cells IH]; cbn [forallb]; [reflexivity|].
  rewrite IH. f_equal. destruct (resolve3 N c); reflexivity.
Qed.
Lemma point_current_ok N sp F sp' F' c : is_ok (point_current N sp F c) = is_ok (point_current N sp' F' c).
Proof.
  destruct c as [[x y] z]. unfold point_current.
  repeat match goal with |- context [resolve3 N ?p] =>
    destruct (resolve3 N p) as [?|?]; cbn [bind is_ok]; [|reflexivity] end.
  reflexivity.
Qed.

(** What must hold of a detector for its two hooks to succeed. *)
Definition detector_ok (N : shape3) (d : detector) : bool :=
  match d with
  | FieldDetector cells _ _ => forallb (fun c => is_ok (resolve3 N c)) cells
  | CurrentDetector cells _ => forallb (fun c => is_ok (point_current N 0 zero_field c)) cells
  | UnplacedDetector => false
  end.
Definition boundary_ok (N : shape3) (b : boundary) : bool :=
  match b with
  | PMLb pm => (p_thick pm <=? N (p_axis pm))%nat
  | UnplacedPML => false
  | _ => true
  end.
Definition source_ok (N : shape3) (q : nat) (s : source) : bool :=
  is_ok (source_update_E N q s zero_field) && is_ok (source_update_H N q s zero_field).

Lemma detect_E_ok N F d : is_ok (detect_E N F d)
  = match d with FieldDetector cells _ _ => forallb (fun c => is_ok (resolve3 N c)) cells
               | CurrentDetector _ _ => true | UnplacedDetector => false end.
Proof.
  destruct d; cbn [detect_E]; try reflexivity. rewrite <- (sample_ok N F).
  destruct (sample N F cells); reflexivity.
Qed.
Lemma detect_H_ok N sp F d : is_ok (detect_H N sp F d) = detector_ok N d.
Proof.
  destruct d; cbn [detect_H detector_ok]; try reflexivity.
  - rewrite <- (sample_ok N F). destruct (sample N F cells); reflexivity.
  - transitivity (is_ok (map_res (point_current N sp F) cells)).
    + destruct (map_res (point_current N sp F) cells); reflexivity.
    + rewrite map_res_ok. induction cells as [|c cells IH]; cbn [forallb]; [reflexivity|].
      rewrite IH. f_equal. apply point_current_ok.
Qed.
Lemma detect_E_keeps N F d d' : detect_E N F d = Ok d' -> det_shape d' = det_shape d.
Proof.
  destruct d; cbn [detect_E]; intros H; try (inversion H; reflexivity).
  binv H. inversion H; reflexivity.
Qed.
Lemma detect_H_keeps N sp F d d' : detect_H N sp F d = Ok d' -> det_shape d' = det_shape d.
Proof.
  destruct d; cbn [detect_H]; intros H; try (inversion H; reflexivity); binv H; inversion H; reflexivity.
Qed.
Lemma detector_ok_shape N d d' : det_shape d' = det_shape d -> detector_ok N d' = detector_ok N d.
Proof. destruct d, d'; cbn; intros H; inversion H; reflexivity. Qed.

Lemma map_res_Forall2 {A B} (f : A -> res B) (P : A -> B -> Prop) l l' :
  (forall x y, f x = Ok y -> P x y) -> map_res f l = Ok l' -> Forall2 P l l'.
Proof.
  intros HP. revert l'. induction l as [|x l IH]; intros l' H; cbn in H.
  - inversion H. constructor.
  - binv H. binv H. inversion H; subst. constructor; auto.
Qed.
Lemma forallb_Forall2 {A B} (P : A -> B -> Prop) (f : A -> bool) (g : B -> bool) l l' :
  (forall x y, P x y -> f x = g y) -> Forall2 P l l' -> forallb f l = forallb g l'.
Proof. intros H. induction 1; cbn; [reflexivity|]. rewrite (H x y) by assumption. congruence. Qed.

Lemma phi_E_ok N H b : is_ok (boundary_phi_E N H b) = boundary_ok N b.
Proof. destruct b; cbn; try reflexivity. destruct (_ <=? _)%nat; reflexivity. Qed.
Lemma phi_H_ok N E b : is_ok (boundary_phi_H N E b) = boundary_ok N b.
Proof. destruct b; cbn; try reflexivity. destruct (_ <=? _)%nat; reflexivity. Qed.

(** Which pieces of a boundary never change. *)
Definition bnd_shape (b : boundary) : option (axis * bool * nat) * nat :=
  match b with
  | Periodic a => (Some (a, false, 0%nat), 0%nat)
  | PMLb pm => (Some (p_axis pm, p_high pm, p_thick pm), 1%nat)
  | InertPeriodic => (None, 2%nat)
  | UnplacedPML => (None, 3%nat)
  end.
Lemma phi_E_shape N H b b' : boundary_phi_E N H b = Ok b' -> bnd_shape b' = bnd_shape b.
Proof.
  destruct b; cbn; intros X; try (inversion X; reflexivity).
  destruct (_ <=? _)%nat; inversion X; reflexivity.
Qed.
Lemma phi_H_shape N E b b' : boundary_phi_H N E b = Ok b' -> bnd_shape b' = bnd_shape b.
Proof.
  destruct b; cbn; intros X; try (inversion X; reflexivity).
  destruct (_ <=? _)%nat; inversion X; reflexivity.
Qed.
Lemma boundary_ok_shape N b b' : bnd_shape b' = bnd_shape b -> boundary_ok N b' = boundary_ok N b.
Proof. destruct b, b'; cbn; intros H; inversion H; try reflexivity. Qed.

Definition step_ready (g : grid) : bool :=
  forallb (boundary_ok (g_N g)) (g_boundaries g)
  && forallb (source_ok (g_N g) (g_steps g)) (g_sources g)
  && forallb (detector_ok (g_N g)) (g_detectors g).

Lemma forallb_andb {A} (f g : A -> bool) l : forallb (fun x => f x && g x) l = forallb f l && forallb g l.
Proof.
  induction l as [|x l IH]; cbn; [reflexivity|]. rewrite IH.
  destruct (f x), (g x), (forallb f l), (forallb g l); reflexivity.
Qed.

Lemma is_ok_bind {A B} (x : res A) (f : A -> res B) b :
  (forall a, x = Ok a -> is_ok (f a) = b) -> is_ok (bind x f) = is_ok x && b.
Proof. destruct x; cbn; intros H; [apply H; reflexivity|reflexivity]. Qed.

Lemma forallb_ext' {A} (f g : A -> bool) l : (forall x, f x = g x) -> forallb f l = forallb g l.
Proof. intros H. induction l; cbn; [reflexivity|]. rewrite H. congruence. Qed.

Lemma step_ok g : is_ok (step g) = step_ready g.
Proof.
  unfold step.
  (* what E's detection needs is implied by what H's needs *)
  set (dE := fun d => match d with FieldDetector cells _ _ => forallb (fun c => is_ok (resolve3 (g_N g) c)) cells
               | CurrentDetector _ _ => true | UnplacedDetector => false end).
  assert (U : is_ok (update_E g) =
     forallb (boundary_ok (g_N g)) (g_boundaries g)
     && (forallb (fun s => is_ok (source_update_E (g_N g) (g_steps g) s zero_field)) (g_sources g)
         && forallb dE (g_detectors g))).
  { unfold update_E. rewrite <- (forallb_ext' _ _ _ (phi_E_ok (g_N g) (g_H g))), <- map_res_ok.
    apply is_ok_bind. intros bs _. cbv zeta.
    rewrite <- (fold_source_ok _ (source_E_ok (g_N g) (g_steps g)) (g_sources g)
        (fold_left (fun E b => boundary_update_E (g_N g) (g_courant g) (g_ie g) b E) bs (bulk_E g))).
    apply is_ok_bind. intros E3 _.
    rewrite <- (forallb_ext' _ _ _ (detect_E_ok (g_N g) E3)), <- map_res_ok.
    destruct (map_res (detect_E (g_N g) E3) (g_detectors g)); reflexivity. }
  rewrite (is_ok_bind (update_E g) _
     (forallb (boundary_ok (g_N g)) (g_boundaries g)
      && (forallb (fun s => is_ok (source_update_H (g_N g) (g_steps g) s zero_field)) (g_sources g)
          && forallb (detector_ok (g_N g)) (g_detectors g)))).
  - rewrite U. unfold step_ready. unfold source_ok. rewrite forallb_andb.
    assert (D : forallb (detector_ok (g_N g)) (g_detectors g) = true -> forallb dE (g_detectors g) = true).
    { rewrite !forallb_forall. intros H d Hd. specialize (H d Hd). destruct d; cbn in *; auto. }
    destruct (forallb (boundary_ok (g_N g)) (g_boundaries g)); cbn; [|reflexivity].
    destruct (forallb (fun s => is_ok (source_update_E _ _ s _)) _); cbn; [|reflexivity].
    destruct (forallb (detector_ok (g_N g)) (g_detectors g)); cbn.
    + rewrite D by reflexivity. cbn. reflexivity.
    + rewrite !andb_false_r. reflexivity.
  - intros g1 HE. apply update_E_inv in HE as (bs & E3 & ds & Hbs & _ & Hds & ->).
    transitivity (is_ok (update_H (with_fields g E3 (g_H g) (g_steps g) bs ds))).
    { destruct (update_H _); reflexivity. }
    unfold update_H. cbn [with_fields g_N g_E g_H g_boundaries g_sources g_detectors g_steps g_courant g_im g_spacing].
    assert (Hb : forallb (boundary_ok (g_N g)) (g_boundaries g) = is_ok (map_res (boundary_phi_H (g_N g) E3) bs)).
    { rewrite map_res_ok, (forallb_ext' _ _ _ (phi_H_ok (g_N g) E3)).
      eapply forallb_Forall2; [|eapply (map_res_Forall2 _ (fun b b' => bnd_shape b' = bnd_shape b)); [|exact Hbs]].
      - intros b b' Hs. symmetry. apply boundary_ok_shape. exact Hs.
      - apply phi_E_shape. }
    rewrite Hb. apply is_ok_bind. intros bs' _. cbv zeta.
    rewrite <- (fold_source_ok _ (source_H_ok (g_N g) (g_steps g)) (g_sources g)
        (fold_left (fun H b => boundary_update_H (g_N g) (g_courant g) (g_im g) b H) bs'
           (bulk_H (with_fields g E3 (g_H g) (g_steps g) bs ds)))).
    apply is_ok_bind. intros H3 _.
    transitivity (is_ok (map_res (detect_H (g_N g) (g_spacing g) H3) ds)).
    { destruct (map_res _ ds); reflexivity. }
    rewrite map_res_ok, (forallb_ext' _ _ _ (detect_H_ok (g_N g) (g_spacing g) H3)). symmetry.
    eapply forallb_Forall2; [|eapply (map_res_Forall2 _ (fun d d' => det_shape d' = det_shape d)); [|exact Hds]].
    + intros d d' Hs. symmetry. apply detector_ok_shape. exact Hs.
    + apply detect_E_keeps.
Qed.

(** Shapes survive a step. *)
Lemma Forall2_trans_eq {A B} (f : A -> B) l1 l2 l3 :
  Forall2 (fun x y => f y = f x) l1 l2 -> Forall2 (fun x y => f y = f x) l2 l3 ->
  Forall2 (fun x y => f y = f x) l1 l3.
Proof.
  intros H. revert l3. induction H; intros l3 H3; inversion H3; subst; constructor; [congruence|auto].
Qed.
Lemma Forall2_refl_eq {A B} (f : A -> B) l : Forall2 (fun x y => f y = f x) l l.
Proof. induction l; constructor; auto. Qed.

Lemma step_shapes g g' : step g = Ok g' ->
  Forall2 (fun b b' => bnd_shape b' = bnd_shape b) (g_boundaries g) (g_boundaries g')
  /\ Forall2 (fun d d' => det_shape d' = det_shape d) (g_detectors g) (g_detectors g').
Proof.
  intros H. apply step_inv in H as (g1 & g2 & HE & HH & ->).
  apply update_E_inv in HE as (bs & E3 & ds & Hbs & _ & Hds & ->).
  apply update_H_inv in HH as (bs' & H3 & ds' & Hbs' & _ & Hds' & ->). cbn in *. split.
  - eapply Forall2_trans_eq; eapply (map_res_Forall2 _ (fun b b' => bnd_shape b' = bnd_shape b)); try eassumption.
    + apply phi_E_shape.
    + apply phi_H_shape.
  - eapply Forall2_trans_eq; eapply (map_res_Forall2 _ (fun d d' => det_shape d' = det_shape d)); try eassumption.
    + apply detect_E_keeps.
    + apply detect_H_keeps.
Qed.

(** A run of [n] steps succeeds exactly when the components are in order and
    every source can be evaluated at each of the [n] steps: field values play
    no role. *)
Lemma run_ok n : forall g, is_ok (run_steps n g) = true <->
  (n = 0%nat \/ (forallb (boundary_ok (g_N g)) (g_boundaries g) = true
     /\ forallb (detector_ok (g_N g)) (g_detectors g) = true))
  /\ (forall k, (k < n)%nat -> forallb (source_ok (g_N g) (g_steps g + k)) (g_sources g) = true).
Proof.
  induction n as [|n IH]; intros g; cbn [run_steps].
  - split; [intros _; split; [left; reflexivity|intros k Hk; lia]|reflexivity].
  - pose proof (step_ok g) as K. unfold step_ready in K.
    destruct (step g) as [g'|e] eqn:Es; cbn [bind is_ok] in *.
    + symmetry in K. apply andb_prop in K as [K K3]. apply andb_prop in K as [K1 K2].
      destruct (step_static g g' Es) as [St Ht]. static St.
      destruct (step_shapes g g' Es) as [Sb Sd].
      rewrite IH, SN, Ssr, Ht.
      assert (Eb : forallb (boundary_ok (g_N g)) (g_boundaries g') = true).
      { rewrite <- K1. symmetry. eapply forallb_Forall2; [|exact Sb]. intros; symmetry; apply boundary_ok_shape; assumption. }
      assert (Ed : forallb (detector_ok (g_N g)) (g_detectors g') = true).
      { rewrite <- K3. symmetry. eapply forallb_Forall2; [|exact Sd]. intros; symmetry; apply detector_ok_shape; assumption. }
      split.
      * intros [_ H]. split; [right; auto|]. intros [|k] Hk; [rewrite Nat.add_0_r; exact K2|].
        rewrite Nat.add_succ_r, <- Nat.add_succ_l. apply H. lia.
      * intros [_ H]. split; [right; auto|]. intros k Hk.
        rewrite Nat.add_succ_l, <- Nat.add_succ_r. apply H. lia.
    + split; [discriminate|]. intros [[H|[H1 H2]] H3]; [discriminate|].
      specialize (H3 0%nat (Nat.lt_0_succ n)). rewrite Nat.add_0_r in H3.
      rewrite H1, H2, H3 in K. discriminate.
Qed.

(** * Time *)

Lemma run_count n g g' : run_steps n g = Ok g' -> g_steps g' = (g_steps g + n)%nat.
Proof. intros H. apply run_steps_static in H as [_ H]. lia. Qed.

Lemma time_passed_run n g g' : run_steps n g = Ok g' ->
  time_passed g' = time_passed g + INR n * g_time_step g.
Proof.
  intros H. pose proof (run_count n g g' H). apply run_steps_static in H as [St _]. static St.
  unfold time_passed. rewrite H0, Sts, plus_INR. ring.
Qed.

(** * Detector records *)

(** The electric (magnetic) field right after the E (H) update of the step that
    starts in [g]. *)
Definition E_after (g : grid) : field := match update_E g with Ok g1 => g_E g1 | Err _ => zero_field end.

Lemma step_E_after g g' : step g = Ok g' -> g_E g' = E_after g.
Proof.
  intros H. apply step_inv in H as (g1 & g2 & HE & HH & ->). unfold E_after. rewrite HE.
  apply update_H_inv in HH as (bs' & H3 & ds' & _ & _ & _ & ->). reflexivity.
Qed.

(** The samples a detector takes in a state. *)
Definition sample_of (N : shape3) (F : field) (cells : list zpos) : list (R * R * R) :=
  match sample N F cells with Ok v => map vec3 v | Err _ => [] end.

Lemma step_records g g' i cells Es Hs : step g = Ok g' ->
  nth_error (g_detectors g) i = Some (FieldDetector cells Es Hs) ->
  exists e h, sample (g_N g) (g_E g') cells = Ok e /\ sample (g_N g) (g_H g') cells = Ok h
    /\ nth_error (g_detectors g') i = Some (FieldDetector cells (Es ++ [e]) (Hs ++ [h])).
Proof.
  intros H Hd. apply step_inv in H as (g1 & g2 & HE & HH & ->).
  apply update_E_inv in HE as (bs & E3 & ds & Hbs & _ & Hds & ->).
  apply update_H_inv in HH as (bs' & H3 & ds' & Hbs' & _ & Hds' & ->). cbn in *.
  destruct (map_res_nth _ _ _ _ _ Hds Hd) as (d1 & D1 & Q1). cbn in D1. binv D1. inversion D1; subst d1.
  destruct (map_res_nth _ _ _ _ _ Hds' Q1) as (d2 & D2 & Q2). cbn in D2. binv D2. inversion D2; subst d2.
  eauto.
Qed.

Lemma step_no_new_detectors g g' : step g = Ok g' -> length (g_detectors g') = length (g_detectors g).
Proof.
  intros H. apply step_shapes in H as [_ H]. induction H; cbn; congruence.
Qed.

(** After [n] steps: old records unchanged, [n] new ones, the k-th of which is
    the field after k+1 steps. *)
Lemma run_records n : forall g g' i cells Es Hs, run_steps n g = Ok g' ->
  nth_error (g_detectors g) i = Some (FieldDetector cells Es Hs) ->
  exists newE newH,
    nth_error (g_detectors g') i = Some (FieldDetector cells (Es ++ newE) (Hs ++ newH))
    /\ length newE = n /\ length newH = n
    /\ (forall k gk, (k < n)%nat -> run_steps (S k) g = Ok gk ->
          exists e h, nth_error newE k = Some e /\ nth_error newH k = Some h
            /\ sample (g_N g) (g_E gk) cells = Ok e /\ sample (g_N g) (g_H gk) cells = Ok h).
Proof.
  induction n as [|n IH]; intros g g' i cells Es Hs H Hd; cbn [run_steps] in H.
  - inversion H; subst. exists [], []. rewrite !app_nil_r. repeat split; auto. intros k gk Hk; lia.
  - binv H. destruct (step_records g r i cells Es Hs Er Hd) as (e & h & Se & Sh & Q).
    destruct (IH r g' i cells _ _ H Q) as (nE & nH & Q' & L1 & L2 & K).
    destruct (step_static g r Er) as [St _]. static St.
    exists (e :: nE), (h :: nH). rewrite <- !app_assoc in Q'. cbn in Q'.
    repeat split; cbn; try congruence.
    intros [|k] gk Hk Hrun.
    + cbn in Hrun. rewrite Er in Hrun. cbn in Hrun. inversion Hrun; subst gk. exists e, h. repeat split; assumption.
    + cbn [run_steps] in Hrun. rewrite Er in Hrun. cbn [bind] in Hrun.
      destruct (K k gk) as (e' & h' & K1 & K2 & K3 & K4); [lia|exact Hrun|].
      rewrite SN in K3, K4. exists e', h'. cbn. auto.
Qed.

(** Current detectors: one reading per step, taken after the H update. *)
Lemma run_currents n : forall g g' i cells Is, run_steps n g = Ok g' ->
  nth_error (g_detectors g) i = Some (CurrentDetector cells Is) ->
  exists new,
    nth_error (g_detectors g') i = Some (CurrentDetector cells (Is ++ new)) /\ length new = n
    /\ (forall k gk, (k < n)%nat -> run_steps (S k) g = Ok gk ->
          exists v, nth_error new k = Some v
            /\ map_res (point_current (g_N g) (g_spacing g) (g_H gk)) cells = Ok v).
Proof.
  induction n as [|n IH]; intros g g' i cells Is H Hd; cbn [run_steps] in H.
  - inversion H; subst. exists []. rewrite app_nil_r. repeat split; auto. intros k gk Hk; lia.
  - binv H.
    assert (exists v, map_res (point_current (g_N g) (g_spacing g) (g_H r)) cells = Ok v
       /\ nth_error (g_detectors r) i = Some (CurrentDetector cells (Is ++ [v]))) as (v & Sv & Q).
    { apply step_inv in Er as (g1 & g2 & HE & HH & ->).
      apply update_E_inv in HE as (bs & E3 & ds & Hbs & _ & Hds & ->).
      apply update_H_inv in HH as (bs' & H3 & ds' & Hbs' & _ & Hds' & ->). cbn in *.
      destruct (map_res_nth _ _ _ _ _ Hds Hd) as (d1 & D1 & Q1). cbn in D1. inversion D1; subst d1.
      destruct (map_res_nth _ _ _ _ _ Hds' Q1) as (d2 & D2 & Q2). cbn in D2. binv D2. inversion D2; subst d2. eauto. }
    destruct (IH r g' i cells _ H Q) as (nw & Q' & L1 & K).
    destruct (step_static g r Er) as [St _]. static St.
    exists (v :: nw). rewrite <- app_assoc in Q'. cbn in Q'. repeat split; cbn; try congruence.
    intros [|k] gk Hk Hrun.
    + cbn in Hrun. rewrite Er in Hrun. cbn in Hrun. inversion Hrun; subst gk. exists v. split; [reflexivity|assumption].
    + cbn [run_steps] in Hrun. rewrite Er in Hrun. cbn [bind] in Hrun.
      destruct (K k gk) as (v' & K1 & K2); [lia|exact Hrun|].
      rewrite SN, Ssp in K2. exists v'. cbn. auto.
Qed.

(** * Silence *)


Lemma dbwd_rest N (F : field) b c p : (forall q, in_grid N q -> F q c = 0) -> in_grid N p -> dbwd F b c p = 0.
Proof.
  intros HF Hp. unfold dbwd. destruct (Nat.leb_spec 1 (coord b p)); [|reflexivity].
  rewrite !HF; [ring| |exact Hp]. apply setc_in_grid'; [exact Hp|]. specialize (Hp b). lia.
Qed.
Lemma dfwd_rest N (F : field) b c p : (forall q, in_grid N q -> F q c = 0) -> in_grid N p -> dfwd N F b c p = 0.
Proof.
  intros HF Hp. unfold dfwd. destruct (Nat.ltb_spec (S (coord b p)) (N b)); [|reflexivity].
  rewrite !HF; [ring|exact Hp|]. apply setc_in_grid'; [exact Hp|exact H].
Qed.

Lemma copies_E_rest N co ie bs : no_pml bs -> forall F : field,
  (forall p c, in_grid N p -> F p c = 0) ->
  forall p c, in_grid N p -> fold_left (fun E b => boundary_update_E N co ie b E) bs F p c = 0.
Proof.
  induction 1 as [|b bs Hb _ IH]; intros F HF p c Hp; cbn [fold_left]; [auto|].
  apply IH; [|exact Hp]. intros q d Hq. destruct b; cbn in Hb; try contradiction; cbn [boundary_update_E]; [|auto].
  destruct (coord a q =? 0)%nat; apply HF; [|exact Hq].
  apply setc_in_grid'; [exact Hq|]. specialize (Hq a). lia.
Qed.
Lemma copies_H_rest N co im bs : no_pml bs -> forall F : field,
  (forall p c, in_grid N p -> F p c = 0) ->
  forall p c, in_grid N p -> fold_left (fun E b => boundary_update_H N co im b E) bs F p c = 0.
Proof.
  induction 1 as [|b bs Hb _ IH]; intros F HF p c Hp; cbn [fold_left]; [auto|].
  apply IH; [|exact Hp]. intros q d Hq. destruct b; cbn in Hb; try contradiction; cbn [boundary_update_H]; [|auto].
  destruct (coord a q =? N a - 1)%nat; apply HF; [|exact Hq].
  apply setc_in_grid'; [exact Hq|]. specialize (Hq a). lia.
Qed.

Lemma silent_step g g' : no_pml (g_boundaries g) -> g_sources g = [] -> resting g ->
  step g = Ok g' -> resting g' /\ g_boundaries g' = g_boundaries g.
Proof.
  intros Hb Hs Hr H. destruct (step_no_pml g g' Hb H) as (dsE & dsH & HE & HH & _ & _ & Hg).
  rewrite Hs in HE, HH. cbn [fold_res] in HE, HH.
  destruct (step_static g g' H) as [St _]. static St.
  assert (RE : forall p c, in_grid (g_N g) p -> g_E g' p c = 0).
  { intros p c Hp. replace (g_E g') with (fold_left (fun E b => boundary_update_E (g_N g) (g_courant g) (g_ie g) b E)
        (g_boundaries g) (bulk_E g)) by congruence.
    apply copies_E_rest; [exact Hb| |exact Hp]. intros q d Hq. unfold bulk_E.
    rewrite (proj1 (Hr q d Hq)).
    assert (curl_H (g_H g) q d = 0) as ->; [|unfold Rdiv; ring].
    destruct d; cbn [curl_H]; rewrite !(dbwd_rest (g_N g)); try ring; try exact Hq; intros x Hx; apply Hr, Hx. }
  split; [|rewrite Hg; reflexivity].
  intros p c Hp. rewrite SN in Hp. split; [apply RE, Hp|].
  replace (g_H g') with (fold_left (fun H b => boundary_update_H (g_N g) (g_courant g) (g_im g) b H) (g_boundaries g)
    (fun p c => g_H g p c - g_courant g * g_im g p c * curl_E (g_N g) (g_E g') p c)) by congruence.
  apply copies_H_rest; [exact Hb| |exact Hp]. intros q d Hq. rewrite (proj2 (Hr q d Hq)).
  assert (curl_E (g_N g) (g_E g') q d = 0) as ->; [|ring].
  destruct d; cbn [curl_E]; rewrite !(dfwd_rest (g_N g)); try ring; try exact Hq; intros x Hx; apply RE, Hx.
Qed.

Lemma silent_run n : forall g g', no_pml (g_boundaries g) -> g_sources g = [] -> resting g ->
  run_steps n g = Ok g' -> resting g'.
Proof.
  induction n as [|n IH]; intros g g' Hb Hs Hr H; cbn in H.
  - inversion H; subst; exact Hr.
  - binv H. destruct (silent_step g r Hb Hs Hr Er) as [R1 B1].
    destruct (step_static g r Er) as [St _]. static St.
    eapply IH; [| | |exact H]; [rewrite B1; exact Hb|rewrite Ssr; exact Hs|exact R1].
Qed.

(** * Periodic faces *)

Lemma periodic_faces_step g g' a bs1 bs2 :
  g_boundaries g = bs1 ++ Periodic a :: bs2 ->
  no_pml bs2 ->
  (forall F, fold_res (source_update_E (g_N g) (g_steps g)) (g_sources g) F = Ok F) ->
  (forall F, fold_res (source_update_H (g_N g) (g_steps g)) (g_sources g) F = Ok F) ->
  step g = Ok g' ->
  forall p c, in_grid (g_N g) p -> coord a p = 0%nat ->
    g_E g' p c = g_E g' (setc a (g_N g a - 1) p) c
    /\ g_H g' (setc a (g_N g a - 1) p) c = g_H g' p c.
Proof.
  intros Hbs Hnp QE QH H p c Hp H0.
  apply step_inv in H as (g1 & g2 & HE & HH & ->).
  apply update_E_inv in HE as (bs & E3 & ds & Hbs1 & HsE & _ & ->).
  apply update_H_inv in HH as (bs' & H3 & ds' & Hbs2 & HsH & _ & ->). cbn in *.
  rewrite QE in HsE. rewrite QH in HsH. inversion HsE as [HE']. inversion HsH as [HH'].
  assert (Split : forall (f : boundary -> res boundary) l l',
     (forall b b', match b with Periodic _ | InertPeriodic => True | _ => False end -> f b = Ok b' -> b' = b) ->
     forall pre post, l = pre ++ Periodic a :: post -> no_pml post -> map_res f l = Ok l' ->
     exists pre', l' = pre' ++ Periodic a :: post).
  { intros f l l' Hf pre. revert l l'. induction pre as [|b pre IH]; intros l l' post -> Hpost X; cbn in X.
    - binv X. binv X. inversion X; subst l'. exists []. cbn.
      rewrite (Hf (Periodic a) r I Er). f_equal. clear X Er r.
      revert r0 Er0. induction Hpost as [|b post Hb _ IHp]; intros r0 Er0; cbn in Er0; [congruence|].
      binv Er0. binv Er0. inversion Er0; subst r0.
      rewrite (IHp _ Er1). f_equal. destruct b; try contradiction; eapply Hf; eauto; exact I.
    - binv X. binv X. inversion X; subst l'.
      destruct (IH _ r0 post eq_refl Hpost Er0) as [pre' ->]. exists (r :: pre'). reflexivity. }
  destruct (Split (boundary_phi_E (g_N g) (g_H g)) _ _ ltac:(intros [|?| |] b' Hb X; try contradiction; cbn in X; congruence)
              _ _ Hbs Hnp Hbs1) as [pre1 ->].
  destruct (Split (boundary_phi_H (g_N g) E3) _ _ ltac:(intros [|?| |] b' Hb X; try contradiction; cbn in X; congruence)
              _ _ eq_refl Hnp Hbs2) as [pre2 ->].
  rewrite fold_left_app in *. cbn [fold_left] in *. split.
  - eapply (copies_E_periodic (g_N g) (g_courant g) (g_ie g) bs2 Hnp); [|exact Hp|exact H0].
    left. apply copyE_gains.
  - rewrite !fold_left_app. cbn [fold_left]. symmetry. eapply (copies_H_periodic (g_N g) (g_courant g) (g_im g) bs2 Hnp); [|exact Hp|exact H0].
    left. apply copyH_gains.
Qed.

(** * Divergence of H *)

Lemma div_curl N E p : in_grid N p -> div_H N (curl_E N E) p = 0.
Proof.
  destruct p as [[i j] k]. intros Hp.
  pose proof (Hp AX) as Hx. pose proof (Hp AY) as Hy. pose proof (Hp AZ) as Hz. cbn in Hx, Hy, Hz.
  unfold div_H, sum3, curl_E, dfwd. cbn [coord setc].
  destruct (Nat.ltb_spec (S i) (N AX)), (Nat.ltb_spec (S j) (N AY)), (Nat.ltb_spec (S k) (N AZ)); ring.
Qed.

Lemma div_minus N (A B : field) k p :
  div_H N (fun p c => A p c - k * B p c) p = div_H N A p - k * div_H N B p.
Proof.
  unfold div_H, sum3.
  repeat match goal with |- context [if ?b then _ else _] => destruct b end; ring.
Qed.

Lemma soft_H N q ss : Forall soft ss -> forall F, fold_res (source_update_H N q) ss F = Ok F.
Proof. induction 1 as [|s ss Hs _ IH]; intros F; cbn [fold_res]; [reflexivity|]. destruct s; try contradiction; cbn; apply IH. Qed.

Lemma div_step g g' mu : g_boundaries g = [] -> Forall soft (g_sources g) ->
  (forall p c, in_grid (g_N g) p -> g_im g p c = mu) -> step g = Ok g' ->
  g_boundaries g' = [] /\ forall p, in_grid (g_N g) p -> div_H (g_N g) (g_H g') p = div_H (g_N g) (g_H g) p.
Proof.
  intros Hb Hs Hmu H. destruct (step_no_pml g g') as (dsE & dsH & _ & HH & _ & _ & Hg); [rewrite Hb; constructor|exact H|].
  rewrite soft_H in HH by exact Hs. rewrite Hb in HH. cbn [fold_left] in HH. inversion HH as [HH'].
  split; [rewrite Hg; exact Hb|]. intros p Hp.
  transitivity (div_H (g_N g) (fun p c => g_H g p c - (g_courant g * mu) * curl_E (g_N g) (g_E g') p c) p).
  - unfold div_H, sum3.
    assert (K : forall a, (if (S (coord a p) <? g_N g a)%nat
        then g_H g (setc a (S (coord a p)) p) a - g_courant g * g_im g (setc a (S (coord a p)) p) a * curl_E (g_N g) (g_E g') (setc a (S (coord a p)) p) a
             - (g_H g p a - g_courant g * g_im g p a * curl_E (g_N g) (g_E g') p a) else 0)
       = (if (S (coord a p) <? g_N g a)%nat
        then g_H g (setc a (S (coord a p)) p) a - g_courant g * mu * curl_E (g_N g) (g_E g') (setc a (S (coord a p)) p) a
             - (g_H g p a - g_courant g * mu * curl_E (g_N g) (g_E g') p a) else 0)).
    { intros a. destruct (Nat.ltb_spec (S (coord a p)) (g_N g a)) as [Hlt|]; [|reflexivity].
      rewrite !Hmu; [reflexivity|exact Hp|]. apply setc_in_grid'; assumption. }
    rewrite !K. reflexivity.
  - rewrite div_minus, div_curl by exact Hp. ring.
Qed.

Lemma div_run n mu : forall g g', g_boundaries g = [] -> Forall soft (g_sources g) ->
  (forall p c, in_grid (g_N g) p -> g_im g p c = mu) -> run_steps n g = Ok g' ->
  forall p, in_grid (g_N g) p -> div_H (g_N g) (g_H g') p = div_H (g_N g) (g_H g) p.
Proof.
  induction n as [|n IH]; intros g g' Hb Hs Hmu H p Hp; cbn in H.
  - inversion H; subst; reflexivity.
  - binv H. destruct (div_step g r mu Hb Hs Hmu Er) as [Hb' D].
    destruct (step_static g r Er) as [St _]. static St.
    rewrite <- (D p Hp). rewrite <- SN. apply (IH r g'); try assumption.
    + rewrite Ssr; exact Hs.
    + rewrite SN, Sim; exact Hmu.
    + rewrite SN; exact Hp.
Qed.
