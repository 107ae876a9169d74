(** Proofs about faces, materials and indices. *)
From Coq Require Import Reals ZArith String List Bool Lra Lia Psatz.
From Verif Require Import Base BaseLemmas Model_Units Model_FDTD Model_Register Spec_FDTD Spec_Register Proof_Torus Proof_FDTD Proof_Energy Proof_Propagate Proof_Steps Proof_Linear Proof_Reset Proof_Cavity Proof_Register.
Import ListNotations.
Open Scope R_scope.

(** * Rejected objects *)

Lemma same_meta g g' : same_physics g g' -> g' = with_meta (g_objects g') (g_attrs g') g.
Proof.
  unfold same_physics, with_meta. destruct g, g'. cbn.
  intros (? & ? & ? & ? & ? & ? & ? & ? & ? & ? & ? & ? & ?). subst. reflexivity.
Qed.
Lemma same_refl g : same_physics g g.
Proof. repeat split. Qed.
Lemma meta_same o a g : same_physics g (with_meta o a g).
Proof. repeat split. Qed.
Lemma same_physics_run g g' n : same_physics g g' ->
  match run_steps n g, run_steps n g' with
  | Ok a, Ok b => same_physics a b
  | Err e1, Err e2 => e1 = e2
  | _, _ => False
  end.
Proof.
  intros H. rewrite (same_meta _ _ H), run_meta.
  destruct (run_steps n g); cbn [bind]; [apply meta_same|reflexivity].
Qed.

Lemma clip_in n v : (- Z.of_nat n <= v <= Z.of_nat n)%Z ->
  Z.of_nat (clip n v) = (if (v <? 0)%Z then v + Z.of_nat n else v)%Z.
Proof. intros H. unfold clip. destruct (Z.ltb_spec v 0); lia. Qed.
Lemma clip_nat n v : (v <= n)%nat -> clip n (Z.of_nat v) = v.
Proof. intros H. unfold clip. destruct (Z.ltb_spec (Z.of_nat v) 0); lia. Qed.
(** On an index within the grid the object's slice and the index as given
    select as many cells. *)
Lemma usual_count n k ab : usual_index n k -> object_slice n k = Ok ab ->
  is_list k = true \/ raw_count n k = (clip n (snd ab) - clip n (fst ab))%nat.
Proof.
  destruct k as [l|a b s]; cbn [is_list]; [auto|]. intros U H. right. cbn [object_slice] in H.
  destruct (match s with Some v => negb (v =? 1)%Z | None => false end); [discriminate|].
  inversion H; subst ab; clear H. cbn [fst snd raw_count].
  assert (A : clip n (if (match a with None => 0 | Some v => v end <? 0)
             then (Z.of_nat n + match a with None => 0 | Some v => v end) else match a with None => 0 | Some v => v end)%Z
    = match a with None => 0%nat | Some v => clip n v end).
  { destruct a as [v|]; [|cbn; unfold clip; cbn; lia]. specialize (U v (or_introl eq_refl)).
    unfold clip. destruct (Z.ltb_spec v 0); [|destruct (Z.ltb_spec v 0); lia].
    destruct (Z.ltb_spec (Z.of_nat n + v) 0); lia. }
  assert (B : clip n (if (match b with None => Z.of_nat n | Some v => v end <? 0)
             then (Z.of_nat n + match b with None => Z.of_nat n | Some v => v end) else match b with None => Z.of_nat n | Some v => v end)%Z
    = match b with None => n | Some v => clip n v end).
  { destruct b as [v|].
    - specialize (U v (or_intror eq_refl)).
      unfold clip. destruct (Z.ltb_spec v 0); [|destruct (Z.ltb_spec v 0); lia].
      destruct (Z.ltb_spec (Z.of_nat n + v) 0); lia.
    - destruct (Z.ltb_spec (Z.of_nat n) 0); [lia|]. apply clip_nat. lia. }
  rewrite A, B. reflexivity.
Qed.
Lemma usual_list n k ab : object_slice n k = Ok ab -> is_list k = true -> (snd ab - fst ab = 1)%Z.
Proof.
  destruct k as [[|v [|]]|]; cbn; try discriminate. intros H _. inversion H; subst. cbn. lia.
Qed.
Lemma usual_range n k ab : usual_index n k -> object_slice n k = Ok ab -> exists r, raw_range n k = Ok r.
Proof.
  destruct k as [[|v [|]]|]; cbn [object_slice raw_range]; try discriminate; [|eauto].
  intros U _. specialize (U v (or_introl eq_refl)). unfold index_ok in U. unfold resolve.
  destruct (Z.leb_spec 0 v), (Z.ltb_spec v (Z.of_nat n)); cbn [andb bind]; try (eexists; reflexivity); try lia.
  destruct (Z.leb_spec (- Z.of_nat n) v), (Z.ltb_spec v 0); cbn [andb bind]; try (eexists; reflexivity); lia.
Qed.

Lemma usual_absorb N sp x y z lo hi :
  usual_index (N AX) (handle_key sp x) -> usual_index (N AY) (handle_key sp y) -> usual_index (N AZ) (handle_key sp z) ->
  (length (filter numeric [x; y; z]) <= 1)%nat ->
  object_region N (handle_key sp x) (handle_key sp y) (handle_key sp z) = Ok (lo, hi) -> object_fits N lo hi = true ->
  absorb_fits N (handle_key sp x) (handle_key sp y) (handle_key sp z) (object_extent lo hi) = true
  /\ exists r, raw_region N (handle_key sp x) (handle_key sp y) (handle_key sp z) = Ok r.
Proof.
  intros UX UY UZ L O F.
  unfold object_region in O. apply bind_ok in O as (rx & OX & O). apply bind_ok in O as (ry & OY & O). apply bind_ok in O as (rz & OZ & O).
  inversion O; subst lo hi; clear O.
  destruct (usual_range _ _ _ UX OX) as (qx & QX), (usual_range _ _ _ UY OY) as (qy & QY), (usual_range _ _ _ UZ OZ) as (qz & QZ).
  split; [|unfold raw_region; rewrite QX, QY, QZ; cbn [bind]; eauto].
  unfold object_fits in F. apply andb_prop in F as [_ F]. unfold box_fits in F. cbn [forallb] in F.
  apply andb_prop in F as [FX F]. apply andb_prop in F as [FY F]. apply andb_prop in F as [FZ _].
  assert (K : forall a n k ab, object_slice n k = Ok ab -> usual_index n k ->
     ((Z.of_nat a =? 1) || (Z.of_nat a =? Z.of_nat (clip n (snd ab) - clip n (fst ab))))%Z = true ->
     a = Z.to_nat (Z.abs (snd ab - fst ab)) -> ((a =? 1) || (a =? raw_count n k))%nat = true).
  { intros a n k ab Hk U Q Ha. apply orb_prop in Q. rewrite !Z.eqb_eq in Q. apply orb_true_iff. rewrite !Nat.eqb_eq.
    destruct (usual_count n k ab U Hk) as [I|I]; [|rewrite I; lia].
    pose proof (usual_list n k ab Hk I). left. lia. }
  unfold absorb_fits.
  rewrite (K _ _ _ _ OX UX FX eq_refl), (K _ _ _ _ OY UY FY eq_refl), (K _ _ _ _ OZ UZ FZ eq_refl). cbn [andb].
  clear - L. destruct x, y, z; cbn in L |- *; try reflexivity; lia.
Qed.
Lemma rejected_object_same key nm eps cond g g' e : setitem key (CObject nm eps cond) g = (g', Some e) ->
  cond = None \/ within_grid g key -> same_physics g g'.
Proof.
  intros H HU. unfold setitem in H. destruct (pad_key key) as [[[x y] z]|] eqn:Hk; [|inversion H; apply same_refl].
  cbn [register] in H. unfold register_object in H.
  destruct (claim_name nm (add_object_ g)) as [g1|] eqn:E; [|inversion H; repeat split].
  apply claim_name_inv in E as [E _].
  destruct (object_region (g_N g) _ _ _) as [[lo hi]|] eqn:O; [|inversion H; subst; exact E].
  destruct (object_fits (g_N g) lo hi) eqn:F; cbn [negb] in H; [|inversion H; subst; exact E].
  destruct cond as [s|]; [|discriminate]. exfalso. destruct HU as [HU|HU]; [discriminate|].
  destruct (HU _ _ _ Hk) as (UX & UY & UZ & L).
  destruct (usual_absorb _ _ _ _ _ _ _ UX UY UZ L O F) as [Q1 ([rlo rhi] & Q2)].
  rewrite Q1, Q2 in H. discriminate.
Qed.
Lemma rejected_object_harmless key nm eps cond g g' e n : setitem key (CObject nm eps cond) g = (g', Some e) ->
  cond = None \/ within_grid g key ->
  match run_steps n g, run_steps n g' with
  | Ok a, Ok b => same_physics a b
  | Err e1, Err e2 => e1 = e2
  | _, _ => False
  end.
Proof. intros H HU. eapply same_physics_run, rejected_object_same; eassumption. Qed.

(** * Faces *)

Lemma filter_app_len {A} (f : A -> bool) l1 l2 : length (filter f (l1 ++ l2)) = (length (filter f l1) + length (filter f l2))%nat.
Proof. rewrite filter_app, app_length. reflexivity. Qed.

Definition faces_inv (g : grid) : Prop :=
  forall ax hi, (count_on ax hi (g_boundaries g) <= 1)%nat
    /\ (count_on ax hi (g_boundaries g) = 1%nat -> In (face_attr ax hi) (g_attrs g)).

Lemma faces_ext_attr g g' : g_boundaries g' = g_boundaries g -> (forall n, In n (g_attrs g) -> In n (g_attrs g')) ->
  faces_inv g -> faces_inv g'.
Proof.
  intros HB HA H ax hi. rewrite HB. destruct (H ax hi) as [H1 H2]. split; [exact H1|]. intros E. apply HA, H2, E.
Qed.
Lemma claim_faces name g g' : claim_name name g = Ok g' -> faces_inv g -> faces_inv g'.
Proof.
  intros E H. apply claim_name_inv in E as (S & _ & A).
  destruct S as (_ & _ & _ & _ & _ & _ & _ & _ & _ & _ & _ & SB & _).
  eapply faces_ext_attr; [symmetry; exact SB| |exact H].
  intros n Hn. destruct name; [destruct A as [_ ->]; right; exact Hn|rewrite A; exact Hn].
Qed.
Lemma axis_eqb_true a b : axis_eqb a b = true -> a = b.
Proof. destruct a, b; cbn; congruence. Qed.
Lemma count_app ax hi bs b : count_on ax hi (bs ++ [b]) = (count_on ax hi bs + if on_face ax hi b then 1 else 0)%nat.
Proof. unfold count_on. rewrite filter_app_len. cbn. destruct (on_face ax hi b); reflexivity. Qed.

Lemma place_pml_faces ax hi t a g g' : place_pml ax hi t a g = (g', None) -> faces_inv g -> faces_inv g'.
Proof.
  unfold place_pml. destruct (has_attr g (face_attr ax hi)) eqn:E; [discriminate|]. intros H; inversion H; subst; clear H.
  intros F ax' hi'. cbn [add_boundary_ claim_face g_boundaries g_attrs]. rewrite count_app. destruct (F ax' hi') as [F1 F2].
  cbn [on_face make_pml p_axis p_high].
  destruct (axis_eqb ax ax') eqn:EA; cbn [andb]; [destruct (Bool.eqb hi hi') eqn:EH|].
  - apply axis_eqb_true in EA. apply Bool.eqb_prop in EH. subst.
    assert (count_on ax' hi' (g_boundaries g) <> 1%nat) by (intros K; apply F2 in K; apply (has_attr_false _ _ E K)).
    split; [lia|]. intros _. left. reflexivity.
  - rewrite Nat.add_0_r. split; [exact F1|]. intros K. right. apply F2, K.
  - rewrite Nat.add_0_r. split; [exact F1|]. intros K. right. apply F2, K.
Qed.
Lemma place_periodic_faces ax g g' : place_periodic ax g = (g', None) -> faces_inv g -> faces_inv g'.
Proof.
  unfold place_periodic. destruct (has_attr g (face_attr ax false)) eqn:E1; [discriminate|].
  destruct (has_attr g (face_attr ax true)) eqn:E2; [discriminate|]. cbn [orb]. intros H; inversion H; subst; clear H.
  intros F ax' hi'. cbn [add_boundary_ claim_face g_boundaries g_attrs]. rewrite count_app. destruct (F ax' hi') as [F1 F2].
  cbn [on_face]. destruct (axis_eqb ax ax') eqn:EA.
  - apply axis_eqb_true in EA. subst ax'.
    assert (count_on ax hi' (g_boundaries g) <> 1%nat)
      by (intros K; apply F2 in K; destruct hi'; [apply (has_attr_false _ _ E2 K)|apply (has_attr_false _ _ E1 K)]).
    split; [lia|]. intros _. destruct hi'; [left|right; left]; reflexivity.
  - rewrite Nat.add_0_r. split; [exact F1|]. intros K. right. right. apply F2, K.
Qed.

Lemma setitem_faces key c g g' : setitem key c g = (g', None) -> faces_inv g -> faces_inv g'.
Proof.
  intros H F. unfold setitem in H. destruct (pad_key key) as [[[x0 y0] z0]|]; [|discriminate].
  revert H. generalize (handle_key (g_spacing g) x0) (handle_key (g_spacing g) y0) (handle_key (g_spacing g) z0).
  intros x y z H. clear x0 y0 z0.
  destruct c as [n|n a|n eps cond| |k n|n s|n s|n s]; cbn [register] in *.
  - unfold register_periodic in H.
    destruct (boundary_slice x); cbn [bind] in H; [|discriminate].
    destruct (boundary_slice y); cbn [bind] in H; [|discriminate].
    destruct (boundary_slice z); cbn [bind] in H; [|discriminate].
    destruct (claim_name n g) as [g1|] eqn:E; cbn [bind] in H; [|discriminate].
    pose proof (claim_faces _ _ _ E F) as F'.
    destruct (at_border _); [eapply place_periodic_faces; eassumption|].
    destruct (at_border _); [eapply place_periodic_faces; eassumption|].
    destruct (at_border _); [eapply place_periodic_faces; eassumption|discriminate].
  - unfold register_pml in H.
    destruct (pml_slice x); cbn [bind] in H; [|discriminate].
    destruct (pml_slice y); cbn [bind] in H; [|discriminate].
    destruct (pml_slice z); cbn [bind] in H; [|discriminate].
    destruct (claim_name n g) as [g1|] eqn:E; cbn [bind] in H; [|discriminate].
    pose proof (claim_faces _ _ _ E F) as F'.
    repeat (match type of H with context [match ?o with Some _ => _ | None => _ end] => destruct o end;
      [eapply place_pml_faces; eassumption|]). discriminate.
  - unfold register_object in H. destruct (claim_name n (add_object_ g)) as [g1|] eqn:E; [|discriminate].
    assert (F' : faces_inv g1) by (eapply claim_faces; [exact E|exact F]).
    destruct (object_region (g_N g) x y z) as [[lo hi]|]; [|discriminate].
    destruct (negb (object_fits (g_N g) lo hi)); [discriminate|]. destruct cond; [|inversion H; subst; exact F'].
    destruct (negb (absorb_fits _ _ _ _ _)); [discriminate|].
    destruct (raw_region (g_N g) x y z) as [[? ?]|]; inversion H; subst; exact F'.
  - discriminate.
  - unfold register_detector in H. destruct (claim_name n g) as [g1|] eqn:E; [|discriminate].
    pose proof (claim_faces _ _ _ E F) as F'.
    match type of H with context [match ?o with Ok _ => _ | Err _ => _ end] => destruct o end; inversion H; subst; exact F'.
  - unfold register_point in H. destruct (claim_name n g) as [g1|] eqn:E; [|discriminate].
    pose proof (claim_faces _ _ _ E F) as F'.
    destruct x as [[|? [|]]|], y as [[|? [|]]|], z as [[|? [|]]|]; inversion H; subst; exact F'.
  - unfold register_line in H. destruct (claim_name n g) as [g1|] eqn:E; [|discriminate].
    pose proof (claim_faces _ _ _ E F) as F'.
    match type of H with context [match ?o with Ok _ => _ | Err _ => _ end] => destruct o as [[|]|] end; try discriminate.
    match type of H with context [if ?o then _ else _] => destruct o end; inversion H; subst; exact F'.
  - unfold register_plane in H. destruct (claim_name n g) as [g1|] eqn:E; [|discriminate].
    pose proof (claim_faces _ _ _ E F) as F'.
    destruct (plane_place _ _ _ _ _) as [[[[? ?] ?] ?]|]; inversion H; subst; exact F'.
Qed.

(** As long as no registration raised, no face has two boundaries. *)
Lemma one_boundary_per_face l : forall g0 g ax hi, (forall b, In b (g_boundaries g0) -> on_face ax hi b = false) ->
  (forall ax hi, count_on ax hi (g_boundaries g0) = 0%nat) ->
  setitems l g0 = (g, None) -> (count_on ax hi (g_boundaries g) <= 1)%nat.
Proof.
  intros g0 g ax hi _ H0 H. assert (F : faces_inv g0) by (intros a h; rewrite H0; split; [lia|discriminate]).
  clear H0. revert g0 F H. induction l as [|[k c] l IH]; intros g0 F H; cbn [setitems] in H.
  - inversion H; subst. apply F.
  - destruct (setitem k c g0) as [g1 [e|]] eqn:E; [discriminate|]. eapply IH; [|exact H].
    eapply setitem_faces; eassumption.
Qed.
Lemma one_boundary_fresh shape sp eps mu co g0 l g ax hi : make_grid shape sp eps mu co = Ok g0 ->
  setitems l g0 = (g, None) -> (count_on ax hi (g_boundaries g) <= 1)%nat.
Proof.
  intros H0 H. apply make_grid_inv in H0 as (_ & _ & HB & _).
  eapply one_boundary_per_face; [|  |exact H]; rewrite HB; [intros b []|reflexivity].
Qed.

(** The second boundary on a face raises AttributeError; a periodic one acts
    all the same. *)
Lemma second_periodic nm g ax key : key = match ax with
    | AX => [KNum (PInt 0)] | AY => [full_slice; KNum (PInt 0)] | AZ => [full_slice; full_slice; KNum (PInt 0)] end ->
  match nm with Some n => ~ In n (g_attrs g) /\ n <> face_attr ax false /\ n <> face_attr ax true | None => True end ->
  (In (face_attr ax false) (g_attrs g) \/ In (face_attr ax true) (g_attrs g)) ->
  exists g', setitem key (CPeriodic nm) g = (g', Some AttributeError)
    /\ g_boundaries g' = g_boundaries g ++ [Periodic ax].
Proof.
  intros -> Hn Hf.
  assert (P : forall h, (forall n, In n (g_attrs g) -> In n (g_attrs h)) -> g_boundaries h = g_boundaries g ->
    exists g', place_periodic ax h = (g', Some AttributeError) /\ g_boundaries g' = g_boundaries g ++ [Periodic ax]).
  { intros h Hh Hb. unfold place_periodic.
    assert (has_attr h (face_attr ax false) || has_attr h (face_attr ax true) = true) as ->.
    { apply orb_true_intro. rewrite !has_attr_In. destruct Hf; [left|right]; auto. }
    eexists. split; [reflexivity|]. cbn. rewrite Hb. reflexivity. }
  assert (exists h, claim_name nm g = Ok h /\ (forall n, In n (g_attrs g) -> In n (g_attrs h)) /\ g_boundaries h = g_boundaries g)
    as (h & Hc & Hh & Hb).
  { destruct nm as [n|]; cbn [claim_name].
    - assert (has_attr g n = false) as ->.
      { destruct (has_attr g n) eqn:E; [|reflexivity]. apply has_attr_In in E. destruct Hn as [Hn _]. contradiction. }
      eexists. split; [reflexivity|]. cbn. auto.
    - eexists. split; [reflexivity|]. auto. }
  destruct (P h Hh Hb) as (g' & P1 & P2). exists g'. split; [|exact P2].
  destruct ax; cbn [setitem pad_key full_slice handle_key handle_distance option_map register register_periodic boundary_slice bind];
    unfold register_periodic; cbn [boundary_slice bind]; rewrite Hc; cbn [bind at_border]; exact P1.
Qed.

Lemma second_pml nm a g ax hi t key : (0 < t)%nat ->
  key = (let s := if hi : bool then int_slice (Some (- Z.of_nat t)%Z) None else int_slice (Some 0%Z) (Some (Z.of_nat t)) in
    match ax with
    | AX => [s] | AY => [full_slice; s] | AZ => [full_slice; full_slice; s] end) ->
  match nm with Some n => ~ In n (g_attrs g) | None => True end ->
  In (face_attr ax hi) (g_attrs g) ->
  exists g', setitem key (CPML nm a) g = (g', Some AttributeError).
Proof.
  intros Ht -> Hn Hf.
  assert (exists h, claim_name nm g = Ok h /\ (forall n, In n (g_attrs g) -> In n (g_attrs h)))
    as (h & Hc & Hh).
  { destruct nm as [n|]; cbn [claim_name].
    - assert (has_attr g n = false) as ->.
      { destruct (has_attr g n) eqn:E; [|reflexivity]. apply has_attr_In in E. contradiction. }
      eexists. split; [reflexivity|]. cbn. auto.
    - eexists. split; [reflexivity|]. auto. }
  assert (P : forall t, exists g', place_pml ax hi t a h = (g', Some AttributeError)).
  { intros t'. unfold place_pml. assert (has_attr h (face_attr ax hi) = true) as -> by (apply has_attr_In, Hh, Hf). eauto. }
  assert (L : (0 <? Z.of_nat t)%Z = true) by (apply Z.ltb_lt; lia).
  assert (L' : (- Z.of_nat t <? 0)%Z = true) by (apply Z.ltb_lt; lia).
  destruct ax, hi; unfold setitem;
    cbn [pad_key int_slice full_slice handle_key handle_distance option_map register];
    unfold register_pml; cbn [pml_slice bind]; rewrite Hc; cbn [bind low_slice high_slice];
    try rewrite L; try rewrite L'; try apply P;
    destruct (- Z.of_nat t)%Z eqn:EE; try lia; cbn [Z.ltb Z.compare]; apply P.
Qed.
