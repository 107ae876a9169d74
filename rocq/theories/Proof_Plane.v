(** Proofs about plane sources. *)
From Coq Require Import Reals ZArith String List Bool Lra Lia Psatz FunctionalExtensionality.
From Verif Require Import Base BaseLemmas Model_Units Model_FDTD Model_Register Spec_FDTD Spec_Register Spec_Plane Proof_Torus Proof_FDTD Proof_Steps Proof_Reset Proof_Register Proof_Register2 Proof_Material Proof_PML Proof_Placement.
Import ListNotations.
Open Scope R_scope.

(** * Acceptance *)

Lemma ordered_spec a b lo hi : ordered a b = (lo, hi) <->
  (a < b /\ lo = a /\ hi = b)%Z \/ (b < a /\ lo = b /\ hi = a)%Z \/ (a = b /\ lo = a /\ hi = a + 1)%Z.
Proof.
  unfold ordered. destruct (Z.ltb_spec a b); [|destruct (Z.ltb_spec b a)]; split; intros H1; try (inversion H1; subst; lia);
    destruct H1 as [(? & -> & ->)|[(? & -> & ->)|(? & -> & ->)]]; try lia; reflexivity.
Qed.
Lemma plane_slice_spec n k lo hi : plane_slice n k = Ok (lo, hi) <-> plane_bounds n k lo hi.
Proof.
  destruct k as [[|v [|]]|a b s]; cbn [plane_slice plane_bounds].
  - split; [discriminate|]. intros [H _]; discriminate.
  - unfold ordered. destruct (Z.ltb_spec v (v + 1)); [|lia]. split.
    + intros H1; inversion H1; subst. auto.
    + intros [H1 ->]; inversion H1; subst. reflexivity.
  - split; [discriminate|]. intros [H _]; discriminate.
  - split.
    + intros H; apply ordered_spec. inversion H. reflexivity.
    + intros H. apply f_equal, ordered_spec, H.
Qed.
Lemma plane_slice_err n k e : plane_slice n k = Err e -> e = ValueError.
Proof. destruct k as [[|v [|]]|]; cbn; congruence. Qed.

Lemma epol_spec pol e : epol_of pol = Ok e <-> In (pol, e) polarizations.
Proof.
  split.
  - unfold epol_of. intros H.
    assert (K : forall s1 s2 : string, String.prefix s1 s2 = true -> exists t, s2 = (s1 ++ t)%string).
    { induction s1 as [|c s1 IH]; intros s2 P; [exists s2; reflexivity|]. destruct s2 as [|d s2]; [discriminate|].
      cbn in P. destruct (Ascii.ascii_dec c d); [|discriminate]. subst. destruct (IH _ P) as [t ->]. exists t. reflexivity. }
    cbn [String.index] in H.
    destruct (String.prefix pol "xyz") eqn:P0.
    + inversion H; subst e. destruct (K _ _ P0) as [t E]. clear - E.
      destruct pol as [|c [|d [|f [|]]]]; cbn in E; inversion E; subst; cbn; tauto.
    + destruct (String.prefix pol "yz") eqn:P1.
      * inversion H; subst e. destruct (K _ _ P1) as [t E]. clear - E P0.
        destruct pol as [|c [|d [|f]]]; cbn in E; inversion E; subst; cbn in P0 |- *; try discriminate; tauto.
      * destruct (String.prefix pol "z") eqn:P2.
        -- inversion H; subst e. destruct (K _ _ P2) as [t E]. clear - E P0 P1.
           destruct pol as [|c [|d]]; cbn in E; inversion E; subst; cbn in P0 |- *; try discriminate; tauto.
        -- destruct pol; discriminate.
  - intros H. cbn in H. repeat (destruct H as [H|H]; [inversion H; subst; reflexivity|]). contradiction.
Qed.
Lemma epol_err pol x : epol_of pol = Err x -> x = ValueError.
Proof. unfold epol_of. destruct (String.index 0 pol "xyz") as [[|[|[|]]]|]; congruence. Qed.

Lemma one_flat f : (length (filter f [AX; AY; AZ]) =? 1)%nat = true <-> exists a : axis, forall b, f b = true <-> b = a.
Proof.
  cbn [filter]. split.
  - destruct (f AX) eqn:X, (f AY) eqn:Y, (f AZ) eqn:Z; cbn; try discriminate; intros _;
      [exists AX|exists AY|exists AZ]; intros [| |]; rewrite ?X, ?Y, ?Z; split; congruence.
  - intros [a H].
    assert (X : f AX = true <-> AX = a) by apply H. assert (Y : f AY = true <-> AY = a) by apply H. assert (Z : f AZ = true <-> AZ = a) by apply H.
    clear H. destruct a, (f AX), (f AY), (f AZ); cbn; try reflexivity; exfalso;
      intuition discriminate.
Qed.

Lemma plane_place_spec N pol x y z lo hi e h : plane_place N pol x y z = Ok (lo, hi, e, h) <->
  placed_plane N pol x y z lo hi e h.
Proof.
  unfold plane_place, placed_plane. split.
  - intros H. apply bind_ok in H as ([x0 x1] & HX & H). apply bind_ok in H as ([y0 y1] & HY & H). apply bind_ok in H as ([z0 z1] & HZ & H).
    apply plane_slice_spec in HX, HY, HZ. cbn [fst snd] in H.
    apply bind_ok in H as (u & H1 & H). destruct u. unfold ensure in H1.
    set (flat := fun a => (plane_extent (x0, y0, z0) (x1, y1, z1) a =? 1)%Z) in *.
    destruct (length (filter flat [AX; AY; AZ]) =? 1)%nat eqn:F; [|discriminate]. clear H1.
    apply bind_ok in H as (e' & HE & H). apply epol_spec in HE.
    apply bind_ok in H as (u & H1 & H). destruct u. unfold ensure in H1.
    destruct (existsb _ _) eqn:P; cbn [negb] in H1; [discriminate|]. clear H1. inversion H; subst; clear H.
    apply one_flat in F as [a Fa].
    exists a. split; [exact HX|]. split; [exact HY|]. split; [exact HZ|].
    assert (FL : (forall b, zcoord b (x1, y1, z1) - zcoord b (x0, y0, z0) = 1 <-> b = a)%Z).
    { intros b. rewrite <- (Fa b). unfold flat, plane_extent. symmetry. apply Z.eqb_eq. }
    split; [exact FL|]. split; [exact HE|]. split.
    + intros K. assert (E : existsb (fun a => flat a && (pol =? axis_letter a)%string) [AX; AY; AZ] = true); [|unfold flat in E; rewrite E in P; discriminate].
      apply existsb_exists. exists a. split; [destruct a; cbn; tauto|]. rewrite (proj2 (Fa a) eq_refl), K. cbn. apply String.eqb_refl.
    + assert (FF : forall b, flat b = axis_eqb b a).
      { intros b. destruct (flat b) eqn:Q; [apply Fa in Q; subst; destruct a; reflexivity|].
        destruct (axis_eqb b a) eqn:Q2; [|reflexivity]. apply axis_eqb_true, Fa in Q2. congruence. }
      unfold hpol_of. rewrite !FF. destruct e, a; reflexivity.
  - intros (a & HX & HY & HZ & FL & HE & NP & HH).
    destruct lo as [[x0 y0] z0], hi as [[x1 y1] z1].
    apply plane_slice_spec in HX, HY, HZ. cbn [zcoord] in HX, HY, HZ. rewrite HX, HY, HZ. cbn [bind fst snd].
    set (flat := fun a => (plane_extent (x0, y0, z0) (x1, y1, z1) a =? 1)%Z).
    assert (Fa : forall b, flat b = true <-> b = a).
    { intros b. rewrite <- (FL b). unfold flat, plane_extent. apply Z.eqb_eq. }
    assert (F : (length (filter flat [AX; AY; AZ]) =? 1)%nat = true) by (apply one_flat; eauto).
    rewrite F. cbn [ensure bind]. apply epol_spec in HE. rewrite HE. cbn [bind].
    match goal with |- context [existsb ?f ?l] => replace (existsb f l) with false end.
    2:{ symmetry. destruct (existsb _ _) eqn:P; [|reflexivity]. apply existsb_exists in P as (b & _ & P). apply andb_prop in P as [P1 P2].
        apply Fa in P1. subst b. apply String.eqb_eq in P2. contradiction. }
    cbn [negb ensure bind]. apply f_equal. f_equal.
    assert (FF : forall b, (plane_extent (x0, y0, z0) (x1, y1, z1) b =? 1)%Z = axis_eqb b a).
    { intros b. change ((plane_extent (x0, y0, z0) (x1, y1, z1) b =? 1)%Z) with (flat b). destruct (flat b) eqn:Q; [apply Fa in Q; subst; destruct a; reflexivity|].
      destruct (axis_eqb b a) eqn:Q2; [|reflexivity]. apply axis_eqb_true, Fa in Q2. congruence. }
    rewrite HH. unfold hpol_of, flat. rewrite !FF. destruct e, a; reflexivity.
Qed.

(** What an accepted plane source adds to the grid. *)
Lemma register_plane_inv key nm s g g' : setitem key (CPlane nm s) g = (g', None) <->
  exists x y z g1 lo hi e h, pad_key key = Ok (x, y, z) /\ claim_name nm g = Ok g1
  /\ placed_plane (g_N g) (pl_polarization s) (handle_key (g_spacing g) x) (handle_key (g_spacing g) y) (handle_key (g_spacing g) z) lo hi e h
  /\ g' = add_source_ (PlaneSource lo hi e h (pl_amplitude s) (handle_time (g_time_step g) (pl_period s)) (pl_phase s)) g1.
Proof.
  unfold setitem. split.
  - intros H. destruct (pad_key key) as [[[x y] z]|]; [|discriminate]. cbn [register] in H. unfold register_plane in H.
    destruct (claim_name nm g) as [g1|]; [|discriminate].
    destruct (plane_place _ _ _ _ _) as [[[[lo hi] e] h]|] eqn:P; [|discriminate]. inversion H; subst; clear H.
    exists x, y, z, g1, lo, hi, e, h. repeat split; auto. apply plane_place_spec, P.
  - intros (x & y & z & g1 & lo & hi & e & h & -> & E & P & ->). cbn [register]. unfold register_plane. rewrite E.
    apply plane_place_spec in P. rewrite P. reflexivity.
Qed.
Lemma plane_refused key nm s g g' e : (1 <= length key <= 3)%nat -> setitem key (CPlane nm s) g = (g', Some e) -> e = ValueError.
Proof.
  intros Hk H. unfold setitem in H.
  assert (exists x y z, pad_key key = Ok (x, y, z)) as (x0 & y0 & z0 & Hp)
    by (destruct key as [|x [|y [|z [|]]]]; cbn in Hk; try lia; cbn; eauto).
  rewrite Hp in H. cbn [register] in H. unfold register_plane in H.
  destruct (claim_name nm g) as [g1|e1] eqn:E.
  - destruct (plane_place _ _ _ _ _) as [[[[? ?] ?] ?]|] eqn:P; inversion H; subst; clear H.
    revert P. unfold plane_place.
    destruct (plane_slice (g_N g AX) _) eqn:X; cbn [bind]; [|intros Q; inversion Q; subst; apply (plane_slice_err _ _ _ X)].
    destruct (plane_slice (g_N g AY) _) eqn:Y; cbn [bind]; [|intros Q; inversion Q; subst; apply (plane_slice_err _ _ _ Y)].
    destruct (plane_slice (g_N g AZ) _) eqn:Z; cbn [bind]; [|intros Q; inversion Q; subst; apply (plane_slice_err _ _ _ Z)].
    unfold ensure. destruct (_ =? 1)%nat; cbn [bind]; [|congruence].
    destruct (epol_of _) eqn:EP; cbn [bind]; [|intros Q; inversion Q; subst; apply (epol_err _ _ EP)].
    destruct (negb _); cbn [bind]; congruence.
  - inversion H; subst. destruct nm as [n|]; cbn in E; [|discriminate]. destruct (has_attr g n); congruence.
Qed.
Lemma plane_accepted x y z nm s g : (forall n, nm = Some n -> ~ In n (g_attrs g)) ->
  ((exists g', setitem [x; y; z] (CPlane nm s) g = (g', None)) <->
   exists lo hi e h, placed_plane (g_N g) (pl_polarization s) (handle_key (g_spacing g) x) (handle_key (g_spacing g) y) (handle_key (g_spacing g) z) lo hi e h).
Proof.
  intros HN. split.
  - intros [g' H]. apply register_plane_inv in H as (x' & y' & z' & g1 & lo & hi & e & h & Hk & _ & P & _).
    cbn in Hk. inversion Hk; subst. eauto 10.
  - intros (lo & hi & e & h & P). destruct (claim_free nm g HN) as (g1 & E & _). eexists.
    apply register_plane_inv. exists x, y, z, g1, lo, hi, e, h. repeat split; auto.
Qed.

(** * Emission *)

Lemma fold_res_app {A B} (f : B -> A -> res A) l1 l2 a : fold_res f (l1 ++ l2) a = bind (fold_res f l1 a) (fold_res f l2).
Proof. revert a. induction l1 as [|x l1 IH]; intros a; cbn; [destruct (fold_res f l2 a); reflexivity|]. destruct (f x a); cbn; [apply IH|reflexivity]. Qed.

Definition last_source (s : source) (g : grid) : Prop := exists l, g_sources g = l ++ [s].
Lemma step_frame g g' : step g = Ok g' -> g_N g' = g_N g /\ g_steps g' = S (g_steps g) /\ g_sources g' = g_sources g.
Proof.
  intros H. unfold step in H. apply bind_ok in H as (g1 & H1 & H). apply bind_ok in H as (g2 & H2 & H).
  unfold update_E in H1. apply bind_ok in H1 as (bs & _ & H1). apply bind_ok in H1 as (E3 & _ & H1). apply bind_ok in H1 as (ds & _ & H1).
  unfold update_H in H2. apply bind_ok in H2 as (bs2 & _ & H2). apply bind_ok in H2 as (H3 & _ & H2). apply bind_ok in H2 as (ds2 & _ & H2).
  inversion H1; subst; clear H1. inversion H2; subst; clear H2. inversion H; subst; clear H. repeat split.
Qed.
Lemma run_frame n : forall g g', run_steps n g = Ok g' -> g_N g' = g_N g /\ g_steps g' = (g_steps g + n)%nat /\ g_sources g' = g_sources g.
Proof.
  induction n as [|n IH]; intros g g' H; cbn [run_steps] in H.
  - inversion H; subst. repeat split. lia.
  - apply bind_ok in H as (g1 & H1 & H). apply step_frame in H1 as (A & B & C). apply IH in H as (A' & B' & C').
    rewrite A', B', C', A, B, C. repeat split. lia.
Qed.
Lemma run_last n : forall g g', run_steps (S n) g = Ok g' -> exists h, run_steps n g = Ok h /\ step h = Ok g'.
Proof.
  induction n as [|n IH]; intros g g' H.
  - cbn in H. apply bind_ok in H as (g1 & H1 & H). inversion H; subst. exists g. auto.
  - change (bind (step g) (run_steps (S n)) = Ok g') in H. apply bind_ok in H as (g1 & H1 & H).
    apply IH in H as (h & A & B). exists h. split; [|exact B]. cbn [run_steps]. rewrite H1. exact A.
Qed.

Lemma step_plane lo hi e h amp per ph g g' : last_source (PlaneSource lo hi e h amp per ph) g -> step g = Ok g' ->
  forall p, in_cells (clip3 (g_N g) lo) (clip3 (g_N g) hi) p ->
    g_E g' p e = amp * sin (2 * PI * INR (g_steps g) / IZR per + ph)
    /\ g_H g' p h = amp * sin (2 * PI * INR (g_steps g) / IZR per + ph).
Proof.
  intros [l L] H p Hp. unfold step in H. apply bind_ok in H as (g1 & H1 & H). apply bind_ok in H as (g2 & H2 & H).
  inversion H; subst; clear H. cbn [with_fields g_E g_H].
  unfold update_E in H1. apply bind_ok in H1 as (bs & _ & H1). apply bind_ok in H1 as (E3 & HE & H1). apply bind_ok in H1 as (ds & _ & H1).
  inversion H1; subst; clear H1.
  unfold update_H in H2. apply bind_ok in H2 as (bs2 & _ & H2). apply bind_ok in H2 as (H3 & HH & H2). apply bind_ok in H2 as (ds2 & _ & H2).
  inversion H2; subst; clear H2. cbn [with_fields g_E g_H g_N g_steps g_sources] in *.
  assert (BX : in_box (clip3 (g_N g) lo) (clip3 (g_N g) hi) p = true) by (apply in_box_spec; exact Hp).
  assert (AR : forall a, axis_eqb a a = true) by (intros [| |]; reflexivity).
  rewrite L, fold_res_app in HE, HH.
  apply bind_ok in HE as (F1 & _ & HE). apply bind_ok in HH as (F2 & _ & HH).
  cbn [fold_res source_update_E source_update_H bind] in HE, HH.
  destruct (per =? 0)%Z; [discriminate|]. destruct (negb _); [discriminate|]. cbn [bind] in HE, HH.
  inversion HE; inversion HH; subst. rewrite BX, !AR. cbn [andb]. split; reflexivity.
Qed.

(** After every step of any run the fields on the plane are the signal. *)
Lemma plane_emits key nm s g g' n g'' : setitem key (CPlane nm s) g = (g', None) -> run_steps (S n) g' = Ok g'' ->
  exists x y z lo hi e h, pad_key key = Ok (x, y, z)
  /\ placed_plane (g_N g) (pl_polarization s) (handle_key (g_spacing g) x) (handle_key (g_spacing g) y) (handle_key (g_spacing g) z) lo hi e h
  /\ forall p, in_cells (clip3 (g_N g) lo) (clip3 (g_N g) hi) p ->
     let v := pl_amplitude s * sin (2 * PI * INR (g_steps g + n) / IZR (handle_time (g_time_step g) (pl_period s)) + pl_phase s) in
     g_E g'' p e = v /\ g_H g'' p h = v.
Proof.
  intros H HR. apply register_plane_inv in H as (x & y & z & g1 & lo & hi & e & h & Hk & E & P & ->).
  exists x, y, z, lo, hi, e, h. split; [exact Hk|]. split; [exact P|].
  apply claim_name_inv in E as [E _]. destruct E as (E1 & E2 & E3 & E4 & E5 & E6 & E7 & E8 & E9 & E10 & E11 & E12 & E13).
  apply run_last in HR as (k & HR & HS). apply run_frame in HR as (F1 & F2 & F3).
  cbn [add_source_ g_N g_steps g_sources] in F1, F2, F3.
  intros p Hp. rewrite E1, <- F1 in Hp.
  destruct (step_plane lo hi e h (pl_amplitude s) (handle_time (g_time_step g) (pl_period s)) (pl_phase s) k g''
    (ex_intro _ _ F3) HS p Hp) as [A B]. cbv zeta. rewrite F2, <- E10 in A, B. split; assumption.
Qed.

(** * Placements without effect *)

Lemma step_silent s g : (forall q F, source_update_E (g_N g) q s F = Ok F) -> (forall q F, source_update_H (g_N g) q s F = Ok F) ->
  step (add_source_ s g) = bind (step g) (fun g' => Ok (add_source_ s g')).
Proof.
  intros SE SH. unfold step, update_E, update_H. cbn [add_source_ g_N g_H g_boundaries g_courant g_ie g_steps g_sources g_detectors].
  change (bulk_E (add_source_ s g)) with (bulk_E g).
  destruct (map_res (boundary_phi_E (g_N g) (g_H g)) (g_boundaries g)) as [bs|]; cbn [bind]; [|reflexivity].
  rewrite fold_res_app.
  destruct (fold_res _ (g_sources g) _) as [E3|]; cbn [bind]; [|reflexivity]. cbn [fold_res]. rewrite SE. cbn [bind].
  destruct (map_res (detect_E (g_N g) E3) (g_detectors g)) as [ds|]; cbn [bind]; [|reflexivity].
  cbn [with_fields add_source_ g_N g_E g_H g_boundaries g_courant g_im g_steps g_sources g_detectors g_spacing].
  destruct (map_res (boundary_phi_H (g_N g) E3) bs); cbn [bind]; [|reflexivity].
  rewrite fold_res_app.
  match goal with |- context [fold_res ?f ?l (fold_left ?h ?b (bulk_H ?gg))] =>
    match goal with |- context [fold_res f l (fold_left h b (bulk_H ?gg'))] =>
      change (bulk_H gg) with (bulk_H gg') end end.
  destruct (fold_res _ (g_sources g) _) as [H3|]; cbn [bind]; [|reflexivity]. cbn [fold_res]. rewrite SH. cbn [bind].
  destruct (map_res (detect_H (g_N g) (g_spacing g) H3) ds); cbn [bind]; reflexivity.
Qed.
Lemma run_silent s n : forall g, (forall q F, source_update_E (g_N g) q s F = Ok F) -> (forall q F, source_update_H (g_N g) q s F = Ok F) ->
  run_steps n (add_source_ s g) = bind (run_steps n g) (fun g' => Ok (add_source_ s g')).
Proof.
  induction n as [|n IH]; intros g SE SH; cbn [run_steps]; [reflexivity|].
  rewrite step_silent by assumption. destruct (step g) as [g1|] eqn:E; cbn [bind]; [|reflexivity].
  apply IH; rewrite (proj1 (step_frame _ _ E)); assumption.
Qed.

(** Where a source over a whole plane ends up. *)
Lemma plane_at_bounds a v nm s g g' : setitem (plane_at a v) (CPlane nm s) g = (g', None) ->
  exists g1 lo hi e h, same_physics g g1
  /\ placed_plane (g_N g) (pl_polarization s) (handle_key (g_spacing g) (nth 0 (plane_at a v) full_slice))
       (handle_key (g_spacing g) (nth 1 (plane_at a v) full_slice)) (handle_key (g_spacing g) (nth 2 (plane_at a v) full_slice)) lo hi e h
  /\ g' = add_source_ (PlaneSource lo hi e h (pl_amplitude s) (handle_time (g_time_step g) (pl_period s)) (pl_phase s)) g1
  /\ zcoord a lo = v /\ zcoord a hi = (v + 1)%Z
  /\ (forall c, c <> a -> zcoord c lo = 0%Z /\ zcoord c hi = Z.of_nat (g_N g c) /\ (2 <= g_N g c)%nat).
Proof.
  intros H. apply register_plane_inv in H as (x & y & z & g1 & lo & hi & e & h & Hk & E & P & ->).
  exists g1, lo, hi, e, h. apply claim_name_inv in E as [E _]. split; [exact E|].
  destruct a; cbn in Hk; inversion Hk; subst x y z; clear Hk; (split; [exact P|]); (split; [reflexivity|]);
    destruct P as (a & BX & BY & BZ & FL & _);
    cbn [handle_key handle_distance option_map full_slice plane_bounds] in BX, BY, BZ.
  - destruct BX as [BX BX']. inversion BX as [BX0]. rewrite BX0, BX' in *. split; [reflexivity|]. split; [reflexivity|].
    assert (a = AX) by (symmetry; apply FL; rewrite BX', <- BX0; lia). subst a.
    intros c Hc. assert (ND := fun Q => Hc (proj1 (FL c) Q)).
    destruct c; [contradiction| |]; [destruct BY as [B|[B|B]]|destruct BZ as [B|[B|B]]]; destruct B as (B1 & B2 & B3); rewrite B2, B3 in *; lia.
  - rename BX into BX0'. destruct BY as [BX BX']. inversion BX as [BX0]. rewrite BX0, BX' in *. split; [reflexivity|]. split; [reflexivity|].
    assert (a = AY) by (symmetry; apply FL; rewrite BX', <- BX0; lia). subst a.
    intros c Hc. assert (ND := fun Q => Hc (proj1 (FL c) Q)).
    destruct c; [|contradiction|]; [destruct BX0' as [B|[B|B]]|destruct BZ as [B|[B|B]]]; destruct B as (B1 & B2 & B3); rewrite B2, B3 in *; lia.
  - destruct BZ as [BX1 BX']. inversion BX1 as [BX0]. rewrite BX0, BX' in *. split; [reflexivity|]. split; [reflexivity|].
    assert (a = AZ) by (symmetry; apply FL; rewrite BX', <- BX0; lia). subst a.
    intros c Hc. assert (ND := fun Q => Hc (proj1 (FL c) Q)).
    destruct c; [| |contradiction]; [destruct BX as [B|[B|B]]|destruct BY as [B|[B|B]]]; destruct B as (B1 & B2 & B3); rewrite B2, B3 in *; lia.
Qed.
Lemma clip_full n : clip n 0 = 0%nat /\ clip n (Z.of_nat n) = n.
Proof. unfold clip. cbn [Z.ltb Z.compare]. split; [lia|]. destruct (Z.ltb_spec (Z.of_nat n) 0); lia. Qed.
Lemma plane_at_fits N a v lo hi : zcoord a lo = v -> zcoord a hi = (v + 1)%Z ->
  (forall c, c <> a -> zcoord c lo = 0%Z /\ zcoord c hi = Z.of_nat (N c) /\ (2 <= N c)%nat) ->
  box_fits N (plane_extent lo hi) lo hi = true.
Proof.
  intros L H F. unfold box_fits. apply forallb_axes_intro. intros c. apply orb_true_iff. rewrite !Z.eqb_eq. unfold plane_extent.
  destruct (axis_eqb c a) eqn:Q.
  - apply axis_eqb_true in Q. subst c. left. lia.
  - right. destruct (F c) as (F1 & F2 & _); [intros ->; destruct a; discriminate|]. rewrite F1, F2.
    destruct (clip_full (N c)) as [-> ->]. lia.
Qed.

(** A plane whose flat index is -1 or outside the grid is accepted and never
    does anything. *)
Lemma plane_silent a v nm s g g' n : setitem (plane_at a v) (CPlane nm s) g = (g', None) ->
  handle_time (g_time_step g) (pl_period s) <> 0%Z -> v = (-1)%Z \/ ~ index_ok (g_N g a) v ->
  match run_steps n g, run_steps n g' with
  | Ok k, Ok k' => g_E k' = g_E k /\ g_H k' = g_H k /\ g_detectors k' = g_detectors k /\ g_steps k' = g_steps k
  | Err e1, Err e2 => e1 = e2
  | _, _ => False
  end.
Proof.
  intros H HP HV. apply plane_at_bounds in H as (g1 & lo & hi & e & h & E & _ & -> & L & HH & F).
  assert (N1 : g_N g1 = g_N g) by (symmetry; apply E).
  assert (EMPTY : forall p, in_box (clip3 (g_N g) lo) (clip3 (g_N g) hi) p = false).
  { intros p. destruct (in_box _ _ p) eqn:B; [|reflexivity]. apply in_box_spec in B. specialize (B a).
    rewrite !coord_clip3, HH, L in B. unfold clip, index_ok in *.
    destruct (Z.ltb_spec (v + 1) 0), (Z.ltb_spec v 0); lia. }
  pose proof (plane_at_fits _ _ _ _ _ L HH F) as OK.
  rewrite run_silent.
  - pose proof (same_physics_run _ _ n E) as SP.
    destruct (run_steps n g), (run_steps n g1); cbn [bind]; try exact SP.
    cbn [add_source_ g_E g_H g_detectors g_steps]. unfold same_physics in SP. intuition congruence.
  - intros q X. rewrite N1. cbn [source_update_E]. destruct (Z.eqb_spec (handle_time (g_time_step g) (pl_period s)) 0); [contradiction|].
    rewrite OK. cbn [negb]. apply f_equal. apply functional_extensionality. intros p. apply functional_extensionality. intros c.
    rewrite EMPTY. reflexivity.
  - intros q X. rewrite N1. cbn [source_update_H]. destruct (Z.eqb_spec (handle_time (g_time_step g) (pl_period s)) 0); [contradiction|].
    rewrite OK. cbn [negb]. apply f_equal. apply functional_extensionality. intros p. apply functional_extensionality. intros c.
    rewrite EMPTY. reflexivity.
Qed.

(** The usual placement: the plane at any other index of the grid. *)
Lemma plane_at_acts a v nm s g g' n : setitem (plane_at a v) (CPlane nm s) g = (g', None) ->
  handle_time (g_time_step g) (pl_period s) <> 0%Z -> index_ok (g_N g a) v -> v <> (-1)%Z ->
  (exists k, run_steps (S n) g = Ok k) ->
  exists k e h, run_steps (S n) g' = Ok k /\ In (pl_polarization s, e) polarizations /\ h = third_axis e a
  /\ forall p, in_grid (g_N g) p -> coord a p = Z.to_nat (if (v <? 0)%Z then v + Z.of_nat (g_N g a) else v) ->
     g_E k p e = plane_signal g s (g_steps g + n) /\ g_H k p h = plane_signal g s (g_steps g + n).
Proof.
  intros H HP HV HM HR. pose proof H as H0.
  apply plane_at_bounds in H as (g1 & lo & hi & e & h & E & P & -> & L & HH & F).
  assert (HR' : exists k, run_steps (S n) g1 = Ok k).
  { destruct HR as [k HR]. pose proof (same_physics_run _ _ (S n) E) as SP. rewrite HR in SP. destruct (run_steps (S n) g1); [eauto|contradiction]. }
  assert (RR : exists k, run_steps (S n) (add_source_ (PlaneSource lo hi e h (pl_amplitude s) (handle_time (g_time_step g) (pl_period s)) (pl_phase s)) g1) = Ok k).
  { apply run_raises_iff. right. apply run_raises_iff in HR' as [C|(A & B & C)]; [discriminate|].
    split; [exact A|]. split; [exact B|]. intros i Hi. cbn [add_source_ g_sources g_N g_steps]. apply Forall_app. split; [apply C, Hi|].
    constructor; [|constructor]. cbn [source_ready]. split; [exact HP|]. intros c. rewrite <- (proj1 E).
    pose proof (plane_at_fits (g_N g) _ _ _ _ L HH F) as OK. unfold box_fits in OK.
    apply forallb_axes with (a := c) in OK. apply orb_prop in OK. rewrite !Z.eqb_eq in OK. exact OK. }
  destruct RR as [k RR]. exists k, e, h. split; [exact RR|].
  destruct P as (b & PX & PY & PZ & FL & PE & NP & PH).
  assert (b = a) by (symmetry; apply FL; lia). subst b.
  split; [exact PE|]. split; [exact PH|]. intros p Hp Hc.
  destruct E as (E1 & E2 & E3 & E4 & E5 & E6 & E7 & E8 & E9 & E10 & E11 & E12 & E13).
  apply run_last in RR as (m & RR & HS). apply run_frame in RR as (F1 & F2 & F3).
  cbn [add_source_ g_N g_steps g_sources] in F1, F2, F3. unfold plane_signal. rewrite E10, <- F2.
  apply (step_plane lo hi e h (pl_amplitude s) (handle_time (g_time_step g) (pl_period s)) (pl_phase s) m k (ex_intro _ _ F3) HS).
  rewrite F1, <- E1. intros c. rewrite !coord_clip3. destruct (axis_eqb c a) eqn:Q.
  - apply axis_eqb_true in Q. subst c. rewrite L, HH, Hc. unfold clip, index_ok in *.
    destruct (Z.ltb_spec (v + 1) 0), (Z.ltb_spec v 0); lia.
  - destruct (F c) as (A1 & A2 & _); [intros ->; destruct a; discriminate|]. rewrite A1, A2.
    destruct (clip_full (g_N g c)) as [-> ->]. specialize (Hp c). lia.
Qed.

(** Counting a wide side from the end makes every step raise. *)
Lemma plane_negative_raises key nm s g g' n : setitem key (CPlane nm s) g = (g', None) ->
  (exists x y z a b c k, pad_key key = Ok (x, y, z) /\ In (a, k) [(AX, x); (AY, y); (AZ, z)]
     /\ handle_key (g_spacing g) k = HSlice (Some b) c None /\ (b < 0)%Z /\ (c = None \/ exists d, c = Some d /\ (b + 1 < d /\ 0 <= d)%Z)
     /\ (1 <= g_N g a)%nat) ->
  (0 < n)%nat -> forall g'', run_steps n g' <> Ok g''.
Proof.
  intros H (x & y & z & a & b & c & k & Hk & Hin & HH & Hb & Hc & HN) Hn g'' HR.
  apply register_plane_inv in H as (x' & y' & z' & g1 & lo & hi & e & h & Hk' & E & P & ->).
  rewrite Hk in Hk'. inversion Hk'; subst x' y' z'; clear Hk'.
  apply claim_name_inv in E as [E _].
  assert (X : exists g'', run_steps n (add_source_ (PlaneSource lo hi e h (pl_amplitude s) (handle_time (g_time_step g) (pl_period s)) (pl_phase s)) g1) = Ok g'') by eauto.
  apply run_raises_iff in X as [X|(_ & _ & X)]; [lia|]. specialize (X 0%nat Hn). rewrite Forall_forall in X.
  specialize (X (PlaneSource lo hi e h (pl_amplitude s) (handle_time (g_time_step g) (pl_period s)) (pl_phase s))).
  specialize (X ltac:(cbn [add_source_ g_sources]; apply in_or_app; right; left; reflexivity)). cbn [source_ready] in X. destruct X as [_ X].
  specialize (X a). cbn [add_source_ g_N] in X. rewrite <- (proj1 E) in X.
  destruct P as (f & BX & BY & BZ & _).
  assert (B : plane_bounds (g_N g a) (handle_key (g_spacing g) k) (zcoord a lo) (zcoord a hi)).
  { cbn in Hin. destruct Hin as [Q|[Q|[Q|[]]]]; inversion Q; subst; assumption. }
  rewrite HH in B. cbn [plane_bounds] in B.
  assert (D : (zcoord a lo = b /\ 0 <= zcoord a hi /\ b + 1 < zcoord a hi)%Z).
  { destruct Hc as [->|(d & -> & Hd)]; destruct B as [(B1 & B2 & B3)|[(B1 & B2 & B3)|(B1 & B2 & B3)]]; rewrite ?B2, ?B3; lia. }
  destruct D as (D1 & D2 & D3). rewrite D1 in X. unfold clip in X.
  destruct (Z.ltb_spec b 0); [|lia]. destruct (Z.ltb_spec (zcoord a hi) 0); lia.
Qed.

(** A polarization of more than one letter (or none) gets past the check. *)
Lemma plane_normal_polarization : exists key s g g', setitem key (CPlane None s) g = (g', None)
  /\ (exists lo hi h amp per ph, g_sources g' = g_sources g ++ [PlaneSource lo hi AX h amp per ph] /\ (zcoord AX hi - zcoord AX lo = 1)%Z)
  /\ pl_polarization s = "xy"%string.
Proof.
  pose (G := mkGrid (shape_of 8 3 2) 1 1 1 zero_field zero_field zero_field (fun _ _ => 1) (fun _ _ => 1) 0 [] [] [] 0 builtin_attrs).
  exists [KNum (PInt 4); full_slice; full_slice], (mkPlane (PInt 10) 1 0 "xy"%string), G. eexists. split; [reflexivity|].
  split; [|reflexivity]. do 6 eexists. split; [reflexivity|]. reflexivity.
Qed.

(** Single letters: both polarizations lie in the plane and are perpendicular. *)
Lemma plane_polarizations N e0 x y z lo hi e h : placed_plane N (axis_letter e0) x y z lo hi e h ->
  e = e0 /\ e <> h /\ (zcoord e hi - zcoord e lo <> 1)%Z /\ (zcoord h hi - zcoord h lo <> 1)%Z.
Proof.
  intros (a & _ & _ & _ & FL & HE & NP & HH).
  assert (e = e0).
  { destruct e0; cbn in HE; repeat (destruct HE as [HE|HE]; [inversion HE; reflexivity|]); contradiction. }
  subst e0. assert (e <> a) by (intros ->; apply NP; reflexivity).
  split; [reflexivity|]. rewrite !FL. subst h. destruct e, a; cbn; repeat split; congruence.
Qed.
