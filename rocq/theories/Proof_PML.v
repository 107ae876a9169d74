(** Proofs about PML parameters, their memory and the standard border. *)
From Coq Require Import Reals ZArith String List Bool Lra Lia Psatz.
From Verif Require Import Base BaseLemmas Model_Units Proof_Units Model_FDTD Model_Register Spec_FDTD Spec_Register Proof_Torus Proof_FDTD Proof_Energy Proof_Propagate Proof_Steps Proof_Linear Proof_Reset Proof_Cavity Proof_Register Proof_Register2 Proof_Material.
Import ListNotations.
Open Scope R_scope.

Lemma sigma_increasing t u v : 0 <= u < v -> pml_sigma t u < pml_sigma t v.
Proof.
  intros H. unfold pml_sigma. unfold Rdiv. pose proof (pos_INR t).
  apply Rmult_lt_compat_r; [apply Rinv_0_lt_compat, pow_lt; lra|].
  apply Rmult_lt_compat_l; [lra|]. cbn [pow]. rewrite !Rmult_1_r.
  assert (u * u < v * v) by nra. nra.
Qed.
Lemma sigma_zero t : pml_sigma t 0 = 0.
Proof. unfold pml_sigma. cbn [pow]. unfold Rdiv. ring. Qed.
Lemma sigma_pos t v : 0 < v -> 0 < pml_sigma t v.
Proof. intros H. rewrite <- (sigma_zero t). apply sigma_increasing. lra. Qed.

Lemma sigmaE_pos hi t i : (i < t)%nat -> 0 < sigmaE_at hi t i.
Proof.
  intros H. unfold sigmaE_at. apply sigma_pos. pose proof (pos_INR i). apply (le_INR (S i)) in H. rewrite S_INR in H.
  destruct hi; lra.
Qed.
Lemma sigmaH_nonneg hi t i : 0 <= sigmaH_at hi t i.
Proof.
  unfold sigmaH_at. destruct (Nat.ltb_spec (S i) t) as [H|H]; [|lra]. left. apply sigma_pos.
  pose proof (pos_INR i). apply (le_INR (S (S i))) in H. rewrite !S_INR in H. destruct hi; lra.
Qed.
Lemma sigmaH_zero hi t i : sigmaH_at hi t i = 0 <-> (t <= S i)%nat.
Proof.
  unfold sigmaH_at. destruct (Nat.ltb_spec (S i) t) as [H|H].
  - split; [|lia]. intros K. exfalso.
    assert (0 < pml_sigma t (if hi then 1 + INR i else INR t - 1 - INR i)); [|lra].
    apply sigma_pos. pose proof (pos_INR i). apply (le_INR (S (S i))) in H. rewrite !S_INR in H. destruct hi; lra.
  - split; [intros _; exact H|reflexivity].
Qed.

Lemma exp_lt_1 x : x < 0 -> exp x < 1.
Proof. intros H. rewrite <- exp_0. apply exp_increasing, H. Qed.
Lemma b_range a co s : 0 < a -> 0 < co -> 0 <= s -> 0 < pml_b a co s < 1.
Proof.
  intros Ha Hc Hs. unfold pml_b. split; [apply exp_pos|]. apply exp_lt_1. unfold Rdiv. rewrite Rinv_1, Rmult_1_r. nra.
Qed.
Lemma b_decreasing a co s s' : 0 < co -> s < s' -> pml_b a co s' < pml_b a co s.
Proof.
  intros Hc Hs. unfold pml_b. apply exp_increasing. unfold Rdiv. rewrite Rinv_1, !Rmult_1_r. nra.
Qed.
Lemma c_range a co s : 0 < a -> 0 < co -> 0 <= s -> -1 < pml_c a co s <= 0 /\ Rabs (pml_c a co s) <= 1 - pml_b a co s
  /\ (pml_c a co s = 0 <-> s = 0).
Proof.
  intros Ha Hc Hs. pose proof (b_range a co s Ha Hc Hs) as [B1 B2]. unfold pml_c. set (b := pml_b a co s) in *. clearbody b.
  replace (s * 1 + a * 1 ^ 2) with (s + a) by ring.
  assert (R : 0 <= s / (s + a) <= 1).
  { split; [apply Rmult_le_pos; [exact Hs|left; apply Rinv_0_lt_compat; lra]|].
    apply (Rmult_le_reg_r (s + a)); [lra|]. unfold Rdiv. rewrite Rmult_assoc, Rinv_l by lra. lra. }
  assert (E : (b - 1) * s / (s + a) = - ((1 - b) * (s / (s + a)))) by (field; lra). rewrite E.
  set (r := s / (s + a)) in *.
  split; [nra|]. split.
  - rewrite Rabs_Ropp, Rabs_right by nra. nra.
  - split; intros K.
    + assert (r = 0) by nra. unfold r, Rdiv in H. apply Rmult_integral in H as [H|H]; [exact H|].
      exfalso. apply (Rinv_neq_0_compat (s + a)); [lra|exact H].
    + unfold r. rewrite K. unfold Rdiv. ring.
Qed.

(** The factors of a placed PML. *)
Lemma pml_factors ax hi t a co : 0 < a -> 0 < co -> forall q c, (coord ax q < t)%nat ->
  let pm := make_pml ax hi t a co in
  (0 < p_bE pm q c < 1 /\ -1 < p_cE pm q c <= 0 /\ (p_cE pm q c = 0 <-> c <> ax))
  /\ (0 < p_bH pm q c < 1 /\ -1 < p_cH pm q c <= 0
      /\ (p_cH pm q c = 0 <-> (c <> ax \/ S (coord ax q) = t))).
Proof.
  intros Ha Hc q c Hq. cbn [make_pml p_bE p_cE p_bH p_cH]. cbv zeta. unfold sigma_field.
  destruct (axis_eqb c ax) eqn:E.
  - apply axis_eqb_true in E. subst c.
    pose proof (sigmaE_pos hi t _ Hq) as SE. pose proof (sigmaH_nonneg hi t (coord ax q)) as SH.
    destruct (c_range a co _ Ha Hc (Rlt_le _ _ SE)) as (C1 & _ & C3).
    destruct (c_range a co _ Ha Hc SH) as (D1 & _ & D3).
    split; (split; [apply b_range; lra|]); (split; [assumption|]).
    + rewrite C3. split; [lra|congruence].
    + rewrite D3, sigmaH_zero. split; [intros; right; lia|intros [?|?]; [congruence|lia]].
  - destruct (c_range a co 0 Ha Hc (Rle_refl 0)) as (C1 & _ & C3).
    assert (c <> ax) by (intros ->; destruct ax; discriminate).
    split; (split; [apply b_range; lra|]); (split; [assumption|]); rewrite C3; tauto.
Qed.

(** Outward decay: farther out, the electric factor is strictly smaller. *)
Lemma pml_outward_E ax (hi : bool) t a co : 0 < co -> forall q q', (coord ax q < t)%nat -> (coord ax q' < t)%nat ->
  (if hi then coord ax q' < coord ax q else coord ax q < coord ax q')%nat ->
  p_bE (make_pml ax hi t a co) q ax < p_bE (make_pml ax hi t a co) q' ax.
Proof.
  intros Hc q q' Hq Hq' Ho. cbn [make_pml p_bE]. unfold sigma_field.
  assert (axis_eqb ax ax = true) as -> by (destruct ax; reflexivity).
  apply b_decreasing; [exact Hc|]. unfold sigmaE_at. apply sigma_increasing.
  apply (le_INR (S (coord ax q))) in Hq. apply (le_INR (S (coord ax q'))) in Hq'. rewrite S_INR in Hq, Hq'.
  pose proof (pos_INR (coord ax q)). pose proof (pos_INR (coord ax q')).
  destruct hi; apply lt_INR in Ho; lra.
Qed.
(** The magnetic factor behaves so at the low side; at the high side the
    outermost layer has no conductivity at all. *)
Lemma pml_outward_H ax (hi : bool) t a co : 0 < co -> forall q q', (coord ax q < t)%nat -> (coord ax q' < t)%nat ->
  (if hi then coord ax q' < coord ax q /\ S (coord ax q) < t else coord ax q < coord ax q')%nat ->
  p_bH (make_pml ax hi t a co) q ax < p_bH (make_pml ax hi t a co) q' ax.
Proof.
  intros Hc q q' Hq Hq' Ho. cbn [make_pml p_bH]. unfold sigma_field.
  assert (axis_eqb ax ax = true) as -> by (destruct ax; reflexivity).
  apply b_decreasing; [exact Hc|]. unfold sigmaH_at.
  pose proof (pos_INR (coord ax q)). pose proof (pos_INR (coord ax q')).
  destruct hi.
  - destruct Ho as [Ho1 Ho2].
    destruct (Nat.ltb_spec (S (coord ax q)) t); [|lia]. destruct (Nat.ltb_spec (S (coord ax q')) t); [|lia].
    apply sigma_increasing. apply lt_INR in Ho1. lra.
  - destruct (Nat.ltb_spec (S (coord ax q)) t); [|lia]. apply (lt_INR (S (coord ax q))) in H1. rewrite S_INR in H1.
    apply (le_INR (S (coord ax q'))) in Hq'. rewrite S_INR in Hq'.
    destruct (Nat.ltb_spec (S (coord ax q')) t).
    + apply sigma_increasing. apply (lt_INR (coord ax q)) in Ho. lra.
    + apply sigma_pos. lra.
Qed.
Lemma pml_high_H_hole ax t a co : 0 < co -> forall q q', S (coord ax q) = t -> (S (coord ax q') < t)%nat ->
  p_bH (make_pml ax true t a co) q' ax < p_bH (make_pml ax true t a co) q ax.
Proof.
  intros Hc q q' Hq Hq'. cbn [make_pml p_bH]. unfold sigma_field.
  assert (axis_eqb ax ax = true) as -> by (destruct ax; reflexivity).
  apply b_decreasing; [exact Hc|]. unfold sigmaH_at.
  destruct (Nat.ltb_spec (S (coord ax q)) t); [lia|]. destruct (Nat.ltb_spec (S (coord ax q')) t); [|lia].
  apply sigma_pos. pose proof (pos_INR (coord ax q')). lra.
Qed.

(** * Bounded memory *)

Lemma make_pml_dissipative ax hi t a co : 0 < a -> 0 < co -> dissipative (make_pml ax hi t a co).
Proof.
  intros Ha Hc q c Hq. cbn [make_pml p_bE p_cE p_bH p_cH p_axis p_thick] in *. unfold sigma_field.
  destruct (axis_eqb c ax).
  - pose proof (sigmaE_pos hi t _ Hq) as SE. pose proof (sigmaH_nonneg hi t (coord ax q)) as SH.
    destruct (c_range a co _ Ha Hc (Rlt_le _ _ SE)) as (_ & C2 & _).
    destruct (c_range a co _ Ha Hc SH) as (_ & D2 & _).
    split; [apply b_range; lra|]. split; [exact C2|]. split; [apply b_range; lra|exact D2].
  - destruct (c_range a co 0 Ha Hc (Rle_refl 0)) as (_ & C2 & _).
    split; [apply b_range; lra|]. split; [exact C2|]. split; [apply b_range; lra|exact C2].
Qed.
Lemma make_pml_memory N ax hi t a co : memory_below N 0 (make_pml ax hi t a co).
Proof. intros x q c _. cbn. unfold zero_field. rewrite Rabs_R0. lra. Qed.

Lemma local_in_grid N pm q : (p_thick pm <= N (p_axis pm))%nat -> (forall a, coord a q < pml_shape N pm a)%nat ->
  in_grid N (pml_cell N pm q).
Proof.
  intros Ht Hq a. unfold pml_cell. rewrite coord_setc. specialize (Hq a). unfold pml_shape in Hq.
  destruct (axis_eqb a (p_axis pm)) eqn:E; [apply axis_eqb_true in E; subst a|exact Hq].
  unfold pml_offset. destruct (p_high pm); lia.
Qed.

Lemma convex_bound b c psi d M : 0 < b < 1 -> Rabs c <= 1 - b -> Rabs psi <= M -> Rabs d <= M -> Rabs (psi * b + d * c) <= M.
Proof.
  intros Hb Hc Hp Hd. eapply Rle_trans; [apply Rabs_triang|]. rewrite !Rabs_mult, (Rabs_right b) by lra.
  pose proof (Rabs_pos psi). pose proof (Rabs_pos d). pose proof (Rabs_pos c). nra.
Qed.
Lemma dbwd_below N (F : field) B b c pm q : (p_thick pm <= N (p_axis pm))%nat ->
  (forall a, coord a q < pml_shape N pm a)%nat -> 0 <= B ->
  (forall p c, in_grid N p -> Rabs (F p c) <= B) ->
  Rabs (dbwd (fun q c => F (pml_cell N pm q) c) b c q) <= 2 * B.
Proof.
  intros Ht Hq HB HF. unfold dbwd. destruct (1 <=? coord b q)%nat; [|rewrite Rabs_R0; lra].
  assert (H2 : forall a, (coord a (setc b (coord b q - 1) q) < pml_shape N pm a)%nat).
  { intros a. rewrite coord_setc. specialize (Hq a). destruct (axis_eqb a b) eqn:E; [apply axis_eqb_true in E; subst; lia|exact Hq]. }
  pose proof (HF _ c (local_in_grid N pm q Ht Hq)). pose proof (HF _ c (local_in_grid N pm _ Ht H2)).
  eapply Rle_trans; [apply Rabs_triang|]. rewrite Rabs_Ropp. lra.
Qed.
Lemma dfwd_below N (F : field) B b c pm q : (p_thick pm <= N (p_axis pm))%nat ->
  (forall a, coord a q < pml_shape N pm a)%nat -> 0 <= B ->
  (forall p c, in_grid N p -> Rabs (F p c) <= B) ->
  Rabs (dfwd (pml_shape N pm) (fun q c => F (pml_cell N pm q) c) b c q) <= 2 * B.
Proof.
  intros Ht Hq HB HF. unfold dfwd. destruct (Nat.ltb_spec (S (coord b q)) (pml_shape N pm b)) as [L|]; [|rewrite Rabs_R0; lra].
  assert (H2 : forall a, (coord a (setc b (S (coord b q)) q) < pml_shape N pm a)%nat).
  { intros a. rewrite coord_setc. specialize (Hq a). destruct (axis_eqb a b) eqn:E; [apply axis_eqb_true in E; subst; lia|exact Hq]. }
  pose proof (HF _ c (local_in_grid N pm q Ht Hq)). pose proof (HF _ c (local_in_grid N pm _ Ht H2)).
  eapply Rle_trans; [apply Rabs_triang|]. rewrite Rabs_Ropp. lra.
Qed.

Definition pml_good (N : shape3) (M : R) (b : boundary) : Prop :=
  match b with PMLb pm => dissipative pm /\ memory_below N M pm | _ => True end.

Lemma decay_bound b psi M : 0 < b < 1 -> Rabs psi <= M -> Rabs (psi * b + 0) <= M.
Proof. intros Hb Hp. rewrite Rplus_0_r, Rabs_mult, (Rabs_right b) by lra. pose proof (Rabs_pos psi). nra. Qed.

Lemma phi_E_good N (H : field) B b b' : 0 <= B -> (forall p c, in_grid N p -> Rabs (H p c) <= B) ->
  boundary_phi_E N H b = Ok b' -> pml_good N (2 * B) b -> pml_good N (2 * B) b'.
Proof.
  intros HB HH E G. destruct b as [a|pm| |]; cbn in E; try (inversion E; subst; exact I).
  destruct (Nat.leb_spec (p_thick pm) (N (p_axis pm))) as [Ht|]; [|discriminate]. inversion E; subst; clear E.
  destruct G as [D Mm]. split; [exact D|].
  intros x q c Hq. change (forall a, (coord a q < pml_shape N pm a)%nat) in Hq. destruct (Mm x q c Hq) as [M1 M2].
  split; [|exact M2]. cbn [pml_phi_E p_psiE].
  assert (Hqt : (coord (p_axis pm) q < p_thick pm)%nat).
  { specialize (Hq (p_axis pm)). unfold pml_shape in Hq. rewrite axis_eqb_refl in Hq. exact Hq. }
  destruct (D q c Hqt) as (D1 & D2 & _).
  destruct x, c; (apply decay_bound || apply convex_bound); try assumption; eapply dbwd_below; eassumption.
Qed.
Lemma phi_H_good N (F : field) B b b' : 0 <= B -> (forall p c, in_grid N p -> Rabs (F p c) <= B) ->
  boundary_phi_H N F b = Ok b' -> pml_good N (2 * B) b -> pml_good N (2 * B) b'.
Proof.
  intros HB HH E G. destruct b as [a|pm| |]; cbn in E; try (inversion E; subst; exact I).
  destruct (Nat.leb_spec (p_thick pm) (N (p_axis pm))) as [Ht|]; [|discriminate]. inversion E; subst; clear E.
  destruct G as [D Mm]. split; [exact D|].
  intros x q c Hq. change (forall a, (coord a q < pml_shape N pm a)%nat) in Hq. destruct (Mm x q c Hq) as [M1 M2].
  split; [exact M1|]. cbn [pml_phi_H p_psiH].
  assert (Hqt : (coord (p_axis pm) q < p_thick pm)%nat).
  { specialize (Hq (p_axis pm)). unfold pml_shape in Hq. rewrite axis_eqb_refl in Hq. exact Hq. }
  destruct (D q c Hqt) as (_ & _ & D1 & D2).
  destruct x, c; (apply decay_bound || apply convex_bound); try assumption; eapply dfwd_below; eassumption.
Qed.
Lemma map_res_good (f : boundary -> res boundary) (P : boundary -> Prop) l l' :
  (forall b b', f b = Ok b' -> P b -> P b') -> map_res f l = Ok l' -> Forall P l -> Forall P l'.
Proof.
  intros Hf. revert l'. induction l as [|b l IH]; intros l' E HP; cbn in E.
  - inversion E. constructor.
  - destruct (f b) as [b'|] eqn:Eb; cbn [bind] in E; [|discriminate].
    destruct (map_res f l) as [r|] eqn:Er; cbn [bind] in E; [|discriminate]. inversion E; subst.
    inversion HP; subst. constructor; [eapply Hf; eassumption|apply IH; auto].
Qed.

Lemma memory_step B g g' : 0 <= B -> fields_below B g -> fields_below B g' -> step g = Ok g' ->
  Forall (pml_good (g_N g) (2 * B)) (g_boundaries g) -> Forall (pml_good (g_N g') (2 * B)) (g_boundaries g').
Proof.
  intros HB F F' H G. pose proof (step_static _ _ H) as [St _]. static St. rewrite SN. unfold fields_below in F'. rewrite SN in F'.
  apply step_inv in H as (g1 & g2 & U1 & U2 & ->).
  unfold update_E in U1.
  destruct (map_res (boundary_phi_E (g_N g) (g_H g)) (g_boundaries g)) as [bs|] eqn:E1; cbn [bind] in U1; [|discriminate].
  destruct (fold_res (source_update_E (g_N g) (g_steps g)) (g_sources g) _) as [E3|]; cbn [bind] in U1; [|discriminate].
  destruct (map_res (detect_E (g_N g) E3) (g_detectors g)) as [ds|]; cbn [bind] in U1; [|discriminate].
  inversion U1; subst; clear U1. unfold update_H in U2. cbn [with_fields g_N g_E g_boundaries g_steps g_sources g_detectors g_spacing] in U2.
  destruct (map_res (boundary_phi_H (g_N g) E3) bs) as [bs2|] eqn:E2; cbn [bind] in U2; [|discriminate].
  destruct (fold_res _ (g_sources g) _) as [H3|]; cbn [bind] in U2; [|discriminate].
  destruct (map_res _ ds) as [ds2|]; cbn [bind] in U2; [|discriminate].
  inversion U2; subst; clear U2. cbn [with_fields g_boundaries g_E g_H] in *.
  eapply map_res_good; [|exact E2|].
  - intros b b' Eb Pb. eapply phi_H_good; [exact HB| |exact Eb|exact Pb]. intros p c Hp. apply F', Hp.
  - eapply map_res_good; [|exact E1|exact G].
    intros b b' Eb Pb. eapply phi_E_good; [exact HB| |exact Eb|exact Pb]. intros p c Hp. apply F, Hp.
Qed.

(** As long as the fields stay below B, the PML memory stays below 2 B. *)
Lemma memory_bounded B n : forall g g', 0 <= B ->
  (forall k h, (k <= n)%nat -> run_steps k g = Ok h -> fields_below B h) ->
  Forall (fun b => match b with PMLb pm => dissipative pm /\ memory_below (g_N g) (2 * B) pm | _ => True end) (g_boundaries g) ->
  run_steps n g = Ok g' ->
  Forall (fun b => match b with PMLb pm => memory_below (g_N g') (2 * B) pm | _ => True end) (g_boundaries g').
Proof.
  induction n as [|n IH]; intros g g' HB HF G H; cbn [run_steps] in H.
  - inversion H; subst. eapply Forall_impl; [|exact G]. intros [ | | | ]; tauto.
  - destruct (step g) as [g1|] eqn:E; cbn [bind] in H; [|discriminate].
    eapply IH; [exact HB| | |exact H].
    + intros k h Hk Hh. apply (HF (S k) h); [lia|]. cbn [run_steps]. rewrite E. exact Hh.
    + eapply memory_step; [exact HB| | |exact E|exact G].
      * apply (HF 0%nat g); [lia|reflexivity].
      * apply (HF 1%nat g1); [lia|]. cbn [run_steps]. rewrite E. reflexivity.
Qed.

(** * DomainBorderPML *)

Lemma place_pml_free ax hi t a g : ~ In (face_attr ax hi) (g_attrs g) ->
  place_pml ax hi t a g = (add_boundary_ (PMLb (make_pml ax hi t a (g_courant g))) (claim_face ax hi g), None).
Proof.
  intros H. unfold place_pml. destruct (has_attr g (face_attr ax hi)) eqn:E; [|reflexivity].
  apply has_attr_In in E. contradiction.
Qed.

Lemma domain_border bc g : (1 <= bc)%nat -> (forall a, 2 * bc <= g_N g a)%nat ->
  (forall ax hi, ~ In (face_attr ax hi) (g_attrs g)) ->
  exists g' ps, domain_border_pml bc g = (g', None) /\ g_boundaries g' = g_boundaries g ++ ps /\ length ps = 6%nat
    /\ (forall ax hi, exists b, In b ps /\ is_pml_on ax hi bc b)
    /\ (forall ax hi, count_on ax hi ps = 1%nat)
    /\ g_sources g' = g_sources g /\ g_detectors g' = g_detectors g.
Proof.
  intros Hbc HN HF. unfold domain_border_pml.
  pose proof (HN AX) as NX. pose proof (HN AY) as NY. pose proof (HN AZ) as NZ.
  rewrite !(proj2 (Nat.ltb_ge _ _)) by lia. cbn [orb].
  assert (L1 : (0 <? Z.of_nat bc)%Z = true) by (apply Z.ltb_lt; lia).
  assert (L2 : (- Z.of_nat bc <? 0)%Z = true) by (apply Z.ltb_lt; lia).
  assert (exists m, Z.of_nat bc = Z.pos m) as [m Hm] by (exists (Pos.of_nat bc); lia).
  assert (Tm : Z.to_nat (Z.pos m) = bc) by lia.
  pose (mk := fun ax hi => PMLb (make_pml ax hi bc default_pml_a (g_courant g))).
  exists (add_boundary_ (mk AY true) (claim_face AY true (add_boundary_ (mk AY false) (claim_face AY false
         (add_boundary_ (mk AX true) (claim_face AX true (add_boundary_ (mk AX false) (claim_face AX false
         (add_boundary_ (mk AZ true) (claim_face AZ true (add_boundary_ (mk AZ false) (claim_face AZ false g)))))))))))),
         [mk AZ false; mk AZ true; mk AX false; mk AX true; mk AY false; mk AY true].
  split; [|split; [|split; [reflexivity|split; [|split]]]].
  - rewrite Hm. cbn [setitems].
    unfold setitem. cbn [pad_key int_slice full_slice handle_key handle_distance option_map register].
    unfold register_pml. cbn [pml_slice bind claim_name low_slice high_slice Z.ltb Z.compare Z.opp].
    rewrite Tm.
    rewrite place_pml_free by apply HF.
    cbn [Z.ltb Z.compare Z.opp]. rewrite ?Tm.
    rewrite place_pml_free by (cbn [g_attrs add_boundary_ claim_face In]; intros [K|K]; [apply face_attr_inj in K as [? ?]; discriminate|exact (HF _ _ K)]).
    rewrite place_pml_free by (cbn [g_attrs add_boundary_ claim_face In];
      intros K; repeat (destruct K as [K|K]; [apply face_attr_inj in K as [? ?]; discriminate|]); exact (HF _ _ K)).
    rewrite place_pml_free by (cbn [g_attrs add_boundary_ claim_face In];
      intros K; repeat (destruct K as [K|K]; [apply face_attr_inj in K as [? ?]; discriminate|]); exact (HF _ _ K)).
    rewrite place_pml_free by (cbn [g_attrs add_boundary_ claim_face In];
      intros K; repeat (destruct K as [K|K]; [apply face_attr_inj in K as [? ?]; discriminate|]); exact (HF _ _ K)).
    rewrite place_pml_free by (cbn [g_attrs add_boundary_ claim_face In];
      intros K; repeat (destruct K as [K|K]; [apply face_attr_inj in K as [? ?]; discriminate|]); exact (HF _ _ K)).
    reflexivity.
  - cbn [add_boundary_ claim_face g_boundaries]. rewrite <- !app_assoc. reflexivity.
  - intros ax hi. exists (mk ax hi). split; [destruct ax, hi; cbn; auto 10|].
    eexists. split; [reflexivity|]. cbn. auto.
  - intros ax hi. destruct ax, hi; reflexivity.
  - split; reflexivity.
Qed.

(** A grid like the ones NIDN builds, for examples. *)
Definition demo_grid : grid :=
  mkGrid (shape_of 8 3 1) (/ 10 ^ 7) (99 / 100 * / sqrt (INR 2)) (99 / 100 * / sqrt (INR 2) * / 10 ^ 7 / SPEED_OF_LIGHT)
         zero_field zero_field zero_field (fun _ _ => 1 / 1) (fun _ _ => 1 / 1) 0 [] [] [] 0 builtin_attrs.
Lemma demo_grid_made : make_grid [PInt 8; PInt 3; PInt 1] (/ 10 ^ 7) 1 1 None = Ok demo_grid.
Proof. reflexivity. Qed.
Lemma demo_courant_pos : 0 < g_courant demo_grid.
Proof.
  cbn [demo_grid g_courant]. apply Rmult_lt_0_compat; [lra|]. apply Rinv_0_lt_compat, sqrt_lt_R0. cbn. lra.
Qed.
Lemma demo_spacing_pos : 0 < g_spacing demo_grid.
Proof. cbn [demo_grid g_spacing]. apply Rinv_0_lt_compat, pow_lt. lra. Qed.
Lemma demo_time_pos : 0 < g_time_step demo_grid.
Proof.
  cbn [demo_grid g_time_step]. pose proof demo_courant_pos as C. pose proof demo_spacing_pos as S.
  cbn [demo_grid g_courant g_spacing] in C, S.
  apply Rdiv_lt_0_compat; [apply Rmult_lt_0_compat; assumption|]. unfold SPEED_OF_LIGHT. lra.
Qed.
