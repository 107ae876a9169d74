(** What the plots draw. *)
From Coq Require Import Reals ZArith String List Bool Lra Lia Psatz.
From Verif Require Import Base BaseLemmas Cplx CplxLemmas Model_Units Model_Materials Spec_Materials Proof_Materials
  Model_EpsGrid Spec_EpsGrid Proof_EpsGrid Model_Losses Spec_Losses Proof_Losses Model_Plots Spec_Plots.
Import ListNotations.
Open Scope R_scope.

Lemma ax_plot_ok x y : length x = length y -> ax_plot x y = Ok (combine x y).
Proof. intros H. unfold ax_plot. rewrite H, Nat.eqb_refl. reflexivity. Qed.
Lemma combine_nth_error {A B} (x : list A) (y : list B) i a b : nth_error x i = Some a -> nth_error y i = Some b ->
  nth_error (combine x y) i = Some (a, b).
Proof. revert y i. induction x; intros [|b0 y] [|i] H1 H2; cbn in *; try discriminate; [congruence|auto]. Qed.

(** Spectra *)
Lemma spectrum_curves freqs wl1 wl2 n d Rs Ts show : length Rs = length freqs -> length Ts = length freqs ->
  exists r t a, plot_spectrum (Some freqs) wl1 wl2 n d Rs Ts show = Ok (if show then [r; t; a] else [r; t])
    /\ forall i f rho tau, nth_error freqs i = Some f -> nth_error Rs i = Some rho -> nth_error Ts i = Some tau ->
         nth_error r i = Some (1 / f, rho) /\ nth_error t i = Some (1 / f, tau)
         /\ exists alpha, nth_error a i = Some (1 / f, alpha) /\ rho + tau + alpha = 1.
Proof.
  intros L1 L2. unfold plot_spectrum, absorptance. cbn [bind]. rewrite L1, L2, Nat.eqb_refl. cbn [bind].
  set (x := map freq_to_wl freqs). set (As := map _ (combine Rs Ts)).
  assert (La : length As = length freqs) by (unfold As; rewrite ?map_length, ?combine_length; lia).
  assert (Lx : length x = length freqs) by (unfold x; rewrite map_length; reflexivity).
  rewrite !ax_plot_ok by congruence. cbn [bind].
  exists (combine x Rs), (combine x Ts), (combine x As). split; [destruct show; reflexivity|].
  intros i f rho tau Hf Hr Ht.
  assert (Hx : nth_error x i = Some (1 / f)) by (unfold x; rewrite nth_error_map, Hf; reflexivity).
  split; [apply combine_nth_error; auto|]. split; [apply combine_nth_error; auto|].
  exists (1 - (tau + rho)). split; [|lra]. apply combine_nth_error; auto. unfold As.
  rewrite nth_error_map, (combine_nth_error _ _ _ _ _ Hr Ht). reflexivity.
Qed.
Lemma spectrum_lengths freqs wl1 wl2 n d Rs Ts show : length Rs <> length freqs \/ length Ts <> length freqs ->
  plot_spectrum (Some freqs) wl1 wl2 n d Rs Ts show = Err ValueError.
Proof.
  intros H. unfold plot_spectrum, absorptance, ax_plot. cbn [bind]. rewrite map_length.
  destruct (Nat.eqb_spec (length Rs) (length Ts)) as [E|]; [|reflexivity]. cbn [bind].
  destruct (Nat.eqb_spec (length freqs) (length Rs)); [|reflexivity]. cbn [bind]. exfalso. lia.
Qed.
Lemma spectrum_missing wl1 wl2 n d Rs Ts show :
  plot_spectrum None wl1 wl2 n d Rs Ts show =
  match compute_target_frequencies wl1 wl2 n d with
  | Ok freqs => plot_spectrum (Some freqs) wl1 wl2 n d Rs Ts show
  | Err e => Err e
  end.
Proof. unfold plot_spectrum. destruct (compute_target_frequencies _ _ _ _); reflexivity. Qed.

Lemma axis_um f : wl_to_phys_wl (freq_to_wl f) * 1000000 = 1 / f.
Proof. unfold wl_to_phys_wl, freq_to_wl, UNIT_MAGNITUDE. rewrite Rmult_assoc, Rinv_l by lra. apply Rmult_1_r. Qed.

Lemma mean_abs_sum ts ps : length ts = length ps ->
  Rmean (map (fun q => Rabs (fst q - snd q)) (combine ts ps)) = sumL 1 ps ts / INR (length ps).
Proof.
  intros H. unfold Rmean. rewrite map_length, combine_length, H, Nat.min_id. f_equal. unfold sumL.
  revert ps H. induction ts as [|t ts IH]; intros [|p ps] H; cbn in *; try lia; try reflexivity.
  rewrite IH by lia. rewrite absL_1, Rabs_minus_sym. reflexivity.
Qed.
Lemma spectra_panels cfg pR pT :
  p_freqs cfg <> [] ->
  length pR = length (p_freqs cfg) -> length pT = length (p_freqs cfg) ->
  length (p_target_R cfg) = length (p_freqs cfg) -> length (p_target_T cfg) = length (p_freqs cfg) ->
  exists tr pr eR tt pt eT, plot_spectra cfg (pR, pT) = Ok ((tr, pr, eR), (tt, pt, eT))
    /\ (forall i f, nth_error (p_freqs cfg) i = Some f ->
          (forall v, nth_error pR i = Some v -> nth_error pr i = Some (1 / f, v))
          /\ (forall v, nth_error pT i = Some v -> nth_error pt i = Some (1 / f, v))
          /\ (forall v, nth_error (p_target_R cfg) i = Some v -> nth_error tr i = Some (1 / f, v))
          /\ (forall v, nth_error (p_target_T cfg) i = Some v -> nth_error tt i = Some (1 / f, v)))
    /\ 0 <= eR /\ (eR = 0 <-> pR = p_target_R cfg) /\ 0 <= eT /\ (eT = 0 <-> pT = p_target_T cfg)
    /\ (physical pR pT ->
        spectrum_loss pR pT (p_target_R cfg) (p_target_T cfg) (p_freqs cfg) 1 false = Ok ((eR + eT) / 2, false)).
Proof.
  intros Ne L1 L2 L3 L4. unfold plot_spectra, absorptance. cbn [fst snd]. rewrite L1, L2, L3, L4, Nat.eqb_refl. cbn [bind].
  unfold spectra_panel. set (x := map _ (p_freqs cfg)).
  assert (Lx : length x = length (p_freqs cfg)) by (unfold x; apply map_length).
  rewrite !ax_plot_ok by congruence. cbn [bind].
  do 6 eexists. split; [reflexivity|]. rewrite !mean_abs_sum by congruence.
  assert (Pn : 0 < INR (length (p_freqs cfg))).
  { apply lt_0_INR. destruct (p_freqs cfg); [congruence|cbn; lia]. }
  assert (Pd : forall xs ys, length xs = length (p_freqs cfg) -> length ys = length (p_freqs cfg) ->
      0 <= sumL 1 xs ys / INR (length xs) /\ (sumL 1 xs ys / INR (length xs) = 0 <-> xs = ys)).
  { intros xs ys A B. rewrite A. pose proof (sumL_nonneg 1 xs ys) as N. pose proof (sumL_zero 1 xs ys ltac:(congruence)) as Z.
    split. { apply Rmult_le_pos; [exact N|]. left. apply Rinv_0_lt_compat. exact Pn. }
    rewrite <- Z. split; intros H.
    - apply Rmult_integral in H as [H|H]; [exact H|]. exfalso. apply (Rinv_neq_0_compat (INR (length (p_freqs cfg)))); lra.
    - rewrite H. unfold Rdiv. apply Rmult_0_l. }
  destruct (Pd pR (p_target_R cfg) L1 L3) as [A1 A2]. destruct (Pd pT (p_target_T cfg) L2 L4) as [B1 B2].
  split; [|split; [exact A1|split; [exact A2|split; [exact B1|split; [exact B2|]]]]].
  - intros i f Hf. assert (Hx : nth_error x i = Some (1 / f)) by (unfold x; rewrite nth_error_map, Hf; cbn; f_equal; apply axis_um).
    repeat split; intros v Hv; apply combine_nth_error; auto.
  - intros Ph. assert (NR : pR <> []) by (destruct pR; [destruct (p_freqs cfg); cbn in L1; congruence|discriminate]).
    rewrite spectrum_loss_value by (auto; try lra; congruence).
    do 2 f_equal. rewrite L1, L2. field. lra.
Qed.

(** Markers *)
Lemma positions_length cfg : length (positions cfg) = (p_Nx cfg * p_Ny cfg * p_N_layers cfg)%nat.
Proof.
  unfold positions. erewrite flat_map_length_k with (k := (p_Ny cfg * p_N_layers cfg)%nat).
  - rewrite linspace_length. lia.
  - intros x _. erewrite flat_map_length_k with (k := p_N_layers cfg); [rewrite linspace_length; reflexivity|].
    intros y _. rewrite map_length, linspace_length. reflexivity.
Qed.
Lemma positions_nth cfg i j l d : (i < p_Nx cfg)%nat -> (j < p_Ny cfg)%nat -> (l < p_N_layers cfg)%nat ->
  nth ((i * p_Ny cfg + j) * p_N_layers cfg + l) (positions cfg) d = (tick (p_Nx cfg) i, tick (p_Ny cfg) j, tick (p_N_layers cfg) l).
Proof.
  intros Hi Hj Hl. unfold positions.
  replace ((i * p_Ny cfg + j) * p_N_layers cfg + l)%nat with (i * (p_Ny cfg * p_N_layers cfg) + (j * p_N_layers cfg + l))%nat by lia.
  assert (Li : forall x : R, length (flat_map (fun y => map (fun z => (x, y, z)) (linspace (-1) 1 (p_N_layers cfg))) (linspace (-1) 1 (p_Ny cfg)))
                     = (p_Ny cfg * p_N_layers cfg)%nat).
  { intros x. erewrite flat_map_length_k with (k := p_N_layers cfg); [rewrite linspace_length; reflexivity|].
    intros y _. rewrite map_length, linspace_length. reflexivity. }
  rewrite flat_map_nth with (dx := 0); [|auto|rewrite linspace_length; exact Hi|nia].
  rewrite flat_map_nth with (dx := 0); [|intros; rewrite map_length, linspace_length; reflexivity|rewrite linspace_length; exact Hj|exact Hl].
  rewrite nth_indep with (d' := (fun z => (nth i (linspace (-1) 1 (p_Nx cfg)) 0, nth j (linspace (-1) 1 (p_Ny cfg)) 0, z)) 0)
    by (rewrite map_length, linspace_length; exact Hl).
  rewrite map_nth. pose proof (linspace_tick 1 (p_Nx cfg) i Hi) as T1. pose proof (linspace_tick 1 (p_Ny cfg) j Hj) as T2.
  pose proof (linspace_tick 1 (p_N_layers cfg) l Hl) as T3. rewrite Rmult_1_l in T1, T2, T3.
  replace (-1) with (- (1)) by lra. rewrite T1, T2, T3. reflexivity.
Qed.

Definition shape3 {A} (g : grid3 A) a b c : Prop :=
  length g = a /\ (forall x, In x g -> length x = b /\ (forall y, In y x -> length y = c)).
Lemma shape4_3 {A B} (f : list A -> B) (g : grid4 A) a b c d : shape4 g a b c d -> shape3 (map (map (map f)) g) a b c.
Proof.
  intros [H1 H2]. split; [rewrite map_length; exact H1|]. intros x Hx. apply in_map_iff in Hx as [x' [<- Hx']].
  destruct (H2 x' Hx') as [H3 H4]. split; [rewrite map_length; exact H3|]. intros y Hy. apply in_map_iff in Hy as [y' [<- Hy']].
  rewrite map_length. apply (H4 y' Hy').
Qed.
Lemma ravel_length {A} (g : grid3 A) a b c : shape3 g a b c -> length (ravel3 g) = (a * b * c)%nat.
Proof.
  intros [H1 H2]. unfold ravel3. rewrite concat_length_k with (k := c).
  - rewrite concat_length_k with (k := b); [rewrite H1; lia|]. intros x Hx. apply (H2 x Hx).
  - intros y Hy. apply in_concat in Hy as [x [Hx Hy]]. apply (proj2 (H2 x Hx) y Hy).
Qed.
Lemma ravel_nth {A} (g : grid3 A) a b c i j l d : shape3 g a b c -> (i < a)%nat -> (j < b)%nat -> (l < c)%nat ->
  nth ((i * b + j) * c + l) (ravel3 g) d = nth l (nth j (nth i g []) []) d.
Proof.
  intros [H1 H2] Hi Hj Hl. unfold ravel3. rewrite concat_nth.
  - f_equal. apply concat_nth; [intros x Hx; apply (H2 x Hx)|lia|exact Hj].
  - intros y Hy. apply in_concat in Hy as [x [Hx Hy]]. apply (proj2 (H2 x Hx) y Hy).
  - rewrite concat_length_k with (k := b); [nia|]. intros x Hx. apply (H2 x Hx).
  - exact Hl.
Qed.
Lemma scatter_drawn {A} cfg (g : grid3 A) (d : A) : shape3 g (p_Nx cfg) (p_Ny cfg) (p_N_layers cfg) ->
  exists ms, scatter cfg g = Ok ms /\ drawn cfg ms (fun i j l => nth l (nth j (nth i g []) []) d).
Proof.
  intros H. unfold scatter. rewrite (ravel_length _ _ _ _ H), positions_length, Nat.eqb_refl.
  eexists. split; [reflexivity|]. split; [rewrite combine_length, positions_length, (ravel_length _ _ _ _ H); lia|].
  intros i j l Hi Hj Hl.
  assert (K : ((i * p_Ny cfg + j) * p_N_layers cfg + l < p_Nx cfg * p_Ny cfg * p_N_layers cfg)%nat).
  { assert (i * p_Ny cfg + j < p_Nx cfg * p_Ny cfg)%nat by nia. nia. }
  apply combine_nth_error.
  - rewrite <- (positions_nth cfg i j l (0, 0, 0)) by auto. apply nth_error_nth'. rewrite positions_length. exact K.
  - rewrite <- (ravel_nth g _ _ _ i j l d H) by auto. apply nth_error_nth'. rewrite (ravel_length _ _ _ _ H). exact K.
Qed.
Lemma nth_map3 {A B} (f : list A -> B) (g : grid4 A) a b c d i j l z : shape4 g a b c d -> (i < a)%nat -> (j < b)%nat -> (l < c)%nat ->
  nth l (nth j (nth i (map (map (map f)) g) []) []) z = f (nth l (nth j (nth i g []) []) []).
Proof.
  intros [H1 H2] Hi Hj Hl.
  replace (nth i (map (map (map f)) g) []) with (map (map f) (nth i g [])) by (symmetry; apply (map_nth (map (map f)) g [] i)).
  replace (nth j (map (map f) (nth i g [])) []) with (map f (nth j (nth i g []) [])) by (symmetry; apply (map_nth (map f) (nth i g []) [] j)).
  assert (I1 : In (nth i g []) g) by (apply nth_In; lia). destruct (H2 _ I1) as [H3 H4].
  assert (I2 : In (nth j (nth i g []) []) (nth i g [])) by (apply nth_In; lia). destruct (H4 _ I2) as [H5 H6].
  rewrite nth_indep with (d' := f []) by (rewrite map_length; lia). apply map_nth.
Qed.
Lemma drawn_ext {A} cfg (ms : list (R * R * R * A)) v v' : drawn cfg ms v ->
  (forall i j l, (i < p_Nx cfg)%nat -> (j < p_Ny cfg)%nat -> (l < p_N_layers cfg)%nat -> v i j l = v' i j l) -> drawn cfg ms v'.
Proof. intros [H1 H2] E. split; [exact H1|]. intros. rewrite H2, E; auto. Qed.
Lemma scatter_map {B} cfg (f : list C -> B) eps (d : B) : fits cfg eps ->
  exists ms, scatter cfg (map (map (map f)) eps) = Ok ms /\ drawn cfg ms (fun i j l => f (cell_eps eps i j l)).
Proof.
  intros H. destruct (scatter_drawn cfg (map (map (map f)) eps) d (shape4_3 f eps _ _ _ _ H)) as [ms [E D]].
  exists ms. split; [exact E|]. apply (drawn_ext _ _ _ _ D). intros. eapply nth_map3; eauto.
Qed.

(** Model grid: the absolute value of the mean *)
Lemma Cabs_tri a b : Cabs (Cadd a b) <= Cabs a + Cabs b.
Proof.
  destruct a as [x y], b as [u v]. unfold Cabs, Cnorm2. cbn.
  assert (A := sqrt_pos (x * x + y * y)). assert (B := sqrt_pos (u * u + v * v)).
  assert (A2 : sqrt (x * x + y * y) * sqrt (x * x + y * y) = x * x + y * y) by (apply sqrt_sqrt; nra).
  assert (B2 : sqrt (u * u + v * v) * sqrt (u * u + v * v) = u * u + v * v) by (apply sqrt_sqrt; nra).
  set (p := sqrt (x * x + y * y)) in *. set (q := sqrt (u * u + v * v)) in *.
  rewrite <- (sqrt_square (p + q)) by lra. apply sqrt_le_1_alt.
  assert (K : x * u + y * v <= p * q).
  { apply Rnot_lt_le. intros H. assert (H0 : 0 <= p * q) by (apply Rmult_le_pos; auto).
    assert (H1 : (p * q) * (p * q) < (x * u + y * v) * (x * u + y * v)) by (apply Rmult_le_0_lt_compat; lra).
    assert (H2 : (p * q) * (p * q) = (x * x + y * y) * (u * u + v * v)) by (rewrite <- A2, <- B2; ring).
    pose proof (Rle_0_sqr (x * v - y * u)) as H3. unfold Rsqr in H3. lra. }
  lra.
Qed.
Lemma Csum_le l : Cabs (Csum l) <= Rsum (map Cabs l).
Proof.
  induction l as [|a l IH]; cbn.
  - unfold Cabs, Cnorm2, C0. cbn. replace (0 * 0 + 0 * 0) with 0 by ring. rewrite sqrt_0. lra.
  - eapply Rle_trans; [apply Cabs_tri|]. apply Rplus_le_compat_l. exact IH.
Qed.
Lemma Cabs_RtoC r : 0 <= r -> Cabs (RtoC r) = r.
Proof. intros H. unfold Cabs, Cnorm2. cbn. replace (r * r + 0 * 0) with (r * r) by ring. apply sqrt_square. exact H. Qed.
Lemma Cabs_mean l : Cabs (Cmean l) <= Rmean (map Cabs l).
Proof.
  unfold Cmean, Rmean. rewrite Cabs_mul, map_length. pose proof (Csum_le l) as H.
  destruct l as [|a l].
  { assert (E : Cabs (Csum []) = 0).
    { unfold Cabs, Cnorm2, Csum, C0. cbn. replace (0 * 0 + 0 * 0) with 0 by ring. apply sqrt_0. }
    rewrite E, Rmult_0_r. unfold Rdiv. cbn [map]. replace (Rsum []) with 0 by reflexivity. lra. }
  assert (P : 0 < / INR (length (a :: l))) by (apply Rinv_0_lt_compat, lt_0_INR; cbn; lia).
  rewrite Cabs_RtoC by lra. unfold Rdiv. nra.
Qed.
Lemma Csum_repeat e n : Csum (repeat e n) = Cmul (RtoC (INR n)) e.
Proof.
  induction n as [|n IH]; cbn [repeat]. { cbn. unfold C0. destruct e. apply Ceq; cbn; ring. }
  change (Csum (e :: repeat e n)) with (Cadd e (Csum (repeat e n))). rewrite IH, S_INR. destruct e. apply Ceq; cbn; ring.
Qed.
Lemma mean_constant e n : (0 < n)%nat -> Cmean (repeat e n) = e.
Proof.
  intros H. assert (P : 0 < INR n) by (apply lt_0_INR; lia). unfold Cmean. rewrite repeat_length, Csum_repeat.
  destruct e. apply Ceq; cbn; field; lra.
Qed.
Lemma norm_constant e n : sqrt (Rsum (map Cnorm2 (repeat e n))) = sqrt (INR n) * Cabs e.
Proof.
  assert (E : Rsum (map Cnorm2 (repeat e n)) = INR n * Cnorm2 e).
  { induction n as [|n IH]; [cbn; lra|]. cbn [repeat map]. change (Rsum (?a :: ?b)) with (a + Rsum b). 
    unfold Rsum in *. cbn [fold_right]. rewrite IH, S_INR. ring. }
  rewrite E. unfold Cabs. apply sqrt_mult; [apply pos_INR|apply Cnorm2_nonneg].
Qed.

(** The permittivities of one frequency *)
Lemma mmap3' {A B} (f : list A -> res B) h (g : grid4 A) a b c d : shape4 g a b c d ->
  (forall v, length v = d -> f v = Ok (h v)) -> mmap (mmap (mmap f)) g = Ok (map (map (map h)) g).
Proof.
  intros [_ H] Hf. apply mmap_map. intros p Hp. destruct (H p Hp) as [_ H'].
  apply mmap_map. intros q Hq. destruct (H' q Hq) as [_ H'']. apply mmap_map. intros v Hv. auto.
Qed.
Lemma mmap_err_hd {A B} (f : A -> res B) l e : l <> [] -> (forall x, In x l -> f x = Err e) -> mmap f l = Err e.
Proof. destruct l as [|x l]; intros N H; [congruence|]. cbn. rewrite H by (left; reflexivity). reflexivity. Qed.
Lemma nonempty_length {A} (l : list A) n : length l = n -> (0 < n)%nat -> l <> [].
Proof. intros H P ->. cbn in H. lia. Qed.
Lemma mmap3_err {A B} (f : list A -> res B) e (g : grid4 A) a b c d : shape4 g a b c d -> (0 < a)%nat -> (0 < b)%nat -> (0 < c)%nat ->
  (forall v, length v = d -> f v = Err e) -> mmap (mmap (mmap f)) g = Err e.
Proof.
  intros [L H] Pa Pb Pc Hf. apply mmap_err_hd; [eapply nonempty_length; eauto|]. intros p Hp. destruct (H p Hp) as [Lp H'].
  apply mmap_err_hd; [eapply nonempty_length; eauto|]. intros q Hq. destruct (H' q Hq) as [Lq H''].
  apply mmap_err_hd; [eapply nonempty_length; eauto|]. intros v Hv. auto.
Qed.

Lemma freq_step cfg eps idx i r : fits cfg eps -> (i < length (p_freqs cfg))%nat -> (idx < 4)%nat ->
  exists ms, drawn cfg ms (fun x y l => at4 eps C0 x y l i)
    /\ freq_panels cfg eps idx (i :: r) = (let! rest := freq_panels cfg eps (S idx) r in Ok ((1 / nth i (p_freqs cfg) 0, ms) :: rest)).
Proof.
  intros F Hi Hx. destruct (scatter_map cfg (fun v => nth i v C0) eps C0 F) as [ms [E D]]. exists ms. split; [exact D|].
  cbn [freq_panels]. rewrite (mmap3' _ (fun v => nth i v C0) _ _ _ _ _ F).
  2: { intros v Hv. rewrite (nth_error_nth' v C0) by lia. reflexivity. }
  cbn [bind]. apply Nat.ltb_lt in Hx. rewrite Hx. cbn [ensure bind]. rewrite E. cbn [bind].
  rewrite (nth_error_nth' (p_freqs cfg) 0 Hi). reflexivity.
Qed.
Lemma freq_panels_ok cfg eps fi : forall idx, fits cfg eps -> Forall (fun i => (i < length (p_freqs cfg))%nat) fi -> (idx + length fi <= 4)%nat ->
  exists ps, freq_panels cfg eps idx fi = Ok ps /\ length ps = length fi
    /\ forall k i, nth_error fi k = Some i ->
         exists ms, nth_error ps k = Some (1 / nth i (p_freqs cfg) 0, ms) /\ drawn cfg ms (fun x y l => at4 eps C0 x y l i).
Proof.
  induction fi as [|i r IH]; intros idx F A L.
  - exists []. split; [reflexivity|]. split; [reflexivity|]. intros [|k] i H; discriminate.
  - inversion A as [|? ? Hi Hr]; subst. cbn in L. destruct (freq_step cfg eps idx i r F Hi ltac:(lia)) as [ms [D E]].
    destruct (IH (S idx) F Hr ltac:(lia)) as [ps [Ep [Lp Hp]]]. rewrite E, Ep. cbn [bind].
    eexists. split; [reflexivity|]. split; [cbn; lia|]. intros [|k] i0 H; cbn in *; [|eauto].
    injection H as <-. eauto.
Qed.
Lemma freq_panels_err cfg eps fi : forall idx, fits cfg eps -> some_cell cfg -> (idx <= 4)%nat ->
  (exists i, In i fi /\ (length (p_freqs cfg) <= i)%nat) \/ (4 < idx + length fi)%nat ->
  exists e, freq_panels cfg eps idx fi = Err e.
Proof.
  induction fi as [|i r IH]; intros idx F S H4 H.
  - exfalso. destruct H as [[i [[] _]]|H]; cbn in H; lia.
  - destruct (le_lt_dec (length (p_freqs cfg)) i) as [Hi|Hi].
    + exists IndexError. cbn [freq_panels]. destruct S as (S1 & S2 & S3).
      rewrite (mmap3_err _ IndexError _ _ _ _ _ F S1 S2 S3); [reflexivity|]. intros v Hv.
      rewrite (proj2 (nth_error_None v i)) by lia. reflexivity.
    + destruct (le_lt_dec 4 idx) as [Hx|Hx].
      * exists ValueError. cbn [freq_panels]. rewrite (mmap3' _ (fun v => nth i v C0) _ _ _ _ _ F).
        2: { intros v Hv. rewrite (nth_error_nth' v C0) by lia. reflexivity. }
        cbn [bind]. apply Nat.ltb_ge in Hx. rewrite Hx. reflexivity.
      * destruct (freq_step cfg eps idx i r F Hi Hx) as [ms [D E]]. rewrite E.
        destruct (IH (Datatypes.S idx) F S ltac:(lia)) as [e Ee]; [|rewrite Ee; eexists; reflexivity].
        destruct H as [[i0 [[->|I] G]]|H]; [lia|left; eauto|right; cbn in H; lia].
Qed.
Lemma freq_panels_iff cfg eps fi : fits cfg eps -> some_cell cfg ->
  ((exists ps, plot_model_grid_per_freq cfg eps fi = Ok ps)
   <-> Forall (fun i => (i < length (p_freqs cfg))%nat) fi /\ (length fi <= 4)%nat).
Proof.
  intros F S. split.
  - intros [ps E]. destruct (le_lt_dec (length fi) 4) as [H|H].
    + split; [|exact H]. apply Forall_forall. intros i Hi. destruct (le_lt_dec (length (p_freqs cfg)) i) as [G|G]; [|exact G].
      exfalso. destruct (freq_panels_err cfg eps fi 0 F S ltac:(lia)) as [e Ee]; [left; eauto|].
      unfold plot_model_grid_per_freq in E. congruence.
    + exfalso. destruct (freq_panels_err cfg eps fi 0 F S ltac:(lia)) as [e Ee]; [right; lia|].
      unfold plot_model_grid_per_freq in E. congruence.
  - intros [A L]. destruct (freq_panels_ok cfg eps fi 0 F A L) as [ps [E _]]. exists ps. exact E.
Qed.

(** Materials *)
Lemma kept_nil files : kept files [] = files.
Proof. unfold kept. induction files as [|f l IH]; cbn; [reflexivity|]. f_equal. exact IH. Qed.
Lemma collection_names files freqs skip mc : MaterialCollection files freqs skip = Ok mc -> material_names mc = map fst (kept files skip).
Proof.
  unfold MaterialCollection. destruct freqs; [discriminate|]. intros H. apply bind_ok in H as [ld [H1 H]].
  apply bind_ok in H as [m [_ H]]. injection H as <-. cbn. apply load_files_spec in H1. apply H1.
Qed.
Lemma comparisons_length mc l names : forall ds, comparisons mc names l = Ok ds -> length ds = length names.
Proof.
  induction names as [|n names IH]; cbn; intros ds H1.
  - injection H1 as <-. reflexivity.
  - apply bind_ok in H1 as [t [_ H1]]. apply bind_ok in H1 as [x [_ H1]]. apply bind_ok in H1 as [x0 [H0 H1]].
    injection H1 as <-. cbn. f_equal. apply IH. exact H0.
Qed.
Lemma closest_id mc l d i : find_closest mc l = Ok (d, i) -> (i < length (material_names mc))%nat.
Proof.
  unfold find_closest. intros H. apply bind_ok in H as [ds [H1 H]]. destruct (argmin ds) as [i0|] eqn:E; [|discriminate].
  injection H as _ <-. apply argmin_spec in E. destruct E as [E _]. apply comparisons_length in H1. lia.
Qed.
Lemma fst_at (l : list mfile) m nm tb : nth_error l m = Some (nm, tb) -> nth_error (map fst l) m = Some nm.
Proof. revert m. induction l as [|a l IH]; intros [|m] H; cbn in *; try discriminate; [injection H as ->; reflexivity|auto]. Qed.
Definition idof (mc : collection) (l : list C) : nat := match find_closest mc l with Ok (_, i) => i | Err _ => 0%nat end.
Lemma nodup_kept files skip : NoDup (map fst files) -> NoDup (map fst (kept files skip)).
Proof.
  unfold kept. induction files as [|f l IH]; cbn; intros H; [constructor|]. inversion H as [|? ? H1 H2]; subst.
  destruct (negb _); [|auto]. cbn. constructor; [|auto]. intros G. apply H1. apply in_map_iff in G as [g [Eg Hg]].
  apply filter_In in Hg as [Hg _]. rewrite <- Eg. apply in_map. exact Hg.
Qed.
Lemma material_markers cfg files skip eps mats : fits cfg eps -> (2 <= length (p_freqs cfg))%nat -> good_files files ->
  (2 <= length (kept files skip))%nat -> material_data (kept files skip) (p_freqs cfg) mats ->
  exists ms labels number, plot_material_grid cfg files skip eps = Ok (ms, labels)
    /\ drawn cfg ms number
    /\ (forall i j l, (i < p_Nx cfg)%nat -> (j < p_Ny cfg)%nat -> (l < p_N_layers cfg)%nat ->
          exists m, number i j l = S m /\ is_closest mats (cell_eps eps i j l) m)
    /\ (forall m name, In (S m, name) labels <-> exists table, nth_error (kept files skip) m = Some (name, table)).
Proof.
  intros F Hf (G1 & G2 & G3) HK [M1 M2].
  destruct (lookup_normal files (p_freqs cfg) skip Hf G1 G2 HK) as [mc [Emc _]].
  assert (Cl : forall v, length v = length (p_freqs cfg) -> exists d, find_closest mc v = Ok (d, idof mc v) /\ is_closest mats v (idof mc v)).
  { intros v Hv. destruct (find_closest_spec files (p_freqs cfg) skip mc v mats Hf G1 G2 HK Emc Hv M1 M2) as (d & i & E & A & B & D & _).
    exists d. unfold idof. rewrite E. split; [reflexivity|]. split; [exact A|]. intros j Hj. rewrite <- B. auto. }
  unfold plot_material_grid. rewrite Emc. cbn [bind]. rewrite (mmap3' _ (idof mc) _ _ _ _ _ F).
  2: { intros v Hv. destruct (Cl v Hv) as [d [E _]]. rewrite E. reflexivity. }
  cbn [bind].
  replace (map (map (map S)) (map (map (map (idof mc))) eps)) with (map (map (map (fun v => S (idof mc v)))) eps).
  2: { rewrite map_map. apply map_ext. intros p. rewrite map_map. apply map_ext. intros q. rewrite map_map. reflexivity. }
  destruct (scatter_map cfg (fun v => S (idof mc v)) eps 0%nat F) as [ms [E D]]. rewrite E. cbn [bind].
  eexists ms, _, _. split; [reflexivity|]. split; [exact D|]. split.
  - intros i j l Hi Hj Hl. eexists. split; [reflexivity|].
    assert (Lc : length (cell_eps eps i j l) = length (p_freqs cfg)).
    { destruct F as [F1 F2]. unfold cell_eps. destruct (F2 (nth i eps []) ltac:(apply nth_In; lia)) as [F3 F4].
      destruct (F4 (nth j (nth i eps []) []) ltac:(apply nth_In; lia)) as [F5 F6]. apply F6. apply nth_In. lia. }
    destruct (Cl _ Lc) as [d [_ H]]. exact H.
  - intros m name. rewrite (collection_names _ _ _ _ Emc). set (ns := map fst (kept files skip)). split.
    + intros H. apply In_nth_error in H as [k Hk].
      assert (Lk : (k < length ns)%nat).
      { apply nth_error_Some. intros N. apply nth_error_None in N.
        assert (Q : nth_error (combine (seq 1 (length ns)) ns) k <> None) by congruence. apply nth_error_Some in Q.
        rewrite combine_length, seq_length in Q. lia. }
      rewrite (combine_nth_error _ _ k (S k) (nth k ns EmptyString)) in Hk.
      * injection Hk as -> Hn. unfold ns in *. rewrite map_length in Lk.
        destruct (nth_error (kept files skip) m) as [[nm tb]|] eqn:Q; [|exfalso; exact (proj2 (nth_error_Some _ _) Lk Q)].
        exists tb. f_equal. f_equal. rewrite <- Hn. symmetry. apply nth_error_nth. apply (fst_at _ _ _ _ Q).
      * rewrite (nth_error_nth' _ 0%nat) by (rewrite seq_length; exact Lk). rewrite seq_nth by exact Lk. reflexivity.
      * apply nth_error_nth'. exact Lk.
    + intros [tb H]. assert (Lk : (m < length ns)%nat) by (unfold ns; rewrite map_length; apply nth_error_Some; intros N; pose proof (eq_trans (eq_sym N) H); discriminate).
      apply nth_error_In with (n := m). apply combine_nth_error.
      * rewrite (nth_error_nth' _ 0%nat) by (rewrite seq_length; exact Lk). rewrite seq_nth by exact Lk. reflexivity.
      * unfold ns. apply (fst_at _ _ _ _ H).
Qed.

(** Curves per cell *)
Lemma shape4_self {A} (g : grid4 A) a b c d : shape4 g a b c d -> shape3 g a b c.
Proof.
  intros [H1 H2]. split; [exact H1|]. intros x Hx. destruct (H2 x Hx) as [H3 H4]. split; [exact H3|]. intros y Hy. apply (H4 y Hy).
Qed.
Lemma names_nth {A} (g : grid4 A) a b c d i j l : shape4 g a b c d -> (i < a)%nat -> (j < b)%nat -> (l < c)%nat ->
  nth_error (flat_map (fun x => flat_map (fun y => map (fun k => (k, x, y)) (seq 0 c)) (seq 0 b)) (seq 0 a)) ((i * b + j) * c + l) = Some (l, i, j).
Proof.
  intros _ Hi Hj Hl.
  assert (L1 : forall x y : nat, length (map (fun k => (k, x, y)) (seq 0 c)) = c) by (intros; rewrite map_length, seq_length; reflexivity).
  assert (L2 : forall x : nat, length (flat_map (fun y => map (fun k => (k, x, y)) (seq 0 c)) (seq 0 b)) = (b * c)%nat).
  { intros x. erewrite flat_map_length_k with (k := c); [rewrite seq_length; reflexivity|]. intros; apply L1. }
  rewrite (nth_error_nth' _ (0, 0, 0)%nat).
  2: { erewrite flat_map_length_k with (k := (b * c)%nat); [|intros; apply L2]. rewrite seq_length.
       assert (i * b + j < a * b)%nat by nia. nia. }
  f_equal. replace ((i * b + j) * c + l)%nat with (i * (b * c) + (j * c + l))%nat by lia.
  rewrite flat_map_nth with (dx := 0%nat); [|intros; apply L2|rewrite seq_length; exact Hi|nia].
  rewrite flat_map_nth with (dx := 0%nat); [|intros; apply L1|rewrite seq_length; exact Hj|exact Hl].
  rewrite !seq_nth by assumption. cbn [plus].
  rewrite nth_indep with (d' := (fun k => (k, i, j)) 0%nat) by (rewrite L1; exact Hl).
  rewrite (map_nth (fun k => (k, i, j))), seq_nth by assumption. reflexivity.
Qed.
Lemma shape4_dims {A} (g : grid4 A) a b c d : shape4 g a b c d -> (0 < a)%nat -> (0 < b)%nat ->
  length (nth 0 g []) = b /\ length (nth 0 (nth 0 g []) []) = c.
Proof.
  intros [H1 H2] Pa Pb. destruct (H2 (nth 0 g []) ltac:(apply nth_In; lia)) as [H3 H4].
  destruct (H4 (nth 0 (nth 0 g []) []) ltac:(apply nth_In; lia)) as [H5 _]. auto.
Qed.
Lemma ravel_in {A} (g : grid4 A) a b c d v : shape4 g a b c d -> In v (ravel3 g) -> length v = d.
Proof.
  intros [_ H] Hv. unfold ravel3 in Hv. apply in_concat in Hv as [q [Hq Hv]]. apply in_concat in Hq as [p [Hp Hq]].
  destruct (H p Hp) as [_ H']. destruct (H' q Hq) as [_ H'']. auto.
Qed.
Lemma ravel_in_cell {A} (g : grid4 A) a b c d v : shape4 g a b c d -> In v (ravel3 g) ->
  exists i j l, (i < a)%nat /\ (j < b)%nat /\ (l < c)%nat /\ v = nth l (nth j (nth i g []) []) [].
Proof.
  intros [H1 H] Hv. unfold ravel3 in Hv. apply in_concat in Hv as [q [Hq Hv]]. apply in_concat in Hq as [p [Hp Hq]].
  destruct (H p Hp) as [H2 H']. destruct (H' q Hq) as [H3 _].
  apply In_nth with (d := []) in Hp as [i [Hi Ei]]. apply In_nth with (d := []) in Hq as [j [Hj Ej]].
  apply In_nth with (d := []) in Hv as [l [Hl El]]. exists i, j, l. rewrite Ei, Ej, El. repeat split; lia.
Qed.
Lemma for_each_ok {A} (l : list A) body : for_each l body = Ok tt <-> forall x, In x l -> body x = Ok tt.
Proof.
  induction l as [|a l IH]; cbn. { split; auto. intros _ x []. }
  split.
  - intros H. apply bind_ok in H as [[] [H1 H2]]. intros x [<-|Hx]; [exact H1|]. apply IH; auto.
  - intros H. rewrite H by auto. cbn. apply IH. auto.
Qed.
Lemma unique_in n ids i : In i (unique_ids n ids) <-> (i < n)%nat /\ In i ids.
Proof.
  unfold unique_ids. rewrite filter_In, in_seq, existsb_exists. split.
  - intros [H1 [x [H2 H3]]]. apply Nat.eqb_eq in H3 as <-. split; [lia|exact H2].
  - intros [H1 H2]. split; [lia|]. exists i. split; [exact H2|apply Nat.eqb_refl].
Qed.
Lemma point_curves cfg files eps mats : fits cfg eps -> some_cell cfg -> (2 <= length (p_freqs cfg))%nat -> good_files files ->
  material_data files (p_freqs cfg) mats ->
  exists curves points names, plot_eps_per_point cfg files eps = Ok (curves, points, names)
    /\ length curves = (p_Nx cfg * p_Ny cfg * p_N_layers cfg)%nat
    /\ (forall i j l, (i < p_Nx cfg)%nat -> (j < p_Ny cfg)%nat -> (l < p_N_layers cfg)%nat ->
          let k := ((i * p_Ny cfg + j) * p_N_layers cfg + l)%nat in
          nth_error points k = Some (l, i, j)
          /\ exists curve, nth_error curves k = Some curve /\ length curve = length (p_freqs cfg)
             /\ forall n, (n < length (p_freqs cfg))%nat ->
                 nth_error curve n = Some (1 / nth n (p_freqs cfg) 0, at4 eps C0 i j l n))
    /\ (forall name, In name names -> exists m table i j l,
          nth_error files m = Some (name, table)
          /\ (i < p_Nx cfg)%nat /\ (j < p_Ny cfg)%nat /\ (l < p_N_layers cfg)%nat /\ is_closest mats (cell_eps eps i j l) m)
    /\ (forall i j l, (i < p_Nx cfg)%nat -> (j < p_Ny cfg)%nat -> (l < p_N_layers cfg)%nat ->
          exists m name table, nth_error files m = Some (name, table) /\ In name names /\ is_closest mats (cell_eps eps i j l) m).
Proof.
  intros F (S1 & S2 & S3) Hf (G1 & G2 & G3) [M1 M2]. rewrite <- (kept_nil files) in M1, M2, G3.
  destruct (lookup_normal files (p_freqs cfg) [] Hf G1 G2 G3) as [mc [Emc Look]].
  pose proof (collection_names _ _ _ _ Emc) as Nm. rewrite kept_nil in Nm.
  assert (Cl : forall v, length v = length (p_freqs cfg) -> exists d, find_closest mc v = Ok (d, idof mc v) /\ is_closest mats v (idof mc v)).
  { intros v Hv. destruct (find_closest_spec files (p_freqs cfg) [] mc v mats Hf G1 G2 G3 Emc Hv M1 M2) as (d & i & E & A & B & D & _).
    exists d. unfold idof. rewrite E. split; [reflexivity|]. split; [exact A|]. intros j Hj. rewrite <- B. auto. }
  rewrite kept_nil in M1, M2, G3.
  unfold plot_eps_per_point. rewrite Emc. cbn [bind]. set (wl := map freq_to_wl (p_freqs cfg)).
  rewrite (mmap_map _ (fun v => combine wl v)).
  2: { intros v Hv. apply (ravel_in _ _ _ _ _ _ F) in Hv. unfold wl. rewrite map_length, Hv, Nat.eqb_refl. reflexivity. }
  cbn [bind]. rewrite (mmap_map _ (idof mc)).
  2: { intros v Hv. apply (ravel_in _ _ _ _ _ _ F) in Hv. destruct (Cl v Hv) as [d [E _]]. rewrite E. reflexivity. }
  cbn [bind]. set (ids := map (idof mc) (ravel3 eps)). set (names := map _ (unique_ids _ ids)).
  assert (Pn : forall name, In name names -> exists m table, nth_error files m = Some (name, table) /\ In m ids).
  { intros name H. unfold names in H. apply in_map_iff in H as [m [E H]]. apply unique_in in H as [H1 H2].
    rewrite Nm in H1, E. rewrite map_length in H1.
    destruct (nth_error files m) as [[nm tb]|] eqn:Q; [|exfalso; exact (proj2 (nth_error_Some _ _) H1 Q)].
    exists m, tb. split; [|exact H2]. refine (eq_trans Q _). rewrite <- E. do 2 f_equal. symmetry. apply nth_error_nth. apply (fst_at _ _ _ _ Q). }
  assert (Fe : for_each names (fun nm => let! t := mc_getitem mc nm in match t with T1 (_ :: _) => Ok tt | _ => Err IndexError end) = Ok tt).
  { apply for_each_ok. intros name H. destruct (Pn name H) as (m & tb & H1 & _). apply nth_error_In in H1.
    destruct (Look name tb H1 (fun x => x)) as (es & E & Le & _). rewrite E. cbn [bind].
    destruct es; [cbn in Le; lia|reflexivity]. }
  rewrite Fe. cbn [bind].
  assert (Cv : forall i j l, (i < p_Nx cfg)%nat -> (j < p_Ny cfg)%nat -> (l < p_N_layers cfg)%nat ->
     nth_error (ravel3 eps) ((i * p_Ny cfg + j) * p_N_layers cfg + l) = Some (cell_eps eps i j l) /\ length (cell_eps eps i j l) = length (p_freqs cfg)).
  { intros i j l Hi Hj Hl. assert (E : nth_error (ravel3 eps) ((i * p_Ny cfg + j) * p_N_layers cfg + l) = Some (cell_eps eps i j l)).
    { unfold cell_eps. rewrite <- (ravel_nth eps _ _ _ i j l [] (shape4_self _ _ _ _ _ F)) by auto. apply nth_error_nth'.
      rewrite (ravel_length _ _ _ _ (shape4_self _ _ _ _ _ F)). assert (i * p_Ny cfg + j < p_Nx cfg * p_Ny cfg)%nat by nia. nia. }
    split; [exact E|]. apply nth_error_In in E. apply (ravel_in _ _ _ _ _ _ F E). }
  eexists _, _, _. split; [reflexivity|]. split; [rewrite map_length, (ravel_length _ _ _ _ (shape4_self _ _ _ _ _ F)); reflexivity|].
  split; [|split].
  - intros i j l Hi Hj Hl. destruct (Cv i j l Hi Hj Hl) as [E Lc]. split.
    + unfold point_names. destruct (shape4_dims _ _ _ _ _ F S1 S2) as [D1 D2]. rewrite D1, D2, (proj1 F). eapply names_nth; eauto.
    + exists (combine wl (cell_eps eps i j l)). rewrite nth_error_map, E. split; [reflexivity|].
      assert (Lw : length wl = length (p_freqs cfg)) by apply map_length.
      split; [rewrite combine_length, Lc, Lw; lia|]. intros n Hn. apply combine_nth_error.
      * unfold wl. rewrite nth_error_map, (nth_error_nth' _ 0 Hn). reflexivity.
      * apply (nth_error_nth' (cell_eps eps i j l) C0). rewrite Lc. exact Hn.
  - intros name H. destruct (Pn name H) as (m & tb & H1 & H2). unfold ids in H2. apply in_map_iff in H2 as [v [Ev Hv]].
    pose proof (ravel_in _ _ _ _ _ _ F Hv) as Lv. destruct (ravel_in_cell _ _ _ _ _ _ F Hv) as (i & j & l & Hi & Hj & Hl & E).
    exists m, tb, i, j, l. repeat (split; [assumption|]). unfold cell_eps. rewrite <- E, <- Ev. destruct (Cl v Lv) as [d [_ H3]]. exact H3.
  - intros i j l Hi Hj Hl. destruct (Cv i j l Hi Hj Hl) as [E Lc]. destruct (Cl _ Lc) as [d [Ed H3]].
    pose proof (proj1 H3) as Lm. set (m := idof mc (cell_eps eps i j l)) in *. rewrite M1 in Lm.
    destruct (nth_error files m) as [[nm tb]|] eqn:Q; [|exfalso; exact (proj2 (nth_error_Some _ _) Lm Q)].
    exists m, nm, tb. split; [exact Q|]. split; [|exact H3]. unfold names. apply in_map_iff. exists m. split.
    + rewrite Nm. apply nth_error_nth. apply (fst_at _ _ _ _ Q).
    + apply unique_in. rewrite Nm, map_length. split; [exact Lm|]. unfold ids. apply in_map. apply nth_error_In in E. exact E.
Qed.
Lemma mmap_in {A B} (f : A -> res B) l ys : mmap f l = Ok ys -> forall x, In x l -> exists y, f x = Ok y /\ In y ys.
Proof.
  revert ys. induction l as [|a l IH]; cbn; intros ys H x Hx; [contradiction|].
  apply bind_ok in H as [y [H1 H]]. apply bind_ok in H as [ys' [H2 H]]. injection H as <-. destruct Hx as [<-|Hx].
  - exists y. split; [exact H1|left; reflexivity].
  - destruct (IH _ H2 x Hx) as [y' [E I]]. exists y'. split; [exact E|right; exact I].
Qed.
Lemma points_one_frequency cfg files eps f : fits cfg eps -> some_cell cfg -> p_freqs cfg = [f] -> good_files files ->
  exists e, plot_eps_per_point cfg files eps = Err e.
Proof.
  intros F (S1 & S2 & S3) Hf (G1 & G2 & G3). destruct (plot_eps_per_point cfg files eps) as [r|e] eqn:E; [|eauto]. exfalso.
  unfold plot_eps_per_point in E. rewrite Hf in E.
  apply bind_ok in E as [mc [Emc E]]. apply bind_ok in E as [cv [_ E]]. apply bind_ok in E as [ids [Ei E]]. apply bind_ok in E as [[] [Ef _]].
  pose proof (collection_names _ _ _ _ Emc) as Nm. rewrite kept_nil in Nm.
  assert (I : In (cell_eps eps 0 0 0) (ravel3 eps)).
  { apply nth_error_In with (n := ((0 * p_Ny cfg + 0) * p_N_layers cfg + 0)%nat). unfold cell_eps.
    rewrite <- (ravel_nth eps _ _ _ 0 0 0 [] (shape4_self _ _ _ _ _ F)) by auto. apply nth_error_nth'.
    rewrite (ravel_length _ _ _ _ (shape4_self _ _ _ _ _ F)). cbn. nia. }
  destruct (mmap_in _ _ _ Ei _ I) as [m [E1 E2]]. apply bind_ok in E1 as [[d i] [E1 E3]]. injection E3 as <-. cbn [snd] in E2.
  pose proof (closest_id _ _ _ _ E1) as Hm. rewrite for_each_ok in Ef.
  rewrite Nm, map_length in Hm. destruct (nth_error files i) as [[nm tb]|] eqn:Q; [|exfalso; exact (proj2 (nth_error_Some _ _) Hm Q)].
  assert (In nm (map (fun i => nth i (material_names mc) EmptyString) (unique_ids (length (material_names mc)) ids))) as In1.
  { apply in_map_iff. exists i. split; [rewrite Nm; apply nth_error_nth; apply (fst_at _ _ _ _ Q)|].
    apply unique_in. rewrite Nm, map_length. auto. }
  specialize (Ef _ In1). cbn beta in Ef. apply bind_ok in Ef as [t [Et Ef]].
  destruct (lookup_one_freq files f [] nm tb G1 G2) as (mc' & e & X1 & X2 & _).
  { rewrite kept_nil. exact G3. } { rewrite kept_nil. apply nth_error_In in Q. exact Q. }
  rewrite Emc in X1. injection X1 as <-. rewrite X2 in Et. injection Et as <-. discriminate.
Qed.

(** All plots *)
Lemma mats_exist files freqs : (forall f, In f files -> snd f <> []) -> exists mats, material_data files freqs mats.
Proof.
  induction files as [|[nm tb] files IH]; intros H.
  - exists []. split; [reflexivity|]. intros [|i] ? ? E; discriminate.
  - destruct IH as [mats [L M]]; [intros f Hf; apply H; right; exact Hf|].
    destruct (load_data_ok tb freqs (H (nm, tb) (or_introl eq_refl))) as [m Em].
    exists (m :: mats). split; [cbn; f_equal; exact L|]. intros [|i] name table E; cbn in *.
    + injection E as <- <-. exists m. auto.
    + apply (M i name table E).
Qed.
Lemma all_plots cfg files eval spectrum eps pR pT :
  (forall n, eval n = Ok (eps n) /\ fits cfg (eps n)) -> some_cell cfg -> good_files files ->
  spectrum (eps 0%nat) = Ok (pR, pT) -> p_freqs cfg <> [] ->
  length pR = length (p_freqs cfg) -> length pT = length (p_freqs cfg) ->
  length (p_target_R cfg) = length (p_freqs cfg) -> length (p_target_T cfg) = length (p_freqs cfg) ->
  save_all_plots cfg files eval spectrum (Ok tt) =
  if (4 <=? length (p_freqs cfg))%nat
  then (["spectra_comparison.png"; "losses.png"; "model_grid.png"; "model_grid_per_freq.png"; "material_grid.png"; "eps_per_pointsNone.png"]%string, None)
  else (["spectra_comparison.png"; "losses.png"; "model_grid.png"]%string, Some IndexError).
Proof.
  intros Ev Sc Gf Hs Ne L1 L2 L3 L4. unfold save_all_plots.
  rewrite !(fun n => proj1 (Ev n)). cbn [bind].
  rewrite Hs. cbn [bind]. destruct (spectra_panels cfg pR pT Ne L1 L2 L3 L4) as (a1 & a2 & a3 & a4 & a5 & a6 & E & _). rewrite E. clear E.
  destruct (scatter_map cfg (fun l => Cabs (Cmean l)) (eps 1%nat) 0 (proj2 (Ev 1%nat))) as [m1 [E1 _]].
  unfold plot_model_grid at 1. rewrite E1. cbn [drop bind]. clear E1.
  destruct (Nat.leb_spec 4 (length (p_freqs cfg))) as [H4|H4].
  - destruct (freq_panels_ok cfg (eps 2%nat) [0; 1; 2; 3]%nat 0 (proj2 (Ev 2%nat))) as [ps [E2 _]].
    { repeat constructor; lia. } { cbn. lia. }
    unfold plot_model_grid_per_freq. rewrite E2. clear E2.
    destruct (mats_exist files (p_freqs cfg) (proj1 (proj2 Gf))) as [mats Hm].
    destruct (material_markers cfg files [] (eps 3%nat) mats (proj2 (Ev 3%nat)) ltac:(lia) Gf) as (ms & lb & nu & E3 & _).
    { rewrite kept_nil. apply Gf. } { rewrite kept_nil. exact Hm. }
    rewrite E3. clear E3.
    destruct (point_curves cfg files (eps 4%nat) mats (proj2 (Ev 4%nat)) Sc ltac:(lia) Gf Hm) as (c1 & c2 & c3 & E4 & _).
    rewrite E4. reflexivity.
  - assert (E2 : plot_model_grid_per_freq cfg (eps 2%nat) [0; 1; 2; 3]%nat = Err IndexError).
    { assert (P : (0 < length (p_freqs cfg))%nat) by (destruct (p_freqs cfg); [congruence|cbn; lia]).
      assert (K : forall i r idx, (length (p_freqs cfg) <= i)%nat -> freq_panels cfg (eps 2%nat) idx (i :: r) = Err IndexError).
      { intros i r idx Hi. cbn [freq_panels]. destruct Sc as (S1 & S2 & S3).
        rewrite (mmap3_err _ IndexError _ _ _ _ _ (proj2 (Ev 2%nat)) S1 S2 S3); [reflexivity|]. intros v Hv.
        rewrite (proj2 (nth_error_None v i)) by lia. reflexivity. }
      unfold plot_model_grid_per_freq.
      destruct (freq_step cfg (eps 2%nat) 0 0 [1; 2; 3]%nat (proj2 (Ev 2%nat)) P ltac:(lia)) as [q0 [_ Q0]]. rewrite Q0.
      destruct (le_lt_dec (length (p_freqs cfg)) 1) as [H1|H1]; [rewrite K by exact H1; reflexivity|].
      destruct (freq_step cfg (eps 2%nat) 1 1 [2; 3]%nat (proj2 (Ev 2%nat)) H1 ltac:(lia)) as [q1 [_ Q1]]. rewrite Q1.
      destruct (le_lt_dec (length (p_freqs cfg)) 2) as [H2|H2]; [rewrite K by exact H2; reflexivity|].
      destruct (freq_step cfg (eps 2%nat) 2 2 [3]%nat (proj2 (Ev 2%nat)) H2 ltac:(lia)) as [q2 [_ Q2]]. rewrite Q2.
      rewrite K by lia. reflexivity. }
    rewrite E2. reflexivity.
Qed.
Lemma model_grid_drawn cfg eps : fits cfg eps ->
  exists ms v, plot_model_grid cfg eps = Ok ms /\ drawn cfg ms v
    /\ forall i j l, (i < p_Nx cfg)%nat -> (j < p_Ny cfg)%nat -> (l < p_N_layers cfg)%nat ->
         v i j l = Cabs (Csum (cell_eps eps i j l)) / INR (length (p_freqs cfg))
         /\ v i j l <= Rmean (map Cabs (cell_eps eps i j l))
         /\ (forall e n, (0 < n)%nat -> cell_eps eps i j l = repeat e n -> v i j l = Cabs e).
Proof.
  intros F. destruct (scatter_map cfg (fun l => Cabs (Cmean l)) eps 0 F) as [ms [E D]].
  eexists ms, _. split; [exact E|]. split; [exact D|]. intros i j l Hi Hj Hl. split; [|split; [apply Cabs_mean|]].
  { assert (Lc : length (cell_eps eps i j l) = length (p_freqs cfg)).
    { destruct F as [F1 F2]. unfold cell_eps. destruct (F2 (nth i eps []) ltac:(apply nth_In; lia)) as [F3 F4].
      destruct (F4 (nth j (nth i eps []) []) ltac:(apply nth_In; lia)) as [F5 F6]. apply F6. apply nth_In. lia. }
    unfold Cmean. rewrite Cabs_mul, Lc. destruct (length (p_freqs cfg)) as [|n] eqn:En.
    - destruct (cell_eps eps i j l); [|discriminate]. assert (E0 : Cabs (Csum []) = 0).
      { unfold Cabs, Cnorm2, Csum, C0. cbn. replace (0 * 0 + 0 * 0) with 0 by ring. apply sqrt_0. }
      rewrite E0. unfold Rdiv. ring.
    - rewrite Cabs_RtoC; [unfold Rdiv; ring|]. left. apply Rinv_0_lt_compat, lt_0_INR. lia. }
  intros e n Hn ->. rewrite mean_constant by exact Hn. reflexivity.
Qed.
Lemma epsilon_grid_drawn cfg eps : fits cfg eps ->
  exists ms v, plot_epsilon_grid cfg eps = Ok ms /\ drawn cfg ms v
    /\ forall i j l, (i < p_Nx cfg)%nat -> (j < p_Ny cfg)%nat -> (l < p_N_layers cfg)%nat ->
         v i j l = sqrt (Rsum (map (fun e => Cabs e * Cabs e) (cell_eps eps i j l)))
         /\ (forall e n, cell_eps eps i j l = repeat e n -> v i j l = sqrt (INR n) * Cabs e).
Proof.
  intros F. destruct (scatter_map cfg (fun l => sqrt (Rsum (map Cnorm2 l))) eps 0 F) as [ms [E D]].
  eexists ms, _. split; [exact E|]. split; [exact D|]. intros i j l _ _ _. split.
  - do 2 f_equal. apply map_ext. intros e. unfold Cabs. symmetry. apply sqrt_sqrt. apply Cnorm2_nonneg.
  - intros e n ->. apply norm_constant.
Qed.

Lemma model_grid_cancels : exists cfg eps, fits cfg eps /\ some_cell cfg
  /\ (forall i j l f, (i < p_Nx cfg)%nat -> (j < p_Ny cfg)%nat -> (l < p_N_layers cfg)%nat -> (f < length (p_freqs cfg))%nat ->
        Cabs (at4 eps C0 i j l f) = 1)
  /\ plot_model_grid cfg eps = Ok [(-1, -1, -1, 0)].
Proof.
  exists (mkPcfg 1 1 1 [1; 2] [] []), [[[[RtoC 1; RtoC (-1)]]]]. split.
  { split; [reflexivity|]. intros a [<-|[]]. split; [reflexivity|]. intros b [<-|[]]. split; [reflexivity|]. intros c [<-|[]]. reflexivity. }
  split; [repeat split; cbn; lia|]. split.
  - cbn. intros i j l f Hi Hj Hl Hf. assert (i = 0 /\ j = 0 /\ l = 0)%nat as (-> & -> & ->) by lia.
    unfold at4. cbn. assert (f = 0 \/ f = 1)%nat as [->| ->] by lia; unfold Cabs, Cnorm2; cbn.
    + replace (1 * 1 + 0 * 0) with (1 * 1) by ring. apply sqrt_square. lra.
    + replace (-1 * -1 + 0 * 0) with (1 * 1) by ring. apply sqrt_square. lra.
  - destruct (model_grid_drawn (mkPcfg 1 1 1 [1; 2] [] []) [[[[RtoC 1; RtoC (-1)]]]]) as (ms & v & E & [D1 D2] & V).
    { split; [reflexivity|]. intros a [<-|[]]. split; [reflexivity|]. intros b [<-|[]]. split; [reflexivity|]. intros c [<-|[]]. reflexivity. }
    rewrite E. f_equal. cbn in D1, D2, V. specialize (D2 0%nat 0%nat 0%nat ltac:(lia) ltac:(lia) ltac:(lia)).
    destruct (V 0%nat 0%nat 0%nat ltac:(lia) ltac:(lia) ltac:(lia)) as [V0 _]. cbn in D2. rewrite V0 in D2.
    destruct ms as [|m [|]]; cbn in D1; try lia. cbn in D2. injection D2 as ->. f_equal.
    f_equal. unfold cell_eps, Csum. cbn.
    unfold Cabs, Cnorm2. cbn. replace ((1 + (-1 + 0)) * (1 + (-1 + 0)) + (0 + (0 + 0)) * (0 + (0 + 0))) with 0 by ring. rewrite sqrt_0. unfold Rdiv. ring.
Qed.
