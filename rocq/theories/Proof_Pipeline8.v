(** The loss of an evaluation, and the tensor the solver gets. *)
From Coq Require Import Reals ZArith String List Bool Lra Lia.
From Verif Require Import Base BaseLemmas Cplx PyVal Spec_Config Model_Config Proof_Config Model_Materials Model_EpsGrid Spec_EpsGrid
  Model_Losses Spec_Losses Proof_Losses Model_Layout Proof_Spectrum2 Model_Networks Model_Start Proof_Start Proof_Start2 Model_Training Spec_Training Proof_Training
  Model_TRCWA Model_Modes Model_Dispatch Spec_Start Spec_Dispatch Proof_Dispatch2
  Model_Pipeline Spec_Pipeline Proof_Pipeline Proof_Pipeline2 Proof_Pipeline3 Proof_Pipeline4 Proof_Pipeline5.
Import ListNotations.
Open Scope R_scope.
Open Scope string_scope.

Lemma tensor g a b e f : shape4 g a b e f -> (0 < a)%nat -> (0 < b)%nat -> (0 < e)%nat ->
  e_nx (eps4_of g) = a /\ e_ny (eps4_of g) = b /\ e_nl (eps4_of g) = e /\ e_nf (eps4_of g) = f
  /\ forall x y l k p q u z, nth_error g x = Some p -> nth_error p y = Some q -> nth_error q l = Some u -> nth_error u k = Some z ->
       e_at (eps4_of g) x y l k = Some z.
Proof.
  intros Sh Ha Hb He. destruct (eps4_shape g a b e f Sh Ha Hb He) as (E1 & E2 & E3 & E4). repeat (split; [assumption|]).
  intros x y l k p q u z H1 H2 H3 H4. cbn [eps4_of e_at].
  rewrite (nth_error_nth g x [] H1), (nth_error_nth p y [] H2), (nth_error_nth q l [] H3), (nth_error_nth u k C0 H4). reflexivity.
Qed.

Lemma fins_map l : fins (map Fin l) = Some l.
Proof. induction l as [|x l IH]; [reflexivity|]. cbn [map fins]. rewrite IH. reflexivity. Qed.

Lemma losses_value c ids rs ts tR tT fs L a x : get_reals c "target_reflectance_spectrum" = Ok tR -> get_reals c "target_transmittance_spectrum" = Ok tT ->
  get_reals c "target_frequencies" = Ok fs -> entry_num c "L" L -> 0 < L -> entry c "absorption_loss" (VBool a) -> regularisation c ids L x ->
  rs <> [] -> length ts = length rs -> length tR = length rs -> length tT = length rs -> length fs = length rs -> physical rs ts ->
  losses_of c ids rs ts = Ok (Done (Fin (mean_loss L a rs ts tR tT + x)) (Fin (mean_loss 1 false rs ts tR tT)) false).
Proof.
  intros E1 E2 E3 E4 PL E5 Rg N L1 L2 L3 L4 Ph. unfold losses_of. rewrite E1, E2, E3. cbn [bind]. rewrite (get_real_num _ _ _ E4). cbn [bind].
  rewrite (proj2 (getitem_entry _ _ _) E5). cbn [bind truthy].
  assert (TA : truthy (VBool a) = a) by reflexivity.
  rewrite (spectrum_loss_value rs ts tR tT fs L a PL N L1 L2 L3 L4 Ph). cbn [bind].
  rewrite (spectrum_loss_value rs ts tR tT fs 1 false Rlt_0_1 N L1 L2 L3 L4 Ph). cbn [bind fst snd].
  destruct Rg as [[T ->]|[(T & U & ->)|(T & U & w & i & W & -> & ->)]]; rewrite (proj2 (getitem_entry _ _ _) T); cbn [bind py_eqb].
  - rewrite (Rplus_0_r (mean_loss L a rs ts tR tT)). reflexivity.
  - change (String.eqb "classification" "classification") with true. cbn iota. rewrite (proj2 (getitem_entry _ _ _) U). cbn [bind truthy]. rewrite (Rplus_0_r (mean_loss L a rs ts tR tT)). reflexivity.
  - change (String.eqb "classification" "classification") with true. cbn iota. rewrite (proj2 (getitem_entry _ _ _) U). cbn [bind truthy].
    rewrite (get_real_num _ _ _ W). reflexivity.
Qed.

Section loss.
Variables (argsort : list R -> list nat) (eig : eig_oracle) (nre nim noise : nat -> nat -> nat -> nat -> nat -> R)
  (odd : config -> option (grid4 R) -> list pyfloat -> list pyfloat -> outcome)
  (d : draws) (files : list mfile) (r r' : run) (m : model) (lr : R) (n : Z).
Hypothesis S0 : started d files r r' m lr n.

Lemma started_L L : entry_num (r_cfg r) "L" L -> 0 < L.
Proof.
  intros (v & E1 & E2). destruct (start_valid _ _ _ _ (st_init _ _ _ _ _ _ _ S0)) as (_ & _ & _ & RO).
  destruct (ro_pos _ RO "L") as (v' & x & F1 & F2 & F3); [cbn; tauto|].
  pose proof (entry_fun _ _ _ _ E1 F1). subst v'. rewrite E2 in F2. injection F2 as <-. inversion F3. assumption.
Qed.

Lemma evaluation_loss tR tT fs L a w g ids it rs ts x :
  entry_nums (r_cfg r) "target_reflectance_spectrum" tR -> entry_nums (r_cfg r) "target_transmittance_spectrum" tT ->
  entry_nums (r_cfg r') "target_frequencies" fs -> entry_num (r_cfg r) "L" L -> entry (r_cfg r) "absorption_loss" (VBool a) ->
  grid_of_run (mkRun (r_cfg r') (Some w) (r_materials r')) (nre it) (nim it) (noise it) = Ok (Some (g, ids)) ->
  spectrum_is (compute_spectrum argsort eig (eps4_of g) (r_cfg r') false) rs ts -> regularisation (r_cfg r) ids L x ->
  rs <> [] -> length ts = length rs -> length tR = length rs -> length tT = length rs -> length fs = length rs -> physical rs ts ->
  fst (evaluate argsort eig nre nim noise odd (r_materials r') (r_cfg r') it w)
  = Done (Fin (mean_loss L a rs ts tR tT + x)) (Fin (mean_loss 1 false rs ts tR tT)) false.
Proof.
  intros E1 E2 E3 E4 E5 G Sp Rg N L1 L2 L3 L4 Ph. unfold evaluate. rewrite G. pose proof (st_init _ _ _ _ _ _ _ S0) as E.
  assert (K : forall c, (forall k, k <> "PER_LAYER_THICKNESS" -> k <> "FDTD_grid_scaling" -> lookup c k = lookup (r_cfg r') k) ->
    losses_of c ids rs ts = Ok (Done (Fin (mean_loss L a rs ts tR tT + x)) (Fin (mean_loss 1 false rs ts tR tT)) false)).
  { intros c Hc. assert (X : forall k, ~ In k ["PER_LAYER_THICKNESS"; "FDTD_grid_scaling"] -> ~ In k start_keys -> lookup c k = lookup (r_cfg r) k).
    { intros k K1 K2. rewrite Hc by (intros ->; apply K1; cbn; tauto). exact (start_lookup _ _ _ _ _ E K2). }
    assert (XE : forall k v, ~ In k ["PER_LAYER_THICKNESS"; "FDTD_grid_scaling"] -> ~ In k start_keys -> entry (r_cfg r) k v -> entry c k v)
      by (intros k v K1 K2; unfold entry; rewrite X by assumption; auto).
    apply (losses_value c ids rs ts tR tT fs L a x); try assumption.
    - apply get_reals_nums. destruct E1 as (l & A & B). exists l. split; [apply XE; [cbn; intuition discriminate..|exact A]|exact B].
    - apply get_reals_nums. destruct E2 as (l & A & B). exists l. split; [apply XE; [cbn; intuition discriminate..|exact A]|exact B].
    - apply get_reals_nums. destruct E3 as (l & A & B). exists l. split; [unfold entry; rewrite Hc by discriminate; exact A|exact B].
    - destruct E4 as (v & A & B). exists v. split; [apply XE; [cbn; intuition discriminate..|exact A]|exact B].
    - exact (started_L L E4).
    - apply XE; [cbn; intuition discriminate..|exact E5].
    - destruct Rg as [[T Z]|[(T & U & Z)|(T & U & w0 & i & (v & W1 & W2) & I & Z)]]; [left|right; left|right; right].
      + split; [apply XE; [cbn; intuition discriminate..|exact T]|exact Z].
      + split; [apply XE; [cbn; intuition discriminate..|exact T]|]. split; [apply XE; [cbn; intuition discriminate..|exact U]|exact Z].
      + split; [apply XE; [cbn; intuition discriminate..|exact T]|]. split; [apply XE; [cbn; intuition discriminate..|exact U]|].
        exists w0, i. split; [|split; assumption]. exists v. split; [apply XE; [cbn; intuition discriminate..|exact W1]|exact W2]. }
  destruct Sp as [(cr & ct & Es & -> & ->)|(c' & Es)]; rewrite Es.
  - cbn [fst]. rewrite (K (r_cfg r')) by reflexivity. reflexivity.
  - rewrite !fins_map. cbn [fst]. destruct (start_points _ _ _ _ E) as [wls F].
    assert (P : c' = config_left (r_cfg r')).
    { unfold compute_spectrum in Es. cbn [bind] in Es. unfold config_left. destruct (solver_is (r_cfg r') "FDTD").
      - destruct (has_nan (eps4_of g)); [discriminate|]. unfold compute_spectrum_fdtd in Es.
        destruct (prepare_fdtd (r_cfg r')) as [[c1 w1]|]; [cbn [bind fst snd] in *|discriminate].
        destruct (read_fdtd c1) as [fc|]; [cbn [bind] in Es|discriminate]. destruct (spectra fc w1 0 _) as [tr|]; [cbn [bind] in Es|discriminate].
        injection Es as _ _ Es. symmetry. exact Es.
      - destruct (solver_is (r_cfg r') "TRCWA"); [|discriminate]. destruct (has_nan (eps4_of g)); [discriminate|].
        destruct (read_trcwa (r_cfg r')) as [u|]; [cbn [bind] in Es|discriminate]. destruct (compute_spectrum_trcwa _ _ _ u); discriminate. }
    subst c'. rewrite (K (config_left (r_cfg r'))) by exact (proj1 (config_left_facts _ _ F)). reflexivity.
Qed.
End loss.
