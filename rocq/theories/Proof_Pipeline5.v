(** Runs that cannot learn: negative permittivities, unknown solvers; the logs of
    TRCWA runs. *)
From Coq Require Import Reals ZArith String List Bool Lra Lia.
From mathcomp Require ssreflect ssrbool ssrnat.
From Verif Require Import Base BaseLemmas Cplx PyVal Spec_Config Model_Config Proof_Config Model_Units Model_Materials Model_EpsGrid Spec_EpsGrid Proof_EpsGrid
  Model_Losses Model_Layout Spec_Layout Proof_Layout Proof_Spectrum Proof_Spectrum2 Proof_Spectrum3 Proof_Vacuum Model_Networks Model_Start Proof_Start Proof_Start2 Model_Training Spec_Training Proof_Training
  Model_TRCWA Model_Modes Model_Dispatch Spec_Start Spec_Dispatch Proof_Dispatch Proof_Dispatch2
  Model_Pipeline Spec_Pipeline Proof_Pipeline Proof_Pipeline2 Proof_Pipeline3 Proof_Pipeline4.
Import ListNotations.
Open Scope R_scope.
Open Scope string_scope.

(** * Negative permittivities *)
Lemma avoid_negative c r : 0 < c -> r < 0 -> avoid_zero1 c r < 0.
Proof.
  intros Hc Hr. unfold avoid_zero1, Reqb. destruct (Req_EM_T r 0); [lra|].
  destruct (_ && _); [|exact Hr]. unfold sign. destruct (Rlt_dec 0 r); [lra|]. destruct (Rlt_dec r 0); [|lra]. lra.
Qed.
Lemma clip_negative lo hi x : hi < 0 -> clip lo hi x < 0.
Proof. intros H. unfold clip. apply Rle_lt_trans with hi; [apply Rmin_r|exact H]. Qed.

Lemma regression_negative cfg net nre nim g : e_rmax cfg < 0 -> regression_grid cfg net nre nim = Ok g -> forall e, entry4 g e -> Re e < 0.
Proof.
  intros HR H e He. unfold regression_grid in H.
  apply bind_ok in H. destruct H as (out & Hout & H). apply bind_ok in H. destruct H as (eps & Heps & H).
  injection H as <-. destruct (e_add_noise cfg).
  - unfold add_noise in He. apply entry4_map4i in He. destruct He as (x & y & l & w & a & ->). cbn [Re fst]. apply clip_negative. exact HR.
  - destruct out as [rows|gv].
    + apply bind_ok in Heps. destruct Heps as (o & Ho & Heps). destruct (_ && _); [|discriminate]. injection Heps as <-.
      apply entry4_map3 in He. destruct He as (a & b & c & _ & _ & _ & He). destruct e as [er ei].
      pose proof (in_combine_l _ _ _ _ He) as Hre. apply in_map_iff in Hre. destruct Hre as (o1 & <- & _). cbn [Re fst].
      unfold real_of. destruct (e_avoid_zero cfg); [apply avoid_negative; [unfold CUTOFF; lra|]|]; apply clip_negative; exact HR.
    + injection Heps as <-. apply entry4_map3 in He. destruct He as (a & b & c & _ & _ & _ & He).
      apply in_map_iff in He. destruct He as (z & <- & _). cbn [Re fst]. apply clip_negative. exact HR.
Qed.

Lemma grid_negative r m nre nim noise g ids rmax : get_str (r_cfg r) "type" = Ok "regression" -> get_real (r_cfg r) "real_max_eps" = Ok rmax -> rmax < 0 ->
  r_model r = Some m -> grid_of_run r nre nim noise = Ok (Some (g, ids)) -> forall e, entry4 g e -> Re e < 0.
Proof.
  intros Ty Mx Neg Em H. unfold grid_of_run in H. rewrite Em in H. apply bind_ok in H as (cfg & R & H).
  apply bind_ok in H as (net & N & H).
  assert (X : e_type cfg = "regression" /\ e_rmax cfg = rmax).
  { unfold read_eps in R. rewrite Ty, Mx in R.
    repeat match type of R with
    | bind (Ok _) _ = Ok _ => cbn [bind] in R
    | bind ?x _ = Ok _ => destruct x; [cbn [bind] in R|discriminate R]
    end. injection R as <-. cbn. auto. }
  destruct X as [X1 X2]. unfold model_to_eps_grid in H. rewrite X1 in H. cbn [String.eqb Ascii.eqb Bool.eqb] in H.
  apply bind_ok in H as (g' & G & H). injection H as <- _. apply (regression_negative cfg net nre nim g'); [lra|exact G].
Qed.

(** the slices of a grid *)
Definition slices_of (g : grid4 C) (nf : nat) : list eps_slice :=
  map (fun k => map (map (map (fun v => nth k v C0))) g) (seq 0 nf).

Lemma hd_nth {A} (l : list (list A)) : hd [] l = nth 0 l [].
Proof. destruct l; reflexivity. Qed.
Lemma lt_of (x n : nat) : is_true (ssrnat.leq (S x) n) -> (x < n)%nat.
Proof. intros H. apply (ssrbool.elimT ssrnat.leP) in H. exact H. Qed.

Lemma eps4_shape g a b e f : shape4 g a b e f -> (0 < a)%nat -> (0 < b)%nat -> (0 < e)%nat ->
  e_nx (eps4_of g) = a /\ e_ny (eps4_of g) = b /\ e_nl (eps4_of g) = e /\ e_nf (eps4_of g) = f.
Proof.
  intros (L & S) Ha Hb He. unfold eps4_of. cbn [e_nx e_ny e_nl e_nf]. split; [exact L|].
  destruct g as [|p g]; [cbn in L; lia|]. cbn [hd]. destruct (S p (or_introl eq_refl)) as [L1 S1]. split; [exact L1|].
  destruct p as [|q p]; [cbn in L1; lia|]. cbn [hd]. destruct (S1 q (or_introl eq_refl)) as [L2 S2]. split; [exact L2|].
  destruct q as [|u q]; [cbn in L2; lia|]. cbn [hd]. exact (S2 u (or_introl eq_refl)).
Qed.

Lemma eps4_no_nan g : no_nan (eps4_of g).
Proof. intros x y l f _ _ _ _. cbn. eauto. Qed.

Lemma nth_map_in {A B} (F : A -> B) l k d d' : (k < length l)%nat -> nth k (map F l) d = F (nth k l d').
Proof. intros H. rewrite (nth_indep _ d (F d')) by (rewrite map_length; exact H). apply map_nth. Qed.

Lemma slice_nth g f k : (k < f)%nat -> nth k (slices_of g f) [] = map (map (map (fun v => nth k v C0))) g.
Proof.
  intros H. unfold slices_of. erewrite nth_indep; [|rewrite map_length, seq_length; exact H].
  etransitivity; [refine (map_nth _ _ 0%nat _)|]. rewrite seq_nth by exact H. reflexivity.
Qed.

Lemma lt_len {A} (l : list A) a x : length l = a -> (x < a)%nat -> (x < length l)%nat.
Proof. intros <-. auto. Qed.

Lemma slices_lists g a b e f k : shape4 g a b e f -> (0 < a)%nat -> (0 < b)%nat -> (0 < e)%nat -> (k < f)%nat ->
  lists_of (eps4_of g) k (nth k (slices_of g f) []).
Proof.
  intros Sh Ha Hb He Hk. destruct (eps4_shape g a b e f Sh Ha Hb He) as (E1 & E2 & E3 & E4).
  rewrite slice_nth by exact Hk.
  unfold lists_of. rewrite E1, E2, E3. destruct Sh as (L & S). split; [rewrite map_length; exact L|].
  intros x Hx. apply lt_of in Hx. rewrite (nth_map_in _ _ x [] []) by (exact (lt_len _ _ _ L Hx)). rewrite map_length.
  destruct (S (nth x g []) (nth_In _ _ (lt_len _ _ _ L Hx))) as [L1 S1]. split; [exact L1|].
  intros y Hy. apply lt_of in Hy. rewrite (nth_map_in _ _ y [] []) by (exact (lt_len _ _ _ L1 Hy)). rewrite map_length.
  destruct (S1 (nth y (nth x g []) []) (nth_In _ _ (lt_len _ _ _ L1 Hy))) as [L2 S2]. split; [exact L2|].
  intros l Hl. apply lt_of in Hl. rewrite (nth_map_in _ _ l C0 []) by (exact (lt_len _ _ _ L2 Hl)). reflexivity.
Qed.

Lemma in_slice g a b e f k z : shape4 g a b e f -> (k < f)%nat -> In z (concat (concat (nth k (slices_of g f) []))) -> entry4 g z.
Proof.
  intros (_ & S) Hk. rewrite slice_nth by exact Hk.
  intros H. apply in_concat in H. destruct H as (q & Hq & Hz). apply in_concat in Hq. destruct Hq as (p & Hp & Hq).
  apply in_map_iff in Hp. destruct Hp as (p' & <- & Hp). apply in_map_iff in Hq. destruct Hq as (q' & <- & Hq).
  apply in_map_iff in Hz. destruct Hz as (u & <- & Hu). exists p', q', u. split; [exact Hp|]. split; [exact Hq|]. split; [exact Hu|].
  apply nth_In. destruct (S _ Hp) as [_ S1]. destruct (S1 _ Hq) as [_ S2]. rewrite (S2 _ Hu). exact Hk.
Qed.

Lemma slice_nonempty g a b e f k : shape4 g a b e f -> (0 < a)%nat -> (0 < b)%nat -> (0 < e)%nat -> (k < f)%nat ->
  concat (concat (nth k (slices_of g f) [])) <> [].
Proof.
  intros (L & S) Ha Hb He Hk. rewrite slice_nth by exact Hk.
  destruct g as [|p g]; [cbn in L; lia|]. destruct (S p (or_introl eq_refl)) as [L1 S1]. destruct p as [|q p]; [cbn in L1; lia|].
  destruct (S1 q (or_introl eq_refl)) as [L2 S2]. destruct q as [|u q]; [cbn in L2; lia|]. cbn. discriminate.
Qed.

Lemma negative_spectrum argsort eig c g a b e f c' wls fc : shape4 g a b e f -> (0 < a)%nat -> (0 < b)%nat -> (0 < e)%nat -> (0 < f)%nat ->
  (forall z, entry4 g z -> Re z < 0) -> entry c "solver" (VStr "FDTD") ->
  prepare_fdtd c = Ok (c', wls) -> read_fdtd c' = Ok fc -> wls <> [] -> f_thick fc <> [] ->
  compute_spectrum argsort eig (eps4_of g) c false = Err ValueError.
Proof.
  intros Sh Ha Hb He Hf Neg Sv P Rd Nw Nt. destruct (eps4_shape g a b e f Sh Ha Hb He) as (E1 & E2 & E3 & E4).
  rewrite (dispatch_fdtd_lists argsort eig (eps4_of g) c (slices_of g f) Sv).
  - unfold compute_spectrum_fdtd. rewrite P. cbn [bind fst snd]. rewrite Rd. cbn [bind].
    destruct wls as [|wl wls]; [congruence|]. cbn [spectra]. unfold get.
    assert (N : nth_error (slices_of g f) 0 = Some (nth 0 (slices_of g f) [])).
    { apply nth_error_nth'. unfold slices_of. rewrite map_length, seq_length. exact Hf. }
    rewrite N. cbn [bind]. rewrite (negative_permittivity fc wl _ Nt (slice_nonempty g a b e f 0 Sh Ha Hb He Hf)); [reflexivity|].
    intros z Hz. exact (Neg z (in_slice g a b e f 0 z Sh Hf Hz)).
  - rewrite E4. unfold slices_of. rewrite map_length, seq_length. reflexivity.
  - intros k Hk. rewrite E4 in Hk. apply lt_of in Hk. exact (slices_lists g a b e f k Sh Ha Hb He Hk).
  - apply eps4_no_nan.
Qed.

(** * Starting a regression from a config *)
Section start.
Variables (d : draws) (files : list mfile) (c : config) (w : list (option pyfloat)) (s : settings).
Hypothesis V : validate_config c = Ok w.
Hypothesis Ho : holds c s.
Hypothesis Ty : t_type s = "regression".
Hypothesis Mo : trainable s \/ t_model s = "voxel".

Lemma first_grid : exists r' m, init_training d files (mkRun c None None) = Ok r' /\ r_model r' = Some m
  /\ forall nre nim noise, exists g, grid_of_run (mkRun (r_cfg r') (Some m) (r_materials r')) nre nim noise = Ok (Some (g, None))
       /\ shape4 g (Z.to_nat (t_Nx s)) (Z.to_nat (t_Ny s)) (Z.to_nat (t_Nl s)) (Z.to_nat (t_Nf s)).
Proof.
  assert (X : exists r', init_training d files (mkRun c None None) = Ok r'
    /\ forall nre nim noise, exists g, grid_of_run r' nre nim noise = Ok (Some (g, None))
       /\ shape4 g (Z.to_nat (t_Nx s)) (Z.to_nat (t_Ny s)) (Z.to_nat (t_Nl s)) (Z.to_nat (t_Nf s))).
  { destruct Mo as [Tr|Vx].
    - destruct (start_runs d files c w s V Ho (or_introl Ty) Tr) as [r' E]. exists r'. split; [exact E|].
      intros nre nim noise. exact (first_regression d files c w s V Ho r' nre nim noise Ty Tr E).
    - exact (first_voxel d files c w s V Ho Ty Vx). }
  destruct X as [r' [E G]]. pose proof (start_model _ _ _ _ E) as M. cbn [r_model] in M. destruct M as (nc & m & _ & _ & Em).
  exists r', m. split; [exact E|]. split; [exact Em|]. intros nre nim noise. destruct (G nre nim noise) as [g H]. exists g.
  destruct r' as [c1 m1 ma]. cbn [r_cfg r_materials r_model] in *. subst m1. exact H.
Qed.

Lemma first_sizes : (0 < Z.to_nat (t_Nx s) /\ 0 < Z.to_nat (t_Ny s) /\ 0 < Z.to_nat (t_Nl s) /\ 0 < Z.to_nat (t_Nf s))%nat.
Proof. destruct (validate_sound _ _ V) as (_ & _ & W & R). pose proof (sizes c s Ho R) as (_ & H1 & H2 & _ & H3 & H4 & _). lia. Qed.
End start.

Lemma entries_start d files c r' k v : init_training d files (mkRun c None None) = Ok r' -> ~ In k start_keys -> entry c k v -> entry (r_cfg r') k v.
Proof. intros E N H. unfold entry. rewrite (start_lookup _ _ _ _ _ E N). exact H. Qed.

Section runs.
Variables (argsort : list R -> list nat) (eig : eig_oracle) (nre nim noise : nat -> nat -> nat -> nat -> nat -> R)
  (odd : config -> option (grid4 R) -> list pyfloat -> list pyfloat -> outcome).
Context {O : Type}.
Variables (adam : nat -> model -> O -> R -> model * O) (o0 : O) (d : draws) (files : list mfile).
Notation ev := (evaluate argsort eig nre nim noise odd).

Lemma started_from c w s r' m lr n : validate_config c = Ok w -> holds c s -> (forall x, In x (t_thickness s) -> 0 < x) ->
  init_training d files (mkRun c None None) = Ok r' -> r_model r' = Some m ->
  entry_num c "learning_rate" lr -> entry c "iterations" (VInt n) -> started d files (mkRun c None None) r' m lr n.
Proof. intros V Ho PT E Em El En. split; auto. exists (t_thickness s). split; [exact (h_thickness _ _ Ho)|exact PT]. Qed.

Lemma negative_run c w s lr n T w0 w1 p sx sy : validate_config c = Ok w -> holds c s -> t_type s = "regression" ->
  trainable s \/ t_model s = "voxel" -> fdtd_numbers c T w0 w1 p sx sy ->
  entry c "solver" (VStr "FDTD") -> t_rmax s < 0 -> entry_num c "learning_rate" lr -> entry c "iterations" (VInt n) ->
  exists r' m c2, init_training d files (mkRun c None None) = Ok r' /\ r_model r' = Some m
    /\ train argsort eig nre nim noise odd adam o0 d files (mkRun c None None) = Ok (mkRun c2 (Some m) (r_materials r'), ([], [], [])).
Proof.
  intros V Ho Ty Mo FN Sv Neg El En. destruct (first_grid d files c w s V Ho Ty Mo) as (r' & m & E & Em & G).
  destruct (first_sizes c w s V Ho) as (Hx & Hy & Hl & Hf).
  assert (PT : forall x, In x (t_thickness s) -> 0 < x).
  { destruct FN as [(l & EL & FL) _ _ _]. destruct (h_thickness _ _ Ho) as (l' & EL' & FL'). pose proof (entry_fun _ _ _ _ EL EL') as X. injection X as <-.
    intros x Hin. clear -FL FL' Hin. revert T FL. induction FL' as [|v y l ys A B IH]; intros T FL; [destruct Hin|].
    inversion FL; subst. destruct Hin as [<-|Hin]; [|eapply IH; eauto]. destruct H1 as [H1 H1']. rewrite A in H1. injection H1 as ->. exact H1'. }
  pose proof (started_from c w s r' m lr n V Ho PT E Em El En) as St.
  exists r', m, (config_left (r_cfg r')). split; [exact E|]. split; [exact Em|].
  rewrite (whole_run argsort eig nre nim noise odd adam o0 d files _ r' m lr n St).
  assert (FN' : fdtd_numbers (r_cfg r') T w0 w1 p sx sy).
  { destruct FN as [(l & E1 & F1) (v0 & v1 & rest & E2 & F2) E3 (u0 & u1 & rest' & E4 & F4)]. split.
    - exists l. split; [|exact F1]. apply (entries_start _ _ _ _ _ _ E); [cbn; intuition discriminate|exact E1].
    - exists v0, v1, rest. split; [|exact F2]. apply (entries_start _ _ _ _ _ _ E); [cbn; intuition discriminate|exact E2].
    - apply (entries_start _ _ _ _ _ _ E); [cbn; intuition discriminate|exact E3].
    - exists u0, u1, rest'. split; [|exact F4]. apply (entries_start _ _ _ _ _ _ E); [cbn; intuition discriminate|exact E4]. }
  assert (V' : valid (r_cfg r')).
  { destruct (start_user _ _ _ _ E) as [SV _]. cbn [r_cfg] in SV. rewrite V in SV. exact (validate_sound _ _ SV). }
  destruct (prepared (r_cfg r') T w0 w1 p sx sy V' FN') as (c' & wls & fc & N & dd & free & P & Rd & _ & _ & _ & LT & _ & _ & PN & PW & _).
  rewrite never_ok; [reflexivity|]. intros it. unfold evaluate. destruct (G (nre it) (nim it) (noise it)) as (g & Eg & Sh). rewrite Eg.
  rewrite (negative_spectrum argsort eig (r_cfg r') g _ _ _ _ c' wls fc Sh Hx Hy Hl Hf).
  - reflexivity.
  - apply (grid_negative (mkRun (r_cfg r') (Some m) (r_materials r')) m (nre it) (nim it) (noise it) g None (t_rmax s)).
    + cbn [r_cfg]. apply get_str_entry. apply (entries_start _ _ _ _ _ _ E); [cbn; intuition discriminate|]. rewrite <- Ty. exact (h_type _ _ Ho).
    + cbn [r_cfg]. apply get_real_num. destruct (h_rmax _ _ Ho) as (v & E1 & E2). exists v. split; [|exact E2].
      apply (entries_start _ _ _ _ _ _ E); [cbn; intuition discriminate|exact E1].
    + exact Neg.
    + reflexivity.
    + exact Eg.
  - apply (entries_start _ _ _ _ _ _ E); [cbn; intuition discriminate|exact Sv].
  - exact P.
  - exact Rd.
  - intros ->. cbn in PW. lia.
  - intros X. rewrite X in LT. cbn in LT. lia.
Qed.

Lemma unknown_run c w s lr n : validate_config c = Ok w -> holds c s -> t_type s = "regression" ->
  trainable s \/ t_model s = "voxel" /\ (forall x, In x (t_thickness s) -> 0 < x) ->
  ~ entry c "solver" (VStr "FDTD") -> ~ entry c "solver" (VStr "TRCWA") -> entry_num c "learning_rate" lr -> entry c "iterations" (VInt n) ->
  train argsort eig nre nim noise odd adam o0 d files (mkRun c None None) = Err TypeError.
Proof.
  intros V Ho Ty Mo N1 N2 El En.
  assert (Mo' : trainable s \/ t_model s = "voxel") by tauto.
  assert (PT : forall x, In x (t_thickness s) -> 0 < x) by (destruct Mo as [(_ & PT & _)|[_ PT]]; exact PT).
  destruct (first_grid d files c w s V Ho Ty Mo') as (r' & m & E & Em & G).
  pose proof (started_from c w s r' m lr n V Ho PT E Em El En) as St.
  rewrite (whole_run argsort eig nre nim noise odd adam o0 d files _ r' m lr n St). pose proof (started_n _ _ _ _ _ _ _ St) as Pn.
  assert (X : fst (ev (r_materials r') (r_cfg r') 0%nat m) = Raised TypeError).
  { unfold evaluate. destruct (G (nre 0%nat) (nim 0%nat) (noise 0%nat)) as (g & -> & _).
    assert (S : compute_spectrum argsort eig (eps4_of g) (r_cfg r') false = Ok NoSpectrum).
    { apply dispatch_none. unfold entry. rewrite (start_lookup _ _ _ _ _ E) by (cbn; intuition discriminate). split; assumption. }
    rewrite S. reflexivity. }
  destruct (Z.to_nat n) as [|k] eqn:Q; [lia|].
  rewrite (raised_propagates (fun it x => fst (ev (r_materials r') (r_cfg r') it x)) adam 0 (S k) m o0 lr (initial_state m o0 lr) TypeError); [reflexivity|reflexivity|exact X|lia].
Qed.
End runs.
