From Coq Require Import Reals ZArith String List Bool Lra Lia Psatz.
From Verif Require Import Base BaseLemmas PyVal Model_Units Model_Materials Model_EpsGrid Model_Coeffs Model_FDTD Spec_FDTD Proof_FDTD Model_Register Spec_Register Model_Layout Spec_Layout
  Proof_Layout Proof_Layout2 Proof_Vacuum Proof_Harmonic5 Proof_Harmonic7 Spec_Harmonic Spec_Slab Spec_Resolution.
Import ListNotations.
Open Scope R_scope.

Lemma step_pos c : proper c -> 0 < step_length c.
Proof.
  intros P. unfold step_length. pose proof (sqrt_lt_R0 2 ltac:(lra)) as S. assert (0 < f_scaling c) by (destruct P; assumption).
  assert (0 < UNIT_MAGNITUDE) by (unfold UNIT_MAGNITUDE; lra). apply Rmult_lt_0_compat; apply Rdiv_lt_0_compat; lra.
Qed.
Lemma c_pos : 0 < SPEED_OF_LIGHT.
Proof. unfold SPEED_OF_LIGHT. lra. Qed.

Lemma trunc_same x y (T : Z) : 0 <= x -> 0 <= y -> IZR T <= x < IZR T + 1 -> IZR T <= y < IZR T + 1 -> Rtrunc x = Rtrunc y.
Proof. intros X Y A B. rewrite !Rtrunc_nonneg by assumption. transitivity T; [apply Rfloor_unique; exact A|symmetry; apply Rfloor_unique; exact B]. Qed.

Lemma same_signal c wl1 wl2 : proper c -> 0 < wl1 -> 0 < wl2 -> same_period c wl1 wl2 ->
  handle_time (g_time_step (frame_grid c)) (PFloat (wl1 / SPEED_OF_LIGHT)) = handle_time (g_time_step (frame_grid c)) (PFloat (wl2 / SPEED_OF_LIGHT)).
Proof.
  intros P W1 W2 (T & A & B). pose proof (step_pos c P) as S. pose proof c_pos as C0. unfold period_steps in A, B.
  assert (E : g_time_step (frame_grid c) = step_length c / SPEED_OF_LIGHT). { unfold step_length. cbn [frame_grid g_time_step]. replace (INR 2) with 2 by (cbn; ring). reflexivity. }
  assert (Q : forall wl, wl / SPEED_OF_LIGHT / (step_length c / SPEED_OF_LIGHT) = wl / step_length c) by (intros wl; field; lra).
  cbn [handle_time]. rewrite E, !Q. assert (N : forall wl, 0 < wl -> 0 <= wl / step_length c + / 2) by (intros wl W; assert (0 < wl / step_length c) by (apply Rdiv_lt_0_compat; lra); lra).
  apply (trunc_same _ _ T); auto.
Qed.

Lemma same_source c wl1 wl2 : proper c -> 0 < wl1 -> 0 < wl2 -> f_pulse c = "continuous"%string -> same_period c wl1 wl2 -> forall x y,
  add_source x y (wl1 / SPEED_OF_LIGHT) (f_pulse c) (f_source c) (frame_grid c) = add_source x y (wl2 / SPEED_OF_LIGHT) (f_pulse c) (f_source c) (frame_grid c).
Proof.
  intros P W1 W2 K Sp x y. pose proof (same_signal c wl1 wl2 P W1 W2 Sp) as E. unfold add_source. rewrite K. cbn [signal_of String.eqb Ascii.eqb Bool.eqb].
  change (signal_of "continuous") with (Some SContinuous). cbv iota beta zeta.
  assert (Sg : source_signal (frame_grid c) (mkSource (PFloat (wl1 / SPEED_OF_LIGHT)) 1 0 5 (Some (/ 10 ^ 15)) SContinuous)
             = source_signal (frame_grid c) (mkSource (PFloat (wl2 / SPEED_OF_LIGHT)) 1 0 5 (Some (/ 10 ^ 15)) SContinuous)).
  { unfold source_signal. cbn [s_signal s_period s_phase]. rewrite E. reflexivity. }
  destruct (String.eqb (f_source c) "point").
  - unfold assign, setitem. destruct (pad_key _) as [[[kx ky] kz]|]; [|reflexivity]. cbn [register]. unfold register_point. rewrite Sg. reflexivity.
  - destruct (String.eqb (f_source c) "line"); [|reflexivity].
    unfold assign, setitem. destruct (pad_key _) as [[[kx ky] kz]|]; [|reflexivity]. cbn [register]. unfold register_line. rewrite Sg. reflexivity.
Qed.

Lemma same_layers wl1 wl2 s T l1 l2 : 0 < wl1 -> 0 < wl2 -> Forall2 (alike wl1 wl2) l1 l2 -> forall i x0 x1 g,
  add_layers s T (SPEED_OF_LIGHT / wl1) i x0 x1 l1 g = add_layers s T (SPEED_OF_LIGHT / wl2) i x0 x1 l2 g.
Proof.
  intros W1 W2 F. induction F as [|e1 e2 r1 r2 [A B] F IH]; intros i x0 x1 g; [reflexivity|]. cbn [add_layers].
  assert (O : add_object (Rtrunc (s * x0)) (Rtrunc (s * x1)) e1 (SPEED_OF_LIGHT / wl1) g = add_object (Rtrunc (s * x0)) (Rtrunc (s * x1)) e2 (SPEED_OF_LIGHT / wl2) g).
  { unfold add_object. rewrite A. replace (snd e1 * (SPEED_OF_LIGHT / wl1) * 2 * PI * EPS_0) with (snd e1 / wl1 * SPEED_OF_LIGHT * 2 * PI * EPS_0) by (field; lra).
    rewrite B. replace (snd e2 * (SPEED_OF_LIGHT / wl2) * 2 * PI * EPS_0) with (snd e2 / wl2 * SPEED_OF_LIGHT * 2 * PI * EPS_0) by (field; lra). reflexivity. }
  rewrite O. destruct (add_object _ _ e2 _ g) as [g'|]; [|reflexivity]. cbn [bind]. destruct F as [|f1 f2 q1 q2 Hf F]; [reflexivity|].
  destruct (get T i); [|reflexivity]. cbn [bind]. destruct (get T (S i)); [|reflexivity]. cbn [bind]. apply IH.
Qed.

Lemma get_alike {A} (Q : A -> A -> Prop) l1 l2 i : Forall2 Q l1 l2 -> match get l1 i, get l2 i with Ok a, Ok b => Q a b | Err e, Err f => e = f | _, _ => False end.
Proof.
  intros F. revert i. induction F as [|a b l1 l2 Hab F IH]; intros i; unfold get; [destruct i; reflexivity|]. destruct i; cbn [nth_error]; [exact Hab|]. apply IH.
Qed.

Lemma same_init c wl1 wl2 o1 o2 : proper c -> 1 <= f_scaling c * f_pml c -> 0 < wl1 -> 0 < wl2 -> f_pulse c = "continuous"%string -> same_period c wl1 wl2 ->
  match o1, o2 with Some s1, Some s2 => alike_slices wl1 wl2 s1 s2 | None, None => True | _, _ => False end ->
  init_fdtd c o1 wl1 = init_fdtd c o2 wl2.
Proof.
  intros P H1 W1 W2 K Sp O. rewrite !init_split by assumption. rewrite (same_source c wl1 wl2) by assumption.
  destruct (add_source _ _ _ _ _ _) as [g|]; [|reflexivity]. cbn [bind]. destruct o1 as [s1|], o2 as [s2|]; try contradiction; [|reflexivity]. cbv zeta.
  destruct (get (f_thick c) 0) as [t0|]; [|reflexivity]. cbn [bind].
  pose proof (get_alike _ s1 s2 0 O) as G. destruct (get s1 0) as [r1|], (get s2 0) as [r2|]; try contradiction; cbn [bind]; [|congruence].
  pose proof (get_alike _ r1 r2 0 G) as G'. destruct (get r1 0) as [l1|], (get r2 0) as [l2|]; try contradiction; cbn [bind]; [|congruence].
  apply same_layers; assumption.
Qed.

Lemma same_simulation c wl1 wl2 o1 o2 : proper c -> 1 <= f_scaling c * f_pml c -> 0 < wl1 -> 0 < wl2 -> f_pulse c = "continuous"%string -> same_period c wl1 wl2 ->
  match o1, o2 with Some s1, Some s2 => alike_slices wl1 wl2 s1 s2 | None, None => True | _, _ => False end ->
  simulate c o1 wl1 = simulate c o2 wl2.
Proof. intros. unfold simulate. rewrite (same_init c wl1 wl2 o1 o2) by assumption. reflexivity. Qed.

Lemma alike_reals wl1 wl2 s1 s2 : alike_slices wl1 wl2 s1 s2 -> map fst (concat (concat s1)) = map fst (concat (concat s2)).
Proof.
  intros F. assert (G : forall A (Q : A -> A -> Prop) l1 l2, Forall2 (Forall2 Q) l1 l2 -> Forall2 Q (concat l1) (concat l2)).
  { intros A Q l1 l2 H. induction H; cbn; [constructor|]. apply Forall2_app; assumption. }
  apply G, G in F. induction F as [|e1 e2 l1 l2 [A _] F IH]; [reflexivity|]. cbn. congruence.
Qed.

Lemma same_window c wl1 wl2 w : 0 < wl1 -> 0 < wl2 -> window_of c wl1 w -> window_of c wl2 w -> window_size (f_min_gp c) wl1 = window_size (f_min_gp c) wl2.
Proof.
  intros W1 W2 A B. unfold window_of in A, B. unfold window_size. f_equal. change (/ 10 ^ 6) with UNIT_MAGNITUDE || (assert (U : UNIT_MAGNITUDE = / 10 ^ 6) by (unfold UNIT_MAGNITUDE; field); rewrite <- U).
  assert (N : forall wl, 0 < wl -> 0 <= 3 * INR (f_min_gp c) * (wl / UNIT_MAGNITUDE)).
  { intros wl W. assert (0 < UNIT_MAGNITUDE) by (unfold UNIT_MAGNITUDE; lra). apply Rmult_le_pos; [apply Rmult_le_pos; [lra|apply pos_INR]|]. left. apply Rdiv_lt_0_compat; lra. }
  apply (trunc_same _ _ w); auto.
Qed.

Lemma same_entry c wl1 wl2 s1 s2 w : proper c -> 1 <= f_scaling c * f_pml c -> 0 < wl1 -> 0 < wl2 -> f_pulse c = "continuous"%string -> same_period c wl1 wl2 ->
  window_of c wl1 w -> window_of c wl2 w -> alike_slices wl1 wl2 s1 s2 -> one_wavelength c wl1 s1 = one_wavelength c wl2 s2.
Proof.
  intros P H1 W1 W2 K Sp V1 V2 A. unfold one_wavelength. rewrite (same_simulation c wl1 wl2 None None), (same_simulation c wl1 wl2 (Some s1) (Some s2)) by (assumption || exact I).
  rewrite (same_window c wl1 wl2 w W1 W2 V1 V2).
  assert (Rt : (exists a b, recommended_timesteps c wl1 s1 = Ok a /\ recommended_timesteps c wl2 s2 = Ok b) \/ exists e, recommended_timesteps c wl1 s1 = Err e /\ recommended_timesteps c wl2 s2 = Err e).
  { unfold recommended_timesteps. rewrite (alike_reals wl1 wl2 s1 s2 A). destruct (f_thick c) as [|t r].
    - left. eexists _, _. split; reflexivity.
    - destruct (map fst _) as [|q l]; [right; exists RuntimeError; split; reflexivity|]. destruct (Rltb _ 0); [right; exists ValueError; split; reflexivity|]. left. eexists _, _. split; reflexivity. }
  destruct Rt as [(a & b & E1 & E2)|(e & E1 & E2)]; rewrite E1, E2; reflexivity.
Qed.

Lemma lossless_alike wl1 wl2 s : lossless s -> alike_slices wl1 wl2 s s.
Proof.
  intros L. assert (G : forall A (Q : A -> A -> Prop) (l : list A), (forall x, In x l -> Q x x) -> Forall2 Q l l).
  { intros A Q l. induction l as [|a l IH]; intros H; constructor; [apply H; left; reflexivity|]. apply IH. intros x Hx. apply H. right. exact Hx. }
  apply G. intros row R1. apply G. intros cell R2. apply G. intros e R3. split; [reflexivity|]. rewrite (L row cell e R1 R2 R3). unfold Rdiv. rewrite !Rmult_0_l. reflexivity.
Qed.
Lemma same_entry_lossless c wl1 wl2 s w : proper c -> 1 <= f_scaling c * f_pml c -> 0 < wl1 -> 0 < wl2 -> f_pulse c = "continuous"%string -> same_period c wl1 wl2 ->
  window_of c wl1 w -> window_of c wl2 w -> lossless s -> one_wavelength c wl1 s = one_wavelength c wl2 s.
Proof. intros. apply (same_entry c wl1 wl2 s s w); try assumption. apply lossless_alike. assumption. Qed.

Lemma shift c wl T : proper c -> 0 < wl -> period_steps c wl T -> Rabs (IZR T * step_length c - wl) <= step_length c / 2.
Proof.
  intros P W H. pose proof (step_pos c P) as S. unfold period_steps in H. assert (E : wl = wl / step_length c * step_length c) by (field; lra).
  set (q := wl / step_length c) in *. rewrite E. apply Rabs_le. nra.
Qed.
Lemma apart c wl1 wl2 : proper c -> same_period c wl1 wl2 -> Rabs (wl1 - wl2) < step_length c.
Proof.
  intros P (T & A & B). pose proof (step_pos c P) as S. unfold period_steps in A, B. assert (E1 : wl1 = wl1 / step_length c * step_length c) by (field; lra). assert (E2 : wl2 = wl2 / step_length c * step_length c) by (field; lra).
  set (q1 := wl1 / step_length c) in *. set (q2 := wl2 / step_length c) in *. rewrite E1, E2. apply Rabs_def1; nra.
Qed.
Lemma every_wavelength c wl : exists T, period_steps c wl T /\ forall T', period_steps c wl T' -> T' = T.
Proof.
  exists (Rfloor (wl / step_length c + / 2)). split; [apply Rfloor_spec|]. intros T' H. symmetry. apply Rfloor_unique. exact H.
Qed.

(** the example *)
Lemma resolution_case : same_period stack_cfg (100 / 10 ^ 8) (101 / 10 ^ 8) /\ window_of stack_cfg (100 / 10 ^ 8) 30 /\ window_of stack_cfg (101 / 10 ^ 8) 30 /\ lossless glass_slice /\ f_pulse stack_cfg = "continuous"%string.
Proof.
  assert (S1 : 1.41 < sqrt 2) by (rewrite <- (sqrt_square 1.41) by lra; apply sqrt_lt_1; lra). assert (S2 : sqrt 2 < 1.42) by (rewrite <- (sqrt_square 1.42) by lra; apply sqrt_lt_1; lra).
  assert (Q : forall x, x / 10 ^ 8 / step_length stack_cfg = x * sqrt 2 / (99 / 10)) by (intros x; unfold step_length, UNIT_MAGNITUDE; cbn [f_scaling stack_cfg]; field; lra).
  split; [exists 14%Z; unfold period_steps; rewrite !Q; lra|].
  split; [unfold window_of, UNIT_MAGNITUDE; cbn [f_min_gp stack_cfg]; replace (INR 10) with 10 by (simpl; ring); lra|].
  split; [unfold window_of, UNIT_MAGNITUDE; cbn [f_min_gp stack_cfg]; replace (INR 10) with 10 by (simpl; ring); lra|].
  split; [|reflexivity]. intros row cell e [<-|[]] [<-|[]] [<-|[<-|[]]]; reflexivity.
Qed.

Lemma same_entries eps c r t c' wls f i j wl1 wl2 s1 s2 w : compute_spectrum_fdtd eps c = Ok (r, t, c') -> prepare_fdtd c = Ok (c', wls) -> read_fdtd c' = Ok f ->
  proper f -> 1 <= f_scaling f * f_pml f -> f_pulse f = "continuous"%string ->
  nth_error wls i = Some wl1 -> nth_error wls j = Some wl2 -> nth_error eps i = Some s1 -> nth_error eps j = Some s2 -> 0 < wl1 -> 0 < wl2 ->
  same_period f wl1 wl2 -> window_of f wl1 w -> window_of f wl2 w -> alike_slices wl1 wl2 s1 s2 ->
  nth_error t i = nth_error t j /\ nth_error r i = nth_error r j.
Proof.
  intros E Pr Rd P H1 K N1 N2 S1 S2 W1 W2 Sp V1 V2 A. destruct (spectrum_entries eps c r t c' E) as (f' & wls' & Pr' & Rd' & _ & _ & Q).
  rewrite Pr in Pr'. injection Pr' as <-. rewrite Rd in Rd'. injection Rd' as <-.
  destruct (Q i wl1 N1) as (x1 & t1 & r1 & X1 & O1 & T1 & R1). destruct (Q j wl2 N2) as (x2 & t2 & r2 & X2 & O2 & T2 & R2).
  rewrite S1 in X1. injection X1 as <-. rewrite S2 in X2. injection X2 as <-. rewrite (same_entry f wl1 wl2 s1 s2 w) in O1 by assumption. rewrite O2 in O1. injection O1 as <- <-.
  rewrite T1, T2, R1, R2. auto.
Qed.
Lemma resolution_apart : ~ same_period stack_cfg (100 / 10 ^ 8) (108 / 10 ^ 8).
Proof.
  intros S. apply apart in S; [|exact (proj1 stack_facts)]. assert (S1 : 1.41 < sqrt 2) by (rewrite <- (sqrt_square 1.41) by lra; apply sqrt_lt_1; lra).
  assert (L : step_length stack_cfg < 71 / 10 ^ 9).
  { unfold step_length, UNIT_MAGNITUDE. cbn [f_scaling stack_cfg]. assert (99 / 100 / sqrt 2 < 0.71). { apply Rmult_lt_reg_r with (sqrt 2); [lra|]. unfold Rdiv. rewrite Rmult_assoc, Rinv_l by lra. lra. } lra. }
  rewrite Rabs_left in S; lra.
Qed.
