(** Free space, signals that are still zero, and simulations that are too short. *)
From Coq Require Import Reals ZArith String List Bool Lra Lia Psatz.
From Verif Require Import Base BaseLemmas PyVal Spec_Config Model_Units Model_EpsGrid Model_Coeffs Spec_Coeffs Proof_Coeffs Model_FDTD Model_Register
  Spec_FDTD Spec_Register Model_Layout Spec_Layout Proof_FDTD Proof_Propagate Proof_Layout Proof_Spectrum Proof_Vacuum Proof_Window Proof_Readout Proof_Harmonic Proof_Harmonic5 Spec_Harmonic Proof_Harmonic7 Spec_Causal Proof_Causal Proof_Causal2.
Import ListNotations.
Open Scope R_scope.

Definition empty_stack (c : fdtd_cfg) : eps_slice := [[repeat (1, 0) (length (f_thick c))]].
Lemma empty_simulation c wl : proper c -> 1 <= f_scaling c * f_pml c -> known_kinds c -> 0 < wl -> f_thick c <> [] ->
  simulate c (Some (empty_stack c)) wl = simulate c None wl.
Proof.
  intros P H1 HK W HT. apply (vacuum_simulation c wl (empty_stack c) [repeat (1, 0) (length (f_thick c))] (repeat (1, 0) (length (f_thick c)))); try assumption; try reflexivity.
  - rewrite repeat_length. lia.
  - intros e He. apply repeat_spec in He. exact He.
Qed.
Lemma repeat_nonnil (A : Type) (x : A) n : (0 < n)%nat -> repeat x n <> [].
Proof. destruct n; [lia|discriminate]. Qed.
Lemma firstn_repeat' (A : Type) (x : A) n m : (n <= m)%nat -> firstn n (repeat x m) = repeat x n.
Proof. revert m. induction n as [|n IH]; intros m L; [reflexivity|]. destruct m; [lia|]. cbn. f_equal. apply IH. lia. Qed.

Lemma layers_fit c (s : eps_slice) wl row l t r : proper c -> 1 <= f_scaling c * f_pml c -> known_kinds c -> 0 < wl ->
  f_thick c <> [] -> get s 0 = Ok row -> get row 0 = Ok l -> l <> [] -> simulate c (Some s) wl = Ok (t, r) -> (length l <= length (f_thick c))%nat.
Proof.
  intros P H1 HK W HT R L E S. unfold simulate in S. apply bind_ok in S as (g & I & _).
  apply (proj1 (material_layout c s wl row l P H1 HK W HT R L E)). eauto.
Qed.

Lemma reflection_free c (s : eps_slice) wl row l j s0 tm rm tf rf : proper c -> 1 <= f_scaling c * f_pml c -> known_kinds c -> 0 < wl ->
  f_thick c <> [] -> get s 0 = Ok row -> get row 0 = Ok l -> l <> [] -> (forall e, In e l -> 0 < fst e /\ 0 <= snd e) ->
  (j <= length l)%nat -> (forall e, In e (firstn j l) -> e = (1, 0)) ->
  Rtrunc (f_src_x c * f_scaling c) = Z.of_nat s0 -> (pml_columns c <= S s0)%nat -> (S s0 < edge c j)%nat ->
  simulate c (Some s) wl = Ok (tm, rm) -> simulate c None wl = Ok (tf, rf) ->
  forall k, (k < return_time c s0 j)%nat -> nth_error rm k = nth_error rf k.
Proof.
  intros P H1 HK W HT R L E Ph J V Es Ps Sj S1 S2. rewrite <- (empty_simulation c wl P H1 HK W HT) in S2.
  pose proof (layers_fit c s wl row l tm rm P H1 HK W HT R L E S1) as Ll.
  assert (T0 : (0 < length (f_thick c))%nat) by (destruct (f_thick c); [congruence|cbn; lia]).
  eapply (reflection_unaware c s (empty_stack c) wl row _ l (repeat (1, 0) (length (f_thick c))) j s0 tm rm tf rf); try eassumption; try reflexivity.
  - apply repeat_nonnil, T0.
  - intros e [He|He]; [apply Ph, He|]. apply repeat_spec in He. rewrite He. cbn. lra.
  - rewrite repeat_length. lia.
  - rewrite firstn_repeat' by lia. assert (Lj : length (firstn j l) = j) by (rewrite firstn_length; lia). rewrite <- Lj at 2.
    clear - V. induction (firstn j l) as [|e r IH]; [reflexivity|]. cbn. rewrite (V e (or_introl eq_refl)). f_equal. apply IH. intros x Hx. apply V. right. exact Hx.
Qed.

Lemma signals_dark_some c (s : eps_slice) wl row l s0 t r : proper c -> 1 <= f_scaling c * f_pml c -> known_kinds c -> 0 < wl ->
  f_thick c <> [] -> get s 0 = Ok row -> get row 0 = Ok l -> l <> [] ->
  Rtrunc (f_src_x c * f_scaling c) = Z.of_nat s0 -> (pml_columns c <= S s0)%nat ->
  simulate c (Some s) wl = Ok (t, r) -> forall k, (k < Z.to_nat (f_niter c))%nat ->
  ((k < arrival_time c s0 (transmission_column c))%nat -> nth_error t k = Some 0)
  /\ ((k < arrival_time c s0 (reflection_column c))%nat -> nth_error r k = Some 0).
Proof.
  intros P H1 HK W HT R L E Es Ps S1 k Lk.
  destruct (simulate_signals c (Some s) wl t r P H1 HK W ltac:(right; exists s, row, l; auto) S1) as (g & I & _ & _ & K).
  assert (Ru : exists gk, run_steps (S k) g = Ok gk).
  { unfold simulate in S1. apply bind_ok in S1 as (g' & I' & S0). rewrite I in I'. injection I' as <-.
    apply bind_ok in S0 as (g'' & Q & _). unfold run_int in Q. replace (Z.to_nat (f_niter c)) with (S k + (Z.to_nat (f_niter c) - S k))%nat in Q by lia.
    rewrite run_steps_add in Q. apply bind_ok in Q as (gk & Q & _). eauto. }
  destruct Ru as (gk & Q). destruct (K k gk Lk Q) as [-> ->]. clear K.
  destruct (bounds_list c wl P H1 HK W) as (src & HS & Fr). pose proof (Fr s row l g HT R L E I) as F. clear Fr.
  destruct (start_dark c wl src g s0 P H1 HS F Es Ps) as (C & D & NX & NY & NZ).
  destruct (dark_run (S k) g gk _ _ _ _ C D ltac:(lia) ltac:(lia) Q) as (_ & (Z & _) & N).
  pose proof (positions c P) as (_ & _ & _ & _ & _ & q6 & _). specialize (q6 H1).
  assert (A : forall x, (x < columns c)%nat -> (k < arrival_time c s0 x)%nat -> column_mean gk x = 0).
  { intros x Hx Hk. unfold arrival_time in Hk. unfold column_mean.
    assert (Wi : forall y, (y < 3)%nat -> within (g_N gk) (S k + S s0) (columns c - pml_columns c - S k) (x, y, 0)%nat).
    { intros y Hy. split; [rewrite N; intros [| |]; cbn [coord]; lia|]. change (coord AX (x, y, 0)%nat) with x. lia. }
    rewrite !Z by (apply Wi; lia). lra. }
  pose proof (positions c P) as (p1 & p2 & p3 & p4 & p5 & _). pose proof (edge_le_end c 0 P).
  split; intros Hk; f_equal; apply A; lia || exact Hk.
Qed.

Lemma signals_dark c (obj : option eps_slice) wl s0 t r : proper c -> 1 <= f_scaling c * f_pml c -> known_kinds c -> 0 < wl -> f_thick c <> [] ->
  (obj = None \/ exists slice row layers, obj = Some slice /\ get slice 0 = Ok row /\ get row 0 = Ok layers /\ layers <> []
     /\ forall e, In e layers -> 0 < fst e /\ 0 <= snd e) ->
  Rtrunc (f_src_x c * f_scaling c) = Z.of_nat s0 -> (pml_columns c <= S s0)%nat ->
  simulate c obj wl = Ok (t, r) -> forall k, (k < Z.to_nat (f_niter c))%nat ->
  ((k < arrival_time c s0 (transmission_column c))%nat -> nth_error t k = Some 0)
  /\ ((k < arrival_time c s0 (reflection_column c))%nat -> nth_error r k = Some 0).
Proof.
  intros P H1 HK W HT [->|(s & row & l & -> & R & L & E & _)] Es Ps S1.
  - rewrite <- (empty_simulation c wl P H1 HK W HT) in S1.
    eapply (signals_dark_some c (empty_stack c) wl); try eassumption; try reflexivity. apply repeat_nonnil. destruct (f_thick c); [congruence|cbn; lia].
  - eapply signals_dark_some; eassumption.
Qed.

Lemma zero_square l : (forall k, (k < length l)%nat -> nth_error l k = Some 0) -> mean_square l = 0.
Proof.
  intros H. unfold mean_square. assert (Rsum (map (fun x => x * x) l) = 0) as ->; [|unfold Rdiv; ring].
  induction l as [|x l IH]; [reflexivity|]. pose proof (H 0%nat ltac:(cbn; lia)) as H0. cbn in H0. injection H0 as ->.
  unfold Rsum in *. cbn [map fold_right]. rewrite IH; [ring|]. intros k Hk. apply (H (S k)). cbn. lia.
Qed.

Lemma too_short f wl (slice : eps_slice) row layers s0 : proper f -> 1 <= f_scaling f * f_pml f -> known_kinds f -> usable_source f ->
  UNIT_MAGNITUDE <= wl * f_scaling f ->
  get slice 0 = Ok row -> get row 0 = Ok layers -> f_thick f <> [] -> layers <> [] -> (length layers <= length (f_thick f))%nat ->
  (exists e, In e (concat (concat slice)) /\ 0 <= fst e) ->
  Rtrunc (f_src_x f * f_scaling f) = Z.of_nat s0 -> (pml_columns f <= S s0)%nat ->
  (Z.to_nat (f_niter f) <= arrival_time f s0 (transmission_column f) \/ Z.to_nat (f_niter f) <= arrival_time f s0 (reflection_column f))%nat ->
  one_wavelength f wl slice = Err ValueError.
Proof.
  intros P H1 HK HU Hw HR HL HT HE LL He Es Ps HN.
  destruct (entry_value f wl slice row layers P H1 HK HU Hw HR HL HT HE LL He) as (tf & rf & tm & rm & A1 & A2 & A3 & A4 & A5 & A6 & A7).
  rewrite A7. assert (W : 0 < wl). { pose proof (pr_scaling _ P). assert (0 < UNIT_MAGNITUDE) by (unfold UNIT_MAGNITUDE; lra). apply Rmult_lt_reg_r with (f_scaling f); lra. }
  pose proof (signals_dark f None wl s0 tf rf P H1 HK W HT (or_introl eq_refl) Es Ps A1) as D.
  assert (P15 : 0 <= / 10 ^ 15) by (left; apply Rinv_0_lt_compat, pow_lt; lra).
  apply dark_freespace; [congruence|]. destruct HN as [HN|HN]; [left|right]; rewrite zero_square; try exact P15; intros k Hk; apply D; lia.
Qed.


(** ** Cases *)
Lemma stack_edge : edge stack_cfg 1 = 35%nat.
Proof. unfold edge, layer_begin. col. Qed.
Lemma stack_times : return_time stack_cfg 15 0 = 8%nat /\ return_time stack_cfg 15 1 = 28%nat
  /\ arrival_time stack_cfg 15 (transmission_column stack_cfg) = 8%nat /\ arrival_time stack_cfg 15 (reflection_column stack_cfg) = 8%nat.
Proof.
  destruct stack_facts as (_ & _ & _ & C & PC & E & E2 & _). pose proof stack_edge as E1.
  unfold return_time, arrival_time, reflection_column, transmission_column, material_end. change (length (f_thick stack_cfg)) with 2%nat. rewrite C, PC, E, E1, E2. repeat split.
Qed.
Definition other_slice : eps_slice := [[[(4, 0); (9, 1)]]].
Lemma stack_runs (s : eps_slice) row l : get s 0 = Ok row -> get row 0 = Ok l -> l <> [] -> (length l <= 2)%nat -> exists t r, simulate stack_cfg (Some s) (1 / 1000000) = Ok (t, r) /\ length r = 400%nat.
Proof.
  intros R L E N. destruct stack_facts as (P & KN & US & _).
  destruct (simulate_ok stack_cfg (Some s) (1 / 1000000) P ltac:(cbn; lra) KN US ltac:(unfold UNIT_MAGNITUDE; cbn; lra)) as (t & r & S & _ & Lr).
  - right. exists s, row, l. repeat split; auto. discriminate.
  - exists t, r. split; [exact S|exact Lr].
Qed.
(** Two stacks that differ in the second layer: 28 equal samples. *)
Lemma unaware_case : exists t1 r1 t2 r2, simulate stack_cfg (Some stack_slice) (1 / 1000000) = Ok (t1, r1) /\ simulate stack_cfg (Some other_slice) (1 / 1000000) = Ok (t2, r2)
  /\ length r1 = 400%nat /\ forall k, (k < 28)%nat -> nth_error r1 k = nth_error r2 k.
Proof.
  destruct (stack_runs stack_slice [[(4, 0); (2, 1 / 10)]] [(4, 0); (2, 1 / 10)] eq_refl eq_refl ltac:(discriminate) ltac:(cbn; lia)) as (t1 & r1 & S1 & L1).
  destruct (stack_runs other_slice [[(4, 0); (9, 1)]] [(4, 0); (9, 1)] eq_refl eq_refl ltac:(discriminate) ltac:(cbn; lia)) as (t2 & r2 & S2 & L2).
  exists t1, r1, t2, r2. split; [exact S1|]. split; [exact S2|]. split; [exact L1|].
  destruct stack_facts as (P & KN & US & C & PC & _ & _ & T). destruct stack_times as (_ & RT & _).
  intros k Hk. eapply (reflection_unaware stack_cfg stack_slice other_slice (1 / 1000000) _ _ [(4, 0); (2, 1 / 10)] [(4, 0); (9, 1)] 1 15 t1 r1 t2 r2); try eassumption; try reflexivity; try discriminate; try (cbn; lra).
  - intros e [[<-|[<-|[]]]|[<-|[<-|[]]]]; cbn; lra.
  - cbn. lia.
  - cbn. lia.
  - rewrite PC. lia.
  - rewrite stack_edge. lia.
  - rewrite RT. exact Hk.
Qed.
(** The same stack with eight time steps. *)
Definition short_cfg : fdtd_cfg := mkFcfg 10 (3 / 2) 1 [1; 1] 1 (3 / 2) 1 "continuous"%string "line"%string 8 10.
Lemma short_case : one_wavelength short_cfg (1 / 1000000) stack_slice = Err ValueError.
Proof.
  destruct stack_facts as (P & KN & US & C & PC & _ & _ & T). destruct stack_times as (_ & _ & TT & _).
  apply (too_short short_cfg (1 / 1000000) stack_slice [[(4, 0); (2, 1 / 10)]] [(4, 0); (2, 1 / 10)] 15); try reflexivity; try discriminate.
  - destruct P as [a b d e f h]. constructor; assumption.
  - cbn. lra.
  - exact KN.
  - exact US.
  - unfold UNIT_MAGNITUDE. cbn. lra.
  - exists (4, 0). split; [left; reflexivity|cbn; lra].
  - exact T.
  - change (pml_columns stack_cfg <= 16)%nat. rewrite PC. lia.
  - left. change (8 <= arrival_time stack_cfg 15 (transmission_column stack_cfg))%nat. rewrite TT. lia.
Qed.
