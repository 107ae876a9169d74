(** The signals of a simulation depend only on the permittivity of each column. *)
From Coq Require Import Reals ZArith String List Bool Lra Lia Psatz.
From Verif Require Proof_Plane.
From Verif Require Import Base BaseLemmas PyVal Spec_Config Model_Units Model_EpsGrid Model_Coeffs Spec_Coeffs Proof_Coeffs Model_FDTD Model_Register
  Spec_FDTD Spec_Register Model_Layout Spec_Layout Proof_FDTD Proof_Propagate Proof_Layout Proof_Spectrum Proof_Vacuum Proof_Window Proof_Readout Proof_Harmonic Proof_Harmonic5 Proof_Causal Proof_Causal2 Spec_Twin Proof_Twin Spec_Cut.
Import ListNotations.
Open Scope R_scope.

Lemma nth_error_same {A} (l1 l2 : list A) : (forall k, nth_error l1 k = nth_error l2 k) -> l1 = l2.
Proof.
  revert l2. induction l1 as [|a l1 IH]; intros [|b l2] H; [reflexivity|discriminate (H 0%nat)|discriminate (H 0%nat)|].
  injection (H 0%nat) as <-. f_equal. apply IH. intros k. exact (H (S k)).
Qed.
Lemma shows_some c layers x : proper c -> exists e, shows c layers x e.
Proof.
  intros P. destruct (Nat.lt_ge_cases x (edge c 0)) as [A|A]; [exists (1, 0); right; auto|].
  destruct (Nat.lt_ge_cases x (edge c (length layers))) as [B|B]; [|exists (1, 0); right; auto].
  destruct (layer_of c x (length layers) ltac:(lia)) as (j & J & L). exists (nth j layers (0, 0)). left. exists j. auto.
Qed.
Lemma shows_z c slice wl row layers g p e : proper c -> 1 <= f_scaling c * f_pml c -> known_kinds c -> 0 < wl ->
  f_thick c <> [] -> get slice 0 = Ok row -> get row 0 = Ok layers -> layers <> [] -> init_fdtd c (Some slice) wl = Ok g ->
  in_grid (g_N g) p -> shows c layers (coord AX p) e ->
  g_ie g p AZ = 1 / fst e /\ g_abs g p AZ = / 2 * g_courant g * (1 / fst e) * conductivity e wl * g_spacing g * ETA_0.
Proof.
  intros P H1 HK Hw HT HR HL HE I G S. destruct (material_layout c slice wl row layers P H1 HK Hw HT HR HL HE) as [_ M].
  destruct (M g I) as (_ & _ & K). destruct (K p AZ G) as [V W]. destruct S as [(j & J & L & <-)|[O ->]].
  - destruct (W j J L) as (X & _ & Y). cbn zeta in *. rewrite Y, (X Logic.I). auto.
  - destruct (V O) as [-> ->]. unfold conductivity. cbn [fst snd]. split; [field|ring].
Qed.

Lemma frame_same c ts1 ts2 : same_box (with_thick c ts1) (with_thick c ts2) -> frame_grid (with_thick c ts1) = frame_grid (with_thick c ts2).
Proof. intros [C T]. unfold frame_grid. rewrite C, T. reflexivity. Qed.
Lemma sum_box c ts1 ts2 : Rsum ts1 = Rsum ts2 -> same_box (with_thick c ts1) (with_thick c ts2).
Proof.
  intros E. split; [unfold columns, column; cbn [with_thick f_scaling f_pml f_free f_thick]; rewrite E; reflexivity|].
  unfold transmission_column; rewrite !material_end_eq; unfold column; cbn [with_thick f_scaling f_pml f_free f_thick f_det]; rewrite E; reflexivity.
Qed.
Lemma free_same c ts1 ts2 wl : proper (with_thick c ts1) -> proper (with_thick c ts2) -> 1 <= f_scaling c * f_pml c -> same_box (with_thick c ts1) (with_thick c ts2) ->
  simulate (with_thick c ts1) None wl = simulate (with_thick c ts2) None wl.
Proof.
  intros P1 P2 H1 E. unfold simulate. rewrite (init_split _ _ _ P1 H1), (init_split _ _ _ P2 H1), (frame_same c ts1 ts2 E). reflexivity.
Qed.

Lemma start_twins c ts1 ts2 wl (s1 s2 : eps_slice) row1 row2 l1 l2 g1 g2 : let c1 := with_thick c ts1 in let c2 := with_thick c ts2 in
  proper c1 -> proper c2 -> 1 <= f_scaling c * f_pml c -> known_kinds c -> 0 < wl -> same_box c1 c2 -> ts1 <> [] -> ts2 <> [] ->
  get s1 0 = Ok row1 -> get row1 0 = Ok l1 -> l1 <> [] -> get s2 0 = Ok row2 -> get row2 0 = Ok l2 -> l2 <> [] ->
  (forall x e, (x < columns c1)%nat -> shows c1 l1 x e -> shows c2 l2 x e) ->
  init_fdtd c1 (Some s1) wl = Ok g1 -> init_fdtd c2 (Some s2) wl = Ok g2 -> same_polarization AZ true g1 g2.
Proof.
  intros c1 c2 P1 P2 H1 HK Hw E T1 T2 R1 L1 E1 R2 L2 E2 Sh I1 I2.
  destruct (source_ok c1 wl P1 HK Hw) as (src & HS & ES).
  assert (Fr : forall ts s row l g, same_box c1 (with_thick c ts) -> proper (with_thick c ts) -> ts <> [] -> get s 0 = Ok row -> get row 0 = Ok l -> l <> [] -> init_fdtd (with_thick c ts) (Some s) wl = Ok g ->
     same_frame (add_source_ src (named (source_name c) (frame_grid c1))) g).
  { clear - H1 HK Hw ES. intros ts slice row layers g E P HT HR HL HE H. rewrite (init_split (with_thick c ts) (Some slice) wl P H1) in H.
    rewrite <- (frame_same c ts1 ts E) in H. fold c1 in H. set (cc := with_thick c ts) in *.
    change (f_src_x cc) with (f_src_x c1) in H. change (f_scaling cc) with (f_scaling c1) in H. change (f_src_y cc) with (f_src_y c1) in H. change (f_pulse cc) with (f_pulse c1) in H. change (f_source cc) with (f_source c1) in H.
    rewrite ES in H. change (f_scaling c1) with (f_scaling cc) in H. cbn [bind] in H. cbv zeta in H.
    assert (T0 : (0 < length (f_thick cc))%nat) by (cbn; destruct ts; [congruence|cbn; lia]).
    rewrite (get_some _ 0 0) in H by exact T0. cbn [bind] in H. rewrite HR in H. cbn [bind] in H. rewrite HL in H. cbn [bind] in H.
    assert (B0 : f_pml cc + f_free cc = layer_begin cc 0) by (unfold layer_begin; cbn; lra).
    rewrite B0, <- layer_begin_S in H by exact T0. change (source_name c1) with (source_name cc) in H. change (source_name c) with (source_name cc).
    assert (FC : frame_grid c1 = frame_grid cc) by (apply frame_same, E). rewrite FC in *.
    set (g0 := add_source_ src (named (source_name cc) (frame_grid cc))) in *.
    assert (LL : (0 + length layers <= length (f_thick cc))%nat)
      by (eapply (proj1 (add_layers_ok cc (SPEED_OF_LIGHT / wl) P layers 0 g0 eq_refl eq_refl eq_refl T0 HE)); eauto).
    assert (V : forall p a, g_ie g0 p a = 1) by (intros; cbn; field).
    destruct (add_layers_spec cc _ P layers 0 g0 g eq_refl eq_refl eq_refl LL (fun p a _ _ => V p a) H) as [F _]. exact F. }
  pose proof (Fr ts1 s1 row1 l1 g1 (conj eq_refl eq_refl) P1 T1 R1 L1 E1 I1) as F1. pose proof (Fr ts2 s2 row2 l2 g2 E P2 T2 R2 L2 E2 I2) as F2. clear Fr ES.
  destruct F1 as (a1 & a2 & a3 & a4 & a5 & a6 & a7 & a8 & a9 & a10 & a11). destruct F2 as (b1 & b2 & b3 & b4 & b5 & b6 & b7 & b8 & b9 & b10 & b11).
  assert (M : forall p, in_grid (g_N g1) p -> g_ie g1 p AZ = g_ie g2 p AZ /\ g_abs g1 p AZ = g_abs g2 p AZ).
  { intros p G. destruct (shows_some c1 l1 (coord AX p) P1) as (e & S).
    assert (X : (coord AX p < columns c1)%nat) by (pose proof (G AX) as GX; rewrite a1 in GX; exact GX).
    destruct (shows_z c1 s1 wl row1 l1 g1 p e P1 H1 HK Hw T1 R1 L1 E1 I1 G S) as [-> ->].
    destruct (shows_z c2 s2 wl row2 l2 g2 p e P2 H1 HK Hw T2 R2 L2 E2 I2 ltac:(rewrite b1, <- a1; exact G) (Sh _ e X S)) as [-> ->].
    split; [reflexivity|]. congruence. }
  unfold same_polarization. split; [congruence|]. split; [rewrite a1; reflexivity|]. do 3 (split; [congruence|]).
  split; [intros p x _ _; congruence|]. split; [intros p x _ _; congruence|]. split; [intros p x G ->; apply M, G|]. split; [intros p x G ->; apply M, G|].
  split; [intros p x _ _; congruence|]. rewrite a10, b10. cbn [add_source_ named frame_grid g_boundaries].
  constructor; [repeat split|]. constructor; [repeat split|]. constructor; [reflexivity|constructor].
Qed.

Lemma signals_columns c ts1 ts2 wl (s1 s2 : eps_slice) row1 row2 l1 l2 t1 r1 t2 r2 : let c1 := with_thick c ts1 in let c2 := with_thick c ts2 in
  proper c1 -> proper c2 -> 1 <= f_scaling c * f_pml c -> known_kinds c -> 0 < wl -> same_box c1 c2 -> ts1 <> [] -> ts2 <> [] ->
  get s1 0 = Ok row1 -> get row1 0 = Ok l1 -> l1 <> [] -> get s2 0 = Ok row2 -> get row2 0 = Ok l2 -> l2 <> [] ->
  (forall x e, (x < columns c1)%nat -> shows c1 l1 x e -> shows c2 l2 x e) ->
  simulate c1 (Some s1) wl = Ok (t1, r1) -> simulate c2 (Some s2) wl = Ok (t2, r2) -> t1 = t2 /\ r1 = r2.
Proof.
  intros c1 c2 P1 P2 H1 HK Hw E T1 T2 R1 L1 E1 R2 L2 E2 Sh S1 S2.
  destruct (simulate_signals c1 (Some s1) wl t1 r1 P1 H1 HK Hw ltac:(right; exists s1, row1, l1; auto) S1) as (g1 & I1 & Lt1 & Lr1 & K1).
  destruct (simulate_signals c2 (Some s2) wl t2 r2 P2 H1 HK Hw ltac:(right; exists s2, row2, l2; auto) S2) as (g2 & I2 & Lt2 & Lr2 & K2).
  pose proof (start_twins c ts1 ts2 wl s1 s2 row1 row2 l1 l2 g1 g2 P1 P2 H1 HK Hw E T1 T2 R1 L1 E1 R2 L2 E2 Sh I1 I2) as T.
  change (f_niter c1) with (f_niter c) in *. change (f_niter c2) with (f_niter c) in *. set (n := Z.to_nat (f_niter c)) in *.
  assert (Ru : forall ts g s t r, init_fdtd (with_thick c ts) (Some s) wl = Ok g -> simulate (with_thick c ts) (Some s) wl = Ok (t, r) -> forall k, (k < n)%nat -> exists gk, run_steps (S k) g = Ok gk).
  { intros ts g s t r I S0 k Lk. unfold simulate in S0. apply bind_ok in S0 as (g' & I' & S0). rewrite I in I'. injection I' as <-.
    apply bind_ok in S0 as (g'' & R & _). unfold run_int in R. change (Z.to_nat (f_niter (with_thick c ts))) with n in R. replace n with (S k + (n - S k))%nat in R by lia.
    rewrite run_steps_add in R. apply bind_ok in R as (gk & R & _). eauto. }
  pose proof (proj2 E) as CT.
  assert (CR : reflection_column c1 = reflection_column c2) by reflexivity.
  pose proof (positions c1 P1) as (q1 & q2 & q3 & q4 & q5 & q6 & _). specialize (q6 H1). pose proof (edge_le_end c1 0 P1) as q7.
  assert (B : (transmission_column c1 < columns c1)%nat /\ (reflection_column c1 < columns c1)%nat) by lia.
  assert (N1 : g_N g1 = shape_of (columns c1) 3 1).
  { destruct (bounds_list c1 wl P1 H1 HK Hw) as (src & _ & Fr). destruct (Fr s1 row1 l1 g1 T1 R1 L1 E1 I1) as (a1 & _). exact a1. }
  assert (Kk : forall k, (k < n)%nat -> nth_error t1 k = nth_error t2 k /\ nth_error r1 k = nth_error r2 k).
  { intros k Lk. destruct (Ru ts1 g1 s1 t1 r1 I1 S1 k Lk) as (k1 & Q1). destruct (Ru ts2 g2 s2 t2 r2 I2 S2 k Lk) as (k2 & Q2).
    destruct (K1 k k1 Lk Q1) as [-> ->]. destruct (K2 k k2 Lk Q2) as [-> ->]. rewrite <- CT, <- CR.
    pose proof (twin_run _ _ _ _ _ _ _ T Q1 Q2) as (TN & _ & _ & _ & _ & TE & _).
    assert (NK : g_N k1 = shape_of (columns c1) 3 1) by (rewrite <- N1; exact (proj1 (Proof_Plane.run_frame _ _ _ Q1))).
    assert (C : forall x, (x < columns c1)%nat -> column_mean k1 x = column_mean k2 x).
    { intros x Hx. unfold column_mean. rewrite !TE; try reflexivity; rewrite NK; intros [| |]; cbn [coord shape_of fst snd]; lia. }
    rewrite !C by apply B. auto. }
  split; apply nth_error_same; intros k; (destruct (Nat.lt_ge_cases k n) as [Lk|Lk]; [apply Kk, Lk|]).
  - rewrite (proj2 (nth_error_None t1 k)), (proj2 (nth_error_None t2 k)) by lia. reflexivity.
  - rewrite (proj2 (nth_error_None r1 k)), (proj2 (nth_error_None r2 k)) by lia. reflexivity.
Qed.

Lemma usable_box c ts1 ts2 : same_box (with_thick c ts1) (with_thick c ts2) -> usable_source (with_thick c ts1) -> usable_source (with_thick c ts2).
Proof. intros [E _] [U V]. split; [rewrite <- E; exact U|exact V]. Qed.
Lemma entry_columns c ts1 ts2 wl (s1 s2 : eps_slice) row1 row2 l1 l2 : let c1 := with_thick c ts1 in let c2 := with_thick c ts2 in
  proper c1 -> proper c2 -> 1 <= f_scaling c * f_pml c -> known_kinds c -> usable_source c1 -> UNIT_MAGNITUDE <= wl * f_scaling c ->
  same_box c1 c2 -> ts1 <> [] -> ts2 <> [] ->
  get s1 0 = Ok row1 -> get row1 0 = Ok l1 -> l1 <> [] -> get s2 0 = Ok row2 -> get row2 0 = Ok l2 -> l2 <> [] ->
  (length l1 <= length ts1)%nat -> (length l2 <= length ts2)%nat ->
  (exists d, In d (concat (concat s1)) /\ 0 <= fst d) -> (exists d, In d (concat (concat s2)) /\ 0 <= fst d) ->
  (forall x e, (x < columns c1)%nat -> shows c1 l1 x e -> shows c2 l2 x e) ->
  one_wavelength c1 wl s1 = one_wavelength c2 wl s2.
Proof.
  intros c1 c2 P1 P2 H1 HK HU Hw E T1 T2 R1 L1 E1 R2 L2 E2 N1 N2 D1 D2 Sh. pose proof (usable_box c ts1 ts2 E HU) as U2. fold c2 in U2.
  destruct (entry_value c1 wl s1 row1 l1 P1 H1 HK HU Hw R1 L1 T1 E1 N1 D1) as (tf & rf & tm & rm & F1 & M1 & _ & _ & _ & _ & ->).
  destruct (entry_value c2 wl s2 row2 l2 P2 H1 HK U2 Hw R2 L2 T2 E2 N2 D2) as (tf2 & rf2 & tm2 & rm2 & F2 & M2 & _ & _ & _ & _ & ->).
  assert (W : 0 < wl). { pose proof (pr_scaling _ P1) as p0. cbn in p0. assert (0 < UNIT_MAGNITUDE) by (unfold UNIT_MAGNITUDE; lra). apply Rmult_lt_reg_r with (f_scaling c); lra. }
  destruct (signals_columns c ts1 ts2 wl s1 s2 row1 row2 l1 l2 tm rm tm2 rm2 P1 P2 H1 HK W E T1 T2 R1 L1 E1 R2 L2 E2 Sh M1 M2) as [-> ->].
  unfold c1, c2 in F1, F2. rewrite (free_same c _ _ wl P1 P2 H1 E) in F1. rewrite F1 in F2. injection F2 as <- <-. reflexivity.
Qed.

(** The thicknesses matter only through the columns where the layers begin. *)
Lemma entry_edges c ts1 ts2 wl (s : eps_slice) row l : let c1 := with_thick c ts1 in let c2 := with_thick c ts2 in
  proper c1 -> proper c2 -> 1 <= f_scaling c * f_pml c -> known_kinds c -> usable_source c1 -> UNIT_MAGNITUDE <= wl * f_scaling c ->
  ts1 <> [] -> get s 0 = Ok row -> get row 0 = Ok l -> l <> [] -> (length l <= length ts1)%nat -> (exists d, In d (concat (concat s)) /\ 0 <= fst d) ->
  length ts1 = length ts2 -> columns c1 = columns c2 -> (forall j, (j <= length ts1)%nat -> edge c1 j = edge c2 j) ->
  one_wavelength c1 wl s = one_wavelength c2 wl s.
Proof.
  intros c1 c2 P1 P2 H1 HK HU Hw T1 R1 L1 E1 N1 D LL C Ed.
  assert (SB : same_box c1 c2). { split; [exact C|]. unfold transmission_column, material_end. change (f_thick c1) with ts1. change (f_thick c2) with ts2. rewrite <- LL, Ed by lia. reflexivity. }
  apply (entry_columns c ts1 ts2 wl s s row row l l); try assumption.
  - intros ->. destruct ts1; [congruence|discriminate].
  - rewrite <- LL. exact N1.
  - intros x e _ [(j & J & L & E)|[O ->]]; subst c1 c2.
    + left. exists j. rewrite <- !Ed by lia. auto.
    + right. rewrite <- !Ed by lia. auto.
Qed.

(** ** Cutting a layer in two *)
Section Cut.
  Variables (c : fdtd_cfg) (ts1 ts2 : list R) (a b : R).
  Hypotheses (A0 : 0 < a) (B0 : 0 < b).
  Let c1 := with_thick c (ts1 ++ (a + b) :: ts2).
  Let c2 := with_thick c (ts1 ++ a :: b :: ts2).
  Lemma cut_sum : Rsum (ts1 ++ (a + b) :: ts2) = Rsum (ts1 ++ a :: b :: ts2).
  Proof using. rewrite !BaseLemmas.Rsum_app. cbn [Rsum fold_right]. ring. Qed.
  Lemma cut_proper : proper c1 -> proper c2.
  Proof using A0 B0.
    intros [p1 p2 p3 p4 p5 p6]. constructor; try assumption. cbn [c1 c2 with_thick f_thick] in *. apply Forall_app in p4 as [X Y]. apply Forall_app. split; [exact X|].
    inversion Y; subst. repeat constructor; assumption.
  Qed.
  Lemma cut_edge_low j : (j <= length ts1)%nat -> edge c2 j = edge c1 j.
  Proof using.
    intros H. unfold edge, layer_begin, column. cbn [c1 c2 with_thick f_thick f_scaling f_pml f_free]. rewrite !firstn_app.
    replace (j - length ts1)%nat with 0%nat by lia. reflexivity.
  Qed.
  Lemma cut_edge_high j : (length ts1 < j)%nat -> edge c2 (S j) = edge c1 j.
  Proof using.
    intros H. unfold edge, layer_begin, column. cbn [c1 c2 with_thick f_thick f_scaling f_pml f_free]. rewrite !firstn_app.
    rewrite !(firstn_all2 (n := j) ts1), !(firstn_all2 (n := S j) ts1) by lia.
    destruct (Nat.le_exists_sub (S (length ts1)) j H) as (m & Em & _).
    replace (S j - length ts1)%nat with (S (S m)) by lia. replace (j - length ts1)%nat with (S m) by lia.
    cbn [firstn]. rewrite !BaseLemmas.Rsum_app. cbn [Rsum fold_right]. match goal with |- Z.to_nat (Rfloor ?x) = Z.to_nat (Rfloor ?y) => replace x with y by ring; reflexivity end.
  Qed.
  Variables (es1 es2 : list (R * R)) (e : R * R).
  Hypothesis Le : length es1 = length ts1.
  Hypothesis P : proper c1.
  Lemma cut_shows x d : shows c1 (es1 ++ e :: es2) x d -> shows c2 (es1 ++ e :: e :: es2) x d.
  Proof using A0 B0 Le P.
    pose proof (cut_proper P) as P2. set (n := length ts1) in *. intros [(j & J & L & E)|[O ->]].
    - rewrite app_length in J. cbn [length] in J. left. destruct (Nat.lt_trichotomy j n) as [H|[H|H]].
      + exists j. rewrite app_length, !cut_edge_low by (fold n; lia). cbn [length]. split; [lia|]. split; [exact L|]. rewrite app_nth1 in * by lia. exact E.
      + subst j. assert (E' : d = e) by (rewrite <- E, app_nth2, Le, Nat.sub_diag by lia; reflexivity). clear E. subst d.
        rewrite <- (cut_edge_low n), <- (cut_edge_high (S n)) in L by (fold n; lia).
        destruct (Nat.lt_ge_cases x (edge c2 (S n))) as [X|X].
        * exists n. rewrite app_length. cbn [length]. split; [lia|]. split; [lia|]. rewrite app_nth2, Le, Nat.sub_diag by lia. reflexivity.
        * exists (S n). rewrite app_length. cbn [length]. split; [lia|]. split; [lia|]. rewrite app_nth2 by lia. replace (S n - length es1)%nat with 1%nat by lia. reflexivity.
      + exists (S j). rewrite app_length, !cut_edge_high by (fold n; lia). cbn [length]. split; [lia|]. split; [exact L|].
        rewrite app_nth2 in * by lia. replace (S j - length es1)%nat with (S (S (j - n - 1))) by lia. replace (j - length es1)%nat with (S (j - n - 1)) in E by lia. exact E.
    - right. split; [|reflexivity]. rewrite app_length in *. cbn [length] in *. rewrite cut_edge_low by lia.
      replace (length es1 + S (S (length es2)))%nat with (S (length es1 + S (length es2))) by lia. rewrite cut_edge_high by (fold n; lia). exact O.
  Qed.
End Cut.

Lemma signals_cut c ts1 ts2 a b wl es1 es2 e t1 r1 t2 r2 : let c1 := with_thick c (ts1 ++ (a + b) :: ts2) in let c2 := with_thick c (ts1 ++ a :: b :: ts2) in
  0 < a -> 0 < b -> proper c1 -> 1 <= f_scaling c * f_pml c -> known_kinds c -> 0 < wl -> length es1 = length ts1 ->
  simulate c1 (Some [[es1 ++ e :: es2]]) wl = Ok (t1, r1) -> simulate c2 (Some [[es1 ++ e :: e :: es2]]) wl = Ok (t2, r2) -> t1 = t2 /\ r1 = r2.
Proof.
  intros c1 c2 A B P H1 HK Hw Le. apply (signals_columns c (ts1 ++ (a + b) :: ts2) (ts1 ++ a :: b :: ts2) wl _ _ [es1 ++ e :: es2] [es1 ++ e :: e :: es2] (es1 ++ e :: es2) (es1 ++ e :: e :: es2)); try assumption; try reflexivity.
  - apply cut_proper; assumption.
  - apply sum_box, cut_sum.
  - destruct ts1; discriminate.
  - destruct ts1; discriminate.
  - destruct es1; discriminate.
  - destruct es1; discriminate.
  - intros x d _. apply cut_shows; assumption.
Qed.
Lemma entry_cut c ts1 ts2 a b wl es1 es2 e : let c1 := with_thick c (ts1 ++ (a + b) :: ts2) in let c2 := with_thick c (ts1 ++ a :: b :: ts2) in
  0 < a -> 0 < b -> proper c1 -> 1 <= f_scaling c * f_pml c -> known_kinds c -> usable_source c1 -> UNIT_MAGNITUDE <= wl * f_scaling c ->
  length es1 = length ts1 -> (length es2 <= length ts2)%nat -> (exists d, In d (es1 ++ e :: es2) /\ 0 <= fst d) ->
  one_wavelength c2 wl [[es1 ++ e :: e :: es2]] = one_wavelength c1 wl [[es1 ++ e :: es2]].
Proof.
  intros c1 c2 A B P H1 HK HU Hw Le Le2 (d & D & D0). pose proof (cut_proper c ts1 ts2 a b A B P) as P2. fold c2 in P2.
  symmetry. apply (entry_columns c (ts1 ++ (a + b) :: ts2) (ts1 ++ a :: b :: ts2) wl _ _ [es1 ++ e :: es2] [es1 ++ e :: e :: es2] (es1 ++ e :: es2) (es1 ++ e :: e :: es2)); try assumption; try reflexivity.
  { apply sum_box, cut_sum. } { destruct ts1; discriminate. } { destruct ts1; discriminate. } { destruct es1; discriminate. } { destruct es1; discriminate. }
  { rewrite !app_length. cbn. lia. } { rewrite !app_length. cbn. lia. }
  { exists d. cbn. rewrite !app_nil_r. auto. }
  { exists d. split; [|exact D0]. cbn. rewrite !app_nil_r. apply in_app_or in D as [D|D]; apply in_or_app; [left; exact D|right; right; exact D]. }
  intros x k _. apply cut_shows; assumption.
Qed.

(** ** Running longer *)
Lemma signals_longer c (obj : option eps_slice) wl n n' t r t' r' : proper c -> 1 <= f_scaling c * f_pml c -> known_kinds c -> 0 < wl ->
  (obj = None \/ exists slice row layers, obj = Some slice /\ get slice 0 = Ok row /\ get row 0 = Ok layers) -> (0 <= n <= n')%Z ->
  simulate (with_niter c n) obj wl = Ok (t, r) -> simulate (with_niter c n') obj wl = Ok (t', r') ->
  t = firstn (Z.to_nat n) t' /\ r = firstn (Z.to_nat n) r'.
Proof.
  intros P H1 HK Hw HO Hn S1 S2.
  assert (Pn : forall m, proper (with_niter c m)) by (intros m; destruct P; constructor; assumption).
  destruct (simulate_signals (with_niter c n) obj wl t r (Pn n) H1 HK Hw HO S1) as (g1 & I1 & Lt1 & Lr1 & K1).
  destruct (simulate_signals (with_niter c n') obj wl t' r' (Pn n') H1 HK Hw HO S2) as (g2 & I2 & Lt2 & Lr2 & K2).
  assert (I : init_fdtd (with_niter c n) obj wl = init_fdtd (with_niter c n') obj wl) by reflexivity. rewrite I1, I2 in I. injection I as ->.
  cbn [with_niter f_niter] in *.
  assert (K : forall k, (k < Z.to_nat n)%nat -> nth_error t k = nth_error t' k /\ nth_error r k = nth_error r' k).
  { intros k Lk. assert (exists gk, run_steps (S k) g2 = Ok gk) as [gk Q].
    { unfold simulate in S1. rewrite I1 in S1. cbn [bind] in S1. apply bind_ok in S1 as (g'' & R & _). unfold run_int in R. cbn [with_niter f_niter] in R.
      replace (Z.to_nat n) with (S k + (Z.to_nat n - S k))%nat in R by lia. rewrite run_steps_add in R. apply bind_ok in R as (gk & R & _). eauto. }
    destruct (K1 k gk Lk Q) as [-> ->]. destruct (K2 k gk ltac:(lia) Q) as [-> ->]. auto. }
  assert (G : forall (u v : list R), length u = Z.to_nat n -> (forall k, (k < Z.to_nat n)%nat -> nth_error u k = nth_error v k) -> u = firstn (Z.to_nat n) v).
  { clear. intros u v. generalize (Z.to_nat n) as m. intros m. revert u v. induction m as [|m IH]; intros u v L H.
    - destruct u; [reflexivity|discriminate].
    - destruct u as [|x u]; [discriminate|]. destruct v as [|y v]; [discriminate (H 0%nat ltac:(lia))|]. injection (H 0%nat ltac:(lia)) as <-. cbn [firstn]. f_equal.
      apply IH; [injection L; auto|]. intros k Hk. apply (H (S k)). lia. }
  split; apply G; try assumption; intros k Hk; apply K, Hk.
Qed.

(** ** All wavelengths *)
Lemma spectra_ext c1 c2 : forall wls i (eps1 eps2 : list eps_slice), length eps1 = length eps2 ->
  (forall k wl s1 s2, nth_error wls k = Some wl -> nth_error eps1 (i + k) = Some s1 -> nth_error eps2 (i + k) = Some s2 -> one_wavelength c1 wl s1 = one_wavelength c2 wl s2) ->
  spectra c1 wls i eps1 = spectra c2 wls i eps2.
Proof.
  induction wls as [|wl wls IH]; intros i eps1 eps2 L H; [reflexivity|]. cbn [spectra]. unfold get.
  destruct (nth_error eps1 i) as [s1|] eqn:N1.
  2: { apply nth_error_None in N1. rewrite (proj2 (nth_error_None eps2 i)) by lia. reflexivity. }
  destruct (nth_error eps2 i) as [s2|] eqn:N2.
  2: { apply nth_error_None in N2. assert (nth_error eps1 i <> None) by congruence. apply nth_error_Some in H0. lia. }
  cbn [bind]. rewrite (H 0%nat wl s1 s2 eq_refl) by (rewrite Nat.add_0_r; assumption). rewrite (IH (S i) eps1 eps2 L); [reflexivity|].
  intros k wl' u1 u2 K A1 A2. apply (H (S k) wl' u1 u2 K); rewrite <- Nat.add_succ_comm; assumption.
Qed.
Lemma spectra_cut c ts1 ts2 a b wls (stacks : list (list (R * R) * (R * R) * list (R * R))) : let c1 := with_thick c (ts1 ++ (a + b) :: ts2) in let c2 := with_thick c (ts1 ++ a :: b :: ts2) in
  0 < a -> 0 < b -> proper c1 -> 1 <= f_scaling c * f_pml c -> known_kinds c -> usable_source c1 ->
  (forall wl, In wl wls -> UNIT_MAGNITUDE <= wl * f_scaling c) ->
  (forall es1 e es2, In (es1, e, es2) stacks -> length es1 = length ts1 /\ (length es2 <= length ts2)%nat /\ exists d, In d (es1 ++ e :: es2) /\ 0 <= fst d) ->
  spectra c2 wls 0 (map (fun s => [[fst (fst s) ++ snd (fst s) :: snd (fst s) :: snd s]]) stacks)
  = spectra c1 wls 0 (map (fun s => [[fst (fst s) ++ snd (fst s) :: snd s]]) stacks).
Proof.
  intros c1 c2 A B P H1 HK HU Hw Hs. apply spectra_ext; [rewrite !map_length; reflexivity|]. intros k wl s1 s2 K A1 A2. cbn [Nat.add] in A1, A2. rewrite nth_error_map in A1, A2.
  destruct (nth_error stacks k) as [[[es1 e] es2]|] eqn:N; [|discriminate]. cbn [option_map fst snd] in A1, A2. injection A1 as <-. injection A2 as <-.
  destruct (Hs es1 e es2 (nth_error_In _ _ N)) as (L1 & L2 & D). apply entry_cut; try assumption. apply Hw, (nth_error_In _ _ K).
Qed.
