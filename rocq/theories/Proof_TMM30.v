(** Inputs for which the incoherent method succeeds. *)
From Coq Require Import Reals ZArith String List Bool Lia Lra Psatz.
From Verif Require Import Base PyVal Cplx CplxLemmas Model_TMM Model_TMM2 Model_TMM3 Spec_TMM Spec_TMM3.
From Verif Require Import Proof_TMM Proof_TMM2 Proof_TMM3 Proof_TMM4 Proof_TMM5 Proof_TMM6 Proof_TMM7 Proof_TMM9 Proof_TMM16 Proof_TMM22 Proof_TMM23 Proof_TMM24 Proof_TMM25 Proof_TMM26 Proof_TMM27 Proof_TMM28.
Import ListNotations.
Open Scope R_scope.

Section Coh.
Variable arcsin : C -> C.
Hypothesis inv : inverts_sine arcsin.
Hypothesis pri : principal arcsin.
Variables (pol : string) (lam s : R).
Hypothesis Hpol : pol = "s"%string \/ pol = "p"%string.
Hypothesis Hlam : 0 < lam.

Definition fits (n : list C) (d : list pyfloat) : Prop :=
  (2 <= length n)%nat /\ length d = length n /\ (nth 0 d NaN = PInf /\ nth (length n - 1) d NaN = PInf) /\
  (forall i, (0 < i)%nat -> (S i < length n)%nat -> exists x, nth i d NaN = Fin x /\ 0 <= x /\
        Im (nth i n C0 * Ccos (arcsin (RtoC s / nth i n C0)))%C * (2 * PI / lam) * x <= 35) /\
  (forall i, (i < length n)%nat -> admits s (nth i n C0)).

Lemma coh_one n d th : fits n d -> (nth 0 n C0 * Csin th)%C = RtoC s -> 0 < Re (Ccos th) ->
  exists c, coh_tmm arcsin pol n d th lam = Ok c /\ no_opaque_layer c /\ 0 < c_T c.
Proof.
  intros (F1 & F2 & F3 & F4 & F5) Hs Hth.
  destruct (coh_tmm_succeeds arcsin inv pri pol n d th lam s Hpol F1 F2 F3 F4 Hlam Hs Hth F5) as (c & Hc & Et). exists c. split; [exact Hc|].
  assert (Ct : forall i, (i < length n)%nat -> nth i (c_th c) C0 = arcsin (RtoC s / nth i n C0)%C).
  { intros i Hi. rewrite Et. set (f := fun x => arcsin (RtoC s / x)%C). rewrite (nth_indep _ _ (f C0)) by (rewrite map_length; exact Hi). rewrite map_nth. reflexivity. }
  destruct (snell_all _ _ _ _ _ _ _ inv Hc) as (_ & _ & C0c & _ & Kz). destruct (inputs_all _ _ _ _ _ _ _ Hc) as (Ep & En & Ed & _ & _). split.
  - intros i H1 H2. rewrite En in H2. rewrite Ed, Kz, Ct by lia. destruct (F4 i H1 H2) as (x & -> & Hx & B). cbn [thickness].
    set (q := (nth i n C0 * Ccos (arcsin (RtoC s / nth i n C0)))%C) in *. clearbody q.
    replace (Im (RtoC (2 * PI / lam) * q * RtoC x)%C) with (Im q * (2 * PI / lam) * x) by (destruct q; cbn; ring). exact B.
  - destruct (powers_all _ _ _ _ _ _ _ inv Hc) as (ET & _). pose proof (coh_tmm_calc arcsin _ _ _ _ _ _ Hc) as K.
    assert (WP : forall i, (i < length n)%nat -> 0 < power pol (index_of c i) (cosine_of c i) (C1, C0)).
    { intros i Hi. unfold index_of, cosine_of. rewrite En, Ct by exact Hi.
      destruct (ang_cos arcsin inv pri pol n d th lam s Hpol F3 F4 Hs F5 i Hi) as (Q1 & Q2).
      pose proof (weight_pos s _ _ (F5 i Hi) Q1 Q2 pol) as W. rewrite power_closed. cbn [fst snd]. set (w := weight _ _ _) in *. clearbody w. unfold Cnorm2. destruct w. cbn in *. nra. }
    rewrite ET. unfold relative_power. rewrite Ep. assert (EW : wave_of c (length n - 1) = (c_t c, C0)) by exact (wave_last arcsin _ _ _ _ _ _ K).
    rewrite EW, power_forward. apply Rdiv_lt_0_compat; [|apply WP; lia]. apply Rmult_lt_0_compat; [apply WP; lia|]. apply Cnorm2_pos.
    destruct (k_rt _ _ _ _ _ _ _ K) as (rt & _ & _ & M0 & _ & -> & _). apply Cdiv_nz; [intros Q; apply (f_equal Re) in Q; cbn in Q; lra|exact M0].
Qed.

Lemma fits_rev n d : fits n d -> fits (rev n) (rev d).
Proof.
  intros (F1 & F2 & F3 & F4 & F5). assert (RN : forall i, (i < length n)%nat -> nth i (rev n) C0 = nth (length n - 1 - i) n C0).
  { intros i Hi. rewrite rev_nth by exact Hi. f_equal. lia. }
  assert (RD : forall i, (i < length n)%nat -> nth i (rev d) NaN = nth (length n - 1 - i) d NaN).
  { intros i Hi. rewrite rev_nth by lia. f_equal. lia. }
  unfold fits. rewrite !rev_length. split; [exact F1|]. split; [exact F2|]. split; [|split].
  - rewrite !RD by lia. replace (length n - 1 - 0)%nat with (length n - 1)%nat by lia. replace (length n - 1 - (length n - 1))%nat with 0%nat by lia. tauto.
  - intros i H1 H2. rewrite RD, RN by lia. apply F4; lia.
  - intros i Hi. rewrite RN by lia. apply F5. lia.
Qed.

Lemma coh_two n d th : fits n d -> (nth 0 n C0 * Csin th)%C = RtoC s -> 0 < Re (Ccos th) -> transparent s (nth (length n - 1) n C0) ->
  exists c b, coh_tmm arcsin pol n d th lam = Ok c /\ coh_tmm_reverse arcsin pol n d th lam = Ok b /\ no_opaque_layer c /\ no_opaque_layer b /\ 0 < c_T c.
Proof.
  intros F Hs Hth T. destruct (coh_one n d th F Hs Hth) as (c & Hc & O1 & PT). pose proof (transparent_guess arcsin s _ inv pri T) as (G1 & G2).
  pose proof (fits_rev _ _ F) as F'. destruct F as (F1 & _). assert (Nz := admits_neq _ _ (transparent_admits _ _ T)).
  destruct (coh_one (rev n) (rev d) (arcsin (RtoC s / nth (length n - 1) n C0)%C) F') as (b & Hb & O2 & _).
  { rewrite rev_nth by lia. rewrite inv. field. exact Nz. }
  { exact G2. }
  exists c, b. split; [exact Hc|]. split; [|auto]. unfold coh_tmm_reverse. destruct (Nat.eqb_spec (length n) 0); [lia|]. cbn [negb ensure bind].
  unfold snell. rewrite Hs, cdiv_ok by exact Nz. cbn [bind].
  assert (Q : (nth (length n - 1) n C0 * nth (length n - 1) n C0 * (Ccos (arcsin (RtoC s / nth (length n - 1) n C0)) * Ccos (arcsin (RtoC s / nth (length n - 1) n C0))))%C = (nth (length n - 1) n C0 * nth (length n - 1) n C0 - RtoC (s * s))%C).
  { set (m := nth (length n - 1) n C0) in *. pose proof (Csin2_cos2 (arcsin (RtoC s / m)%C)) as Q. rewrite inv in Q.
    replace (RtoC (s * s)) with (m * m * (RtoC s / m * (RtoC s / m)))%C by (transitivity (RtoC s * RtoC s)%C; [field; exact Nz|apply Ceq; simpl; ring]).
    transitivity (m * m * ((RtoC s / m * (RtoC s / m) + Ccos (arcsin (RtoC s / m)) * Ccos (arcsin (RtoC s / m))) - RtoC s / m * (RtoC s / m)))%C; [ring|]. rewrite Q. ring. }
  rewrite (admits_forward s _ _ (transparent_admits _ _ T) Q G2 _ eq_refl). cbn [bind]. exact Hb.
Qed.
End Coh.

(** The transfer matrix keeps the light forwards positive *)
Definition cone (v : R * R) : Prop := 0 < fst v /\ 0 <= snd v <= fst v.
Lemma E_cone x v : no_gain x -> cone v -> cone (rvec (E_of x) v).
Proof.
  intros G (A & B). destruct v as [V W]. cbn [fst snd] in *. destruct (rvec (E_of x) (V, W)) as [f b] eqn:E. assert (N : x_Tf x <> 0) by (destruct G; lra).
  pose proof (proj1 (E_of_spec x f b V W N) (eq_sym E)) as (Q1 & Q2). destruct (step_bounds x f b V W G A B Q1 Q2) as (R1 & R2 & R3). split; cbn; lra.
Qed.
Lemma L_cone P x v : 0 < P <= 1 -> no_gain x -> cone v -> cone (rvec (L_of P x) v).
Proof.
  intros HP G Hv. unfold L_of. rewrite rvec_rdot. destruct (E_cone x v G Hv) as (A & B). set (u := rvec (E_of x) v) in *. clearbody u. destruct u as [f b]. cbn [fst snd] in *.
  unfold cone, rvec. cbn. assert (f <= / P * f) by (assert (1 <= / P) by (rewrite <- Rinv_1; apply Rinv_le_contravar; lra); nra). unfold Rdiv. rewrite Rmult_1_l. split; [|split]; nra.
Qed.
Lemma total_positive Ls x0 : no_gain x0 -> (forall L, In L Ls -> exists P x, L = L_of P x /\ 0 < P <= 1 /\ no_gain x) ->
  0 < r00 (fold_left rdot Ls (E_of x0)).
Proof.
  intros G HL. assert (Q : cone (fold_right (fun L u => rvec L u) (1, 0) Ls)).
  { clear x0 G. induction Ls as [|L Ls IH]; [split; cbn; lra|]. cbn [fold_right]. destruct (HL L ltac:(left; reflexivity)) as (P & x & -> & HP & HX). apply L_cone; auto. apply IH. intros; apply HL; right; auto. }
  pose proof (E_cone x0 _ G Q) as (A & _). rewrite <- fold_rdot in A. unfold rvec in A. cbn in A. lra.
Qed.

Section Succeeds.
Variable arcsin : C -> C.
Hypothesis inv : inverts_sine arcsin.
Hypothesis pri : principal arcsin.
Variables (pol : string) (ns : list C) (ds : list pyfloat) (cs : list string) (th0 : C) (lam s : R).
Hypothesis Hpol : pol = "s"%string \/ pol = "p"%string.
Hypothesis HW : well_formed ns ds cs.
Hypothesis HN : (2 <= length ns)%nat.
Hypothesis Hlam : 0 < lam.
Hypothesis Hs : (nth 0 ns C0 * Csin th0)%C = RtoC s.
Hypothesis Hth : 0 < Re (Ccos th0).
Hypothesis HI : forall i, nth i cs EmptyString = "i"%string -> transparent s (nth i ns C0).
Hypothesis HF : forall i, (0 < i)%nat -> (S i < length ns)%nat -> exists d, nth i ds NaN = Fin d.
Hypothesis HC : forall i, nth i cs EmptyString = "c"%string -> admits s (nth i ns C0) /\ 0 <= thickness (nth i ds NaN) /\
  Im (nth i ns C0 * Ccos (arcsin (RtoC s / nth i ns C0)))%C * (2 * PI / lam) * thickness (nth i ds NaN) <= 35.

Lemma inc_succeeds : exists D, inc_tmm arcsin pol ns ds cs th0 lam = Ok D /\ forall c, In c (i_coh D) \/ In c (i_bcoh D) -> no_opaque_layer c.
Proof.
  assert (Adm : forall i, (i < length ns)%nat -> admits s (nth i ns C0)).
  { intros i Hi. destruct HW as (_ & _ & Lc & _ & _ & _ & _ & Q). destruct (Q (nth i cs EmptyString)) as [E|E]; [apply nth_In; lia|apply transparent_admits, HI, E|apply HC, E]. }
  destruct (proj2 (group_accepts_iff ns ds cs) HW) as (g & Eg). destruct (group_ks _ _ _ _ Eg) as (ks & Ec & G & _ & LN).
  set (ths := map (fun x => arcsin (RtoC s / x)%C) ns).
  assert (Lt : length ths = length ns) by apply map_length.
  assert (Tn : forall i, (i < length ns)%nat -> nth i ths C0 = arcsin (RtoC s / nth i ns C0)%C).
  { intros i Hi. unfold ths. set (f := fun x => arcsin (RtoC s / x)%C). rewrite (nth_indep _ _ (f C0)) by (rewrite map_length; exact Hi). rewrite map_nth. reflexivity. }
  assert (An : forall i, (i < length ns)%nat -> (nth i ns C0 * nth i ns C0 * (Ccos (nth i ths C0) * Ccos (nth i ths C0)))%C = (nth i ns C0 * nth i ns C0 - RtoC (s * s))%C /\ 0 < Re (Ccos (nth i ths C0)) /\ (nth i ns C0 * Csin (nth i ths C0))%C = RtoC s).
  { intros i Hi. rewrite Tn by exact Hi. pose proof (admits_neq _ _ (Adm i Hi)) as Nz. set (m := nth i ns C0) in *. split; [|split].
    - pose proof (Csin2_cos2 (arcsin (RtoC s / m)%C)) as Q. rewrite inv in Q.
      replace (RtoC (s * s)) with (m * m * (RtoC s / m * (RtoC s / m)))%C by (transitivity (RtoC s * RtoC s)%C; [field; exact Nz|apply Ceq; simpl; ring]).
      transitivity (m * m * ((RtoC s / m * (RtoC s / m) + Ccos (arcsin (RtoC s / m)) * Ccos (arcsin (RtoC s / m))) - RtoC s / m * (RtoC s / m)))%C; [ring|]. rewrite Q. ring.
    - apply pri. destruct (Cdiv_im s m Nz) as (E1 & E2). assert (Hp := Cnorm2_pos _ Nz). rewrite E1, E2. destruct (Adm i Hi) as (A1 & A2 & A3). fold m in A1, A2, A3.
      destruct (Req_EM_T s 0) as [-> | Hs0]; [right; unfold Rdiv; rewrite !Rmult_0_l; lra|]. destruct (Req_EM_T (Im m) 0) as [Z | Z].
      + right. destruct A3 as [A3 | A3]; [lra|]. unfold Cnorm2. rewrite Z. replace (s * Re m / (Re m * Re m + 0 * 0)) with (s / Re m) by (field; lra).
        apply Rabs_def2 in A3. split; apply (Rmult_lt_reg_r (Re m)); auto; unfold Rdiv; rewrite Rmult_assoc, Rinv_l; lra.
      + left. intros Q. assert (s * Im m = 0) by (apply (Rmult_eq_reg_r (/ Cnorm2 m)); [|apply Rinv_neq_0_compat; lra]; unfold Rdiv in Q; lra). apply Rmult_integral in H. tauto.
    - rewrite inv. field. exact Nz. }
  assert (Et : list_snell arcsin ns th0 = Ok ths).
  { assert (E : angles_of arcsin (nth 0 ns C0 * Csin th0)%C ns = Ok ths).
    { rewrite Hs. apply (angles_ok arcsin s). intros x Hx. apply (In_nth _ _ C0) in Hx as (i & Hi & <-). apply (admits_neq s). apply Adm. exact Hi. }
    assert (MF : forall i, (i < length ns)%nat -> make_forward ns i ths = Ok ths).
    { intros i Hi. unfold make_forward. destruct (An i Hi) as (Q1 & Q2 & _). rewrite (admits_forward s (nth i ns C0) _ (Adm i Hi) Q1 Q2 _ eq_refl). reflexivity. }
    assert (L : list_snell arcsin ns th0 = (let! angles := angles_of arcsin (nth 0 ns C0 * Csin th0)%C ns in let! angles := make_forward ns 0 angles in make_forward ns (length ns - 1) angles)).
    { clear - HN. destruct ns; [simpl in HN; lia|reflexivity]. }
    rewrite L, E. cbn [bind]. rewrite MF by lia. cbn [bind]. apply MF. lia. }
  set (M := length (g_all_from_inc g)). assert (EM : M = S (length ks)) by (unfold M; rewrite G; cbn [group_of g_all_from_inc]; rewrite map_length, seq_length; reflexivity).
  assert (LK : (0 < length ks)%nat) by (destruct ks; [unfold pos in LN; cbn in LN; lia|cbn; lia]).
  assert (LO : forall k, (k <= length ks)%nat -> nth k (g_all_from_inc g) 0%nat = pos ks k).
  { intros k Hk. rewrite G. cbn [group_of g_all_from_inc]. rewrite (nth_indep _ _ (pos ks 0)) by (rewrite map_length, seq_length; lia). rewrite map_nth, seq_nth by lia. reflexivity. }
  assert (Hpos : forall k, (k <= length ks)%nat -> (pos ks k < length ns)%nat).
  { intros k Hk. rewrite LN. destruct (Nat.eq_dec k (length ks)) as [->|]; [lia|]. pose proof (pos_mono ks k (length ks)). lia. }
  assert (Tr : forall k, (k <= length ks)%nat -> transparent s (nth (pos ks k) ns C0)) by (intros k Hk; apply HI; rewrite Ec; apply letter_i; exact Hk).
  (* stacks *)
  assert (SK : forall k, (k < length ks)%nat -> nth k ks 0%nat <> 0%nat -> exists c b,
    let n := map (fun i => nth i ns C0) (seq (pos ks k) (nth k ks 0%nat + 2)) in let d := PInf :: map (fun i => nth i ds NaN) (seq (S (pos ks k)) (nth k ks 0%nat)) ++ [PInf] in
    coh_tmm arcsin pol n d (nth (pos ks k) ths C0) lam = Ok c /\ coh_tmm_reverse arcsin pol n d (nth (pos ks k) ths C0) lam = Ok b /\
    no_opaque_layer c /\ no_opaque_layer b /\ no_gain (mkCross (c_R c) (c_T c) (c_R b) (c_T b))).
  { intros k Hk Nz. cbn zeta. set (m := nth k ks 0%nat) in *. set (n := map (fun i => nth i ns C0) (seq (pos ks k) (m + 2))). set (d := PInf :: map (fun i => nth i ds NaN) (seq (S (pos ks k)) m) ++ [PInf]).
    pose proof (Hpos (S k) ltac:(lia)) as HpS. rewrite pos_S in HpS by lia. fold m in HpS.
    assert (Ln : length n = (m + 2)%nat) by (unfold n; rewrite map_length, seq_length; reflexivity).
    assert (Nn : forall i, (i < m + 2)%nat -> nth i n C0 = nth (pos ks k + i) ns C0).
    { intros i Hi. unfold n. rewrite (nth_indep _ _ (nth 0 ns C0)) by (rewrite map_length, seq_length; lia). rewrite (map_nth (fun i => nth i ns C0)), seq_nth by lia. reflexivity. }
    assert (Ld : length d = (m + 2)%nat) by (unfold d; cbn [length]; rewrite app_length, map_length, seq_length; cbn; lia).
    assert (Nd : forall i, (0 < i)%nat -> (i < m + 1)%nat -> nth i d NaN = nth (pos ks k + i) ds NaN /\ nth (pos ks k + i) cs EmptyString = "c"%string).
    { intros i H1 H2. split.
      - unfold d. destruct i; [lia|]. cbn [nth]. rewrite app_nth1 by (rewrite map_length, seq_length; lia). rewrite (nth_indep _ _ (nth 0 ds NaN)) by (rewrite map_length, seq_length; lia).
        rewrite (map_nth (fun i => nth i ds NaN)), seq_nth by lia. f_equal. lia.
      - rewrite Ec. replace (pos ks k + i)%nat with (S (pos ks k) + (i - 1))%nat by lia. apply letter_c; unfold m in *; lia. }
    assert (F : fits arcsin lam s n d).
    { unfold fits. rewrite Ln. split; [lia|]. split; [exact Ld|]. split; [|split].
      - split; [reflexivity|]. unfold d. replace (m + 2 - 1)%nat with (S m) by lia. cbn [nth]. rewrite app_nth2 by (rewrite map_length, seq_length; lia). rewrite map_length, seq_length, Nat.sub_diag. reflexivity.
      - intros i H1 H2. destruct (Nd i H1 ltac:(lia)) as (-> & Q). rewrite Nn by lia. destruct (HF (pos ks k + i)%nat ltac:(lia) ltac:(lia)) as (x & Ex). destruct (HC _ Q) as (_ & Q2 & Q3). rewrite Ex in *. cbn [thickness] in *. exists x. auto.
      - intros i Hi. rewrite Nn by lia. apply Adm. lia. }
    destruct (An (pos ks k) (Hpos k ltac:(lia))) as (_ & A2 & A3).
    assert (Hs' : (nth 0 n C0 * Csin (nth (pos ks k) ths C0))%C = RtoC s) by (rewrite Nn by lia; rewrite Nat.add_0_r; exact A3).
    assert (T0 : transparent s (nth 0 n C0)) by (rewrite Nn by lia; rewrite Nat.add_0_r; apply Tr; lia).
    assert (TN : transparent s (nth (length n - 1) n C0)) by (rewrite Ln, Nn by lia; replace (pos ks k + (m + 2 - 1))%nat with (pos ks (S k)) by (rewrite pos_S by lia; fold m; lia); apply Tr; lia).
    destruct (coh_two arcsin inv pri pol lam s Hpol Hlam n d _ F Hs' A2 TN) as (c & b & Hc & Hb & O1 & O2 & PT). exists c, b. do 4 (split; [assumption|]).
    destruct (stack_both _ _ _ _ _ _ _ _ _ inv Hc Hb Hs' T0 TN Hlam O1 O2) as ((B1 & B2 & B3 & _) & (D1 & D2 & D3 & _) & B4 & _).
    - intros i H1 H2. rewrite Ln in H2. destruct (Nd i H1 ltac:(lia)) as (-> & Q). apply HC, Q.
    - intros i H1 H2. rewrite Ln in H2. rewrite Nn by lia. destruct (Adm (pos ks k + i)%nat ltac:(lia)) as (Q1 & Q2 & _). unfold passive. nra.
    - unfold no_gain. cbn. repeat split; lra. }
  unfold inc_tmm. destruct (Nat.eqb_spec (length ns) 0); [lia|]. cbn [negb ensure bind]. rewrite Hs. cbn [Im RtoC snd]. rewrite Rabs_R0.
  assert (EP : 0 < 100 * EPSILON) by (unfold EPSILON; assert (0 < / 2 ^ 52) by (apply Rinv_0_lt_compat, pow_lt; lra); lra).
  unfold Rltb at 1. destruct (Rlt_dec 0 (100 * EPSILON)); [|contradiction]. cbn [ensure bind]. rewrite Eg. cbn [bind]. rewrite Et. cbn [bind]. fold M.
  (* stacks *)
  assert (NX : forall k, (k < length ks)%nat -> nth k ks 0%nat <> 0%nat -> forall {A} (f : nat -> A) d, nth (cnt ks k) (map f (nonempty ks)) d = f k).
  { intros k Hk Nz A f d. apply nth_error_nth. rewrite nth_error_map', nonempty_at by auto. reflexivity. }
  assert (LS : length (g_all_from_stack g) = length (nonempty ks)) by (rewrite G; cbn [group_of g_all_from_stack]; apply map_length).
  assert (SD : forall k, (k < length ks)%nat -> nth k ks 0%nat <> 0%nat -> exists c b, stack_data arcsin pol lam ths g (cnt ks k) = Ok (c, b) /\ no_opaque_layer c /\ no_opaque_layer b /\ no_gain (mkCross (c_R c) (c_T c) (c_R b) (c_T b))).
  { intros k Hk Nz. destruct (SK k Hk Nz) as (c & b & Hc & Hb & Q). exists c, b. split; [|exact Q]. unfold stack_data. rewrite G. cbn [group_of g_stack_n g_stack_d g_all_from_stack]. rewrite !NX by auto. rewrite seq_nth by lia. rewrite Nat.add_0_r.
    cbn zeta in Hc, Hb. rewrite Hc. cbn [bind]. rewrite Hb. reflexivity. }
  destruct (mapM_exists (stack_data arcsin pol lam ths g) (seq 0 (length (g_all_from_stack g)))) as (stacks & Es).
  { intros j Hj. apply in_seq in Hj. destruct (nth_error (nonempty ks) j) as [k|] eqn:Q; [|apply nth_error_None in Q; lia]. apply nonempty_cnt in Q as (<- & Q1 & Q2). destruct (SD k Q1 Q2) as (c & b & Q & _). eauto. }
  rewrite Es. cbn [bind]. apply mapM_ok in Es as (Ls1 & Ns1). rewrite seq_length in Ls1, Ns1.
  assert (ST : forall k, (k < length ks)%nat -> nth k ks 0%nat <> 0%nat -> exists c b, nth_error stacks (cnt ks k) = Some (c, b) /\ no_opaque_layer c /\ no_opaque_layer b /\ no_gain (mkCross (c_R c) (c_T c) (c_R b) (c_T b))).
  { intros k Hk Nz. destruct (SD k Hk Nz) as (c & b & Q & R1). exists c, b. split; [|exact R1]. assert (Hc : (cnt ks k < length stacks)%nat) by (rewrite Ls1, LS; apply nth_error_Some; rewrite nonempty_at by auto; discriminate).
    specialize (Ns1 (cnt ks k) 0%nat (c, b)). rewrite seq_nth in Ns1 by lia. cbn [Nat.add] in Ns1. rewrite Q in Ns1. specialize (Ns1 ltac:(lia)). apply Ok_inj in Ns1. rewrite (nth_error_nth' stacks (c, b) Hc). congruence. }
  (* passes *)
  assert (EPs : exists P, passes ns ds ths lam g = Ok P /\ forall k, (0 < k)%nat -> (S k < M)%nat -> nth k P 0 = 1).
  { unfold passes. fold M. assert (PT : forall k, (0 < k)%nat -> (S k < M)%nat -> pass_through ns ds ths lam (nth k (g_all_from_inc g) 0%nat) = Ok 1).
    { intros k H1 H2. rewrite LO by lia. pose proof (pos_mono ks 0 k H1 ltac:(lia)) as M1. pose proof (pos_mono ks k (length ks) ltac:(lia) ltac:(lia)) as M2. rewrite pos_0 in M1. unfold pass_through.
      destruct (HF (pos ks k) ltac:(lia) ltac:(lia)) as (d & ->). cbn [bind]. unfold rdiv. destruct (Req_EM_T lam 0); [lra|]. cbn [bind].
      destruct (An (pos ks k) ltac:(lia)) as (_ & _ & A3). destruct (transparent_cos s _ _ (Tr k ltac:(lia)) A3) as (I0 & _). destruct (Tr k ltac:(lia)) as (I1 & _).
      assert (Im (nth (pos ks k) ns C0 * Ccos (nth (pos ks k) ths C0))%C = 0) as -> by (destruct (nth (pos ks k) ns C0), (Ccos (nth (pos ks k) ths C0)); cbn in *; subst; ring).
      replace (-4 * PI * d * 0 / lam) with 0 by (unfold Rdiv; ring). rewrite exp_0. unfold Rltb. destruct (Rlt_dec 1 (/ 10 ^ 30)) as [Q|]; [|reflexivity]. exfalso. assert (/ 10 ^ 30 <= / 1); [|lra]. apply Rinv_le_contravar; [lra|]. apply pow_R1_Rle. lra. }
    destruct (mapM_exists (fun k => pass_through ns ds ths lam (nth k (g_all_from_inc g) 0%nat)) (seq 1 (M - 2))) as (pin & Epin).
    { intros k Hk. apply in_seq in Hk. rewrite PT by lia. eauto. }
    rewrite Epin. cbn [bind]. eexists. split; [reflexivity|]. apply mapM_ok in Epin as (Lp & Np). rewrite seq_length in Lp, Np.
    intros k H1 H2. cbn [app]. destruct k; [lia|]. cbn [nth]. rewrite app_nth1 by lia. specialize (Np k 0%nat 0 ltac:(lia)). rewrite seq_nth in Np by lia. cbn [Nat.add] in Np. rewrite PT in Np by lia. apply Ok_inj in Np. auto. }
  destruct EPs as (P & EPs & HP). rewrite EPs. cbn [bind].
  (* crossings *)
  assert (LKp : forall k, (k < length ks)%nat -> nth (S k) (g_stack_from_inc g) None = if Nat.eqb (nth k ks 0%nat) 0 then None else Some (cnt ks k)).
  { intros k Hk. rewrite G. cbn [group_of g_stack_from_inc nth]. rewrite (nth_indep _ _ ((fun j => if Nat.eqb (nth j ks 0%nat) 0 then None else Some (cnt ks j)) 0%nat)) by (rewrite map_length, seq_length; lia).
    rewrite (map_nth (fun j => if Nat.eqb (nth j ks 0%nat) 0 then None else Some (cnt ks j))), seq_nth by lia. reflexivity. }
  assert (CX : forall k, (k < length ks)%nat -> exists x, crossing_at pol ns ths g (map fst stacks) (map snd stacks) k = Ok x /\ no_gain x).
  { intros k Hk. unfold crossing_at. rewrite LKp by exact Hk. rewrite LO by lia. destruct (Nat.eqb_spec (nth k ks 0%nat) 0) as [Z|Z].
    - pose proof (Hpos (S k) ltac:(lia)) as HpS. pose proof (Tr (S k) ltac:(lia)) as T2. rewrite pos_S, Z in HpS, T2 by lia. replace (pos ks k + 1)%nat with (S (pos ks k)) in * by lia. set (a := pos ks k) in *.
      pose proof (Tr k ltac:(lia)) as T1. fold a in T1.
      destruct (An a ltac:(lia)) as (_ & P1 & S1). destruct (An (S a) ltac:(lia)) as (_ & P2 & S2).
      destruct (transparent_cos s _ _ T1 S1) as (I1 & _). destruct (transparent_cos s _ _ T2 S2) as (I2 & _). destruct T1 as (T1 & T1'), T2 as (T2 & T2'). pose proof (Rabs_pos s) as Ps.
      destruct (crossing_real pol _ _ _ _ Hpol T1 T2 I1 I2 ltac:(lra) ltac:(lra) P1 P2) as (NG & _).
      assert (IR : forall n n' th th', Im n = 0 -> Im n' = 0 -> Im (Ccos th) = 0 -> Im (Ccos th') = 0 -> 0 < Re n -> 0 < Re n' -> 0 < Re (Ccos th) -> 0 < Re (Ccos th') ->
        (exists x, interface_R pol n n' th th' = Ok x) /\ (exists x, interface_T pol n n' th th' = Ok x)).
      { clear - Hpol. intros n n' th th' A A' B B' N N' P P'.
        assert (D1 : forall u v : C, Im u = 0 -> Im v = 0 -> 0 < Re u -> 0 < Re v -> Im (u * v)%C = 0 /\ 0 < Re (u * v)%C) by (intros [a b] [c d]; cbn; intros; subst; split; nra).
        destruct (D1 n (Ccos th) A B N P), (D1 n' (Ccos th') A' B' N' P'), (D1 n' (Ccos th) A' B N' P), (D1 n (Ccos th') A B' N P').
        assert (NZ : forall u v : C, 0 < Re u -> 0 < Re v -> (u + v)%C <> C0) by (intros u v U V Q; apply (f_equal Re) in Q; cbn in Q; lra).
        assert (Cc : Re (n * Cconj (Ccos th))%C = Re (n * Ccos th)%C) by (destruct n, (Ccos th); cbn in *; subst; ring).
        unfold interface_R, interface_T, interface_r, interface_t, T_from_t, R_from_r.
        destruct Hpol as [-> | ->]; cbn [String.eqb Ascii.eqb Bool.eqb]; rewrite !cdiv_ok by (apply NZ; assumption); cbn [bind]; unfold rdiv; rewrite ?Cc; destruct (Req_EM_T (Re (n * Ccos th)%C) 0); try lra; cbn [bind]; split; eauto. }
      destruct (IR _ _ _ _ T1 T2 I1 I2 ltac:(lra) ltac:(lra) P1 P2) as ((Rf & E1) & (Tf & E2)). destruct (IR _ _ _ _ T2 T1 I2 I1 ltac:(lra) ltac:(lra) P2 P1) as ((Rb & E3) & (Tb & E4)).
      rewrite E1, E2. cbn [bind]. rewrite E3, E4. cbn [bind]. eexists. split; [reflexivity|].
      apply interface_R_is in E1, E3. apply interface_T_is in E2 as (_ & _ & E2), E4 as (_ & _ & E4). subst. exact NG.
    - destruct (ST k Hk Z) as (c & b & E & _ & _ & NG). rewrite !nth_error_map', E. cbn. eexists. split; [reflexivity|exact NG]. }
  destruct (mapM_exists (crossing_at pol ns ths g (map fst stacks) (map snd stacks)) (seq 0 (M - 1))) as (X & EX).
  { intros k Hk. apply in_seq in Hk. destruct (CX k ltac:(lia)) as (x & Q & _). eauto. }
  rewrite EX. cbn [bind]. apply mapM_ok in EX as (Lx & Nx). rewrite seq_length in Lx, Nx.
  assert (XG : forall k, (k < length ks)%nat -> no_gain (nth k X (mkCross 0 0 0 0))).
  { intros k Hk. destruct (CX k Hk) as (x & Q & NG). specialize (Nx k 0%nat (mkCross 0 0 0 0) ltac:(lia)). rewrite seq_nth in Nx by lia. cbn [Nat.add] in Nx. rewrite Q in Nx. apply Ok_inj in Nx. rewrite <- Nx. exact NG. }
  destruct (Nat.ltb_spec 1 M); [|lia]. cbn [ensure bind].
  assert (LI : forall x, no_gain x -> L_interface x = Ok (E_of x)).
  { intros x (_ & Q & _). unfold L_interface, Reqb. destruct (Req_EM_T (x_Tf x) 0); [lra|]. reflexivity. }
  rewrite (LI _ (XG 0%nat LK)). cbn [bind].
  assert (LLy : forall k, (0 < k)%nat -> (S k < M)%nat -> L_layer (nth k P 0) (nth k X (mkCross 0 0 0 0)) = Ok (L_of (nth k P 0) (nth k X (mkCross 0 0 0 0)))).
  { intros k H1 H2. unfold L_layer. rewrite LI by (apply XG; lia). cbn [bind]. rewrite HP by lia. unfold rdiv. destruct (Req_EM_T 1 0); [lra|]. reflexivity. }
  destruct (mapM_exists (fun k => L_layer (nth k P 0) (nth k X (mkCross 0 0 0 0))) (seq 1 (M - 2))) as (Ls & EL).
  { intros k Hk. apply in_seq in Hk. rewrite LLy by lia. eauto. }
  rewrite EL. cbn [bind]. apply mapM_ok in EL as (Ll & Nl). rewrite seq_length in Ll, Nl.
  assert (TP : 0 < r00 (fold_left rdot Ls (E_of (nth 0 X (mkCross 0 0 0 0))))).
  { apply total_positive; [apply XG; exact LK|]. intros L HL. apply (In_nth _ _ r_id) in HL as (j & Hj & <-). specialize (Nl j 0%nat r_id ltac:(lia)). rewrite seq_nth in Nl by lia. rewrite LLy in Nl by lia. apply Ok_inj in Nl.
    exists (nth (1 + j) P 0), (nth (1 + j) X (mkCross 0 0 0 0)). split; [symmetry; exact Nl|]. rewrite HP by lia. split; [lra|]. apply XG. lia. }
  unfold rdiv. destruct (Req_EM_T _ 0); [lra|]. cbn [bind]. set (T := 1 / _). set (VW := intensities Ls T). set (FB := map (towards_stack P VW) (g_inc_from_stack g)).
  destruct (mapM_exists (entering_at P VW X g (map fst stacks) (map snd stacks) FB) (seq 1 (M - 1))) as (inner & Ei).
  { intros k Hk. apply in_seq in Hk. unfold entering_at. destruct k as [|k]; [lia|]. rewrite LKp by lia. destruct (Nat.eqb_spec (nth k ks 0%nat) 0) as [Z|Z].
    - destruct (Nat.eqb (S k) 1); eauto.
    - destruct (ST k ltac:(lia) Z) as (c & b & E & _). rewrite !nth_error_map', E. cbn. eauto. }
  rewrite Ei. cbn [bind]. eexists. split; [reflexivity|]. cbn [i_coh i_bcoh].
  assert (OP : forall p, In p stacks -> no_opaque_layer (fst p) /\ no_opaque_layer (snd p)).
  { intros p Hp. apply In_nth_error in Hp as (j & Hj). assert (j < length (nonempty ks))%nat by (rewrite <- LS, <- Ls1; apply nth_error_Some; congruence).
    destruct (nth_error (nonempty ks) j) as [k|] eqn:Q; [|apply nth_error_None in Q; lia]. apply nonempty_cnt in Q as (<- & Q1 & Q2). destruct (ST k Q1 Q2) as (c & b & E & O1 & O2 & _). rewrite E in Hj. injection Hj as <-. auto. }
  intros c [Hc|Hc]; apply in_map_iff in Hc as (p & <- & Hp); apply OP, Hp.
Qed.
End Succeeds.
