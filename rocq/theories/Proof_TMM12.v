From Coq Require Import Reals ZArith String List Bool Lra Lia Psatz.
From Verif Require Import Base PyVal Cplx CplxLemmas Model_TMM Spec_TMM Proof_TMM Proof_TMM2 Proof_TMM3 Proof_TMM4 Proof_TMM5 Proof_TMM6 Proof_TMM7 Proof_TMM8 Proof_TMM9 Proof_TMM10 Proof_TMM11.
Import ListNotations.
Open Scope R_scope.

Lemma fle_fin a b : fle (Fin a) (Fin b) = true <-> a <= b.
Proof.
  unfold fle, flt, feq. rewrite orb_true_iff, Rltb_true. unfold Reqb. destruct (Req_EM_T a b); split; intros H; auto; try lra.
Qed.
(** * The statements, in the terms of the specification *)
Section Results.
Variable arcsin : C -> C.
Hypothesis inv : inverts_sine arcsin.
Variables (pol : string) (ns : list C) (ds : list pyfloat) (th0 : C) (lam : R) (D : coh_data).
Hypothesis HD : coh_tmm arcsin pol ns ds th0 lam = Ok D.
Let K := coh_tmm_calc arcsin _ _ _ _ _ _ HD.
Let N := length ns.

Lemma solves : wave_in_stack pol ns (map Ccos (c_th D)) (phases D) (map (wave_of D) (seq 0 N)) /\
  wave_of D 0 = (C1, c_r D) /\ wave_of D (N - 1) = (c_t D, C0).
Proof.
  split; [|split; [reflexivity|exact (wave_last arcsin _ _ _ _ _ _ K)]].
  destruct (coh_wave arcsin _ _ _ _ _ _ K) as ((L & H) & _).
  assert (E : map (wave_of D) (seq 0 N) = waves_of (c_r D) (c_vw D)).
  { apply (nth_ext _ _ (C0, C0) (C0, C0)); [rewrite map_length, seq_length; symmetry; exact L|].
    intros i Hi. rewrite map_length, seq_length in Hi. rewrite (nth_indep _ _ (wave_of D 0)) by (rewrite map_length, seq_length; exact Hi).
    rewrite map_nth, seq_nth by exact Hi. exact (wave_nth ns D i Hi). }
  rewrite E. split; assumption.
Qed.
Lemma unique waves r t : wave_in_stack pol ns (map Ccos (c_th D)) (phases D) waves ->
  nth 0 waves (C0, C0) = (C1, r) -> nth (N - 1) waves (C0, C0) = (t, C0) -> r = c_r D /\ t = c_t D.
Proof. exact (coh_unique arcsin _ _ _ _ _ _ K waves r t). Qed.

Lemma needs : length ds = N /\ (2 <= N)%nat /\ nth 0 ds NaN = PInf /\ nth (N - 1) ds NaN = PInf /\
  (forall i, (0 < i)%nat -> (S i < N)%nat -> exists d, nth i ds NaN = Fin d) /\
  (pol = "s" \/ pol = "p")%string /\ lam <> 0 /\ Rabs (Im (nth 0 ns C0 * Csin th0)%C) < 100 * EPSILON /\
  passive (nth 0 ns C0) /\ passive (nth (N - 1) ns C0).
Proof.
  destruct (k_ends _ _ _ _ _ _ _ K) as (E0 & E1).
  pose proof (list_snell_spec arcsin inv _ _ _ (k_N _ _ _ _ _ _ _ K) (k_snell _ _ _ _ _ _ _ K)) as (_ & _ & _ & P0 & PL & _).
  repeat split; try assumption.
  - exact (k_ds _ _ _ _ _ _ _ K).
  - exact (k_N _ _ _ _ _ _ _ K).
  - exact (k_fin _ _ _ _ _ _ _ K).
  - exact (pol_sp arcsin _ _ _ _ _ _ K).
  - exact (k_lam _ _ _ _ _ _ _ K).
  - exact (k_real _ _ _ _ _ _ _ K).
Qed.

Lemma snell_law : length (c_th D) = N /\
  (forall i, (i < N)%nat -> (nth i ns C0 * Csin (nth i (c_th D) C0) = nth 0 ns C0 * Csin th0)%C) /\
  Ccos (nth 0 (c_th D) C0) = Ccos th0 /\
  (Im (nth 0 ns C0 * Csin th0)%C = 0 -> 0 <= Re (nth (N - 1) ns C0 * Ccos (nth (N - 1) (c_th D) C0))%C) /\
  (forall i, (i < N)%nat -> nth i (c_kz D) C0 = (RtoC (2 * PI / lam) * (nth i ns C0 * Ccos (nth i (c_th D) C0)))%C).
Proof.
  split; [exact (th_length arcsin _ _ _ _ _ _ K)|]. split; [intros i Hi; apply (snell_all arcsin inv _ _ _ _ _ _ K i Hi)|].
  split; [exact (c_0 arcsin inv _ _ _ _ _ _ K)|]. split.
  - intros Hs. apply (last_q arcsin inv _ _ _ _ _ _ K (Re (nth 0 ns C0 * Csin th0)%C)). apply Ceq; [reflexivity|exact Hs].
  - intros i Hi. exact (kz_is arcsin _ _ _ _ _ _ K i Hi).
Qed.

Lemma incident_power pl n c : power pl n c (C1, C0) = Re (weight pl n c).
Proof.
  rewrite power_closed. cbn [fst snd]. replace (Cnorm2 C0) with 0 by (unfold Cnorm2; simpl; ring).
  replace (Cnorm2 C1) with 1 by (unfold Cnorm2; simpl; ring). replace (Im (C1 * Cconj C0)%C) with 0 by (simpl; ring). ring.
Qed.
Lemma relative_is i fb : relative_power D i fb =
  power pol (nth i ns C0) (Ccos (nth i (c_th D) C0)) fb / Re (weight pol (nth 0 ns C0) (Ccos th0)).
Proof.
  unfold relative_power, index_of, cosine_of. destruct (k_in _ _ _ _ _ _ _ K) as (-> & -> & _). rewrite incident_power.
  pose proof (c_0 arcsin inv _ _ _ _ _ _ K) as E. cbv beta in E. rewrite E. reflexivity.
Qed.
Lemma T_power : c_T D = relative_power D (N - 1) (wave_of D (N - 1)).
Proof. rewrite relative_is. exact (c_T_power arcsin _ _ _ _ _ _ K). Qed.
Lemma entering_power : c_entering D = relative_power D 0 (wave_of D 0).
Proof. rewrite relative_is. exact (c_entering_power arcsin inv _ _ _ _ _ _ K). Qed.

Definition layer_end (i : nat) : C * C := advance (nth i (phases D) C0) (wave_of D i).
Lemma absorbed : (forall i, (0 < i)%nat -> (S i < N)%nat -> 0 <= thickness (nth i ds NaN)) ->
  exists l, absorp_in_each_layer D = Ok l /\ length l = N /\ total l = 1 /\
    nth 0 l 0 = 1 - relative_power D 0 (wave_of D 0) /\ nth (N - 1) l 0 = c_T D /\
    forall i, (0 < i)%nat -> (S i < N)%nat ->
      nth i l 0 = relative_power D i (wave_of D i) - relative_power D i (advance (nth i (phases D) C0) (wave_of D i)).
Proof.
  intros Hd. destruct (absorp_entries arcsin inv _ _ _ _ _ _ K) as (l & H1 & H2 & H3 & H4 & H5 & H6).
  { intros i H1 H2. destruct (k_fin _ _ _ _ _ _ _ K i ltac:(lia) H2) as (d & E). specialize (Hd i ltac:(lia) H2). rewrite E in *. simpl in *.
    apply fle_fin. exact Hd. }
  exists l. split; [exact H1|]. split; [exact H2|]. split; [exact H3|]. split; [rewrite <- entering_power; exact H4|]. split; [exact H5|].
  intros i Hi1 Hi2. rewrite H6 by assumption. rewrite !relative_is. unfold leaving. destruct (Nat.eqb_spec i 0); [lia|]. cbv beta.
  fold (wave_of D i). unfold wave_of. destruct (Nat.eqb_spec i 0); [lia|]. unfold Rdiv. ring.
Qed.

(** ** Passive stacks *)
Hypothesis real_s : Im (nth 0 ns C0 * Csin th0)%C = 0.
Hypothesis lam_pos : 0 < lam.
Hypothesis not_opaque : no_opaque_layer D.
Hypothesis thick : forall i, (0 < i)%nat -> (S i < N)%nat -> 0 <= thickness (nth i ds NaN).
Let s := Re (nth 0 ns C0 * Csin th0)%C.
Lemma is_s : (nth 0 ns C0 * Csin th0)%C = RtoC s.
Proof. apply Ceq; [reflexivity|exact real_s]. Qed.
Lemma norm_pos : 0 < Re (nth 0 ns C0 * Ccos th0)%C -> 0 < Re (weight pol (nth 0 ns C0) (Ccos th0)).
Proof.
  intros H. pose proof (norm_neq arcsin _ _ _ _ _ _ K) as NZ. cbv beta in NZ.
  assert (Hi : (0 < length ns)%nat) by (pose proof (k_N _ _ _ _ _ _ _ K); lia).
  pose proof (c_0 arcsin inv _ _ _ _ _ _ K) as E. cbv beta in E.
  pose proof (snell_cos arcsin inv _ _ _ _ _ _ K 0 s Hi is_s) as Q. cbv beta in Q. rewrite E in Q.
  pose proof (list_snell_spec arcsin inv _ _ _ (k_N _ _ _ _ _ _ _ K) (k_snell _ _ _ _ _ _ _ K)) as (_ & Sn & _ & P0 & _).
  assert (0 <= Re (weight pol (nth 0 ns C0) (Ccos th0))); [|lra].
  apply (forward_weight pol s); auto. 2: lra. apply Sn. exact Hi.
Qed.
Lemma incident_forward : 0 <= Re (nth 0 ns C0 * Ccos th0)%C.
Proof.
  pose proof (k_fwd _ _ _ _ _ _ _ K) as F. apply is_forward_inv in F as (_ & F). symmetry in F.
  assert (Hi : (0 < length ns)%nat) by (pose proof (k_N _ _ _ _ _ _ _ K); lia).
  pose proof (c_0 arcsin inv _ _ _ _ _ _ K) as E. cbv beta in E.
  pose proof (snell_cos arcsin inv _ _ _ _ _ _ K 0 s Hi is_s) as Q. cbv beta in Q. rewrite E in Q.
  pose proof (list_snell_spec arcsin inv _ _ _ (k_N _ _ _ _ _ _ _ K) (k_snell _ _ _ _ _ _ _ K)) as (_ & _ & _ & P0 & _).
  assert (Pq : 0 <= Re (nth 0 ns C0 * Ccos th0)%C * Im (nth 0 ns C0 * Ccos th0)%C).
  { assert (E1 := f_equal Im Q). unfold passive in P0. destruct (nth 0 ns C0) as [a b], (Ccos th0) as [u v]. simpl in *. nra. }
  unfold forwards in F. pose proof EPSILON_pos. destruct (Rltb (100 * EPSILON) _); apply Rltb_true in F; nra.
Qed.
Lemma norm_pos' : 0 < Re (weight pol (nth 0 ns C0) (Ccos th0)).
Proof.
  pose proof (norm_neq arcsin _ _ _ _ _ _ K) as NZ. cbv beta in NZ. 
  assert (Hi : (0 < length ns)%nat) by (pose proof (k_N _ _ _ _ _ _ _ K); lia).
  pose proof (c_0 arcsin inv _ _ _ _ _ _ K) as E. cbv beta in E.
  pose proof (snell_cos arcsin inv _ _ _ _ _ _ K 0 s Hi is_s) as Q. cbv beta in Q. rewrite E in Q.
  pose proof (list_snell_spec arcsin inv _ _ _ (k_N _ _ _ _ _ _ _ K) (k_snell _ _ _ _ _ _ _ K)) as (_ & Sn & _ & P0 & _).
  assert (0 <= Re (weight pol (nth 0 ns C0) (Ccos th0))); [|lra].
  apply (forward_weight pol s); auto. 2: exact incident_forward. apply Sn. exact Hi.
Qed.
Lemma rdiv_le a b m : 0 < m -> a <= b -> a / m <= b / m.
Proof. intros Hm H. unfold Rdiv. apply Rmult_le_compat_r; auto. left. apply Rinv_0_lt_compat. exact Hm. Qed.

Lemma layer_absorbs i : (0 < i)%nat -> (S i < N)%nat -> passive (nth i ns C0) ->
  relative_power D i (advance (nth i (phases D) C0) (wave_of D i)) <= relative_power D i (wave_of D i).
Proof.
  intros H1 H2 HP. rewrite !relative_is. apply rdiv_le; [exact norm_pos'|].
  pose proof (layer_loss arcsin inv _ _ _ _ _ _ K s is_s lam_pos not_opaque thick i H1 H2 HP) as Q. cbv beta in Q. unfold leaving in Q.
  destruct (Nat.eqb_spec i 0); [lia|]. unfold wave_of. destruct (Nat.eqb_spec i 0); [lia|]. exact Q.
Qed.
Lemma layer_transparent i : (0 < i)%nat -> (S i < N)%nat -> lossless (nth i ns C0) ->
  relative_power D i (advance (nth i (phases D) C0) (wave_of D i)) = relative_power D i (wave_of D i).
Proof.
  intros H1 H2 HP. rewrite !relative_is. f_equal.
  pose proof (layer_lossless arcsin inv _ _ _ _ _ _ K s is_s not_opaque thick i H1 H2 HP) as Q. cbv beta in Q. unfold leaving in Q.
  destruct (Nat.eqb_spec i 0); [lia|]. unfold wave_of. destruct (Nat.eqb_spec i 0); [lia|]. exact Q.
Qed.
Lemma T_nonneg : 0 <= c_T D.
Proof.
  rewrite T_power, relative_is. apply Rmult_le_pos; [|left; apply Rinv_0_lt_compat; exact norm_pos'].
  exact (last_forward_weight arcsin inv _ _ _ _ _ _ K s is_s).
Qed.
Lemma T_le_entering : (forall i, (0 < i)%nat -> (S i < N)%nat -> passive (nth i ns C0)) -> c_T D <= c_entering D.
Proof.
  intros HP. rewrite T_power, entering_power, !relative_is. apply rdiv_le; [exact norm_pos'|].
  exact (chain_le arcsin inv _ _ _ _ _ _ K s is_s lam_pos not_opaque thick HP).
Qed.
Lemma T_eq_entering : (forall i, (0 < i)%nat -> (S i < N)%nat -> lossless (nth i ns C0)) -> c_T D = c_entering D.
Proof.
  intros HP. rewrite T_power, entering_power, !relative_is. f_equal.
  exact (chain_eq arcsin inv _ _ _ _ _ _ K s is_s not_opaque thick HP).
Qed.
Lemma R_entering : Im (nth 0 ns C0) = 0 -> Im (Ccos th0) = 0 -> c_R D + c_entering D = 1.
Proof.
  intros I1 I2. pose proof (norm_neq arcsin _ _ _ _ _ _ K) as NZ. cbv beta in NZ. 
  rewrite entering_power, relative_is, (k_R _ _ _ _ _ _ _ K). pose proof (c_0 arcsin inv _ _ _ _ _ _ K) as E. cbv beta in E. rewrite E.
  rewrite power_closed. unfold R_from_r, Cabs. rewrite pow2_sqrt by apply Cnorm2_ge0.
  assert (W : Im (weight pol (nth 0 ns C0) (Ccos th0)) = 0).
  { unfold weight. destruct (nth 0 ns C0), (Ccos th0). simpl in I1, I2. subst. destruct String.eqb; simpl; ring. }
  rewrite W. cbn [fst snd wave_of Nat.eqb]. replace (Cnorm2 C1) with 1 by (unfold Cnorm2; simpl; ring). field. exact NZ.
Qed.
Lemma R_nonneg : 0 <= c_R D.
Proof. rewrite (k_R _ _ _ _ _ _ _ K). unfold R_from_r. apply pow2_ge_0. Qed.
End Results.

Section Positions.
Variable arcsin : C -> C.
Hypothesis inv : inverts_sine arcsin.
Variables (pol : string) (ns : list C) (ds : list pyfloat) (th0 : C) (lam : R) (D : coh_data).
Hypothesis HD : coh_tmm arcsin pol ns ds th0 lam = Ok D.
Let K := coh_tmm_calc arcsin _ _ _ _ _ _ HD.
Let N := length ns.

Lemma resolved_ok i z : in_layer ds i z -> exists p, position_resolved i z D = Ok p.
Proof.
  assert (HN := k_N _ _ _ _ _ _ _ K). fold N in HN. assert (LD : length ds = N) by exact (k_ds _ _ _ _ _ _ _ K).
  unfold in_layer. rewrite LD. intros H. apply (position_resolved_ok arcsin _ _ _ _ _ _ K).
  - destruct H as [(-> & _) | (H & _)]; fold N; lia.
  - destruct H as [(-> & Hz) | (Hi & Hz & Ht)]; [exact Hz|]. destruct (Nat.eqb_spec i 0); [lia|]. split; [exact Hz|].
    destruct (Nat.eq_dec (S i) N) as [E | E].
    + destruct (k_ends _ _ _ _ _ _ _ K) as (_ & E1). fold N in E1. replace i with (N - 1)%nat by lia. rewrite E1. reflexivity.
    + destruct (k_fin _ _ _ _ _ _ _ K i ltac:(lia) ltac:(fold N; lia)) as (d & Ed). rewrite Ed in *. simpl in *. apply fle_fin. apply Ht. lia.
Qed.
Lemma resolved_inv i z p : position_resolved i z D = Ok p -> in_layer ds i z /\
  p_poyn p = relative_power D i (wave_at D i z) /\
  (p_Ex p, p_Ey p, p_Ez p) =
    (if String.eqb pol "s" then (C0, fst (wave_at D i z) + snd (wave_at D i z), C0)
     else ((fst (wave_at D i z) - snd (wave_at D i z)) * Ccos (nth i (c_th D) C0), C0,
           - (fst (wave_at D i z) + snd (wave_at D i z)) * Csin (nth i (c_th D) C0)))%C.
Proof.
  intros H. destruct (position_resolved_spec arcsin _ _ _ _ _ _ K i z p H) as (H1 & H2 & H3 & _ & H5). cbv beta in *. split; [|split].
  - unfold in_layer. assert (LD : length ds = N) by exact (k_ds _ _ _ _ _ _ _ K). rewrite LD. destruct (Nat.eqb_spec i 0) as [-> | Hi]; [left; auto|]. right. fold N in H1. split; [lia|]. destruct H2 as (Hz & Hf). split; [exact Hz|].
    intros HiN. destruct (k_fin _ _ _ _ _ _ _ K i ltac:(lia) HiN) as (d & Ed). rewrite Ed in *. simpl in *. apply fle_fin. exact Hf.
  - rewrite (relative_is arcsin inv _ _ _ _ _ _ HD). exact H3.
  - exact H5.
Qed.
Lemma resolved_derivative i z p : position_resolved i z D = Ok p ->
  derivable_pt_lim (fun y => relative_power D i (wave_at D i y)) z (- p_absor p).
Proof.
  intros H. destruct (position_resolved_spec arcsin _ _ _ _ _ _ K i z p H) as (_ & _ & _ & H4 & _). cbv beta in H4.
  apply (derivable_pt_lim_ext (fun y => / Re (weight pol (nth 0 ns C0) (Ccos th0)) *
      power pol (nth i ns C0) (Ccos (nth i (c_th D) C0)) (advance (nth i (c_kz D) C0 * RtoC y)%C (wave_of D i)))).
  { intros y. rewrite (relative_is arcsin inv _ _ _ _ _ _ HD). unfold Rdiv, wave_at. ring. }
  rewrite H4. unfold Rdiv.
  match goal with |- derivable_pt_lim _ _ ?l => replace l with (/ Re (weight pol (nth 0 ns C0) (Ccos th0)) *
     - loss_density pol (nth i ns C0) (Ccos (nth i (c_th D) C0)) (nth i (c_kz D) C0) (advance (nth i (c_kz D) C0 * RtoC z)%C (wave_of D i))) end.
  2:{ unfold wave_of. ring. }
  apply (derivable_pt_lim_scal (fun y => power pol (nth i ns C0) (Ccos (nth i (c_th D) C0)) (advance (nth i (c_kz D) C0 * RtoC y)%C (wave_of D i)))).
  apply power_derivative.
Qed.
Lemma resolved_absorption i z p : position_resolved i z D = Ok p -> Im (nth 0 ns C0 * Csin th0)%C = 0 -> 0 < lam ->
  (passive (nth i ns C0) -> 0 <= p_absor p) /\ (lossless (nth i ns C0) -> p_absor p = 0).
Proof.
  intros H Hs Hl. destruct (position_resolved_spec arcsin _ _ _ _ _ _ K i z p H) as (H1 & _ & _ & H4 & _). cbv beta in H4.
  set (s := Re (nth 0 ns C0 * Csin th0)%C). assert (Es : (nth 0 ns C0 * Csin th0)%C = RtoC s) by (apply Ceq; [reflexivity|exact Hs]).
  pose proof (snell_cos arcsin inv _ _ _ _ _ _ K i s H1 Es) as Q. cbv beta in Q.
  destruct (snell_all arcsin inv _ _ _ _ _ _ K i H1) as (Hn & _). cbv beta in Hn.
  rewrite (kz_is arcsin _ _ _ _ _ _ K i H1) in H4. cbv beta in H4. rewrite H4.
  pose proof (norm_pos' arcsin inv _ _ _ _ _ _ HD Hs) as NP.
  split; intros HP.
  - apply Rmult_le_pos; [|left; apply Rinv_0_lt_compat; exact NP]. apply (loss_nonneg _ _ _ s); auto.
    pose proof PI_RGT_0. left. apply Rdiv_lt_0_compat; lra.
  - rewrite (loss_zero _ _ _ s _ _ Hn Q HP). unfold Rdiv. ring.
Qed.
(** the fields on the two sides of an interface *)
Lemma resolved_interface i p q : (S i < N)%nat -> no_opaque_layer D ->
  position_resolved i (if Nat.eqb i 0 then 0 else thickness (nth i ds NaN)) D = Ok p -> position_resolved (S i) 0 D = Ok q ->
  p_poyn p = p_poyn q /\ p_Ex p = p_Ex q /\ p_Ey p = p_Ey q /\
  (nth i ns C0 * nth i ns C0 * p_Ez p = nth (S i) ns C0 * nth (S i) ns C0 * p_Ez q)%C.
Proof.
  intros Hi HO Hp Hq. pose proof (match_interface arcsin _ _ _ _ _ _ K i Hi) as M. cbv beta in M.
  set (z := if Nat.eqb i 0 then 0 else thickness (nth i ds NaN)) in *.
  assert (E : leaving D i = wave_at D i z).
  { unfold leaving, wave_at, z. destruct (Nat.eqb_spec i 0) as [-> | H0].
    - rewrite advance_0. reflexivity.
    - rewrite (phases_nth arcsin _ _ _ _ _ _ K) by (fold N; lia). unfold phase_of. destruct (Rltb 35 _) eqn:E.
      + apply Rltb_true in E. specialize (HO i). destruct (k_in _ _ _ _ _ _ _ K) as (_ & E1 & E2 & _). rewrite E1, E2 in HO.
        specialize (HO ltac:(lia) Hi). lra.
      + unfold wave_of. destruct (Nat.eqb_spec i 0); [lia|]. reflexivity. }
  rewrite E in M. change (if Nat.eqb (S i) 0 then (C1, c_r D) else nth (S i) (c_vw D) (C0, C0)) with (wave_of D (S i)) in M.
  assert (E' : wave_of D (S i) = wave_at D (S i) 0) by (unfold wave_at; rewrite advance_0; reflexivity). rewrite E' in M.
  destruct (resolved_inv _ _ _ Hp) as (_ & P1 & P2). destruct (resolved_inv _ _ _ Hq) as (_ & Q1 & Q2).
  split.
  - rewrite P1, Q1, !(relative_is arcsin inv _ _ _ _ _ _ HD). f_equal. unfold power. rewrite M. reflexivity.
  - destruct (snell_all arcsin inv _ _ _ _ _ _ K i) as (_ & S1); [fold N; lia|]. destruct (snell_all arcsin inv _ _ _ _ _ _ K (S i)) as (_ & S2); [exact Hi|].
    cbv beta in S1, S2.
    assert (P3 := f_equal (fun t : C * C * C => fst (fst t)) P2). assert (P4 := f_equal (fun t : C * C * C => snd (fst t)) P2). assert (P5 := f_equal snd P2).
    assert (Q3 := f_equal (fun t : C * C * C => fst (fst t)) Q2). assert (Q4 := f_equal (fun t : C * C * C => snd (fst t)) Q2). assert (Q5 := f_equal snd Q2).
    unfold tangential in M. assert (M1 := f_equal fst M). assert (M2 := f_equal snd M).
    destruct (String.eqb pol "s"); cbn [fst snd] in *; rewrite P3, P4, P5, Q3, Q4, Q5.
    + split; [reflexivity|]. split; [exact M1|ring].
    + split; [transitivity (Ccos (nth i (c_th D) C0) * (fst (wave_at D i z) - snd (wave_at D i z)))%C; [ring|rewrite M2; ring]|]. split; [reflexivity|].
      set (n1 := nth i ns C0) in *. set (n2 := nth (S i) ns C0) in *.
      transitivity (- (n1 * (fst (wave_at D i z) + snd (wave_at D i z))) * (n1 * Csin (nth i (c_th D) C0)))%C; [ring|].
      rewrite S1, M1, <- S2. ring.
Qed.
Lemma resolved_ends p : position_resolved 0 0 D = Ok p -> p_poyn p = c_entering D.
Proof.
  intros H. destruct (resolved_inv _ _ _ H) as (_ & E & _). rewrite E, (entering_power arcsin inv _ _ _ _ _ _ HD).
  unfold wave_at. rewrite advance_0. reflexivity.
Qed.
Lemma resolved_last p : position_resolved (N - 1) 0 D = Ok p -> p_poyn p = c_T D.
Proof.
  intros H. destruct (resolved_inv _ _ _ H) as (_ & E & _). rewrite E, (T_power arcsin inv _ _ _ _ _ _ HD).
  unfold wave_at. rewrite advance_0. reflexivity.
Qed.
End Positions.
