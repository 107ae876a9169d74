From Coq Require Import Reals ZArith String List Bool Lra Lia Psatz.
From Verif Require Import Base PyVal Cplx CplxLemmas Model_TMM Spec_TMM Proof_TMM Proof_TMM2.
Import ListNotations.
Open Scope R_scope.

Section Arcsin.
Variable arcsin : C -> C.
Hypothesis arcsin_spec : forall z, Csin (arcsin z) = z.

(** What a successful calculation has done *)
Record calc (pol : string) (ns : list C) (ds : list pyfloat) (th0 : C) (lam : R) (D : coh_data) : Prop := mkCalc {
  k_N : (2 <= length ns)%nat;
  k_ds : length ds = length ns;
  k_ends : nth 0 ds NaN = PInf /\ nth (length ns - 1) ds NaN = PInf;
  k_fin : forall i, (0 < i)%nat -> (S i < length ns)%nat -> exists d, nth i ds NaN = Fin d;
  k_lam : lam <> 0;
  k_real : Rabs (Im (nth 0 ns C0 * Csin th0)%C) < 100 * EPSILON;
  k_fwd : is_forward_angle (nth 0 ns C0) th0 = Ok true;
  k_snell : list_snell arcsin ns th0 = Ok (c_th D);
  k_rt : exists rt, interfaces pol ns (c_th D) = Ok rt /\ (forall i, (S i < length ns)%nat -> snd (nth i rt (C0, C0)) <> C0) /\
         let Ms := M_list (c_kz D) ds rt in
         let M := M_total (nth 0 rt (C0, C0)) Ms in
         m00 M <> C0 /\ c_r D = (m10 M / m00 M)%C /\ c_t D = (C1 / m00 M)%C /\ c_vw D = (C0, C0) :: amplitudes Ms (c_t D);
  k_kz : c_kz D = map (fun p => (RtoC (2 * PI) * fst p * Ccos (snd p) / RtoC lam)%C) (combine ns (c_th D));
  k_R : c_R D = R_from_r (c_r D);
  k_T : T_from_t pol (c_t D) (nth 0 ns C0) (nth (length ns - 1) ns C0) th0 (nth (length ns - 1) (c_th D) C0) = Ok (c_T D);
  k_e : power_entering_from_r pol (c_r D) (nth 0 ns C0) th0 = Ok (c_entering D);
  k_in : c_pol D = pol /\ c_n D = ns /\ c_d D = ds /\ c_th0 D = th0 /\ c_lam D = lam }.

Lemma interfaces_length pol ns ths rt : length ths = length ns -> interfaces pol ns ths = Ok rt -> length rt = (length ns - 1)%nat.
Proof. intros L H. apply (interfaces_spec pol ns ths rt L H). Qed.

Lemma list_snell_length ns th0 l : list_snell arcsin ns th0 = Ok l -> length l = length ns.
Proof.
  destruct ns as [|n ns]; [discriminate|]. unfold list_snell. intros H. inv_bind H. inv_bind H.
  apply angles_of_spec in E as (L & _).
  assert (forall i l l', make_forward (n :: ns) i l = Ok l' -> length l' = length l) as Q.
  { intros i m m' Hm. unfold make_forward in Hm. inv_bind Hm. injection Hm as <-. destruct a1; auto. apply list_set_length. }
  apply Q in E0. apply Q in H. congruence.
Qed.

Lemma feq_PInf a : feq a PInf = true -> a = PInf.
Proof. destruct a; simpl; auto; discriminate. Qed.
Lemma feq_PInf_l a : feq PInf a = true -> a = PInf.
Proof. destruct a; simpl; auto; discriminate. Qed.
Lemma coh_tmm_calc pol ns ds th0 lam D : coh_tmm arcsin pol ns ds th0 lam = Ok D -> calc pol ns ds th0 lam D.
Proof.
  unfold coh_tmm. intros H.
  inv_bind H. destruct a. apply ensure_inv, Nat.eqb_eq in E. 
  inv_bind H. destruct a. apply ensure_inv, negb_true_iff, Nat.eqb_neq in E0.
  inv_bind H. destruct a. apply ensure_inv, andb_true_iff in E1 as (E1 & E1').
  inv_bind H. destruct a. apply ensure_inv, Rltb_true in E2.
  inv_bind H. rename a into f. inv_bind H. destruct a. apply ensure_inv in E4. subst f.
  inv_bind H. rename a into ths. inv_bind H. destruct a. apply ensure_inv, negb_true_iff, Reqb_false in E5.
  inv_bind H. destruct a. apply ensure_inv in E6. rewrite forallb_forall in E6.
  inv_bind H. rename a into rt. inv_bind H. destruct a. apply ensure_inv, negb_true_iff, Nat.eqb_neq in E8.
  inv_bind H. destruct a. apply ensure_inv in E9. rewrite forallb_forall in E9.
  inv_bind H. rename a into r. inv_bind H. rename a into t. inv_bind H. rename a into T. inv_bind H. rename a into e.
  apply cdiv_inv in E10 as (HM & Hr). apply cdiv_inv in E11 as (_ & Ht).
  assert (L := list_snell_length _ _ _ E4).
  assert (Lr := interfaces_length _ _ _ _ L E7).
  injection H as <-.
  apply feq_PInf in E1'. rewrite E1' in E1. apply feq_PInf in E1.
  constructor; simpl; auto; try lia.
  - intros i H1 H2. assert (Hf := E6 i). rewrite in_seq in Hf.
    destruct (nth i ds NaN) as [d| | |]; [exists d; reflexivity| | |];
      exfalso; assert (Q : finite_thickness _ = true) by (apply Hf; lia); discriminate.
  - exists rt. split; [exact E7|]. split.
    + intros i Hi Hz. assert (Q := E9 (nth i rt (C0, C0))). rewrite Hz in Q.
      assert (I : In (nth i rt (C0, C0)) rt) by (apply nth_In; lia).
      apply Q in I. apply negb_true_iff, Reqb_false in I. apply I. unfold Cnorm2; simpl; ring.
    + split; [exact HM|]. split; [exact Hr|]. split; [exact Ht|]. reflexivity.
Qed.

Section Calc.
Variables (pol : string) (ns : list C) (ds : list pyfloat) (th0 : C) (lam : R) (D : coh_data).
Hypothesis K : calc pol ns ds th0 lam D.
Let N := length ns.
Let cs := map Ccos (c_th D).

Lemma th_length : length (c_th D) = N.
Proof. apply (list_snell_length _ _ _ (k_snell _ _ _ _ _ _ K)). Qed.
Lemma kz_length : length (c_kz D) = N.
Proof. rewrite (k_kz _ _ _ _ _ _ K), map_length, combine_length, th_length. unfold N. lia. Qed.
Lemma cs_nth i : nth i cs C0 = if Nat.ltb i N then Ccos (nth i (c_th D) C0) else C0.
Proof.
  unfold cs. destruct (Nat.ltb_spec i N).
  - rewrite (nth_indep _ _ (Ccos C0)) by (rewrite map_length, th_length; exact H). apply map_nth.
  - apply nth_overflow. rewrite map_length, th_length. exact H.
Qed.
Lemma combine_nth' {A B} (l : list A) (l' : list B) i a b : length l = length l' ->
  nth i (combine l l') (a, b) = (nth i l a, nth i l' b).
Proof. intros. apply combine_nth. exact H. Qed.
Lemma kz_nth i : (i < N)%nat -> nth i (c_kz D) C0 = (RtoC (2 * PI) * nth i ns C0 * Ccos (nth i (c_th D) C0) / RtoC lam)%C.
Proof.
  intros Hi. rewrite (k_kz _ _ _ _ _ _ K).
  set (f := fun p : C * C => _). rewrite (nth_indep _ _ (f (C0, C0))) by (rewrite map_length, combine_length, th_length; unfold N in *; lia).
  rewrite map_nth, combine_nth' by (rewrite th_length; reflexivity). reflexivity.
Qed.
Lemma phase_of_cut k d : phase_of k d = (let delta := (k * RtoC d)%C in (Re delta, Rmin (Im delta) 35)).
Proof.
  unfold phase_of. cbv zeta. set (z := (k * RtoC d)%C). clearbody z. unfold Rltb. destruct (Rlt_dec 35 (Im z)) as [H | H].
  - rewrite Rmin_right by lra. reflexivity.
  - rewrite Rmin_left by lra. destruct z; reflexivity.
Qed.
Lemma phases_nth i : (i < N)%nat -> nth i (phases D) C0 = phase_of (nth i (c_kz D) C0) (thickness (nth i ds NaN)).
Proof.
  intros Hi. unfold phases. destruct (k_in _ _ _ _ _ _ K) as (_ & _ & -> & _).
  set (f := fun p : C * pyfloat => _).
  rewrite (nth_indep _ _ (f (C0, NaN))) by (rewrite map_length, combine_length, kz_length, (k_ds _ _ _ _ _ _ K); unfold N in *; lia).
  rewrite map_nth, combine_nth' by (rewrite kz_length, (k_ds _ _ _ _ _ _ K); reflexivity). rewrite phase_of_cut. reflexivity.
Qed.

Lemma M_list_length rt : length (M_list (c_kz D) ds rt) = (N - 2)%nat.
Proof. unfold M_list. rewrite map_length, seq_length, kz_length. reflexivity. Qed.
Lemma M_list_nth rt i : (0 < i)%nat -> (S i < N)%nat ->
  nth (i - 1) (M_list (c_kz D) ds rt) m_id = M_layer (nth i (phases D) C0) (nth i rt (C0, C0)).
Proof.
  intros H1 H2. unfold M_list. set (f := fun i : nat => _).
  rewrite (nth_indep _ _ (f 0%nat)) by (rewrite map_length, seq_length, kz_length; lia).
  rewrite map_nth, seq_nth by (rewrite kz_length; lia). replace (1 + (i - 1))%nat with i by lia.
  unfold f. rewrite phases_nth by lia. reflexivity.
Qed.

Definition waves_of (r : C) (vw : list (C * C)) : list (C * C) := (C1, r) :: tl vw.

(** The amplitudes returned are a wave in the stack with amplitude 1 coming in from
    the front and nothing from the back. *)
Lemma coh_wave : wave_in_stack pol ns cs (phases D) (waves_of (c_r D) (c_vw D)) /\
  nth (N - 1) (c_vw D) (C0, C0) = (c_t D, C0).
Proof.
  destruct (k_rt _ _ _ _ _ _ K) as (rt & Hrt & Hn & HM & Hr & Ht & Hv).
  assert (HN := k_N _ _ _ _ _ _ K). fold N in HN.
  destruct (interfaces_spec _ _ _ _ th_length Hrt) as (Lr & F).
  set (Ms := M_list (c_kz D) ds rt) in *.
  assert (LM : length Ms = (N - 2)%nat) by apply M_list_length.
  assert (LA : length (amplitudes Ms (c_t D)) = (N - 1)%nat) by (rewrite amplitudes_length; lia).
  split.
  - unfold waves_of. rewrite Hv. simpl tl. split; [simpl; lia|].
    intros i Hi. rewrite !cs_nth. fold N in Hi.
    destruct (Nat.ltb_spec i N); [|lia]. destruct (Nat.ltb_spec (S i) N); [|lia].
    destruct (F i Hi) as (Fi & _).
    apply (D_matches _ _ _ _ _ _ _ _ Fi (Hn i Hi)).
    destruct (Nat.eqb_spec i 0) as [-> | Hi0].
    + simpl. change (nth 0 (amplitudes Ms (c_t D)) (C0, C0)) with (nth 0 (amplitudes Ms (c_t D)) (C0, C0)).
      assert (E : nth 0 (amplitudes Ms (c_t D)) (C0, C0) = hd (C0, C0) (amplitudes Ms (c_t D))) by (destruct amplitudes; reflexivity).
      rewrite E, amplitudes_hd, <- mvec_mdot.
      change (mdot (Dmat (nth 0 rt (C0, C0))) (fold_left mdot Ms m_id)) with (M_total (nth 0 rt (C0, C0)) Ms).
      rewrite Hr, Ht. revert HM. generalize (M_total (nth 0 rt (C0, C0)) Ms). intros M HM. unfold mvec; simpl. f_equal; field; exact HM.
    + destruct i as [|i]; [lia|]. change (nth (S i) ((C1, c_r D) :: amplitudes Ms (c_t D)) (C0, C0)) with (nth i (amplitudes Ms (c_t D)) (C0, C0)).
      change (nth (S (S i)) ((C1, c_r D) :: amplitudes Ms (c_t D)) (C0, C0)) with (nth (S i) (amplitudes Ms (c_t D)) (C0, C0)).
      apply M_layer_advance. rewrite <- (M_list_nth rt) by lia. fold Ms.
      replace (S i - 1)%nat with i by lia. apply amplitudes_step. lia.
  - rewrite Hv. destruct N as [|[|n]] eqn:EN; try lia. simpl. replace n with (length Ms) by lia. apply amplitudes_last.
Qed.

(** Any such wave has these amplitudes. *)
Lemma coh_unique waves r' t' : wave_in_stack pol ns cs (phases D) waves ->
  nth 0 waves (C0, C0) = (C1, r') -> nth (N - 1) waves (C0, C0) = (t', C0) ->
  r' = c_r D /\ t' = c_t D.
Proof.
  intros (LW & HW) H0 H1. destruct (k_rt _ _ _ _ _ _ K) as (rt & Hrt & Hn & HM & Hr & Ht & Hv).
  assert (HN := k_N _ _ _ _ _ _ K). fold N in HN, LW, HW.
  destruct (interfaces_spec _ _ _ _ th_length Hrt) as (Lr & F).
  set (Ms := M_list (c_kz D) ds rt) in *.
  assert (LM : length Ms = (N - 2)%nat) by apply M_list_length.
  assert (Q : forall k, (k <= length Ms)%nat ->
    nth (N - 1 - k) waves (C0, C0) = mvec (fold_left mdot (skipn (length Ms - k) Ms) m_id) (t', C0)).
  { induction k as [|k IH]; intros Hk.
    - replace (N - 1 - 0)%nat with (N - 1)%nat by lia. rewrite H1.
      replace (length Ms - 0)%nat with (length Ms) by lia. rewrite skipn_all. simpl. rewrite mvec_id. reflexivity.
    - set (i := (N - 1 - S k)%nat). assert (Hi : (S i < N)%nat) by (unfold i; lia).
      assert (HWi := HW i Hi). rewrite !cs_nth in HWi.
      destruct (Nat.ltb_spec i N); [|lia]. destruct (Nat.ltb_spec (S i) N); [|lia].
      destruct (Nat.eqb_spec i 0) as [E0 | E0]; [unfold i in E0; lia|].
      destruct (F i Hi) as (Fi & _). apply (D_matches _ _ _ _ _ _ _ _ Fi (Hn i Hi)) in HWi.
      apply M_layer_advance in HWi. rewrite <- (M_list_nth rt) in HWi by lia. fold Ms in HWi.
      rewrite HWi. replace (S i) with (N - 1 - k)%nat by (unfold i; lia). rewrite IH by lia.
      rewrite <- mvec_mdot, <- fold_mdot.
      assert (Hj : (length Ms - S k = i - 1)%nat) by (unfold i; lia).
      assert (Es : skipn (length Ms - S k) Ms = nth (i - 1) Ms m_id :: skipn (length Ms - k) Ms).
      { rewrite Hj. replace (length Ms - k)%nat with (S (i - 1)) by lia.
        assert (Hlt : (i - 1 < length Ms)%nat) by lia. clear - Hlt.
        revert Hlt. generalize (i - 1)%nat. intros j. revert j. induction Ms as [|M l IHl]; intros j Hj; [simpl in Hj; lia|].
        destruct j; [reflexivity|]. simpl. apply IHl. simpl in Hj. lia. }
      rewrite Es. simpl. rewrite mdot_id_l. reflexivity. }
  assert (Q1 := Q (length Ms) (le_n _)). replace (length Ms - length Ms)%nat with 0%nat in Q1 by lia.
  simpl skipn in Q1. replace (N - 1 - length Ms)%nat with 1%nat in Q1 by lia.
  assert (H0i : (1 < N)%nat) by lia. assert (HW0 := HW 0%nat H0i). rewrite !cs_nth in HW0.
  destruct (Nat.ltb_spec 0 N); [|lia]. destruct (Nat.ltb_spec 1 N); [|lia]. simpl Nat.eqb in HW0. cbv iota in HW0.
  destruct (F 0%nat H0i) as (F0 & _). apply (D_matches _ _ _ _ _ _ _ _ F0 (Hn 0%nat H0i)) in HW0.
  rewrite H0, Q1, <- mvec_mdot in HW0.
  change (mdot (Dmat (nth 0 rt (C0, C0))) (fold_left mdot Ms m_id)) with (M_total (nth 0 rt (C0, C0)) Ms) in HW0.
  set (M := M_total (nth 0 rt (C0, C0)) Ms) in *. clearbody M. unfold mvec in HW0. simpl in HW0.
  assert (E1 := f_equal fst HW0). assert (E2 := f_equal snd HW0). simpl in E1, E2.
  assert (Et : t' = (C1 / m00 M)%C).
  { transitivity ((m00 M * t' + m01 M * C0) / m00 M)%C; [field; exact HM|]. rewrite <- E1. reflexivity. }
  split; [|rewrite Ht; exact Et]. rewrite E2, Hr, Et. field. exact HM.
Qed.
End Calc.
End Arcsin.
