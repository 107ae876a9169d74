From Coq Require Import Reals ZArith String List Bool Lra Lia Psatz.
From Verif Require Import Base PyVal Cplx CplxLemmas Model_TMM Spec_TMM Proof_TMM Proof_TMM2 Proof_TMM3 Proof_TMM4 Proof_TMM5 Proof_TMM6.
Import ListNotations.
Open Scope R_scope.

Lemma chain_generic pol ns cs deltas waves : wave_in_stack pol ns cs deltas waves ->
  (forall i w, (0 < i)%nat -> (S i < length ns)%nat ->
     power pol (nth i ns C0) (nth i cs C0) (advance (nth i deltas C0) w) <= power pol (nth i ns C0) (nth i cs C0) w) ->
  forall m, (m < length ns)%nat ->
  power pol (nth m ns C0) (nth m cs C0) (nth m waves (C0, C0)) <= power pol (nth 0 ns C0) (nth 0 cs C0) (nth 0 waves (C0, C0)).
Proof.
  intros (L & H) HD. induction m as [|m IH]; intros Hm; [apply Rle_refl|].
  specialize (H m Hm). unfold power at 1. rewrite <- H. fold (power pol (nth m ns C0) (nth m cs C0)
    (if Nat.eqb m 0 then nth 0 waves (C0, C0) else advance (nth m deltas C0) (nth m waves (C0, C0)))).
  destruct m as [|m]; [apply Rle_refl|]. simpl Nat.eqb. cbv iota.
  eapply Rle_trans; [apply HD; lia|]. apply IH. lia.
Qed.

(** the wave made of the transfer matrices *)
Lemma matrices_wave pol ns ths rt Ms deltas t : (2 <= length ns)%nat -> length ths = length ns ->
  interfaces pol ns ths = Ok rt -> (forall i, (S i < length ns)%nat -> snd (nth i rt (C0, C0)) <> C0) ->
  length Ms = (length ns - 2)%nat ->
  (forall i, (0 < i)%nat -> (S i < length ns)%nat -> nth (i - 1) Ms m_id = M_layer (nth i deltas C0) (nth i rt (C0, C0))) ->
  wave_in_stack pol ns (map Ccos ths) deltas (mvec (M_total (nth 0 rt (C0, C0)) Ms) (t, C0) :: amplitudes Ms t).
Proof.
  intros HN Lth Hrt Hn LM HM. destruct (interfaces_spec _ _ _ _ Lth Hrt) as (Lr & F).
  assert (LA : length (amplitudes Ms t) = (length ns - 1)%nat) by (rewrite amplitudes_length; lia).
  assert (CN : forall i, (i < length ns)%nat -> nth i (map Ccos ths) C0 = Ccos (nth i ths C0)).
  { intros i Hi. rewrite (nth_indep _ _ (Ccos C0)) by (rewrite map_length; lia). apply map_nth. }
  split; [simpl; lia|]. intros i Hi. rewrite !CN by lia.
  destruct (F i Hi) as (Fi & _). apply (D_matches _ _ _ _ _ _ _ _ Fi (Hn i Hi)).
  destruct (Nat.eqb_spec i 0) as [-> | Hi0].
  - change (nth 1 (mvec (M_total (nth 0 rt (C0, C0)) Ms) (t, C0) :: amplitudes Ms t) (C0, C0)) with (nth 0 (amplitudes Ms t) (C0, C0)).
    assert (E : nth 0 (amplitudes Ms t) (C0, C0) = hd (C0, C0) (amplitudes Ms t)) by (destruct amplitudes; reflexivity).
    rewrite E, amplitudes_hd, <- mvec_mdot. reflexivity.
  - destruct i as [|i]; [lia|]. set (x := mvec (M_total (nth 0 rt (C0, C0)) Ms) (t, C0)).
    change (nth (S i) (x :: amplitudes Ms t) (C0, C0)) with (nth i (amplitudes Ms t) (C0, C0)).
    change (nth (S (S i)) (x :: amplitudes Ms t) (C0, C0)) with (nth (S i) (amplitudes Ms t) (C0, C0)).
    apply M_layer_advance. rewrite <- HM by lia.
    replace (S i - 1)%nat with i by lia. apply amplitudes_step. lia.
Qed.

Lemma Cdiv_nz a b : a <> C0 -> b <> C0 -> (a / b)%C <> C0.
Proof. intros Ha Hb E. apply Ha. transitivity (a / b * b)%C; [field; exact Hb|rewrite E; ring]. Qed.

(** * Success *)
Section Succeeds.
Variable arcsin : C -> C.
Hypothesis inv : inverts_sine arcsin.
Hypothesis pri : principal arcsin.
Variables (pol : string) (ns : list C) (ds : list pyfloat) (th0 : C) (lam s : R).
Hypothesis Hpol : pol = "s"%string \/ pol = "p"%string.
Hypothesis HN : (2 <= length ns)%nat.
Hypothesis Lds : length ds = length ns.
Hypothesis Hends : nth 0 ds NaN = PInf /\ nth (length ns - 1) ds NaN = PInf.
Hypothesis Hin : forall i, (0 < i)%nat -> (S i < length ns)%nat -> exists d, nth i ds NaN = Fin d /\ 0 <= d /\
   Im (nth i ns C0 * Ccos (arcsin (RtoC s / nth i ns C0)))%C * (2 * PI / lam) * d <= 35.
Hypothesis Hlam : 0 < lam.
Hypothesis Hs : (nth 0 ns C0 * Csin th0)%C = RtoC s.
Hypothesis Hth : 0 < Re (Ccos th0).
Hypothesis Hadm : forall i, (i < length ns)%nat -> admits s (nth i ns C0).
Let N := length ns.
Let n i := nth i ns C0.
Let ang i := arcsin (RtoC s / n i)%C.
Let ths := map (fun x => arcsin (RtoC s / x)%C) ns.

Lemma ths_length : length ths = N.
Proof. apply map_length. Qed.
Lemma ths_nth i : (i < N)%nat -> nth i ths C0 = ang i.
Proof.
  intros Hi. unfold ths. set (f := fun x => arcsin (RtoC s / x)%C). rewrite (nth_indep _ _ (f C0)) by (rewrite map_length; exact Hi). rewrite map_nth. reflexivity.
Qed.
Lemma ang_cos i : (i < N)%nat -> (n i * n i * (Ccos (ang i) * Ccos (ang i)))%C = (n i * n i - RtoC (s * s))%C /\ 0 < Re (Ccos (ang i)).
Proof.
  intros Hi. assert (A := Hadm i Hi). assert (Hn := admits_neq _ _ A). fold (n i) in A, Hn. split.
  - pose proof (Csin2_cos2 (ang i)) as Q. unfold ang in Q at 1 2. rewrite inv in Q.
    replace (RtoC (s * s)) with (n i * n i * (RtoC s / n i * (RtoC s / n i)))%C.
    2:{ transitivity (RtoC s * RtoC s)%C; [field; exact Hn|apply Ceq; simpl; ring]. }
    transitivity (n i * n i * ((RtoC s / n i * (RtoC s / n i) + Ccos (ang i) * Ccos (ang i)) - RtoC s / n i * (RtoC s / n i)))%C; [ring|].
    rewrite Q. ring.
  - apply pri. destruct (Cdiv_im s (n i) Hn) as (E1 & E2). assert (Hp := Cnorm2_pos _ Hn). rewrite E1, E2.
    destruct A as (A1 & A2 & A3).
    destruct (Req_EM_T s 0) as [-> | Hs0]; [right; unfold Rdiv; rewrite !Rmult_0_l; lra|].
    destruct (Req_EM_T (Im (n i)) 0) as [Z | Z].
    + right. destruct A3 as [A3 | A3]; [lra|]. unfold Cnorm2. rewrite Z.
      replace (s * Re (n i) / (Re (n i) * Re (n i) + 0 * 0)) with (s / Re (n i)) by (field; lra).
      apply Rabs_def2 in A3. split; apply (Rmult_lt_reg_r (Re (n i))); auto; unfold Rdiv; rewrite Rmult_assoc, Rinv_l; lra.
    + left. intros Q. assert (s * Im (n i) = 0).
      { apply (Rmult_eq_reg_r (/ Cnorm2 (n i))); [|apply Rinv_neq_0_compat; lra]. unfold Rdiv in Q. lra. }
      apply Rmult_integral in H. tauto.
Qed.
Lemma angles_ok l : (forall x, In x l -> x <> C0) -> angles_of arcsin (RtoC s) l = Ok (map (fun x => arcsin (RtoC s / x)%C) l).
Proof.
  induction l as [|x l IH]; intros H; [reflexivity|]. simpl. rewrite cdiv_ok by (apply H; left; reflexivity). cbn [bind].
  rewrite IH by (intros; apply H; right; auto). reflexivity.
Qed.
Lemma snell_ok : list_snell arcsin ns th0 = Ok ths.
Proof.
  assert (E : angles_of arcsin (nth 0 ns C0 * Csin th0)%C ns = Ok ths).
  { rewrite Hs. apply angles_ok. intros x Hx. apply (In_nth _ _ C0) in Hx as (i & Hi & <-). apply (admits_neq s). apply Hadm. exact Hi. }
  assert (MF : forall i, (i < N)%nat -> make_forward ns i ths = Ok ths).
  { intros i Hi. unfold make_forward. rewrite ths_nth by exact Hi. destruct (ang_cos i Hi) as (Q1 & Q2).
    rewrite (admits_forward s (nth i ns C0) (Ccos (ang i)) (Hadm i Hi) Q1 Q2 (ang i) eq_refl). reflexivity. }
  assert (L : list_snell arcsin ns th0 =
     (let! angles := angles_of arcsin (nth 0 ns C0 * Csin th0)%C ns in
      let! angles := make_forward ns 0 angles in make_forward ns (length ns - 1) angles)).
  { clear - HN. destruct ns; [simpl in HN; lia|reflexivity]. }
  rewrite L, E. cbn [bind].
  rewrite MF by (unfold N; lia). cbn [bind]. apply MF. unfold N. lia.
Qed.

Lemma interface_ok i j : (i < N)%nat -> (j < N)%nat ->
  exists r t, interface_r pol (n i) (n j) (ang i) (ang j) = Ok r /\ interface_t pol (n i) (n j) (ang i) (ang j) = Ok t /\ t <> C0.
Proof.
  intros Hi Hj. destruct (ang_cos i Hi) as (Ei & Pi). destruct (ang_cos j Hj) as (Ej & Pj).
  pose proof (Hadm i Hi) as Ai. pose proof (Hadm j Hj) as Aj.
  destruct (q_quadrant s (n i) (Ccos (ang i)) Ai Ei Pi) as (Qi & _). destruct (q_quadrant s (n j) (Ccos (ang j)) Aj Ej Pj) as (Qj & _).
  pose proof (admits_neq _ _ Ai) as Ni. pose proof (admits_neq _ _ Aj) as Nj. fold (n i) in Ni. fold (n j) in Nj.
  assert (Hci : Ccos (ang i) <> C0). { intros E. rewrite E in Pi. simpl in Pi. lra. }
  assert (Ds : (n i * Ccos (ang i) + n j * Ccos (ang j))%C <> C0).
  { intros E. apply (f_equal Re) in E. change (Re (n i * Ccos (ang i))%C + Re (n j * Ccos (ang j))%C = 0) in E. lra. }
  assert (Dp : (n j * Ccos (ang i) + n i * Ccos (ang j))%C <> C0).
  { intros E. pose proof (weight_pos s (n i) (Ccos (ang i)) Ai Ei Pi "p") as Wi. pose proof (weight_pos s (n j) (Ccos (ang j)) Aj Ej Pj "p") as Wj.
    unfold weight in Wi, Wj. simpl String.eqb in Wi, Wj. cbv iota in Wi, Wj.
    assert (Pi2 := Cnorm2_pos _ Ni). assert (Pj2 := Cnorm2_pos _ Nj).
    assert (Q : (RtoC (Cnorm2 (n j)) * (Cconj (n i) * Ccos (ang i)) + RtoC (Cnorm2 (n i)) * (Cconj (n j) * Ccos (ang j)))%C = C0).
    { transitivity (Cconj (n i) * Cconj (n j) * (n j * Ccos (ang i) + n i * Ccos (ang j)))%C; [|rewrite E; ring].
      assert (forall z, RtoC (Cnorm2 z) = (z * Cconj z)%C) as Z by (intros [a b]; apply Ceq; unfold Cnorm2; simpl; ring).
      rewrite !Z. ring. }
    apply (f_equal Re) in Q.
    assert (X : Cnorm2 (n j) * Re (Cconj (n i) * Ccos (ang i))%C + Cnorm2 (n i) * Re (Cconj (n j) * Ccos (ang j))%C = 0).
    { etransitivity; [|exact Q]. unfold Cnorm2. simpl. ring. }
    assert (0 < Cnorm2 (n j) * Re (Cconj (n i) * Ccos (ang i))%C) by (apply Rmult_lt_0_compat; auto).
    assert (0 < Cnorm2 (n i) * Re (Cconj (n j) * Ccos (ang j))%C) by (apply Rmult_lt_0_compat; auto). lra. }
  unfold interface_r, interface_t. destruct Hpol as [-> | ->]; simpl String.eqb; cbv iota.
  - rewrite !cdiv_ok by assumption. do 2 eexists. split; [reflexivity|]. split; [reflexivity|].
    apply Cdiv_nz; auto. repeat apply Cmul_neq_0; auto using two_neq.
  - rewrite !cdiv_ok by assumption. do 2 eexists. split; [reflexivity|]. split; [reflexivity|].
    apply Cdiv_nz; auto. repeat apply Cmul_neq_0; auto using two_neq.
Qed.
Lemma interfaces_ok : exists rt, interfaces pol ns ths = Ok rt /\ length rt = (N - 1)%nat /\
  forall p, In p rt -> snd p <> C0.
Proof.
  assert (Q : forall k, (k <= N)%nat -> exists rt, interfaces pol (skipn (N - k) ns) (skipn (N - k) ths) = Ok rt /\ length rt = (k - 1)%nat /\
    forall p, In p rt -> snd p <> C0).
  { assert (SK : forall A (l : list A) i d, (i < length l)%nat -> skipn i l = nth i l d :: skipn (S i) l).
    { clear. intros A l. induction l as [|x l IH]; intros i d Hi; [simpl in Hi; lia|]. destruct i; [reflexivity|]. simpl. apply IH. simpl in Hi. lia. }
    induction k as [|k IH]; intros Hk.
    - replace (N - 0)%nat with N by lia. unfold N. rewrite skipn_all. exists []. split; [reflexivity|]. split; [reflexivity|]. intros p [].
    - destruct (IH ltac:(lia)) as (rt & E & L & H). set (i := (N - S k)%nat). replace (N - k)%nat with (S i) in E by (unfold i; lia).
      rewrite (SK _ ns i C0) by (unfold i, N in *; lia). rewrite (SK _ ths i C0) by (rewrite ths_length; unfold i; lia).
      destruct k as [|k].
      + rewrite (skipn_all2 (n:=S i) ns) by (unfold i, N in *; lia). rewrite (skipn_all2 (n:=S i) ths) by (rewrite ths_length; unfold i; lia).
        exists []. split; [reflexivity|]. split; [reflexivity|]. intros p [].
      + assert (E' := E). rewrite (SK _ ns (S i) C0) in E' |- * by (unfold i, N in *; lia).
        rewrite (SK _ ths (S i) C0) in E' |- * by (rewrite ths_length; unfold i; lia).
        destruct (interface_ok i (S i)) as (r & t & Er & Et & Ht); [unfold i; lia|unfold i; lia|].
        exists ((r, t) :: rt). cbn [interfaces]. rewrite !ths_nth by (unfold i; lia). rewrite !ths_nth in E' by (unfold i; lia).
        fold (n i) (n (S i)). fold (n (S i)) in E'. rewrite Et, Er. cbn [bind]. cbn [interfaces] in E'. rewrite E'. cbn [bind]. split; [reflexivity|].
        split; [simpl; lia|]. intros p [<- | Hp]; auto. }
  destruct (Q N (le_n _)) as (rt & E & L & H). replace (N - N)%nat with 0%nat in E by lia. exists rt. auto.
Qed.

Theorem coh_tmm_succeeds : exists D, coh_tmm arcsin pol ns ds th0 lam = Ok D /\ c_th D = ths.
Proof.
  unfold coh_tmm. rewrite Lds, Nat.eqb_refl. cbn [bind ensure].
  destruct (Nat.eqb_spec (length ns) 0); [lia|]. cbn [negb bind ensure].
  destruct Hends as (-> & ->). cbn [feq andb bind ensure].
  assert (E1 : Rltb (Rabs (Im (nth 0 ns C0 * Csin th0)%C)) (100 * EPSILON) = true).
  { apply Rltb_true. rewrite Hs. simpl. rewrite Rabs_R0. pose proof EPSILON_pos. lra. }
  rewrite E1. cbn [bind ensure].
  assert (H0 : (0 < length ns)%nat) by lia.
  assert (Q0 : (nth 0 ns C0 * nth 0 ns C0 * (Ccos th0 * Ccos th0))%C = (nth 0 ns C0 * nth 0 ns C0 - RtoC (s * s))%C).
  { replace (RtoC (s * s)) with (RtoC s * RtoC s)%C by (apply Ceq; simpl; ring). rewrite <- Hs.
    pose proof (Csin2_cos2 th0) as Q.
    transitivity (nth 0 ns C0 * nth 0 ns C0 * (Csin th0 * Csin th0 + Ccos th0 * Ccos th0) - nth 0 ns C0 * Csin th0 * (nth 0 ns C0 * Csin th0))%C; [ring|].
    rewrite Q. ring. }
  rewrite (admits_forward s (nth 0 ns C0) (Ccos th0) (Hadm 0%nat H0) Q0 Hth th0 eq_refl). cbn [bind ensure].
  rewrite snell_ok. cbn [bind ensure].
  assert (E2 : Reqb lam 0 = false) by (apply Reqb_false; lra). rewrite E2. cbn [negb bind ensure].
  assert (E3 : forallb (fun i => finite_thickness (nth i ds NaN)) (seq 1 (length ns - 2)) = true).
  { apply forallb_forall. intros i Hi. apply in_seq in Hi. destruct (Hin i) as (d & -> & _); [lia|lia|reflexivity]. }
  rewrite E3. cbn [bind ensure].
  destruct interfaces_ok as (rt & Ert & Lrt & Hrt). rewrite Ert. cbn [bind ensure].
  destruct (Nat.eqb_spec (length ns) 1); [lia|]. cbn [negb bind ensure].
  assert (E4 : forallb (fun p : C * C => negb (Reqb (Cnorm2 (snd p)) 0)) rt = true).
  { apply forallb_forall. intros p Hp. apply negb_true_iff, Reqb_false. intros Q. apply Cnorm2_zero in Q. exact (Hrt p Hp Q). }
  rewrite E4. cbn [bind ensure].
  set (kz := map (fun p => (RtoC (2 * PI) * fst p * Ccos (snd p) / RtoC lam)%C) (combine ns ths)).
  assert (Lkz : length kz = N) by (unfold kz; rewrite map_length, combine_length, ths_length; unfold N; lia).
  assert (HL : RtoC lam <> C0) by (intros Q; injection Q; lra).
  assert (Hkz : forall i, (i < N)%nat -> nth i kz C0 = (RtoC (2 * PI / lam) * (n i * Ccos (ang i)))%C).
  { intros i Hi. unfold kz. set (f := fun p : C * C => _). rewrite (nth_indep _ _ (f (C0, C0))) by (rewrite map_length, combine_length, ths_length; unfold N in *; lia).
    rewrite map_nth, combine_nth by (rewrite ths_length; reflexivity). rewrite ths_nth by exact Hi. unfold f. cbn [fst snd]. fold (n i).
    replace (RtoC (2 * PI / lam)) with (RtoC (2 * PI) / RtoC lam)%C; [field; exact HL|].
    apply (Cmul_cancel (RtoC lam)); auto. transitivity (RtoC (2 * PI)); [field; exact HL|]. apply Ceq; simpl; field; lra. }
  set (Ms := M_list kz ds rt). set (M := M_total (nth 0 rt (C0, C0)) Ms).
  set (deltas := map (fun i => phase_of (nth i kz C0) (thickness (nth i ds NaN))) (seq 0 N)).
  assert (Hdel : forall i, (i < N)%nat -> nth i deltas C0 = phase_of (nth i kz C0) (thickness (nth i ds NaN))).
  { intros i Hi. unfold deltas. set (f := fun i : nat => _). rewrite (nth_indep _ _ (f 0%nat)) by (rewrite map_length, seq_length; exact Hi).
    rewrite map_nth, seq_nth by exact Hi. reflexivity. }
  assert (LM : length Ms = (length ns - 2)%nat) by (unfold Ms, M_list; rewrite map_length, seq_length, Lkz; reflexivity).
  assert (HM : forall i, (0 < i)%nat -> (S i < length ns)%nat -> nth (i - 1) Ms m_id = M_layer (nth i deltas C0) (nth i rt (C0, C0))).
  { intros i H1 H2. unfold Ms, M_list. set (f := fun i : nat => _).
    rewrite (nth_indep _ _ (f 0%nat)) by (rewrite map_length, seq_length, Lkz; unfold N; lia).
    rewrite map_nth, seq_nth by (rewrite Lkz; unfold N; lia). replace (1 + (i - 1))%nat with i by lia.
    unfold f. rewrite Hdel by (unfold N; lia). reflexivity. }
  assert (Hrn : forall i, (S i < length ns)%nat -> snd (nth i rt (C0, C0)) <> C0).
  { intros i Hi. apply Hrt. apply nth_In. unfold N in Lrt. lia. }
  pose proof (matrices_wave pol ns ths rt Ms deltas C1 HN ths_length Ert Hrn LM HM) as WV. fold M in WV.
  assert (CN : forall i, (i < N)%nat -> nth i (map Ccos ths) C0 = Ccos (ang i)).
  { intros i Hi. rewrite (nth_indep _ _ (Ccos C0)) by (rewrite map_length, ths_length; exact Hi). rewrite map_nth, ths_nth by exact Hi. reflexivity. }
  assert (M0 : m00 M <> C0).
  { intros Z. assert (Hl : (length ns - 1 < length ns)%nat) by lia.
    pose proof (chain_generic _ _ _ _ _ WV) as Ch. specialize (Ch).
    assert (HD : forall i w, (0 < i)%nat -> (S i < length ns)%nat ->
     power pol (nth i ns C0) (nth i (map Ccos ths) C0) (advance (nth i deltas C0) w) <= power pol (nth i ns C0) (nth i (map Ccos ths) C0) w).
    { intros i w H1 H2. rewrite CN by (unfold N; lia). rewrite Hdel by (unfold N; lia). rewrite Hkz by (unfold N; lia).
      destruct (Hin i H1 H2) as (d & -> & Hd & Ho). cbn [thickness]. unfold phase_of.
      destruct (Rltb 35 _) eqn:Eo.
      { apply Rltb_true in Eo. exfalso. fold (n i) in Ho. fold (ang i) in Ho. simpl in Eo, Ho. lra. }
      assert (Hi : (i < N)%nat) by (unfold N; lia). destruct (ang_cos i Hi) as (Q1 & Q2). destruct (Hadm i Hi) as (A1 & A2 & A3).
      apply (power_drop_nonneg pol (n i) (Ccos (ang i)) s).
      - apply (admits_neq s). apply Hadm. exact Hi.
      - exact Q1.
      - left. pose proof PI_RGT_0. apply Rdiv_lt_0_compat; lra.
      - unfold passive. unfold n. nra.
      - exact Hd. }
    specialize (Ch HD _ Hl). rewrite !CN in Ch by (unfold N; lia).
    replace (nth (length ns - 1) (mvec M (C1, C0) :: amplitudes Ms C1) (C0, C0)) with (C1, C0) in Ch.
    2:{ replace (length ns - 1)%nat with (S (length Ms)) by lia. simpl. symmetry. apply amplitudes_last. }
    cbn [nth] in Ch. unfold mvec in Ch. rewrite Z in Ch. rewrite !power_closed in Ch. cbn [fst snd] in Ch.
    destruct (ang_cos _ Hl) as (Ql1 & Ql2). destruct (ang_cos _ H0) as (Qf1 & Qf2).
    pose proof (weight_pos s _ _ (Hadm _ Hl) Ql1 Ql2 pol) as Wl. pose proof (weight_pos s _ _ (Hadm _ H0) Qf1 Qf2 pol) as Wf.
    fold (n (length ns - 1)) in Ch. fold (n 0%nat) in Ch.
    set (Wl' := weight pol (n (length ns - 1)) (Ccos (ang (length ns - 1)))) in *.
    change (nth 0 ns C0) with (n 0%nat) in Wf.
    change (weight pol (nth (length ns - 1) ns C0) (Ccos (ang (length ns - 1)))) with Wl' in Wl.
    set (Wf' := weight pol (n 0%nat) (Ccos (ang 0%nat))) in *. clearbody Wl' Wf'.
    replace (C0 * C1 + m01 M * C0)%C with C0 in Ch by ring.
    replace (m10 M * C1 + m11 M * C0)%C with (m10 M) in Ch by ring.
    replace (Im (C1 * Cconj C0)%C) with 0 in Ch by (simpl; ring).
    replace (Im (C0 * Cconj (m10 M))%C) with 0 in Ch by (simpl; ring).
    replace (Cnorm2 C0) with 0 in Ch by (unfold Cnorm2; simpl; ring).
    replace (Cnorm2 C1) with 1 in Ch by (unfold Cnorm2; simpl; ring).
    pose proof (Cnorm2_ge0 (m10 M)). nra. }
  rewrite !cdiv_ok by exact M0. cbn [bind].
  pose proof (weight_pos s _ _ (Hadm _ H0) Q0 Hth pol) as Wf. unfold weight in Wf. unfold T_from_t, power_entering_from_r.
  destruct Hpol as [-> | ->]; simpl String.eqb in *; cbv iota in *.
  - rewrite !rdiv_ok by lra. cbn [bind]. eexists. split; reflexivity.
  - replace (Re (Cconj (nth 0 ns C0) * Ccos th0)%C) with (Re (nth 0 ns C0 * Cconj (Ccos th0))%C) in Wf by (destruct (nth 0 ns C0), (Ccos th0); simpl; ring).
    rewrite !rdiv_ok by lra. cbn [bind]. eexists. split; reflexivity.
Qed.
End Succeeds.
