From Coq Require Import Reals ZArith String List Bool Lra Lia Psatz.
From Verif Require Import Base BaseLemmas Model_Materials Model_EpsGrid Proof_EpsGrid Model_Losses Spec_Losses.
Import ListNotations.
Open Scope R_scope.

Lemma tpow_abs L a b : 0 < L -> tpow (Rabs (a - b)) L = absL L a b.
Proof.
  intros HL. unfold tpow, absL. destruct (Req_EM_T a b) as [->|H].
  - replace (b - b) with 0 by ring. rewrite Rabs_R0. destruct (Req_EM_T 0 0); [|lra].
    destruct (Req_EM_T L 0); [lra|auto].
  - destruct (Req_EM_T (Rabs (a - b)) 0) as [E|]; auto.
    exfalso. apply H. apply Rminus_diag_uniq. destruct (Req_EM_T (a - b) 0); auto. apply Rabs_no_R0 in n. lra.
Qed.
Lemma absL_nonneg L a b : 0 <= absL L a b.
Proof. unfold absL. destruct (Req_EM_T a b); [lra|]. unfold Rpower. left. apply exp_pos. Qed.
Lemma absL_zero L a b : absL L a b = 0 <-> a = b.
Proof.
  unfold absL. destruct (Req_EM_T a b); [tauto|]. split; [|contradiction].
  intros H. unfold Rpower in H. pose proof (exp_pos (L * ln (Rabs (a - b)))). lra.
Qed.
Lemma absL_sym L a b : absL L a b = absL L b a.
Proof.
  unfold absL. destruct (Req_EM_T a b), (Req_EM_T b a); auto; try congruence.
  rewrite Rabs_minus_sym. auto.
Qed.
Lemma absL_1 a b : absL 1 a b = Rabs (a - b).
Proof.
  unfold absL. destruct (Req_EM_T a b) as [->|H].
  - rewrite Rminus_diag_eq, Rabs_R0; auto.
  - apply Rpower_1. apply Rabs_pos_lt. lra.
Qed.

Lemma sumL_nonneg L xs ys : 0 <= sumL L xs ys.
Proof.
  unfold sumL. apply Rsum_nonneg. intros x Hx. apply in_map_iff in Hx. destruct Hx as (p & <- & _).
  apply absL_nonneg.
Qed.
Lemma sumL_zero L xs ys : length xs = length ys -> (sumL L xs ys = 0 <-> xs = ys).
Proof.
  intros HL. unfold sumL. rewrite Rsum_zero_iff.
  2: { intros x Hx. apply in_map_iff in Hx. destruct Hx as (p & <- & _). apply absL_nonneg. }
  revert ys HL. induction xs as [|x xs IH]; intros [|y ys] HL; simpl in *; try discriminate.
  - split; auto. intros _ z [].
  - split.
    + intros H. assert (E : absL L x y = 0) by (apply H; auto). apply absL_zero in E. subst.
      f_equal. apply IH; auto.
    + intros E. inversion E; subst. intros z [<-|Hz]; [apply absL_zero; auto|].
      apply (proj2 (IH ys ltac:(lia)) eq_refl); auto.
Qed.
Lemma sumL_sym L xs ys : sumL L xs ys = sumL L ys xs.
Proof.
  unfold sumL. revert ys. induction xs as [|x xs IH]; intros [|y ys]; simpl; auto.
  unfold Rsum in *. rewrite IH, absL_sym. auto.
Qed.
Lemma sumL1_triangle xs ys zs : length xs = length ys -> length ys = length zs ->
  sumL 1 xs zs <= sumL 1 xs ys + sumL 1 ys zs.
Proof.
  revert ys zs. induction xs as [|x xs IH]; intros [|y ys] [|z zs] H1 H2; simpl in *; try discriminate.
  - unfold sumL; simpl; lra.
  - unfold sumL in *; simpl. specialize (IH ys zs ltac:(lia) ltac:(lia)). unfold Rsum in *.
    rewrite !absL_1. pose proof (Rabs_triang (x - y) (y - z)). replace (x - y + (y - z)) with (x - z) in H by ring.
    lra.
Qed.

(** the loop *)
Definition renR (Rs Ts : list R) := map (fun p => fst (fst (renorm_point (fst p) (snd p)))) (combine Rs Ts).
Definition renT (Rs Ts : list R) := map (fun p => snd (fst (renorm_point (fst p) (snd p)))) (combine Rs Ts).
Definition anyren (Rs Ts : list R) := existsb (fun p => snd (renorm_point (fst p) (snd p))) (combine Rs Ts).

Lemma loss_loop_spec L A : 0 < L -> forall pR pT tR tT fs aR aT aA fl,
  length pT = length pR -> length tR = length pR -> length tT = length pR -> length fs = length pR ->
  loss_loop L A pR pT tR tT fs (aR, aT, aA, fl) =
  (aR + sumL L (renR pR pT) tR, aT + sumL L (renT pR pT) tT,
   (if A then aA + sumL L (absorption (renR pR pT) (renT pR pT)) (absorption tR tT) else aA),
   fl || anyren pR pT).
Proof.
  intros HL. induction pR as [|r pR IH]; intros [|t pT] [|r' tR] [|t' tT] [|f fs] aR aT aA fl H1 H2 H3 H4;
    simpl in *; try discriminate.
  - unfold sumL, absorption, anyren; simpl. rewrite orb_false_r, !Rplus_0_r. destruct A; auto.
  - destruct (renorm_point r t) as [[r1 t1] b] eqn:E. rewrite IH by lia.
    unfold sumL, absorption, renR, renT, anyren; simpl. rewrite E; simpl. unfold Rsum; simpl.
    rewrite !tpow_abs by auto. rewrite orb_assoc.
    f_equal. f_equal. f_equal; ring. destruct A; ring.
Qed.

Lemma renorm_id Rs Ts : length Ts = length Rs -> physical Rs Ts ->
  renR Rs Ts = Rs /\ renT Rs Ts = Ts /\ anyren Rs Ts = false.
Proof.
  revert Ts. induction Rs as [|r Rs IH]; intros [|t Ts] HL HP; simpl in *; try discriminate; [repeat split; auto|].
  destruct (IH Ts ltac:(lia)) as (A & B & C). { intros p Hp. apply HP. simpl; auto. }
  assert (r + t <= 1) by (apply (HP (r, t)); simpl; auto).
  unfold renR, renT, anyren in *. simpl.
  assert (E : renorm_point r t = (r, t, false)) by (unfold renorm_point; destruct (Rlt_dec 1 (r + t)); [lra|auto]).
  rewrite E; simpl. rewrite A, B, C. auto.
Qed.

Lemma anyren_iff Rs Ts : anyren Rs Ts = true <-> exists p, In p (combine Rs Ts) /\ 1 < fst p + snd p.
Proof.
  unfold anyren. rewrite existsb_exists. split; intros (p & Hp & H); exists p; split; auto.
  - unfold renorm_point in H. destruct (Rlt_dec 1 (fst p + snd p)); auto; discriminate.
  - unfold renorm_point. destruct (Rlt_dec 1 (fst p + snd p)); auto.
Qed.

Definition kdiv (A : bool) : R := if A then 3 else 2.

Lemma spectrum_loss_general pR pT tR tT fs L A : 0 < L -> pR <> [] ->
  length pT = length pR -> length tR = length pR -> length tT = length pR -> length fs = length pR ->
  spectrum_loss pR pT tR tT fs L A =
  Ok ((sumL L (renR pR pT) tR + sumL L (renT pR pT) tT +
       (if A then sumL L (absorption (renR pR pT) (renT pR pT)) (absorption tR tT) else 0))
      / (kdiv A * INR (length pR)), anyren pR pT).
Proof.
  intros HL Hne H1 H2 H3 H4. unfold spectrum_loss. rewrite loss_loop_spec by auto.
  destruct pR as [|r pR]; [congruence|]. rewrite orb_false_l. unfold kdiv. destruct A.
  - do 3 f_equal; ring.
  - do 3 f_equal; ring.
Qed.

Lemma spectrum_loss_value pR pT tR tT fs L A : 0 < L -> pR <> [] ->
  length pT = length pR -> length tR = length pR -> length tT = length pR -> length fs = length pR ->
  physical pR pT ->
  spectrum_loss pR pT tR tT fs L A =
  Ok ((sumL L pR tR + sumL L pT tT + (if A then sumL L (absorption pR pT) (absorption tR tT) else 0))
      / ((if A then 3 else 2) * INR (length pR)), false).
Proof.
  intros HL Hne H1 H2 H3 H4 HP. rewrite spectrum_loss_general by auto.
  destruct (renorm_id pR pT H1 HP) as (-> & -> & ->). reflexivity.
Qed.

Lemma den_pos (A : bool) (n : nat) : (0 < n)%nat -> 0 < (if A then 3 else 2) * INR n.
Proof. intros. assert (0 < INR n) by (apply lt_0_INR; auto). destruct A; lra. Qed.

Lemma spectrum_loss_distance pR pT tR tT fs L A : 0 < L -> pR <> [] ->
  length pT = length pR -> length tR = length pR -> length tT = length pR -> length fs = length pR ->
  physical pR pT ->
  exists v, spectrum_loss pR pT tR tT fs L A = Ok (v, false) /\ 0 <= v /\
    (v = 0 <-> pR = tR /\ pT = tT) /\
    (physical tR tT -> spectrum_loss tR tT pR pT fs L A = Ok (v, false)).
Proof.
  intros HL Hne H1 H2 H3 H4 HP. rewrite spectrum_loss_value by auto. eexists. split; [reflexivity|].
  assert (Hn : (0 < length pR)%nat) by (destruct pR; [congruence|simpl; lia]).
  pose proof (den_pos A _ Hn) as Hd.
  set (a := sumL L pR tR). set (b := sumL L pT tT).
  set (c := if A then sumL L (absorption pR pT) (absorption tR tT) else 0).
  assert (0 <= a) by apply sumL_nonneg. assert (0 <= b) by apply sumL_nonneg.
  assert (0 <= c) by (unfold c; destruct A; [apply sumL_nonneg|lra]).
  assert (Hi : 0 < / ((if A then 3 else 2) * INR (length pR))) by (apply Rinv_0_lt_compat; auto).
  split; [|split].
  - unfold Rdiv. apply Rmult_le_pos; lra.
  - split.
    + intros E. unfold Rdiv in E. apply Rmult_integral in E. destruct E as [E|E]; [|lra].
      split; apply (sumL_zero L); try lia; fold a b; lra.
    + intros [<- <-]. unfold a, b, c. rewrite (proj2 (sumL_zero L pR pR eq_refl) eq_refl).
      rewrite (proj2 (sumL_zero L pT pT eq_refl) eq_refl).
      replace (if A then _ else 0) with 0. { unfold Rdiv; ring. }
      destruct A; auto. symmetry. apply sumL_zero; auto.
  - intros HP'. rewrite spectrum_loss_value; auto; try lia.
    2: { destruct tR; [simpl in H2; lia|discriminate]. }
    rewrite (sumL_sym L tR), (sumL_sym L tT), H2. unfold a, b, c.
    destruct A; auto. rewrite (sumL_sym L (absorption tR tT)). auto.
Qed.

Lemma spectrum_loss_L1_triangle pR pT qR qT tR tT fs : pR <> [] ->
  length pT = length pR -> length qR = length pR -> length qT = length pR ->
  length tR = length pR -> length tT = length pR -> length fs = length pR ->
  physical pR pT -> physical qR qT ->
  exists a b c, spectrum_loss pR pT tR tT fs 1 false = Ok (a, false) /\
    spectrum_loss pR pT qR qT fs 1 false = Ok (b, false) /\
    spectrum_loss qR qT tR tT fs 1 false = Ok (c, false) /\ a <= b + c.
Proof.
  intros Hne L1 L2 L3 L4 L5 L6 P1 P2.
  assert (qR <> []) by (destruct qR; [destruct pR; [congruence|discriminate]|discriminate]).
  rewrite !spectrum_loss_value; auto; try lra; try lia. rewrite L2.
  do 3 eexists. split; [reflexivity|]. split; [reflexivity|]. split; [reflexivity|].
  pose proof (sumL1_triangle pR qR tR ltac:(lia) ltac:(lia)).
  pose proof (sumL1_triangle pT qT tT ltac:(lia) ltac:(lia)).
  assert (Hn : (0 < length pR)%nat) by (destruct pR; [congruence|simpl; lia]).
  pose proof (den_pos false _ Hn) as Hd.
  assert (Hi : 0 < / (2 * INR (length pR))) by (apply Rinv_0_lt_compat; auto).
  unfold Rdiv. nra.
Qed.

Lemma spectrum_loss_empty pT tR tT fs L A : spectrum_loss [] pT tR tT fs L A = Err ZeroDivisionError.
Proof. reflexivity. Qed.

(** zip truncation: a shorter target is silently accepted *)
Lemma loss_truncation_refuted : exists pR pT tR tT fs L,
  0 < L /\ physical pR pT /\ length pR = length pT /\ length tR = length tT /\ length fs = length pR /\
  (pR <> tR \/ pT <> tT) /\ spectrum_loss pR pT tR tT fs L false = Ok (0, false).
Proof.
  exists [1/2; 1/2], [1/2; 1/2], [1/2], [1/2], [1; 1], 1.
  split; [lra|]. split. { intros p [<-|[<-|[]]]; simpl; lra. }
  split; auto. split; auto. split; auto. split; [left; discriminate|].
  unfold spectrum_loss. simpl. unfold renorm_point. destruct (Rlt_dec 1 (1/2 + 1/2)); [lra|].
  rewrite tpow_abs by lra. rewrite (proj2 (absL_zero 1 (1/2) (1/2)) eq_refl). simpl. f_equal. f_equal. field.
Qed.

(** * renormalisation *)
Lemma renorm_flag pR pT tR tT fs L A v fl : 0 < L -> pR <> [] ->
  length pT = length pR -> length tR = length pR -> length tT = length pR -> length fs = length pR ->
  spectrum_loss pR pT tR tT fs L A = Ok (v, fl) ->
  (fl = true <-> exists i, (i < length pR)%nat /\ 1 < nth i pR 0 + nth i pT 0).
Proof.
  intros HL Hne H1 H2 H3 H4. rewrite spectrum_loss_general by auto. intros E. inversion E; subst.
  rewrite anyren_iff. split.
  - intros (p & Hp & Hlt). apply (In_nth _ _ (0, 0)) in Hp. destruct Hp as (i & Hi & Ep).
    rewrite combine_length in Hi. exists i. split; [lia|]. rewrite combine_nth in Ep by lia. subst p. auto.
  - intros (i & Hi & Hlt). exists (nth i (combine pR pT) (0, 0)). split.
    + apply nth_In. rewrite combine_length. lia.
    + rewrite combine_nth by lia. auto.
Qed.

Lemma renorm_pair r t : 0 <= r -> 0 <= t -> 1 < r + t ->
  exists r' t', renorm_point r t = (r', t', true) /\ r' = r / (r + t) /\ t' = t / (r / (r + t) + t) /\
    (r' + t' = 1 <-> r = 0 \/ t = 0) /\ (0 < r -> 0 < t -> 1 < r' + t').
Proof.
  intros Hr Ht H. unfold renorm_point. destruct (Rlt_dec 1 (r + t)); [|lra].
  eexists; eexists. split; [reflexivity|]. split; auto. split; auto.
  assert (Hs : 0 < r + t) by lra.
  assert (Big : 0 < r -> 0 < t -> 1 < r / (r + t) + t / (r / (r + t) + t)).
  { intros Hr' Ht'.
    assert (r / (r + t) < r). { apply (Rmult_lt_reg_r (r + t)); auto. unfold Rdiv. rewrite Rmult_assoc, Rinv_l by lra. nra. }
    assert (0 < r / (r + t)) by (apply Rdiv_lt_0_compat; auto).
    assert (t / (r + t) < t / (r / (r + t) + t)).
    { unfold Rdiv at 1 2. apply Rmult_lt_compat_l; auto. apply Rinv_lt_contravar; [nra|lra]. }
    assert (r / (r + t) + t / (r + t) = 1) by (field; lra). lra. }
  split; auto. split.
  - intros E. destruct (Req_EM_T r 0); auto. destruct (Req_EM_T t 0); auto.
    exfalso. assert (0 < r) by lra. assert (0 < t) by lra. specialize (Big H0 H1). lra.
  - intros [->| ->].
    + replace (0 / (0 + t)) with 0 by (field; lra). field. lra.
    + replace (r / (r + 0)) with 1 by (field; lra). field.
Qed.

(** a renormalised perfect point still has a loss: target = the pair normalised to sum 1 *)
Lemma renorm_intended_refuted : exists r t, 0 <= r /\ 0 <= t /\ 1 < r + t /\
  forall v fl, spectrum_loss [r] [t] [r / (r + t)] [t / (r + t)] [1] 1 false = Ok (v, fl) -> 0 < v.
Proof.
  exists 1, 1. split; [lra|]. split; [lra|]. split; [lra|]. intros v fl.
  rewrite spectrum_loss_general by (auto; try lra; discriminate). unfold renR, renT, sumL. simpl.
  unfold renorm_point. destruct (Rlt_dec 1 (1 + 1)); [|lra]. simpl.
  rewrite !absL_1. unfold Rsum; simpl.
  replace (1 / (1 + 1) - 1 / (1 + 1)) with 0 by ring.
  replace (1 / (1 / (1 + 1) + 1) - 1 / (1 + 1)) with (1 / 6) by field.
  rewrite Rabs_R0. rewrite Rabs_right by lra. intros E. inversion E; subst. unfold kdiv. lra.
Qed.

(** * likelihood regularisation *)
Lemma tpow_zero t L : 0 <= t -> 0 < L -> (tpow t L = 0 <-> t = 0).
Proof.
  intros Ht HL. unfold tpow. destruct (Req_EM_T t 0).
  - destruct (Req_EM_T L 0); [lra|tauto].
  - split; [|contradiction]. unfold Rpower. intros E. pose proof (exp_pos (L * ln t)). lra.
Qed.
Lemma tpow_nonneg t L : 0 <= tpow t L.
Proof.
  unfold tpow. destruct (Req_EM_T t 0); [destruct (Req_EM_T L 0); lra|]. left. apply exp_pos.
Qed.
Lemma tpow_mono a b L : 0 <= a <= b -> 0 < L -> tpow a L <= tpow b L.
Proof.
  intros [Ha Hab] HL. unfold tpow. destruct (Req_EM_T a 0).
  - destruct (Req_EM_T L 0); [lra|]. destruct (Req_EM_T b 0); [lra|]. left. apply exp_pos.
  - destruct (Req_EM_T b 0); [lra|]. apply Rle_Rpower_l; lra.
Qed.

Lemma reg_loss_bounds cells L : 0 < L -> concat cells <> [] ->
  (forall p, In p (concat cells) -> 0 <= p <= 1) ->
  0 <= reg_loss cells L <= Rpower (1 / 2) L /\
  (reg_loss cells L = 0 <-> forall p, In p (concat cells) -> p = 0 \/ p = 1).
Proof.
  intros HL Hne Hp. unfold reg_loss, Rmean. rewrite map_length.
  set (l := concat cells) in *. set (g := fun p => Rmin (tpow (1 - p) L) (tpow p L)).
  assert (Hn : 0 < INR (length l)) by (apply lt_0_INR; destruct l; [congruence|simpl; lia]).
  assert (Hi : 0 < / INR (length l)) by (apply Rinv_0_lt_compat; auto).
  assert (G0 : forall p, 0 <= g p) by (intros; unfold g; apply Rmin_glb; apply tpow_nonneg).
  assert (G1 : forall p, In p l -> g p <= Rpower (1/2) L).
  { intros p Hin. specialize (Hp p Hin). unfold g.
    assert (Hh : tpow (1/2) L = Rpower (1/2) L) by (unfold tpow; destruct (Req_EM_T (1/2) 0); [lra|auto]).
    rewrite <- Hh. destruct (Rle_dec p (1/2)).
    - eapply Rle_trans; [apply Rmin_r|]. apply tpow_mono; lra.
    - eapply Rle_trans; [apply Rmin_l|]. apply tpow_mono; lra. }
  assert (GZ : forall p, In p l -> (g p = 0 <-> p = 0 \/ p = 1)).
  { intros p Hin. specialize (Hp p Hin). unfold g. split.
    - unfold Rmin. destruct (Rle_dec _ _); intros E.
      + apply tpow_zero in E; lra.
      + apply tpow_zero in E; lra.
    - intros [->| ->].
      + rewrite Rmin_right; [apply tpow_zero; lra|].
        rewrite (proj2 (tpow_zero 0 L ltac:(lra) HL) eq_refl). apply tpow_nonneg.
      + rewrite Rmin_left; [apply tpow_zero; lra|].
        rewrite (proj2 (tpow_zero (1 - 1) L ltac:(lra) HL)) by ring. apply tpow_nonneg. }
  assert (S0 : 0 <= Rsum (map g l)).
  { apply Rsum_nonneg. intros x Hx. apply in_map_iff in Hx. destruct Hx as (p & <- & _); auto. }
  split; [split|].
  - apply Rmult_le_pos; lra.
  - apply (Rmult_le_reg_r (INR (length l))); auto. unfold Rdiv. rewrite Rmult_assoc, Rinv_l, Rmult_1_r by lra.
    eapply Rle_trans; [apply (Rsum_le g (fun _ => Rpower (1/2) L)); auto|].
    rewrite Rsum_const. right. replace (1 / 2) with (1 * / 2) by (unfold Rdiv; ring). ring.
  - split.
    + intros E. unfold Rdiv in E. apply Rmult_integral in E. destruct E as [E|E]; [|lra].
      rewrite Rsum_zero_iff in E.
      * intros p Hin. apply GZ; auto. apply E. apply in_map; auto.
      * intros x Hx. apply in_map_iff in Hx. destruct Hx as (q & <- & _); auto.
    + intros H. replace (Rsum (map g l)) with 0; [unfold Rdiv; ring|]. symmetry.
      apply Rsum_zero_iff.
      * intros x Hx. apply in_map_iff in Hx. destruct Hx as (q & <- & _); auto.
      * intros x Hx. apply in_map_iff in Hx. destruct Hx as (q & <- & Hq). apply GZ; auto.
Qed.

Lemma reg_loss_max_spec cells : cells <> [] ->
  (forall c, In c cells -> c <> [] /\ forall p, In p c -> 0 <= p <= 1) ->
  0 <= reg_loss_max cells <= 1 /\
  (reg_loss_max cells = 0 <-> forall c, In c cells -> In 1 c).
Proof.
  intros Hne Hc. unfold reg_loss_max, Rmean. rewrite map_length.
  assert (Hn : 0 < INR (length cells)) by (apply lt_0_INR; destruct cells; [congruence|simpl; lia]).
  assert (Hi : 0 < / INR (length cells)) by (apply Rinv_0_lt_compat; auto).
  assert (M : forall c, In c cells -> In (Rmaximum c) c /\ 0 <= Rmaximum c <= 1 /\ forall p, In p c -> p <= Rmaximum c).
  { intros c Hin. destruct (Hc c Hin) as [H1 H2]. destruct (Rmaximum_spec c H1). auto. }
  assert (NN : forall x, In x (map (fun c => 1 - Rmaximum c) cells) -> 0 <= x).
  { intros x Hx. apply in_map_iff in Hx. destruct Hx as (c & <- & Hin). destruct (M c Hin) as (_ & ? & _). lra. }
  split; [split|].
  - apply Rmult_le_pos; [|lra]. apply Rsum_nonneg; auto.
  - apply (Rmult_le_reg_r (INR (length cells))); auto. unfold Rdiv. rewrite Rmult_assoc, Rinv_l, Rmult_1_r, Rmult_1_l by lra.
    eapply Rle_trans; [apply (Rsum_le _ (fun _ => 1))|rewrite Rsum_const; lra].
    intros c Hin. destruct (M c Hin) as (_ & ? & _). lra.
  - split.
    + intros E c Hin. unfold Rdiv in E. apply Rmult_integral in E. destruct E as [E|E]; [|lra].
      rewrite Rsum_zero_iff in E by auto. specialize (E (1 - Rmaximum c) ltac:(apply in_map_iff; eauto)).
      destruct (M c Hin) as (Hm & _ & _). replace 1 with (Rmaximum c) by lra. auto.
    + intros H. replace (Rsum _) with 0; [unfold Rdiv; ring|]. symmetry. apply Rsum_zero_iff; auto.
      intros x Hx. apply in_map_iff in Hx. destruct Hx as (c & <- & Hin).
      destruct (M c Hin) as (_ & H1 & H2). specialize (H2 1 (H c Hin)). lra.
Qed.
