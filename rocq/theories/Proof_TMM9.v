From Coq Require Import Reals ZArith String List Bool Lra Lia Psatz.
From Verif Require Import Base PyVal Cplx CplxLemmas Model_TMM Spec_TMM Proof_TMM Proof_TMM2 Proof_TMM3 Proof_TMM4 Proof_TMM5 Proof_TMM6.
Import ListNotations.
Open Scope R_scope.

(** * Light from the other side *)
Section Reverse.
Variable arcsin : C -> C.
Hypothesis inv : inverts_sine arcsin.
Variables (pol : string) (ns : list C) (ds : list pyfloat) (th0 : C) (lam : R) (D D' : coh_data).
Hypothesis HD : coh_tmm arcsin pol ns ds th0 lam = Ok D.
Hypothesis HD' : coh_tmm_reverse arcsin pol ns ds th0 lam = Ok D'.
Let N := length ns.
Let n i := nth i ns C0.
Let c i := Ccos (nth i (c_th D) C0).
Let c' i := Ccos (nth i (c_th D') C0).
Let K := coh_tmm_calc arcsin _ _ _ _ _ _ HD.

Lemma reverse_inv : exists thf, coh_tmm arcsin pol (rev ns) (rev ds) thf lam = Ok D' /\
  thf = nth (N - 1) (c_th D) C0 /\ (n (N - 1) * Csin thf)%C = (n 0 * Csin th0)%C.
Proof.
  pose proof HD' as H. unfold coh_tmm_reverse in H. inv_bind H. inv_bind H. rename a0 into thf. exists thf. split; [exact H|].
  unfold snell in E0. inv_bind E0. apply cdiv_inv in E1 as (Hn & ->). inv_bind E0. apply is_forward_inv in E1 as (_ & ->).
  pose proof (list_snell_spec arcsin inv _ _ _ (k_N _ _ _ _ _ _ _ K) (k_snell _ _ _ _ _ _ _ K)) as (_ & Sn & _ & _ & _ & _ & La).
  cbv zeta in La. fold N in La, Hn, E0. fold (n 0) (n (N - 1)) in La, Hn, E0. apply Ok_inj in E0.
  assert (Et : thf = nth (N - 1) (c_th D) C0) by congruence. split; [exact Et|]. rewrite Et.
  assert (HN := k_N _ _ _ _ _ _ _ K). fold N in HN. apply Sn. lia.
Qed.

Section Given.
Variable thf : C.
Hypothesis HR : coh_tmm arcsin pol (rev ns) (rev ds) thf lam = Ok D'.
Hypothesis Hthf : thf = nth (N - 1) (c_th D) C0.
Hypothesis Hsin : (n (N - 1) * Csin thf)%C = (n 0 * Csin th0)%C.
Let K' := coh_tmm_calc arcsin _ _ _ _ _ _ HR.

Lemma rev_n i : (i < N)%nat -> nth i (rev ns) C0 = n (N - 1 - i).
Proof. intros Hi. unfold n. rewrite rev_nth by exact Hi. f_equal. unfold N. lia. Qed.
Lemma rev_d i : (i < N)%nat -> nth i (rev ds) NaN = nth (N - 1 - i) ds NaN.
Proof. intros Hi. assert (L := k_ds _ _ _ _ _ _ _ K). rewrite rev_nth by (unfold N in Hi; lia). f_equal. unfold N. lia. Qed.
Lemma rev_c i : (i < N)%nat -> c' i = c (N - 1 - i).
Proof.
  intros Hi. assert (HN := k_N _ _ _ _ _ _ _ K). fold N in HN.
  pose proof (list_snell_spec arcsin inv _ _ _ (k_N _ _ _ _ _ _ _ K') (k_snell _ _ _ _ _ _ _ K')) as (_ & _ & Mid & _ & _ & _ & La).
  pose proof (list_snell_spec arcsin inv _ _ _ (k_N _ _ _ _ _ _ _ K) (k_snell _ _ _ _ _ _ _ K)) as (_ & Sn & Mid0 & _ & _ & _ & _).
  rewrite rev_length in Mid, La. fold N in Mid, La, Mid0. cbv zeta in La.
  destruct (Nat.eq_dec i 0) as [-> | Hi0]; [|destruct (Nat.eq_dec i (N - 1)) as [-> | HiL]].
  - unfold c'. replace (N - 1 - 0)%nat with (N - 1)%nat by lia. unfold c. rewrite <- Hthf.
    apply (c_0 arcsin inv _ _ _ _ _ _ K').
  - replace (N - 1 - (N - 1))%nat with 0%nat by lia. unfold c', c.
    pose proof (c_0 arcsin inv _ _ _ _ _ _ K) as C00. cbv beta in C00. rewrite C00. rewrite La.
    rewrite !rev_n by lia. replace (N - 1 - (N - 1))%nat with 0%nat by lia. replace (N - 1 - 0)%nat with (N - 1)%nat by lia. rewrite Hsin.
    set (g := arcsin (n 0 * Csin th0 / n 0)%C).
    destruct (snell_all arcsin inv _ _ _ _ _ _ K 0%nat) as (Hn0 & _); [fold N; lia|]. cbv beta in Hn0. fold (n 0) in Hn0.
    assert (Sg : Csin g = Csin th0). { unfold g. rewrite inv. field. exact Hn0. }
    pose proof (k_fwd _ _ _ _ _ _ _ K) as F. apply is_forward_inv in F as (_ & F). fold (n 0) in F.
    destruct (same_sine_cos _ _ Sg) as [E | E].
    + rewrite E, <- F. exact E.
    + destruct (forwards (n 0 * Ccos g)%C) eqn:F'.
      * exfalso. rewrite E in F'. replace (n 0 * - Ccos th0)%C with (- (n 0 * Ccos th0))%C in F' by ring.
        exact (forwards_opp _ (eq_sym F) F').
      * rewrite Ccos_pi_minus, E. ring.
  - unfold c', c. f_equal. rewrite Mid, Mid0 by lia. rewrite !rev_n by lia.
    replace (N - 1 - 0)%nat with (N - 1)%nat by lia. rewrite Hsin. reflexivity.
Qed.
Lemma rev_phase i : (i < N)%nat -> nth i (phases D') C0 = nth (N - 1 - i) (phases D) C0.
Proof.
  intros Hi. rewrite (phases_nth arcsin _ _ _ _ _ _ K') by (rewrite rev_length; exact Hi).
  rewrite (phases_nth arcsin _ _ _ _ _ _ K) by (fold N; lia). rewrite rev_d by exact Hi. f_equal.
  rewrite (kz_is arcsin _ _ _ _ _ _ K') by (rewrite rev_length; exact Hi).
  rewrite (kz_is arcsin _ _ _ _ _ _ K) by (fold N; lia). cbv beta. rewrite rev_n by exact Hi. fold (c' i). rewrite rev_c by exact Hi. reflexivity.
Qed.

Definition cross (nn cc : C) (x y : C * C) : C :=
  (fst (tangential pol nn cc x) * snd (tangential pol nn cc y) + fst (tangential pol nn cc y) * snd (tangential pol nn cc x))%C.
Lemma cross_closed nn cc x y : cross nn cc x y = (RtoC 2 * (nn * cc) * (fst x * fst y - snd x * snd y))%C.
Proof. unfold cross, tangential. rewrite RtoC_2. destruct String.eqb; simpl fst; simpl snd; ring. Qed.
Lemma cross_advance nn cc d x y : cross nn cc (advance d x) y = cross nn cc x (advance d y).
Proof. rewrite !cross_closed. unfold advance. cbn [fst snd]. ring. Qed.

Let w i := wave_of D i.
Let w' i := wave_of D' i.
Let out i := leaving D i.
Let out' i := leaving D' i.
Lemma cross_step i : (S i < N)%nat ->
  cross (n i) (c i) (out i) (w' (N - 1 - i)) = cross (n (S i)) (c (S i)) (w (S i)) (out' (N - 1 - S i)).
Proof.
  intros Hi. unfold cross.
  pose proof (match_interface arcsin _ _ _ _ _ _ K i Hi) as E. cbv beta in E. fold (n i) (n (S i)) (c i) (c (S i)) (out i) in E.
  change (if Nat.eqb (S i) 0 then (C1, c_r D) else nth (S i) (c_vw D) (C0, C0)) with (w (S i)) in E.
  assert (Hj : (S (N - 1 - S i) < length (rev ns))%nat) by (rewrite rev_length; fold N; lia).
  pose proof (match_interface arcsin _ _ _ _ _ _ K' _ Hj) as E'. cbv beta in E'.
  change (if Nat.eqb (S (N - 1 - S i)) 0 then (C1, c_r D') else nth (S (N - 1 - S i)) (c_vw D') (C0, C0)) with (w' (S (N - 1 - S i))) in E'.
  fold (c' (N - 1 - S i)) (c' (S (N - 1 - S i))) in E'. rewrite !rev_n, !rev_c in E' by lia.
  replace (S (N - 1 - S i)) with (N - 1 - i)%nat in E' by lia.
  replace (N - 1 - (N - 1 - S i))%nat with (S i) in E' by lia. replace (N - 1 - (N - 1 - i))%nat with i in E' by lia.
  fold (out' (N - 1 - S i)) in E'. rewrite E, <- E'. reflexivity.
Qed.
Lemma cross_layer i : (0 < i)%nat -> (S i < N)%nat ->
  cross (n i) (c i) (w i) (out' (N - 1 - i)) = cross (n i) (c i) (out i) (w' (N - 1 - i)).
Proof.
  intros H1 H2. unfold out, out', leaving. destruct (Nat.eqb_spec i 0); [lia|]. destruct (Nat.eqb_spec (N - 1 - i) 0); [lia|].
  rewrite rev_phase by lia. replace (N - 1 - (N - 1 - i))%nat with i by lia.
  fold (wave_of D i) (wave_of D' (N - 1 - i)). rewrite cross_advance. unfold w, w', wave_of.
  destruct (Nat.eqb_spec i 0); [lia|]. destruct (Nat.eqb_spec (N - 1 - i) 0); [lia|]. reflexivity.
Qed.
Lemma cross_const i : (S i < N)%nat -> cross (n i) (c i) (out i) (w' (N - 1 - i)) = cross (n 0) (c 0) (out 0) (w' (N - 1 - 0)).
Proof.
  induction i as [|i IH]; intros Hi; [reflexivity|].
  rewrite <- cross_layer by lia. rewrite <- cross_step by lia. apply IH. lia.
Qed.
Lemma reciprocity_given : (n 0 * c 0 * c_t D' = n (N - 1) * c (N - 1) * c_t D)%C.
Proof.
  assert (HN := k_N _ _ _ _ _ _ _ K). fold N in HN.
  pose proof (cross_const (N - 2) ltac:(lia)) as E. rewrite cross_step in E by lia.
  replace (S (N - 2)) with (N - 1)%nat in E by lia.
  replace (N - 1 - (N - 1))%nat with 0%nat in E by lia. replace (N - 1 - 0)%nat with (N - 1)%nat in E by lia.
  rewrite !cross_closed in E.
  pose proof (wave_last arcsin _ _ _ _ _ _ K) as WL. cbv beta in WL. fold N in WL. fold (wave_of D (N - 1)) in WL. fold (w (N - 1)) in WL.
  pose proof (wave_last arcsin _ _ _ _ _ _ K') as WL'. cbv beta in WL'. rewrite rev_length in WL'. fold N in WL'. fold (wave_of D' (N - 1)) in WL'. fold (w' (N - 1)) in WL'.
  rewrite WL, WL' in E. unfold out, out', leaving in E. cbn [Nat.eqb fst snd] in E.
  apply (Cmul_cancel (RtoC 2)); [apply two_neq|].
  transitivity (RtoC 2 * (n 0 * c 0) * (C1 * c_t D' - c_r D * C0))%C; [ring|]. rewrite <- E. ring.
Qed.
End Given.

Theorem reciprocity : (n 0 * c 0 * c_t D' = n (N - 1) * c (N - 1) * c_t D)%C.
Proof. destruct reverse_inv as (thf & H1 & H2 & H3). exact (reciprocity_given thf H1 H2 H3). Qed.

(** transparent outer media *)
Lemma T_closed : c_T D = Cnorm2 (c_t D) * Re (weight pol (n (N - 1)) (c (N - 1))) / Re (weight pol (n 0) (c 0)).
Proof.
  rewrite (c_T_power arcsin _ _ _ _ _ _ K). cbv beta. fold N. rewrite power_closed.
  pose proof (wave_last arcsin _ _ _ _ _ _ K) as WL. cbv beta in WL. fold N in WL. rewrite WL. cbn [fst snd].
  pose proof (c_0 arcsin inv _ _ _ _ _ _ K) as C00. cbv beta in C00. unfold c. rewrite C00. 
  replace (Cnorm2 C0) with 0 by (unfold Cnorm2; simpl; ring).
  replace (Im (c_t D * Cconj C0)%C) with 0 by (simpl; ring). unfold n, N, c. f_equal. ring.
Qed.
Theorem T_same : Im (n 0) = 0 -> Im (n (N - 1)) = 0 -> Im (c 0) = 0 -> Im (c (N - 1)) = 0 -> c_T D' = c_T D.
Proof.
  intros I1 I2 I3 I4. destruct reverse_inv as (thf & H1 & H2 & H3).
  pose proof (reciprocity_given thf H1 H2 H3) as RC. rewrite T_closed.
  set (K' := coh_tmm_calc arcsin _ _ _ _ _ _ H1).
  assert (HN := k_N _ _ _ _ _ _ _ K). fold N in HN.
  assert (T' : c_T D' = Cnorm2 (c_t D') * Re (weight pol (n 0) (c 0)) / Re (weight pol (n (N - 1)) (c (N - 1)))).
  { rewrite (c_T_power arcsin _ _ _ _ _ _ K'). cbv beta. rewrite rev_length. fold N. rewrite power_closed.
    pose proof (wave_last arcsin _ _ _ _ _ _ K') as WL. cbv beta in WL. rewrite rev_length in WL. fold N in WL. rewrite WL. cbn [fst snd].
    replace (Cnorm2 C0) with 0 by (unfold Cnorm2; simpl; ring).
    replace (Im (c_t D' * Cconj C0)%C) with 0 by (simpl; ring).
    rewrite !rev_n by lia. fold (c' (N - 1)). rewrite (rev_c thf H1 H2 H3) by lia.
    replace (N - 1 - (N - 1))%nat with 0%nat by lia. replace (N - 1 - 0)%nat with (N - 1)%nat by lia.
    rewrite H2. fold (c (N - 1)). f_equal. ring. }
  rewrite T'.
  assert (NZ : Re (weight pol (n 0) (c 0)) <> 0).
  { pose proof (norm_neq arcsin _ _ _ _ _ _ K) as Q. pose proof (c_0 arcsin inv _ _ _ _ _ _ K) as C00. cbv beta in C00. unfold c. rewrite C00. exact Q. }
  assert (NZ' : Re (weight pol (n (N - 1)) (c (N - 1))) <> 0).
  { pose proof (norm_neq arcsin _ _ _ _ _ _ K') as Q. cbv beta in Q. rewrite rev_n in Q by lia. replace (N - 1 - 0)%nat with (N - 1)%nat in Q by lia.
    rewrite H2 in Q. exact Q. }
  assert (W : forall nn cc, Im nn = 0 -> Im cc = 0 -> weight pol nn cc = (nn * cc)%C /\ (nn * cc)%C = RtoC (Re (nn * cc)%C)).
  { intros [a b] [u v]. simpl. intros -> ->. unfold weight. split; [destruct String.eqb; auto; apply Ceq; simpl; ring|apply Ceq; simpl; ring]. }
  destruct (W _ _ I1 I3) as (W1 & W2). destruct (W _ _ I2 I4) as (W3 & W4). rewrite W1, W3 in *.
  apply (f_equal Cnorm2) in RC. rewrite !Cnorm2_mul, <- !Cnorm2_mul in RC.
  rewrite (Cnorm2_mul (n 0 * c 0)%C), (Cnorm2_mul (n (N - 1) * c (N - 1))%C) in RC. rewrite W2, W4 in RC.
  set (q0 := Re (n 0 * c 0)%C) in *. set (qL := Re (n (N - 1) * c (N - 1))%C) in *.
  unfold Cnorm2 at 1 3 in RC. simpl Re in RC. simpl Im in RC.
  apply (Rmult_eq_reg_r (q0 * qL)); [|apply Rmult_integral_contrapositive; auto].
  transitivity (q0 * q0 * Cnorm2 (c_t D')); [field; auto|].
  transitivity (qL * qL * Cnorm2 (c_t D)); [|field; auto]. rewrite !Rmult_0_l, !Rplus_0_r in RC. exact RC.
Qed.
End Reverse.
