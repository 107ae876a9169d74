From Coq Require Import Reals ZArith String List Bool Lra Lia Psatz.
From Verif Require Import Base PyVal Cplx CplxLemmas Model_TMM Spec_TMM Proof_TMM Proof_TMM2 Proof_TMM3 Proof_TMM4 Proof_TMM5 Proof_TMM6 Proof_TMM7 Proof_TMM8 Proof_TMM9 Proof_TMM10 Proof_TMM11 Proof_TMM12.
Import ListNotations.
Open Scope R_scope.

(** * One interface, one slab *)
Lemma interface_r_is pol n n' th th' r : interface_r pol n n' th th' = Ok r -> r = fresnel_r pol n n' (Ccos th) (Ccos th').
Proof.
  unfold interface_r, fresnel_r. destruct String.eqb; [intros H; apply cdiv_inv in H as (_ & ->); reflexivity|].
  destruct String.eqb; [intros H; apply cdiv_inv in H as (_ & ->); reflexivity|discriminate].
Qed.
Lemma interface_t_is pol n n' th th' r : interface_t pol n n' th th' = Ok r -> r = fresnel_t pol n n' (Ccos th) (Ccos th').
Proof.
  unfold interface_t, fresnel_t. destruct String.eqb; [intros H; apply cdiv_inv in H as (_ & ->); reflexivity|].
  destruct String.eqb; [intros H; apply cdiv_inv in H as (_ & ->); reflexivity|discriminate].
Qed.
Lemma one_interface arcsin pol n0 n1 ds th0 lam D : coh_tmm arcsin pol [n0; n1] ds th0 lam = Ok D ->
  c_r D = fresnel_r pol n0 n1 (cosine_of D 0) (cosine_of D 1) /\ c_t D = fresnel_t pol n0 n1 (cosine_of D 0) (cosine_of D 1).
Proof.
  intros H. apply coh_tmm_calc in H as K. destruct (k_rt _ _ _ _ _ _ _ K) as (rt & Hrt & Hn & HM). unfold cosine_of.
  assert (L := th_length arcsin _ _ _ _ _ _ K). destruct (c_th D) as [|a [|b [|x l]]] eqn:Eth; try discriminate. clear L.
  cbn [interfaces] in Hrt. inv_bind Hrt. rename a0 into t01. inv_bind Hrt. rename a0 into r01. cbn [bind] in Hrt. apply Ok_inj in Hrt. subst rt.
  assert (T0 := Hn 0%nat ltac:(simpl; lia)). cbn [nth snd] in T0.
  assert (EM : M_list (c_kz D) ds [(r01, t01)] = []).
  { unfold M_list. rewrite (kz_length arcsin _ _ _ _ _ _ K). reflexivity. }
  cbv zeta in HM. rewrite EM in HM. clear EM. unfold M_total in HM.
  cbn [nth fst snd fold_left mscal mdot m_id m00 m01 m10 m11] in HM. destruct HM as (M0 & Hr & Ht & _). cbn [nth].
  rewrite <- (interface_r_is _ _ _ _ _ _ E0), <- (interface_t_is _ _ _ _ _ _ E).
  assert (J : C1 <> C0) by (intros Q; apply (f_equal Re) in Q; simpl in Q; lra).
  split; [rewrite Hr|rewrite Ht]; field; auto.
Qed.
Lemma slab_is arcsin pol n0 n1 n2 ds th0 lam D : coh_tmm arcsin pol [n0; n1; n2] ds th0 lam = Ok D ->
  let r01 := fresnel_r pol n0 n1 (cosine_of D 0) (cosine_of D 1) in
  let r12 := fresnel_r pol n1 n2 (cosine_of D 1) (cosine_of D 2) in
  let t01 := fresnel_t pol n0 n1 (cosine_of D 0) (cosine_of D 1) in
  let t12 := fresnel_t pol n1 n2 (cosine_of D 1) (cosine_of D 2) in
  let e := Cexp (Ci * nth 1 (phases D) C0)%C in
  (C1 + r01 * r12 * (e * e))%C <> C0 /\
  c_r D = ((r01 + r12 * (e * e)) / (C1 + r01 * r12 * (e * e)))%C /\
  c_t D = (t01 * t12 * e / (C1 + r01 * r12 * (e * e)))%C.
Proof.
  intros H. apply slab in H as (r01 & t01 & r12 & t12 & E1 & E2 & E3 & E4 & H). unfold cosine_of.
  apply interface_r_is in E1, E3. apply interface_t_is in E2, E4. subst. exact H.
Qed.

(** * Sums *)
Lemma total_split l : (2 <= length l)%nat -> total l = nth 0 l 0 + nth (length l - 1) l 0 + total (firstn (length l - 2) (tl l)).
Proof.
  destruct l as [|a l]; simpl; [lia|]. intros H. destruct l as [|b l] using rev_ind; [simpl in H; lia|]. clear IHl.
  rewrite app_length. simpl. replace (length l + 1 - 0)%nat with (S (length l)) by lia.
  replace (length l + 1 - 1)%nat with (length l) by lia. rewrite firstn_app, firstn_all, Nat.sub_diag, firstn_O, List.app_nil_r.
  rewrite app_nth2, Nat.sub_diag by lia. simpl. unfold total. rewrite fold_right_app. simpl.
  assert (E : forall k x, fold_right Rplus x k = fold_right Rplus 0 k + x).
  { induction k as [|y k IH]; intros x; simpl; [ring|]. rewrite IH. ring. }
  rewrite E. ring.
Qed.

(** * Reversed stacks *)
Section ReverseMore.
Variable arcsin : C -> C.
Hypothesis inv : inverts_sine arcsin.
Variables (pol : string) (ns : list C) (ds : list pyfloat) (th0 : C) (lam : R) (D D' : coh_data).
Hypothesis HD : coh_tmm arcsin pol ns ds th0 lam = Ok D.
Hypothesis HD' : coh_tmm_reverse arcsin pol ns ds th0 lam = Ok D'.
Let N := length ns.
Let K := coh_tmm_calc arcsin _ _ _ _ _ _ HD.
Lemma R_same : Im (nth 0 ns C0 * Csin th0)%C = 0 -> no_opaque_layer D ->
  (forall i, (0 < i)%nat -> (S i < N)%nat -> 0 <= thickness (nth i ds NaN)) ->
  (forall i, (0 < i)%nat -> (S i < N)%nat -> lossless (nth i ns C0)) ->
  Im (nth 0 ns C0) = 0 -> Im (nth (N - 1) ns C0) = 0 -> Im (cosine_of D 0) = 0 -> Im (cosine_of D (N - 1)) = 0 -> c_R D' = c_R D.
Proof.
  intros Hs HO Ht HL I1 I2 I3 I4. unfold cosine_of in *.
  pose proof (T_same arcsin inv _ _ _ _ _ _ _ HD HD' I1 I2 I3 I4) as ET.
  destruct (reverse_inv arcsin inv _ _ _ _ _ _ _ HD HD') as (thf & H1 & H2 & H3). fold N in H2, H3.
  assert (HN : (2 <= N)%nat) by exact (k_N _ _ _ _ _ _ _ K).
  assert (LD : length ds = N) by exact (k_ds _ _ _ _ _ _ _ K).
  pose proof (c_0 arcsin inv _ _ _ _ _ _ K) as EC. cbv beta in EC. rewrite EC in I3.
  assert (RN : forall i, (i < N)%nat -> nth i (rev ns) C0 = nth (N - 1 - i) ns C0).
  { intros i Hi. rewrite rev_nth by exact Hi. f_equal. unfold N. lia. }
  assert (RD : forall i, (i < N)%nat -> nth i (rev ds) NaN = nth (N - 1 - i) ds NaN).
  { intros i Hi. rewrite rev_nth by lia. f_equal. lia. }
  pose proof (R_entering arcsin inv _ _ _ _ _ _ HD Hs I1 I3) as A1.
  pose proof (T_eq_entering arcsin inv _ _ _ _ _ _ HD Hs HO Ht HL) as A2.
  pose proof (coh_tmm_calc arcsin _ _ _ _ _ _ H1) as K'.
  assert (Hs' : Im (nth 0 (rev ns) C0 * Csin thf)%C = 0).
  { rewrite RN by lia. replace (N - 1 - 0)%nat with (N - 1)%nat by lia. rewrite H3. exact Hs. }
  pose proof (R_entering arcsin inv _ _ _ _ _ _ H1 Hs') as A3. rewrite RN in A3 by lia. replace (N - 1 - 0)%nat with (N - 1)%nat in A3 by lia.
  rewrite H2 in A3. specialize (A3 I2 I4).
  assert (A4 : c_T D' = c_entering D').
  { apply (T_eq_entering arcsin inv _ _ _ _ _ _ H1 Hs').
    - intros i Hi1 Hi2. destruct (k_in _ _ _ _ _ _ _ K') as (_ & E1 & E2 & _). rewrite E1 in Hi2. rewrite rev_length in Hi2. fold N in Hi2. rewrite E2, RD by lia.
      rewrite (kz_is arcsin _ _ _ _ _ _ K') by (rewrite rev_length; fold N; lia). cbv beta.
      pose proof (rev_c arcsin inv _ _ _ _ _ _ _ HD thf H1 H2 H3 i ltac:(fold N; lia)) as RC. fold N in RC. rewrite RC, RN by lia.
      specialize (HO (N - 1 - i)%nat ltac:(lia)). destruct (k_in _ _ _ _ _ _ _ K) as (_ & E3 & E4 & _). rewrite E3, E4 in HO.
      rewrite (kz_is arcsin _ _ _ _ _ _ K) in HO by (fold N; lia). cbv beta in HO. apply HO. fold N. lia.
    - intros i Hi1 Hi2. rewrite rev_length in Hi2. fold N in Hi2. rewrite RD by lia. apply Ht; lia.
    - intros i Hi1 Hi2. rewrite rev_length in Hi2. fold N in Hi2. rewrite RN by lia. apply HL; lia. }
  lra.
Qed.
End ReverseMore.

(** the reversed stack can be computed under the conditions for the stack *)
Section ReverseSucceeds.
Variable arcsin : C -> C.
Hypothesis inv : inverts_sine arcsin.
Hypothesis pri : principal arcsin.
Variables (pol : string) (ns : list C) (ds : list pyfloat) (th0 : C) (lam s : R).
Hypothesis Hpol : pol = "s"%string \/ pol = "p"%string.
Hypothesis HN : (2 <= length ns)%nat.
Hypothesis Lds : length ds = length ns.
Hypothesis Hends : nth 0 ds NaN = PInf /\ nth (length ns - 1) ds NaN = PInf.
Hypothesis Hin : forall i, (0 < i)%nat -> (S i < length ns)%nat -> exists d, nth i ds NaN = Fin d /\ 0 <= d /\
   Im (nth i ns C0 * Ccos (arcsin (RtoC s / nth i ns C0)))%C * (2 * PI / lam) * d <= 35.
Hypothesis Hlam : 0 < lam.
Hypothesis Hs : (nth 0 ns C0 * Csin th0)%C = RtoC s.
Hypothesis Hth : 0 < Re (Ccos th0).
Hypothesis Hadm : forall i, (i < length ns)%nat -> admits s (nth i ns C0).
Let N := length ns.
Lemma reverse_succeeds : exists D', coh_tmm_reverse arcsin pol ns ds th0 lam = Ok D'.
Proof.
  assert (RN : forall i, (i < N)%nat -> nth i (rev ns) C0 = nth (N - 1 - i) ns C0).
  { intros i Hi. rewrite rev_nth by exact Hi. f_equal. unfold N. lia. }
  assert (RD : forall i, (i < N)%nat -> nth i (rev ds) NaN = nth (N - 1 - i) ds NaN).
  { intros i Hi. rewrite rev_nth by (unfold N in Hi; lia). f_equal. unfold N. lia. }
  fold N in HN, Hends, Hadm, Hin, Lds.
  unfold coh_tmm_reverse. fold N. destruct (Nat.eqb_spec N 0); [lia|]. cbn [negb ensure bind].
  assert (A := Hadm (N - 1)%nat ltac:(lia)). set (nl := nth (N - 1) ns C0) in *.
  assert (NZ := admits_neq _ _ A). unfold snell. rewrite Hs, cdiv_ok by exact NZ. cbn [bind].
  destruct (ang_cos arcsin inv pri pol ns ds th0 lam s Hpol Hends Hin Hs Hadm (N - 1)%nat ltac:(unfold N in *; lia)) as (Q1 & Q2). fold nl in Q1, Q2.
  rewrite (admits_forward s nl _ A Q1 Q2 (arcsin (RtoC s / nl)%C) eq_refl). cbn [bind].
  destruct (coh_tmm_succeeds arcsin inv pri pol (rev ns) (rev ds) (arcsin (RtoC s / nl)%C) lam s Hpol) as (D' & E & _); try rewrite rev_length; fold N; auto.
  - rewrite rev_length. exact Lds.
  - rewrite !RD by lia. replace (N - 1 - 0)%nat with (N - 1)%nat by lia. replace (N - 1 - (N - 1))%nat with 0%nat by lia. tauto.
  - intros i H1 H2. rewrite RD, RN by lia. apply Hin; lia.
  - rewrite RN by lia. replace (N - 1 - 0)%nat with (N - 1)%nat by lia. fold nl. rewrite inv. field. exact NZ.
  - intros i Hi. rewrite RN by lia. apply Hadm. lia.
  - exists D'. exact E.
Qed.
End ReverseSucceeds.

(** * Normal incidence *)
Lemma Csin_0 : Csin C0 = C0.
Proof. unfold Csin; simpl. rewrite sin_0, sinh_0. apply Ceq; simpl; ring. Qed.
Lemma Ccos_0 : Ccos C0 = C1.
Proof. unfold Ccos; simpl. rewrite sin_0, sinh_0, cos_0, cosh_0. apply Ceq; simpl; ring. Qed.
Section Normal.
Variable arcsin : C -> C.
Hypothesis inv : inverts_sine arcsin.
Hypothesis pri : principal arcsin.
Lemma arcsin_0 : Ccos (arcsin C0) = C1.
Proof.
  pose proof (Csin2_cos2 (arcsin C0)) as Q. rewrite inv in Q.
  assert (P : 0 < Re (Ccos (arcsin C0))) by (apply pri; right; simpl; lra).
  set (c := Ccos (arcsin C0)) in *. clearbody c. destruct c as [u v]. assert (Q1 := f_equal Re Q). assert (Q2 := f_equal Im Q). simpl in *.
  assert (v = 0) by nra. subst. assert (u = 1) by nra. subst. reflexivity.
Qed.
Lemma normal_cosines pol ns ds lam D : coh_tmm arcsin pol ns ds C0 lam = Ok D -> 0 < Re (nth (length ns - 1) ns C0) ->
  forall i, (i < length ns)%nat -> cosine_of D i = C1.
Proof.
  intros HD HR i Hi. assert (K := coh_tmm_calc arcsin _ _ _ _ _ _ HD). unfold cosine_of.
  pose proof (list_snell_spec arcsin inv _ _ _ (k_N _ _ _ _ _ _ _ K) (k_snell _ _ _ _ _ _ _ K)) as (_ & Sn & Mid & P0 & PL & _ & La).
  destruct (Nat.eq_dec i 0) as [-> | H0].
  { pose proof (c_0 arcsin inv _ _ _ _ _ _ K) as E. cbv beta in E. rewrite E. apply Ccos_0. }
  assert (Z : (nth 0 ns C0 * Csin C0 / nth i ns C0)%C = C0).
  { destruct (Sn i Hi) as (Hn & _). rewrite Csin_0. field. exact Hn. }
  destruct (Nat.eq_dec i (length ns - 1)) as [-> | H1].
  - cbv zeta in La. rewrite La, Z, arcsin_0.
    assert (F : forwards (nth (length ns - 1) ns C0 * C1)%C = true).
    { unfold forwards. replace (nth (length ns - 1) ns C0 * C1)%C with (nth (length ns - 1) ns C0) by ring.
      set (n := nth (length ns - 1) ns C0) in *. unfold passive in PL. destruct Rltb eqn:E; apply Rltb_true; auto.
      apply Rltb_true in E. pose proof EPSILON_pos. assert (0 <= Im n) by nra. rewrite Rabs_right in E by lra. lra. }
    rewrite F. apply arcsin_0.
  - rewrite Mid by lia. rewrite Z. apply arcsin_0.
Qed.
Lemma normal_incidence ns ds lam S P : coh_tmm arcsin "s" ns ds C0 lam = Ok S -> coh_tmm arcsin "p" ns ds C0 lam = Ok P ->
  0 < Re (nth (length ns - 1) ns C0) ->
  c_r P = (- c_r S)%C /\ c_t P = c_t S /\ c_R P = c_R S /\ c_T P = c_T S.
Proof.
  intros HS HP HR. assert (KS := coh_tmm_calc arcsin _ _ _ _ _ _ HS). assert (KP := coh_tmm_calc arcsin _ _ _ _ _ _ HP).
  assert (HN := k_N _ _ _ _ _ _ _ KS).
  pose proof (normal_cosines _ _ _ _ _ HS HR) as CS. pose proof (normal_cosines _ _ _ _ _ HP HR) as CP. unfold cosine_of in CS, CP.
  assert (E : (- c_r S)%C = c_r P /\ c_t S = c_t P).
  { apply (by_wave arcsin _ _ _ _ _ _ (fun i => (fst (wave_of S i), (- snd (wave_of S i))%C)) _ _ KP).
    - intros i Hi. rewrite !CP by lia. pose proof (match_interface arcsin _ _ _ _ _ _ KS i Hi) as M. cbv beta in M. rewrite !CS in M by lia.
      change (if Nat.eqb (Datatypes.S i) 0 then (C1, c_r S) else nth (Datatypes.S i) (c_vw S) (C0, C0)) with (wave_of S (Datatypes.S i)) in M.
      assert (PH : nth i (phases P) C0 = nth i (phases S) C0).
      { rewrite (phases_nth arcsin _ _ _ _ _ _ KP) by lia. rewrite (phases_nth arcsin _ _ _ _ _ _ KS) by lia.
        rewrite (kz_is arcsin _ _ _ _ _ _ KP) by lia. rewrite (kz_is arcsin _ _ _ _ _ _ KS) by lia. cbv beta. rewrite CS, CP by lia. reflexivity. }
      rewrite PH. unfold leaving in M. fold (wave_of S i) in M. unfold tangential in M |- *. simpl String.eqb in *. cbv iota in M |- *.
      assert (M1 := f_equal fst M). assert (M2 := f_equal snd M). cbn [fst snd] in M1, M2.
      destruct (Nat.eqb_spec i 0) as [-> | Hi0].
      + change (if Nat.eqb 0 0 then (C1, c_r S) else nth 0 (c_vw S) (C0, C0)) with (wave_of S 0) in *.
        set (x := wave_of S 0) in *. set (y := wave_of S 1) in *. cbn [fst snd] in *.
        f_equal; [transitivity (nth 0 ns C0 * C1 * (fst x - snd x))%C; [ring|rewrite M2; ring]
                 |transitivity (fst x + snd x)%C; [ring|rewrite M1; ring]].
      + change (if Nat.eqb i 0 then (C1, c_r S) else nth i (c_vw S) (C0, C0)) with (wave_of S i) in *.
        unfold advance in *. cbn [fst snd] in *. set (x := wave_of S i) in *. set (y := wave_of S (Datatypes.S i)) in *.
        f_equal; [transitivity (nth i ns C0 * C1 * (fst x * Cexp (Ci * nth i (phases S) C0) - snd x * Cexp (- Ci * nth i (phases S) C0)))%C; [ring|rewrite M2; ring]
                 |transitivity (fst x * Cexp (Ci * nth i (phases S) C0) + snd x * Cexp (- Ci * nth i (phases S) C0))%C; [ring|rewrite M1; ring]].
    - reflexivity.
    - pose proof (wave_last arcsin _ _ _ _ _ _ KS) as W. cbv beta in W. fold (wave_of S (length ns - 1)) in W. rewrite W. cbn [fst snd]. f_equal. ring. }
  destruct E as (E1 & E2). split; [auto|]. split; [auto|]. split.
  - rewrite (k_R _ _ _ _ _ _ _ KP), (k_R _ _ _ _ _ _ _ KS), <- E1. unfold R_from_r, Cabs. f_equal. f_equal. destruct (c_r S). unfold Cnorm2. simpl. ring.
  - rewrite (c_T_power arcsin _ _ _ _ _ _ KP), (c_T_power arcsin _ _ _ _ _ _ KS). cbv beta.
    pose proof (wave_last arcsin _ _ _ _ _ _ KS) as W. cbv beta in W. rewrite W.
    pose proof (wave_last arcsin _ _ _ _ _ _ KP) as W'. cbv beta in W'. rewrite W'. rewrite CS, CP by lia. rewrite Ccos_0, <- E2.
    unfold weight. simpl String.eqb. cbv iota. f_equal.
    + unfold power, tangential. simpl String.eqb. cbv iota. cbn [fst snd]. destruct (nth (length ns - 1) ns C0), (c_t S). simpl. ring.
    + destruct (nth 0 ns C0). simpl. f_equal. ring.
Qed.
End Normal.
