(** The intensities of the incoherent method. *)
From Coq Require Import Reals ZArith String List Bool Lia Lra.
From Verif Require Import Base PyVal Cplx Model_TMM Model_TMM2 Model_TMM3 Spec_TMM Spec_TMM3 Proof_TMM5 Proof_TMM22 Proof_TMM23.
Import ListNotations.
Open Scope R_scope.

Lemma mapM_ok {A B} (f : A -> res B) l r : mapM f l = Ok r ->
  length r = length l /\ forall i d d', (i < length l)%nat -> f (nth i l d) = Ok (nth i r d').
Proof.
  revert r. induction l as [|x l IH]; intros r H; cbn in H.
  - apply Ok_inj in H. subst r. split; [reflexivity|]. intros i d d' Hi. cbn in Hi. lia.
  - destruct (f x) as [y|] eqn:E; [|discriminate]. cbn in H. destruct (mapM f l) as [ys|] eqn:El; [|discriminate]. cbn in H. apply Ok_inj in H. subst r.
    destruct (IH _ eq_refl) as (L & N). split; [cbn; lia|]. intros [|i] d d' Hi; [exact E|]. cbn in *. apply N. lia.
Qed.
Lemma mapM_exists {A B} (f : A -> res B) l : (forall x, In x l -> exists y, f x = Ok y) -> exists r, mapM f l = Ok r.
Proof.
  induction l as [|x l IH]; intros H; [eexists; reflexivity|]. destruct (H x (or_introl eq_refl)) as (y & E). destruct IH as (r & Er); [intros; apply H; right; auto|].
  exists (y :: r). cbn. rewrite E. cbn. rewrite Er. reflexivity.
Qed.

Definition E_of (x : crossing) : r22 := rscal (1 / x_Tf x) (mkR 1 (- x_Rb x) (x_Rf x) (x_Tb x * x_Tf x - x_Rb x * x_Rf x)).
Definition L_of (P : R) (x : crossing) : r22 := rdot (mkR (1 / P) 0 0 P) (E_of x).

Lemma L_interface_ok x L : L_interface x = Ok L -> x_Tf x <> 0 /\ L = E_of x.
Proof.
  unfold L_interface, Reqb. destruct (Req_EM_T (x_Tf x) 0); [discriminate|]. cbn. intros H. apply Ok_inj in H. auto.
Qed.
Lemma L_layer_ok P x L : L_layer P x = Ok L -> x_Tf x <> 0 /\ P <> 0 /\ L = L_of P x.
Proof.
  unfold L_layer. destruct (L_interface x) eqn:E; [|discriminate]. apply L_interface_ok in E as (E1 & ->). cbn. unfold rdiv. destruct (Req_EM_T P 0); [discriminate|].
  cbn. intros H. apply Ok_inj in H. auto.
Qed.

Lemma rvec_rdot a b v : rvec (rdot a b) v = rvec a (rvec b v).
Proof. unfold rvec, rdot. cbn. f_equal; ring. Qed.

Lemma intensities_cons L Ls T : intensities (L :: Ls) T = rvec L (hd (0, 0) (intensities Ls T)) :: intensities Ls T.
Proof. reflexivity. Qed.
Lemma intensities_length Ls T : length (intensities Ls T) = S (length Ls).
Proof. induction Ls as [|L Ls IH]; [reflexivity|]. rewrite intensities_cons. cbn. lia. Qed.
Lemma intensities_last Ls T : nth (length Ls) (intensities Ls T) (0, 0) = (T, 0).
Proof. induction Ls as [|L Ls IH]; [reflexivity|]. rewrite intensities_cons. cbn [length nth]. exact IH. Qed.
Lemma intensities_nth Ls T k : (k < length Ls)%nat ->
  nth k (intensities Ls T) (0, 0) = rvec (nth k Ls r_id) (nth (S k) (intensities Ls T) (0, 0)).
Proof.
  revert k. induction Ls as [|L Ls IH]; intros k Hk; [cbn in Hk; lia|]. rewrite intensities_cons. destruct k as [|k].
  - cbn [nth]. f_equal. destruct (intensities Ls T); reflexivity.
  - cbn [nth]. apply IH. cbn in Hk. lia.
Qed.
Lemma fold_rdot Ls L v : rvec (fold_left rdot Ls L) v = rvec L (fold_right (fun L' u => rvec L' u) v Ls).
Proof. revert L. induction Ls as [|L' Ls IH]; intros L; [reflexivity|]. cbn. rewrite IH. apply rvec_rdot. Qed.
Lemma hd_intensities Ls T : hd (0, 0) (intensities Ls T) = fold_right (fun L' u => rvec L' u) (T, 0) Ls.
Proof. induction Ls as [|L Ls IH]; [reflexivity|]. rewrite intensities_cons. cbn [hd fold_right]. rewrite IH. reflexivity. Qed.

(** The run of inc_tmm *)
Record calc (arcsin : C -> C) (pol : string) (ns : list C) (ds : list pyfloat) (cs : list string) (th0 : C) (lam : R) (D : inc_data) (ths : list C) : Prop := mkCalc {
  q_small : Rabs (Im (nth 0 ns C0 * Csin th0)%C) < 100 * EPSILON;
  q_group : inc_group_layers ns ds cs = Ok (i_group D);
  q_ths : list_snell arcsin ns th0 = Ok ths;
  q_M : (2 <= incoherent_layers D)%nat;
  q_coh_len : length (i_coh D) = length (g_all_from_stack (i_group D));
  q_bcoh_len : length (i_bcoh D) = length (g_all_from_stack (i_group D));
  q_stack : forall s, (s < length (g_all_from_stack (i_group D)))%nat -> exists c b,
     nth_error (i_coh D) s = Some c /\ nth_error (i_bcoh D) s = Some b /\
     stack_data arcsin pol lam ths (i_group D) s = Ok (c, b);
  q_P_len : length (i_P D) = incoherent_layers D;
  q_P : forall k, (0 < k)%nat -> (S k < incoherent_layers D)%nat -> pass_through ns ds ths lam (nth k (g_all_from_inc (i_group D)) 0%nat) = Ok (pass_of D k);
  q_X_len : length (i_crossings D) = (incoherent_layers D - 1)%nat;
  q_X : forall k, (S k < incoherent_layers D)%nat -> crossing_at pol ns ths (i_group D) (i_coh D) (i_bcoh D) k = Ok (crossing_of D k);
  q_Tf : forall k, (S k < incoherent_layers D)%nat -> x_Tf (crossing_of D k) <> 0;
  q_Pnz : forall k, (0 < k)%nat -> (S k < incoherent_layers D)%nat -> pass_of D k <> 0;
  q_VW : exists Ls, length Ls = (incoherent_layers D - 2)%nat /\
     (forall k, (0 < k)%nat -> (S k < incoherent_layers D)%nat -> nth (k - 1) Ls r_id = L_of (pass_of D k) (crossing_of D k)) /\
     i_VW D = intensities Ls (i_T D) /\
     r00 (fold_left rdot Ls (E_of (crossing_of D 0))) <> 0 /\
     i_T D = 1 / r00 (fold_left rdot Ls (E_of (crossing_of D 0))) /\
     i_R D = r10 (fold_left rdot Ls (E_of (crossing_of D 0))) / r00 (fold_left rdot Ls (E_of (crossing_of D 0)));
  q_FB : i_FB D = map (towards_stack (i_P D) (i_VW D)) (g_inc_from_stack (i_group D));
  q_ent_len : length (i_entering D) = incoherent_layers D;
  q_ent0 : nth 0 (i_entering D) 0 = 1;
  q_ent : forall k, (0 < k)%nat -> (k < incoherent_layers D)%nat ->
     entering_at (i_P D) (i_VW D) (i_crossings D) (i_group D) (i_coh D) (i_bcoh D) (i_FB D) k = Ok (nth k (i_entering D) 0) }.

Lemma inc_calc arcsin pol ns ds cs th0 lam D : inc_tmm arcsin pol ns ds cs th0 lam = Ok D -> exists ths, calc arcsin pol ns ds cs th0 lam D ths.
Proof.
  unfold inc_tmm. destruct (negb (Nat.eqb (length ns) 0)); cbn [ensure bind]; [|discriminate].
  unfold Rltb at 1. destruct (Rlt_dec _ _) as [SM|]; cbn [ensure bind]; [|discriminate].
  destruct (inc_group_layers ns ds cs) as [g|] eqn:Eg; cbn [bind]; [|discriminate]. set (M := length (g_all_from_inc g)).
  destruct (list_snell arcsin ns th0) as [ths|] eqn:Et; cbn [bind]; [|discriminate].
  destruct (mapM (stack_data arcsin pol lam ths g) (seq 0 (length (g_all_from_stack g)))) as [stacks|] eqn:Es; cbn [bind]; [|discriminate].
  destruct (passes ns ds ths lam g) as [P|] eqn:Ep; cbn [bind]; [|discriminate].
  destruct (mapM (crossing_at pol ns ths g (map fst stacks) (map snd stacks)) (seq 0 (M - 1))) as [X|] eqn:Ex; cbn [bind]; [|discriminate].
  destruct (Nat.ltb_spec 1 M) as [HM|]; cbn [ensure bind]; [|discriminate].
  destruct (L_interface (nth 0 X (mkCross 0 0 0 0))) as [L0|] eqn:E0; cbn [bind]; [|discriminate].
  destruct (mapM (fun k => L_layer (nth k P 0) (nth k X (mkCross 0 0 0 0))) (seq 1 (M - 2))) as [Ls|] eqn:El; cbn [bind]; [|discriminate].
  unfold rdiv at 1. destruct (Req_EM_T _ 0) as [|NZ]; cbn [bind]; [discriminate|].
  unfold rdiv at 1. destruct (Req_EM_T _ 0) as [|_]; cbn [bind]; [discriminate|].
  set (T := 1 / r00 (fold_left rdot Ls L0)). set (VW := intensities Ls T). set (FB := map (towards_stack P VW) (g_inc_from_stack g)).
  destruct (mapM (entering_at P VW X g (map fst stacks) (map snd stacks) FB) (seq 1 (M - 1))) as [inner|] eqn:Ei; cbn [bind]; [|discriminate].
  intros HD. apply Ok_inj in HD. subst D. exists ths.
  apply mapM_ok in Es as (Ls1 & Ns1). rewrite seq_length in Ls1, Ns1.
  apply mapM_ok in Ex as (Lx & Nx). rewrite seq_length in Lx, Nx.
  apply mapM_ok in El as (Ll & Nl). rewrite seq_length in Ll, Nl.
  apply mapM_ok in Ei as (Li & Ni). rewrite seq_length in Li, Ni.
  apply L_interface_ok in E0 as (T0 & ->).
  unfold passes in Ep. destruct (mapM _ _) as [pin|] eqn:Epin in Ep; cbn [bind] in Ep; [|discriminate]. fold M in Ep. apply Ok_inj in Ep.
  apply mapM_ok in Epin as (Lp & Np). rewrite seq_length in Lp, Np. fold M in Lp, Np. destruct (Nat.ltb_spec 1 M); [|lia].
  assert (LL : forall k, (0 < k)%nat -> (S k < M)%nat -> x_Tf (nth k X (mkCross 0 0 0 0)) <> 0 /\ nth k P 0 <> 0 /\ nth (k - 1) Ls r_id = L_of (nth k P 0) (nth k X (mkCross 0 0 0 0))).
  { intros k Hk Hk'. specialize (Nl (k - 1)%nat 0%nat r_id ltac:(lia)). rewrite seq_nth in Nl by lia. replace (1 + (k - 1))%nat with k in Nl by lia. apply L_layer_ok. exact Nl. }
  constructor; unfold incoherent_layers, crossing_of, pass_of; cbn [i_group i_coh i_bcoh i_P i_crossings i_VW i_T i_R i_FB i_entering]; fold M; auto.
  - rewrite map_length. exact Ls1.
  - rewrite map_length. exact Ls1.
  - intros s Hs. specialize (Ns1 s 0%nat). rewrite seq_nth in Ns1 by lia. cbn [Nat.add] in Ns1.
    destruct (nth_error stacks s) as [[c b]|] eqn:Q.
    + exists c, b. rewrite !nth_error_map', Q. split; [reflexivity|]. split; [reflexivity|]. rewrite (Ns1 (c, b) Hs). f_equal. apply (nth_error_nth _ _ (c, b)) in Q. exact Q.
    + apply nth_error_None in Q. lia.
  - subst P. rewrite !app_length, Lp. cbn. lia.
  - intros k Hk Hk'. specialize (Np (k - 1)%nat 0%nat 0 ltac:(lia)). rewrite seq_nth in Np by lia. replace (1 + (k - 1))%nat with k in Np by lia. rewrite Np. f_equal.
    subst P. cbn [app]. destruct k; [lia|]. cbn [nth]. rewrite app_nth1 by lia. f_equal. lia.
  - intros k Hk. specialize (Nx k 0%nat (mkCross 0 0 0 0) ltac:(lia)). rewrite seq_nth in Nx by lia. exact Nx.
  - intros k Hk. destruct k as [|k]; [exact T0|]. apply LL; lia.
  - intros k Hk Hk'. apply LL; lia.
  - exists Ls. split; [exact Ll|]. split; [intros; apply LL; lia|]. split; [reflexivity|]. split; [exact NZ|]. split; reflexivity.
  - cbn. rewrite Li. lia.
  - intros k Hk Hk'. destruct k; [lia|]. cbn [nth]. specialize (Ni k 0%nat 0 ltac:(lia)). rewrite seq_nth in Ni by lia. exact Ni.
Qed.

Section Calc.
Variables (arcsin : C -> C) (pol : string) (ns : list C) (ds : list pyfloat) (cs : list string) (th0 : C) (lam : R) (D : inc_data) (ths : list C).
Hypothesis K : calc arcsin pol ns ds cs th0 lam D ths.
Notation M := (incoherent_layers D).

Lemma E_of_spec x fw bw v w : x_Tf x <> 0 -> ((fw, bw) = rvec (E_of x) (v, w) <-> v = x_Tf x * fw + x_Rb x * w /\ bw = x_Rf x * fw + x_Tb x * w).
Proof.
  intros H. unfold rvec, E_of, rscal. cbn. split.
  - intros Q. injection Q as -> ->. split; field; exact H.
  - intros [-> ->]. f_equal; field; exact H.
Qed.

Lemma VW_length : length (i_VW D) = (M - 1)%nat.
Proof. destruct (q_VW _ _ _ _ _ _ _ _ _ K) as (Ls & L & _ & E & _). rewrite E, intensities_length. pose proof (q_M _ _ _ _ _ _ _ _ _ K). lia. Qed.

Lemma first_pair : (1, i_R D) = rvec (E_of (crossing_of D 0)) (intensity D 1).
Proof.
  destruct (q_VW _ _ _ _ _ _ _ _ _ K) as (Ls & L & _ & E & NZ & ET & ER). unfold intensity. cbn [Nat.eqb Nat.sub]. rewrite E.
  replace (nth 0 (intensities Ls (i_T D)) (0, 0)) with (hd (0, 0) (intensities Ls (i_T D))) by (destruct (intensities Ls (i_T D)); reflexivity).
  rewrite hd_intensities, <- fold_rdot. unfold rvec. cbn [fst snd]. rewrite ER, ET. f_equal; field; exact NZ.
Qed.
Lemma next_pair k : (0 < k)%nat -> (S k < M)%nat -> intensity D k = rvec (L_of (pass_of D k) (crossing_of D k)) (intensity D (S k)).
Proof.
  intros H1 H2. destruct (q_VW _ _ _ _ _ _ _ _ _ K) as (Ls & L & N & E & _). unfold intensity. destruct (Nat.eqb_spec k 0); [lia|]. cbn [Nat.eqb]. rewrite E.
  rewrite intensities_nth by lia. rewrite N by lia. replace (S k - 1)%nat with (S (k - 1)) by lia. reflexivity.
Qed.
Lemma last_pair : intensity D (M - 1) = (i_T D, 0).
Proof.
  pose proof (q_M _ _ _ _ _ _ _ _ _ K) as HM. destruct (q_VW _ _ _ _ _ _ _ _ _ K) as (Ls & L & _ & E & _). unfold intensity. destruct (Nat.eqb_spec (M - 1) 0); [lia|]. rewrite E.
  replace (M - 1 - 1)%nat with (length Ls) by lia. apply intensities_last.
Qed.

Lemma flows_balance : balanced M (crossing_of D) (pass_of D) (intensity D) /\ intensity D 0 = (1, i_R D) /\ intensity D (M - 1) = (i_T D, 0).
Proof.
  split; [|split; [reflexivity|exact last_pair]]. intros k Hk. cbn zeta. pose proof (q_Tf _ _ _ _ _ _ _ _ _ K k Hk) as HT. destruct k as [|k].
  - cbn [Nat.eqb]. exists (i_R D). split; [reflexivity|]. apply E_of_spec; [exact HT|]. rewrite <- surjective_pairing. exact first_pair.
  - cbn [Nat.eqb]. pose proof (next_pair (S k) ltac:(lia) Hk) as Q. unfold L_of in Q. rewrite rvec_rdot in Q.
    pose proof (q_Pnz _ _ _ _ _ _ _ _ _ K (S k) ltac:(lia) Hk) as HP. set (e := rvec (E_of (crossing_of D (S k))) (intensity D (S (S k)))) in *.
    assert (F : fst e = pass_of D (S k) * fst (intensity D (S k))) by (rewrite Q; unfold rvec; cbn [fst snd r00 r01]; field; exact HP).
    assert (B : snd (intensity D (S k)) = pass_of D (S k) * snd e) by (rewrite Q; unfold rvec; cbn [fst snd r10 r11]; ring).
    exists (snd e). split; [exact B|]. rewrite <- F. apply E_of_spec; [exact HT|]. rewrite <- !surjective_pairing. reflexivity.
Qed.

(** Balanced intensities are backwards determined by the last ones *)
Lemma balanced_back I k : balanced M (crossing_of D) (pass_of D) I -> (S k < M)%nat ->
  I k = rvec (if Nat.eqb k 0 then E_of (crossing_of D 0) else L_of (pass_of D k) (crossing_of D k)) (I (S k)).
Proof.
  intros B Hk. destruct (B k Hk) as (bw & E1 & E2 & E3). pose proof (q_Tf _ _ _ _ _ _ _ _ _ K k Hk) as HT. destruct k as [|k]; cbn [Nat.eqb] in *.
  - subst bw. rewrite (surjective_pairing (I 0%nat)), (surjective_pairing (I 1%nat)). apply E_of_spec; auto.
  - unfold L_of. rewrite rvec_rdot. rewrite (surjective_pairing (I (S (S k)))). pose proof (q_Pnz _ _ _ _ _ _ _ _ _ K (S k) ltac:(lia) Hk) as HP.
    rewrite <- (proj2 (E_of_spec _ _ _ _ _ HT) (conj E2 E3)). unfold rvec. cbn [fst snd r00 r01 r10 r11].
    rewrite (surjective_pairing (I (S k))), E1. cbn [fst snd]. f_equal; [field; exact HP|ring].
Qed.

(** Scaled intensities are balanced *)
Lemma rvec_scale L v (c : R) : rvec L (c * fst v, c * snd v) = (c * fst (rvec L v), c * snd (rvec L v)).
Proof. unfold rvec. cbn. f_equal; ring. Qed.

Lemma flows_unique I t : balanced M (crossing_of D) (pass_of D) I -> fst (I 0%nat) = 1 -> I (M - 1)%nat = (t, 0) ->
  forall k, (k < M)%nat -> I k = intensity D k.
Proof.
  intros B E0 EM. pose proof (q_M _ _ _ _ _ _ _ _ _ K) as HM. pose proof flows_balance as (B' & E0' & EM').
  destruct (q_VW _ _ _ _ _ _ _ _ _ K) as (Ls & _ & _ & _ & NZ & ET & _).
  assert (TN : i_T D <> 0) by (rewrite ET; intros Q; apply (Rmult_eq_compat_r (r00 (fold_left rdot Ls (E_of (crossing_of D 0))))) in Q; unfold Rdiv in Q; rewrite Rmult_assoc, Rinv_l in Q by exact NZ; lra).
  assert (S1 : forall j, (j < M)%nat -> I (M - 1 - j)%nat = (t / i_T D * fst (intensity D (M - 1 - j)), t / i_T D * snd (intensity D (M - 1 - j)))).
  { induction j as [|j IH]; intros Hj.
    - rewrite Nat.sub_0_r, EM, EM'. cbn. f_equal; field; exact TN.
    - assert (Q : (S (M - 1 - S j) = M - 1 - j)%nat) by lia. rewrite (balanced_back I) by (auto; lia). rewrite (balanced_back (intensity D)) by (auto; lia).
      rewrite Q, IH by lia. apply rvec_scale. }
  assert (tT : t / i_T D = 1).
  { specialize (S1 (M - 1)%nat ltac:(lia)). rewrite Nat.sub_diag, E0' in S1. cbn [fst snd] in S1. rewrite S1 in E0. cbn [fst] in E0. lra. }
  intros k Hk. specialize (S1 (M - 1 - k)%nat ltac:(lia)). replace (M - 1 - (M - 1 - k))%nat with k in S1 by lia. rewrite S1, tT, !Rmult_1_l. symmetry. apply surjective_pairing.
Qed.
End Calc.

Lemma balance_all arcsin pol ns ds cs th0 lam D : inc_tmm arcsin pol ns ds cs th0 lam = Ok D ->
  (2 <= incoherent_layers D)%nat /\
  balanced (incoherent_layers D) (crossing_of D) (pass_of D) (intensity D) /\
  intensity D 0 = (1, i_R D) /\ intensity D (incoherent_layers D - 1) = (i_T D, 0).
Proof. intros H. destruct (inc_calc _ _ _ _ _ _ _ _ H) as (ths & K). split; [exact (q_M _ _ _ _ _ _ _ _ _ K)|]. eapply flows_balance; eauto. Qed.
Lemma unique_balance_all arcsin pol ns ds cs th0 lam D I t : inc_tmm arcsin pol ns ds cs th0 lam = Ok D ->
  balanced (incoherent_layers D) (crossing_of D) (pass_of D) I -> fst (I 0%nat) = 1 -> I (incoherent_layers D - 1)%nat = (t, 0) ->
  snd (I 0%nat) = i_R D /\ t = i_T D /\ forall k, (k < incoherent_layers D)%nat -> I k = intensity D k.
Proof.
  intros H B E0 EM. destruct (inc_calc _ _ _ _ _ _ _ _ H) as (ths & K). pose proof (q_M _ _ _ _ _ _ _ _ _ K) as HM.
  pose proof (flows_unique _ _ _ _ _ _ _ _ _ K I t B E0 EM) as U. split; [rewrite U by lia; reflexivity|]. split; [|exact U].
  rewrite (U (incoherent_layers D - 1)%nat) in EM by lia. rewrite (last_pair _ _ _ _ _ _ _ _ _ K) in EM. congruence.
Qed.
