From Coq Require Import Reals ZArith String List Bool Lra Lia Psatz.
From Verif Require Import Base PyVal Cplx CplxLemmas Model_TMM Spec_TMM Proof_TMM Proof_TMM2 Proof_TMM3 Proof_TMM4 Proof_TMM5 Proof_TMM6 Proof_TMM7.
Import ListNotations.
Open Scope R_scope.

(** * A slab *)
Lemma slab arcsin pol n0 n1 n2 ds th0 lam D : coh_tmm arcsin pol [n0; n1; n2] ds th0 lam = Ok D ->
  exists r01 t01 r12 t12,
    interface_r pol n0 n1 (nth 0 (c_th D) C0) (nth 1 (c_th D) C0) = Ok r01 /\
    interface_t pol n0 n1 (nth 0 (c_th D) C0) (nth 1 (c_th D) C0) = Ok t01 /\
    interface_r pol n1 n2 (nth 1 (c_th D) C0) (nth 2 (c_th D) C0) = Ok r12 /\
    interface_t pol n1 n2 (nth 1 (c_th D) C0) (nth 2 (c_th D) C0) = Ok t12 /\
    let e := Cexp (Ci * nth 1 (phases D) C0)%C in
    (C1 + r01 * r12 * (e * e))%C <> C0 /\
    c_r D = ((r01 + r12 * (e * e)) / (C1 + r01 * r12 * (e * e)))%C /\
    c_t D = (t01 * t12 * e / (C1 + r01 * r12 * (e * e)))%C.
Proof.
  intros H. apply coh_tmm_calc in H as K. destruct (k_rt _ _ _ _ _ _ _ K) as (rt & Hrt & Hn & HM).
  assert (L := th_length arcsin _ _ _ _ _ _ K). destruct (c_th D) as [|a [|b [|c [|x l]]]] eqn:Eth; try discriminate. clear L.
  cbn [interfaces] in Hrt. inv_bind Hrt. rename a0 into t01. inv_bind Hrt. rename a0 into r01.
  inv_bind Hrt. inv_bind E1. rename a1 into t12. inv_bind E1. rename a1 into r12. inv_bind E1. injection E4 as <-.
  injection E1 as <-. injection Hrt as <-. exists r01, t01, r12, t12. cbn [nth]. do 4 (split; [assumption|]).
  set (e := Cexp (Ci * nth 1 (phases D) C0)%C). assert (T0 := Hn 0%nat ltac:(simpl; lia)). assert (T1 := Hn 1%nat ltac:(simpl; lia)). cbn [nth snd] in T0, T1.
  assert (EM : M_list (c_kz D) ds [(r01, t01); (r12, t12)] = [M_layer (nth 1 (phases D) C0) (r12, t12)]).
  { unfold M_list. rewrite (kz_length arcsin _ _ _ _ _ _ K). cbn [length seq map Nat.sub].
    rewrite (phases_nth arcsin _ _ _ _ _ _ K) by (simpl; lia). reflexivity. }
  cbv zeta in HM. rewrite EM in HM. clear EM.
  assert (He : (Cexp (- Ci * nth 1 (phases D) C0) * e = C1)%C).
  { unfold e. rewrite <- Cexp_add. replace (- Ci * nth 1 (phases D) C0 + Ci * nth 1 (phases D) C0)%C with C0 by ring. apply Cexp_0. }
  assert (Hen : e <> C0). { intros E5. rewrite E5 in He. apply (f_equal Re) in He. simpl in He. lra. }
  assert (Hi : Cexp (- Ci * nth 1 (phases D) C0) = (/ e)%C).
  { apply (Cmul_cancel e); auto. transitivity (Cexp (- Ci * nth 1 (phases D) C0) * e)%C; [ring|]. rewrite He. field. exact Hen. }
  unfold M_total, M_layer in HM. fold e in HM. rewrite Hi in HM. clearbody e. clear He Hi.
  cbn [nth fst snd fold_left mscal mdot m_id m00 m01 m10 m11] in HM.
  destruct HM as (M0 & Hr & Ht & _).
  assert (E5 : (C1 + r01 * r12 * (e * e))%C <> C0).
  { intros Q. apply M0. transitivity ((C1 + r01 * r12 * (e * e)) / (t01 * t12 * e))%C; [field; auto|]. rewrite Q. field. auto. }
  split; [exact E5|]. split.
  - rewrite Hr. field; repeat split; auto; intros Q; apply E5; rewrite <- Q; ring.
  - rewrite Ht. field; repeat split; auto; intros Q; apply E5; rewrite <- Q; ring.
Qed.

(** * Total internal reflection into a doubled last medium *)
Lemma tir_doubled arcsin (inv : inverts_sine arcsin) pol ns n_last ds th0 lam :
  (1 <= length ns)%nat ->
  forwards (n_last * Ccos (arcsin (nth 0 ns C0 * Csin th0 / n_last)))%C = false ->
  exists e, coh_tmm arcsin pol (ns ++ [n_last; n_last]) ds th0 lam = Err e.
Proof.
  intros HN F. destruct (coh_tmm arcsin pol (ns ++ [n_last; n_last]) ds th0 lam) as [D|e] eqn:H; [|eauto].
  exfalso. apply coh_tmm_calc in H as K. destruct (k_rt _ _ _ _ _ _ _ K) as (rt & Hrt & _ & _).
  assert (L2 : length (ns ++ [n_last; n_last])%list = S (S (length ns))) by (rewrite app_length; simpl; lia).
  destruct (interfaces_spec _ _ _ _ (th_length arcsin _ _ _ _ _ _ K) Hrt) as (_ & Fr).
  pose proof (list_snell_spec arcsin inv _ _ _ (k_N _ _ _ _ _ _ _ K) (k_snell _ _ _ _ _ _ _ K)) as (_ & Sn & Mid & _ & _ & _ & La).
  rewrite L2 in *. destruct (Fr (length ns)) as (FF & HP); [lia|]. clear Fr.
  specialize (Mid (length ns) ltac:(lia) ltac:(lia)).
  replace (S (S (length ns)) - 1)%nat with (S (length ns)) in La by lia.
  assert (N0 : nth 0 (ns ++ [n_last; n_last]) C0 = nth 0 ns C0) by (rewrite app_nth1 by lia; reflexivity).
  assert (N1 : nth (length ns) (ns ++ [n_last; n_last]) C0 = n_last) by (rewrite app_nth2, Nat.sub_diag by lia; reflexivity).
  assert (N2 : nth (S (length ns)) (ns ++ [n_last; n_last]) C0 = n_last).
  { rewrite app_nth2 by lia. replace (S (length ns) - length ns)%nat with 1%nat by lia. reflexivity. }
  rewrite N0, N1 in Mid. rewrite N0, N2 in La. rewrite N1, N2 in FF. cbv zeta in La. rewrite F in La. rewrite Mid, La, Ccos_pi_minus in FF.
  destruct FF as (D1 & _). apply D1. destruct HP as [-> | ->]; unfold ca, cb; simpl String.eqb; cbv iota; ring.
Qed.
