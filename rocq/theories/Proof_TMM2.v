From Coq Require Import Reals ZArith String List Bool Lra Lia Psatz.
From Verif Require Import Base PyVal Cplx CplxLemmas Model_TMM Spec_TMM Proof_TMM.
Import ListNotations.
Open Scope R_scope.

Definition ca (pol : string) (n c : C) : C := if String.eqb pol "s" then C1 else n.
Definition cb (pol : string) (n c : C) : C := if String.eqb pol "s" then (n * c)%C else c.
Lemma tangential_ab pol n c fb :
  tangential pol n c fb = ((ca pol n c * (fst fb + snd fb))%C, (cb pol n c * (fst fb - snd fb))%C).
Proof. unfold tangential, ca, cb. destruct String.eqb; f_equal; ring. Qed.

(** * One interface *)
Definition fresnel (pol : string) (n c n' c' : C) (rt : C * C) : Prop :=
  let a := ca pol n c in let b := cb pol n c in let a' := ca pol n' c' in let b' := cb pol n' c' in
  let D := (a' * b + a * b')%C in
  D <> C0 /\ fst rt = ((a' * b - a * b') / D)%C /\ snd rt = (RtoC 2 * a * b / D)%C.
Lemma interface_fresnel pol n n' th th' r t :
  interface_r pol n n' th th' = Ok r -> interface_t pol n n' th th' = Ok t ->
  fresnel pol n (Ccos th) n' (Ccos th') (r, t) /\ (pol = "s" \/ pol = "p")%string.
Proof.
  unfold interface_r, interface_t, fresnel, ca, cb. destruct (String.eqb_spec pol "s").
  - intros H1 H2. apply cdiv_inv in H1 as (D & ->). apply cdiv_inv in H2 as (_ & ->). simpl. split; [|auto].
    assert (E : (C1 * (n * Ccos th) + C1 * (n' * Ccos th'))%C = (n * Ccos th + n' * Ccos th')%C) by ring.
    rewrite E. split; [exact D|]. split; f_equal; ring.
  - destruct (String.eqb_spec pol "p"); [|discriminate].
    intros H1 H2. apply cdiv_inv in H1 as (D & ->). apply cdiv_inv in H2 as (_ & ->). simpl. split; [|auto].
    split; [exact D|]. split; reflexivity.
Qed.

Definition Dmat (rt : C * C) : m22 := mscal (C1 / snd rt)%C (mkM C1 (fst rt) (fst rt) C1).
Lemma two_neq : RtoC 2 <> C0.
Proof. intros H. injection H. lra. Qed.
Lemma Cmul_neq_inv a b : (a * b)%C <> C0 -> a <> C0 /\ b <> C0.
Proof. intros H; split; intros ->; apply H; ring. Qed.
Lemma Cdiv_neq_inv a b : b <> C0 -> (a / b)%C <> C0 -> a <> C0.
Proof. intros Hb H ->. apply H. field. exact Hb. Qed.

Lemma RtoC_2 : RtoC 2 = (C1 + C1)%C.
Proof. apply Ceq; simpl; ring. Qed.

(** The interface matrix gives exactly the amplitudes whose fields agree. *)
Lemma D_matches pol n c n' c' rt x y : fresnel pol n c n' c' rt -> snd rt <> C0 ->
  (x = mvec (Dmat rt) y <-> tangential pol n c x = tangential pol n' c' y).
Proof.
  intros (HD & Hr & Ht) Hn. rewrite !tangential_ab.
  set (a := ca pol n c) in *. set (b := cb pol n c) in *. set (a' := ca pol n' c') in *. set (b' := cb pol n' c') in *.
  clearbody a b a' b'. rewrite Ht in Hn. apply Cdiv_neq_inv in Hn; auto.
  apply Cmul_neq_inv in Hn as (Hn & Hb). apply Cmul_neq_inv in Hn as (_ & Ha).
  assert (H2 := two_neq). rewrite RtoC_2 in *.
  destruct rt as [r t]. destruct x as [v w], y as [v' w']. unfold Dmat, mscal, mvec; simpl in *. subst r t.
  split.
  - intros H. assert (E1 := f_equal fst H). assert (E2 := f_equal snd H). simpl in E1, E2. clear H.
    f_equal; rewrite E1, E2; field; auto.
  - intros H. assert (E1 := f_equal fst H). assert (E2 := f_equal snd H). simpl in E1, E2. clear H.
    assert (Hv : v = ((b * (a * (v + w)) + a * (b * (v - w))) / ((C1 + C1) * a * b))%C) by (field; auto).
    assert (Hw : w = ((b * (a * (v + w)) - a * (b * (v - w))) / ((C1 + C1) * a * b))%C) by (field; auto).
    rewrite E1, E2 in Hv, Hw. rewrite Hv, Hw. f_equal; field; auto.
Qed.
Lemma fresnel_nonzero pol n c n' c' rt : fresnel pol n c n' c' rt -> snd rt <> C0 ->
  ca pol n c <> C0 /\ cb pol n c <> C0.
Proof.
  intros (HD & Hr & Ht) Hn. rewrite Ht in Hn. apply Cdiv_neq_inv in Hn; auto.
  apply Cmul_neq_inv in Hn as (Hn & Hb). apply Cmul_neq_inv in Hn as (_ & Ha). auto.
Qed.

Lemma interfaces_spec pol ns ths rt : length ths = length ns -> interfaces pol ns ths = Ok rt ->
  length rt = (length ns - 1)%nat /\
  forall i, (S i < length ns)%nat ->
    fresnel pol (nth i ns C0) (Ccos (nth i ths C0)) (nth (S i) ns C0) (Ccos (nth (S i) ths C0)) (nth i rt (C0, C0))
    /\ (pol = "s" \/ pol = "p")%string.
Proof.
  revert ths rt. induction ns as [|n ns IH]; intros ths rt L H.
  - destruct ths; [|discriminate]. simpl in *. injection H as <-. split; [auto|intros; lia].
  - destruct ths as [|th ths]; [discriminate|]. destruct ns as [|n' ns].
    + destruct ths; [|discriminate]. simpl in H. injection H as <-. split; [auto|simpl; intros; lia].
    + destruct ths as [|th' ths]; [discriminate|].
      change (interfaces pol (n :: n' :: ns) (th :: th' :: ths)) with
        (let! t := interface_t pol n n' th th' in
         let! r := interface_r pol n n' th th' in
         let! rest := interfaces pol (n' :: ns) (th' :: ths) in Ok ((r, t) :: rest)) in H.
      inv_bind H. inv_bind H. inv_bind H. injection H as <-.
      destruct (IH (th' :: ths) _ ltac:(simpl in *; congruence) E1) as (L1 & F).
      split; [simpl in *; lia|].
      intros [|i] Hi; simpl.
      * apply interface_fresnel; auto.
      * apply (F i). simpl in *. lia.
Qed.

(** * Matrices and amplitudes *)
Lemma mvec_mdot A B x : mvec (mdot A B) x = mvec A (mvec B x).
Proof. unfold mvec, mdot; simpl. f_equal; ring. Qed.
Lemma mvec_id x : mvec m_id x = x.
Proof. unfold mvec, m_id; destruct x; simpl. f_equal; ring. Qed.
Lemma mdot_assoc A B D : mdot A (mdot B D) = mdot (mdot A B) D.
Proof. unfold mdot; simpl. f_equal; ring. Qed.
Lemma mdot_id_l A : mdot m_id A = A.
Proof. unfold mdot, m_id; destruct A; simpl. f_equal; ring. Qed.
Lemma mdot_id_r A : mdot A m_id = A.
Proof. unfold mdot, m_id; destruct A; simpl. f_equal; ring. Qed.
Lemma fold_mdot Ms A : fold_left mdot Ms A = mdot A (fold_left mdot Ms m_id).
Proof.
  revert A. induction Ms as [|M Ms IH]; intros A; simpl; [symmetry; apply mdot_id_r|].
  rewrite (IH (mdot A M)), (IH (mdot m_id M)), mdot_id_l. symmetry. apply mdot_assoc.
Qed.

Definition end_of (t : C) : C * C := (t, C0).
Lemma amplitudes_length Ms t : length (amplitudes Ms t) = S (length Ms).
Proof. induction Ms; simpl; auto. Qed.
Lemma amplitudes_hd Ms t : hd (C0, C0) (amplitudes Ms t) = mvec (fold_left mdot Ms m_id) (t, C0).
Proof.
  induction Ms as [|M Ms IH]; simpl; [rewrite mvec_id; reflexivity|].
  fold (amplitudes Ms t). rewrite IH, <- mvec_mdot, mdot_id_l, (fold_mdot Ms M). reflexivity.
Qed.
Lemma amplitudes_step Ms t i : (i < length Ms)%nat ->
  nth i (amplitudes Ms t) (C0, C0) = mvec (nth i Ms m_id) (nth (S i) (amplitudes Ms t) (C0, C0)).
Proof.
  revert i. induction Ms as [|M Ms IH]; simpl; intros i Hi; [lia|].
  fold (amplitudes Ms t). destruct i.
  - f_equal. destruct (amplitudes Ms t) eqn:E; [|reflexivity]. simpl. destruct Ms; discriminate.
  - rewrite (IH i) by lia. destruct (amplitudes Ms t); reflexivity.
Qed.
Lemma amplitudes_last Ms t : nth (length Ms) (amplitudes Ms t) (C0, C0) = (t, C0).
Proof. induction Ms; simpl; auto. Qed.

Lemma Cexp_opp z : (Cexp z * Cexp (- z))%C = C1.
Proof. rewrite <- Cexp_add. replace (z + - z)%C with C0 by ring. apply Cexp_0. Qed.
(** The matrix of a layer undoes its phase and passes the interface behind it. *)
Lemma M_layer_advance delta rt x y : x = mvec (M_layer delta rt) y <-> advance delta x = mvec (Dmat rt) y.
Proof.
  assert (E : (Cexp (Ci * delta) * Cexp (- Ci * delta))%C = C1).
  { replace (- Ci * delta)%C with (- (Ci * delta))%C by ring. apply Cexp_opp. }
  destruct x as [v w], y as [v' w']. unfold M_layer, Dmat, advance, mscal, mvec, mdot; simpl.
  set (ep := Cexp (Ci * delta)) in *. set (em := Cexp (- Ci * delta)) in *. clearbody ep em. set (k := (C1 / snd rt)%C). clearbody k.
  split; intros H; assert (E1 := f_equal fst H); assert (E2 := f_equal snd H); simpl in E1, E2; clear H.
  - rewrite E1, E2. f_equal.
    + transitivity ((ep * em) * (k * C1 * v' + k * fst rt * w'))%C; [ring|]. rewrite E. ring.
    + transitivity ((ep * em) * (k * fst rt * v' + k * C1 * w'))%C; [ring|]. rewrite E. ring.
  - f_equal.
    + transitivity ((v * ep) * em)%C; [transitivity (v * (ep * em))%C; [rewrite E; ring|ring]|]. rewrite E1. ring.
    + transitivity ((w * em) * ep)%C; [transitivity (w * (ep * em))%C; [rewrite E; ring|ring]|]. rewrite E2. ring.
Qed.
