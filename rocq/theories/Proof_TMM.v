From Coq Require Import Reals ZArith String List Bool Lra Lia Psatz.
From Verif Require Import Base PyVal Cplx CplxLemmas Model_TMM Spec_TMM.
Import ListNotations.
Open Scope R_scope.

(** * Trigonometry of complex numbers *)
Lemma cosh2_sinh2 y : cosh y * cosh y - sinh y * sinh y = 1.
Proof.
  unfold cosh, sinh. assert (exp y * exp (- y) = 1) by (rewrite <- exp_plus; replace (y + - y) with 0 by ring; apply exp_0).
  nra.
Qed.
Lemma cosh_opp y : cosh (- y) = cosh y.
Proof. unfold cosh. rewrite Ropp_involutive. lra. Qed.
Lemma sinh_opp y : sinh (- y) = - sinh y.
Proof. unfold sinh. rewrite Ropp_involutive. lra. Qed.
Lemma Csin2_cos2 z : (Csin z * Csin z + Ccos z * Ccos z)%C = C1.
Proof.
  destruct z as [x y]. pose proof (cosh2_sinh2 y). pose proof (sin2_cos2 x). unfold Rsqr in *.
  apply Ceq; unfold Csin, Ccos; simpl; [|ring].
  replace (cosh y * cosh y) with (1 + sinh y * sinh y) in * by lra.
  transitivity ((sin x * sin x + cos x * cos x) * (cosh y * cosh y - sinh y * sinh y)); [ring|].
  rewrite H0. pose proof (cosh2_sinh2 y). lra.
Qed.
Lemma Ccos_pi_minus z : Ccos (RtoC PI - z)%C = (- Ccos z)%C.
Proof.
  destruct z as [x y]. apply Ceq; unfold Ccos; simpl; rewrite Rminus_0_l, ?cosh_opp, ?sinh_opp.
  - rewrite Rtrigo_facts.cos_pi_minus. ring.
  - rewrite Rtrigo_facts.sin_pi_minus. ring.
Qed.
Lemma Csin_pi_minus z : Csin (RtoC PI - z)%C = Csin z.
Proof.
  destruct z as [x y]. apply Ceq; unfold Csin; simpl; rewrite Rminus_0_l, ?cosh_opp, ?sinh_opp.
  - rewrite Rtrigo_facts.sin_pi_minus. ring.
  - rewrite Rtrigo_facts.cos_pi_minus. ring.
Qed.
Lemma Ccos_conj z : Ccos (Cconj z) = Cconj (Ccos z).
Proof. destruct z as [x y]. apply Ceq; unfold Ccos; simpl; rewrite ?cosh_opp, ?sinh_opp; ring. Qed.

(** * Basics *)
Lemma bind_inv {A B} (x : res A) (f : A -> res B) y : bind x f = Ok y -> exists a, x = Ok a /\ f a = Ok y.
Proof. destruct x; simpl; intros H; [eauto|discriminate]. Qed.
Lemma ensure_inv b e : ensure b e = Ok tt -> b = true.
Proof. unfold ensure. destruct b; auto; discriminate. Qed.
Lemma cdiv_inv a b x : cdiv a b = Ok x -> b <> C0 /\ x = (a / b)%C.
Proof.
  unfold cdiv. destruct Req_EM_T; [discriminate|]. intros H. injection H as <-. split; auto.
  intros ->. apply n. unfold Cnorm2; simpl; ring.
Qed.
Lemma cdiv_ok a b : b <> C0 -> cdiv a b = Ok (a / b)%C.
Proof. intros H. unfold cdiv. destruct Req_EM_T; auto. apply Cnorm2_zero in e. contradiction. Qed.
Lemma rdiv_inv a b x : rdiv a b = Ok x -> b <> 0 /\ x = a / b.
Proof. unfold rdiv. destruct Req_EM_T; [discriminate|]. intros H. injection H as <-. auto. Qed.
Lemma rdiv_ok a b : b <> 0 -> rdiv a b = Ok (a / b).
Proof. intros H. unfold rdiv. destruct Req_EM_T; tauto. Qed.
Ltac inv_bind H :=
  let a := fresh "a" in let E := fresh "E" in
  apply bind_inv in H; destruct H as (a & E & H).
Lemma Rltb_true a b : Rltb a b = true <-> a < b.
Proof. unfold Rltb. destruct Rlt_dec; split; auto; discriminate. Qed.
Lemma Rltb_false a b : Rltb a b = false <-> b <= a.
Proof. unfold Rltb. destruct Rlt_dec; split; intros; try discriminate; auto; lra. Qed.
Lemma Rleb_true a b : Rleb a b = true <-> a <= b.
Proof. unfold Rleb. destruct Rle_dec; split; auto; discriminate. Qed.
Lemma Reqb_false a b : Reqb a b = false <-> a <> b.
Proof. unfold Reqb. destruct Req_EM_T; split; intros; try discriminate; auto; tauto. Qed.

Lemma EPSILON_pos : 0 < EPSILON.
Proof. unfold EPSILON. apply Rinv_0_lt_compat. apply pow_lt. lra. Qed.

(** * Forward angles *)
Definition forwards (q : C) : bool :=
  if Rltb (100 * EPSILON) (Rabs (Im q)) then Rltb 0 (Im q) else Rltb 0 (Re q).
Lemma is_forward_inv n th b : is_forward_angle n th = Ok b -> passive n /\ b = forwards (n * Ccos th)%C.
Proof.
  unfold is_forward_angle. intros H. inv_bind H. destruct a. apply ensure_inv, Rleb_true in E. split; [exact E|].
  fold (forwards (n * Ccos th)%C) in H. destruct forwards.
  - do 3 (inv_bind H). congruence.
  - do 3 (inv_bind H). congruence.
Qed.
Lemma forwards_opp q : forwards q = true -> forwards (- q)%C = true -> False.
Proof.
  unfold forwards, Copp; simpl. rewrite Rabs_Ropp. destruct (Rltb (100 * EPSILON) _); rewrite !Rltb_true; lra.
Qed.

Lemma Cmul_cancel a b c : a <> C0 -> (a * b = a * c)%C -> b = c.
Proof.
  intros Ha H. assert (E : ((/ a) * (a * b) = (/ a) * (a * c))%C) by (rewrite H; reflexivity).
  replace ((/ a) * (a * b))%C with b in E by (field; exact Ha).
  replace ((/ a) * (a * c))%C with c in E by (field; exact Ha). exact E.
Qed.
Lemma Cmul_integral a b : (a * b)%C = C0 -> a = C0 \/ b = C0.
Proof.
  intros H. destruct (Req_EM_T (Cnorm2 a) 0) as [E | E]; [left; apply Cnorm2_zero; exact E|].
  right. apply (Cmul_cancel a); [intros ->; apply E; unfold Cnorm2; simpl; ring|]. rewrite H. ring.
Qed.

(** Equal sines of two forward angles mean equal cosines. *)
Lemma same_sine_cos a b : Csin a = Csin b -> Ccos a = Ccos b \/ Ccos a = (- Ccos b)%C.
Proof.
  intros H. pose proof (Csin2_cos2 a) as Ha. pose proof (Csin2_cos2 b) as Hb. rewrite H in Ha.
  assert (E : ((Ccos a - Ccos b) * (Ccos a + Ccos b))%C = C0).
  { transitivity ((Csin b * Csin b + Ccos a * Ccos a) - (Csin b * Csin b + Ccos b * Ccos b))%C; [ring|].
    rewrite Ha, Hb. ring. }
  destruct (Cmul_integral _ _ E) as [F | F].
  - left. transitivity ((Ccos a - Ccos b) + Ccos b)%C; [ring|]. rewrite F. ring.
  - right. transitivity ((Ccos a + Ccos b) - Ccos b)%C; [ring|]. rewrite F. ring.
Qed.
Lemma forward_cos_unique n a b : n <> C0 -> Csin a = Csin b ->
  forwards (n * Ccos a)%C = true -> forwards (n * Ccos b)%C = true -> Ccos a = Ccos b.
Proof.
  intros _ Hs Ha Hb. destruct (same_sine_cos a b Hs) as [E | E]; auto.
  exfalso. rewrite E in Ha. replace (n * - Ccos b)%C with (- (n * Ccos b))%C in Ha by ring.
  exact (forwards_opp _ Hb Ha).
Qed.

(** * Lists *)
Lemma list_set_length {A} i (x : A) l : length (list_set i x l) = length l.
Proof. revert i; induction l as [|y r IH]; intros [|i]; simpl; auto. Qed.
Lemma list_set_nth {A} i (x d : A) l j : (i < length l)%nat -> nth j (list_set i x l) d = if Nat.eqb j i then x else nth j l d.
Proof.
  revert i j; induction l as [|y r IH]; simpl; intros i j Hi; [lia|].
  destruct i; simpl.
  - destruct j; reflexivity.
  - destruct j; simpl; auto. apply IH. lia.
Qed.

Section Arcsin.
Variable arcsin : C -> C.
Hypothesis arcsin_spec : forall z, Csin (arcsin z) = z.

Lemma angles_of_spec x ns l : angles_of arcsin x ns = Ok l ->
  length l = length ns /\ forall i, (i < length ns)%nat -> nth i ns C0 <> C0 /\ nth i l C0 = arcsin (x / nth i ns C0)%C.
Proof.
  revert l; induction ns as [|n r IH]; simpl; intros l H.
  - injection H as <-. simpl. split; [auto|intros; lia].
  - inv_bind H. inv_bind H. injection H as <-. apply cdiv_inv in E as (Hn & ->).
    destruct (IH _ E0) as (L & F). simpl. split; [congruence|].
    intros [|i] Hi; simpl; auto. apply F. lia.
Qed.

Lemma make_forward_spec ns i l l' : (i < length l)%nat -> make_forward ns i l = Ok l' ->
  length l' = length l /\ passive (nth i ns C0) /\ forwards (nth i ns C0 * Ccos (nth i l C0))%C = forwards (nth i ns C0 * Ccos (nth i l C0))%C /\
  (forall j, nth j l' C0 = if Nat.eqb j i
     then if forwards (nth i ns C0 * Ccos (nth i l C0))%C then nth i l C0 else (RtoC PI - nth i l C0)%C
     else nth j l C0).
Proof.
  unfold make_forward. intros Hi H. inv_bind H. apply is_forward_inv in E as (P & ->). injection H as <-.
  split; [|split; [exact P|split; [reflexivity|]]].
  - destruct forwards; auto. apply list_set_length.
  - intros j. destruct (forwards (nth i ns C0 * Ccos (nth i l C0))%C).
    + destruct (Nat.eqb_spec j i); subst; auto.
    + rewrite list_set_nth by auto. reflexivity.
Qed.

(** The angles of [list_snell] obey Snell's law; the first one has the cosine of a
    forward incident angle; the last one is forward or was refused. *)
Lemma list_snell_spec ns th_0 ths : (2 <= length ns)%nat -> list_snell arcsin ns th_0 = Ok ths ->
  length ths = length ns /\
  (forall i, (i < length ns)%nat -> nth i ns C0 <> C0 /\ (nth i ns C0 * Csin (nth i ths C0))%C = (nth 0 ns C0 * Csin th_0)%C) /\
  (forall i, (0 < i)%nat -> (S i < length ns)%nat -> nth i ths C0 = arcsin (nth 0 ns C0 * Csin th_0 / nth i ns C0)%C) /\
  passive (nth 0 ns C0) /\ passive (nth (length ns - 1) ns C0) /\
  (forwards (nth 0 ns C0 * Ccos th_0)%C = true -> Ccos (nth 0 ths C0) = Ccos th_0) /\
  let g := arcsin (nth 0 ns C0 * Csin th_0 / nth (length ns - 1) ns C0)%C in
  nth (length ns - 1) ths C0 = if forwards (nth (length ns - 1) ns C0 * Ccos g)%C then g else (RtoC PI - g)%C.
Proof.
  intros HN H. destruct ns as [|n_0 ns']; [discriminate|]. set (ns := n_0 :: ns') in *.
  change (list_snell arcsin ns th_0) with
    (let! angles := angles_of arcsin (n_0 * Csin th_0)%C ns in
     let! angles := make_forward ns 0 angles in
     make_forward ns (length ns - 1) angles) in H.
  inv_bind H. inv_bind H. rename a into l0. rename a0 into l1.
  change (nth 0 ns C0) with n_0.
  destruct (angles_of_spec _ _ _ E) as (L0 & A0).
  assert (I0 : (0 < length l0)%nat) by lia.
  destruct (make_forward_spec _ _ _ _ I0 E0) as (L1 & P0 & _ & A1).
  assert (I1 : (length ns - 1 < length l1)%nat) by lia.
  destruct (make_forward_spec _ _ _ _ I1 H) as (L2 & PN & _ & A2).
  change (nth 0 ns C0) with n_0 in *.
  assert (Hsin : forall i, (i < length ns)%nat -> nth i ns C0 <> C0 /\ (nth i ns C0 * Csin (nth i l0 C0))%C = (n_0 * Csin th_0)%C).
  { intros i Hi. destruct (A0 i Hi) as (Hn & ->). split; auto. rewrite arcsin_spec. field. exact Hn. }
  assert (Hsin1 : forall i, Csin (nth i l1 C0) = Csin (nth i l0 C0)).
  { intros i. rewrite A1. destruct (Nat.eqb_spec i 0); subst; auto.
    match goal with |- context [if ?b then _ else _] => destruct b end; auto. apply Csin_pi_minus. }
  assert (Hsin2 : forall i, Csin (nth i ths C0) = Csin (nth i l1 C0)).
  { intros i. rewrite A2. destruct (Nat.eqb_spec i (length ns - 1)); subst; auto.
    match goal with |- context [if ?b then _ else _] => destruct b end; auto. apply Csin_pi_minus. }
  split; [lia|]. split.
  { intros i Hi. rewrite Hsin2, Hsin1. apply Hsin. exact Hi. }
  split.
  { intros i H1 H2. rewrite A2. destruct (Nat.eqb_spec i (length ns - 1)); [lia|]. rewrite A1.
    destruct (Nat.eqb_spec i 0); [lia|]. apply A0. lia. }
  split; [exact P0|]. split; [exact PN|]. split.
  - intros F0. rewrite A2. destruct (Nat.eqb_spec 0 (length ns - 1)); [lia|]. rewrite A1. simpl.
    assert (S0 : Csin (nth 0 l0 C0) = Csin th_0).
    { destruct (Hsin 0%nat) as (Hn & E1); [lia|]. simpl in Hn, E1. apply (Cmul_cancel n_0); auto. }
    destruct (same_sine_cos _ _ S0) as [Ec | Ec].
    + rewrite Ec, F0. exact Ec.
    + destruct (forwards (n_0 * Ccos (nth 0 l0 C0))%C) eqn:F1.
      * rewrite Ec in F1. replace (n_0 * - Ccos th_0)%C with (- (n_0 * Ccos th_0))%C in F1 by ring.
        exfalso. exact (forwards_opp _ F0 F1).
      * rewrite Ccos_pi_minus, Ec. ring.
  - intros g. rewrite A2. rewrite Nat.eqb_refl. rewrite A1.
    destruct (Nat.eqb_spec (length ns - 1) 0); [lia|].
    destruct (A0 (length ns - 1)%nat) as (_ & ->); [lia|]. reflexivity.
Qed.
End Arcsin.
