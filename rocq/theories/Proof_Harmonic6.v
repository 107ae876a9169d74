From Coq Require Import Reals ZArith List Bool Lra Lia Psatz.
From Verif Require Import Base BaseLemmas Cplx CplxLemmas Model_FDTD Spec_FDTD Spec_Harmonic Proof_Harmonic3 Proof_Harmonic5.
Import ListNotations.
Open Scope R_scope.

Section Settled.
  Variables (co w k : R) (eps sig : nat -> R) (a b lo hi : nat).
  Hypothesis Co : 0 < co.
  Hypothesis K : 0 < k < PI.
  Hypothesis W : 0 < w < PI.
  Hypothesis D : sin (w / 2) = co * sin (k / 2).
  Hypothesis M : stands_between eps sig a b.
  Hypothesis AB : (a <= b)%nat.
  Hypothesis LO : (lo + 2 <= a)%nat.
  Hypothesis HI : (b + 2 <= hi)%nat.

  Notation waves := (waves k).

  Lemma waves_rec u v x : (1 <= x)%nat -> (waves u v (S x) + waves u v (x - 1))%C = (RtoC (2 * cos k) * waves u v x)%C.
  Proof.
    intros H. unfold Spec_Harmonic.waves. pose proof (cis_rec k x H) as R1. pose proof (cis_rec' k x H) as R2.
    replace (RtoC (2 * cos k) * (u * Cis (k * INR x) + v * Cis (- (k * INR x))))%C
      with (u * (RtoC (2 * cos k) * Cis (k * INR x)) + v * (RtoC (2 * cos k) * Cis (- (k * INR x))))%C by ring.
    rewrite <- R1, <- R2. ring.
  Qed.

  (** any two neighbouring values are those of two waves *)
  Lemma two_values m (y z : C) : exists u v, waves u v m = y /\ waves u v (S m) = z.
  Proof.
    pose proof (sink k K) as SK. set (d := (Cis k - Cis (- k))%C). assert (Dn : d <> C0).
    { unfold d, Cis. rewrite cos_neg, sin_neg. intros H. injection H as _ H. lra. }
    set (p := Cis (k * INR m)). set (p' := Cis (- (k * INR m))). assert (PP : (p * p')%C = C1).
    { unfold p, p'. rewrite <- Cis_add, Rplus_opp_r. apply Cis_0. }
    assert (KK : (Cis k * Cis (- k))%C = C1) by (rewrite <- Cis_add, Rplus_opp_r; apply Cis_0).
    exists (p' * ((z - Cis (- k) * y) / d))%C, (p * ((Cis k * y - z) / d))%C. unfold Spec_Harmonic.waves. rewrite S_INR.
    replace (k * (INR m + 1)) with (k * INR m + k) by ring. replace (- (k * INR m + k)) with (- (k * INR m) + - k) by ring. rewrite !Cis_add. fold p p'.
    split.
    - transitivity ((p * p') * ((z - Cis (- k) * y) / d + (Cis k * y - z) / d))%C; [ring|]. rewrite PP. unfold d in *. field. exact Dn.
    - transitivity ((p * p') * (((z - Cis (- k) * y) * Cis k + (Cis k * y - z) * Cis (- k)) / d))%C; [field; exact Dn|]. rewrite PP.
      transitivity (C1 * ((z * (Cis k - Cis (- k))) / d))%C; [f_equal; f_equal; ring|]. unfold d in *. field. exact Dn.
  Qed.

  Lemma vacuum_waves A m j : (forall x, (m < x < m + S j)%nat -> (A (S x) + A (x - 1)%nat)%C = (RtoC (2 * cos k) * A x)%C) ->
    exists u v, forall x, (m <= x <= m + S j)%nat -> A x = waves u v x.
  Proof.
    intros Hr. destruct (two_values m (A m) (A (S m))) as (u & v & E1 & E2). exists u, v.
    assert (P : forall i, (i <= j)%nat -> A (m + i)%nat = waves u v (m + i) /\ A (S (m + i)) = waves u v (S (m + i))).
    { induction i as [|i IH]; intros Hi; [rewrite Nat.add_0_r; auto|]. destruct (IH ltac:(lia)) as [I1 I2].
      replace (m + S i)%nat with (S (m + i)) by lia. split; [exact I2|].
      pose proof (Hr (S (m + i)) ltac:(lia)) as R1. pose proof (waves_rec u v (S (m + i)) ltac:(lia)) as R2. replace (S (m + i) - 1)%nat with (m + i)%nat in * by lia.
      replace (A (S (S (m + i)))) with (RtoC (2 * cos k) * A (S (m + i)) - A (m + i)%nat)%C by (rewrite <- R1; ring).
      rewrite I1, I2, <- R2. ring. }
    intros x Hx. destruct (Nat.eq_dec x m) as [->|N]; [symmetry; exact E1|].
    destruct (P (x - m - 1)%nat ltac:(lia)) as [_ Q]. replace (S (m + (x - m - 1))) with x in Q by lia. exact Q.
  Qed.

  (** a solution in the columns is part of a solution everywhere *)
  Definition extend (A : nat -> C) (u v t s : C) (x : nat) : C :=
    if (x <? lo)%nat then waves u v x else if (hi <? x)%nat then waves t s x else A x.

  Lemma extend_rec A u v t s : (forall x, (lo < x < hi)%nat -> balanced co w eps sig A x) ->
    (forall x, (lo <= x <= a)%nat -> A x = waves u v x) -> (forall x, (b <= x <= hi)%nat -> A x = waves t s x) ->
    rec co w eps sig (extend A u v t s)
    /\ (forall x, (x <= a)%nat -> extend A u v t s x = waves u v x) /\ (forall x, (b <= x)%nat -> extend A u v t s x = waves t s x).
  Proof.
    intros Ba L Rt.
    assert (L' : forall x, (x <= a)%nat -> extend A u v t s x = waves u v x).
    { intros x Hx. unfold extend. destruct (Nat.ltb_spec x lo); [reflexivity|]. destruct (Nat.ltb_spec hi x); [lia|]. apply L. lia. }
    assert (R' : forall x, (b <= x)%nat -> extend A u v t s x = waves t s x).
    { intros x Hx. unfold extend. destruct (Nat.ltb_spec x lo); [lia|]. destruct (Nat.ltb_spec hi x); [reflexivity|]. apply Rt. lia. }
    split; [|split; assumption].
    intros x Hx. destruct (Nat.lt_ge_cases x a) as [V|V]; [|destruct (Nat.lt_ge_cases b x) as [V2|V2]].
    - rewrite !L' by lia. destruct (M x) as (_ & _ & Q). destruct (Q ltac:(lia)) as [Q1 Q2]. rewrite (q_vacuum co w k eps sig Co D x Q1 Q2). apply waves_rec. lia.
    - rewrite !R' by lia. destruct (M x) as (_ & _ & Q). destruct (Q ltac:(lia)) as [Q1 Q2]. rewrite (q_vacuum co w k eps sig Co D x Q1 Q2). apply waves_rec. lia.
    - assert (E : forall y, (x - 1 <= y <= S x)%nat -> extend A u v t s y = A y).
      { intros y Hy. unfold extend. destruct (Nat.ltb_spec y lo); [lia|]. destruct (Nat.ltb_spec hi y); [lia|]. reflexivity. }
      rewrite !E by lia. apply (Ba x). lia.
  Qed.

  Lemma rec_balance A u v t s : rec co w eps sig A -> (forall x, (x <= a)%nat -> A x = waves u v x) -> (forall x, (b <= x)%nat -> A x = waves t s x) ->
    Cnorm2 u + Cnorm2 s = Cnorm2 v + Cnorm2 t + Rsum (map (taken co w k eps sig A) (seq a (b + 1 - a))).
  Proof.
    intros Hr L Rt. pose proof (sink k K) as SK.
    assert (F0 : flux A (a - 1) = sin k * (Cnorm2 u - Cnorm2 v)) by (apply flux_waves; apply L; lia).
    assert (F1 : flux A b = sin k * (Cnorm2 t - Cnorm2 s)) by (apply flux_waves; apply Rt; lia).
    pose proof (flux_sum co w eps sig a b Co ltac:(lia) A (a - 1) (b + 1 - a) Hr) as T. replace (a - 1 + (b + 1 - a))%nat with b in T by lia. replace (S (a - 1)) with a in T by lia.
    rewrite F0, F1 in T.
    assert (Sm : forall l, Rsum (map (fun x => 2 * sin w * eps x * sig x * Cnorm2 (A x) / co ^ 2) l) = sin k * Rsum (map (taken co w k eps sig A) l)).
    { induction l as [|x l IH]; [cbn; ring|]. cbn [map]. change (Rsum (?y :: ?z)) with (y + Rsum z). rewrite IH. unfold taken. field. split; [lra|]. lra. }
    rewrite Sm in T. apply Rmult_eq_reg_l with (sin k); lra.
  Qed.

  Lemma taken_nonneg A l : 0 <= Rsum (map (taken co w k eps sig A) l).
  Proof.
    induction l as [|x l IH]; [cbn; lra|]. cbn [map]. change (Rsum (?y :: ?z)) with (y + Rsum z). destruct (M x) as (Ex & Sx & _). pose proof (Cnorm2_nonneg (A x)) as Nx.
    assert (SW : 0 < sin w) by (apply sin_gt_0; lra). assert (C2 : 0 < co ^ 2) by (apply pow_lt; lra). pose proof (sink k K) as SK.
    assert (0 <= taken co w k eps sig A x).
    { unfold taken. apply Rmult_le_pos; [|left; apply Rinv_0_lt_compat, Rmult_lt_0_compat; lra]. repeat (apply Rmult_le_pos; try lra). }
    lra.
  Qed.

  Lemma settled A : (forall x, (lo < x < hi)%nat -> balanced co w eps sig A x) ->
    exists u v t s, (forall x, (lo <= x <= a)%nat -> A x = waves u v x) /\ (forall x, (b <= x <= hi)%nat -> A x = waves t s x)
    /\ Cnorm2 u + Cnorm2 s = Cnorm2 v + Cnorm2 t + Rsum (map (taken co w k eps sig A) (seq a (b + 1 - a))).
  Proof.
    intros Ba. destruct (vacuum_waves A lo (a - lo - 1)) as (u & v & L).
    { intros x Hx. destruct (M x) as (_ & _ & Q). destruct (Q ltac:(lia)) as [Q1 Q2]. rewrite <- (q_vacuum co w k eps sig Co D x Q1 Q2). apply (Ba x). lia. }
    destruct (vacuum_waves A b (hi - b - 1)) as (t & s & Rt).
    { intros x Hx. destruct (M x) as (_ & _ & Q). destruct (Q ltac:(lia)) as [Q1 Q2]. rewrite <- (q_vacuum co w k eps sig Co D x Q1 Q2). apply (Ba x). lia. }
    replace (lo + S (a - lo - 1))%nat with a in L by lia. replace (b + S (hi - b - 1))%nat with hi in Rt by lia.
    exists u, v, t, s. split; [exact L|]. split; [exact Rt|].
    destruct (extend_rec A u v t s Ba L Rt) as (Hr & L' & R'). rewrite (rec_balance _ u v t s Hr L' R'). f_equal. f_equal. apply map_ext_in. intros x Hx.
    apply in_seq in Hx. unfold taken. replace (extend A u v t s x) with (A x); [reflexivity|]. unfold extend.
    destruct (Nat.ltb_spec x lo); [lia|]. destruct (Nat.ltb_spec hi x); [lia|]. reflexivity.
  Qed.

  Lemma Cnorm2_0 z : Cnorm2 z = 0 -> z = C0.
  Proof. destruct z as [x y]. unfold Cnorm2. cbn. intros H. apply Ceq; cbn; nra. Qed.

  (** the part of the incident wave that comes back is always the same *)
  Lemma settled_ratio A B u v t r t' : (forall x, (lo < x < hi)%nat -> balanced co w eps sig A x) ->
    (forall x, (lo <= x <= a)%nat -> A x = waves u v x) -> (forall x, (b <= x <= hi)%nat -> A x = waves t C0 x) ->
    scattered co w k eps sig a b B r t' -> v = (u * r)%C /\ t = (u * t')%C.
  Proof.
    intros Ba L Rt (SB & SL & SR). destruct (extend_rec A u v t C0 Ba L Rt) as (Hr & L' & R').
    assert (SB' : rec co w eps sig B) by (intros x Hx; apply (SB x Hx)).
    assert (BL : forall x, (x <= a)%nat -> B x = waves C1 r x).
    { assert (B0 : forall x, (x < a)%nat -> B x = waves C1 r x) by (intros x Hx; rewrite (SL x Hx); unfold Spec_Harmonic.waves; ring).
      intros x Hx. destruct (Nat.eq_dec x a) as [->|]; [|apply B0; lia].
      pose proof (SB' (a - 1)%nat ltac:(lia)) as R1. destruct (M (a - 1)%nat) as (_ & _ & Q). destruct (Q ltac:(lia)) as [Q1 Q2].
      rewrite (q_vacuum co w k eps sig Co D _ Q1 Q2) in R1. pose proof (waves_rec C1 r (a - 1) ltac:(lia)) as R2. replace (S (a - 1)) with a in * by lia.
      replace (B a) with (B a + B (a - 1 - 1)%nat - B (a - 1 - 1)%nat)%C by ring. rewrite R1, !B0 by lia. rewrite <- R2. ring. }
    assert (BR : forall x, (b <= x)%nat -> B x = waves t' C0 x).
    { assert (B0 : forall x, (b < x)%nat -> B x = waves t' C0 x) by (intros x Hx; rewrite (SR x Hx); unfold Spec_Harmonic.waves; ring).
      intros x Hx. destruct (Nat.eq_dec x b) as [->|]; [|apply B0; lia].
      pose proof (SB' (b + 1)%nat ltac:(lia)) as R1. destruct (M (b + 1)%nat) as (_ & _ & Q). destruct (Q ltac:(lia)) as [Q1 Q2].
      rewrite (q_vacuum co w k eps sig Co D _ Q1 Q2) in R1. pose proof (waves_rec t' C0 (b + 1) ltac:(lia)) as R2. replace (b + 1 - 1)%nat with b in * by lia.
      replace (B b) with (B (S (b + 1)) + B b - B (S (b + 1)))%C by ring. rewrite R1, !B0 by lia. rewrite <- R2. ring. }
    set (G := fun x => (extend A u v t C0 x - u * B x)%C).
    assert (GR : rec co w eps sig G).
    { intros x Hx. unfold G. specialize (Hr x Hx). specialize (SB' x Hx).
      transitivity ((extend A u v t C0 (S x) + extend A u v t C0 (x - 1)) - u * (B (S x) + B (x - 1)%nat))%C; [ring|]. rewrite Hr, SB'. ring. }
    pose proof (rec_balance G C0 (v - u * r)%C (t - u * t')%C C0 GR) as P.
    assert (E : Cnorm2 C0 = 0) by (unfold Cnorm2; cbn; ring). rewrite E in P.
    pose proof (taken_nonneg G (seq a (b + 1 - a))) as T. pose proof (Cnorm2_nonneg (v - u * r)%C) as N1. pose proof (Cnorm2_nonneg (t - u * t')%C) as N2.
    assert (P' : 0 + 0 = Cnorm2 (v - u * r)%C + Cnorm2 (t - u * t')%C + Rsum (map (taken co w k eps sig G) (seq a (b + 1 - a)))).
    { apply P.
      - intros x Hx. unfold G. rewrite (L' x Hx), (BL x Hx). unfold Spec_Harmonic.waves. ring.
      - intros x Hx. unfold G. rewrite (R' x Hx), (BR x Hx). unfold Spec_Harmonic.waves. ring. }
    split; apply (proj1 (Csub_eq0 _ _)), Cnorm2_0; lra.
  Qed.
End Settled.

Lemma power_balance eps sig w k A g g1 g2 lo hi n a b : free_columns g eps sig lo hi -> 0 < g_courant g -> (0 < g_N g AY)%nat -> (0 < g_N g AZ)%nat ->
  0 < k < PI -> 0 < w < PI -> sin (w / 2) = g_courant g * sin (k / 2) ->
  stands_between eps sig a b -> (lo + 2 <= a <= b)%nat -> (b + 2 <= hi)%nat ->
  step g = Ok g1 -> step g1 = Ok g2 -> oscillates w A g n lo hi -> oscillates w A g1 (S n) lo hi -> oscillates w A g2 (S (S n)) lo hi ->
  exists u v t s, (forall x, (lo <= x <= a)%nat -> A x = waves k u v x) /\ (forall x, (b <= x <= hi)%nat -> A x = waves k t s x)
    /\ Cnorm2 u + Cnorm2 s = Cnorm2 v + Cnorm2 t + Rsum (map (taken (g_courant g) w k eps sig A) (seq a (b + 1 - a)))
    /\ (s = C0 -> forall B r t', scattered (g_courant g) w k eps sig a b B r t' -> v = (u * r)%C /\ t = (u * t')%C).
Proof.
  intros F Co NY NZ K W D M L H S1 S2 O0 O1 O2.
  assert (Ba : forall x, (lo < x < hi)%nat -> balanced (g_courant g) w eps sig A x).
  { apply (steady eps sig w A g g1 g2 lo hi n F); try assumption.
    - assert (0 < sin w) by (apply sin_gt_0; lra). lra.
    - intros x _. destruct (M x) as (? & ? & _). auto. }
  destruct (settled (g_courant g) w k eps sig a b lo hi) with (A := A) as (u & v & t & s & L1 & R1 & B1); try assumption; try lia.
  exists u, v, t, s. split; [exact L1|]. split; [exact R1|]. split; [exact B1|]. intros -> B r t' Sc.
  apply (settled_ratio (g_courant g) w k eps sig a b lo hi) with (A := A) (B := B); try assumption; lia.
Qed.

Lemma scattered_bounds co w k eps sig a b A r t : 0 < co -> 0 < k < PI -> 0 < w < PI ->
  stands_between eps sig a b -> (2 <= a <= b)%nat -> scattered co w k eps sig a b A r t ->
  Cnorm2 r + Cnorm2 t <= 1 /\ ((forall x, sig x = 0) -> Cnorm2 r + Cnorm2 t = 1).
Proof.
  intros Co K W M L S. pose proof (scattered_balance co w k eps sig a b Co K M L A r t S) as B.
  split.
  - pose proof (taken_nonneg co w k eps sig a b Co K W M A (seq a (b + 1 - a))). lra.
  - intros Z. rewrite <- B. enough (Rsum (map (taken co w k eps sig A) (seq a (b + 1 - a))) = 0) by lra.
    generalize (seq a (b + 1 - a)). induction l as [|x l IH]; [reflexivity|]. cbn [map]. change (Rsum (?y :: ?z)) with (y + Rsum z). rewrite IH. unfold taken. rewrite Z. unfold Rdiv. ring.
Qed.
