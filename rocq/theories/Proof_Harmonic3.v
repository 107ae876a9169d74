From Coq Require Import Reals ZArith List Bool Lra Lia Psatz.
From Verif Require Import Base BaseLemmas Cplx CplxLemmas Model_FDTD Spec_FDTD Spec_Harmonic.
Import ListNotations.
Open Scope R_scope.

Lemma RtoC_2 : RtoC 2 = (C1 + C1)%C.
Proof. apply Ceq; cbn; ring. Qed.

Section Stack.
  Variables (co w k : R) (eps sig : nat -> R) (a b : nat).
  Hypothesis Co : 0 < co.
  Hypothesis K : 0 < k < PI.
  Hypothesis W : 0 < w < PI.
  Hypothesis D : sin (w / 2) = co * sin (k / 2).
  Hypothesis M : stands_between eps sig a b.
  Hypothesis AB : (2 <= a <= b)%nat.

  Definition q (x : nat) : C := (RtoC 2 - RtoC (4 * sin (w / 2) * eps x / co ^ 2) * (sin (w / 2), (sig x * cos (w / 2))%R))%C.
  Definition rec (A : nat -> C) : Prop := forall x, (1 <= x)%nat -> (A (S x) + A (x - 1)%nat)%C = (q x * A x)%C.

  Lemma sink : 0 < sin k. Proof. apply sin_gt_0; lra. Qed.
  Lemma q_vacuum x : eps x = 1 -> sig x = 0 -> q x = RtoC (2 * cos k).
  Proof.
    intros E S. unfold q. rewrite E, S, D. replace k with (2 * (k / 2)) at 3 by field. rewrite cos_2a_sin. apply Ceq; cbn; field; lra.
  Qed.
  Lemma cis_rec x : (1 <= x)%nat -> (Cis (k * INR (S x)) + Cis (k * INR (x - 1)))%C = (RtoC (2 * cos k) * Cis (k * INR x))%C.
  Proof.
    intros H. rewrite S_INR, minus_INR by exact H. cbn [INR].
    replace (k * (INR x + 1)) with (k * INR x + k) by ring. replace (k * (INR x - 1)) with (k * INR x + - k) by ring. rewrite !Cis_add.
    apply Ceq; cbn; rewrite ?cos_neg, ?sin_neg; ring.
  Qed.
  Lemma cis_rec' x : (1 <= x)%nat -> (Cis (- (k * INR (S x))) + Cis (- (k * INR (x - 1))))%C = (RtoC (2 * cos k) * Cis (- (k * INR x)))%C.
  Proof.
    intros H. rewrite S_INR, minus_INR by exact H. cbn [INR].
    replace (- (k * (INR x + 1))) with (- (k * INR x) + - k) by ring. replace (- (k * (INR x - 1))) with (- (k * INR x) + k) by ring. rewrite !Cis_add.
    apply Ceq; cbn; rewrite ?cos_neg, ?sin_neg; ring.
  Qed.

  (** *** Flux *)
  Definition flux (A : nat -> C) (x : nat) : R := Im (Cconj (A x) * A (S x))%C.
  Lemma flux_step A x : rec A -> (1 <= x)%nat ->
    flux A x = flux A (x - 1) - 2 * sin w * eps x * sig x * Cnorm2 (A x) / co ^ 2.
  Proof.
    intros Hr Hx. specialize (Hr x Hx). unfold flux. replace (S (x - 1)) with x by lia.
    replace (A (S x)) with (q x * A x - A (x - 1)%nat)%C by (rewrite <- Hr; ring).
    unfold q, Cnorm2. replace w with (2 * (w / 2)) at 4 by field. rewrite sin_2a. destruct (A x), (A (x - 1)%nat). cbn. field. lra.
  Qed.
  Lemma flux_sum A m j : rec A ->
    flux A (m + j) = flux A m - Rsum (map (fun x => 2 * sin w * eps x * sig x * Cnorm2 (A x) / co ^ 2) (seq (S m) j)).
  Proof.
    intros Hr. induction j as [|j IH]; [rewrite Nat.add_0_r; cbn; ring|].
    replace (m + S j)%nat with (S (m + j)) by lia. rewrite flux_step by (try assumption; lia).
    replace (S (m + j) - 1)%nat with (m + j)%nat by lia. rewrite IH, seq_S, map_app, Rsum_app. cbn [map Rsum fold_right Nat.add]. unfold Rsum; cbn. ring.
  Qed.
  Lemma flux_waves A x u v : A x = (u * Cis (k * INR x) + v * Cis (- (k * INR x)))%C ->
    A (S x) = (u * Cis (k * INR (S x)) + v * Cis (- (k * INR (S x))))%C -> flux A x = sin k * (Cnorm2 u - Cnorm2 v).
  Proof.
    intros E1 E2. unfold flux. rewrite E1, E2, S_INR. replace (k * (INR x + 1)) with (k * INR x + k) by ring.
    replace (- (k * INR x + k)) with (- (k * INR x) + - k) by ring. rewrite !Cis_add. unfold Cis, Cnorm2. rewrite !cos_neg, !sin_neg.
    pose proof (sin2_cos2 (k * INR x)) as Q. unfold Rsqr in Q. set (sx := sin (k * INR x)) in *. set (cx := cos (k * INR x)) in *.
    destruct u as [u1 u2], v as [v1 v2]. cbn. set (sk := sin k). set (ck := cos k).
    transitivity (sk * (u1 * u1 + u2 * u2 - (v1 * v1 + v2 * v2)) * (sx * sx + cx * cx)); [ring|]. rewrite Q. ring.
  Qed.

  Lemma two_waves u v : (u + v)%C = C0 -> (u * Cis k + v * Cis (- k))%C = C0 -> u = C0 /\ v = C0.
  Proof.
    intros E1 E2. assert (V : v = (- u)%C) by (replace v with ((u + v) - u)%C by ring; rewrite E1; ring). subst v.
    pose proof sink as SK. assert (U : u = C0).
    { replace (u * Cis k + - u * Cis (- k))%C with (u * (Cis k - Cis (- k)))%C in E2 by ring.
      assert (N : (Cis k - Cis (- k))%C <> C0).
      { unfold Cis. rewrite cos_neg, sin_neg. intros H. injection H as _ H. lra. }
      destruct u as [u1 u2]. destruct (Req_dec u1 0) as [->|N1]; [destruct (Req_dec u2 0) as [->|N2]; [reflexivity|]|];
        exfalso; (apply (Cmul_neq_0 _ _) in E2; [exact E2| |exact N]); intros H; injection H; lra. }
    split; [exact U|]. rewrite U. ring.
  Qed.

  (** a solution without outgoing wave vanishes *)
  Lemma zero_back A m : rec A -> (forall x, (m < x)%nat -> A x = C0) -> forall x, A x = C0.
  Proof.
    intros Hr Z. assert (P : forall j x, (m < x + j)%nat -> A x = C0).
    { induction j as [|j IH]; intros x H; [apply Z; lia|]. specialize (Hr (S x) ltac:(lia)). replace (S x - 1)%nat with x in Hr by lia.
      rewrite (IH (S x)), (IH (S (S x))) in Hr by lia. replace (A x) with (C0 + A x)%C by ring. rewrite Hr. ring. }
    intros x. apply (P (S m) x). lia.
  Qed.

  Lemma scattered_rec A r t : scattered co w k eps sig a b A r t -> rec A.
  Proof. intros (B & _ & _) x Hx. apply (B x Hx). Qed.

  Lemma left_zero A r t : scattered co w k eps sig a b A r t -> (forall x, A x = C0) -> False.
  Proof.
    intros (_ & L & _) Z. pose proof (L 0%nat ltac:(lia)) as L0. pose proof (L 1%nat ltac:(lia)) as L1. rewrite Z in L0, L1. cbn [INR] in L0, L1.
    rewrite Rmult_0_r, Ropp_0, Cis_0 in L0. rewrite Rmult_1_r in L1. destruct (two_waves C1 r) as [E _].
    - rewrite L0. ring.
    - rewrite L1. ring.
    - exact (C1_neq_C0 E).
  Qed.

  Lemma scattered_balance A r t : scattered co w k eps sig a b A r t ->
    Cnorm2 r + Cnorm2 t + Rsum (map (taken co w k eps sig A) (seq a (b + 1 - a))) = 1.
  Proof.
    intros S. pose proof (scattered_rec A r t S) as Hr. destruct S as (_ & L & Rt). pose proof sink as SK.
    assert (F0 : flux A (a - 2) = sin k * (Cnorm2 C1 - Cnorm2 r)).
    { apply flux_waves; (rewrite L by lia; ring). }
    assert (F1 : flux A (b + 1) = sin k * (Cnorm2 t - Cnorm2 C0)).
    { apply flux_waves; (rewrite Rt by lia; ring). }
    assert (V : forall x, (1 <= x)%nat -> ((x < a)%nat \/ (b < x)%nat) -> flux A x = flux A (x - 1)).
    { intros x Hx H. rewrite flux_step by assumption. destruct (M x) as (_ & _ & Vx). rewrite (proj2 (Vx H)). field. lra. }
    pose proof (V (a - 1)%nat ltac:(lia) ltac:(lia)) as G0. replace (a - 1 - 1)%nat with (a - 2)%nat in G0 by lia.
    pose proof (V (b + 1)%nat ltac:(lia) ltac:(lia)) as G1. replace (b + 1 - 1)%nat with b in G1 by lia.
    pose proof (flux_sum A (a - 1) (b + 1 - a) Hr) as T. replace (a - 1 + (b + 1 - a))%nat with b in T by lia. replace (S (a - 1)) with a in T by lia.
    assert (TT : Rsum (map (taken co w k eps sig A) (seq a (b + 1 - a)))
      = Rsum (map (fun x => 2 * sin w * eps x * sig x * Cnorm2 (A x) / co ^ 2) (seq a (b + 1 - a))) / sin k).
    { generalize (seq a (b + 1 - a)) as l. induction l as [|x l IH]; [cbn; field; lra|].
      change (Rsum (map ?f (x :: l))) with (f x + Rsum (map f l)). change (Rsum (map ?f (x :: l))) with (f x + Rsum (map f l)). rewrite IH. unfold taken. field. lra. }
    rewrite TT. assert (X : Rsum (map (fun x => 2 * sin w * eps x * sig x * Cnorm2 (A x) / co ^ 2) (seq a (b + 1 - a))) = sin k * (1 - Cnorm2 r - Cnorm2 t)).
    { assert (N1 : Cnorm2 C1 = 1) by (unfold Cnorm2; cbn; ring). assert (N0 : Cnorm2 C0 = 0) by (unfold Cnorm2; cbn; ring). rewrite N1 in F0. rewrite N0 in F1. lra. }
    rewrite X. field. lra.
  Qed.

  Lemma scattered_unique A1 r1 t1 A2 r2 t2 : scattered co w k eps sig a b A1 r1 t1 -> scattered co w k eps sig a b A2 r2 t2 ->
    r1 = r2 /\ t1 = t2 /\ forall x, A1 x = A2 x.
  Proof.
    intros S1 S2. pose proof (scattered_rec _ _ _ S1) as H1. pose proof (scattered_rec _ _ _ S2) as H2.
    assert (T1 : t1 <> C0).
    { intros ->. apply (left_zero A1 r1 C0 S1). apply (zero_back A1 b H1). intros x Hx. destruct S1 as (_ & _ & R1). rewrite (R1 x Hx). ring. }
    assert (Z : forall x, (A1 x * t2 - A2 x * t1)%C = C0).
    { apply (zero_back (fun x => A1 x * t2 - A2 x * t1)%C b).
      - intros x Hx. specialize (H1 x Hx). specialize (H2 x Hx).
        replace (A1 (S x) * t2 - A2 (S x) * t1 + (A1 (x - 1)%nat * t2 - A2 (x - 1)%nat * t1))%C with ((A1 (S x) + A1 (x - 1)%nat) * t2 - (A2 (S x) + A2 (x - 1)%nat) * t1)%C by ring.
        rewrite H1, H2. ring.
      - intros x Hx. destruct S1 as (_ & _ & R1), S2 as (_ & _ & R2). rewrite (R1 x Hx), (R2 x Hx). ring. }
    destruct S1 as (_ & L1 & _), S2 as (_ & L2 & _).
    destruct (two_waves (t2 - t1) (r1 * t2 - r2 * t1)) as [E1 E2].
    - rewrite <- (Z 0%nat), L1, L2 by lia. cbn [INR]. rewrite Rmult_0_r, Ropp_0, Cis_0. ring.
    - rewrite <- (Z 1%nat), L1, L2 by lia. cbn [INR]. rewrite Rmult_1_r. ring.
    - apply (proj1 (Csub_eq0 _ _)) in E1. subst t2. assert (r1 = r2).
      { apply (proj1 (Csub_eq0 _ _)). apply (proj1 (Csub_eq0 _ _)) in E2. replace (r1 - r2)%C with ((r1 * t1 - r2 * t1) / t1)%C by (field; exact T1). rewrite E2. field. exact T1. }
      split; [assumption|]. split; [reflexivity|]. intros x. specialize (Z x). apply (proj1 (Csub_eq0 _ _)). replace (A1 x - A2 x)%C with ((A1 x * t1 - A2 x * t1) / t1)%C by (field; exact T1). rewrite Z. field. exact T1.
  Qed.

  (** *** The solution *)
  Definition last := (b + 1)%nat.
  Fixpoint back (j : nat) : C * C :=
    match j with
    | O => (Cis (k * INR last), Cis (k * INR (S last)))
    | S i => let p := back i in (q (last - i) * fst p - snd p, fst p)%C
    end.
  Definition back_wave (x : nat) : C := if (x <=? last)%nat then fst (back (last - x)) else Cis (k * INR x).

  Lemma back_right x : (b < x)%nat -> back_wave x = Cis (k * INR x).
  Proof.
    intros H. unfold back_wave. destruct (Nat.leb_spec x last) as [L|L]; [|reflexivity]. unfold last in *. replace x with (b + 1)%nat by lia. rewrite Nat.sub_diag. reflexivity.
  Qed.
  Lemma back_rec : rec back_wave.
  Proof.
    intros x Hx. destruct (Nat.leb_spec x b) as [L|L].
    - unfold back_wave. unfold last in *. destruct (Nat.leb_spec (S x) (b + 1)) as [_|?]; [|lia]. destruct (Nat.leb_spec (x - 1) (b + 1)) as [_|?]; [|lia].
      destruct (Nat.leb_spec x (b + 1)) as [_|?]; [|lia]. replace (b + 1 - (x - 1))%nat with (S (b + 1 - x)) by lia. cbn [back fst snd]. fold last.
      unfold last. replace (b + 1 - (b + 1 - x))%nat with x by lia. replace (b + 1 - x)%nat with (S (b + 1 - S x)) by lia. cbn [back fst snd]. ring.
    - rewrite (back_right (S x)), (back_right x) by lia. destruct (M x) as (_ & _ & V). destruct (V ltac:(lia)) as [V1 V2]. rewrite (q_vacuum x V1 V2).
      destruct (Nat.eqb_spec x (b + 1)) as [->|Ne].
      + unfold back_wave, last. destruct (Nat.leb_spec (b + 1 - 1) (b + 1)) as [_|?]; [|lia]. replace (b + 1 - (b + 1 - 1))%nat with 1%nat by lia. cbn [back fst snd].
        unfold last. rewrite Nat.sub_0_r. rewrite (q_vacuum (b + 1) V1 V2). ring.
      + rewrite (back_right (x - 1)) by lia. apply cis_rec. lia.
  Qed.

  Lemma scattered_exists : exists A r t, scattered co w k eps sig a b A r t.
  Proof.
    pose proof sink as SK. set (A := back_wave). pose proof back_rec as Hr. fold A in Hr.
    set (d := (Cis k - Cis (- k))%C). assert (Dn : d <> C0).
    { unfold d, Cis. rewrite cos_neg, sin_neg. intros H. injection H as _ H. lra. }
    set (u := ((A 1%nat - Cis (- k) * A 0%nat) / d)%C). set (v := ((Cis k * A 0%nat - A 1%nat) / d)%C).
    assert (L : forall x, (S x < a)%nat -> A x = (u * Cis (k * INR x) + v * Cis (- (k * INR x)))%C /\ A (S x) = (u * Cis (k * INR (S x)) + v * Cis (- (k * INR (S x))))%C).
    { induction x as [|x IH]; intros Hx.
      - cbn [INR]. rewrite Rmult_0_r, Ropp_0, Cis_0, Rmult_1_r. unfold u, v. split; unfold d in *; field; exact Dn.
      - destruct (IH ltac:(lia)) as [I1 I2]. split; [exact I2|].
        specialize (Hr (S x) ltac:(lia)). destruct (M (S x)) as (_ & _ & V). destruct (V ltac:(lia)) as [V1 V2]. rewrite (q_vacuum _ V1 V2) in Hr.
        replace (A (S (S x))) with (RtoC (2 * cos k) * A (S x) - A (S x - 1)%nat)%C by (rewrite <- Hr; ring).
        pose proof (cis_rec (S x) ltac:(lia)) as R1. pose proof (cis_rec' (S x) ltac:(lia)) as R2. replace (S x - 1)%nat with x in * by lia.
        rewrite I1, I2. replace (RtoC (2 * cos k) * (u * Cis (k * INR (S x)) + v * Cis (- (k * INR (S x)))))%C
          with (u * (RtoC (2 * cos k) * Cis (k * INR (S x))) + v * (RtoC (2 * cos k) * Cis (- (k * INR (S x)))))%C by ring.
        rewrite <- R1, <- R2. ring. }
    assert (F0 : flux A 0 = sin k * (Cnorm2 u - Cnorm2 v)) by (apply flux_waves; apply L; lia).
    assert (F1 : flux A (b + 1) = sin k * (Cnorm2 C1 - Cnorm2 C0)) by (apply flux_waves; unfold A; rewrite back_right by lia; ring).
    assert (N1 : Cnorm2 C1 = 1) by (unfold Cnorm2; cbn; ring). assert (N0 : Cnorm2 C0 = 0) by (unfold Cnorm2; cbn; ring). rewrite N1, N0 in F1.
    assert (Sp : 0 <= Rsum (map (fun x => 2 * sin w * eps x * sig x * Cnorm2 (A x) / co ^ 2) (seq 1 (b + 1)))).
    { assert (SW : 0 < sin w) by (apply sin_gt_0; lra). assert (C2 : 0 < co ^ 2) by (apply pow_lt; lra).
      generalize (seq 1 (b + 1)) as l. induction l as [|x l IH]; [cbn; lra|]. change (Rsum (map ?f (x :: l))) with (f x + Rsum (map f l)).
      destruct (M x) as (Ex & Sx & _). pose proof (Cnorm2_nonneg (A x)) as Nx.
      assert (0 <= 2 * sin w * eps x * sig x * Cnorm2 (A x) / co ^ 2).
      { apply Rmult_le_pos; [|left; apply Rinv_0_lt_compat, C2]. repeat (apply Rmult_le_pos; try lra). }
      lra. }
    pose proof (flux_sum A 0 (b + 1) Hr) as T. cbn [Nat.add] in T.
    assert (U : u <> C0).
    { intros Hu. rewrite Hu, N0 in F0. pose proof (Cnorm2_nonneg v) as Nv. assert (0 <= sin k * Cnorm2 v) by (apply Rmult_le_pos; lra). lra. }
    exists (fun x => A x / u)%C, (v / u)%C, (C1 / u)%C. split; [|split].
    - intros x Hx. specialize (Hr x Hx). unfold balanced. fold (q x). replace (A (S x) / u + A (x - 1)%nat / u)%C with ((A (S x) + A (x - 1)%nat) / u)%C by (field; exact U).
      rewrite Hr. field. exact U.
    - intros x Hx. assert (E : A x = (u * Cis (k * INR x) + v * Cis (- (k * INR x)))%C).
      { destruct x as [|x]; [apply L; lia|]. apply (L x). lia. }
      rewrite E. field. exact U.
    - intros x Hx. unfold A. rewrite back_right by exact Hx. field. exact U.
  Qed.
End Stack.
