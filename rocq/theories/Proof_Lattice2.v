(** The disc of the truncation radius holds at least as many orders as requested. *)
From Coq Require Import Reals ZArith String List Bool Lra Lia Psatz Sorted Permutation Ratan.
From Verif Require Import Base BaseLemmas Cplx Model_Lattice Spec_Lattice Proof_Lattice.
Import ListNotations.
Open Scope R_scope.

Lemma NoDup_flat_map_key {A B} (key : B -> A) (f : A -> list B) l :
  NoDup l -> (forall x, In x l -> NoDup (f x)) ->
  (forall x y, In x l -> In y (f x) -> key y = x) -> NoDup (flat_map f l).
Proof.
  induction l as [|a l IH]; cbn [flat_map]; intros Hl Hf Hk; [constructor|].
  inversion Hl; subst.
  assert (N1 : NoDup (f a)) by (apply Hf; left; auto).
  assert (N2 : NoDup (flat_map f l)).
  { apply IH; auto. - intros; apply Hf; right; auto. - intros; apply Hk; [right|]; auto. }
  assert (Hd : forall y, In y (f a) -> ~ In y (flat_map f l)).
  { intros y Hy Hin. apply in_flat_map in Hin as (x & Hx & Hyx).
    assert (key y = a) by (apply Hk; [left|]; auto).
    assert (key y = x) by (apply Hk; [right|]; auto). subst. contradiction. }
  clear - N1 N2 Hd. induction (f a) as [|b m IHm]; cbn; auto.
  inversion N1; subst. constructor.
  - rewrite in_app_iff. intros [|]; [contradiction|]. eapply Hd; [left; reflexivity|]; auto.
  - apply IHm; auto. intros; apply Hd; right; auto.
Qed.

Section Count.
Variables (lk1 lk2 : vec2) (r : R).
Hypothesis ind : vcross lk1 lk2 <> 0.
Hypothesis r_pos : 0 < r.
Let u := vnorm lk1.
Let v := vnorm lk2.
Let A := Rabs (vcross lk1 lk2).
Let h := A / u.

Let up : 0 < u.
Proof. exact (proj1 (vnorm_pos_cross _ _ ind)). Qed.
Let vp : 0 < v.
Proof. exact (proj2 (vnorm_pos_cross _ _ ind)). Qed.
Let Ap : 0 < A.
Proof. apply Rabs_pos_lt, ind. Qed.
Let hp : 0 < h.
Proof. apply Rdiv_lt_0_compat; [exact Ap|exact up]. Qed.

Definition rowt (j : Z) : R := if (0 <=? j)%Z then IZR j else IZR (j + 1).
Definition mid (t : R) : R := - t * vdot lk1 lk2 / (u * u).
Definition half (t : R) : R := sqrt (r * r - (t * h) * (t * h)) / u.
Definition row (j : Z) : list (Z * Z) :=
  let lo := Rfloor (mid (rowt j) - half (rowt j)) in
  let hi := Rfloor (mid (rowt j) + half (rowt j)) in
  map (fun i => (lo + Z.of_nat i, j)%Z) (seq 0 (Z.to_nat (hi - lo + 1))).

Lemma half_nonneg t : 0 <= half t.
Proof.
  unfold half. apply Rmult_le_pos; [apply sqrt_pos|]. left. apply Rinv_0_lt_compat, up.
Qed.

Lemma row_length j : 2 * half (rowt j) <= INR (length (row j)).
Proof.
  unfold row. rewrite map_length, seq_length.
  set (a := mid (rowt j) - half (rowt j)). set (b := mid (rowt j) + half (rowt j)).
  assert (Hab : a <= b) by (unfold a, b; pose proof (half_nonneg (rowt j)); lra).
  pose proof (Rfloor_le a b Hab) as Hz.
  rewrite INR_IZR_INZ, Z2Nat.id by lia. rewrite plus_IZR, minus_IZR.
  destruct (Rfloor_spec a), (Rfloor_spec b). unfold a, b in *. lra.
Qed.

Lemma row_nodup j : NoDup (row j).
Proof.
  unfold row. apply FinFun.Injective_map_NoDup; [|apply seq_NoDup].
  intros x y E. injection E as E. lia.
Qed.

Lemma row_key j g : In g (row j) -> snd g = j.
Proof. unfold row. rewrite in_map_iff. intros (i & <- & _). reflexivity. Qed.

(** a point of the plane in lattice coordinates *)
Definition at_ (s t : R) : vec2 := (s * fst lk1 + t * fst lk2, s * snd lk1 + t * snd lk2).

Lemma at_norm2 s t : vnorm (at_ s t) * vnorm (at_ s t) = u * u * ((s - mid t) * (s - mid t)) + (t * h) * (t * h).
Proof.
  rewrite vnorm_sq. unfold at_; cbn [fst snd].
  assert (HH : (t * h) * (t * h) = t * t * (vcross lk1 lk2 * vcross lk1 lk2) / (u * u)).
  { unfold h. assert (AA : A * A = vcross lk1 lk2 * vcross lk1 lk2).
    { unfold A. rewrite <- Rabs_mult. apply Rabs_pos_eq. nra. }
    rewrite <- AA. field. pose proof up; lra. }
  rewrite HH. unfold mid.
  pose proof (vnorm_sq lk1) as U. fold u in U.
  assert (U0 : u * u <> 0) by (pose proof up; nra).
  rewrite U in *. unfold vdot, vcross. field. exact U0.
Qed.

Lemma row_inside j g : Rabs (rowt j) * h <= r -> In g (row j) -> vnorm (recip lk1 lk2 g) <= r + u + v.
Proof.
  intros Hj Hg. pose proof (row_key _ _ Hg) as Hk.
  unfold row in Hg. apply in_map_iff in Hg as (i & <- & Hi). cbn [snd fst] in *.
  apply in_seq in Hi.
  set (t := rowt j) in *.
  set (a := mid t - half t) in *. set (b := mid t + half t) in *.
  assert (Hab : a <= b) by (unfold a, b; pose proof (half_nonneg t); lra).
  pose proof (Rfloor_le a b Hab) as Hz.
  set (i' := (Rfloor a + Z.of_nat i)%Z).
  assert (I1 : IZR i' <= b).
  { destruct (Rfloor_spec b). apply Rle_trans with (IZR (Rfloor b)); [|lra]. apply IZR_le. unfold i'; lia. }
  assert (I2 : a <= IZR i' + 1).
  { destruct (Rfloor_spec a). assert (IZR (Rfloor a) <= IZR i') by (apply IZR_le; unfold i'; lia). lra. }
  (* a point of the chord in the cell *)
  set (s := Rmax (IZR i') a).
  assert (S1 : a <= s <= b) by (unfold s; split; [apply Rmax_r|apply Rmax_lub; lra]).
  assert (S2 : 0 <= s - IZR i' <= 1).
  { unfold s. split; [pose proof (Rmax_l (IZR i') a); lra|].
    assert (Rmax (IZR i') a <= IZR i' + 1) by (apply Rmax_lub; lra). lra. }
  assert (T : Rabs (t - IZR j) <= 1).
  { unfold t, rowt. destruct (Z.leb_spec 0 j).
    - replace (IZR j - IZR j) with 0 by ring. rewrite Rabs_R0; lra.
    - rewrite plus_IZR. replace (IZR j + 1 - IZR j) with 1 by ring. rewrite Rabs_R1; lra. }
  assert (Hin : vnorm (at_ s t) <= r).
  { apply Rsqr_incr_0_var; [|lra]. unfold Rsqr. rewrite at_norm2.
    assert (Hth : (t * h) * (t * h) <= r * r).
    { assert (Rabs t * h * (Rabs t * h) <= r * r).
      { apply Rmult_le_compat; auto; apply Rmult_le_pos; try apply Rabs_pos; pose proof hp; lra. }
      replace (t * h * (t * h)) with (Rabs t * h * (Rabs t * h)); auto.
      replace (Rabs t * h * (Rabs t * h)) with (Rabs t * Rabs t * (h * h)) by ring.
      rewrite <- Rabs_mult, (Rabs_pos_eq (t * t)) by nra. ring. }
    assert (W : u * half t * (u * half t) = r * r - t * h * (t * h)).
    { unfold half. replace (u * (sqrt (r * r - t * h * (t * h)) / u)) with (sqrt (r * r - t * h * (t * h)))
        by (field; pose proof up; lra).
      apply sqrt_sqrt. lra. }
    assert (Q : (s - mid t) * (s - mid t) <= half t * half t) by (unfold a, b in S1; nra).
    pose proof up. nra. }
  replace (recip lk1 lk2 (i', j)) with (at_ (IZR i') (IZR j)) by (unfold at_, recip; cbn [fst snd]; reflexivity).
  apply Rle_trans with (vnorm (at_ s t) + vnorm (at_ (IZR i' - s) (IZR j - t))).
  { apply vnorm_triangle. unfold at_; cbn [fst snd]. f_equal; ring. }
  apply Rle_trans with (vnorm (at_ s t) + (vnorm ((IZR i' - s) * fst lk1, (IZR i' - s) * snd lk1)
                                           + vnorm ((IZR j - t) * fst lk2, (IZR j - t) * snd lk2))).
  { apply Rplus_le_compat_l. apply vnorm_triangle. unfold at_; cbn [fst snd]. reflexivity. }
  rewrite !vnorm_scale. fold u v.
  assert (Rabs (IZR i' - s) <= 1) by (rewrite Rabs_minus_sym, Rabs_pos_eq; lra).
  rewrite (Rabs_minus_sym (IZR j)).
  pose proof up. pose proof vp. nra.
Qed.

Definition the_rows (J : nat) : list Z :=
  flat_map (fun m => [Z.of_nat m; (- Z.of_nat m - 1)%Z]) (seq 0 J).

Lemma rows_nodup J : NoDup (the_rows J).
Proof.
  unfold the_rows.
  apply (NoDup_flat_map_key (fun z => Z.to_nat (if (0 <=? z)%Z then z else - z - 1))).
  - apply seq_NoDup.
  - intros x _. repeat constructor; cbn; intuition lia.
  - intros x y _ [<-|[<-|[]]].
    + destruct (Z.leb_spec 0 (Z.of_nat x)); lia.
    + destruct (Z.leb_spec 0 (- Z.of_nat x - 1)); lia.
Qed.

Lemma rowt_pair m : rowt (Z.of_nat m) = INR m /\ rowt (- Z.of_nat m - 1) = - INR m.
Proof.
  unfold rowt. split.
  - destruct (Z.leb_spec 0 (Z.of_nat m)); [|lia]. rewrite INR_IZR_INZ. reflexivity.
  - destruct (Z.leb_spec 0 (- Z.of_nat m - 1)); [lia|].
    rewrite INR_IZR_INZ, <- opp_IZR. f_equal. lia.
Qed.

Lemma half_neg t : half (- t) = half t.
Proof. unfold half. do 3 f_equal. ring. Qed.

Lemma rows_length J :
  rsum_to (fun m => 4 * half (INR m)) J <= INR (length (flat_map row (the_rows J))).
Proof.
  induction J as [|J IH].
  - cbn. lra.
  - unfold the_rows in *. rewrite seq_S, flat_map_app, flat_map_app, app_length, plus_INR.
    cbn [rsum_to]. apply Rplus_le_compat; auto.
    cbn [flat_map plus app]. rewrite !app_length, !plus_INR. cbn [length INR].
    pose proof (row_length (Z.of_nat J)) as H1. pose proof (row_length (- Z.of_nat J - 1)) as H2.
    destruct (rowt_pair J) as [E1 E2]. rewrite E1 in H1. rewrite E2, half_neg in H2. lra.
Qed.

Lemma rsum_scale f g k J : (forall m, (m < J)%nat -> f m = k * g m) -> rsum_to f J = k * rsum_to g J.
Proof.
  induction J as [|J IH]; intros H; cbn [rsum_to]; [ring|].
  rewrite IH by (intros; apply H; lia). rewrite (H J) by lia. ring.
Qed.

(** distinct orders in the disc of radius r + u + v number at least pi r^2 / A *)
Lemma disc_count : exists pts : list (Z * Z),
  NoDup pts /\ (forall g, In g pts -> vnorm (recip lk1 lk2 g) <= r + u + v)
  /\ PI * (r * r) / A <= INR (length pts).
Proof.
  set (J := Z.to_nat (Rfloor (r / h))).
  assert (Hrh : 0 <= r / h) by (apply Rlt_le, Rdiv_lt_0_compat; [exact r_pos|exact hp]).
  assert (JZ : INR J = IZR (Rfloor (r / h))).
  { unfold J. rewrite INR_IZR_INZ, Z2Nat.id; auto. apply Rfloor_nonneg; auto. }
  destruct (Rfloor_spec (r / h)) as [F1 F2].
  assert (E : r = r / h * h) by (field; pose proof hp; lra).
  assert (J1 : INR J * h <= r) by (rewrite JZ; pose proof hp; nra).
  assert (J2 : r < INR (S J) * h) by (rewrite S_INR, JZ; pose proof hp; nra).
  exists (flat_map row (the_rows (S J))). split; [|split].
  - apply (NoDup_flat_map_key snd); [apply rows_nodup|intros; apply row_nodup|].
    intros x y _ Hy. apply row_key; auto.
  - intros g Hg. apply in_flat_map in Hg as (j & Hj & Hg).
    apply (row_inside j); auto.
    unfold the_rows in Hj. apply in_flat_map in Hj as (m & Hm & Hj).
    apply in_seq in Hm. destruct (rowt_pair m) as [E1 E2].
    assert (M : INR m * h <= r).
    { apply Rle_trans with (INR J * h); auto. apply Rmult_le_compat_r; [pose proof hp; lra|].
      apply le_INR; lia. }
    pose proof (pos_INR m).
    destruct Hj as [<-|[<-|[]]].
    + rewrite E1, Rabs_pos_eq; auto.
    + rewrite E2, Rabs_Ropp, Rabs_pos_eq; auto.
  - apply Rle_trans with (2 := rows_length (S J)).
    pose proof (quarter_sum r h J r_pos hp J1 J2) as Q.
    rewrite (rsum_scale _ (fun m => h * sqrt (r * r - INR m * h * (INR m * h))) (4 / A)).
    2:{ intros m _. unfold half. replace A with (u * h) by (unfold h; field; pose proof up; lra).
        field. pose proof up; pose proof hp; lra. }
    replace (PI * (r * r) / A) with (4 / A * (r * r * PI / 4)) by (field; pose proof Ap; lra).
    apply Rmult_le_compat_l; [|exact Q]. apply Rlt_le, Rdiv_lt_0_compat; [lra|exact Ap].
Qed.
End Count.
