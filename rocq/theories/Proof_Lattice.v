(** Lattice lemmas: reciprocal vectors, the counting argument behind the
    truncation radius, and the truncation itself. *)
From Coq Require Import Reals ZArith String List Bool Lra Lia Psatz Sorted Permutation Ratan.
From Verif Require Import Base BaseLemmas Cplx Model_Lattice Spec_Lattice.
Import ListNotations.
Open Scope R_scope.

(** * Reciprocal lattice *)
Lemma reciprocate_dual (a b : vec2) :
  independent a b ->
  exists k1 k2, Lattice_Reciprocate (as_arg a) (as_arg b) = Ok (k1, k2)
    /\ inner k1 a = 1 /\ inner k1 b = 0 /\ inner k2 a = 0 /\ inner k2 b = 1.
Proof.
  destruct a as [a0 a1], b as [b0 b1]; unfold independent; cbn [fst snd]; intros H.
  unfold Lattice_Reciprocate, as_arg; cbn [fst snd].
  destruct (Req_EM_T (a0 * b1 - a1 * b0) 0) as [E|E]; [contradiction|].
  eexists; eexists; split; [reflexivity|].
  unfold inner; cbn [fst snd]. repeat split; field; auto.
Qed.

Lemma reciprocate_twice (a b k1 k2 : vec2) :
  Lattice_Reciprocate (as_arg a) (as_arg b) = Ok (k1, k2) ->
  Lattice_Reciprocate (as_arg k1) (as_arg k2) = Ok (a, b).
Proof.
  destruct a as [a0 a1], b as [b0 b1].
  unfold Lattice_Reciprocate, as_arg; cbn [fst snd].
  destruct (Req_EM_T (a0 * b1 - a1 * b0) 0) as [E|E]; [discriminate|].
  intros H. injection H as <- <-. cbn [fst snd].
  set (d := a0 * b1 - a1 * b0) in *.
  assert (D : b1 / d * (a0 / d) - - b0 / d * (- a1 / d) = / d).
  { replace (b1 / d * (a0 / d) - - b0 / d * (- a1 / d)) with (d / (d * d)) by (unfold d at 1; field; auto).
    field; auto. }
  rewrite D.
  destruct (Req_EM_T (/ d) 0) as [E2|E2].
  - exfalso; revert E2. apply Rinv_neq_0_compat; auto.
  - f_equal. f_equal; f_equal; field; auto.
Qed.

Lemma reciprocate_dependent (a b : vec2) :
  ~ independent a b -> Lattice_Reciprocate (as_arg a) (as_arg b) = Err ZeroDivisionError.
Proof.
  destruct a as [a0 a1], b as [b0 b1]; unfold independent; cbn [fst snd]; intros H.
  unfold Lattice_Reciprocate, as_arg; cbn [fst snd].
  destruct (Req_EM_T (a0 * b1 - a1 * b0) 0) as [E|E]; [reflexivity|contradiction].
Qed.

(** The reciprocal vectors are unique: any dual pair is the returned pair. *)
Lemma reciprocate_unique (a b k1 k2 : vec2) :
  inner k1 a = 1 -> inner k1 b = 0 -> inner k2 a = 0 -> inner k2 b = 1 ->
  Lattice_Reciprocate (as_arg a) (as_arg b) = Ok (k1, k2).
Proof.
  destruct a as [a0 a1], b as [b0 b1], k1 as [p q], k2 as [r s].
  unfold inner; cbn [fst snd]. intros H1 H2 H3 H4.
  unfold Lattice_Reciprocate, as_arg; cbn [fst snd].
  assert (D : (p * s - q * r) * (a0 * b1 - a1 * b0) = 1).
  { replace ((p * s - q * r) * (a0 * b1 - a1 * b0)) with
      ((p * a0 + q * a1) * (r * b0 + s * b1) - (p * b0 + q * b1) * (r * a0 + s * a1)) by ring.
    rewrite H1, H2, H3, H4; ring. }
  destruct (Req_EM_T (a0 * b1 - a1 * b0) 0) as [E|E].
  - rewrite E in D; lra.
  - set (d := a0 * b1 - a1 * b0) in *.
    assert (P : p * d = b1).
    { replace (p * d) with ((p * a0 + q * a1) * b1 - (p * b0 + q * b1) * a1) by (unfold d; ring).
      rewrite H1, H2; ring. }
    assert (Q : q * d = - b0).
    { replace (q * d) with ((p * b0 + q * b1) * a0 - (p * a0 + q * a1) * b0) by (unfold d; ring).
      rewrite H1, H2; ring. }
    assert (R' : r * d = - a1).
    { replace (r * d) with ((r * a0 + s * a1) * b1 - (r * b0 + s * b1) * a1) by (unfold d; ring).
      rewrite H3, H4; ring. }
    assert (S' : s * d = a0).
    { replace (s * d) with ((r * b0 + s * b1) * a0 - (r * a0 + s * a1) * b0) by (unfold d; ring).
      rewrite H3, H4; ring. }
    f_equal. f_equal; f_equal.
    + rewrite <- P; field; auto.
    + rewrite <- Q; field; auto.
    + rewrite <- R'; field; auto.
    + rewrite <- S'; field; auto.
Qed.

Lemma reciprocate_independent (a b k1 k2 : vec2) :
  Lattice_Reciprocate (as_arg a) (as_arg b) = Ok (k1, k2) -> independent k1 k2.
Proof.
  intros H. pose proof (reciprocate_twice _ _ _ _ H) as T.
  destruct (Req_EM_T (fst k1 * snd k2 - snd k1 * fst k2) 0) as [E|E]; [|exact E].
  assert (N : ~ independent k1 k2) by (unfold independent; intros F; contradiction).
  rewrite (reciprocate_dependent _ _ N) in T. discriminate.
Qed.

Lemma setks_entry G kx0 ky0 lk1 lk2 i :
  (i < length G)%nat ->
  let g := nth i G (0, 0)%Z in
  length (fst (Lattice_SetKs G kx0 ky0 lk1 lk2)) = length G
  /\ length (snd (Lattice_SetKs G kx0 ky0 lk1 lk2)) = length G
  /\ nth i (fst (Lattice_SetKs G kx0 ky0 lk1 lk2)) C0
     = Cadd kx0 (RtoC (2 * PI * fst (recip lk1 lk2 g)))
  /\ nth i (snd (Lattice_SetKs G kx0 ky0 lk1 lk2)) C0
     = Cadd ky0 (RtoC (2 * PI * snd (recip lk1 lk2 g))).
Proof.
  intros Hi g. unfold Lattice_SetKs; cbn [fst snd]. rewrite !map_length.
  split; [reflexivity|]. split; [reflexivity|].
  split.
  - erewrite nth_indep by (rewrite map_length; exact Hi).
    rewrite (map_nth (fun g => Cadd kx0 (RtoC (2 * PI * (fst lk1 * IZR (fst g) + fst lk2 * IZR (snd g)))))) with (d := (0,0)%Z).
    fold g. unfold recip; cbn [fst]. do 3 f_equal. ring.
  - erewrite nth_indep by (rewrite map_length; exact Hi).
    rewrite (map_nth (fun g => Cadd ky0 (RtoC (2 * PI * (snd lk1 * IZR (fst g) + snd lk2 * IZR (snd g)))))) with (d := (0,0)%Z).
    fold g. unfold recip; cbn [snd]. do 3 f_equal. ring.
Qed.

(** * Norms *)
Lemma vnorm_sq a : vnorm a * vnorm a = fst a * fst a + snd a * snd a.
Proof. unfold vnorm. apply sqrt_sqrt. nra. Qed.

Lemma vnorm_nonneg a : 0 <= vnorm a.
Proof. apply sqrt_pos. Qed.

Lemma gl2_len2 lk1 lk2 g : Gl2_of (vnorm lk1) (vnorm lk2) (vdot lk1 lk2) g = len2 lk1 lk2 g.
Proof.
  unfold Gl2_of, len2, recip, vdot. rewrite !vnorm_sq. cbn [fst snd]. ring.
Qed.

Lemma lagrange a b :
  (vnorm a * vnorm b) * (vnorm a * vnorm b) - vdot a b * vdot a b = vcross a b * vcross a b.
Proof.
  replace ((vnorm a * vnorm b) * (vnorm a * vnorm b)) with ((vnorm a * vnorm a) * (vnorm b * vnorm b)) by ring.
  rewrite !vnorm_sq. unfold vdot, vcross. ring.
Qed.

Lemma vnorm_pos_cross a b : vcross a b <> 0 -> 0 < vnorm a /\ 0 < vnorm b.
Proof.
  intros H. pose proof (lagrange a b) as L.
  assert (0 < vcross a b * vcross a b) by nra.
  pose proof (vnorm_nonneg a). pose proof (vnorm_nonneg b).
  split.
  - destruct (Req_dec (vnorm a) 0) as [E|E]; [rewrite E in L; nra|lra].
  - destruct (Req_dec (vnorm b) 0) as [E|E]; [rewrite E in L; nra|lra].
Qed.

(** [u * sqrt(1 - uv^2/(u v)^2)] is the area over [v] *)
Lemma sine_factor a b : vcross a b <> 0 ->
  vnorm a * sqrt (1 - (vdot a b * vdot a b) / ((vnorm a * vnorm b) * (vnorm a * vnorm b)))
  = Rabs (vcross a b) / vnorm b.
Proof.
  intros H. destruct (vnorm_pos_cross _ _ H) as [Ha Hb].
  pose proof (lagrange a b) as L.
  set (A := Rabs (vcross a b)).
  assert (HA : 0 < A) by (apply Rabs_pos_lt; auto).
  assert (AA : A * A = vcross a b * vcross a b).
  { unfold A. rewrite <- Rabs_mult. apply Rabs_pos_eq. nra. }
  replace (1 - (vdot a b * vdot a b) / ((vnorm a * vnorm b) * (vnorm a * vnorm b)))
    with ((A / (vnorm a * vnorm b)) * (A / (vnorm a * vnorm b))).
  2:{ replace (vdot a b * vdot a b) with ((vnorm a * vnorm b) * (vnorm a * vnorm b) - A * A) by lra.
      field; lra. }
  rewrite sqrt_square.
  - field; lra.
  - apply Rlt_le, Rdiv_lt_0_compat; nra.
Qed.

Lemma vnorm_triangle a b c : c = (fst a + fst b, snd a + snd b) -> vnorm c <= vnorm a + vnorm b.
Proof.
  intros ->.
  pose proof (vnorm_nonneg a) as Ha. pose proof (vnorm_nonneg b) as Hb.
  apply Rsqr_incr_0_var; [|lra]. unfold Rsqr.
  rewrite vnorm_sq. cbn [fst snd].
  assert (D : vdot a b <= vnorm a * vnorm b).
  { apply Rsqr_incr_0_var; [|nra]. unfold Rsqr. pose proof (lagrange a b). nra. }
  pose proof (vnorm_sq a). pose proof (vnorm_sq b). unfold vdot in D. nra.
Qed.

Lemma vnorm_scale r a : vnorm (r * fst a, r * snd a) = Rabs r * vnorm a.
Proof.
  unfold vnorm; cbn [fst snd].
  replace (r * fst a * (r * fst a) + r * snd a * (r * snd a)) with (r² * (fst a * fst a + snd a * snd a))
    by (unfold Rsqr; ring).
  rewrite sqrt_mult_alt by apply Rle_0_sqr. rewrite sqrt_Rsqr_abs. reflexivity.
Qed.

(** * The Riemann-sum bound: sum of h f(m h) over 0 <= m <= J bounds the quarter disc *)
Lemma slab t1 t2 : 0 <= t1 -> t1 <= t2 -> t2 <= PI / 2 ->
  (t2 + sin t2 * cos t2) / 2 - (t1 + sin t1 * cos t1) / 2 <= (sin t2 - sin t1) * cos t1.
Proof.
  intros H0 H1 H2.
  destruct (Req_dec t1 t2) as [->|Hne]; [lra|].
  assert (Hlt : t1 < t2) by lra.
  pose (D := fun t => (sin t - sin t1) * cos t1 - (t + sin t * cos t) / 2).
  assert (HD : forall c, derivable_pt_lim D c (cos c * cos t1 - cos c * cos c)).
  { intros c. unfold D.
    replace (cos c * cos t1 - cos c * cos c) with
      (((cos c - 0) * cos t1 + (sin c - sin t1) * 0)
       - ((1 + (cos c * cos c + sin c * (- sin c))) * / 2 + (c + sin c * cos c) * 0)).
    2:{ pose proof (sin2_cos2 c) as S. unfold Rsqr in S. nra. }
    apply derivable_pt_lim_minus.
    - apply (derivable_pt_lim_mult (fun t => sin t - sin t1) (fun _ => cos t1)).
      + apply derivable_pt_lim_minus; [apply derivable_pt_lim_sin|apply derivable_pt_lim_const].
      + apply derivable_pt_lim_const.
    - apply (derivable_pt_lim_mult (fun t => t + sin t * cos t) (fun _ => / 2)).
      + apply derivable_pt_lim_plus; [apply derivable_pt_lim_id|].
        apply derivable_pt_lim_mult; [apply derivable_pt_lim_sin|apply derivable_pt_lim_cos].
      + apply derivable_pt_lim_const. }
  destruct (MVT_cor2 D (fun c => cos c * cos t1 - cos c * cos c) t1 t2 Hlt (fun c _ => HD c))
    as (c & Hc & Hin).
  assert (0 <= cos c) by (apply cos_ge_0; lra).
  assert (cos c <= cos t1) by (apply cos_decr_1; lra).
  assert (0 <= (cos c * cos t1 - cos c * cos c) * (t2 - t1)).
  { apply Rmult_le_pos; nra. }
  unfold D in Hc. lra.
Qed.

Lemma cos_asin_sqrt r x : 0 < r -> 0 <= x <= r -> r * cos (asin (x / r)) = sqrt (r * r - x * x).
Proof.
  intros Hr Hx.
  assert (0 <= x / r <= 1).
  { split; [apply Rmult_le_pos; [lra|left; apply Rinv_0_lt_compat; lra]|].
    apply Rmult_le_reg_r with r; [lra|]. unfold Rdiv. rewrite Rmult_assoc, Rinv_l; lra. }
  rewrite cos_asin by lra.
  replace (r * r - x * x) with (r² * (1 - (x / r)²)) by (unfold Rsqr; field; lra).
  rewrite sqrt_mult_alt by apply Rle_0_sqr. rewrite sqrt_Rsqr by lra. reflexivity.
Qed.

Lemma asin_incr x y : -1 <= x -> x <= y -> y <= 1 -> asin x <= asin y.
Proof.
  intros. destruct (Rle_lt_dec (asin x) (asin y)); auto.
  pose proof (asin_bound x). pose proof (asin_bound y).
  assert (sin (asin y) < sin (asin x)).
  { apply sin_increasing_1; lra. }
  rewrite !sin_asin in * by lra. lra.
Qed.

Fixpoint rsum_to (f : nat -> R) (n : nat) : R :=
  match n with O => 0 | S m => rsum_to f m + f m end.

Lemma quarter_sum r h (J : nat) : 0 < r -> 0 < h -> INR J * h <= r -> r < INR (S J) * h ->
  r * r * PI / 4 <= rsum_to (fun m => h * sqrt (r * r - (INR m * h) * (INR m * h))) (S J).
Proof.
  intros Hr Hh HJ HJ'.
  set (P := fun t => r * r * ((t + sin t * cos t) / 2)).
  assert (K : forall m, (m <= J)%nat ->
    P (asin (INR m * h / r)) <= rsum_to (fun m => h * sqrt (r * r - (INR m * h) * (INR m * h))) m).
  { induction m as [|m IH]; intros Hm.
    - cbn [rsum_to]. cbn [INR]. replace (0 * h / r) with 0 by (field; lra).
      rewrite asin_0. unfold P. rewrite sin_0. lra.
    - cbn [rsum_to].
      assert (Hm' : INR (S m) <= INR J) by (apply le_INR; lia).
      pose proof (pos_INR m) as Hp. rewrite S_INR in *.
      assert (R0 : 0 <= INR m * h) by (apply Rmult_le_pos; lra).
      assert (R1 : INR m * h <= (INR m + 1) * h) by nra.
      assert (R2 : (INR m + 1) * h <= r) by nra.
      assert (B : forall x, 0 <= x <= r -> 0 <= x / r <= 1).
      { intros x Hx. split; [apply Rmult_le_pos; [lra|left; apply Rinv_0_lt_compat; lra]|].
        apply Rmult_le_reg_r with r; [lra|]. unfold Rdiv. rewrite Rmult_assoc, Rinv_l; lra. }
      assert (Q1 := B (INR m * h) ltac:(lra)). assert (Q2 := B ((INR m + 1) * h) ltac:(lra)).
      set (t1 := asin (INR m * h / r)). set (t2 := asin ((INR m + 1) * h / r)).
      assert (T0 : 0 <= t1) by (unfold t1; rewrite <- asin_0; apply asin_incr; lra).
      assert (T1 : t1 <= t2).
      { apply asin_incr; try lra. unfold Rdiv. apply Rmult_le_compat_r; [|lra]. left. apply Rinv_0_lt_compat; lra. }
      assert (T2 : t2 <= PI / 2) by (unfold t2; destruct (asin_bound ((INR m + 1) * h / r)); lra).
      pose proof (slab t1 t2 T0 T1 T2) as S.
      assert (S' : P t2 - P t1 <= r * r * ((sin t2 - sin t1) * cos t1)).
      { unfold P. rewrite <- Rmult_minus_distr_l. apply Rmult_le_compat_l; [nra|exact S]. }
      assert (E : r * r * ((sin t2 - sin t1) * cos t1) = h * sqrt (r * r - INR m * h * (INR m * h))).
      { unfold t2 at 1. rewrite sin_asin by lra. unfold t1 at 1. rewrite sin_asin by lra.
        rewrite <- (cos_asin_sqrt r (INR m * h)) by lra. fold t1. field. lra. }
      fold t1 in IH. specialize (IH ltac:(lia)). lra. }
  specialize (K J (le_n _)). cbn [rsum_to].
  pose proof (pos_INR J) as Hp. rewrite S_INR in HJ'.
  assert (R0 : 0 <= INR J * h) by (apply Rmult_le_pos; lra).
  assert (Q : 0 <= INR J * h / r <= 1).
  { split; [apply Rmult_le_pos; [lra|left; apply Rinv_0_lt_compat; lra]|].
    apply Rmult_le_reg_r with r; [lra|]. unfold Rdiv. rewrite Rmult_assoc, Rinv_l; lra. }
  set (t1 := asin (INR J * h / r)) in *.
  assert (T0 : 0 <= t1) by (unfold t1; rewrite <- asin_0; apply asin_incr; lra).
  assert (T1 : t1 <= PI / 2) by (unfold t1; destruct (asin_bound (INR J * h / r)); lra).
  pose proof (slab t1 (PI / 2) T0 T1 (Rle_refl _)) as S.
  rewrite sin_PI2, cos_PI2 in S.
  assert (C1 : 0 <= cos t1) by (apply cos_ge_0; lra).
  assert (E : r * (r * (1 - sin t1)) * cos t1 <= h * sqrt (r * r - INR J * h * (INR J * h))).
  { rewrite <- (cos_asin_sqrt r (INR J * h)) by lra. fold t1.
    replace (r * (r * (1 - sin t1)) * cos t1) with (r * (1 - sin t1) * (r * cos t1)) by ring.
    apply Rmult_le_compat_r; [nra|].
    unfold t1. rewrite sin_asin by lra. unfold Rdiv.
    replace (r * (1 - INR J * h * / r)) with (r - INR J * h) by (field; lra). lra. }
  unfold P in K. nra.
Qed.
