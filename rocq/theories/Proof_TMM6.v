From Coq Require Import Reals ZArith String List Bool Lra Lia Psatz.
From Coq Require Import ClassicalEpsilon.
From Verif Require Import Base PyVal Cplx CplxLemmas Model_TMM Spec_TMM Proof_TMM Proof_TMM2 Proof_TMM3 Proof_TMM4 Proof_TMM5.
Import ListNotations.
Open Scope R_scope.

(** * An inverse of the sine *)
Lemma circle x y : x * x + y * y = 1 -> exists t, cos t = x /\ sin t = y.
Proof.
  intros H. assert (B : -1 <= x <= 1) by nra.
  assert (Hc : cos (acos x) = x) by (apply cos_acos; exact B).
  assert (Hs : 0 <= sin (acos x)) by (apply sin_ge_0; apply acos_bound).
  assert (E : sin (acos x) * sin (acos x) = y * y).
  { pose proof (sin2_cos2 (acos x)) as Q. unfold Rsqr in Q. rewrite Hc in Q. lra. }
  destruct (Rle_dec 0 y).
  - exists (acos x). split; auto. nra.
  - exists (- acos x). rewrite cos_neg, sin_neg. split; auto. nra.
Qed.
Lemma sqrt_exists z : exists y, (y * y)%C = z.
Proof.
  destruct z as [a b]. set (m := Cabs (a, b)).
  assert (Hm : m * m = a * a + b * b). { unfold m, Cabs, Cnorm2. simpl. apply sqrt_sqrt. nra. }
  assert (Hm0 : 0 <= m) by (apply sqrt_pos).
  assert (Ha : - m <= a <= m) by nra.
  set (x := sqrt ((m + a) / 2)). set (y := sqrt ((m - a) / 2)).
  assert (Hx : x * x = (m + a) / 2) by (apply sqrt_sqrt; lra).
  assert (Hy : y * y = (m - a) / 2) by (apply sqrt_sqrt; lra).
  assert (X0 : 0 <= x) by apply sqrt_pos. assert (Y0 : 0 <= y) by apply sqrt_pos.
  assert (Hxy : (2 * (x * y)) * (2 * (x * y)) = b * b).
  { transitivity (4 * (x * x) * (y * y)); [ring|]. rewrite Hx, Hy. transitivity (m * m - a * a); [field|lra]. }
  assert (P : 0 <= 2 * (x * y)) by nra.
  destruct (Rle_dec 0 b).
  - exists (x, y). apply Ceq; simpl; [lra|]. nra.
  - exists (x, - y). apply Ceq; simpl; [lra|]. nra.
Qed.
Lemma exp_onto u : u <> C0 -> exists w, Cexp w = u.
Proof.
  intros Hu. destruct u as [a b]. assert (Hn : 0 < Cnorm2 (a, b)) by (apply Cnorm2_pos; exact Hu). unfold Cnorm2 in Hn. simpl in Hn.
  set (m := sqrt (a * a + b * b)). assert (Hm : m * m = a * a + b * b) by (apply sqrt_sqrt; lra).
  assert (Hm0 : 0 < m) by (apply sqrt_lt_R0; exact Hn).
  destruct (circle (a / m) (b / m)) as (t & Hc & Hs).
  { transitivity ((a * a + b * b) / (m * m)); [field; lra|]. rewrite Hm. field. lra. }
  exists (ln m, t). unfold Cexp, Cscal, Cis. simpl. rewrite exp_ln by exact Hm0. rewrite Hc, Hs. apply Ceq; simpl; field; lra.
Qed.
Lemma Ccos_exp w : (RtoC 2 * Ccos w)%C = (Cexp (Ci * w) + Cexp (- (Ci * w)))%C.
Proof.
  destruct w as [x y]. unfold Cexp, Cscal, Cis, Ccos, cosh, sinh. apply Ceq; simpl;
  replace (0 * x - 1 * y) with (- y) by ring; replace (0 * y + 1 * x) with x by ring; rewrite ?Ropp_involutive, ?cos_neg, ?sin_neg; field.
Qed.
Lemma Csin_exp w : (RtoC 2 * Ci * Csin w)%C = (Cexp (Ci * w) - Cexp (- (Ci * w)))%C.
Proof.
  destruct w as [x y]. unfold Cexp, Cscal, Cis, Csin, cosh, sinh. apply Ceq; simpl;
  replace (0 * x - 1 * y) with (- y) by ring; replace (0 * y + 1 * x) with x by ring; rewrite ?Ropp_involutive, ?cos_neg, ?sin_neg; field.
Qed.
(** What the principal branch satisfies *)
Lemma arcsin_at z : exists w, Csin w = z /\ (Im z <> 0 \/ -1 < Re z < 1 -> 0 < Re (Ccos w)).
Proof.
  destruct (sqrt_exists (C1 - z * z)%C) as (y0 & Hy0).
  assert (exists y, (y * y = C1 - z * z)%C /\ (Im z <> 0 \/ -1 < Re z < 1 -> 0 < Re y)) as (y & Hy & HP).
  { destruct (Rlt_dec 0 (Re y0)) as [H | H]; [exists y0; auto|].
    destruct (Rlt_dec (Re y0) 0) as [H' | H'].
    - exists (- y0)%C. split; [rewrite <- Hy0; ring|]. intros _. simpl. lra.
    - exists y0. split; [exact Hy0|]. intros Hz. exfalso. assert (E0 : Re y0 = 0) by lra.
      assert (ER := f_equal Re Hy0). assert (EI := f_equal Im Hy0). destruct y0 as [p q], z as [a b]. simpl in *. subst p.
      destruct Hz as [Hz | Hz]; nra. }
  set (u := (y + Ci * z)%C).
  assert (Hu : (u * (y - Ci * z) = C1)%C).
  { unfold u. transitivity (y * y + z * z)%C; [|rewrite Hy; ring].
    transitivity (y * y - Ci * Ci * (z * z))%C; [ring|]. replace (Ci * Ci)%C with (- C1)%C by (apply Ceq; simpl; ring). ring. }
  assert (Hu0 : u <> C0). { intros E. rewrite E in Hu. assert (Q := f_equal Re Hu). simpl in Q. lra. }
  destruct (exp_onto u Hu0) as (l & Hl).
  set (w := (- Ci * l)%C).
  assert (Ew : (Ci * w)%C = l). { unfold w. transitivity (- (Ci * Ci) * l)%C; [ring|]. replace (Ci * Ci)%C with (- C1)%C by (apply Ceq; simpl; ring). ring. }
  assert (Einv : Cexp (- l) = (y - Ci * z)%C).
  { apply (Cmul_cancel u); auto. rewrite Hu, <- Hl, <- Cexp_add. replace (l + - l)%C with C0 by ring. apply Cexp_0. }
  assert (T2 : RtoC 2 <> C0). { intros E. assert (Q := f_equal Re E). simpl in Q. lra. }
  assert (Ti : Ci <> C0). { intros E. assert (Q := f_equal Im E). simpl in Q. lra. }
  assert (E2 : RtoC 2 = (C1 + C1)%C) by (apply Ceq; simpl; ring).
  exists w. split.
  - apply (Cmul_cancel (RtoC 2 * Ci)%C); [apply Cmul_neq_0; auto|]. rewrite Csin_exp, Ew, Einv, Hl. unfold u. rewrite E2. ring.
  - assert (Ec : Ccos w = y). { apply (Cmul_cancel (RtoC 2)); auto. rewrite Ccos_exp, Ew, Einv, Hl. unfold u. rewrite E2. ring. }
    rewrite Ec. exact HP.
Qed.
Lemma arcsin_exists : exists f, inverts_sine f /\ principal f.
Proof.
  exists (fun z => proj1_sig (constructive_indefinite_description _ (arcsin_at z))).
  split; intros z; destruct (constructive_indefinite_description _ (arcsin_at z)) as (w & H1 & H2); simpl; auto.
Qed.

(** * When the calculation succeeds *)

Lemma admits_neq s n : admits s n -> n <> C0.
Proof. intros (H & _) ->. simpl in H. lra. Qed.
Lemma Cdiv_im s n : n <> C0 -> Im (RtoC s / n)%C = - (s * Im n) / Cnorm2 n /\ Re (RtoC s / n)%C = s * Re n / Cnorm2 n.
Proof.
  intros H. apply Cnorm2_pos in H. unfold Cdiv, Cinv. destruct n as [a b]. unfold Cnorm2 in *. simpl in *. split; field; lra.
Qed.

Section Angle.
Variables (s : R) (n c : C).
Hypothesis A : admits s n.
Hypothesis Hq : (n * n * (c * c))%C = (n * n - RtoC (s * s))%C.
Hypothesis Hc : 0 < Re c.
Lemma q_quadrant : 0 < Re (n * c)%C /\ 0 <= Im (n * c)%C.
Proof.
  destruct A as (H1 & H2 & H3). assert (ER := f_equal Re Hq). assert (EI := f_equal Im Hq).
  assert (E1 : Re c * Cnorm2 n = Re (n * c)%C * Re n + Im (n * c)%C * Im n) by (destruct n, c; unfold Cnorm2; simpl; ring).
  assert (E2 : Re (n * c)%C * Im (n * c)%C = Re n * Im n) by (destruct n, c; simpl in *; lra).
  assert (E3 : Re (n * c)%C * Re (n * c)%C - Im (n * c)%C * Im (n * c)%C = Re n * Re n - Im n * Im n - s * s) by (destruct n, c; simpl in *; lra).
  assert (Hp : 0 < Cnorm2 n) by (apply Cnorm2_pos, (admits_neq s); exact A).
  assert (E4 : 0 < Re c * Cnorm2 n) by (apply Rmult_lt_0_compat; auto).
  set (u := Re (n * c)%C) in *. set (v := Im (n * c)%C) in *. clearbody u v.
  destruct (Req_EM_T (Im n) 0) as [Z | Z].
  - rewrite Z in *. destruct H3 as [H3 | H3]; [lra|]. assert (Hu : 0 < u) by nra. split; auto. nra.
  - assert (Hi : 0 < Im n) by lra. assert (0 < Re n * Im n) by nra. split; nra.
Qed.
Lemma weight_pos pol : 0 < Re (weight pol n c).
Proof.
  destruct q_quadrant as (Q1 & Q2). unfold weight. destruct String.eqb; [exact Q1|].
  assert (Hp : 0 < Cnorm2 n) by (apply Cnorm2_pos, (admits_neq s); exact A).
  assert (E : Cnorm2 n * Re (Cconj n * c)%C = Re (n * c)%C * (Cnorm2 (n * c)%C + s * s)).
  { assert (ER := f_equal Re Hq). assert (EI := f_equal Im Hq). destruct n as [a b], c as [u v]. unfold Cnorm2. simpl in *.
    transitivity ((a * u - b * v) * (a * a - b * b) + (a * v + b * u) * (a * b + b * a)); [ring|].
    replace (a * b + b * a) with ((a * b + b * a) * (u * u - v * v) + (a * a - b * b) * (u * v + v * u)) by lra.
    replace (a * a - b * b) with ((a * a - b * b) * (u * u - v * v) - (a * b + b * a) * (u * v + v * u) + s * s) at 1 by lra.
    ring. }
  assert (0 < Cnorm2 (n * c)%C) by (unfold Cnorm2; nra).
  assert (0 < Cnorm2 n * Re (Cconj n * c)%C) by (rewrite E; apply Rmult_lt_0_compat; nra). nra.
Qed.
Lemma admits_forward th : c = Ccos th -> is_forward_angle n th = Ok true.
Proof.
  intros Ec. destruct q_quadrant as (Q1 & Q2). pose proof EPSILON_pos. destruct A as (H1 & H2 & _).
  unfold is_forward_angle. rewrite Ccos_conj, <- Ec.
  assert (E1 : Rleb 0 (Re n * Im n) = true) by (apply Rleb_true; nra). rewrite E1. cbn [bind ensure].
  assert (E2 : (if Rltb (100 * EPSILON) (Rabs (Im (n * c)%C)) then Rltb 0 (Im (n * c)%C) else Rltb 0 (Re (n * c)%C)) = true).
  { destruct Rltb eqn:E; apply Rltb_true; auto. apply Rltb_true in E. rewrite Rabs_right in E by lra. lra. }
  rewrite E2.
  assert (E3 : Rltb (- (100 * EPSILON)) (Im (n * c)%C) = true) by (apply Rltb_true; lra). rewrite E3.
  assert (E4 : Rltb (- (100 * EPSILON)) (Re (n * c)%C) = true) by (apply Rltb_true; lra). rewrite E4.
  assert (E5 : Rltb (- (100 * EPSILON)) (Re (n * Cconj c)%C) = true).
  { apply Rltb_true. pose proof (weight_pos "p") as W. unfold weight in W. simpl in W. 
    destruct n, c. simpl in *. lra. }
  rewrite E5. reflexivity.
Qed.
End Angle.
