(** The absorption over a layer. *)
From Coq Require Import Reals ZArith String List Bool Lra Lia Psatz FunctionalExtensionality.
From Verif Require Import Base PyVal Cplx CplxLemmas Model_TMM Spec_TMM Model_TMM2 Spec_TMM2 Proof_TMM Proof_TMM2 Proof_TMM3 Proof_TMM4 Proof_TMM5 Proof_TMM12 Proof_TMM16 Proof_TMM19.
Import ListNotations.
Open Scope R_scope.

Lemma integral_of_derivative (F f : R -> R) a b : a <= b -> (forall x, derivable_pt_lim F x (f x)) -> continuity f ->
  exists pr : Riemann_integrable f a b, RiemannInt pr = F b - F a.
Proof.
  intros L HF Hf.
  set (dF := fun x => exist (fun l => derivable_pt_abs F x l) (f x) (HF x) : derivable_pt F x).
  assert (E : derive F dF = f) by (apply functional_extensionality; intros x; reflexivity).
  assert (CF : continuity (derive F dF)) by (rewrite E; exact Hf).
  pose (G := @mkC1 F dF CF).
  assert (pr : Riemann_integrable f a b) by (apply continuity_implies_RiemannInt; [exact L|intros x _; apply Hf]).
  exists pr. assert (pr' : Riemann_integrable (derive G (diff0 G)) a b) by (cbn; rewrite E; exact pr).
  change (F b - F a) with (G b - G a). rewrite <- (FTC_Riemann G pr'). apply RiemannInt_P18; [exact L|]. intros x _. reflexivity.
Qed.

Lemma run_continuous f : continuity (fun z => Re (run f z)).
Proof.
  replace (fun z => Re (run f z)) with (fun z => A1 f * exp (a1 f * z) + A2 f * exp (- (a1 f * z)) + 2 * (Re (A3 f) * cos (a3 f * z) - Im (A3 f) * sin (a3 f * z))).
  - intros x. reg.
  - apply functional_extensionality. intros z. rewrite run_re. reflexivity.
Qed.

Section Integral.
Variable arcsin : C -> C.
Hypothesis inv : inverts_sine arcsin.
Variables (pol : string) (ns : list C) (ds : list pyfloat) (th0 : C) (lam : R) (D : coh_data).
Hypothesis HD : coh_tmm arcsin pol ns ds th0 lam = Ok D.
Let K := coh_tmm_calc arcsin _ _ _ _ _ _ HD.
Let N := length ns.

Lemma density_derivative i z :
  derivable_pt_lim (fun y => - relative_power D i (wave_at D i y)) z (density pol ns th0 D i z).
Proof.
  apply (derivable_pt_lim_ext (fun y => (- / Re (weight pol (nth 0 ns C0) (Ccos th0))) *
      power pol (nth i ns C0) (Ccos (nth i (c_th D) C0)) (advance (nth i (c_kz D) C0 * RtoC y)%C (wave_of D i)))).
  { intros y. rewrite (relative_is arcsin inv _ _ _ _ _ _ HD). unfold Rdiv, wave_at. ring. }
  unfold density, Rdiv.
  match goal with |- derivable_pt_lim _ _ (?l * ?m) => replace (l * m) with (- m * - l) by ring end.
  apply (derivable_pt_lim_scal (fun y => power pol (nth i ns C0) (Ccos (nth i (c_th D) C0)) (advance (nth i (c_kz D) C0 * RtoC y)%C (wave_of D i)))).
  apply power_derivative.
Qed.

Lemma layer_integral i d f l : (0 < i)%nat -> (S i < N)%nat -> nth i ds NaN = Fin d ->
  (forall j, (0 < j)%nat -> (S j < N)%nat -> 0 <= thickness (nth j ds NaN)) -> no_opaque_layer D ->
  fill_in D (Z.of_nat i) = Ok f -> absorp_in_each_layer D = Ok l ->
  exists pr : Riemann_integrable (fun z => Re (run f z)) 0 d, RiemannInt pr = nth i l 0.
Proof.
  intros H0 Hi Hd Ht Ho F A. assert (Hd0 : 0 <= d) by (specialize (Ht i H0 Hi); rewrite Hd in Ht; exact Ht).
  destruct (integral_of_derivative (fun y => - relative_power D i (wave_at D i y)) (fun z => Re (run f z)) 0 d Hd0) as (pr & E).
  - intros x. rewrite (proj1 (fill_density arcsin _ _ _ _ _ _ HD i f x H0 ltac:(lia) F)). cbn [Re RtoC fst]. apply density_derivative.
  - apply run_continuous.
  - exists pr. rewrite E. destruct (accounts_all arcsin _ _ _ _ _ D inv HD Ht) as (l' & A' & _ & _ & _ & _ & Q).
    assert (l' = l) as -> by congruence. rewrite (Q i H0 Hi). unfold wave_at.
    replace (nth i (phases D) C0) with (nth i (c_kz D) C0 * RtoC d)%C.
    + assert (Z : advance (nth i (c_kz D) C0 * RtoC 0) (wave_of D i) = wave_of D i).
      { unfold advance. replace (nth i (c_kz D) C0 * RtoC 0)%C with C0 by (apply Ceq; cbn; ring).
        replace (Ci * C0)%C with (Ci * RtoC 0)%C by (apply Ceq; cbn; ring). replace (- Ci * C0)%C with (Ci * RtoC 0)%C by (apply Ceq; cbn; ring).
        rewrite Cexp_i, cos_0, sin_0. destruct (wave_of D i) as [a b]. cbn [fst snd]. f_equal; apply Ceq; cbn; ring. }
      rewrite Z. ring.
    + rewrite (phases_nth arcsin _ _ _ _ _ _ K) by lia. rewrite Hd. cbn [thickness]. unfold phase_of.
      destruct (k_in _ _ _ _ _ _ _ K) as (_ & En & Ed & _).
      specialize (Ho i H0). rewrite En in Ho. specialize (Ho Hi). rewrite Ed, Hd in Ho. cbn [thickness] in Ho.
      destruct (Rltb 35 _) eqn:Q35; [apply Rltb_true in Q35; lra|reflexivity].
Qed.
End Integral.

(** ** Ellipsometry *)
Lemma angle_range z : - PI < angle z <= PI.
Proof.
  unfold angle. pose proof PI_RGT_0. pose proof (atan_bound (Im z / Re z)) as [B1 B2].
  destruct (Rlt_dec 0 (Re z)); [lra|]. destruct (Rlt_dec (Re z) 0) as [L|].
  - destruct (Rle_dec 0 (Im z)) as [Q|Q].
    + split; [lra|]. assert (atan (Im z / Re z) <= 0); [|lra]. rewrite <- atan_0. destruct (Req_dec (Im z) 0) as [->|N].
      * unfold Rdiv. rewrite Rmult_0_l. lra.
      * left. apply atan_increasing. apply Rmult_lt_reg_r with (- Re z); [lra|]. unfold Rdiv. rewrite Rmult_0_l.
        replace (Im z * / Re z * - Re z) with (- Im z) by (field; lra). lra.
    + split; [|lra]. assert (0 < atan (Im z / Re z)); [|lra]. rewrite <- atan_0. apply atan_increasing.
      apply Rmult_lt_reg_r with (- Re z); [lra|]. rewrite Rmult_0_l. unfold Rdiv.
      replace (Im z * / Re z * - Re z) with (- Im z) by (field; lra). lra.
  - destruct (Rlt_dec 0 (Im z)); [lra|]. destruct (Rlt_dec (Im z) 0); lra.
Qed.
Lemma cos_sin_atan x : cos (atan x) = / sqrt (1 + x²) /\ sin (atan x) = x / sqrt (1 + x²).
Proof. split; [rewrite cos_atan; unfold Rdiv; ring|apply sin_atan]. Qed.
Lemma Cabs_split x y : x <> 0 -> Cabs (x, y) = Rabs x * sqrt (1 + (y / x)²).
Proof.
  intros H. unfold Cabs, Cnorm2. cbn. rewrite <- (sqrt_Rsqr_abs x). rewrite <- sqrt_mult_alt by apply Rle_0_sqr.
  apply f_equal. unfold Rsqr. field. exact H.
Qed.
Lemma angle_polar z : (RtoC (Cabs z) * (cos (angle z), sin (angle z)))%C = z.
Proof.
  destruct z as [x y]. unfold angle. cbn [Re Im fst snd].
  destruct (cos_sin_atan (y / x)) as [Ec Es]. assert (P : 0 < 1 + (y / x)²) by (pose proof (Rle_0_sqr (y / x)); lra).
  assert (S : sqrt (1 + (y / x)²) <> 0) by (apply Rgt_not_eq, sqrt_lt_R0; exact P).
  destruct (Rlt_dec 0 x) as [L|L]; [|destruct (Rlt_dec x 0) as [L'|L']].
  - rewrite Ec, Es, Cabs_split, Rabs_right by lra. set (u := sqrt (1 + (y / x)²)) in *; clearbody u; apply Ceq; cbn; field; repeat split; first [exact S|lra].
  - assert (Ec' : forall s, s = PI \/ s = - PI -> cos (atan (y / x) + s) = - cos (atan (y / x)) /\ sin (atan (y / x) + s) = - sin (atan (y / x))).
    { intros s [->| ->]; [split; [apply neg_cos|apply neg_sin]|].
      rewrite cos_plus, sin_plus, cos_neg, sin_neg, cos_PI, sin_PI. split; ring. }
    destruct (Rle_dec 0 y) as [Q|Q].
    + destruct (Ec' PI (or_introl eq_refl)) as [-> ->]. rewrite Ec, Es, Cabs_split, Rabs_left by lra. set (u := sqrt (1 + (y / x)²)) in *; clearbody u; apply Ceq; cbn; field; repeat split; first [exact S|lra].
    + unfold Rminus. destruct (Ec' (- PI) (or_intror eq_refl)) as [-> ->]. rewrite Ec, Es, Cabs_split, Rabs_left by lra. set (u := sqrt (1 + (y / x)²)) in *; clearbody u; apply Ceq; cbn; field; repeat split; first [exact S|lra].
  - assert (x = 0) as -> by lra. unfold Cabs, Cnorm2. cbn [Re Im fst snd]. replace (0 * 0 + y * y) with (y * y) by ring.
    destruct (Rlt_dec 0 y) as [Q|Q]; [|destruct (Rlt_dec y 0) as [Q'|Q']].
    + rewrite sqrt_square, cos_PI2, sin_PI2 by lra. apply Ceq; cbn; ring.
    + replace (y * y) with (- y * - y) by ring. rewrite sqrt_square, cos_neg, sin_neg, cos_PI2, sin_PI2 by lra. apply Ceq; cbn; ring.
    + assert (y = 0) as -> by lra. replace (0 * 0) with 0 by ring. rewrite sqrt_0. apply Ceq; cbn; ring.
Qed.
