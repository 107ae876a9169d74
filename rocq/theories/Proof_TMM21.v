(** Ellipsometry; examples. *)
From Coq Require Import Reals ZArith String List Bool Lra Lia Psatz.
From Verif Require Import Base PyVal Cplx CplxLemmas Model_TMM Spec_TMM Model_TMM2 Spec_TMM2 Proof_TMM Proof_TMM5 Proof_TMM12 Proof_TMM13 Proof_TMM14 Proof_TMM16 Proof_TMM17 Proof_TMM18 Proof_TMM19 Proof_TMM20.
Import ListNotations.
Open Scope R_scope.

Lemma cdiv_ok a b : b <> C0 -> cdiv a b = Ok (a / b)%C.
Proof. intros H. unfold cdiv. destruct Req_EM_T as [E|]; [|reflexivity]. exfalso. apply H. apply Cnorm2_zero. exact E. Qed.
Lemma cdiv_nonzero a b x : cdiv a b = Ok x -> b <> C0.
Proof. unfold cdiv. destruct Req_EM_T as [E|E]; [discriminate|]. intros _ ->. apply E. unfold Cnorm2. cbn. ring. Qed.

Lemma ellips_is : forall arcsin ns ds th0 lam psi Delta,
  (ellips arcsin ns ds th0 lam = Ok (psi, Delta) <->
   exists S P, coh_tmm arcsin "s" ns ds th0 lam = Ok S /\ coh_tmm arcsin "p" ns ds th0 lam = Ok P /\
     c_r S <> C0 /\ psi = atan (Cabs (c_r P / c_r S)%C) /\ Delta = angle (- c_r P / c_r S)%C).
Proof.
  intros arcsin ns ds th0 lam psi Delta. unfold ellips. split.
  - intros H. inv_bind H. inv_bind H. inv_bind H. inv_bind H. exists a, a0. split; [exact E|]. split; [exact E0|].
    pose proof (cdiv_nonzero _ _ _ E1) as N. rewrite cdiv_ok in E1 by exact N. rewrite cdiv_ok in E2 by exact N.
    apply Ok_inj in E1, E2, H. subst. split; [exact N|]. pose proof (f_equal fst H). pose proof (f_equal snd H). cbn in *. auto.
  - intros (S & P & -> & -> & N & -> & ->). cbn [bind]. rewrite !cdiv_ok by exact N. reflexivity.
Qed.

Lemma ellips_angles : forall arcsin ns ds th0 lam psi Delta S P,
  ellips arcsin ns ds th0 lam = Ok (psi, Delta) ->
  coh_tmm arcsin "s" ns ds th0 lam = Ok S -> coh_tmm arcsin "p" ns ds th0 lam = Ok P ->
  ellipsometric (c_r S) (c_r P) psi Delta.
Proof.
  intros arcsin ns ds th0 lam psi Delta S P H HS HP. apply ellips_is in H.
  destruct H as (S' & P' & HS' & HP' & N & -> & ->). assert (S' = S) as -> by congruence. assert (P' = P) as -> by congruence.
  unfold ellipsometric. split; [|split].
  - pose proof (atan_bound (Cabs (c_r P / c_r S)%C)). split; [|tauto]. pose proof (Cabs_nonneg (c_r P / c_r S)%C) as Q.
    rewrite <- atan_0. destruct Q as [Q|Q]; [left; apply atan_increasing; exact Q|rewrite <- Q; right; reflexivity].
  - apply angle_range.
  - rewrite tan_atan. replace (Cabs (c_r P / c_r S)%C) with (Cabs (- c_r P / c_r S)%C).
    + rewrite angle_polar. field. exact N.
    + unfold Cabs. f_equal. replace (- c_r P / c_r S)%C with (- (c_r P / c_r S))%C by (field; exact N). unfold Cnorm2. cbn. ring.
Qed.

Lemma same_turn a b : - PI < a <= PI -> - PI < b <= PI -> cos a = cos b -> sin a = sin b -> a = b.
Proof.
  intros Ha Hb Hc Hs. assert (E : cos (a - b) = 1).
  { rewrite cos_minus, Hc, Hs. pose proof (sin2_cos2 b) as Q. unfold Rsqr in Q. lra. }
  set (x := (a - b) / 2). assert (E2 : sin x = 0).
  { assert (Q : 1 - cos (a - b) = 2 * (sin x * sin x)).
    { replace (a - b) with (2 * x) by (unfold x; field). rewrite cos_2a_sin. ring. }
    rewrite E in Q. assert (sin x * sin x = 0) by lra. apply Rmult_integral in H. tauto. }
  assert (B : - PI < x < PI) by (unfold x; lra).
  destruct (Rtotal_order x 0) as [L|[L|L]].
  - exfalso. pose proof (sin_gt_0 (- x) ltac:(lra) ltac:(lra)) as Q. rewrite sin_neg in Q. lra.
  - unfold x in L. lra.
  - exfalso. pose proof (sin_gt_0 x ltac:(lra) ltac:(lra)). lra.
Qed.

Lemma ellipsometric_unique : forall rs rp psi Delta psi' Delta', rs <> C0 ->
  ellipsometric rs rp psi Delta -> ellipsometric rs rp psi' Delta' -> psi' = psi /\ (rp <> C0 -> Delta' = Delta).
Proof.
  intros rs rp psi Delta psi' Delta' N (A1 & A2 & A3) (B1 & B2 & B3).
  assert (Q : (RtoC (tan psi) * (cos Delta, sin Delta) = RtoC (tan psi') * (cos Delta', sin Delta'))%C).
  { assert (E : (rs * (RtoC (tan psi) * (cos Delta, sin Delta)) = rs * (RtoC (tan psi') * (cos Delta', sin Delta')))%C).
    { transitivity (- rp)%C; [rewrite <- A3; ring|rewrite <- B3; ring]. }
    transitivity (/ rs * (rs * (RtoC (tan psi) * (cos Delta, sin Delta))))%C; [field; exact N|]. rewrite E. field. exact N. }
  assert (Q1 : tan psi * cos Delta = tan psi' * cos Delta') by (apply (f_equal Re) in Q; cbn in Q; lra).
  assert (Q2 : tan psi * sin Delta = tan psi' * sin Delta') by (apply (f_equal Im) in Q; cbn in Q; lra).
  assert (T : forall t, 0 <= t < PI / 2 -> 0 <= tan t).
  { intros t [[Ht|Ht] Ht']; [left; apply tan_gt_0; assumption|rewrite <- Ht, tan_0; lra]. }
  pose proof (T _ A1) as TA. pose proof (T _ B1) as TB.
  assert (E : tan psi = tan psi').
  { apply Rsqr_inj; [exact TA|exact TB|]. unfold Rsqr.
    pose proof (sin2_cos2 Delta) as C1. pose proof (sin2_cos2 Delta') as C2. unfold Rsqr in C1, C2.
    replace (tan psi * tan psi) with ((tan psi * cos Delta) * (tan psi * cos Delta) + (tan psi * sin Delta) * (tan psi * sin Delta))
      by (transitivity (tan psi * tan psi * (sin Delta * sin Delta + cos Delta * cos Delta)); [ring|rewrite C1; ring]).
    rewrite Q1, Q2. transitivity (tan psi' * tan psi' * (sin Delta' * sin Delta' + cos Delta' * cos Delta')); [ring|rewrite C2; ring]. }
  pose proof PI_RGT_0. split.
  - rewrite <- (atan_tan psi), <- (atan_tan psi') by lra. rewrite E. reflexivity.
  - intros NP. assert (T0 : tan psi <> 0).
    { intros Z. apply NP. rewrite Z in A3. replace rp with (- - rp)%C by ring. rewrite <- A3. apply Ceq; cbn; ring. }
    rewrite <- E in Q1, Q2. apply Rmult_eq_reg_l in Q1; [|exact T0]. apply Rmult_eq_reg_l in Q2; [|exact T0].
    symmetry. apply same_turn; auto.
Qed.

Lemma ellips_normal : forall arcsin ns ds lam psi Delta, inverts_sine arcsin -> principal arcsin ->
  0 < Re (nth (length ns - 1) ns C0) ->
  ellips arcsin ns ds C0 lam = Ok (psi, Delta) -> psi = PI / 4 /\ Delta = 0.
Proof.
  intros arcsin ns ds lam psi Delta inv pri Hn H. pose proof H as H'. apply ellips_is in H.
  destruct H as (S & P & HS & HP & N & _).
  pose proof (ellips_angles _ _ _ _ _ _ _ _ _ H' HS HP) as A.
  destruct (normal_incidence arcsin inv pri ns ds lam S P HS HP Hn) as (E & _).
  assert (Pi := PI_RGT_0).
  assert (B : ellipsometric (c_r S) (c_r P) (PI / 4) 0).
  { unfold ellipsometric. split; [lra|]. split; [lra|]. rewrite E, tan_PI4, cos_0, sin_0. destruct (c_r S). apply Ceq; cbn; ring. }
  destruct (ellipsometric_unique _ _ _ _ _ _ N B A) as (E1 & E2). split; [exact E1|]. apply E2. rewrite E.
  intros Z. apply N. replace (c_r S) with (- - c_r S)%C by ring. rewrite Z. apply Ceq; cbn; ring.
Qed.

(** ** Examples: air, an absorbing film, glass *)
Lemma depth_example : exists arcsin D p q, inverts_sine arcsin /\
  coh_tmm arcsin "p" [(1, 0); (2, 1/20); (3/2, 0)] (stack_of [1]) (PI / 6, 0) 1 = Ok D /\
  find_in_structure_with_inf (stack_of [1]) (Fin (1/2)) = Ok (1%Z, Fin (1/2)) /\ position_resolved 1 (1/2) D = Ok p /\
  find_in_structure_with_inf (stack_of [1]) (Fin 5) = Ok (2%Z, Fin 4) /\ position_resolved 2 4 D = Ok q /\
  p_poyn q <= p_poyn p.
Proof.
  destruct film_example as (arcsin & D & inv & _ & HD & Ho).
  assert (T : Forall (fun d => 0 <= d) [1]) by (constructor; [lra|constructor]).
  assert (F1 : find_in_structure_with_inf (stack_of [1]) (Fin (1/2)) = Ok (Z.of_nat 1, Fin (1/2))).
  { apply found_in_stack; [exact T|]. exists 1%nat. split; [reflexivity|]. right. split; [lia|]. cbn. unfold at_depth. cbn. repeat split; try lia; lra. }
  assert (F2 : find_in_structure_with_inf (stack_of [1]) (Fin 5) = Ok (Z.of_nat 2, Fin 4)).
  { apply found_in_stack; [exact T|]. exists 2%nat. split; [reflexivity|]. right. split; [lia|]. cbn. unfold at_depth. cbn. repeat split; try lia; lra. }
  destruct (proj2 (resolved_domain arcsin _ _ _ _ _ D 1 (1/2) inv HD)) as (p & P).
  { unfold in_layer. right. cbn. split; [lia|]. split; [lra|]. intros _. lra. }
  destruct (proj2 (resolved_domain arcsin _ _ _ _ _ D 2 4 inv HD)) as (q & Q).
  { unfold in_layer. right. cbn. split; [lia|]. split; [lra|]. lia. }
  exists arcsin, D, p, q. split; [exact inv|]. split; [exact HD|]. split; [exact F1|]. split; [exact P|]. split; [exact F2|]. split; [exact Q|].
  refine (power_falls arcsin inv "p" _ [1] _ _ D HD (film_im0 (1/20)) ltac:(lra) Ho T (film_passive (1/20) ltac:(lra)) (1/2) 5 1 (1/2) 2 4 p q ltac:(lra) F1 P F2 Q).
Qed.
Lemma fill_example : exists arcsin D l f, inverts_sine arcsin /\
  coh_tmm arcsin "p" [(1, 0); (2, 1/20); (3/2, 0)] [PInf; Fin 1; PInf] (PI / 6, 0) 1 = Ok D /\
  absorp_in_each_layer D = Ok l /\ fill_in D 1 = Ok f /\
  exists pr : Riemann_integrable (fun z => Re (run f z)) 0 1, RiemannInt pr = nth 1 l 0.
Proof.
  destruct film_example as (arcsin & D & inv & _ & HD & Ho).
  destruct (accounts_all arcsin _ _ _ _ _ D inv HD (film_thick (1/20) 1 ltac:(lra))) as (l & A & _).
  destruct (fill_ok arcsin _ _ _ _ _ D HD 1) as (f & F); [cbn; lia|].
  exists arcsin, D, l, f. split; [exact inv|]. split; [exact HD|]. split; [exact A|]. split; [exact F|].
  refine (layer_integral arcsin inv _ _ _ _ _ D HD 1 1 f l ltac:(lia) ltac:(cbn; lia) eq_refl (film_thick (1/20) 1 ltac:(lra)) Ho F A).
Qed.

Lemma arcsin_zero arcsin : inverts_sine arcsin -> principal arcsin -> Ccos (arcsin C0) = C1.
Proof.
  intros inv pri. pose proof (Csin2_cos2 (arcsin C0)) as Q. rewrite inv in Q. assert (P : 0 < Re (Ccos (arcsin C0))) by (apply pri; right; unfold C0, Re; simpl; lra).
  destruct (Ccos (arcsin C0)) as [x y]. pose proof (f_equal Re Q) as Q1. pose proof (f_equal Im Q) as Q2. cbn in Q1, Q2, P.
  assert (y = 0) as -> by nra. assert (x = 1) as -> by nra. reflexivity.
Qed.
Lemma ellips_example : exists arcsin, inverts_sine arcsin /\ principal arcsin /\
  ellips arcsin [(1, 0); (2, 0)] [PInf; PInf] C0 1 = Ok (PI / 4, 0).
Proof.
  destruct Proof_TMM6.arcsin_exists as (arcsin & inv & pri). exists arcsin. split; [exact inv|]. split; [exact pri|].
  assert (OK : forall pol, pol = "s"%string \/ pol = "p"%string -> exists D, coh_tmm arcsin pol [(1, 0); (2, 0)] [PInf; PInf] C0 1 = Ok D /\
     c_th D = map (fun n => arcsin (RtoC 0 / n)%C) [(1, 0); (2, 0)]).
  { intros pol Hp. destruct (succeeds_all arcsin pol [(1, 0); (2, 0)] [PInf; PInf] C0 1 0 inv pri Hp) as ((D & E & T) & _); [cbn; lia|reflexivity|split; reflexivity|..].
    - cbn. intros i H1 H2. lia.
    - lra.
    - apply Ceq; cbn; rewrite ?sin_0, ?cos_0, ?sinh_0; ring.
    - cbn. rewrite cos_0, cosh_0. lra.
    - intros i Hi. cbn in Hi. unfold admits. rewrite Rabs_R0. destruct i as [|[|i]]; [| |lia]; cbn; lra.
    - exists D. auto. }
  destruct (OK "s"%string (or_introl eq_refl)) as (S & HS & TS). destruct (OK "p"%string (or_intror eq_refl)) as (P & HP & TP).
  destruct (one_interface _ _ _ _ _ _ _ _ HS) as (RS & _).
  assert (Z : forall n, n <> C0 -> (RtoC 0 / n)%C = C0) by (intros n Hn; change (RtoC 0) with C0; field; exact Hn).
  assert (N1 : ((1, 0) : C) <> C0) by (intros Q; injection Q; lra). assert (N2 : ((2, 0) : C) <> C0) by (intros Q; injection Q; lra).
  assert (NZ : c_r S <> C0).
  { rewrite RS. unfold cosine_of. rewrite TS. cbn [map nth]. rewrite !Z by assumption. rewrite arcsin_zero by assumption. cbn [fresnel_r String.eqb Ascii.eqb Bool.eqb].
    intros Q. apply (f_equal (fun x => x * (3, 0))%C) in Q.
    assert (X : (((1, 0) * C1 - (2, 0) * C1) / ((1, 0) * C1 + (2, 0) * C1) * (3, 0))%C = (-1, 0)).
    { replace ((1, 0) * C1 + (2, 0) * C1)%C with ((3, 0) : C) by (apply Ceq; cbn; ring).
      replace ((1, 0) * C1 - (2, 0) * C1)%C with ((-1, 0) : C) by (apply Ceq; cbn; ring). field. intros Y. injection Y. lra. }
    rewrite X in Q. injection Q. cbn. intros. lra. }
  assert (E : exists psi Delta, ellips arcsin [(1, 0); (2, 0)] [PInf; PInf] C0 1 = Ok (psi, Delta)).
  { eexists. eexists. apply ellips_is. exists S, P. split; [exact HS|]. split; [exact HP|]. split; [exact NZ|]. split; reflexivity. }
  destruct E as (psi & Delta & E). assert (L : 0 < Re (nth (length [((1, 0) : C); (2, 0)] - 1) [((1, 0) : C); (2, 0)] C0)) by (cbn; lra).
  destruct (ellips_normal _ _ _ _ _ _ inv pri L E) as [-> ->]. exact E.
Qed.
Lemma ellips_exists : forall arcsin ns ds th0 lam,
  ((exists psi Delta, ellips arcsin ns ds th0 lam = Ok (psi, Delta)) <->
   exists S P, coh_tmm arcsin "s" ns ds th0 lam = Ok S /\ coh_tmm arcsin "p" ns ds th0 lam = Ok P /\ c_r S <> C0).
Proof.
  intros arcsin ns ds th0 lam. split.
  - intros (psi & Delta & H). apply ellips_is in H. destruct H as (S & P & H1 & H2 & H3 & _). eauto.
  - intros (S & P & H1 & H2 & H3). eexists. eexists. apply ellips_is. exists S, P. repeat split; auto.
Qed.
