(** The absorption as a function of depth. *)
From Coq Require Import Reals ZArith String List Bool Lra Lia Psatz.
From Verif Require Import Base PyVal Cplx CplxLemmas Model_TMM Spec_TMM Model_TMM2 Spec_TMM2 Proof_TMM Proof_TMM2 Proof_TMM3 Proof_TMM4 Proof_TMM5 Proof_TMM12 Proof_TMM16.
Import ListNotations.
Open Scope R_scope.

Lemma py_index_nat n i : (i < n)%nat -> py_index n (Z.of_nat i) = Ok i.
Proof.
  intros H. unfold py_index. destruct (Z.leb_spec 0 (Z.of_nat i)); [|lia]. destruct (Z.ltb_spec (Z.of_nat i) (Z.of_nat n)); [|lia].
  cbn [andb]. rewrite Nat2Z.id. reflexivity.
Qed.
Lemma py_index_end n i : (i < n)%nat -> py_index n (Z.of_nat i - Z.of_nat n) = Ok i.
Proof.
  intros H. unfold py_index. destruct (Z.leb_spec 0 (Z.of_nat i - Z.of_nat n)); [lia|]. cbn [andb].
  destruct (Z.leb_spec (- Z.of_nat n) (Z.of_nat i - Z.of_nat n)); [|lia]. destruct (Z.ltb_spec (Z.of_nat i - Z.of_nat n) 0); [|lia].
  cbn [andb]. f_equal. lia.
Qed.

Lemma Cabs_pow2 a : Cabs a ^ 2 = Cnorm2 a.
Proof. rewrite <- CplxLemmas.Cabs_sq. ring. Qed.
Lemma Cexp_i t : Cexp (Ci * RtoC t)%C = (cos t, sin t).
Proof.
  unfold Cexp, Cscal, Cis. cbn [Re Im fst snd Ci RtoC Cmul]. replace (0 * t - 1 * 0) with 0 by ring. rewrite exp_0.
  replace (0 * 0 + 1 * t) with t by ring. f_equal; ring.
Qed.

Lemma run_re f z : run f z =
  RtoC (A1 f * exp (a1 f * z) + A2 f * exp (- (a1 f * z)) + 2 * (Re (A3 f) * cos (a3 f * z) - Im (A3 f) * sin (a3 f * z))).
Proof.
  unfold run. replace (Ci * RtoC (a3 f) * RtoC z)%C with (Ci * RtoC (a3 f * z))%C by (apply Ceq; cbn; ring).
  replace (- Ci * RtoC (a3 f) * RtoC z)%C with (Ci * RtoC (- (a3 f * z)))%C by (apply Ceq; cbn; ring).
  rewrite !Cexp_i, cos_neg, sin_neg. replace (- a1 f * z) with (- (a1 f * z)) by ring.
  destruct (A3 f) as [x y]. apply Ceq; cbn; ring.
Qed.

Lemma run_flip f g d z : f_d f = Fin d -> flip f = Ok g -> run g z = run f (d - z) /\ f_d g = Fin d.
Proof.
  intros Hd H. unfold flip in H. rewrite Hd in H. apply Ok_inj in H. subst g. split; [|reflexivity].
  rewrite !run_re. cbn [A1 A2 A3 a1 a3].
  replace (Ci * RtoC (a3 f) * RtoC d)%C with (Ci * RtoC (a3 f * d))%C by (apply Ceq; cbn; ring). rewrite Cexp_i.
  f_equal. replace (a1 f * (d - z)) with (a1 f * d + - (a1 f * z)) by ring. replace (a3 f * (d - z)) with (a3 f * d - a3 f * z) by ring.
  rewrite Ropp_plus_distr, Ropp_involutive, !exp_plus, cos_minus, sin_minus. replace (- a1 f * d) with (- (a1 f * d)) by ring.
  destruct (A3 f) as [x y]. cbn [Cconj Cmul Re Im fst snd]. ring.
Qed.
Lemma flip_ok : forall f, (exists d, f_d f = Fin d) <-> exists g, flip f = Ok g.
Proof. intros f. unfold flip. destruct (f_d f); split; intros [x H]; try discriminate; eauto. Qed.
Lemma flip_twice f g h : flip f = Ok g -> flip g = Ok h -> forall z, run h z = run f z.
Proof.
  intros H1 H2 z. destruct (proj2 (flip_ok f) (ex_intro _ g H1)) as (d & Hd).
  destruct (run_flip f g d (d - z) Hd H1) as (E1 & Hg). destruct (run_flip g h d z Hg H2) as (E2 & _).
  rewrite E2, E1. f_equal. ring.
Qed.
Lemma run_scale f k z : run (scale f k) z = (RtoC k * run f z)%C.
Proof. rewrite !run_re. destruct f as [? ? [x y] ? ? ?]. apply Ceq; cbn; ring. Qed.
Lemma run_add f b g : add f b = Ok g -> forall z, run g z = (run f z + run b z)%C.
Proof.
  unfold add, Reqb. destruct (Req_EM_T (a1 b) (a1 f)) as [E1|]; [|discriminate]. destruct (Req_EM_T (a3 b) (a3 f)) as [E3|]; [|discriminate].
  cbn [negb orb]. intros H z. apply Ok_inj in H. subst g. rewrite !run_re. cbn [A1 A2 A3 a1 a3]. rewrite E1, E3.
  destruct (A3 f), (A3 b). apply Ceq; cbn; ring.
Qed.
Lemma add_ok : forall f b, (a1 b = a1 f /\ a3 b = a3 f -> exists g, add f b = Ok g) /\
  (~ (a1 b = a1 f /\ a3 b = a3 f) -> add f b = Err ValueError).
Proof.
  intros f b. unfold add, Reqb. destruct (Req_EM_T (a1 b) (a1 f)), (Req_EM_T (a3 b) (a3 f)); cbn [negb orb]; split; intros H; eauto; try tauto.
Qed.

Section Fill.
Variable arcsin : C -> C.
Hypothesis inv : inverts_sine arcsin.
Variables (pol : string) (ns : list C) (ds : list pyfloat) (th0 : C) (lam : R) (D : coh_data).
Hypothesis HD : coh_tmm arcsin pol ns ds th0 lam = Ok D.
Let K := coh_tmm_calc arcsin _ _ _ _ _ _ HD.
Let N := length ns.

Lemma vw_length : length (c_vw D) = N.
Proof.
  destruct (k_rt _ _ _ _ _ _ _ K) as (rt & _ & _ & H). cbv zeta in H. destruct H as (_ & _ & _ & ->).
  assert (L : forall Ms t, length (amplitudes Ms t) = S (length Ms)).
  { intros Ms t. unfold amplitudes. induction Ms as [|M Ms IH]; cbn; [reflexivity|]. f_equal. exact IH. }
  cbn [length]. rewrite L. unfold M_list. rewrite map_length, seq_length, (k_kz _ _ _ _ _ _ _ K), map_length, combine_length.
  rewrite (list_snell_length _ _ _ _ (k_snell _ _ _ _ _ _ _ K)). assert (HN := k_N _ _ _ _ _ _ _ K). unfold N. lia.
Qed.

Definition density (i : nat) (z : R) : R :=
  loss_density pol (nth i ns C0) (Ccos (nth i (c_th D) C0)) (nth i (c_kz D) C0)
    (advance (nth i (c_kz D) C0 * RtoC z)%C (wave_of D i)) / Re (weight pol (nth 0 ns C0) (Ccos th0)).

Lemma fill_density i f z : (0 < i)%nat -> (i < N)%nat -> fill_in D (Z.of_nat i) = Ok f ->
  run f z = RtoC (density i z) /\ f_d f = nth i ds NaN.
Proof.
  intros H0 Hi H. unfold fill_in in H. rewrite vw_length, py_index_nat in H by exact Hi. cbn [bind] in H.
  destruct (k_in _ _ _ _ _ _ _ K) as (E1 & E2 & E3 & E4 & _). rewrite E1, E2, E3, E4, Ccos_conj in H.
  pose proof (kz_is arcsin _ _ _ _ _ _ K i Hi) as KZ. cbv beta in KZ.
  unfold density, loss_density. destruct (advance_norms (nth i (c_kz D) C0) z (wave_of D i)) as (V & W & X). rewrite V, W, X. clear V W X.
  unfold wave_of. destruct (Nat.eqb_spec i 0) as [|Hi0]; [lia|].
  set (v := fst (nth i (c_vw D) (C0, C0))) in *. set (w := snd (nth i (c_vw D) (C0, C0))) in *.
  set (n := nth i ns C0) in *. set (c := Ccos (nth i (c_th D) C0)) in *. set (n0 := nth 0 ns C0) in *. set (c0 := Ccos th0) in *.
  unfold weight. destruct (String.eqb pol "s").
  - inv_bind H. apply rdiv_inv in E as (E & ->). apply Ok_inj in H. subst f. split; [|reflexivity]. rewrite run_re. cbn [A1 A2 A3 a1 a3].
    f_equal. rewrite !Cabs_pow2. rewrite KZ. set (k := 2 * PI / lam). clearbody v w n c n0 c0 k. clear KZ.
    replace (2 * Im (RtoC k * (n * c))%C * z) with (k * (2 * Im (n * c)%C * z)) by (cbn; ring).
    replace (2 * Re (RtoC k * (n * c))%C * z) with (k * (2 * Re (n * c)%C * z)) by (cbn; ring).
    set (e := exp (k * (2 * Im (n * c)%C * z))). set (e' := exp (- (k * (2 * Im (n * c)%C * z)))).
    set (co := cos (k * (2 * Re (n * c)%C * z))). set (si := sin (k * (2 * Re (n * c)%C * z))). clearbody e e' co si.
    set (nm := Re (n0 * c0)%C) in *. clearbody nm. unfold Cnorm2. destruct n, c, v, w. cbn. field. exact E.
  - inv_bind H. apply rdiv_inv in E as (E & ->). inv_bind H. apply rdiv_inv in E0 as (E0 & ->). apply Ok_inj in H. subst f.
    split; [|reflexivity]. rewrite run_re. cbn [A1 A2 A3 a1 a3]. f_equal. rewrite !Cabs_pow2.
    set (kz := nth i (c_kz D) C0) in *. clearbody v w n c n0 c0 kz.
    set (e := exp (2 * Im kz * z)). set (e' := exp (- (2 * Im kz * z))).
    set (co := cos (2 * Re kz * z)). set (si := sin (2 * Re kz * z)). clearbody e e' co si.
    replace (Re (Cconj n0 * c0)%C) with (Re (n0 * Cconj c0)%C) by (destruct n0, c0; cbn; ring).
    set (nm := Re (n0 * Cconj c0)%C) in *. clearbody nm. unfold Cnorm2. destruct n, c, v, w, kz. cbn. field. exact E.
Qed.
Lemma fill_ok i : (i < N)%nat -> exists f, fill_in D (Z.of_nat i) = Ok f.
Proof.
  intros Hi. unfold fill_in. rewrite vw_length, py_index_nat by exact Hi. cbn [bind].
  destruct (k_in _ _ _ _ _ _ _ K) as (E1 & E2 & E3 & E4 & _). rewrite E1, E2, E3, E4, Ccos_conj.
  pose proof (k_T _ _ _ _ _ _ _ K) as T. unfold T_from_t in T. destruct (String.eqb pol "s").
  - inv_bind T. apply rdiv_inv in E as (E & _). rewrite rdiv_ok by exact E. cbn [bind]. eauto.
  - destruct (String.eqb pol "p"); [|discriminate]. inv_bind T. apply rdiv_inv in E as (E & _). rewrite !rdiv_ok by exact E. cbn [bind]. eauto.
Qed.
Lemma fill_end i : (i < N)%nat -> fill_in D (Z.of_nat i - Z.of_nat N) = fill_in D (Z.of_nat i).
Proof. intros H. unfold fill_in. rewrite !vw_length, py_index_end, py_index_nat by exact H. reflexivity. Qed.
Lemma fill_first f z : fill_in D 0 = Ok f -> run f z = C0.
Proof.
  intros H. unfold fill_in in H. rewrite vw_length in H.
  assert (HN := k_N _ _ _ _ _ _ _ K). replace 0%Z with (Z.of_nat 0) in H by reflexivity. rewrite py_index_nat in H by (unfold N; lia). cbn [bind] in H.
  destruct (k_rt _ _ _ _ _ _ _ K) as (rt & _ & _ & Q). cbv zeta in Q. destruct Q as (_ & _ & _ & Q). rewrite Q in H. cbn [nth fst snd] in H.
  assert (Z0 : Cabs C0 ^ 2 = 0) by (rewrite Cabs_pow2; unfold Cnorm2; cbn; ring).
  destruct (String.eqb (c_pol D) "s").
  - inv_bind H. apply Ok_inj in H. subst f. rewrite run_re. cbn [A1 A2 A3 a1 a3]. rewrite Z0. apply Ceq; cbn; ring.
  - inv_bind H. inv_bind H. apply Ok_inj in H. subst f. rewrite run_re. cbn [A1 A2 A3 a1 a3]. rewrite Z0. apply Ceq; cbn; ring.
Qed.

Lemma fill_agrees i f z p : (0 < i)%nat -> fill_in D (Z.of_nat i) = Ok f -> position_resolved i z D = Ok p -> run f z = RtoC (p_absor p).
Proof.
  intros H0 F P. destruct (position_resolved_spec arcsin _ _ _ _ _ _ K i z p P) as (Hi & _ & _ & H4 & _). cbv beta in H4.
  rewrite (proj1 (fill_density i f z H0 Hi F)). f_equal. rewrite H4. reflexivity.
Qed.
End Fill.
