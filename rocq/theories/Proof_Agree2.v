(** The transfer-matrix code at normal incidence gives the numbers of the film recursion. *)
From Coq Require Import Reals String List Lia Lra.
From Verif Require Import Base PyVal Cplx CplxLemmas Model_TMM Spec_TMM Spec_Film Proof_TMM Proof_TMM2 Proof_TMM3 Proof_TMM5 Proof_TMM7 Proof_TMM6 Proof_TMM13 Proof_TMM16 Proof_Agree.
Import ListNotations.
Open Scope R_scope.

(** in "p" the film recursion's amplitudes are those of the magnetic field *)
Definition electric (pol : string) (p : C * C) : C * C := if String.eqb pol "s" then p else (fst p, (- snd p)%C).

Lemma tangential_normal pol n fb n' fb' : tangential pol n C1 fb = tangential pol n' C1 fb' ->
  sum (electric pol fb) = sum (electric pol fb') /\ (n * diff (electric pol fb) = n' * diff (electric pol fb'))%C.
Proof.
  unfold tangential, electric, sum, diff. destruct (String.eqb pol "s"); intros E;
    assert (E1 := f_equal fst E); assert (E2 := f_equal snd E); cbn [fst snd] in *; clear E.
  - split; [exact E1|]. transitivity (n * C1 * (fst fb - snd fb))%C; [ring|]. rewrite E2. ring.
  - split.
    + transitivity (C1 * (fst fb - snd fb))%C; [ring|]. rewrite E2. ring.
    + transitivity (n * (fst fb + snd fb))%C; [ring|]. rewrite E1. ring.
Qed.
Lemma electric_advance pol d fb : electric pol (advance d fb) = advance d (electric pol fb).
Proof. unfold electric, advance. destruct String.eqb; cbn [fst snd]; f_equal. ring. Qed.

Section Films.
Variable arcsin : C -> C.
Hypothesis inv : inverts_sine arcsin.
Hypothesis pri : principal arcsin.
Variables (pol : string) (u : C) (f a0 aN : R) (l : list (C * C * R)) (D : coh_data).
Hypothesis Hu : 0 < Re u.
Hypothesis Hf : 0 < f.
Hypothesis H0 : 0 < a0.
Hypothesis HN : 0 < aN.
Let L := (RtoC a0 :: map (fun p => fst (fst p)) l ++ [RtoC aN]).
Let ns := map (Cmul u) L.
Let ds := (PInf :: map (fun p => Fin (snd p)) l ++ [PInf]).
Let om := (RtoC (2 * PI) * (RtoC f * u))%C.
Hypothesis HD : coh_tmm arcsin pol ns ds C0 (1 / f) = Ok D.
Hypothesis Hopq : no_opaque_layer D.
Hypothesis Hm : forall q, In q l -> snd (fst q) = fst (fst q) \/ snd (fst q) = (- fst (fst q))%C.

Let K := coh_tmm_calc arcsin _ _ _ _ _ _ HD.
Lemma u_nz : u <> C0.
Proof. intros ->. cbn in Hu. lra. Qed.
Lemma len_L : length L = (length l + 2)%nat.
Proof. unfold L. cbn. rewrite app_length, map_length. cbn. lia. Qed.
Lemma len_ns : length ns = (length l + 2)%nat.
Proof. unfold ns. rewrite map_length. apply len_L. Qed.
Lemma ns_nth i : (i < length l + 2)%nat -> nth i ns C0 = (u * nth i L C0)%C.
Proof. intros Hi. unfold ns. rewrite (nth_indep _ _ (u * C0)%C) by (rewrite map_length, len_L; exact Hi). apply map_nth. Qed.
Lemma L_last : nth (length l + 1) L C0 = RtoC aN.
Proof.
  unfold L. replace (length l + 1)%nat with (S (length l)) by lia. cbn [nth].
  rewrite app_nth2; rewrite map_length; [|lia]. replace (length l - length l)%nat with 0%nat by lia. reflexivity.
Qed.
Lemma L_mid i : (i < length l)%nat -> nth (S i) L C0 = fst (fst (nth i l (C0, C0, 0))).
Proof.
  intros Hi. unfold L. cbn [nth]. rewrite app_nth1 by (rewrite map_length; exact Hi).
  rewrite (nth_indep _ _ (fst (fst (C0, C0, 0)))) by (rewrite map_length; exact Hi).
  exact (map_nth (fun p : C * C * R => fst (fst p)) l (C0, C0, 0) i).
Qed.
Lemma ds_mid i : (i < length l)%nat -> nth (S i) ds NaN = Fin (snd (nth i l (C0, C0, 0))).
Proof.
  intros Hi. unfold ds. cbn [nth]. rewrite app_nth1 by (rewrite map_length; exact Hi).
  rewrite (nth_indep _ _ (Fin (snd (C0, C0, 0)))) by (rewrite map_length; exact Hi).
  exact (map_nth (fun p : C * C * R => Fin (snd p)) l (C0, C0, 0) i).
Qed.
Lemma last_re : 0 < Re (nth (length ns - 1) ns C0).
Proof.
  rewrite len_ns. replace (length l + 2 - 1)%nat with (length l + 1)%nat by lia. rewrite ns_nth by lia. rewrite L_last.
  destruct u as [x y]. cbn in *. rewrite Rmult_0_r, Rminus_0_r. apply Rmult_lt_0_compat; assumption.
Qed.
Lemma cosines i : (i < length ns)%nat -> Ccos (nth i (c_th D) C0) = C1.
Proof. intros Hi. exact (normal_cosines arcsin inv pri _ _ _ _ _ HD last_re i Hi). Qed.
Lemma index_nz i : (i < length ns)%nat -> nth i L C0 <> C0.
Proof.
  intros Hi E. destruct (Proof_TMM5.snell_all arcsin inv _ _ _ _ _ _ K i Hi) as [Q _]. apply Q. cbv beta.
  rewrite ns_nth by (rewrite <- len_ns; exact Hi). rewrite E. ring.
Qed.
Lemma phase_is i : (i < length l)%nat -> nth (S i) (phases D) C0 =
  (fst (fst (nth i l (C0, C0, 0%R))) * om * RtoC (snd (nth i l (C0, C0, 0%R))))%C.
Proof.
  intros Hi. assert (Hl := len_ns). rewrite (phases_nth arcsin _ _ _ _ _ _ K) by lia. rewrite phase_of_cut. cbv zeta.
  assert (O := Hopq (S i) ltac:(lia)). destruct (k_in _ _ _ _ _ _ _ K) as (_ & E1 & E2 & _). rewrite E1, E2 in O.
  specialize (O ltac:(lia)). rewrite Rmin_left by exact O. rewrite (kz_nth arcsin _ _ _ _ _ _ K) by lia.
  rewrite cosines by lia. rewrite ns_nth by lia. rewrite L_mid by exact Hi. rewrite ds_mid by exact Hi. cbn [thickness].
  rewrite <- surjective_pairing. unfold om.
  replace (1 / f) with (/ f) by (field; lra). assert (E : (RtoC f * RtoC (/ f))%C = C1) by (rewrite <- RtoC_mul, Rinv_r by lra; reflexivity).
  assert (Q : RtoC (/ f) <> C0) by (intros Z; apply (f_equal fst) in Z; cbn in Z; apply Rinv_neq_0_compat in Z; lra).
  set (n := fst (fst _)). set (d := RtoC (snd _)). set (g := RtoC (/ f)) in *. clearbody n d g.
  transitivity (RtoC (2 * PI) * (u * n) / g * d * (RtoC f * g))%C; [rewrite E; field; assumption|field; assumption].
Qed.

Let w := fun i => electric pol (wave_of D i).
Lemma w_end i : (i <= length l)%nat ->
  at_end om l w i = electric pol (if Nat.eqb i 0 then wave_of D 0 else advance (nth i (phases D) C0) (wave_of D i)).
Proof.
  intros Hi. destruct i as [|i]; [reflexivity|]. cbn [at_end Nat.eqb]. rewrite electric_advance, phase_is by lia.
  destruct (nth i l (C0, C0, 0)) as [[n m] d] eqn:E. cbn [fst snd]. unfold advance, film_phase, w.
  assert (Z : (Cexp (- Ci * (n * om * RtoC d)) = / Cexp (Ci * (n * om) * RtoC d))%C).
  { pose proof (Cexp_neq_0 (Ci * (n * om) * RtoC d)%C) as P. pose proof (Cexp_opp (Ci * (n * om) * RtoC d)%C) as Q.
    replace (- (Ci * (n * om) * RtoC d))%C with (- Ci * (n * om * RtoC d))%C in Q by ring.
    set (x := Cexp (Ci * (n * om) * RtoC d)%C) in *. set (y := Cexp (- Ci * (n * om * RtoC d))%C) in *. clearbody x y.
    transitivity (/ x * (x * y))%C; [field; exact P|rewrite Q; ring]. }
  rewrite Z. f_equal; f_equal; f_equal; ring.
Qed.
Lemma w_match i : (i <= length l)%nat -> sum (at_end om l w i) = sum (w (S i)) /\
  (nth i L C0 * diff (at_end om l w i) = nth (S i) L C0 * diff (w (S i)))%C.
Proof.
  intros Hi. assert (Hl := len_ns). destruct (solves_all arcsin pol ns ds C0 (1 / f) D inv HD) as ((LW & HW) & _).
  specialize (HW i ltac:(lia)).
  assert (Wn : forall k, (k < length ns)%nat -> nth k (map (wave_of D) (seq 0 (length ns))) (C0, C0) = wave_of D k).
  { intros k Hk. rewrite (nth_indep _ _ (wave_of D 0)) by (rewrite map_length, seq_length; exact Hk).
    rewrite map_nth, seq_nth by exact Hk. reflexivity. }
  assert (Cn : forall k, (k < length ns)%nat -> nth k (map Ccos (c_th D)) C0 = C1).
  { intros k Hk. rewrite (cs_nth arcsin _ _ _ _ _ _ K). destruct (Nat.ltb_spec k (length ns)); [|lia]. apply cosines. exact Hk. }
  rewrite !Cn in HW by lia. rewrite (Wn (S i)) in HW by lia. rewrite (Wn 0%nat) in HW by lia. rewrite (Wn i) in HW by lia.
  rewrite w_end by exact Hi. apply tangential_normal in HW. destruct HW as [A B]. split; [exact A|].
  rewrite !ns_nth in B by lia. unfold w. set (x := diff _) in *. set (y := diff (electric pol (wave_of D (S i)))) in *. clearbody x y.
  pose proof u_nz as Hu'.
  transitivity (/ u * (u * nth i L C0 * x))%C; [field; exact Hu'|]. rewrite B. field. exact Hu'.
Qed.

Theorem coh_films : let '(X, Dd, P) := film om (RtoC a0) (map (fun p => (snd (fst p), snd p)) l) (RtoC aN) in
  Dd <> C0 /\ c_R D = Cnorm2 (X / Dd)%C /\ c_T D = a0 / aN * Cnorm2 (P / Dd)%C.
Proof.
  assert (Hl := len_ns). destruct (solves_all arcsin pol ns ds C0 (1 / f) D inv HD) as (_ & W0 & WN).
  assert (N0 : RtoC a0 <> C0) by (intros E; apply (f_equal fst) in E; cbn in E; lra).
  assert (NN : RtoC aN <> C0) by (intros E; apply (f_equal fst) in E; cbn in E; lra).
  pose proof (film_waves om (RtoC aN) NN l (RtoC a0) (RtoC a0) w (c_t D) (or_introl eq_refl) N0) as F.
  destruct (film om (RtoC a0) (map (fun p => (snd (fst p), snd p)) l) (RtoC aN)) as [[X Dd] P].
  destruct F as (k & fb & Sw & E1 & E2 & E3).
  - intros q Hq. split; [|apply Hm; exact Hq]. destruct (In_nth _ _ (C0, C0, 0) Hq) as (i & Hi & <-).
    rewrite <- L_mid by exact Hi. apply index_nz. lia.
  - intros i Hi. exact (w_match i Hi).
  - unfold w. replace (S (length l)) with (length ns - 1)%nat by lia. rewrite WN. unfold electric. destruct String.eqb; cbn [fst snd]; f_equal; ring.
  - assert (Sw' : fb = w 0%nat).
    { destruct Sw as [[_ E]|[E _]]; [exact E|]. apply (f_equal fst) in E. cbn in E. lra. }
    clear Sw. subst fb. unfold w in E1, E2. rewrite W0 in E1, E2. unfold electric in E1, E2.
    assert (E1' : (k * Dd)%C = C1) by (rewrite <- E1; destruct String.eqb; reflexivity).
    assert (ND : Dd <> C0) by (intros ->; apply (f_equal fst) in E1'; destruct k; cbn in E1'; lra).
    assert (Ek : k = (/ Dd)%C) by (transitivity (k * Dd * / Dd)%C; [field; exact ND|rewrite E1'; ring]).
    assert (R2 : Cnorm2 (c_r D) = Cnorm2 (X / Dd)%C).
    { replace (X / Dd)%C with (k * X)%C by (rewrite Ek; field; exact ND).
      replace (k * X)%C with (- - (k * X))%C by ring. rewrite <- E2.
      destruct String.eqb; cbn [snd]; destruct (c_r D); unfold Cnorm2; cbn; ring. }
    assert (T2 : Cnorm2 (c_t D) = a0 * a0 / (aN * aN) * Cnorm2 (P / Dd)%C).
    { assert (Et : c_t D = (RtoC (a0 / aN) * (P / Dd))%C).
      { unfold Rdiv. rewrite RtoC_mul. assert (I : (RtoC aN * RtoC (/ aN))%C = C1) by (rewrite <- RtoC_mul, Rinv_r by lra; reflexivity).
        transitivity (c_t D * (RtoC aN * RtoC (/ aN)))%C; [rewrite I; ring|].
        transitivity (c_t D * RtoC aN * RtoC (/ aN))%C; [ring|]. rewrite E3, Ek. field. exact ND. }
      rewrite Et, Cnorm2_mul. unfold Cnorm2 at 1. cbn. field. lra. }
    split; [exact ND|]. split.
    + rewrite (k_R _ _ _ _ _ _ _ K). unfold R_from_r. rewrite <- R2. rewrite <- (CplxLemmas.Cabs_sq (c_r D)). ring.
    + pose proof (k_T _ _ _ _ _ _ _ K) as T. replace (length ns - 1)%nat with (length l + 1)%nat in T by lia.
      assert (C : Cabs (c_t D * c_t D)%C = Cnorm2 (c_t D)).
      { apply Proof_TMM5.Cabs_sq. }
      assert (G : forall z, rdiv (Re (nth (length l + 1) ns C0 * z)%C) (Re (nth 0 ns C0 * z)%C) = Ok (aN / a0) ->
        (let! q := rdiv (Re (nth (length l + 1) ns C0 * z)%C) (Re (nth 0 ns C0 * z)%C) in Ok (Cabs (c_t D * c_t D)%C * q)) = Ok (c_T D) ->
        c_T D = a0 / aN * Cnorm2 (P / Dd)%C).
      { intros z Ez Eq. rewrite Ez in Eq. cbn [bind] in Eq. apply Ok_inj in Eq. rewrite <- Eq, C, T2. field. lra. }
      assert (Q : rdiv (Re (nth (length l + 1) ns C0 * C1)%C) (Re (nth 0 ns C0 * C1)%C) = Ok (aN / a0)).
      { rewrite !ns_nth by lia. rewrite L_last. unfold L. cbn [nth]. destruct u as [x y]. cbn in Hu.
        unfold rdiv. cbn. replace ((x * aN - y * 0) * 1 - (x * 0 + y * aN) * 0) with (x * aN) by ring.
        replace ((x * a0 - y * 0) * 1 - (x * 0 + y * a0) * 0) with (x * a0) by ring.
        destruct (Req_EM_T (x * a0) 0) as [Z|Z]; [nra|]. f_equal. field. lra. }
      unfold T_from_t in T. rewrite Ccos_0 in T. rewrite cosines in T by lia.
      replace (Cconj C1) with C1 in T by (apply injective_projections; cbn; ring).
      destruct (String.eqb pol "s"); [|destruct (String.eqb pol "p"); [|discriminate T]]; exact (G C1 Q T).
Qed.
End Films.

Lemma Re_scaled u a : Re (u * RtoC a)%C = Re u * a /\ Im (u * RtoC a)%C = Im u * a.
Proof. destruct u. cbn. split; ring. Qed.
Lemma nth_ends {A} (P : A -> Prop) x l y d : P x -> P y -> (forall z, In z l -> P z) -> forall i, (i < length l + 2)%nat -> P (nth i (x :: l ++ [y]) d).
Proof.
  intros Hx Hy Hl [|i] Hi; [exact Hx|]. cbn [nth]. destruct (Nat.lt_ge_cases i (length l)).
  - rewrite app_nth1 by assumption. apply Hl, nth_In. assumption.
  - rewrite app_nth2 by assumption. replace (i - length l)%nat with 0%nat by lia. exact Hy.
Qed.
Lemma coh_total arcsin pol u f a0 aN (l : list (C * R)) : inverts_sine arcsin -> principal arcsin ->
  pol = "s"%string \/ pol = "p"%string -> 0 < Re u -> 0 <= Im u -> 0 < f -> 0 < a0 -> 0 < aN ->
  (forall q, In q l -> 0 < Re (u * fst q)%C /\ 0 <= Im (u * fst q)%C /\ 0 <= snd q /\ Im (u * fst q)%C * (2 * PI * f) * snd q <= 35) ->
  exists D, coh_tmm arcsin pol (map (Cmul u) (RtoC a0 :: map fst l ++ [RtoC aN])) (PInf :: map (fun q => Fin (snd q)) l ++ [PInf]) C0 (1 / f) = Ok D
    /\ no_opaque_layer D.
Proof.
  intros inv pri Hpol Hu Hu' Hf H0 HN Hl.
  set (ns := map (Cmul u) _). set (ds := PInf :: _).
  assert (Ln : length ns = (length l + 2)%nat) by (unfold ns; rewrite map_length; cbn; rewrite app_length, map_length; cbn; lia).
  assert (Ld : length ds = (length l + 2)%nat) by (unfold ds; cbn; rewrite app_length, map_length; cbn; lia).
  assert (En : ns = (u * RtoC a0)%C :: map (fun q => u * fst q)%C l ++ [(u * RtoC aN)%C]).
  { unfold ns. cbn [map]. rewrite map_app, map_map. reflexivity. }
  assert (Hadm : forall i, (i < length ns)%nat -> admits 0 (nth i ns C0)).
  { intros i Hi. rewrite En. apply (nth_ends (admits 0)).
    - unfold admits. destruct (Re_scaled u a0) as [-> ->]. rewrite Rabs_R0. nra.
    - unfold admits. destruct (Re_scaled u aN) as [-> ->]. rewrite Rabs_R0. nra.
    - intros z Hz. apply in_map_iff in Hz. destruct Hz as (q & <- & Hq). destruct (Hl q Hq) as (A & B & _).
      unfold admits. rewrite Rabs_R0. tauto.
    - rewrite map_length. lia. }
  assert (Mn : forall i, (i < length l)%nat -> nth (S i) ns C0 = (u * fst (nth i l (C0, 0)))%C).
  { intros i Hi. rewrite En. cbn [nth]. rewrite app_nth1 by (rewrite map_length; exact Hi).
    rewrite (nth_indep _ _ (u * fst (C0, 0%R))%C) by (rewrite map_length; exact Hi).
    exact (map_nth (fun q : C * R => u * fst q)%C l (C0, 0%R) i). }
  assert (Md : forall i, (i < length l)%nat -> nth (S i) ds NaN = Fin (snd (nth i l (C0, 0)))).
  { intros i Hi. unfold ds. cbn [nth]. rewrite app_nth1 by (rewrite map_length; exact Hi).
    rewrite (nth_indep _ _ (Fin (snd (C0, 0%R)))) by (rewrite map_length; exact Hi).
    exact (map_nth (fun q : C * R => Fin (snd q)) l (C0, 0%R) i). }
  assert (Z : forall z, z <> C0 -> (RtoC 0 / z)%C = C0) by (intros z Hz; change (RtoC 0) with C0; field; exact Hz).
  assert (F : 2 * PI / (1 / f) = 2 * PI * f) by (field; lra).
  assert (Hend : nth 0 ds NaN = PInf /\ nth (length ns - 1) ds NaN = PInf).
  { split; [reflexivity|]. rewrite Ln. replace (length l + 2 - 1)%nat with (S (length l)) by lia. unfold ds. cbn [nth].
    rewrite app_nth2; rewrite map_length; [|lia]. replace (length l - length l)%nat with 0%nat by lia. reflexivity. }
  destruct (coh_tmm_succeeds arcsin inv pri pol ns ds C0 (1 / f) 0 Hpol) as (D & HD & Hth); auto; try lia.
  - intros [|i] H1 H2; [lia|]. rewrite Md by lia. exists (snd (nth i l (C0, 0))). split; [reflexivity|].
    destruct (Hl (nth i l (C0, 0)) ltac:(apply nth_In; lia)) as (A & B & C & E). split; [exact C|].
    rewrite Z by (apply (admits_neq 0); apply Hadm; lia). rewrite (arcsin_0 arcsin inv pri), F. rewrite Mn by lia.
    replace (u * fst (nth i l (C0, 0%R)) * C1)%C with (u * fst (nth i l (C0, 0%R)))%C by ring. exact E.
  - apply Rdiv_lt_0_compat; lra.
  - rewrite Csin_0. change (RtoC 0) with C0. ring.
  - rewrite Ccos_0. cbn. lra.
  - exists D. split; [exact HD|]. assert (K := coh_tmm_calc arcsin _ _ _ _ _ _ HD).
    destruct (k_in _ _ _ _ _ _ _ K) as (_ & E1 & E2 & _). unfold no_opaque_layer. rewrite E1, E2. intros [|i] H1 H2; [lia|].
    rewrite (kz_nth arcsin _ _ _ _ _ _ K) by lia. rewrite Md, Mn by lia. cbn [thickness].
    destruct (Hl (nth i l (C0, 0)) ltac:(apply nth_In; lia)) as (A & B & C & E).
    assert (Hc : Ccos (nth (S i) (c_th D) C0) = C1).
    { apply (normal_cosines arcsin inv pri _ _ _ _ _ HD); [|lia]. rewrite En, <- En. apply (Hadm (length ns - 1)%nat). lia. }
    rewrite Hc. set (n := (u * fst _)%C) in *. set (d := snd _) in *. clearbody n d.
    replace (RtoC (2 * PI) * n * C1 / RtoC (1 / f) * RtoC d)%C with (n * RtoC (2 * PI * f * d))%C.
    + destruct (Re_scaled n (2 * PI * f * d)) as [_ ->]. lra.
    + assert (Q : RtoC (1 / f) <> C0).
      { intros X. apply (f_equal fst) in X. cbn in X. unfold Rdiv in X. rewrite Rmult_1_l in X. apply Rinv_neq_0_compat in X; lra. }
      assert (E' : (RtoC f * RtoC (1 / f))%C = C1) by (rewrite <- RtoC_mul; replace (f * (1 / f)) with 1 by (field; lra); reflexivity).
      rewrite !RtoC_mul with (y := d), RtoC_mul with (y := f). set (g := RtoC (1 / f)) in *. clearbody g.
      transitivity (RtoC (2 * PI) * n / g * RtoC d * (RtoC f * g))%C; [field; exact Q|rewrite E'; field; exact Q].
Qed.
