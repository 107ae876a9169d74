(** Which signals a simulation returns. *)
From Coq Require Import Reals ZArith String List Bool Lra Lia.
From Verif Require Import Base BaseLemmas Model_Units Model_EpsGrid Model_Coeffs Model_FDTD Model_Register
  Spec_FDTD Spec_Register Model_Layout Spec_Layout Proof_Reset Proof_Layout Proof_Spectrum.
Import ListNotations.
Open Scope R_scope.

Lemma resolve_nat n k i : resolve n (Z.of_nat k) = Ok i -> i = k.
Proof.
  unfold resolve. destruct ((0 <=? Z.of_nat k) && (Z.of_nat k <? Z.of_nat n))%Z; [intros H; inversion H; lia|].
  replace (Z.of_nat k <? 0)%Z with false by (symmetry; apply Z.ltb_ge; lia). rewrite andb_false_r. discriminate.
Qed.
Lemma resolve3_nat N x y z p : resolve3 N (Z.of_nat x, Z.of_nat y, Z.of_nat z) = Ok p -> p = (x, y, z).
Proof.
  unfold resolve3. intros H. apply bind_ok in H as (i & Hi & H). apply bind_ok in H as (j & Hj & H). apply bind_ok in H as (k & Hk & H).
  apply resolve_nat in Hi, Hj, Hk. congruence.
Qed.
Lemma column_value N F x e : reads N F (column_cells x) e ->
  detector_signal (map (map vec3_of) [e]) = [(F (x, 0, 0)%nat AZ + F (x, 1, 0)%nat AZ + F (x, 2, 0)%nat AZ) / 3].
Proof.
  unfold reads, column_cells. intros H.
  inversion H as [|? ? ? ? (p1 & P1 & ->) H1]; subst. inversion H1 as [|? ? ? ? (p2 & P2 & ->) H2]; subst.
  inversion H2 as [|? ? ? ? (p3 & P3 & ->) H3]; subst. inversion H3; subst.
  apply (resolve3_nat N x 0 0) in P1. apply (resolve3_nat N x 1 0) in P2. apply (resolve3_nat N x 2 0) in P3. subst.
  unfold detector_signal, average_along_detector. cbn. f_equal. field.
Qed.
Lemma detector_signal_nth l k e v : nth_error l k = Some e -> detector_signal (map (map vec3_of) [e]) = [v] ->
  nth_error (detector_signal (map (map vec3_of) l)) k = Some v.
Proof.
  unfold detector_signal, average_along_detector. intros H E. rewrite !map_map, nth_error_map, H. cbn [option_map].
  cbn [map] in E. injection E. intros <-. reflexivity.
Qed.

Lemma simulate_signals c (obj : option eps_slice) wl t r : proper c -> 1 <= f_scaling c * f_pml c -> known_kinds c -> 0 < wl ->
  (obj = None \/ exists slice row layers, obj = Some slice /\ get slice 0 = Ok row /\ get row 0 = Ok layers) ->
  simulate c obj wl = Ok (t, r) ->
  exists g, init_fdtd c obj wl = Ok g /\ length t = Z.to_nat (f_niter c) /\ length r = Z.to_nat (f_niter c)
  /\ forall k gk, (k < Z.to_nat (f_niter c))%nat -> run_steps (S k) g = Ok gk ->
     nth_error t k = Some (column_mean gk (transmission_column c)) /\ nth_error r k = Some (column_mean gk (reflection_column c)).
Proof.
  intros P H1 HK W HO H. unfold simulate in H. apply bind_ok in H as (g & HI & H). apply bind_ok in H as (g' & HR & H).
  unfold run_int in HR.
  destruct (init_source c obj wl g P H1 HK W HO HI) as (src & F & _). destruct F as (_ & _ & _ & _ & _ & ED & _).
  destruct (records_run _ _ _ 0%nat (column_cells (transmission_column c)) [] [] HR ltac:(rewrite ED; reflexivity)) as (e1 & h1 & D1 & L1 & _ & K1).
  destruct (records_run _ _ _ 1%nat (column_cells (reflection_column c)) [] [] HR ltac:(rewrite ED; reflexivity)) as (e2 & h2 & D2 & L2 & _ & K2).
  unfold get_detector_values in H. destruct (g_detectors g') as [|d1 [|d2 ds]]; try discriminate.
  cbn [nth_error app] in D1, D2. inversion D1; inversion D2; subst d1 d2. inversion H; subst; clear H.
  exists g. split; [exact HI|]. rewrite !detector_signal_length, !map_length. split; [exact L1|]. split; [exact L2|].
  intros k gk Hk Hg. destruct (K1 k gk Hk Hg) as (v1 & _ & N1 & _ & R1 & _). destruct (K2 k gk Hk Hg) as (v2 & _ & N2 & _ & R2 & _).
  split; eapply detector_signal_nth; try eassumption; eapply column_value; eassumption.
Qed.
