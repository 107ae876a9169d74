(** Proofs for C94: shipped materials in the solvers. *)
From Coq Require Import Reals ZArith String List Bool Lra Lia.
From Verif Require Import Base BaseLemmas Cplx CplxLemmas Model_Units Model_Materials Model_Layout Proof_Units Proof_Layout Proof_Vacuum Proof_Materials Model_Tables Spec_Tables Proof_Tables.
Import ListNotations.
Open Scope R_scope.

Lemma alumina_config : forall t lo hi n dist, In ("aluminium_oxide"%string, t) shipped ->
  0 < lo < hi -> dist = "linear"%string \/ dist = "log"%string -> (0 < n)%nat ->
  274024 / 10000 * / 1000000 < hi <= 298574 / 10000 * / 1000000 ->
  exists fs e, compute_target_frequencies lo hi n dist = Ok fs /\
    eps_at t (nth 0 fs 0) = Ok e /\ Im e < 0.
Proof.
  intros t lo hi n dist H L D N B.
  destruct (ctf_all lo hi n dist L D) as [fs [E [_ [_ [_ [F _]]]]]]. specialize (F N).
  destruct (eps_at_ok t (nth 0 fs 0)) as [e He]; [exact (proj1 (shipped_increasing _ _ H))|].
  exists fs, e. split; [exact E|split; [exact He|]].
  apply (alumina_gain t _ e H He). right. rewrite F.
  replace (/ (/ 1000000 / hi)) with (hi * 1000000) by (field; lra). lra.
Qed.
Lemma alumina_fdtd : forall t f wl (slice : eps_slice), In ("aluminium_oxide"%string, t) shipped ->
  f_thick f <> [] -> concat (concat slice) <> [] ->
  1105005 / 100000 < wl / UNIT_MAGNITUDE <= 177005 / 10000 \/ 2062075 / 100000 < wl / UNIT_MAGNITUDE <= 2299155 / 100000 ->
  (forall e, In e (concat (concat slice)) -> eps_at t (UNIT_MAGNITUDE / wl) = Ok e) ->
  one_wavelength f wl slice = Err ValueError.
Proof.
  intros t f wl slice H T S W A. apply (negative_permittivity f wl slice T S).
  intros e I. change (Re e < 0). apply (alumina_metallic t _ e H (A e I)).
  assert (P : 0 < wl / UNIT_MAGNITUDE) by lra.
  assert (U : UNIT_MAGNITUDE <> 0) by (unfold UNIT_MAGNITUDE; lra).
  assert (wl <> 0) by (intros ->; unfold Rdiv in P; rewrite Rmult_0_l in P; lra).
  replace (/ (UNIT_MAGNITUDE / wl)) with (wl / UNIT_MAGNITUDE) by (field; auto). exact W.
Qed.
