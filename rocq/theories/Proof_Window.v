(** The window of the steady-state search. *)
From Coq Require Import Reals ZArith String List Bool Lra Lia Psatz.
From Verif Require Import Base BaseLemmas PyVal Spec_Config Model_Config Model_Units Model_EpsGrid Model_Coeffs Model_FDTD Model_Register
  Spec_FDTD Spec_Register Model_Layout Spec_Layout Proof_Vacuum.
Import ListNotations.
Open Scope R_scope.

Lemma window_floor m wl : 0 <= wl -> let w := window_size m wl in
  INR w <= 3 * INR m * (wl / UNIT_MAGNITUDE) < INR w + 1.
Proof.
  intros H w. assert (U : UNIT_MAGNITUDE = / 10 ^ 6) by (unfold UNIT_MAGNITUDE; lra). rewrite U.
  unfold w, window_size. set (x := 3 * INR m * (wl / / 10 ^ 6)).
  assert (P : 0 <= x).
  { unfold x. apply Rmult_le_pos; [pose proof (pos_INR m); lra|]. apply Rmult_le_pos; [exact H|]. left. apply Rinv_0_lt_compat. lra. }
  unfold Rtrunc. destruct (Rle_dec 0 x) as [_|N]; [|contradiction].
  destruct (base_Int_part x) as [A B].
  assert (Q : (0 <= Int_part x)%Z).
  { assert (-1 < Int_part x)%Z by (apply lt_IZR; lra). lia. }
  rewrite INR_IZR_INZ, Z2Nat.id by exact Q. lra.
Qed.
Lemma entry_value_window f wl (slice : eps_slice) row layers : proper f -> 1 <= f_scaling f * f_pml f -> known_kinds f -> usable_source f ->
  UNIT_MAGNITUDE <= wl * f_scaling f ->
  get slice 0 = Ok row -> get row 0 = Ok layers -> f_thick f <> [] -> layers <> [] -> (length layers <= length (f_thick f))%nat ->
  (exists e, In e (concat (concat slice)) /\ 0 <= fst e) ->
  exists tf rf tm rm w, simulate f None wl = Ok (tf, rf) /\ simulate f (Some slice) wl = Ok (tm, rm)
    /\ length tf = Z.to_nat (f_niter f) /\ length rf = Z.to_nat (f_niter f)
    /\ length tm = Z.to_nat (f_niter f) /\ length rm = Z.to_nat (f_niter f)
    /\ INR w <= 3 * INR (f_min_gp f) * (wl / UNIT_MAGNITUDE) < INR w + 1
    /\ one_wavelength f wl slice = calculate_coefficients w tf tm rf rm.
Proof.
  intros P H1 HK HU Hw HR HL HT HE LL He.
  destruct (entry_value f wl slice row layers P H1 HK HU Hw HR HL HT HE LL He) as (tf & rf & tm & rm & A1 & A2 & A3 & A4 & A5 & A6 & A7).
  exists tf, rf, tm, rm, (window_size (f_min_gp f) wl). repeat (split; [assumption|]). split; [|assumption].
  apply window_floor.
  assert (0 < f_scaling f) by (apply pr_scaling; exact P). assert (0 < UNIT_MAGNITUDE) by (unfold UNIT_MAGNITUDE; lra). nra.
Qed.
