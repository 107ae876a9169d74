(** Property theorems C02 - C05: the config validator. *)
From Coq Require Import Reals ZArith String List Bool Lra.
From Verif Require Import Base PyVal Model_Config Spec_Config Proof_Config.
Import ListNotations.
Open Scope string_scope.
Open Scope R_scope.

(** C02: an accepted config has all documented keys and no unknown ones;
    otherwise a KeyError is raised, whatever else is wrong. *)
Theorem C02_accepted_keys : forall c w, validate_config c = Ok w ->
  keys_complete c /\ keys_known c.
Proof. exact (fun c w H => match validate_sound c w H with conj a (conj b _) => conj a b end). Qed.
Print Assumptions C02_accepted_keys.
Theorem C02_keyerror : forall c, ~ (keys_complete c /\ keys_known c) ->
  validate_config c = Err KeyError.
Proof. exact validate_keyerror. Qed.
Print Assumptions C02_keyerror.
Example C02_missing_key : validate_config (tl default_config) = Err KeyError.
Proof. reflexivity. Qed.
Example C02_unknown_key : validate_config (("Nxx", VInt 1) :: default_config) = Err KeyError.
Proof. reflexivity. Qed.

(** C03: an accepted config is well typed; a wrong type is a TypeError. *)
Theorem C03_accepted_types : forall c w, validate_config c = Ok w -> well_typed c.
Proof. exact (fun c w H => match validate_sound c w H with conj _ (conj _ (conj t _)) => t end). Qed.
Print Assumptions C03_accepted_types.
Theorem C03_typeerror : forall c, keys_complete c -> keys_known c -> ~ well_typed c ->
  validate_config c = Err TypeError.
Proof. exact validate_typeerror. Qed.
Print Assumptions C03_typeerror.
Example C03_int_for_float : validate_config (replace default_config "L" (VInt 1)) = Err TypeError.
Proof. reflexivity. Qed.

(** C04: acceptance is exactly keys + types + the documented ranges. *)
Theorem C04_accepted_ranges : forall c w, validate_config c = Ok w -> ranges_ok c.
Proof. exact (fun c w H => match validate_sound c w H with conj _ (conj _ (conj _ r)) => r end). Qed.
Print Assumptions C04_accepted_ranges.
Theorem C04_complete : forall c, keys_complete c /\ keys_known c /\ well_typed c /\ ranges_ok c ->
  ~ entry c "solver" (VStr "FDTD") -> validate_config c = Ok [].
Proof. exact validate_complete. Qed.
Print Assumptions C04_complete.
(** With the FDTD solver, if additionally thicknesses are finite numbers. *)
Theorem C04_complete_fdtd : forall c, keys_complete c /\ keys_known c /\ well_typed c /\ ranges_ok c ->
  (exists p, entry c "FDTD_pml_thickness" (VFloat (Fin p))) ->
  (forall l t, entry c "PER_LAYER_THICKNESS" (VList l) -> In t l -> exists r, num_of t = Some (Fin r)) ->
  exists w, validate_config c = Ok w.
Proof. exact validate_complete_fdtd. Qed.
Print Assumptions C04_complete_fdtd.
Example C04_default_config : validate_config default_config = Ok [].
Proof. exact default_accepted. Qed.
(** "physical_wavelength_range" is only required to be ordered: negative
    wavelengths are accepted. *)
Theorem C04_wavelengths_positive_refuted : exists c w,
  validate_config c = Ok w /\ entry c "physical_wavelength_range" (VList [fl (-1); fl (-1/2)]).
Proof. exact negative_wavelength_accepted. Qed.
Print Assumptions C04_wavelengths_positive_refuted.

(** C05: list positivity.  Zeros are rejected ... *)
Theorem C05_zero_rejected : forall c w k l x, validate_config c = Ok w ->
  k = "PER_LAYER_THICKNESS" \/ k = "FDTD_source_position" ->
  entry c k (VList l) -> In x l -> num_of x <> Some (Fin 0).
Proof. exact zero_rejected. Qed.
Print Assumptions C05_zero_rejected.
(** ... but signs are never looked at: any same-length list of non-zero
    values is as valid as the original, *)
Theorem C05_thickness_sign_blind : forall c l l',
  keys_complete c /\ keys_known c /\ well_typed c /\ ranges_ok c ->
  entry c "PER_LAYER_THICKNESS" (VList l) -> length l' = length l ->
  (forall x, In x l' -> truthy x = true) ->
  let c' := replace c "PER_LAYER_THICKNESS" (VList l') in
  keys_complete c' /\ keys_known c' /\ well_typed c' /\ ranges_ok c'.
Proof. exact thickness_sign_blind. Qed.
Print Assumptions C05_thickness_sign_blind.
(** and the target spectra may be any lists. *)
Theorem C05_spectrum_unchecked : forall c k l,
  keys_complete c /\ keys_known c /\ well_typed c /\ ranges_ok c ->
  k = "target_reflectance_spectrum" \/ k = "target_transmittance_spectrum" ->
  let c' := replace c k (VList l) in
  keys_complete c' /\ keys_known c' /\ well_typed c' /\ ranges_ok c'.
Proof. exact spectrum_unchecked. Qed.
Print Assumptions C05_spectrum_unchecked.
(** So the documented requirement is not enforced. *)
Theorem C05_positive_thickness_refuted : exists c w,
  validate_config c = Ok w /\ entry c "PER_LAYER_THICKNESS" (VList [fl (-1)]).
Proof. exact negative_thickness_accepted. Qed.
Print Assumptions C05_positive_thickness_refuted.
Theorem C05_nonnegative_spectrum_refuted : exists c w,
  validate_config c = Ok w /\ entry c "target_reflectance_spectrum" (VList (repeat (fl (-1)) 20)).
Proof. exact negative_spectrum_accepted. Qed.
Print Assumptions C05_nonnegative_spectrum_refuted.
