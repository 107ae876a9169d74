(** Property theorems C108: light needs time.  The words used in the statements are defined
    in Spec_Causal.v, those about the layout in Spec_Layout.v. *)
From Coq Require Import Reals ZArith String List Bool Lra Lia.
From Verif Require Import Base PyVal Spec_Config Model_Units Model_Coeffs Model_FDTD Model_Register Spec_FDTD Spec_Register Model_Layout Spec_Layout
  Spec_Harmonic Proof_Harmonic7 Spec_Causal Proof_Causal2 Proof_Causal3.
Import ListNotations.
Open Scope R_scope.

(** Two stacks with the same first [j] layers give the same reflection signal until light
    has had the time to go to layer [j] and come back, whatever follows and whatever the
    sources emit. *)
Theorem C108_unaware : forall c (s1 s2 : eps_slice) wl row1 row2 l1 l2 j s0 t1 r1 t2 r2, proper c -> 1 <= f_scaling c * f_pml c -> known_kinds c -> 0 < wl ->
  f_thick c <> [] -> get s1 0 = Ok row1 -> get row1 0 = Ok l1 -> l1 <> [] -> get s2 0 = Ok row2 -> get row2 0 = Ok l2 -> l2 <> [] ->
  (forall e, In e l1 \/ In e l2 -> 0 < fst e /\ 0 <= snd e) ->
  (j <= length l1)%nat -> (j <= length l2)%nat -> firstn j l1 = firstn j l2 ->
  Rtrunc (f_src_x c * f_scaling c) = Z.of_nat s0 -> (pml_columns c <= S s0)%nat -> (S s0 < edge c j)%nat ->
  simulate c (Some s1) wl = Ok (t1, r1) -> simulate c (Some s2) wl = Ok (t2, r2) ->
  forall k, (k < return_time c s0 j)%nat -> nth_error r1 k = nth_error r2 k.
Proof. exact reflection_unaware. Qed.
Print Assumptions C108_unaware.
(** Two stacks that differ in the second layer: 28 of 400 samples are equal. *)
Example C108_unaware_case : exists t1 r1 t2 r2, simulate stack_cfg (Some stack_slice) (1 / 1000000) = Ok (t1, r1) /\ simulate stack_cfg (Some other_slice) (1 / 1000000) = Ok (t2, r2)
  /\ length r1 = 400%nat /\ forall k, (k < 28)%nat -> nth_error r1 k = nth_error r2 k.
Proof. exact unaware_case. Qed.

(** Against free space: the reflected signal, which is the difference of the two, is exactly
    zero until light has been to the first layer that is not vacuum and back. *)
Theorem C108_nothing_reflected : forall c (s : eps_slice) wl row l j s0 tm rm tf rf, proper c -> 1 <= f_scaling c * f_pml c -> known_kinds c -> 0 < wl ->
  f_thick c <> [] -> get s 0 = Ok row -> get row 0 = Ok l -> l <> [] -> (forall e, In e l -> 0 < fst e /\ 0 <= snd e) ->
  (j <= length l)%nat -> (forall e, In e (firstn j l) -> e = (1, 0)) ->
  Rtrunc (f_src_x c * f_scaling c) = Z.of_nat s0 -> (pml_columns c <= S s0)%nat -> (S s0 < edge c j)%nat ->
  simulate c (Some s) wl = Ok (tm, rm) -> simulate c None wl = Ok (tf, rf) ->
  forall k, (k < return_time c s0 j)%nat -> nth_error rm k = nth_error rf k.
Proof. exact reflection_free. Qed.
Print Assumptions C108_nothing_reflected.

(** A detector records exact zeros until light from the source, or what the right PML emits,
    can have reached it. *)
Theorem C108_still_dark : forall c (obj : option eps_slice) wl s0 t r, proper c -> 1 <= f_scaling c * f_pml c -> known_kinds c -> 0 < wl -> f_thick c <> [] ->
  (obj = None \/ exists slice row layers, obj = Some slice /\ get slice 0 = Ok row /\ get row 0 = Ok layers /\ layers <> []
     /\ forall e, In e layers -> 0 < fst e /\ 0 <= snd e) ->
  Rtrunc (f_src_x c * f_scaling c) = Z.of_nat s0 -> (pml_columns c <= S s0)%nat ->
  simulate c obj wl = Ok (t, r) -> forall k, (k < Z.to_nat (f_niter c))%nat ->
  ((k < arrival_time c s0 (transmission_column c))%nat -> nth_error t k = Some 0)
  /\ ((k < arrival_time c s0 (reflection_column c))%nat -> nth_error r k = Some 0).
Proof. exact signals_dark. Qed.
Print Assumptions C108_still_dark.
Example C108_times_case : return_time stack_cfg 15 0 = 8%nat /\ return_time stack_cfg 15 1 = 28%nat
  /\ arrival_time stack_cfg 15 (transmission_column stack_cfg) = 8%nat /\ arrival_time stack_cfg 15 (reflection_column stack_cfg) = 8%nat.
Proof. exact stack_times. Qed.

(** With so few time steps that the light cannot have reached one of the detectors, an entry
    of the spectrum raises ValueError. *)
Theorem C108_too_short : forall f wl (slice : eps_slice) row layers s0, proper f -> 1 <= f_scaling f * f_pml f -> known_kinds f -> usable_source f ->
  UNIT_MAGNITUDE <= wl * f_scaling f ->
  get slice 0 = Ok row -> get row 0 = Ok layers -> f_thick f <> [] -> layers <> [] -> (length layers <= length (f_thick f))%nat ->
  (exists e, In e (concat (concat slice)) /\ 0 <= fst e) ->
  Rtrunc (f_src_x f * f_scaling f) = Z.of_nat s0 -> (pml_columns f <= S s0)%nat ->
  (Z.to_nat (f_niter f) <= arrival_time f s0 (transmission_column f) \/ Z.to_nat (f_niter f) <= arrival_time f s0 (reflection_column f))%nat ->
  one_wavelength f wl slice = Err ValueError.
Proof. exact too_short. Qed.
Print Assumptions C108_too_short.
Example C108_too_short_case : one_wavelength short_cfg (1 / 1000000) stack_slice = Err ValueError.
Proof. exact short_case. Qed.
