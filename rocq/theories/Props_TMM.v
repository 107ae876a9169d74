(** The coherent transfer-matrix method of notebooks/tmm_core.py.  [arcsin] is
    scipy's: of it the theorems assume that it inverts the sine and, where they say
    so, that it is the principal value away from the cuts; such functions exist. *)
From Coq Require Import Reals String List Bool.
From Verif Require Import Base PyVal Cplx Model_TMM Spec_TMM.
From Verif Require Import Proof_TMM6 Proof_TMM7 Proof_TMM9 Proof_TMM12 Proof_TMM13 Proof_TMM14 Proof_TMM15 Proof_TMM16.
Import ListNotations.
Open Scope R_scope.

Example arcsin_can_be : exists f, inverts_sine f /\ principal f.
Proof. exact arcsin_exists. Qed.
(** The stack of the examples: air, a film of index 2 + i/20, one wavelength thick,
    glass; light at 30 degrees. *)
Example film_can_be_computed : exists arcsin D, inverts_sine arcsin /\ principal arcsin /\
  coh_tmm arcsin "p" [(1, 0); (2, 1/20); (3/2, 0)] [PInf; Fin 1; PInf] (PI / 6, 0) 1 = Ok D /\ no_opaque_layer D.
Proof. exact film_example. Qed.

(** * C80: the amplitudes are those of the wave in the stack *)
Theorem C80_solves : forall arcsin pol ns ds th0 lam D, inverts_sine arcsin ->
  coh_tmm arcsin pol ns ds th0 lam = Ok D ->
  wave_in_stack pol ns (map Ccos (c_th D)) (phases D) (map (wave_of D) (seq 0 (length ns))) /\
  wave_of D 0 = (C1, c_r D) /\ wave_of D (length ns - 1) = (c_t D, C0).
Proof. exact solves_all. Qed.
Print Assumptions C80_solves.

Theorem C80_unique : forall arcsin pol ns ds th0 lam D waves r t,
  coh_tmm arcsin pol ns ds th0 lam = Ok D ->
  wave_in_stack pol ns (map Ccos (c_th D)) (phases D) waves ->
  nth 0 waves (C0, C0) = (C1, r) -> nth (length ns - 1) waves (C0, C0) = (t, C0) ->
  r = c_r D /\ t = c_t D.
Proof. exact unique_all. Qed.
Print Assumptions C80_unique.

Theorem C80_snell : forall arcsin pol ns ds th0 lam D, inverts_sine arcsin ->
  coh_tmm arcsin pol ns ds th0 lam = Ok D ->
  length (c_th D) = length ns /\
  (forall i, (i < length ns)%nat -> (nth i ns C0 * Csin (nth i (c_th D) C0) = nth 0 ns C0 * Csin th0)%C) /\
  Ccos (nth 0 (c_th D) C0) = Ccos th0 /\
  (Im (nth 0 ns C0 * Csin th0)%C = 0 -> 0 <= Re (nth (length ns - 1) ns C0 * Ccos (nth (length ns - 1) (c_th D) C0))%C) /\
  (forall i, (i < length ns)%nat ->
     nth i (c_kz D) C0 = (RtoC (2 * PI / lam) * (nth i ns C0 * Ccos (nth i (c_th D) C0)))%C).
Proof. exact snell_all. Qed.
Print Assumptions C80_snell.

Theorem C80_returns_inputs : forall arcsin pol ns ds th0 lam D,
  coh_tmm arcsin pol ns ds th0 lam = Ok D ->
  c_pol D = pol /\ c_n D = ns /\ c_d D = ds /\ c_th0 D = th0 /\ c_lam D = lam.
Proof. exact inputs_all. Qed.
Print Assumptions C80_returns_inputs.

Theorem C80_needs : forall arcsin pol ns ds th0 lam D, inverts_sine arcsin ->
  coh_tmm arcsin pol ns ds th0 lam = Ok D ->
  length ds = length ns /\ (2 <= length ns)%nat /\ nth 0 ds NaN = PInf /\ nth (length ns - 1) ds NaN = PInf /\
  (forall i, (0 < i)%nat -> (S i < length ns)%nat -> exists d, nth i ds NaN = Fin d) /\
  (pol = "s" \/ pol = "p")%string /\ lam <> 0 /\ Rabs (Im (nth 0 ns C0 * Csin th0)%C) < 100 * EPSILON /\
  passive (nth 0 ns C0) /\ passive (nth (length ns - 1) ns C0).
Proof. exact needs_all. Qed.
Print Assumptions C80_needs.

Theorem C80_succeeds : forall arcsin pol ns ds th0 lam s, inverts_sine arcsin -> principal arcsin ->
  pol = "s"%string \/ pol = "p"%string -> (2 <= length ns)%nat -> length ds = length ns ->
  nth 0 ds NaN = PInf /\ nth (length ns - 1) ds NaN = PInf ->
  (forall i, (0 < i)%nat -> (S i < length ns)%nat -> exists d, nth i ds NaN = Fin d /\ 0 <= d /\
     Im (nth i ns C0 * Ccos (arcsin (RtoC s / nth i ns C0)))%C * (2 * PI / lam) * d <= 35) ->
  0 < lam -> (nth 0 ns C0 * Csin th0)%C = RtoC s -> 0 < Re (Ccos th0) ->
  (forall i, (i < length ns)%nat -> admits s (nth i ns C0)) ->
  (exists D, coh_tmm arcsin pol ns ds th0 lam = Ok D /\ c_th D = map (fun n => arcsin (RtoC s / n)%C) ns) /\
  (exists D', coh_tmm_reverse arcsin pol ns ds th0 lam = Ok D').
Proof. exact succeeds_all. Qed.
Print Assumptions C80_succeeds.

Theorem C80_interface : forall arcsin pol n0 n1 ds th0 lam D,
  coh_tmm arcsin pol [n0; n1] ds th0 lam = Ok D ->
  c_r D = fresnel_r pol n0 n1 (cosine_of D 0) (cosine_of D 1) /\
  c_t D = fresnel_t pol n0 n1 (cosine_of D 0) (cosine_of D 1).
Proof. exact one_interface. Qed.
Print Assumptions C80_interface.

Theorem C80_slab : forall arcsin pol n0 n1 n2 ds th0 lam D,
  coh_tmm arcsin pol [n0; n1; n2] ds th0 lam = Ok D ->
  let r01 := fresnel_r pol n0 n1 (cosine_of D 0) (cosine_of D 1) in
  let r12 := fresnel_r pol n1 n2 (cosine_of D 1) (cosine_of D 2) in
  let t01 := fresnel_t pol n0 n1 (cosine_of D 0) (cosine_of D 1) in
  let t12 := fresnel_t pol n1 n2 (cosine_of D 1) (cosine_of D 2) in
  let e := Cexp (Ci * nth 1 (phases D) C0)%C in
  (C1 + r01 * r12 * (e * e))%C <> C0 /\
  c_r D = ((r01 + r12 * (e * e)) / (C1 + r01 * r12 * (e * e)))%C /\
  c_t D = (t01 * t12 * e / (C1 + r01 * r12 * (e * e)))%C.
Proof. exact slab_is. Qed.
Print Assumptions C80_slab.

(** Full claim: a last layer of the material of the last medium changes nothing.
    Beyond the critical angle, where numpy's arcsin takes the cosine in the lower
    half plane, the code divides by zero instead. *)
Theorem C80_doubled_last_refused : forall arcsin pol ns n_last ds th0 lam, inverts_sine arcsin -> ns <> [] ->
  Im (n_last * Ccos (arcsin (nth 0 ns C0 * Csin th0 / n_last)))%C < - (100 * EPSILON) ->
  exists e, coh_tmm arcsin pol (ns ++ [n_last; n_last]) ds th0 lam = Err e.
Proof. exact doubled_last. Qed.
Print Assumptions C80_doubled_last_refused.

Theorem C80_doubled_last_refuted : exists arcsin, inverts_sine arcsin /\ principal arcsin /\
  (exists D, coh_tmm arcsin "s" [(4, 0); (1, 0)] [PInf; PInf] (PI / 6, 0) 1 = Ok D) /\
  forall d, exists e, coh_tmm arcsin "s" [(4, 0); (1, 0); (1, 0)] [PInf; Fin d; PInf] (PI / 6, 0) 1 = Err e.
Proof. exact prism_doubled. Qed.
Print Assumptions C80_doubled_last_refuted.

(** * C81: where the power goes *)
Theorem C81_accounts : forall arcsin pol ns ds th0 lam D, inverts_sine arcsin ->
  coh_tmm arcsin pol ns ds th0 lam = Ok D ->
  (forall i, (0 < i)%nat -> (S i < length ns)%nat -> 0 <= thickness (nth i ds NaN)) ->
  exists l, absorp_in_each_layer D = Ok l /\ length l = length ns /\ total l = 1 /\
    nth 0 l 0 = 1 - relative_power D 0 (wave_of D 0) /\
    nth (length ns - 1) l 0 = relative_power D (length ns - 1) (wave_of D (length ns - 1)) /\
    forall i, (0 < i)%nat -> (S i < length ns)%nat ->
      nth i l 0 = relative_power D i (wave_of D i) - relative_power D i (advance (nth i (phases D) C0) (wave_of D i)).
Proof. exact accounts_all. Qed.
Print Assumptions C81_accounts.

Theorem C81_powers : forall arcsin pol ns ds th0 lam D, inverts_sine arcsin ->
  coh_tmm arcsin pol ns ds th0 lam = Ok D ->
  c_T D = relative_power D (length ns - 1) (wave_of D (length ns - 1)) /\
  c_entering D = relative_power D 0 (wave_of D 0) /\
  c_R D = Cnorm2 (c_r D) /\
  (Im (nth 0 ns C0 * Csin th0)%C = 0 -> Im (nth 0 ns C0) = 0 -> Im (Ccos th0) = 0 -> c_R D + c_entering D = 1).
Proof. exact powers_all. Qed.
Print Assumptions C81_powers.

Theorem C81_passive : forall arcsin pol ns ds th0 lam D, inverts_sine arcsin ->
  coh_tmm arcsin pol ns ds th0 lam = Ok D ->
  Im (nth 0 ns C0 * Csin th0)%C = 0 -> 0 < lam -> no_opaque_layer D ->
  (forall i, (0 < i)%nat -> (S i < length ns)%nat -> 0 <= thickness (nth i ds NaN)) ->
  (forall i, (0 < i)%nat -> (S i < length ns)%nat -> passive (nth i ns C0)) ->
  0 <= c_T D <= c_entering D /\
  (exists l, absorp_in_each_layer D = Ok l /\ forall i, (0 < i)%nat -> (i < length ns)%nat -> 0 <= nth i l 0) /\
  (Im (nth 0 ns C0) = 0 -> Im (Ccos th0) = 0 -> 0 <= c_R D /\ c_R D + c_T D <= 1).
Proof. exact passive_all. Qed.
Print Assumptions C81_passive.

Theorem C81_lossless : forall arcsin pol ns ds th0 lam D, inverts_sine arcsin ->
  coh_tmm arcsin pol ns ds th0 lam = Ok D ->
  Im (nth 0 ns C0 * Csin th0)%C = 0 -> no_opaque_layer D ->
  (forall i, (0 < i)%nat -> (S i < length ns)%nat -> 0 <= thickness (nth i ds NaN)) ->
  (forall i, (0 < i)%nat -> (S i < length ns)%nat -> lossless (nth i ns C0)) ->
  c_T D = c_entering D /\
  (exists l, absorp_in_each_layer D = Ok l /\ forall i, (0 < i)%nat -> (S i < length ns)%nat -> nth i l 0 = 0) /\
  (Im (nth 0 ns C0) = 0 -> Im (Ccos th0) = 0 -> c_R D + c_T D = 1).
Proof. exact lossless_all. Qed.
Print Assumptions C81_lossless.

Example C81_passive_case : exists arcsin D l, inverts_sine arcsin /\
  coh_tmm arcsin "p" [(1, 0); (2, 1/20); (3/2, 0)] [PInf; Fin 1; PInf] (PI / 6, 0) 1 = Ok D /\
  absorp_in_each_layer D = Ok l /\ 0 <= nth 1 l 0 /\ c_R D + c_T D <= 1.
Proof. exact passive_example. Qed.
Example C81_lossless_case : exists arcsin D, inverts_sine arcsin /\
  coh_tmm arcsin "s" [(1, 0); (2, 0); (3/2, 0)] [PInf; Fin 1; PInf] (PI / 6, 0) 1 = Ok D /\ c_R D + c_T D = 1.
Proof. exact lossless_example. Qed.

(** * C82: the fields and the absorption at a point *)
Theorem C82_domain : forall arcsin pol ns ds th0 lam D i z, inverts_sine arcsin ->
  coh_tmm arcsin pol ns ds th0 lam = Ok D ->
  ((exists p, position_resolved i z D = Ok p) <-> in_layer ds i z).
Proof. exact resolved_domain. Qed.
Print Assumptions C82_domain.

Theorem C82_fields : forall arcsin pol ns ds th0 lam D i z p, inverts_sine arcsin ->
  coh_tmm arcsin pol ns ds th0 lam = Ok D -> position_resolved i z D = Ok p ->
  p_poyn p = relative_power D i (wave_at D i z) /\
  (p_Ex p, p_Ey p, p_Ez p) =
    (if String.eqb pol "s" then (C0, fst (wave_at D i z) + snd (wave_at D i z), C0)
     else ((fst (wave_at D i z) - snd (wave_at D i z)) * Ccos (nth i (c_th D) C0), C0,
           - (fst (wave_at D i z) + snd (wave_at D i z)) * Csin (nth i (c_th D) C0)))%C.
Proof. exact resolved_fields. Qed.
Print Assumptions C82_fields.

Theorem C82_absorption_is_derivative : forall arcsin pol ns ds th0 lam D i z p, inverts_sine arcsin ->
  coh_tmm arcsin pol ns ds th0 lam = Ok D -> position_resolved i z D = Ok p ->
  derivable_pt_lim (fun y => relative_power D i (wave_at D i y)) z (- p_absor p).
Proof. exact resolved_deriv. Qed.
Print Assumptions C82_absorption_is_derivative.

Theorem C82_absorption_sign : forall arcsin pol ns ds th0 lam D i z p, inverts_sine arcsin ->
  coh_tmm arcsin pol ns ds th0 lam = Ok D -> position_resolved i z D = Ok p ->
  Im (nth 0 ns C0 * Csin th0)%C = 0 -> 0 < lam ->
  (passive (nth i ns C0) -> 0 <= p_absor p) /\ (lossless (nth i ns C0) -> p_absor p = 0).
Proof. exact resolved_sign. Qed.
Print Assumptions C82_absorption_sign.

Theorem C82_continuous : forall arcsin pol ns ds th0 lam D i p q, inverts_sine arcsin ->
  coh_tmm arcsin pol ns ds th0 lam = Ok D -> (S i < length ns)%nat -> no_opaque_layer D ->
  position_resolved i (if Nat.eqb i 0 then 0 else thickness (nth i ds NaN)) D = Ok p ->
  position_resolved (S i) 0 D = Ok q ->
  p_poyn p = p_poyn q /\ p_Ex p = p_Ex q /\ p_Ey p = p_Ey q /\
  (nth i ns C0 * nth i ns C0 * p_Ez p = nth (S i) ns C0 * nth (S i) ns C0 * p_Ez q)%C.
Proof. exact resolved_continuous. Qed.
Print Assumptions C82_continuous.

Theorem C82_ends : forall arcsin pol ns ds th0 lam D p, inverts_sine arcsin ->
  coh_tmm arcsin pol ns ds th0 lam = Ok D ->
  (position_resolved 0 0 D = Ok p -> p_poyn p = c_entering D) /\
  (position_resolved (length ns - 1) 0 D = Ok p -> p_poyn p = c_T D).
Proof. exact resolved_at_ends. Qed.
Print Assumptions C82_ends.

Example C82_case : exists arcsin D p q, inverts_sine arcsin /\
  coh_tmm arcsin "p" [(1, 0); (2, 1/20); (3/2, 0)] [PInf; Fin 1; PInf] (PI / 6, 0) 1 = Ok D /\
  position_resolved 1 1 D = Ok p /\ position_resolved 2 0 D = Ok q /\ 0 <= p_absor p /\ p_poyn p = p_poyn q.
Proof. exact resolved_example. Qed.

(** * C83: light from the other side *)
Theorem C83_reciprocity : forall arcsin, inverts_sine arcsin -> forall pol ns ds th0 lam D D',
  coh_tmm arcsin pol ns ds th0 lam = Ok D -> coh_tmm_reverse arcsin pol ns ds th0 lam = Ok D' ->
  (nth 0 ns C0 * Ccos (nth 0 (c_th D) C0) * c_t D' =
   nth (length ns - 1) ns C0 * Ccos (nth (length ns - 1) (c_th D) C0) * c_t D)%C.
Proof. exact reciprocity. Qed.
Print Assumptions C83_reciprocity.

Theorem C83_same_T : forall arcsin, inverts_sine arcsin -> forall pol ns ds th0 lam D D',
  coh_tmm arcsin pol ns ds th0 lam = Ok D -> coh_tmm_reverse arcsin pol ns ds th0 lam = Ok D' ->
  Im (nth 0 ns C0) = 0 -> Im (nth (length ns - 1) ns C0) = 0 ->
  Im (Ccos (nth 0 (c_th D) C0)) = 0 -> Im (Ccos (nth (length ns - 1) (c_th D) C0)) = 0 ->
  c_T D' = c_T D.
Proof. exact T_same. Qed.
Print Assumptions C83_same_T.

Theorem C83_same_R : forall arcsin, inverts_sine arcsin -> forall pol ns ds th0 lam D D',
  coh_tmm arcsin pol ns ds th0 lam = Ok D -> coh_tmm_reverse arcsin pol ns ds th0 lam = Ok D' ->
  Im (nth 0 ns C0 * Csin th0)%C = 0 -> no_opaque_layer D ->
  (forall i, (0 < i)%nat -> (S i < length ns)%nat -> 0 <= thickness (nth i ds NaN)) ->
  (forall i, (0 < i)%nat -> (S i < length ns)%nat -> lossless (nth i ns C0)) ->
  Im (nth 0 ns C0) = 0 -> Im (nth (length ns - 1) ns C0) = 0 ->
  Im (cosine_of D 0) = 0 -> Im (cosine_of D (length ns - 1)) = 0 ->
  c_R D' = c_R D.
Proof. exact R_same. Qed.
Print Assumptions C83_same_R.

Example C83_case : exists arcsin D D', inverts_sine arcsin /\
  coh_tmm arcsin "s" [(1, 0); (2, 0); (3/2, 0)] [PInf; Fin 1; PInf] (PI / 6, 0) 1 = Ok D /\
  coh_tmm_reverse arcsin "s" [(1, 0); (2, 0); (3/2, 0)] [PInf; Fin 1; PInf] (PI / 6, 0) 1 = Ok D' /\
  c_T D' = c_T D /\ c_R D' = c_R D.
Proof. exact reverse_example. Qed.

(** * C84: stacks that act alike *)
Theorem C84_scaling : forall arcsin pol ns ds th0 lam k, k <> 0 ->
  coh_tmm arcsin pol ns (map (scaled k) ds) th0 (k * lam) =
  let! D := coh_tmm arcsin pol ns ds th0 lam in
  Ok (mkCoh (c_r D) (c_t D) (c_R D) (c_T D) (c_entering D) (c_vw D) (map (fun q => (q / RtoC k)%C) (c_kz D)) (c_th D)
            (c_pol D) (c_n D) (map (scaled k) (c_d D)) (c_th0 D) (k * lam)).
Proof. exact Proof_TMM11.scaling. Qed.
Print Assumptions C84_scaling.

Theorem C84_no_thickness : forall arcsin, inverts_sine arcsin -> forall pol A B n dA dB th0 lam D D',
  A <> [] -> B <> [] -> length dA = length A ->
  coh_tmm arcsin pol (A ++ B) (dA ++ dB) th0 lam = Ok D ->
  coh_tmm arcsin pol (A ++ n :: B) (dA ++ Fin 0 :: dB) th0 lam = Ok D' ->
  c_r D' = c_r D /\ c_t D' = c_t D /\ c_R D' = c_R D /\ c_T D' = c_T D.
Proof. exact no_thickness. Qed.
Print Assumptions C84_no_thickness.

Theorem C84_cut_layer : forall arcsin, inverts_sine arcsin -> forall pol A B n dA dB d1 d2 th0 lam D D',
  A <> [] -> B <> [] -> length dA = length A -> 0 <= d1 -> 0 <= d2 ->
  coh_tmm arcsin pol (A ++ n :: B) (dA ++ Fin (d1 + d2) :: dB) th0 lam = Ok D ->
  coh_tmm arcsin pol (A ++ n :: n :: B) (dA ++ Fin d1 :: Fin d2 :: dB) th0 lam = Ok D' ->
  0 <= Im (nth (length A) (c_kz D) C0) -> Im (nth (length A) (c_kz D) C0 * RtoC (d1 + d2))%C <= 35 ->
  c_r D' = c_r D /\ c_t D' = c_t D /\ c_R D' = c_R D /\ c_T D' = c_T D.
Proof. exact cut_layer. Qed.
Print Assumptions C84_cut_layer.

Theorem C84_half_waves : forall arcsin, inverts_sine arcsin -> forall pol ns dA dB d h m th0 lam D D',
  coh_tmm arcsin pol ns (dA ++ Fin d :: dB) th0 lam = Ok D ->
  coh_tmm arcsin pol ns (dA ++ Fin (d + h) :: dB) th0 lam = Ok D' ->
  Im (nth (length dA) (c_kz D) C0) = 0 -> Re (nth (length dA) (c_kz D) C0) * h = INR m * PI ->
  c_r D' = c_r D /\ c_t D' = (RtoC ((-1) ^ m) * c_t D)%C /\ c_R D' = c_R D /\ c_T D' = c_T D.
Proof. exact half_waves. Qed.
Print Assumptions C84_half_waves.

Example C84_case : exists arcsin D D' D'', inverts_sine arcsin /\
  coh_tmm arcsin "s" ([(1, 0); (2, 0)] ++ [(3/2, 0)]) ([PInf; Fin (1/2)] ++ [PInf]) (PI / 6, 0) 1 = Ok D /\
  coh_tmm arcsin "s" ([(1, 0); (2, 0)] ++ (2, 1/10) :: [(3/2, 0)]) ([PInf; Fin (1/2)] ++ Fin 0 :: [PInf]) (PI / 6, 0) 1 = Ok D' /\
  coh_tmm arcsin "s" ([(1, 0)] ++ (2, 0) :: (2, 0) :: [(3/2, 0)]) ([PInf] ++ Fin (1/4) :: Fin (1/4) :: [PInf]) (PI / 6, 0) 1 = Ok D'' /\
  c_T D' = c_T D /\ c_T D'' = c_T D.
Proof. exact alike_example. Qed.

(** * C85: polarization *)
Theorem C85_normal_incidence : forall arcsin, inverts_sine arcsin -> principal arcsin -> forall ns ds lam S P,
  coh_tmm arcsin "s" ns ds C0 lam = Ok S -> coh_tmm arcsin "p" ns ds C0 lam = Ok P ->
  0 < Re (nth (length ns - 1) ns C0) ->
  c_r P = (- c_r S)%C /\ c_t P = c_t S /\ c_R P = c_R S /\ c_T P = c_T S.
Proof. exact normal_incidence. Qed.
Print Assumptions C85_normal_incidence.

Theorem C85_unpolarized : forall arcsin ns ds th0 lam R T,
  (unpolarized_RT arcsin ns ds th0 lam = Ok (R, T) <->
   exists S P, coh_tmm arcsin "s" ns ds th0 lam = Ok S /\ coh_tmm arcsin "p" ns ds th0 lam = Ok P /\
     R = (c_R S + c_R P) / 2 /\ T = (c_T S + c_T P) / 2).
Proof. exact unpolarized_is. Qed.
Print Assumptions C85_unpolarized.

Theorem C85_unpolarized_bounds : forall arcsin ns ds th0 lam R T, inverts_sine arcsin ->
  unpolarized_RT arcsin ns ds th0 lam = Ok (R, T) ->
  Im (nth 0 ns C0 * Csin th0)%C = 0 -> 0 < lam ->
  (forall S, coh_tmm arcsin "s" ns ds th0 lam = Ok S -> no_opaque_layer S) ->
  (forall i, (0 < i)%nat -> (S i < length ns)%nat -> 0 <= thickness (nth i ds NaN)) ->
  Im (nth 0 ns C0) = 0 -> Im (Ccos th0) = 0 ->
  ((forall i, (0 < i)%nat -> (S i < length ns)%nat -> passive (nth i ns C0)) -> 0 <= R /\ 0 <= T /\ R + T <= 1) /\
  ((forall i, (0 < i)%nat -> (S i < length ns)%nat -> lossless (nth i ns C0)) -> R + T = 1).
Proof. exact unpolarized_bounds. Qed.
Print Assumptions C85_unpolarized_bounds.

Example C85_case : exists arcsin R T, inverts_sine arcsin /\
  unpolarized_RT arcsin [(1, 0); (2, 0); (3/2, 0)] [PInf; Fin 1; PInf] (PI / 6, 0) 1 = Ok (R, T) /\ R + T = 1.
Proof. exact unpolarized_example. Qed.
