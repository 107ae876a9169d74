(** Property theorems C89-C92: the incoherent transfer-matrix method.  [well_formed],
    [is_stack], [intensity], [crossing_of], [pass_of], [balanced], [interface_crossing],
    [layer_of], [reaching_end], [no_gain] and [transparent] are defined in Spec_TMM3.v. *)
From Coq Require Import Reals ZArith String List Bool.
From Verif Require Import Base PyVal Cplx Model_TMM Model_TMM2 Model_TMM3 Spec_TMM Spec_TMM3.
From Verif Require Proof_TMM23 Proof_TMM24 Proof_TMM26 Proof_TMM27 Proof_TMM28 Proof_TMM29 Proof_TMM30 Proof_TMM31 Proof_TMM32.
Import ListNotations.
Open Scope R_scope.

(** * C89: grouping the layers *)
Theorem C89_accepts : forall ns ds cs, (exists g, inc_group_layers ns ds cs = Ok g) <-> well_formed ns ds cs.
Proof. exact Proof_TMM23.group_accepts_iff. Qed.
Print Assumptions C89_accepts.
Theorem C89_refuses : forall ns ds cs, ds <> [] -> cs <> [] -> ~ well_formed ns ds cs -> inc_group_layers ns ds cs = Err ValueError.
Proof. exact Proof_TMM23.group_refuses. Qed.
Print Assumptions C89_refuses.
(** The incoherent layers, in order, and the way back. *)
Theorem C89_incoherent : forall ns ds cs g, inc_group_layers ns ds cs = Ok g ->
  g_all_from_inc g = filter (fun i => String.eqb (nth i cs EmptyString) "i") (seq 0 (length cs)).
Proof. exact Proof_TMM23.inc_positions. Qed.
Print Assumptions C89_incoherent.
Theorem C89_incoherent_inverse : forall ns ds cs g, inc_group_layers ns ds cs = Ok g ->
  length (g_inc_from_all g) = length ns /\
  forall i j, (nth i (g_inc_from_all g) None = Some j <-> nth_error (g_all_from_inc g) j = Some i).
Proof. exact Proof_TMM23.inc_inverse. Qed.
Print Assumptions C89_incoherent_inverse.
(** The stacks: each run of coherent layers with the incoherent layers around it. *)
Theorem C89_stacks : forall ns ds cs g, inc_group_layers ns ds cs = Ok g ->
  forall run, In run (g_all_from_stack g) <-> exists a m, is_stack cs a m /\ run = seq a (m + 2).
Proof. exact Proof_TMM23.stacks_are. Qed.
Print Assumptions C89_stacks.
Theorem C89_stacks_in_order : forall ns ds cs g, inc_group_layers ns ds cs = Ok g ->
  forall s s' run run', (s < s')%nat -> nth_error (g_all_from_stack g) s = Some run -> nth_error (g_all_from_stack g) s' = Some run' ->
  (last run 0 <= nth 0 run' 0)%nat.
Proof. exact Proof_TMM23.stacks_in_order. Qed.
Print Assumptions C89_stacks_in_order.
Theorem C89_stack_layers : forall ns ds cs g, inc_group_layers ns ds cs = Ok g ->
  g_stack_n g = map (map (fun i => nth i ns C0)) (g_all_from_stack g) /\
  g_stack_d g = map (fun run => PInf :: map (fun i => nth i ds NaN) (removelast (tl run)) ++ [PInf]) (g_all_from_stack g).
Proof. exact Proof_TMM23.stack_layers. Qed.
Print Assumptions C89_stack_layers.
Theorem C89_stack_inverse : forall ns ds cs g, inc_group_layers ns ds cs = Ok g ->
  length (g_stack_from_all g) = length ns /\
  forall i s w, (nth i (g_stack_from_all g) None = Some (s, w) <->
    exists run, nth_error (g_all_from_stack g) s = Some run /\ nth_error run w = Some i /\ (0 < w)%nat /\ (S w < length run)%nat).
Proof. exact Proof_TMM23.stack_inverse. Qed.
Print Assumptions C89_stack_inverse.
Theorem C89_around_stack : forall ns ds cs g, inc_group_layers ns ds cs = Ok g ->
  length (g_inc_from_stack g) = length (g_all_from_stack g) /\
  forall s run j, nth_error (g_all_from_stack g) s = Some run -> nth_error (g_inc_from_stack g) s = Some j ->
    nth_error (g_all_from_inc g) j = Some (nth 0 run 0%nat) /\ nth_error (g_all_from_inc g) (S j) = Some (last run 0%nat).
Proof. exact Proof_TMM23.around_stack. Qed.
Print Assumptions C89_around_stack.
Theorem C89_stack_before : forall ns ds cs g, inc_group_layers ns ds cs = Ok g ->
  length (g_stack_from_inc g) = length (g_all_from_inc g) /\
  forall j s, (nth j (g_stack_from_inc g) None = Some s <->
    exists run, nth_error (g_all_from_stack g) s = Some run /\ nth_error (g_all_from_inc g) j = Some (last run 0%nat)).
Proof. exact Proof_TMM23.stack_before. Qed.
Print Assumptions C89_stack_before.
Example C89_case (a b c d e : C) (x y z : R) :
  inc_group_layers [a; b; c; d; e] [PInf; Fin x; Fin y; Fin z; PInf] ["i"; "c"; "c"; "i"; "i"]%string =
  Ok (mkGroup [[PInf; Fin x; Fin y; PInf]] [[a; b; c; d]] [0; 3; 4]%nat [Some 0; None; None; Some 1; Some 2]%nat [[0; 1; 2; 3]%nat]
              [None; Some (0, 1); Some (0, 2); None; None]%nat [0%nat] [None; Some 0%nat; None]).
Proof. reflexivity. Qed.

(** * C90: the intensities in and between the incoherent layers *)
Theorem C90_layers : forall arcsin pol ns ds cs th0 lam D, inc_tmm arcsin pol ns ds cs th0 lam = Ok D ->
  well_formed ns ds cs /\ inc_group_layers ns ds cs = Ok (i_group D) /\
  map (layer_of D) (seq 0 (incoherent_layers D)) = filter (fun i => String.eqb (nth i cs EmptyString) "i") (seq 0 (length cs)).
Proof. exact Proof_TMM31.layers_all. Qed.
Print Assumptions C90_layers.
(** With intensity 1 coming in and none coming from behind, they are in balance. *)
Theorem C90_balance : forall arcsin pol ns ds cs th0 lam D, inc_tmm arcsin pol ns ds cs th0 lam = Ok D ->
  (2 <= incoherent_layers D)%nat /\
  balanced (incoherent_layers D) (crossing_of D) (pass_of D) (intensity D) /\
  intensity D 0 = (1, i_R D) /\ intensity D (incoherent_layers D - 1) = (i_T D, 0).
Proof. exact Proof_TMM24.balance_all. Qed.
Print Assumptions C90_balance.
(** No other intensities are. *)
Theorem C90_unique : forall arcsin pol ns ds cs th0 lam D I t, inc_tmm arcsin pol ns ds cs th0 lam = Ok D ->
  balanced (incoherent_layers D) (crossing_of D) (pass_of D) I -> fst (I 0%nat) = 1 -> I (incoherent_layers D - 1)%nat = (t, 0) ->
  snd (I 0%nat) = i_R D /\ t = i_T D /\ forall k, (k < incoherent_layers D)%nat -> I k = intensity D k.
Proof. exact Proof_TMM24.unique_balance_all. Qed.
Print Assumptions C90_unique.
(** Snell's law gives the angles; light crosses an interface as Fresnel says, a
    stack as the coherent method says from either side; a layer lets pass what
    its absorption leaves, at least 1e-30. *)
Theorem C90_crossings : forall arcsin pol ns ds cs th0 lam D, inverts_sine arcsin -> inc_tmm arcsin pol ns ds cs th0 lam = Ok D ->
  (2 <= length ns)%nat /\ exists ths, list_snell arcsin ns th0 = Ok ths /\ length ths = length ns /\
  (forall i, (i < length ns)%nat -> (nth i ns C0 * Csin (nth i ths C0))%C = (nth 0 ns C0 * Csin th0)%C) /\
  (is_forward_angle (nth 0 ns C0) th0 = Ok true -> Ccos (nth 0 ths C0) = Ccos th0) /\
  (forall k, (S k < incoherent_layers D)%nat -> layer_of D (S k) = S (layer_of D k) ->
     crossing_of D k = interface_crossing pol (nth (layer_of D k) ns C0) (Ccos (nth (layer_of D k) ths C0))
                                              (nth (S (layer_of D k)) ns C0) (Ccos (nth (S (layer_of D k)) ths C0))) /\
  (forall k, (S k < incoherent_layers D)%nat -> layer_of D (S k) <> S (layer_of D k) -> exists c b,
     let a := layer_of D k in let m := (layer_of D (S k) - a - 1)%nat in
     let n := map (fun i => nth i ns C0) (seq a (m + 2)) in
     let d := PInf :: map (fun i => nth i ds NaN) (seq (S a) m) ++ [PInf] in
     coh_tmm arcsin pol n d (nth a ths C0) lam = Ok c /\ coh_tmm_reverse arcsin pol n d (nth a ths C0) lam = Ok b /\
     crossing_of D k = mkCross (c_R c) (c_T c) (c_R b) (c_T b)) /\
  (forall k, (0 < k)%nat -> (S k < incoherent_layers D)%nat -> exists d, nth (layer_of D k) ds NaN = Fin d /\ lam <> 0 /\
     pass_of D k = Rmax (exp (- (4 * PI * Im (nth (layer_of D k) ns C0 * Ccos (nth (layer_of D k) ths C0))%C / lam * d))) (/ 10 ^ 30)).
Proof. exact Proof_TMM31.angles_all. Qed.
Print Assumptions C90_crossings.
(** Layers for which it succeeds *)
Theorem C90_succeeds : forall arcsin, inverts_sine arcsin -> principal arcsin ->
  forall pol ns ds cs th0 lam s, pol = "s"%string \/ pol = "p"%string -> well_formed ns ds cs -> (2 <= length ns)%nat -> 0 < lam ->
  (nth 0 ns C0 * Csin th0)%C = RtoC s ->
  (forall i, nth i cs EmptyString = "i"%string -> transparent s (nth i ns C0)) ->
  (forall i, (0 < i)%nat -> (S i < length ns)%nat -> exists d, nth i ds NaN = Fin d) ->
  (forall i, nth i cs EmptyString = "c"%string -> admits s (nth i ns C0) /\ 0 <= thickness (nth i ds NaN) /\
     Im (nth i ns C0 * Ccos (arcsin (RtoC s / nth i ns C0)))%C * (2 * PI / lam) * thickness (nth i ds NaN) <= 35) ->
  exists D, inc_tmm arcsin pol ns ds cs th0 lam = Ok D /\ forall c, In c (i_coh D) \/ In c (i_bcoh D) -> no_opaque_layer c.
Proof. exact Proof_TMM30.inc_succeeds. Qed.
Print Assumptions C90_succeeds.
Example C90_case : exists arcsin D, inverts_sine arcsin /\ principal arcsin /\
  inc_tmm arcsin "s" [(1, 0); (3/2, 0); (1, 0)] [PInf; Fin 1; PInf] ["i"; "i"; "i"]%string C0 1 = Ok D /\
  i_R D = 1/13 /\ i_T D = 12/13.
Proof. exact Proof_TMM31.slab_example. Qed.

(** * C91: absorption, and bounds *)
Theorem C91_accounts : forall arcsin pol ns ds cs th0 lam D, inverts_sine arcsin -> inc_tmm arcsin pol ns ds cs th0 lam = Ok D ->
  (forall i, nth i cs EmptyString = "c"%string -> 0 <= thickness (nth i ds NaN)) ->
  exists l, inc_absorp_in_each_layer D = Ok l /\ length l = length ns /\ total l = 1 /\ nth (length ns - 1) l 0 = i_T D.
Proof. exact Proof_TMM26.inc_accounts. Qed.
Print Assumptions C91_accounts.
(** The entry of an incoherent layer is what enters it less what leaves it forwards;
    a layer of a stack absorbs of the light that comes from either side. *)
Theorem C91_entries : forall arcsin pol ns ds cs th0 lam D, inverts_sine arcsin -> inc_tmm arcsin pol ns ds cs th0 lam = Ok D ->
  (forall i, nth i cs EmptyString = "c"%string -> 0 <= thickness (nth i ds NaN)) ->
  forall l k, inc_absorp_in_each_layer D = Ok l -> (S k < incoherent_layers D)%nat ->
  let a := layer_of D k in let m := (layer_of D (S k) - a - 1)%nat in
  let F := reaching_end D k in let B := snd (intensity D (S k)) in
  (m = 0%nat -> nth (S k) (i_entering D) 0 = x_Tf (crossing_of D k) * F - x_Tb (crossing_of D k) * B /\
     nth a l 0 = nth k (i_entering D) 0 - nth (S k) (i_entering D) 0) /\
  (m <> 0%nat -> exists ths c b lc lb,
     list_snell arcsin ns th0 = Ok ths /\
     coh_tmm arcsin pol (map (fun i => nth i ns C0) (seq a (m + 2))) (PInf :: map (fun i => nth i ds NaN) (seq (S a) m) ++ [PInf]) (nth a ths C0) lam = Ok c /\
     coh_tmm_reverse arcsin pol (map (fun i => nth i ns C0) (seq a (m + 2))) (PInf :: map (fun i => nth i ds NaN) (seq (S a) m) ++ [PInf]) (nth a ths C0) lam = Ok b /\
     absorp_in_each_layer c = Ok lc /\ absorp_in_each_layer b = Ok lb /\
     nth (S k) (i_entering D) 0 = F * c_T c - B * c_entering b /\
     nth a l 0 = nth k (i_entering D) 0 - (F * c_entering c - B * c_T b) /\
     forall x, (x < m)%nat -> nth (a + S x) l 0 = F * nth (S x) lc 0 + B * nth (m - x) lb 0).
Proof. exact Proof_TMM26.inc_entries. Qed.
Print Assumptions C91_entries.
(** Without gain at the crossings, R and T are part of the light. *)
Theorem C91_no_gain : forall arcsin pol ns ds cs th0 lam D, inc_tmm arcsin pol ns ds cs th0 lam = Ok D ->
  (forall k, (S k < incoherent_layers D)%nat -> no_gain (crossing_of D k)) ->
  (forall k, (0 < k)%nat -> (S k < incoherent_layers D)%nat -> 0 < pass_of D k <= 1) ->
  0 <= i_R D /\ 0 < i_T D /\ i_R D + i_T D <= 1 /\
  forall k, (k < incoherent_layers D)%nat -> 0 < fst (intensity D k) /\ 0 <= snd (intensity D k) <= fst (intensity D k).
Proof. exact Proof_TMM27.inc_bounds. Qed.
Print Assumptions C91_no_gain.
Theorem C91_conserved : forall arcsin pol ns ds cs th0 lam D, inc_tmm arcsin pol ns ds cs th0 lam = Ok D ->
  (forall k, (S k < incoherent_layers D)%nat -> x_Rf (crossing_of D k) + x_Tf (crossing_of D k) = 1 /\ x_Rb (crossing_of D k) + x_Tb (crossing_of D k) = 1) ->
  (forall k, (0 < k)%nat -> (S k < incoherent_layers D)%nat -> pass_of D k = 1) -> i_R D + i_T D = 1.
Proof. exact Proof_TMM27.inc_conserved. Qed.
Print Assumptions C91_conserved.
(** Transparent incoherent layers, any passive coherent layers *)
Theorem C91_transparent : forall arcsin pol ns ds cs th0 lam s D, inverts_sine arcsin -> principal arcsin ->
  inc_tmm arcsin pol ns ds cs th0 lam = Ok D ->
  (nth 0 ns C0 * Csin th0)%C = RtoC s -> 0 < Re (Ccos th0) -> 0 < lam ->
  (forall i, nth i cs EmptyString = "i"%string -> transparent s (nth i ns C0)) ->
  (forall i, nth i cs EmptyString = "c"%string -> 0 <= thickness (nth i ds NaN) /\ passive (nth i ns C0)) ->
  (forall c, In c (i_coh D) \/ In c (i_bcoh D) -> no_opaque_layer c) ->
  0 <= i_R D /\ 0 < i_T D /\ i_R D + i_T D <= 1.
Proof. exact Proof_TMM28.transparent_bounds. Qed.
Print Assumptions C91_transparent.
Theorem C91_lossless : forall arcsin pol ns ds cs th0 lam s D, inverts_sine arcsin -> principal arcsin ->
  inc_tmm arcsin pol ns ds cs th0 lam = Ok D ->
  (nth 0 ns C0 * Csin th0)%C = RtoC s -> 0 < Re (Ccos th0) -> 0 < lam ->
  (forall i, nth i cs EmptyString = "i"%string -> transparent s (nth i ns C0)) ->
  (forall i, nth i cs EmptyString = "c"%string -> 0 <= thickness (nth i ds NaN) /\ passive (nth i ns C0)) ->
  (forall c, In c (i_coh D) \/ In c (i_bcoh D) -> no_opaque_layer c) ->
  (forall i, nth i cs EmptyString = "c"%string -> lossless (nth i ns C0)) -> i_R D + i_T D = 1.
Proof. exact Proof_TMM28.transparent_lossless. Qed.
Print Assumptions C91_lossless.
Theorem C91_absorption : forall arcsin pol ns ds cs th0 lam s D, inverts_sine arcsin -> principal arcsin ->
  inc_tmm arcsin pol ns ds cs th0 lam = Ok D ->
  (nth 0 ns C0 * Csin th0)%C = RtoC s -> 0 < Re (Ccos th0) -> 0 < lam ->
  (forall i, nth i cs EmptyString = "i"%string -> transparent s (nth i ns C0)) ->
  (forall i, nth i cs EmptyString = "c"%string -> 0 <= thickness (nth i ds NaN) /\ passive (nth i ns C0)) ->
  (forall c, In c (i_coh D) \/ In c (i_bcoh D) -> no_opaque_layer c) ->
  exists l, inc_absorp_in_each_layer D = Ok l /\ nth 0 l 0 = i_R D /\ nth (length ns - 1) l 0 = i_T D /\
  (forall i, (0 < i)%nat -> (S i < length ns)%nat -> nth i cs EmptyString = "i"%string -> nth i l 0 = 0) /\
  forall i, 0 <= nth i l 0.
Proof. exact Proof_TMM28.transparent_absorption. Qed.
Print Assumptions C91_absorption.
(** An absorbing incoherent layer can transmit more light than comes in. *)
Theorem C91_absorbing_refuted : exists arcsin D d, inverts_sine arcsin /\ principal arcsin /\ 0 < d /\
  inc_tmm arcsin "s" [(1, 0); (1, 1); (1, 0)] [PInf; Fin d; PInf] ["i"; "i"; "i"]%string C0 1 = Ok D /\ 1 < i_T D.
Proof. exact Proof_TMM32.absorber_gains. Qed.
Print Assumptions C91_absorbing_refuted.
Example C91_case : exists arcsin D l, inverts_sine arcsin /\ principal arcsin /\
  inc_tmm arcsin "p" [(1, 0); (2, 1/20); (3/2, 0); (1, 0)] [PInf; Fin 1; Fin 5; PInf] ["i"; "c"; "i"; "i"]%string (PI / 6, 0) 1 = Ok D /\
  inc_absorp_in_each_layer D = Ok l /\ length l = 4%nat /\ total l = 1 /\ nth 2 l 0 = 0 /\
  0 <= i_R D /\ 0 < i_T D /\ i_R D + i_T D <= 1.
Proof. exact Proof_TMM32.coated_example. Qed.

(** * C92: agreement with simpler formulas *)
(** All inner layers coherent: the coherent method's result. *)
Theorem C92_coherent : forall arcsin pol ns ds cs th0 lam D, inc_tmm arcsin pol ns ds cs th0 lam = Ok D -> inverts_sine arcsin ->
  forall c, (2 <= length ns)%nat -> (forall i, (0 < i)%nat -> (S i < length ns)%nat -> nth i cs EmptyString = "c"%string) ->
  coh_tmm arcsin pol ns ds th0 lam = Ok c -> i_R D = c_R c /\ i_T D = c_T c.
Proof. exact Proof_TMM29.all_coherent. Qed.
Print Assumptions C92_coherent.
(** One inner incoherent layer: the sum over the echoes in it. *)
Theorem C92_slab : forall arcsin pol ns ds cs th0 lam D, inc_tmm arcsin pol ns ds cs th0 lam = Ok D -> incoherent_layers D = 3%nat ->
  let x := crossing_of D 0 in let y := crossing_of D 1 in let P := pass_of D 1 in
  1 - x_Rb x * x_Rf y * (P * P) <> 0 /\
  i_T D = x_Tf x * P * x_Tf y / (1 - x_Rb x * x_Rf y * (P * P)) /\
  i_R D = x_Rf x + x_Tf x * P * x_Rf y * P * x_Tb x / (1 - x_Rb x * x_Rf y * (P * P)).
Proof. exact Proof_TMM29.three_layers. Qed.
Print Assumptions C92_slab.
(** The thickness of transparent incoherent layers does not matter. *)
Theorem C92_thickness : forall arcsin pol ns ds ds' cs th0 lam s D D', inverts_sine arcsin -> principal arcsin ->
  inc_tmm arcsin pol ns ds cs th0 lam = Ok D -> inc_tmm arcsin pol ns ds' cs th0 lam = Ok D' ->
  (nth 0 ns C0 * Csin th0)%C = RtoC s -> 0 < Re (Ccos th0) ->
  (forall i, nth i cs EmptyString = "i"%string -> transparent s (nth i ns C0)) ->
  (forall i, nth i cs EmptyString = "c"%string -> nth i ds' NaN = nth i ds NaN) ->
  i_R D' = i_R D /\ i_T D' = i_T D /\ (forall k, (k < incoherent_layers D)%nat -> intensity D' k = intensity D k).
Proof. exact Proof_TMM29.thickness_irrelevant. Qed.
Print Assumptions C92_thickness.
(** The documented absorption function of a coherent layer is never returned. *)
Theorem C92_absorption_function_refuted : forall layer D, exists e, inc_find_absorp_analytic_fn layer D = Err e.
Proof. exact Proof_TMM29.analytic_raises. Qed.
Print Assumptions C92_absorption_function_refuted.
Example C92_case : exists arcsin D c, inverts_sine arcsin /\ principal arcsin /\
  inc_tmm arcsin "p" [(1, 0); (2, 1/20); (3/2, 0)] [PInf; Fin 1; PInf] ["i"; "c"; "i"]%string (PI / 6, 0) 1 = Ok D /\
  coh_tmm arcsin "p" [(1, 0); (2, 1/20); (3/2, 0)] [PInf; Fin 1; PInf] (PI / 6, 0) 1 = Ok c /\ i_R D = c_R c /\ i_T D = c_T c.
Proof. exact Proof_TMM32.film_case. Qed.
