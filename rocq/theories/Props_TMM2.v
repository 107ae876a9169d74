(** Property theorems C86-C88: depths, the absorption as a function of depth, and
    ellipsometry, of notebooks/tmm_core.py.  [stack_of], [at_depth], [in_stack] and
    [ellipsometric] are defined in Spec_TMM2.v, the other notions in Spec_TMM.v. *)
From Coq Require Import Reals ZArith String List Bool.
From Verif Require Import Base PyVal Cplx Model_TMM Spec_TMM Model_TMM2 Spec_TMM2.
From Verif Require Import Proof_TMM16 Proof_TMM17 Proof_TMM18 Proof_TMM19 Proof_TMM20 Proof_TMM21.
Import ListNotations.
Open Scope R_scope.

(** * C86: depths *)
Theorem C86_find : forall ds x layer z, Forall (fun d => 0 <= d) ds -> 0 <= x ->
  (find_in_structure (map Fin ds) (Fin x) = Ok (layer, Fin z) <-> exists i, layer = Z.of_nat i /\ at_depth ds x i z).
Proof. exact found. Qed.
Print Assumptions C86_find.
Theorem C86_find_in_front : forall ds x, x < 0 -> find_in_structure (map Fin ds) (Fin x) = Ok ((-1)%Z, Fin x).
Proof. exact found_before. Qed.
Print Assumptions C86_find_in_front.
Theorem C86_infinite_refused : forall ds x, (forall d, In d ds -> d = PInf \/ exists y, d = Fin y) -> In PInf ds ->
  find_in_structure ds x = Err ValueError.
Proof. exact infinite_refused. Qed.
Print Assumptions C86_infinite_refused.
Theorem C86_find_with_inf : forall ds x layer z, Forall (fun d => 0 <= d) ds ->
  (find_in_structure_with_inf (stack_of ds) (Fin x) = Ok (layer, Fin z) <-> exists i, layer = Z.of_nat i /\ in_stack ds x i z).
Proof. exact found_in_stack. Qed.
Print Assumptions C86_find_with_inf.
(** Every depth is found ... *)
Theorem C86_found : forall ds x, Forall (fun d => 0 <= d) ds ->
  exists i z, find_in_structure_with_inf (stack_of ds) (Fin x) = Ok (Z.of_nat i, Fin z) /\ in_stack ds x i z.
Proof. exact found_exists. Qed.
Print Assumptions C86_found.
Theorem C86_starts : forall ds,
  layer_starts (stack_of ds) = Ok (NInf :: map (fun i => Fin (total (firstn i ds))) (seq 0 (S (length ds)))).
Proof. exact starts_are. Qed.
Print Assumptions C86_starts.
Theorem C86_starts_refused : forall d_list, (length d_list < 2)%nat -> layer_starts d_list = Err IndexError.
Proof. exact starts_refused. Qed.
Print Assumptions C86_starts_refused.
(** ... and there the fields can be evaluated; ... *)
Theorem C86_evaluates : forall arcsin, inverts_sine arcsin -> forall pol ns ds th0 lam D,
  coh_tmm arcsin pol ns (stack_of ds) th0 lam = Ok D -> forall x, Forall (fun d => 0 <= d) ds ->
  exists i z p, find_in_structure_with_inf (stack_of ds) (Fin x) = Ok (Z.of_nat i, Fin z) /\ position_resolved i z D = Ok p.
Proof. exact depth_evaluates. Qed.
Print Assumptions C86_evaluates.
(** ... in a passive stack, the power does not grow with the depth. *)
Theorem C86_power_falls : forall arcsin, inverts_sine arcsin -> forall pol ns ds th0 lam D,
  coh_tmm arcsin pol ns (stack_of ds) th0 lam = Ok D ->
  Im (nth 0 ns C0 * Csin th0)%C = 0 -> 0 < lam -> no_opaque_layer D -> Forall (fun d => 0 <= d) ds ->
  (forall i, (0 < i)%nat -> (S i < length ns)%nat -> passive (nth i ns C0)) ->
  forall x y i z j w p q, x <= y ->
  find_in_structure_with_inf (stack_of ds) (Fin x) = Ok (Z.of_nat i, Fin z) -> position_resolved i z D = Ok p ->
  find_in_structure_with_inf (stack_of ds) (Fin y) = Ok (Z.of_nat j, Fin w) -> position_resolved j w D = Ok q ->
  p_poyn q <= p_poyn p.
Proof. exact power_falls. Qed.
Print Assumptions C86_power_falls.
Example C86_case : exists arcsin D p q, inverts_sine arcsin /\
  coh_tmm arcsin "p" [(1, 0); (2, 1/20); (3/2, 0)] (stack_of [1]) (PI / 6, 0) 1 = Ok D /\
  find_in_structure_with_inf (stack_of [1]) (Fin (1/2)) = Ok (1%Z, Fin (1/2)) /\ position_resolved 1 (1/2) D = Ok p /\
  find_in_structure_with_inf (stack_of [1]) (Fin 5) = Ok (2%Z, Fin 4) /\ position_resolved 2 4 D = Ok q /\
  p_poyn q <= p_poyn p.
Proof. exact depth_example. Qed.

(** * C87: the absorption as a function of depth *)
Theorem C87_agrees : forall arcsin pol ns ds th0 lam D, coh_tmm arcsin pol ns ds th0 lam = Ok D ->
  forall i f z p, (0 < i)%nat -> fill_in D (Z.of_nat i) = Ok f -> position_resolved i z D = Ok p ->
  run f z = RtoC (p_absor p).
Proof. exact fill_agrees. Qed.
Print Assumptions C87_agrees.
Theorem C87_exists : forall arcsin pol ns ds th0 lam D, coh_tmm arcsin pol ns ds th0 lam = Ok D ->
  forall i, (i < length ns)%nat -> exists f, fill_in D (Z.of_nat i) = Ok f.
Proof. exact fill_ok. Qed.
Print Assumptions C87_exists.
(** Layers may be counted from the end. *)
Theorem C87_from_the_end : forall arcsin pol ns ds th0 lam D, coh_tmm arcsin pol ns ds th0 lam = Ok D ->
  forall i, (i < length ns)%nat -> fill_in D (Z.of_nat i - Z.of_nat (length ns)) = fill_in D (Z.of_nat i).
Proof. exact fill_end. Qed.
Print Assumptions C87_from_the_end.
(** For the first medium it is zero, whatever its index. *)
Theorem C87_first : forall arcsin pol ns ds th0 lam D, coh_tmm arcsin pol ns ds th0 lam = Ok D ->
  forall f z, fill_in D 0 = Ok f -> run f z = C0.
Proof. exact fill_first. Qed.
Print Assumptions C87_first.
(** Its integral over a layer is the absorption of the layer. *)
Theorem C87_integral : forall arcsin, inverts_sine arcsin -> forall pol ns ds th0 lam D,
  coh_tmm arcsin pol ns ds th0 lam = Ok D ->
  forall i d f l, (0 < i)%nat -> (S i < length ns)%nat -> nth i ds NaN = Fin d ->
  (forall j, (0 < j)%nat -> (S j < length ns)%nat -> 0 <= thickness (nth j ds NaN)) -> no_opaque_layer D ->
  fill_in D (Z.of_nat i) = Ok f -> absorp_in_each_layer D = Ok l ->
  exists pr : Riemann_integrable (fun z => Re (run f z)) 0 d, RiemannInt pr = nth i l 0.
Proof. exact layer_integral. Qed.
Print Assumptions C87_integral.
Theorem C87_flip : forall f g d z, f_d f = Fin d -> flip f = Ok g -> run g z = run f (d - z) /\ f_d g = Fin d.
Proof. exact run_flip. Qed.
Print Assumptions C87_flip.
Theorem C87_flip_ok : forall f, (exists d, f_d f = Fin d) <-> exists g, flip f = Ok g.
Proof. exact flip_ok. Qed.
Print Assumptions C87_flip_ok.
Theorem C87_flip_twice : forall f g h, flip f = Ok g -> flip g = Ok h -> forall z, run h z = run f z.
Proof. exact flip_twice. Qed.
Print Assumptions C87_flip_twice.
Theorem C87_scale : forall f k z, run (scale f k) z = (RtoC k * run f z)%C.
Proof. exact run_scale. Qed.
Print Assumptions C87_scale.
Theorem C87_add : forall f b g, add f b = Ok g -> forall z, run g z = (run f z + run b z)%C.
Proof. exact run_add. Qed.
Print Assumptions C87_add.
Theorem C87_add_ok : forall f b, (a1 b = a1 f /\ a3 b = a3 f -> exists g, add f b = Ok g) /\
  (~ (a1 b = a1 f /\ a3 b = a3 f) -> add f b = Err ValueError).
Proof. exact add_ok. Qed.
Print Assumptions C87_add_ok.
Example C87_case : exists arcsin D l f, inverts_sine arcsin /\
  coh_tmm arcsin "p" [(1, 0); (2, 1/20); (3/2, 0)] [PInf; Fin 1; PInf] (PI / 6, 0) 1 = Ok D /\
  absorp_in_each_layer D = Ok l /\ fill_in D 1 = Ok f /\
  exists pr : Riemann_integrable (fun z => Re (run f z)) 0 1, RiemannInt pr = nth 1 l 0.
Proof. exact fill_example. Qed.

(** * C88: ellipsometry *)
Theorem C88_angles : forall arcsin ns ds th0 lam psi Delta S P,
  ellips arcsin ns ds th0 lam = Ok (psi, Delta) ->
  coh_tmm arcsin "s" ns ds th0 lam = Ok S -> coh_tmm arcsin "p" ns ds th0 lam = Ok P ->
  ellipsometric (c_r S) (c_r P) psi Delta.
Proof. exact ellips_angles. Qed.
Print Assumptions C88_angles.
Theorem C88_unique : forall rs rp psi Delta psi' Delta', rs <> C0 ->
  ellipsometric rs rp psi Delta -> ellipsometric rs rp psi' Delta' -> psi' = psi /\ (rp <> C0 -> Delta' = Delta).
Proof. exact ellipsometric_unique. Qed.
Print Assumptions C88_unique.
(** It exists where both polarizations can be computed and "s" is reflected. *)
Theorem C88_exists : forall arcsin ns ds th0 lam,
  ((exists psi Delta, ellips arcsin ns ds th0 lam = Ok (psi, Delta)) <->
   exists S P, coh_tmm arcsin "s" ns ds th0 lam = Ok S /\ coh_tmm arcsin "p" ns ds th0 lam = Ok P /\ c_r S <> C0).
Proof. exact ellips_exists. Qed.
Print Assumptions C88_exists.
Theorem C88_normal_incidence : forall arcsin ns ds lam psi Delta, inverts_sine arcsin -> principal arcsin ->
  0 < Re (nth (length ns - 1) ns C0) ->
  ellips arcsin ns ds C0 lam = Ok (psi, Delta) -> psi = PI / 4 /\ Delta = 0.
Proof. exact ellips_normal. Qed.
Print Assumptions C88_normal_incidence.
Example C88_case : exists arcsin, inverts_sine arcsin /\ principal arcsin /\
  ellips arcsin [(1, 0); (2, 0)] [PInf; PInf] C0 1 = Ok (PI / 4, 0).
Proof. exact ellips_example. Qed.
