(** Property theorems C67: what the queries of a solved stack return.
    [amplitudes], [layer_q] and [travelled] are defined in Spec_Queries.v,
    [continuous] in Spec_Modes.v, [usable] and [sorts] in Spec_TRCWA.v and
    Spec_Lattice.v. *)
From Coq Require Import Reals Lra ZArith String Lia.
From mathcomp Require Import all_ssreflect all_algebra.
From Verif Require Import Base Cplx CplxLemmas CField Model_Lattice Spec_Lattice Proof_Lattice Proof_Lattice2
  Proof_Lattice3 Proof_Lattice4 Model_Stack Spec_Stack Model_Modes Spec_Modes
  Model_TRCWA Spec_TRCWA Proof_TRCWA Props_TRCWA Spec_Orders Proof_Orders4 Model_Queries Spec_Queries Proof_Queries.
Import GRing.Theory.
Delimit Scope R_scope with coqR.
Delimit Scope Z_scope with coqZ.
Local Open Scope ring_scope.

(** For a stack whose spectrum can be computed, the amplitude query answers for the
    first layer and the last one, and for no other number. *)
Theorem C67_which_layers : forall argsort eig c Nx Ny N grid f x z v,
  init_trcwa argsort eig c Nx Ny N grid f = Ok x -> RT_Solve true x = Ok v ->
  forall l, (exists ab : amplitudes x, GetAmplitudes l z x = Ok ab) <-> l = 0%coqZ \/ l = (Z.of_nat N + 1)%coqZ.
Proof. exact queries_succeed. Qed.
Print Assumptions C67_which_layers.

(** Asking at a place further back changes each forward amplitude by the factor
    that its wave gains on the way, and each backward amplitude by the inverse. *)
Theorem C67_moves : forall l z dz x a b, GetAmplitudes l z x = Ok (a, b) ->
  exists q a' b', layer_q x (Z.to_nat l) q /\ GetAmplitudes l (z + dz) x = Ok (a', b')
    /\ forall i, a' i 0 = a i 0 * travelled (q 0 i) dz /\ b i 0 = b' i 0 * travelled (q 0 i) dz.
Proof. exact amplitudes_move. Qed.
Print Assumptions C67_moves.

(** No wave grows along the way it travels: forward ones backwards in depth,
    backward ones towards the front. *)
Theorem C67_decay : forall argsort eig c Nx Ny N grid f x l z dz a b a' b',
  init_trcwa argsort eig c Nx Ny N grid f = Ok x -> (0 <= dz)%coqR ->
  GetAmplitudes l z x = Ok (a, b) -> GetAmplitudes l (z + dz) x = Ok (a', b') ->
  forall i, (Cnorm2 (a' i 0%R) <= Cnorm2 (a i 0%R))%coqR /\ (Cnorm2 (b i 0%R) <= Cnorm2 (b' i 0%R))%coqR.
Proof. exact amplitudes_decay. Qed.
Print Assumptions C67_decay.

(** In the first layer the only forward wave is the incident one, in the order
    (0, 0); in the last layer there is no backward wave. *)
Theorem C67_incident : forall argsort eig c Nx Ny N grid f x z,
  sorts argsort -> usable c -> (0 < f)%coqR -> (0 < t_top c)%coqR -> init_trcwa argsort eig c Nx Ny N grid f = Ok x ->
  (forall a b, GetAmplitudes 0 z x = Ok (a, b) ->
     forall k : 'I_(size (x_G x)), a (rshift _ k) 0 = 0
       /\ (List.nth k (x_G x) (1, 1)%coqZ = (0, 0)%coqZ ->
           a (lshift _ k) 0 = - travelled (RtoC (sqrt (t_top c)) * omega_of f) z)
       /\ (List.nth k (x_G x) (1, 1)%coqZ <> (0, 0)%coqZ -> a (lshift _ k) 0 = 0))
  /\ (forall a b, GetAmplitudes (Z.of_nat N + 1) z x = Ok (a, b) -> b = 0).
Proof. exact amplitudes_incident. Qed.
Print Assumptions C67_incident.

(** The amplitudes reported without translation for the first and the last layer
    belong to one field that is continuous at all interfaces, and no field with the
    same incident waves has others. *)
Theorem C67_solution : forall argsort eig c Nx Ny N grid f x v a0 b0 aN bN,
  init_trcwa argsort eig c Nx Ny N grid f = Ok x -> RT_Solve true x = Ok v ->
  GetAmplitudes_noTranslate 0 x = Ok (a0, b0) -> GetAmplitudes_noTranslate (Z.of_nat N + 1) x = Ok (aN, bN) ->
  (exists a b, a 0%N = a0 /\ b 0%N = b0 /\ a N.+1 = aN /\ b N.+1 = bN
     /\ (forall l, (l <= N)%N -> continuous (s_modes (x_ready x)) (s_thick (x_ready x)) a b l))
  /\ (forall a b, (forall l, (l <= N)%N -> continuous (s_modes (x_ready x)) (s_thick (x_ready x)) a b l) ->
        a 0%N = a0 -> b N.+1 = bN -> a N.+1 = aN /\ b 0%N = b0).
Proof. exact amplitudes_solve. Qed.
Print Assumptions C67_solution.

(** The field, stress and volume queries raise for every stack and every layer. *)
Theorem C67_fields_raise : forall x l,
  (exists e, Solve_FieldFourier l x = Err e) /\ (exists e, Solve_FieldOnGrid l x = Err e)
  /\ (exists e, Solve_ZStressTensorIntegral l x = Err e)
  /\ (forall A (rest : amplitudes x -> A), exists e, Volume_integral l x rest = Err e).
Proof. exact field_queries_raise. Qed.
Print Assumptions C67_fields_raise.

(** The permittivity query after any sequence of layer calls: it shows the
    permittivity given for that layer if the layer is uniform, raises if it was
    given by a grid or does not exist, and returns nothing for a Fourier layer. *)
Theorem C67_return_eps : forall {T E P} (cs : list (layer_call T E P)) i Nx Ny component,
  let s := add_layers cs empty_stack in
  (forall t e, List.nth_error cs i = Some (Uniform t e) -> Return_eps s i Nx Ny component = Ok (Constant Nx Ny e))
  /\ (forall t nx ny, List.nth_error cs i = Some (Grid t nx ny) -> exists e, Return_eps s i Nx Ny component = Err e)
  /\ (forall t q, List.nth_error cs i = Some (Fourier t q) -> Return_eps s i Nx Ny component = Ok Nothing)
  /\ (List.nth_error cs i = None -> Return_eps s i Nx Ny component = Err IndexError).
Proof. exact (@return_eps). Qed.
Print Assumptions C67_return_eps.

(** Two absorbing and transparent films: the queries for layers 0 and 3 answer, the
    one for layer 1 raises, and the hypotheses above are met. *)
Example C67_case eig : exists x v a0 b0 aN bN,
  init_trcwa isort eig ex_cfg 1 1 2 (fun _ _ i => if i == 0%N then (3, 1)%coqR else RtoC 2) 1%coqR = Ok x
  /\ RT_Solve true x = Ok v
  /\ GetAmplitudes 0 (1 / 2)%coqR x = Ok (a0, b0) /\ GetAmplitudes 3 (1 / 2)%coqR x = Ok (aN, bN)
  /\ (forall ab, GetAmplitudes 1 (1 / 2)%coqR x <> Ok ab)
  /\ bN = 0 /\ a0 <> 0.
Proof.
  have [x [Rr [Tr [E1 [E2 _]]]]] := C51_uniform_total isort eig ex_cfg 2
    (fun _ _ i => if i == 0%N then (3, 1)%coqR else RtoC 2) 1%coqR isort_sorts ex_usable Rlt_0_1 Rlt_0_1 ltac:(rewrite /=; lra)
    ltac:(move=> [|[|i]] // _; exists (1 / 2)%coqR; split=> //; lra)
    ltac:(move=> [|[|i]] // _; split; [move=> E; have := f_equal Re E; rewrite /=; lra | rewrite /passive_eps /=; lra
           | move=> E; have := f_equal Re E; rewrite /=; lra | rewrite /passive_eps /=; lra]).
  have W := C67_which_layers _ _ _ _ _ _ _ _ _ (1 / 2)%coqR _ E1 E2.
  have [[a0 b0] H0] := proj2 (W 0%coqZ) (or_introl erefl).
  have [[aN bN] HN] := proj2 (W 3%coqZ) (or_intror erefl).
  have [I0 IN] := C67_incident _ _ _ _ _ _ _ _ _ (1 / 2)%coqR isort_sorts ex_usable Rlt_0_1 Rlt_0_1 E1.
  exists x, (RtoC Rr, RtoC Tr), a0, b0, aN, bN. do 4 split=> //. split; first by move=> ab E; case: (proj1 (W 1%coqZ)); first by exists ab.
  split; first exact: (IN _ _ HN).
  move=> Z0. have [Sz H00] := zero_order_first _ _ _ _ _ _ _ _ _ isort_sorts ex_usable E1.
  have [_ [Hk _]] := I0 _ _ H0 (Ordinal Sz).
  have Hz : List.nth (Ordinal Sz) (x_G x) (1, 1)%coqZ = (0, 0)%coqZ by rewrite -H00; apply: List.nth_indep; apply/ltP.
  have := Hk Hz. rewrite Z0 mxE. move/esym/eqP. rewrite oppr_eq0. move/eqP. exact: Cexp_neq_0.
Qed.
(** Uniform, grid, Fourier and missing layers *)
Example C67_eps_case :
  let s := add_layers [:: Uniform 1 2; Grid 3 4 5; Fourier 6 7; Uniform 8 9]%N (@empty_stack nat nat nat) in
  Return_eps s 3 2 2 "xx" = Ok (Constant 2 2 9)%N /\ Return_eps s 1 2 2 "xx" = Err AttributeError
  /\ Return_eps s 1 2 2 "x" = Err UnboundLocalError /\ Return_eps s 2 2 2 "xx" = Ok Nothing
  /\ Return_eps s 4 2 2 "xx" = Err IndexError.
Proof. repeat split. Qed.
