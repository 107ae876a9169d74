(** Property theorems C46 (second part), C49 and C50: modes, S-matrix and flux. *)
From Coq Require Import Reals Lra.
From mathcomp Require Import all_ssreflect all_algebra.
From Verif Require Import Base Cplx CplxLemmas CField Model_Modes Spec_Modes Proof_Sqrt Proof_Smatrix Proof_Modes.
Import GRing.Theory.
Delimit Scope R_scope with coqR.
Local Open Scope ring_scope.

(** C46: the modes of a uniform layer: mode numbers for every order, repeated for
    both polarisations; the mode vectors are the unit vectors. *)
Theorem C46_uniform_modes : forall {n} (omega eps : C) (kx ky : 'rV[C]_n),
  let q := (Solve_uniform omega kx ky eps).1 in
  (forall j, mode_root (eps * omega * omega - kx 0 j * kx 0 j - ky 0 j * ky 0 j) (q 0 (lshift n j))
          /\ q 0 (rshift n j) = q 0 (lshift n j))
  /\ (Solve_uniform omega kx ky eps).2 = 1%:M.
Proof. exact (@uniform_modes). Qed.
Print Assumptions C46_uniform_modes.
(** They are the eigenmodes of the layer's matrix. *)
Theorem C46_uniform_eigen : forall {n} (omega eps : C) (kx ky : 'rV[C]_n),
  eps <> C0 ->
  let kp := MakeKP_uniform omega (eps^-1) kx ky in
  let r := Solve_uniform omega kx ky eps in
  mode_matrix kx ky kp (eps%:M) *m r.2 = r.2 *m diag_mx (\row_j (r.1 0 j * r.1 0 j)).
Proof. exact (@uniform_eigen). Qed.
Print Assumptions C46_uniform_eigen.
(** For patterned layers the same holds whenever the eigensolver returns
    eigenpairs. *)
Theorem C46_patterned_eigen : forall {n} eig (kx ky : 'rV[C]_n) (kp ep2 phi : 'M[C]_(n + n)) q,
  (forall M w V, eig M = Ok (w, V) -> M *m V = V *m diag_mx w) ->
  Solve_patterned eig kx ky kp ep2 = Ok (q, phi) ->
  mode_matrix kx ky kp ep2 *m phi = phi *m diag_mx (\row_j (q 0 j * q 0 j))
  /\ (forall j, mode_root (q 0 j * q 0 j) (q 0 j)).
Proof. exact (@patterned_eigen). Qed.
Print Assumptions C46_patterned_eigen.
(** A mode number is determined by its square, *)
Theorem C46_root_unique : forall (w p q : C),
  mode_root w p -> mode_root w q -> p = q.
Proof. exact mode_root_unique. Qed.
Print Assumptions C46_root_unique.
(** and its wave never grows. *)
Theorem C46_root_decays : forall (w q : C) (z : R),
  mode_root w q -> (0 <= z)%coqR ->
  (Cnorm2 (Cexp (Cmul (Cmul Ci q) (RtoC z))) <= 1)%coqR.
Proof. exact mode_root_decays. Qed.
Print Assumptions C46_root_decays.
Example C46_case : RtoC (-4) <> C0 /\ mode_root (RtoC (-4)) (Cmul (RtoC 2) Ci).
Proof.
  split; first by move/(f_equal fst); rewrite /RtoC /C0 /=; lra.
  rewrite /mode_root. split; first by apply: Ceq; rewrite /RtoC /Ci /Cmul /=; ring.
  rewrite /Ci /RtoC /Cmul /=. split; lra.
Qed.

(** C49: amplitudes for which the tangential fields are continuous at every
    interface between layers i and j are related by the S-matrix. *)
Theorem C49_maps : forall {m} (ms : seq (option (mode m))) (ts : seq R) (i j : nat) (M : smat m) (a b : nat -> 'cV[C]_m),
  (forall md, List.nth_error ms i = Some (Some md) -> propagating (m_q md)) ->
  GetSMatrix i j ms ts = Ok M ->
  (forall l, (i <= l < j)%N -> continuous ms ts a b l) ->
  a j = S11 M *m a i + S12 M *m b j /\ b i = S21 M *m a i + S22 M *m b j.
Proof. exact (@smatrix_maps). Qed.
Print Assumptions C49_maps.
(** For all incoming amplitudes such fields exist, *)
Theorem C49_exists : forall {m} (ms : seq (option (mode m))) (ts : seq R) (i j : nat) (M : smat m) (ai bj : 'cV[C]_m),
  (forall md, List.nth_error ms i = Some (Some md) -> propagating (m_q md)) ->
  GetSMatrix i j ms ts = Ok M ->
  exists a b, a i = ai /\ b j = bj /\ (forall l, (i <= l < j)%N -> continuous ms ts a b l)
    /\ a j = S11 M *m ai + S12 M *m bj /\ b i = S21 M *m ai + S22 M *m bj.
Proof. exact (@smatrix_exists). Qed.
Print Assumptions C49_exists.
(** and the S-matrix is the only quadruple of matrices that relates them. *)
Theorem C49_unique : forall {m} (ms : seq (option (mode m))) (ts : seq R) (i j : nat) (M N : smat m),
  (forall md, List.nth_error ms i = Some (Some md) -> propagating (m_q md)) ->
  GetSMatrix i j ms ts = Ok M ->
  (forall a b, (forall l, (i <= l < j)%N -> continuous ms ts a b l) ->
     a j = S11 N *m a i + S12 N *m b j /\ b i = S21 N *m a i + S22 N *m b j) ->
  N = M.
Proof. exact (@smatrix_unique). Qed.
Print Assumptions C49_unique.
Theorem C49_trivial : forall {m} (md : mode m) ms ts i,
  GetSMatrix i i (Some md :: ms) ts = Ok (mkSmat 1%:M 0 0 1%:M).
Proof. exact (@smatrix_trivial). Qed.
Print Assumptions C49_trivial.
Theorem C49_reversed : forall {m} (md : mode m) ms ts i j,
  (j < i)%N ->
  GetSMatrix i j (Some md :: ms) ts = Err PlainException.
Proof. exact (@smatrix_reversed). Qed.
Print Assumptions C49_reversed.
(** Two identical neighbouring layers act as one layer of the summed thickness. *)
Theorem C49_merge : forall {m} (first last : option (mode m)) (pre post : seq (option (mode m))) (md : mode m)
    (tfirst tlast t1 t2 : R) (tpre tpost : seq R) (M : smat m),
  size tpre = size pre -> size tpost = size post ->
  GetSMatrix 0 (size pre + size post + 3)
    (first :: pre ++ [:: Some md, Some md & post] ++ [:: last])
    (tfirst :: tpre ++ [:: t1, t2 & tpost] ++ [:: tlast]) = Ok M
  <-> GetSMatrix 0 (size pre + size post + 2)
    (first :: pre ++ (Some md :: post) ++ [:: last])
    (tfirst :: tpre ++ (Rplus t1 t2 :: tpost) ++ [:: tlast]) = Ok M.
Proof. exact (@smatrix_merge). Qed.
Print Assumptions C49_merge.
(** The outgoing amplitudes SolveExterior returns are those of the one and only
    solution of the matching equations with the given incoming amplitudes. *)
Theorem C49_exterior : forall {m} (ms : seq (option (mode m))) (ts : seq R) (a0 bN aN b0 : 'cV[C]_m),
  (forall md, List.nth_error ms 0 = Some (Some md) -> propagating (m_q md)) ->
  SolveExterior a0 bN ms ts = Ok (aN, b0) ->
  let N := (size ts).-1 in
  (exists a b, a 0%N = a0 /\ b N = bN /\ a N = aN /\ b 0%N = b0
     /\ (forall l, (l < N)%N -> continuous ms ts a b l))
  /\ (forall a b, (forall l, (l < N)%N -> continuous ms ts a b l) -> a 0%N = a0 -> b N = bN ->
        a N = aN /\ b 0%N = b0).
Proof. exact (@exterior_solved). Qed.
Print Assumptions C49_exterior.
Example C49_case :
  exists M : smat (1 + 1),
    GetSMatrix 0 1 [:: Some (plain_mode C1); Some (plain_mode (RtoC 2))] [:: 1%coqR; 2%coqR] = Ok M
    /\ (forall md, List.nth_error [:: Some (plain_mode C1); Some (plain_mode (RtoC 2))] 0 = Some (Some md) ->
          propagating (m_q md)).
Proof.
  have [M E] : exists M, GetSMatrix 0 1 [:: Some (plain_mode C1); Some (plain_mode (RtoC 2))] [:: 1%coqR; 2%coqR] = Ok M.
    apply: plain_stack; [exact: C1_neq_C0| |]; move/(f_equal fst); rewrite /RtoC /C0 /C1 /Cadd /=; lra.
  exists M. split => // md [<-] j. rewrite /= mxE. exact: C1_neq_C0.
Qed.

(** C50: the two fluxes add up to the real flux of the total tangential fields, *)
Theorem C50_total : forall {n} (a b : 'cV[C]_(n + n)) omega md f g,
  GetZPoyntingFlux a b omega md = Ok (f, g) ->
  f + g = RtoC (power (E_at omega md a b) (H_at md a b)).
Proof. exact (@flux_total). Qed.
Print Assumptions C50_total.
(** also for each order separately, *)
Theorem C50_by_order : forall {n} (a b : 'cV[C]_(n + n)) omega md x y,
  GetZPoyntingFlux_byorder a b omega md = Ok (x, y) ->
  let E := E_at omega md a b in let H := H_at md a b in
  forall i, x i 0 + y i 0 = RtoC (Re (Cconj (E (lshift n i) 0) * H (lshift n i) 0)
                                + Re (Cconj (E (rshift n i) 0) * H (rshift n i) 0)).
Proof. exact (@flux_by_order). Qed.
Print Assumptions C50_by_order.
(** and the fluxes by order sum to the totals. *)
Theorem C50_orders_sum : forall {n} (a b : 'cV[C]_(n + n)) omega md x y,
  GetZPoyntingFlux_byorder a b omega md = Ok (x, y) ->
  GetZPoyntingFlux a b omega md = Ok (\sum_i x i 0, \sum_i y i 0).
Proof. exact (@flux_by_order_sums). Qed.
Print Assumptions C50_orders_sum.
(** One-way waves carry all their flux in their own direction. *)
Theorem C50_one_way : forall {n} (a : 'cV[C]_(n + n)) omega md f g,
  (GetZPoyntingFlux a 0 omega md = Ok (f, g) ->
     f = RtoC (power (E_at omega md a 0) (H_at md a 0)) /\ g = C0)
  /\ (GetZPoyntingFlux 0 a omega md = Ok (f, g) ->
     f = C0 /\ g = RtoC (Ropp (power (E_at omega md a 0) (H_at md a 0)))).
Proof. exact (@flux_one_way). Qed.
Print Assumptions C50_one_way.
(** Fluxes are quadratic in the amplitudes. *)
Theorem C50_scaled : forall {n} (c : C) (a b : 'cV[C]_(n + n)) omega md f g,
  GetZPoyntingFlux a b omega md = Ok (f, g) ->
  GetZPoyntingFlux (c *: a) (c *: b) omega md = Ok (RtoC (Cnorm2 c) * f, RtoC (Cnorm2 c) * g).
Proof. exact (@flux_scaled). Qed.
Print Assumptions C50_scaled.
Example C50_case :
  exists x y, GetZPoyntingFlux_byorder (n := 1) (const_mx C1) 0 C1 (plain_mode C1) = Ok (x, y)
           /\ exists f g, GetZPoyntingFlux (n := 1) (const_mx C1) 0 C1 (plain_mode C1) = Ok (f, g).
Proof.
  rewrite /GetZPoyntingFlux /GetZPoyntingFlux_byorder /Flux_xy /Flux_A /row_inv.
  have -> : [forall j, m_q (plain_mode C1) 0 j != 0].
    apply/forallP => j; rewrite /= mxE. apply/eqP; exact: C1_neq_C0.
  have -> : (C1 == 0) = false by apply/eqP; exact: C1_neq_C0.
  rewrite /=. by do 2 eexists; split; [reflexivity|]; do 2 eexists.
Qed.
