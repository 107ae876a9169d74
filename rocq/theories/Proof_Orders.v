(** The powers of the single diffraction orders. *)
From Coq Require Import Reals Lra ZArith String Lia.
From mathcomp Require Import all_ssreflect all_algebra.
From Verif Require Import Base Cplx CplxLemmas CField Model_Lattice Spec_Lattice Proof_Lattice Proof_Lattice2
  Proof_Lattice3 Proof_Lattice4 Model_Stack Model_Modes Spec_Modes Model_TRCWA Spec_TRCWA Spec_Passive Spec_Symmetry
  Proof_Smatrix Proof_FFT Proof_Modes Proof_Passive2 Proof_RT Proof_Passive3 Proof_Init Proof_Init2 Proof_TRCWA Proof_Pattern2 Proof_Basis Proof_Basis2
  Proof_Symmetry Proof_Symmetry2 Proof_Symmetry3 Model_Queries.
Import GRing.Theory.
Delimit Scope R_scope with coqR.
Delimit Scope Z_scope with coqZ.
Local Open Scope ring_scope.

Lemma sum_back n (v : 'cV[C]_n) : \sum_i (\col_i RtoC (- Re (v i 0%R))%coqR) i 0 = RtoC (- Re (\sum_i v i 0))%coqR.
Proof.
  have T : forall z, RtoC (- Re z)%coqR = - RtoC (Re z) by move=> z; apply: Ceq; rewrite /=; ring.
  rewrite T -Re_sum -sumrN. apply: eq_bigr => i _. by rewrite mxE T.
Qed.
Lemma sum_forth n (v : 'cV[C]_n) : \sum_i (\col_i RtoC (Re (v i 0%R))) i 0 = RtoC (Re (\sum_i v i 0)).
Proof. rewrite -Re_sum. apply: eq_bigr => i _. by rewrite mxE. Qed.
Lemma sum_scaled n (v : 'cV[C]_n) c : \sum_i (\col_i (v i 0 * c)) i 0 = (\sum_i v i 0) * c.
Proof. rewrite mulr_suml. apply: eq_bigr => i _. by rewrite mxE. Qed.

Lemma orders_total nrm x :
  RT_Solve nrm x = bind (RT_Solve_byorder nrm x) (fun rt => Ok (\sum_i rt.1 i 0, \sum_i rt.2 i 0)).
Proof.
  rewrite /RT_Solve /RT_Solve_byorder /GetZPoyntingFlux /bind.
  case: (SolveExterior _ _ _ _) => [[aN b0]|] //=. case: (get_mode _ 0) => [m0|] //.
  case: (GetZPoyntingFlux_byorder _ _ _ m0) => [fb|] //. case: (last_mode _) => [mN|] //.
  case: (GetZPoyntingFlux_byorder _ _ _ mN) => [fe|] //.
  have := sum_back _ fb.2. have := sum_forth _ fe.1. set bk := \col_i _. set fo := \col_i _. move: bk fo => bk fo /= Ef Eb.
  case: ifP => _; last case: ifP => _ //; case: nrm; cbn [fst snd]; by rewrite ?sum_scaled Ef Eb.
Qed.

Lemma orders_sum nrm x r t : RT_Solve nrm x = Ok (r, t) <->
  exists rs ts, RT_Solve_byorder nrm x = Ok (rs, ts) /\ r = \sum_i rs i 0 /\ t = \sum_i ts i 0.
Proof.
  rewrite orders_total /bind. case: (RT_Solve_byorder nrm x) => [[rs ts]|e]; split=> //.
  - move=> [<- <-]. by exists rs, ts.
  - by move=> [rs' [ts' [[-> ->] [-> ->]]]].
  - by move=> [? [? []]].
Qed.

(** What the numbers are made of, for a wave from the front *)
Lemma byorder_forward (x : excited) nrm rs ts : RT_Solve_byorder nrm x = Ok (rs, ts) -> x_direction x = "forward"%string ->
  exists aN b0 m0 mN f1 g1 f2 g2,
    SolveExterior (x_a0 x) (x_bN x) (s_modes (x_ready x)) (s_thick (x_ready x)) = Ok (aN, b0)
    /\ List.nth_error (s_modes (x_ready x)) 0 = Some (Some m0)
    /\ List.nth_error (s_modes (x_ready x)) (size (s_modes (x_ready x))).-1 = Some (Some mN)
    /\ GetZPoyntingFlux_byorder (x_a0 x) b0 (s_omega (x_ready x)) m0 = Ok (f1, g1)
    /\ GetZPoyntingFlux_byorder aN (x_bN x) (s_omega (x_ready x)) mN = Ok (f2, g2)
    /\ forall i, rs i 0 = RtoC (- Re (g1 i 0%R))%coqR * (if nrm then s_norm (x_ready x) else 1)
              /\ ts i 0 = RtoC (Re (f2 i 0)) * (if nrm then s_norm (x_ready x) else 1).
Proof.
  rewrite /RT_Solve_byorder /bind /last_mode.
  case E1: (SolveExterior _ _ _ _) => [[aN b0]|] //=.
  case E2: (get_mode _ 0) => [m0|] //. case E3: (GetZPoyntingFlux_byorder _ _ _ m0) => [[f1 g1]|] //.
  case E4: (get_mode _ _) => [mN|] //. case E5: (GetZPoyntingFlux_byorder _ _ _ mN) => [[f2 g2]|] //.
  move=> H D. move: H. rewrite D /= => H.
  exists aN, b0, m0, mN, f1, g1, f2, g2.
  have E2' := get_mode_ok _ _ _ E2. have E4' := get_mode_ok _ _ _ E4.
  split=> //. split; first exact: E2'. split; first exact: E4'. split=> //; split=> //.
  by case: nrm H => [] [<- <-] i; rewrite !mxE ?mulr1.
Qed.

(** Backward flux of one order beside a wave of normal incidence *)
Lemma normal_backward_order {n} omega (kx ky : 'rV[C]_n) (e : R) md k (a b : 'cV[C]_(n + n)) f g i :
  uniform_layer omega kx ky (RtoC e) = Ok md -> normal kx ky k -> (0 < e)%coqR -> omega <> C0 ->
  (0 <= Re omega)%coqR -> (0 <= Im omega)%coqR -> in_order k a ->
  GetZPoyntingFlux_byorder a b omega md = Ok (f, g) ->
  (- Re (g i 0%R) = Re (Cconj (E_at omega md b 0 (lshift n i) 0) * H_at md b 0 (lshift n i) 0
          + Cconj (E_at omega md b 0 (rshift n i) 0) * H_at md b 0 (rshift n i) 0)%R)%coqR.
Proof.
  move=> U Nk He Ho A B Ia. rewrite /GetZPoyntingFlux_byorder /Flux_xy /bind.
  case EA: (Flux_A omega md) => [M|] // [_ <-]. have [_ [_ HA]] := Flux_A_ok _ _ _ EA.
  have [_ [_ [Ep _]]] := uniform_layer_ok _ _ _ _ _ U.
  rewrite /= /fold_pol Ep !mul1mx (H_at_add omega kx ky e md U) addr0.
  have -> : M *m a = E_at omega md a 0 by rewrite -HA subr0.
  have -> : M *m b = E_at omega md b 0 by rewrite -HA subr0.
  have CZ := fun i => (cross_zero omega kx ky e md k U Nk He Ho A B a b i Ia).2. cbv zeta in CZ.
  have {CZ} Z : forall j, Re (half_C * (Cconj (b j 0) * E_at omega md a 0 j 0 - Cconj (E_at omega md b 0 j 0) * a j 0))%R = 0%coqR.
    move=> j. move: (CZ j). move: (Cconj (b j 0) * _ - _)%R => [z1 z2] /= ->. rewrite ?C_mulE /=. ring.
  have Z1 := Z (lshift n i). have Z2 := Z (rshift n i).
  move: (E_at omega md a 0) (E_at omega md b 0) Z1 Z2 => Ea Eb. rewrite !mxE.
  move: (half_C * _) (half_C * _) => d1 d2 D1 D2. rewrite !Re_add ?Re_conj_part.
  have C : forall z, Re (Cconj z) = Re z by []. have Rt : forall r, Re (RtoC r) = r by [].
  rewrite !C !Rt D1 D2. ring.
Qed.

Lemma fold_at {n} (v : 'cV[C]_(n + n)) i : fold_pol v i 0 = v (lshift n i) 0 + v (rshift n i) 0.
Proof. by rewrite /fold_pol !mxE. Qed.

Lemma norm_scale nrm (c : R) (s : C) (v : R) : s = RtoC c -> (0 <= c)%coqR -> (0 <= v)%coqR ->
  exists u, RtoC v * (if nrm then s else 1) = RtoC u /\ (0 <= u)%coqR.
Proof.
  move=> -> Hc Hv. case: nrm.
    exists (v * c)%coqR. split; last exact: Rmult_le_pos. apply: Ceq; rewrite /=; ring.
  exists v. by rewrite mulr1.
Qed.

Lemma orders_nonnegative argsort eig c Nx Ny N grid f x nrm rs ts :
  sorts argsort -> (0 < f)%coqR -> (0 < t_top c)%coqR -> (0 < t_bottom c)%coqR ->
  init_trcwa argsort eig c Nx Ny N grid f = Ok x -> RT_Solve_byorder nrm x = Ok (rs, ts) ->
  forall i, exists Rr Tr, rs i 0 = RtoC Rr /\ ts i 0 = RtoC Tr /\ (0 <= Rr)%coqR /\ (0 <= Tr)%coqR.
Proof.
  move=> Hs Hf Ht Hb Hi HR i.
  have [En [_ [_ [Dir [Zb _]]]]] := init_frame _ _ _ _ _ _ _ _ _ Hi Hs.
  have [k [_ [L _]]] := init_lit _ _ _ _ _ _ _ _ _ Hi Hs Hf Ht Hb.
  have [aN [b0 [m0 [mN [f1 [g1 [f2 [g2 [E1 [E2 [E3 [E4 [E5 E6]]]]]]]]]]]]] := byorder_forward x nrm rs ts HR Dir.
  case: L => Ho HRe HIm Rx Ry Nk Iw P0 PN [m0' [F1 F2]] [mN' [F3 F4]] _.
  have {F1} Em0 : m0' = m0 by rewrite E2 in F1; case: F1. subst m0'.
  have {F3} EmN : mN' = mN by rewrite E3 in F3; case: F3. subst mN'.
  have Pr : forall m (a b : 'cV[C]_(m + m)) omega md u v, GetZPoyntingFlux_byorder a b omega md = Ok (u, v) -> propagating (m_q md).
    move=> m a b omega md u v H. apply: (flux_propagating a b omega md (\sum_i u i 0) (\sum_i v i 0)). exact: flux_by_order_sums.
  have B := normal_backward_order _ _ _ _ _ _ _ _ _ _ i F2 Nk P0 Ho HRe HIm Iw E4.
  have Pb := outgoing_order _ _ _ _ _ b0 i F2 Rx Ry (Pr _ _ _ _ _ _ _ E4) P0 Ho HRe HIm. rewrite -B in Pb.
  have Pf := outgoing_order _ _ _ _ _ aN i F4 Rx Ry (Pr _ _ _ _ _ _ _ E5) PN Ho HRe HIm.
  have F : f2 i 0 = RtoC (Re (Cconj (E_at (s_omega (x_ready x)) mN aN 0 (lshift _ i) 0) * H_at mN aN 0 (lshift _ i) 0
          + Cconj (E_at (s_omega (x_ready x)) mN aN 0 (rshift _ i) 0) * H_at mN aN 0 (rshift _ i) 0)%R).
    move: E5. rewrite Zb /GetZPoyntingFlux_byorder /bind. case Ef: (Flux_xy _ _ _ _) => [[u v]|] // [<- _].
    have [_ Hu] := (Flux_xy_one _ _ _ _ _).1 Ef. rewrite fold_at !Hu.
    have K : forall z w, RtoC (Re z) + RtoC (Re w) = RtoC (Re (z + w)) by move=> z w; apply: Ceq; [|exact: Rplus_0_l].
    exact: K.
  have {F} F : (0 <= Re (f2 i 0%R))%coqR by rewrite F.
  have Hn : (0 <= sqrt (t_top c))%coqR by exact: sqrt_pos.
  have [-> ->] := E6 i.
  have [u [-> Hu]] := norm_scale nrm _ _ _ En Hn Pb. have [v [-> Hv]] := norm_scale nrm _ _ _ En Hn F.
  by exists u, v.
Qed.
