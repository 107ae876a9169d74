(** Property theorems C93: TRCWA and the transfer-matrix code agree on uniform layers. *)
From Coq Require Import Reals ZArith String Lra Lia Psatz.
From mathcomp Require Import all_ssreflect all_algebra.
From Verif Require Import Base PyVal Cplx CplxLemmas CField Model_Lattice Spec_Lattice Proof_Lattice Model_Stack Model_Modes Model_TRCWA
  Spec_TRCWA Spec_Agree Proof_Lattice2 Proof_Lattice3 Proof_Lattice4 Proof_TRCWA2 Proof_Agree3 Proof_Agree4.
From Verif Require Model_TMM Spec_TMM Proof_TMM6 Proof_Agree2 Props_TRCWA.
Import GRing.Theory.
Delimit Scope R_scope with coqR.
Delimit Scope Z_scope with coqZ.
Local Open Scope ring_scope.

(** Any films at any (also complex) frequency f u.  Which square root of a
    permittivity the transfer-matrix code is given does not matter, nor does the
    polarization.  The powers differ by what the imaginary part of the frequency
    takes away in the top layer of thickness 1 that TRCWA puts in front. *)
Theorem C93_films : forall argsort arcsin c f u films ns pol x r t D,
  sorts argsort -> Spec_TMM.inverts_sine arcsin -> Spec_TMM.principal arcsin ->
  (0 < t_top c)%coqR -> (0 < t_bottom c)%coqR -> (0 < f)%coqR -> (0 < Re u)%coqR -> (0 <= Im u)%coqR ->
  map (fun n => Cmul n n) ns = map (fun p => eps_C p.2) films ->
  film_stack argsort c (Cmul (RtoC f) u) films = Ok x -> RT_Solve true x = Ok (r, t) ->
  Model_TMM.coh_tmm arcsin pol (tmm_indices c u ns) (tmm_depths (map fst films)) C0 (1 / f)%coqR = Ok D ->
  Spec_TMM.no_opaque_layer D ->
  let loss := exp (- (4 * PI * sqrt (t_top c) * f * Im u))%coqR in
  r = RtoC (loss * Model_TMM.c_R D)%coqR /\ t = RtoC (loss * Model_TMM.c_T D)%coqR.
Proof. exact agree_films. Qed.
Print Assumptions C93_films.
(** At a real frequency they are equal. *)
Theorem C93_real : forall argsort arcsin c f films ns pol x r t D,
  sorts argsort -> Spec_TMM.inverts_sine arcsin -> Spec_TMM.principal arcsin ->
  (0 < t_top c)%coqR -> (0 < t_bottom c)%coqR -> (0 < f)%coqR ->
  map (fun n => Cmul n n) ns = map (fun p => eps_C p.2) films ->
  film_stack argsort c (RtoC f) films = Ok x -> RT_Solve true x = Ok (r, t) ->
  Model_TMM.coh_tmm arcsin pol (RtoC (sqrt (t_top c)) :: ns ++ [:: RtoC (sqrt (t_bottom c))]) (tmm_depths (map fst films)) C0 (1 / f)%coqR = Ok D ->
  Spec_TMM.no_opaque_layer D ->
  r = RtoC (Model_TMM.c_R D) /\ t = RtoC (Model_TMM.c_T D).
Proof. exact agree_real. Qed.
Print Assumptions C93_real.
(** The spectrum of a 1x1 grid ... *)
Theorem C93_spectrum : forall argsort eig arcsin c N grid f ns ds pol x r t D,
  sorts argsort -> Spec_TMM.inverts_sine arcsin -> Spec_TMM.principal arcsin ->
  (0 < t_top c)%coqR -> (0 < t_bottom c)%coqR -> (0 < f)%coqR ->
  size ns = N -> (forall i, (i < N)%N -> Cmul (nth C0 ns i) (nth C0 ns i) = grid 0%N 0%N i) ->
  size ds = N -> (forall i, (i < N)%N -> layer_thickness (t_thick c) i = Some (nth 0%coqR ds i)) ->
  init_trcwa argsort eig c 1 1 N grid f = Ok x -> RT_Solve true x = Ok (r, t) ->
  Model_TMM.coh_tmm arcsin pol (tmm_indices c damped ns) (tmm_depths ds) C0 (1 / f)%coqR = Ok D ->
  Spec_TMM.no_opaque_layer D ->
  let loss := exp (- (2 * PI * sqrt (t_top c) * f / 10 ^ 5))%coqR in
  r = RtoC (loss * Model_TMM.c_R D)%coqR /\ t = RtoC (loss * Model_TMM.c_T D)%coqR.
Proof. exact agree_init. Qed.
Print Assumptions C93_spectrum.
(** ... and both codes succeed for all passive layers that are not opaque. *)
Theorem C93_total : forall argsort eig arcsin c N grid f ns ds pol,
  sorts argsort -> usable c -> Spec_TMM.inverts_sine arcsin -> Spec_TMM.principal arcsin ->
  (0 < t_top c)%coqR -> (0 < t_bottom c)%coqR -> (0 < f)%coqR -> pol = "s"%string \/ pol = "p"%string ->
  size ns = N -> size ds = N ->
  (forall i, (i < N)%N -> layer_thickness (t_thick c) i = Some (nth 0%coqR ds i) /\ (0 <= nth 0 ds i)%coqR) ->
  (forall i, (i < N)%N -> let n := nth C0 ns i in Cmul n n = grid 0%N 0%N i /\ (0 <= Im n < 2 * 10 ^ 5 * Re n)%coqR
     /\ ((Im n + Re n / (2 * 10 ^ 5)) * (2 * PI * f) * nth 0 ds i <= 35)%coqR) ->
  let loss := exp (- (2 * PI * sqrt (t_top c) * f / 10 ^ 5))%coqR in
  exists x D, init_trcwa argsort eig c 1 1 N grid f = Ok x
    /\ Model_TMM.coh_tmm arcsin pol (tmm_indices c damped ns) (tmm_depths ds) C0 (1 / f)%coqR = Ok D
    /\ RT_Solve true x = Ok (RtoC (loss * Model_TMM.c_R D)%coqR, RtoC (loss * Model_TMM.c_T D)%coqR).
Proof. exact agree_total. Qed.
Print Assumptions C93_total.

(** Two layers, one of them absorbing. *)
Definition ex_ns : seq C := [:: (2, 1)%coqR; RtoC (3 / 2)%coqR].
Example C93_total_case eig : exists arcsin x D, Spec_TMM.inverts_sine arcsin /\ Spec_TMM.principal arcsin
  /\ init_trcwa isort eig Props_TRCWA.ex_cfg 1 1 2 (fun _ _ i => Cmul (nth C0 ex_ns i) (nth C0 ex_ns i)) 1%coqR = Ok x
  /\ Model_TMM.coh_tmm arcsin "p" (tmm_indices Props_TRCWA.ex_cfg damped ex_ns) (tmm_depths [:: (1 / 2)%coqR; (1 / 2)%coqR]) C0 (1 / 1)%coqR = Ok D
  /\ let loss := exp (- (2 * PI * sqrt (t_top Props_TRCWA.ex_cfg) * 1 / 10 ^ 5))%coqR in
     RT_Solve true x = Ok (RtoC (loss * Model_TMM.c_R D)%coqR, RtoC (loss * Model_TMM.c_T D)%coqR).
Proof.
  have [arcsin [Hi Hp]] := Proof_TMM6.arcsin_exists.
  have Pi4 := PI_4. have Pi0 := PI_RGT_0.
  have [x [D [E1 [E2 E3]]]] := C93_total isort eig arcsin Props_TRCWA.ex_cfg 2
     (fun _ _ i => Cmul (nth C0 ex_ns i) (nth C0 ex_ns i)) 1%coqR ex_ns [:: (1 / 2)%coqR; (1 / 2)%coqR] "p"
     isort_sorts Props_TRCWA.ex_usable Hi Hp ltac:(rewrite /=; lra) ltac:(rewrite /=; lra) Rlt_0_1 (or_intror erefl) erefl erefl
     ltac:(by move=> [|[|i]] // _; split=> //=; lra)
     ltac:(move=> [|[|i]] // _; (split; first by []); rewrite /=; nra).
  by exists arcsin, x, D.
Qed.
(** A lossless film at a real frequency. *)
Example C93_real_case : exists arcsin x r t D, Spec_TMM.inverts_sine arcsin /\ Spec_TMM.principal arcsin
  /\ film_stack isort Props_TRCWA.ex_cfg (RtoC 1) [:: ((1 / 3)%coqR, EReal 9%coqR)] = Ok x
  /\ RT_Solve true x = Ok (r, t)
  /\ Model_TMM.coh_tmm arcsin "s" (RtoC (sqrt (t_top Props_TRCWA.ex_cfg)) :: [:: RtoC 3%coqR] ++ [:: RtoC (sqrt (t_bottom Props_TRCWA.ex_cfg))])
       (tmm_depths [:: (1 / 3)%coqR]) C0 (1 / 1)%coqR = Ok D /\ Spec_TMM.no_opaque_layer D
  /\ r = RtoC (Model_TMM.c_R D) /\ t = RtoC (Model_TMM.c_T D).
Proof.
  have [arcsin [Hi Hp]] := Proof_TMM6.arcsin_exists.
  have [x [Rr [Tr [Ex [Er _]]]]] := Props_TRCWA.ex_lossless.
  have Hb : (0 < t_bottom Props_TRCWA.ex_cfg)%coqR by rewrite /=; lra. have Ht : (0 < t_top Props_TRCWA.ex_cfg)%coqR by rewrite /=; lra.
  have [D [HD Ho]] := Proof_Agree2.coh_total arcsin "s" C1 1%coqR (sqrt (t_top Props_TRCWA.ex_cfg)) (sqrt (t_bottom Props_TRCWA.ex_cfg))
     [:: (RtoC 3%coqR, (1 / 3)%coqR)] Hi Hp (or_introl erefl) ltac:(rewrite /=; lra) ltac:(rewrite /=; lra) Rlt_0_1
     (sqrt_lt_R0 _ Ht) (sqrt_lt_R0 _ Hb) ltac:(move=> q [<-|[]]; rewrite /=; lra).
  have HD' : Model_TMM.coh_tmm arcsin "s" (tmm_indices Props_TRCWA.ex_cfg C1 [:: RtoC 3%coqR]) (tmm_depths [:: (1 / 3)%coqR]) C0 (1 / 1)%coqR = Ok D by exact: HD.
  rewrite indices_one in HD'.
  exists arcsin, x, (RtoC Rr), (RtoC Tr), D. do 6 (split; first by []).
  have En : map (fun n => Cmul n n) [:: RtoC 3%coqR] = map (fun p : R * eps_val => eps_C p.2) [:: ((1 / 3)%coqR, EReal 9%coqR)].
    congr cons. by apply: injective_projections; rewrite /=; ring.
  exact: (C93_real isort arcsin Props_TRCWA.ex_cfg 1%coqR _ _ "s" x _ _ D isort_sorts Hi Hp Ht Hb Rlt_0_1 En Ex Er HD' Ho).
Qed.
