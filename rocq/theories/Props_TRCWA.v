(** Property theorems C51 and C52: TRCWA stacks, films and their spectra. *)
From Coq Require Import Reals ZArith String Lra Lia Psatz.
From mathcomp Require Import all_ssreflect all_algebra.
From Verif Require Import Base Cplx CplxLemmas CField Model_Lattice Spec_Lattice Proof_Lattice Proof_Lattice2
  Proof_Lattice3 Proof_Lattice4 Model_Stack Model_Modes Spec_Modes Model_TRCWA
  Spec_TRCWA Spec_Passive Spec_Film Proof_Init Proof_Init2 Proof_TRCWA Proof_TRCWA2 Proof_Total Proof_Total2
  Proof_Lossless Proof_Pattern2.
Import GRing.Theory.
Delimit Scope R_scope with coqR.
Delimit Scope Z_scope with coqZ.
Local Open Scope ring_scope.

(** C51.  The stack compute_spectrum_trcwa builds for a 1x1 grid is the film stack
    one sets up by hand with the same films, at a slightly complex frequency. *)
Theorem C51_same_stack : forall argsort eig c N grid f x,
  init_trcwa argsort eig c 1 1 N grid f = Ok x ->
  exists ts, size ts = N /\ (forall i, (i < N)%N -> List.nth_error ts i = layer_thickness (t_thick c) i)
    /\ film_stack argsort c (RtoC f * (1 + Ci * RtoC (/ (2 * Q_ABS))%coqR)) (zip ts (mkseq (fun i => ECplx (grid 0%N 0%N i)) N)) = Ok x.
Proof. exact init_is_film_stack. Qed.
Print Assumptions C51_same_stack.
(** Equal permittivities everywhere: no reflection, and nothing is lost but what
    the imaginary part of the frequency takes away. *)
Theorem C51_vacuum : forall argsort c freq films x r t,
  sorts argsort -> (0 < t_top c)%coqR -> t_bottom c = t_top c ->
  let om := Cmul (RtoC (2 * PI)%coqR) freq in
  (0 <= Re om)%coqR -> (0 < Im om)%coqR ->
  (forall p, List.In p films -> eps_C p.2 = RtoC (t_top c)) ->
  film_stack argsort c freq films = Ok x -> RT_Solve true x = Ok (r, t) ->
  r = C0 /\ t = RtoC (exp (- (2 * sqrt (t_top c) * Im om * (1 + List.fold_right Rplus 0 (map fst films)))))%coqR.
Proof. exact film_vacuum. Qed.
Print Assumptions C51_vacuum.
(** No film: the Fresnel formulas. *)
Theorem C51_fresnel : forall argsort c freq x r t,
  sorts argsort -> (0 < t_top c)%coqR -> (0 < t_bottom c)%coqR ->
  let om := Cmul (RtoC (2 * PI)%coqR) freq in
  om <> C0 -> (0 <= Re om)%coqR -> (0 <= Im om)%coqR ->
  film_stack argsort c freq [::] = Ok x -> RT_Solve true x = Ok (r, t) ->
  let loss := exp (- (2 * sqrt (t_top c) * Im om))%coqR in
  let n1 := sqrt (t_top c) in let n2 := sqrt (t_bottom c) in
  r = RtoC (loss * ((n1 - n2) / (n1 + n2)) ^ 2)%coqR
  /\ t = RtoC (loss * (4 * n1 * n2 / (n1 + n2) ^ 2))%coqR.
Proof. exact film_interface. Qed.
Print Assumptions C51_fresnel.
(** One film: the Airy formulas. *)
Theorem C51_airy : forall argsort c freq th e x r t,
  sorts argsort -> (0 < t_top c)%coqR -> (0 < t_bottom c)%coqR ->
  let om := Cmul (RtoC (2 * PI)%coqR) freq in
  (0 <= Re om)%coqR -> (0 < Im om)%coqR ->
  film_stack argsort c freq [:: (th, e)] = Ok x -> RT_Solve true x = Ok (r, t) ->
  let loss := exp (- (2 * sqrt (t_top c) * Im om))%coqR in
  let n0 := RtoC (sqrt (t_top c)) in let n2 := RtoC (sqrt (t_bottom c)) in
  exists n1, index_of om (eps_C e) n1 /\
    let d := film_phase om n1 th in
    let r01 := ((n1 - n0) / (n1 + n0))%C in let r12 := ((n2 - n1) / (n2 + n1))%C in
    let t01 := (RtoC 2 * n1 / (n1 + n0))%C in let t12 := (RtoC 2 * n2 / (n2 + n1))%C in
    r = RtoC (loss * Cnorm2 ((r01 + r12 * (d * d)) / (C1 + r01 * r12 * (d * d)))%C)%coqR
    /\ t = RtoC (loss * (sqrt (t_top c) / sqrt (t_bottom c)) * Cnorm2 (t01 * t12 * d / (C1 + r01 * r12 * (d * d)))%C)%coqR.
Proof. exact film_single. Qed.
Print Assumptions C51_airy.
(** Any number of films: the textbook recursion of Spec_Film. *)
Theorem C51_films : forall argsort c freq films x r t,
  sorts argsort -> (0 < t_top c)%coqR -> (0 < t_bottom c)%coqR ->
  let om := Cmul (RtoC (2 * PI)%coqR) freq in
  om <> C0 -> (0 <= Re om)%coqR -> (0 <= Im om)%coqR ->
  film_stack argsort c freq films = Ok x -> RT_Solve true x = Ok (r, t) ->
  let loss := exp (- (2 * sqrt (t_top c) * Im om))%coqR in
  exists ns, size ns = size films
  /\ (forall i n p, List.nth_error ns i = Some n -> List.nth_error films i = Some p -> index_of om (eps_C p.2) n)
  /\ let '(X, D, P) := film om (RtoC (sqrt (t_top c))) (zip ns (map fst films)) (RtoC (sqrt (t_bottom c))) in
     D <> C0 /\ r = RtoC (loss * Cnorm2 (Cdiv X D))%coqR
     /\ t = RtoC (loss * (sqrt (t_top c) / sqrt (t_bottom c)) * Cnorm2 (Cdiv P D))%coqR.
Proof. exact film_rt. Qed.
Print Assumptions C51_films.
(** Real permittivities and a real frequency: R + T = 1. *)
Theorem C51_lossless : forall argsort c (f : R) films x r t,
  sorts argsort -> (0 < f)%coqR -> (0 < t_top c)%coqR -> (0 < t_bottom c)%coqR ->
  (forall p, List.In p films -> Im (eps_C p.2) = 0%coqR) ->
  film_stack argsort c (RtoC f) films = Ok x -> RT_Solve true x = Ok (r, t) ->
  exists Rr Tr, r = RtoC Rr /\ t = RtoC Tr /\ (0 <= Rr)%coqR /\ (0 <= Tr)%coqR /\ (Rr + Tr = 1)%coqR.
Proof. exact film_lossless. Qed.
Print Assumptions C51_lossless.
(** Stacks of non-zero permittivities can always be set up, ... *)
Theorem C51_setup : forall argsort c freq films,
  sorts argsort -> usable c -> (0 < t_top c)%coqR -> t_bottom c <> 0%coqR ->
  (forall p, List.In p films -> eps_C p.2 <> C0) ->
  exists x, film_stack argsort c freq films = Ok x.
Proof. exact film_total. Qed.
Print Assumptions C51_setup.
(** ... passive ones can always be solved, ... *)
Theorem C51_solves : forall argsort eig c Nx Ny N grid f x,
  sorts argsort -> (0 < f)%coqR -> (0 < t_top c)%coqR -> (0 < t_bottom c)%coqR ->
  (forall i th, (i < N)%N -> layer_thickness (t_thick c) i = Some th -> (0 <= th)%coqR) ->
  (forall a b i, (a < Nx)%N -> (b < Ny)%N -> (i < N)%N -> passive_eps (grid a b i)) ->
  init_trcwa argsort eig c Nx Ny N grid f = Ok x ->
  (Nx = 1%N /\ Ny = 1%N \/ eigenbasis eig
     /\ forall i, (i < N)%N -> resolved_entries (mkGrid2 Nx Ny (fun a b => grid a b i)) (x_G x)) ->
  exists r t, RT_Solve true x = Ok (r, t).
Proof. exact init_solves. Qed.
Print Assumptions C51_solves.
(** ... and give non-negative numbers with R + T <= 1, also for patterned layers. *)
Theorem C51_energy : forall argsort eig c Nx Ny N grid f x r t,
  sorts argsort -> (0 < f)%coqR -> (0 < t_top c)%coqR -> (0 < t_bottom c)%coqR ->
  (forall i th, (i < N)%N -> layer_thickness (t_thick c) i = Some th -> (0 <= th)%coqR) ->
  (forall a b i, (a < Nx)%N -> (b < Ny)%N -> (i < N)%N -> passive_eps (grid a b i)) ->
  init_trcwa argsort eig c Nx Ny N grid f = Ok x -> RT_Solve true x = Ok (r, t) ->
  (Nx = 1%N /\ Ny = 1%N \/ eigenpairs eig
     /\ forall i, (i < N)%N -> resolved_entries (mkGrid2 Nx Ny (fun a b => grid a b i)) (x_G x)) ->
  exists Rr Tr, r = RtoC Rr /\ t = RtoC Tr /\ (0 <= Rr)%coqR /\ (0 <= Tr)%coqR
    /\ (Rr + Tr <= exp (- (2 * sqrt (t_top c) * Im (omega_of f))))%coqR.
Proof. exact init_energy. Qed.
Print Assumptions C51_energy.
(** The whole calculation for uniform layers: it succeeds for every passive stack. *)
Theorem C51_uniform_total : forall argsort eig c N grid f,
  sorts argsort -> usable c -> (0 < f)%coqR -> (0 < t_top c)%coqR -> (0 < t_bottom c)%coqR ->
  (forall i, (i < N)%N -> exists th, layer_thickness (t_thick c) i = Some th /\ (0 <= th)%coqR) ->
  (forall i, (i < N)%N -> grid 0%N 0%N i <> C0 /\ passive_eps (grid 0%N 0%N i)) ->
  exists x Rr Tr, init_trcwa argsort eig c 1 1 N grid f = Ok x
    /\ RT_Solve true x = Ok (RtoC Rr, RtoC Tr) /\ (0 <= Rr)%coqR /\ (0 <= Tr)%coqR
    /\ (Rr + Tr <= exp (- (2 * sqrt (t_top c) * Im (omega_of f))))%coqR.
Proof. exact uniform_spectrum. Qed.
Print Assumptions C51_uniform_total.
(** For patterned layers of absorbing materials it fails only if the eigensolver
    fails on the mode matrix of one of the layers. *)
Theorem C51_patterned_total : forall argsort eig c Nx Ny N grid f,
  sorts argsort -> usable c -> (0 < f)%coqR -> (0 < t_top c)%coqR -> (0 < t_bottom c)%coqR ->
  (1 < Nx)%N -> Nx <> 3%N -> (0 < Ny)%N -> eigenbasis eig ->
  (forall i, (i < N)%N -> exists th, layer_thickness (t_thick c) i = Some th /\ (0 <= th)%coqR) ->
  (forall a b i, (a < Nx)%N -> (b < Ny)%N -> (i < N)%N -> absorbing_eps (grid a b i)) ->
  (forall G, orders_of argsort c G -> resolves Nx Ny G
     /\ forall i, (i < N)%N -> resolved_entries (mkGrid2 Nx Ny (fun a b => grid a b i)) G) ->
  (exists x Rr Tr, init_trcwa argsort eig c Nx Ny N grid f = Ok x
    /\ RT_Solve true x = Ok (RtoC Rr, RtoC Tr) /\ (0 <= Rr)%coqR /\ (0 <= Tr)%coqR
    /\ (Rr + Tr <= exp (- (2 * sqrt (t_top c) * Im (omega_of f))))%coqR)
  \/ (exists lk1 lk2 G n (kx ky : 'rV[C]_(size G)) i ei e2 e,
        Lattice_Reciprocate (t_L1 c) (t_L2 c) = Ok (lk1, lk2) /\ Lattice_getG argsort (t_NG c) lk1 lk2 0%coqZ = Ok (G, n)
        /\ (forall j : 'I_(size G), let k := recip lk1 lk2 (List.nth j G (0, 0)%coqZ) in
              kx 0 j = RtoC (2 * PI * fst k)%coqR /\ ky 0 j = RtoC (2 * PI * snd k)%coqR)
        /\ (i < N)%N /\ Epsilon_fft (1 / INR Nx / INR Ny)%coqR (Iso (mkGrid2 Nx Ny (fun a b => grid a b i))) G = Ok (ei, e2)
        /\ eig _ (mode_matrix kx ky (MakeKP_patterned (omega_of f) ei kx ky) e2) = Err e
        /\ init_trcwa argsort eig c Nx Ny N grid f = Err e).
Proof. exact pattern_spectrum. Qed.
Print Assumptions C51_patterned_total.
(** Lossless films at a real frequency can be solved if the zero order is the only
    one (others may graze the surface). *)
Theorem C51_lossless_solves : forall argsort c (f : R) films x,
  sorts argsort -> (0 < f)%coqR -> (0 < t_top c)%coqR -> (0 < t_bottom c)%coqR ->
  (forall p, List.In p films -> exists e, eps_C p.2 = RtoC e /\ (0 < e)%coqR) ->
  film_stack argsort c (RtoC f) films = Ok x -> size (x_G x) = 1%N ->
  exists r t, RT_Solve true x = Ok (r, t).
Proof. exact lossless_total. Qed.
Print Assumptions C51_lossless_solves.

(** C52: top and bottom, thicknesses and permittivity slices are the configured
    ones, and grids of three rows, or of one row with several layers, fail. *)
Theorem C52_object : forall argsort eig c Nx Ny N grid f x,
  init_trcwa argsort eig c Nx Ny N grid f = Ok x ->
  outer_ok c N (x_ready x)
  /\ s_omega (x_ready x) = omega_of f
  /\ ((0 < N)%N -> Nx = 1%N /\ Ny = 1%N \/ (1 < Nx)%N /\ Nx <> 3%N /\ (0 < Ny)%N
                 \/ Nx = 1%N /\ (1 < Ny)%N /\ Ny <> 3%N /\ N = 1%N)
  /\ (forall i, (i < N)%N -> exists md, List.nth_error (s_modes (x_ready x)) i.+1 = Some (Some md)
        /\ layer_mode eig (x_ready x) (mkGrid2 Nx Ny (fun a b => grid a b i)) md).
Proof. exact init_object. Qed.
Print Assumptions C52_object.

(** * Concrete cases *)
Definition ex_cfg : trcwa_cfg :=
  mkTcfg (OInt 5) (as_arg (1, 0)%coqR) (as_arg (0, 1)%coqR) 1%coqR 4%coqR [:: (1 / 2)%coqR].

Example ex_usable : usable ex_cfg.
Proof.
  exists (1, 0)%coqR, (0, 1)%coqR, (1, 0)%coqR, (0, 1)%coqR, 5%coqZ.
  do 3 (split; first by []). split; first by lia. rewrite /inner /=.
  do 4 (split; first by lra). move=> [a b] H.
  have L : forall u v, len2 (1, 0)%coqR (0, 1)%coqR (u, v) = IZR (u * u + v * v).
    move=> u v. rewrite /len2 /recip /= plus_IZR !mult_IZR. ring.
  rewrite !L.
  have P : (1 <= a * a + b * b)%coqZ.
    have A : a <> 0%coqZ \/ b <> 0%coqZ by case: (Z.eq_dec a 0) => [Ea|]; [right => Eb; apply: H; rewrite Ea Eb | left].
    have := Z.square_nonneg a. have := Z.square_nonneg b. case: A => K; nia.
  apply: Rlt_le_trans (IZR_le _ _ P). rewrite Rmax_left; last by apply: IZR_le. rewrite /=. lra.
Qed.

Lemma ex_orders G : orders_of isort ex_cfg G -> G = [:: (0, 0)%coqZ].
Proof.
  move=> [lk1 [lk2 [n [E1 E2]]]].
  have R := reciprocate_unique (1, 0)%coqR (0, 1)%coqR (1, 0)%coqR (0, 1)%coqR ltac:(rewrite /inner /=; lra)
     ltac:(rewrite /inner /=; lra) ltac:(rewrite /inner /=; lra) ltac:(rewrite /inner /=; lra).
  rewrite [Lattice_Reciprocate _ _]R in E1. case: E1 => ? ?; subst lk1 lk2.
  have [F _] := square_five isort 1%coqR isort_sorts Rlt_0_1. rewrite [Lattice_getG _ _ _ _ _]F in E2. by case: E2.
Qed.

(** Two uniform layers, one of them lossy: the calculation succeeds. *)
Example ex_uniform eig : exists x Rr Tr,
  init_trcwa isort eig ex_cfg 1 1 2 (fun _ _ i => if i == 0%N then (3, 1)%coqR else RtoC 2) 1%coqR = Ok x
  /\ RT_Solve true x = Ok (RtoC Rr, RtoC Tr) /\ (Rr + Tr <= 1)%coqR.
Proof.
  have [x [Rr [Tr [E1 [E2 [_ [_ E3]]]]]]] := C51_uniform_total isort eig ex_cfg 2
    (fun _ _ i => if i == 0%N then (3, 1)%coqR else RtoC 2) 1%coqR isort_sorts ex_usable Rlt_0_1 Rlt_0_1 ltac:(rewrite /=; lra)
    ltac:(move=> [|[|i]] // _; exists (1 / 2)%coqR; split=> //; lra)
    ltac:(move=> [|[|i]] // _; split; [move=> E; have := f_equal Re E; rewrite /=; lra | rewrite /passive_eps /=; lra
           | move=> E; have := f_equal Re E; rewrite /=; lra | rewrite /passive_eps /=; lra]).
  exists x, Rr, Tr. split=> //. split=> //. apply: Rle_trans E3 _. rewrite -[X in (_ <= X)%coqR]exp_0. apply: Rlt_le. apply: exp_increasing.
  have [_ [P _]] := omega_pos 1%coqR Rlt_0_1. have := sqrt_lt_R0 _ Rlt_0_1. rewrite [t_top _]/=. nra.
Qed.

(** A film of permittivity 9 at a real frequency: R + T = 1. *)
Example ex_lossless : exists x Rr Tr,
  film_stack isort ex_cfg (RtoC 1) [:: ((1 / 3)%coqR, EReal 9%coqR)] = Ok x
  /\ RT_Solve true x = Ok (RtoC Rr, RtoC Tr) /\ (Rr + Tr = 1)%coqR.
Proof.
  have Hb : (0 < t_bottom ex_cfg)%coqR by rewrite /=; lra. have Ht : (0 < t_top ex_cfg)%coqR by rewrite /=; lra.
  have [x Ex] := C51_setup isort ex_cfg (RtoC 1) [:: ((1 / 3)%coqR, EReal 9%coqR)] isort_sorts ex_usable Ht
    ltac:(rewrite /=; lra) ltac:(move=> p [<-|[]] E; have := f_equal Re E; rewrite /=; lra).
  have [_ [_ [_ [E2 _]]]] := film_stack_ok _ _ _ _ _ Ex.
  have [ep0 [lk1 [lk2 [n [_ [_ [H3 [H4 _]]]]]]]] := setup_ok isort (trcwa_object ex_cfg (Cmul (RtoC (2 * PI)%coqR) (RtoC 1)) _) _ _ erefl erefl E2.
  have Sz : size (x_G x) = 1%N by rewrite (ex_orders (x_G x)) //; exists lk1, lk2, n.
  have [r [t Ert]] := C51_lossless_solves isort ex_cfg 1%coqR [:: ((1 / 3)%coqR, EReal 9%coqR)] x isort_sorts Rlt_0_1 Ht Hb
    ltac:(move=> p [<-|[]]; exists 9%coqR; split=> //; lra) Ex Sz.
  have [Rr [Tr [E3 [E4 [_ [_ E5]]]]]] := C51_lossless isort ex_cfg 1%coqR [:: ((1 / 3)%coqR, EReal 9%coqR)] x r t isort_sorts Rlt_0_1 Ht Hb
    ltac:(by move=> p [<-|[]]) Ex Ert.
  exists x, Rr, Tr. by rewrite Ert E3 E4.
Qed.

(** An eigensolver that handles diagonal matrices, and a layer of two cells with
    permittivities 2 and 4. *)
Definition diag_eig : eig_oracle := fun m A =>
  if A == diag_mx (\row_j A j j) then Ok (\row_j A j j, 1%:M) else Err RuntimeError.
Example ex_eigenbasis : eigenbasis diag_eig.
Proof.
  move=> m A w V. rewrite /diag_eig. case: eqP => // E [<- <-]. rewrite mulmx1 mul1mx unitmx1. by split.
Qed.
Example ex_patterned : let grid := fun a _ _ => if a == 0%N then RtoC 2 else RtoC 4 in
  exists x Rr Tr, init_trcwa isort diag_eig ex_cfg 2 1 1 grid 1%coqR = Ok x
    /\ RT_Solve true x = Ok (RtoC Rr, RtoC Tr) /\ (0 <= Rr)%coqR /\ (0 <= Tr)%coqR
    /\ (Rr + Tr <= exp (- (2 * sqrt (t_top ex_cfg) * Im (omega_of 1))))%coqR.
Proof.
  move=> grid. have Hx : (1 < 2)%N by []. have Hx3 : 2%N <> 3%N by []. have Hy : (0 < 1)%N by [].
  have Ht : (0 < t_top ex_cfg)%coqR by rewrite /=; lra. have Hb : (0 < t_bottom ex_cfg)%coqR by rewrite /=; lra.
  have Hth : forall i, (i < 1)%N -> exists th, layer_thickness (t_thick ex_cfg) i = Some th /\ (0 <= th)%coqR.
    move=> [|i] // _. exists (1 / 2)%coqR. split=> //. lra.
  have Hp : forall a b i, (a < 2)%N -> (b < 1)%N -> (i < 1)%N -> absorbing_eps (grid a b i).
    move=> a b i _ _ _. rewrite /absorbing_eps /grid. case: eqP => _ /=; lra.
  have HG : forall G, orders_of isort ex_cfg G -> resolves 2 1 G
     /\ forall i, (i < 1)%N -> resolved_entries (mkGrid2 2 1 (fun a b => grid a b i)) G.
    move=> G /ex_orders ->. split; first by move=> [|i] [|j].
    move=> i _ [|k] [|j] // _ _. right. left. rewrite /fourier /= big_ord_recl big_ord1 big_ord1 big_ord1 /grid /=.
    have -> : forall u v : R, (- (2 * PI) * (0 * u + 0 * v))%coqR = 0%coqR by move=> u v; ring.
    have -> : forall u v : R, (- (2 * PI) * (0 * u + 0 * v))%coqR = 0%coqR by move=> u v; ring.
    rewrite ?C_mulE ?C_addE /Cis /= cos_0 sin_0. lra.
  have [//|] := C51_patterned_total isort diag_eig ex_cfg 2 1 1 grid 1%coqR isort_sorts ex_usable Rlt_0_1 Ht Hb Hx Hx3 Hy
    ex_eigenbasis Hth Hp HG.
  move=> [lk1 [lk2 [G [n [kx [ky [i [ei [e2 [e [E1 [E2 [W [_ [Ef [Ee _]]]]]]]]]]]]]]]]. exfalso.
  have EG : G = [:: (0, 0)%coqZ] by apply: ex_orders; exists lk1, lk2, n.
  subst G. have Zx : kx = 0. apply/rowP => j. have [-> _] := W j. rewrite mxE ord1 /recip /=. apply: Ceq; rewrite /=; ring.
  have Zy : ky = 0. apply/rowP => j. have [_ ->] := W j. rewrite mxE ord1 /recip /=. apply: Ceq; rewrite /=; ring.
  move: Ef. rewrite /Epsilon_fft /bind. case: (get_conv _ _ _) => [E|] //. case: (inverse E) => [iE|] // [_ E2'].
  have Ed : E = (E 0 0)%:M by apply/matrixP => a b; rewrite !ord1 !mxE.
  move: Ee. rewrite Zx Zy /mode_matrix /MakeKP_patterned /Jk oppr0 !raddf0 col_mx0 !mul0mx subr0 -E2' /diag_eig.
  case: eqP => // Nd _. apply: Nd. rewrite map_block_mx.
  have -> : map_mx threshold E = (threshold (E 0 0))%:M by apply/matrixP => a b; rewrite !ord1 !mxE.
  have -> : map_mx threshold (0 : 'M[C]_1) = 0 by apply/matrixP => a b; rewrite !mxE /threshold; case: Rlt_dec => // ?; case: Rlt_dec.
  rewrite -scalar_mx_block subr0 -scalar_mxM. apply/matrixP => a b. rewrite !mxE. by case: eqP => [->|_]; rewrite ?eqxx.
Qed.
