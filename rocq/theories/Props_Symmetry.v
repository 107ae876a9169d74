(** Property theorems C65: where a pattern starts, and mirroring it, matters
    neither for reflection nor for transmission.  [moved], [is_sign] and
    [lattice_symmetric] are defined in Spec_Symmetry.v; [eigenbasis], [usable],
    [orders_of] and [resolved_entries] in Spec_TRCWA.v. *)
From Coq Require Import Reals Lra ZArith String Lia.
From mathcomp Require Import all_ssreflect all_algebra.
From Verif Require Import Base Cplx CplxLemmas CField Model_Lattice Spec_Lattice Proof_Lattice Proof_Lattice2
  Proof_Lattice3 Proof_Lattice4 Model_Stack Model_Modes Spec_Modes Model_TRCWA Spec_TRCWA Spec_Passive Spec_Symmetry
  Proof_FFT Props_TRCWA Proof_Basis Proof_Basis2 Props_Basis Proof_Symmetry4 Proof_Symmetry3.
Import GRing.Theory.
Delimit Scope R_scope with coqR.
Delimit Scope Z_scope with coqZ.
Local Open Scope ring_scope.

(** All layers moved by the same (s, t) cells, mirrored along both axes (half a
    turn) or, if the lattice vectors lie along the axes, along one of them: the same
    reflection and transmission, as long as thresholding drops no coefficient of
    either pattern. *)
Theorem C65_symmetric : forall argsort eig eig' c Nx Ny N grid grid' f x x' nrm v e1 e2 s t,
  sorts argsort -> usable c -> eigenbasis eig -> eigenbasis eig' ->
  is_sign e1 -> is_sign e2 -> lattice_symmetric c e1 e2 ->
  (forall a b i, (a < Nx)%N -> (b < Ny)%N -> (i < N)%N -> grid' a b i = grid (moved Nx e1 s a) (moved Ny e2 t b) i) ->
  init_trcwa argsort eig c Nx Ny N grid f = Ok x -> init_trcwa argsort eig' c Nx Ny N grid' f = Ok x' ->
  (Nx = 1%N /\ Ny = 1%N \/ forall i, (i < N)%N -> resolved_entries (mkGrid2 Nx Ny (fun a b => grid a b i)) (x_G x)
                                    /\ resolved_entries (mkGrid2 Nx Ny (fun a b => grid' a b i)) (x_G x')) ->
  RT_Solve nrm x = Ok v <-> RT_Solve nrm x' = Ok v.
Proof. exact symmetric_pattern. Qed.
Print Assumptions C65_symmetric.
(** ... and the same spectra. *)
Theorem C65_spectrum : forall argsort eig eig' e e' u r r' e1 e2 s t,
  sorts argsort -> usable (u_cfg u) -> eigenbasis eig -> eigenbasis eig' ->
  is_sign e1 -> is_sign e2 -> lattice_symmetric (u_cfg u) e1 e2 ->
  e_nx e' = e_nx e -> e_ny e' = e_ny e -> e_nl e' = e_nl e -> e_nf e' = e_nf e ->
  (forall a b i k, (a < e_nx e)%N -> (b < e_ny e)%N -> (i < e_nl e)%N -> (k < e_nf e)%N ->
     e_at e' a b i k = e_at e (moved (e_nx e) e1 s a) (moved (e_ny e) e2 t b) i k) ->
  (e_nx e = 1%N /\ e_ny e = 1%N \/
   forall G i k, orders_of argsort (u_cfg u) G -> (i < e_nl e)%N -> (k < e_nf e)%N ->
     resolved_entries (mkGrid2 (e_nx e) (e_ny e) (fun a b => slice4 e k a b i)) G
     /\ resolved_entries (mkGrid2 (e_nx e) (e_ny e) (fun a b => slice4 e' k a b i)) G) ->
  compute_spectrum_trcwa argsort eig e u = Ok r -> compute_spectrum_trcwa argsort eig' e' u = Ok r' -> r = r'.
Proof. exact spectrum_symmetric. Qed.
Print Assumptions C65_spectrum.
(** The condition on the coefficients is needed: moving a stripe by one of its four
    cells gives a permittivity matrix that is not the old one in another basis. *)
Theorem C65_threshold_refuted : exists ei e2 ei' e2',
  Epsilon_fft (1 / INR 4 / INR 1)%coqR (Iso stripe) three_orders = Ok (ei, e2)
  /\ Epsilon_fft (1 / INR 4 / INR 1)%coqR (Iso moved_stripe) three_orders = Ok (ei', e2')
  /\ forall D, D \in unitmx -> D *m e2 <> e2' *m D.
Proof. exact stripe_moves. Qed.
Print Assumptions C65_threshold_refuted.

(** * Concrete cases *)
Example C65_moved_cells : moved 4 1 1 3 = 0%N /\ moved 4 (-1) 1 0 = 1%N /\ moved 4 (-1) 1 1 = 0%N /\ moved 4 (-1) 1 2 = 3%N.
Proof. by []. Qed.
Example C65_lattice : lattice_symmetric ex_cfg (-1) 1.
Proof. right. by exists 1%coqR, 1%coqR. Qed.
(** Two cells in the other order, seen as moved by one cell and as mirrored. *)
Example C65_two_cells : exists x x' v,
  init_trcwa isort diag_eig ex_cfg 2 1 1 (two_cells 2 4) 1%coqR = Ok x
  /\ init_trcwa isort other_eig ex_cfg 2 1 1 (two_cells 4 2) 1%coqR = Ok x'
  /\ (forall a b i, (a < 2)%N -> (b < 1)%N -> (i < 1)%N -> two_cells 4 2 a b i = two_cells 2 4 (moved 2 1 1 a) (moved 1 1 0 b) i
                                                        /\ two_cells 4 2 a b i = two_cells 2 4 (moved 2 (-1) 1 a) (moved 1 1 0 b) i)
  /\ RT_Solve true x = Ok v /\ RT_Solve true x' = Ok v.
Proof.
  have [x [Rr [Tr [E1 E2]]]] := two_cells_solved diag_eig 2 4 ex_eigenbasis ltac:(lra) ltac:(lra) diag_eig_diag.
  have [O1 O2] := C64_other.
  have [x' [Rr' [Tr' [E1' E2']]]] := two_cells_solved other_eig 4 2 O1 ltac:(lra) ltac:(lra) O2.
  have HM : forall a b i, (a < 2)%N -> (b < 1)%N -> (i < 1)%N -> two_cells 4 2 a b i = two_cells 2 4 (moved 2 1 1 a) (moved 1 1 0 b) i
                                                        /\ two_cells 4 2 a b i = two_cells 2 4 (moved 2 (-1) 1 a) (moved 1 1 0 b) i.
    by move=> [|[|a]] b i.
  exists x, x', (RtoC Rr, RtoC Tr). do 4 (split=> //).
  have RE : forall u v G, (1 <= u)%coqR -> (1 <= v)%coqR -> orders_of isort ex_cfg G ->
       forall i, resolved_entries (mkGrid2 2 1 (fun a b => two_cells u v a b i)) G.
    move=> u v G Hu Hv /ex_orders -> i [|k] [|j] // _ _. right. left.
    rewrite /fourier /= big_ord_recl big_ord1 big_ord1 big_ord1 /two_cells /=.
    have -> : forall u v : R, (- (2 * PI) * (0 * u + 0 * v))%coqR = 0%coqR by move=> ? ?; ring.
    have -> : forall u v : R, (- (2 * PI) * (0 * u + 0 * v))%coqR = 0%coqR by move=> ? ?; ring.
    rewrite ?C_mulE ?C_addE /Cis /= cos_0 sin_0. lra.
  have O : forall eig g x, init_trcwa isort eig ex_cfg 2 1 1 g 1%coqR = Ok x -> orders_of isort ex_cfg (x_G x).
    move=> eg g x0 /init_facts [_ [_ [lk1 [lk2 [n [_ [A [B _]]]]]]]]. by exists lk1, lk2, n.
  apply/(C65_symmetric isort diag_eig other_eig ex_cfg 2 1 1 (two_cells 2 4) (two_cells 4 2) 1%coqR x x' true _ 1 1 1 0
     isort_sorts ex_usable ex_eigenbasis O1 (or_introl erefl) (or_introl erefl) (or_introl erefl) _ E1 E1') => //.
  - move=> a b i Ha Hb Hi. by have [-> _] := HM a b i Ha Hb Hi.
  - right=> i _. split; apply: RE; try lra; [exact: O E1|exact: O E1'].
Qed.
