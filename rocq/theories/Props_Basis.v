(** Property theorems C64: the numbers do not depend on which eigenvectors the
    eigensolver returns, and a pattern that is constant acts as the uniform layer.
    [eigenbasis], [kept], [usable] and [orders_of] are defined in Spec_TRCWA.v,
    [sorts] in Spec_Lattice.v. *)
From Coq Require Import Reals Lra ZArith String Lia.
From mathcomp Require Import all_ssreflect all_algebra.
From Verif Require Import Base Cplx CplxLemmas CField Model_Lattice Spec_Lattice Proof_Lattice Proof_Lattice2
  Proof_Lattice3 Proof_Lattice4 Model_Stack Model_Modes Spec_Modes Model_TRCWA Spec_TRCWA Spec_Passive
  Proof_Smatrix Proof_FFT Proof_Init Proof_Init2 Proof_TRCWA Proof_Pattern2 Props_TRCWA Proof_Basis Proof_Basis2.
Import GRing.Theory.
Delimit Scope R_scope with coqR.
Delimit Scope Z_scope with coqZ.
Local Open Scope ring_scope.

(** Any two eigensolvers that return a basis of eigenvectors, in any order, scaled
    and mixed in any way, lead to the same reflection and transmission. *)
Theorem C64_eigenvectors : forall argsort eig eig' c Nx Ny N grid f x x' nrm v,
  eigenbasis eig -> eigenbasis eig' ->
  init_trcwa argsort eig c Nx Ny N grid f = Ok x -> init_trcwa argsort eig' c Nx Ny N grid f = Ok x' ->
  RT_Solve nrm x = Ok v -> RT_Solve nrm x' = Ok v.
Proof. exact eigenvectors_free. Qed.
Print Assumptions C64_eigenvectors.
(** ... and so to the same spectra. *)
Theorem C64_spectrum : forall argsort eig eig' e u s s',
  eigenbasis eig -> eigenbasis eig' ->
  compute_spectrum_trcwa argsort eig e u = Ok s -> compute_spectrum_trcwa argsort eig' e u = Ok s' -> s = s'.
Proof. exact spectrum_eigenvectors. Qed.
Print Assumptions C64_spectrum.
(** A stack given on an Nx by Ny grid whose cells are all equal is the stack given
    on a single cell, provided no permittivity falls under the solver's threshold
    (both parts under 1e-14, which every real negative one does). *)
Theorem C64_constant : forall argsort eig eig' c Nx Ny N grid grid1 f x x1 nrm v,
  sorts argsort -> usable c -> eigenbasis eig ->
  (forall a b i, (a < Nx)%N -> (b < Ny)%N -> (i < N)%N -> grid a b i = grid1 0%N 0%N i) ->
  (forall i, (i < N)%N -> kept (grid1 0%N 0%N i)) ->
  init_trcwa argsort eig c Nx Ny N grid f = Ok x -> init_trcwa argsort eig' c 1 1 N grid1 f = Ok x1 ->
  RT_Solve nrm x1 = Ok v <-> RT_Solve nrm x = Ok v.
Proof. exact constant_pattern. Qed.
Print Assumptions C64_constant.
(** ... for whole spectra. *)
Theorem C64_constant_spectrum : forall argsort eig eig' e e1 u s s1,
  sorts argsort -> usable (u_cfg u) -> eigenbasis eig ->
  e_nx e1 = 1%N -> e_ny e1 = 1%N -> e_nl e1 = e_nl e -> e_nf e1 = e_nf e ->
  (forall a b i k, (a < e_nx e)%N -> (b < e_ny e)%N -> (i < e_nl e)%N -> (k < e_nf e)%N ->
     e_at e a b i k = e_at e1 0%N 0%N i k) ->
  (forall i k z, (i < e_nl e)%N -> (k < e_nf e)%N -> e_at e1 0%N 0%N i k = Some z -> kept z) ->
  compute_spectrum_trcwa argsort eig e u = Ok s ->
  compute_spectrum_trcwa argsort eig' e1 (mkTrun 1 1 (u_Nl u) (u_Nf u) (u_freqs u) (u_cfg u)) = Ok s1 -> s = s1.
Proof. exact spectrum_constant. Qed.
Print Assumptions C64_constant_spectrum.

(** * Concrete cases *)
(** A layer of two cells, solved by any eigensolver that handles diagonal matrices. *)
Definition two_cells (u v : R) : nat -> nat -> nat -> C := fun a _ _ => if a == 0%N then RtoC u else RtoC v.
Lemma two_cells_solved eig u v : eigenbasis eig -> (1 <= u)%coqR -> (1 <= v)%coqR ->
  (forall m (d : 'rV[C]_m), exists r, eig m (diag_mx d) = Ok r) ->
  exists x Rr Tr, init_trcwa isort eig ex_cfg 2 1 1 (two_cells u v) 1%coqR = Ok x
    /\ RT_Solve true x = Ok (RtoC Rr, RtoC Tr).
Proof.
  move=> He Hu Hv Hd. have Hx : (1 < 2)%N by []. have Hx3 : 2%N <> 3%N by []. have Hy : (0 < 1)%N by [].
  have Ht : (0 < t_top ex_cfg)%coqR by rewrite /=; lra. have Hb : (0 < t_bottom ex_cfg)%coqR by rewrite /=; lra.
  have Hth : forall i, (i < 1)%N -> exists th, layer_thickness (t_thick ex_cfg) i = Some th /\ (0 <= th)%coqR.
    move=> [|i] // _. exists (1 / 2)%coqR. split=> //. lra.
  have Hp : forall a b i, (a < 2)%N -> (b < 1)%N -> (i < 1)%N -> absorbing_eps (two_cells u v a b i).
    move=> a b i _ _ _. rewrite /absorbing_eps /two_cells. case: eqP => _ /=; lra.
  have HG : forall G, orders_of isort ex_cfg G -> resolves 2 1 G
     /\ forall i, (i < 1)%N -> resolved_entries (mkGrid2 2 1 (fun a b => two_cells u v a b i)) G.
    move=> G /ex_orders ->. split; first by move=> [|i] [|j].
    move=> i _ [|k] [|j] // _ _. right. left. rewrite /fourier /= big_ord_recl big_ord1 big_ord1 big_ord1 /two_cells /=.
    have -> : forall u v : R, (- (2 * PI) * (0 * u + 0 * v))%coqR = 0%coqR by move=> ? ?; ring.
    have -> : forall u v : R, (- (2 * PI) * (0 * u + 0 * v))%coqR = 0%coqR by move=> ? ?; ring.
    rewrite ?C_mulE ?C_addE /Cis /= cos_0 sin_0. lra.
  have [[x [Rr [Tr [A [B _]]]]]|] := C51_patterned_total isort eig ex_cfg 2 1 1 (two_cells u v) 1%coqR isort_sorts ex_usable Rlt_0_1 Ht Hb Hx Hx3 Hy
    He Hth Hp HG; first by exists x, Rr, Tr.
  move=> [lk1 [lk2 [G [n [kx [ky [i [ei [e2 [e [E1 [E2 [W [_ [Ef [Ee _]]]]]]]]]]]]]]]]. exfalso.
  have EG : G = [:: (0, 0)%coqZ] by apply: ex_orders; exists lk1, lk2, n.
  subst G. have Zx : kx = 0. apply/rowP => j. have [-> _] := W j. rewrite mxE ord1 /recip /=. apply: Ceq; rewrite /=; ring.
  have Zy : ky = 0. apply/rowP => j. have [_ ->] := W j. rewrite mxE ord1 /recip /=. apply: Ceq; rewrite /=; ring.
  move: Ef. rewrite /Epsilon_fft /bind. case: (get_conv _ _ _) => [E|] //. case: (inverse E) => [iE|] // [_ E2'].
  have Ed : E = (E 0 0)%:M by apply/matrixP => a b; rewrite !ord1 !mxE.
  move: Ee. rewrite Zx Zy /mode_matrix /MakeKP_patterned /Jk oppr0 !raddf0 col_mx0 !mul0mx subr0 -E2' map_block_mx.
  have -> : map_mx threshold E = (threshold (E 0 0))%:M by apply/matrixP => a b; rewrite !ord1 !mxE.
  have -> : map_mx threshold (0 : 'M[C]_1) = 0 by apply/matrixP => a b; rewrite !mxE /threshold; case: Rlt_dec => // ?; case: Rlt_dec.
  rewrite -scalar_mx_block subr0 -scalar_mxM.
  match goal with |- context [?c%:M] => have -> : c%:M = diag_mx (const_mx c) :> 'M[C]_(1 + 1) by rewrite diag_const_mx end.
  match goal with |- eig ?m (diag_mx ?d) = _ -> _ => have [r ->] := Hd m d end. by [].
Qed.

Lemma diag_eig_diag m (d : 'rV[C]_m) : exists r, diag_eig m (diag_mx d) = Ok r.
Proof.
  rewrite /diag_eig. case: eqP => [_|N]; first by eexists. exfalso. apply: N. congr diag_mx. apply/rowP => j.
  by rewrite !mxE eqxx.
Qed.

(** An eigensolver that returns the eigenvectors of another one in reverse and
    five times as long. *)
Definition flipped (m : nat) : 'M[C]_m := \matrix_(i, j) (if i == rev_ord j then RtoC 5 else 0).
Definition other_eig : eig_oracle := fun m A =>
  match diag_eig m A with
  | Ok (w, V) => Ok (\row_j w 0 (rev_ord j), V *m flipped m)
  | Err e => Err e
  end.
Example C64_other : eigenbasis other_eig /\ forall m (d : 'rV[C]_m), exists r, other_eig m (diag_mx d) = Ok r.
Proof.
  split; last by move=> m d; have [[w V] E] := diag_eig_diag m d; eexists; rewrite /other_eig E.
  have F5 : RtoC 5 != 0 by apply/eqP => E; have := f_equal Re E; rewrite /=; lra.
  move=> m A w V. rewrite /other_eig. case E: (diag_eig m A) => [[w0 V0]|] // [<- <-].
  have [H1 H2] := ex_eigenbasis _ _ _ _ E. split.
  - rewrite mulmxA H1 -!mulmxA. congr (_ *m _). apply/matrixP => i j. rewrite mul_diag_mx mul_mx_diag !mxE.
    case: eqP => [->|_]; first by rewrite mulrC. by rewrite mulr0 mul0r.
  - rewrite unitmx_mul H2 /=. have : flipped m *m ((RtoC 5)^-1 ^+ 2 *: flipped m) = 1%:M.
      apply/matrixP => i j. rewrite !mxE (bigD1 (rev_ord i)) //= big1 ?addr0.
        rewrite !mxE rev_ordK eqxx. rewrite (can_eq rev_ordK). case: eqP => _; last by rewrite !mulr0.
        move: (RtoC 5) F5 => z F5. by rewrite expr2 !mulrA divff // mul1r mulVf.

      move=> k Hk. rewrite !mxE. case: eqP => [Ek|_]; last by rewrite mul0r. exfalso. move/negP: Hk. apply. by rewrite Ek rev_ordK.
    by move/mulmx1_unit => [].
Qed.

Example C64_agree : exists x x' v, diag_eig <> other_eig
  /\ init_trcwa isort diag_eig ex_cfg 2 1 1 (two_cells 2 4) 1%coqR = Ok x
  /\ init_trcwa isort other_eig ex_cfg 2 1 1 (two_cells 2 4) 1%coqR = Ok x'
  /\ RT_Solve true x = Ok v /\ RT_Solve true x' = Ok v.
Proof.
  have [x [Rr [Tr [E1 E2]]]] := two_cells_solved diag_eig 2 4 ex_eigenbasis ltac:(lra) ltac:(lra) diag_eig_diag.
  have [O1 O2] := C64_other.
  have [x' [Rr' [Tr' [E1' E2']]]] := two_cells_solved other_eig 2 4 O1 ltac:(lra) ltac:(lra) O2.
  exists x, x', (RtoC Rr, RtoC Tr). split.
    move=> E. have [r Er] := diag_eig_diag 1 0. have := f_equal (fun e : eig_oracle => e 1%N (diag_mx 0)) E.
    rewrite /other_eig Er. move: Er. rewrite /diag_eig. case: eqP => // _ [<-] /= [_ K].
    have := f_equal (fun A : 'M[C]_1 => Re (A 0 0)) K. rewrite mul1mx !mxE !ord1 !eqxx mulr1n /=. lra.
  do 3 (split=> //). exact: C64_eigenvectors ex_eigenbasis O1 E1 E1' E2.
Qed.

Example C64_two_equal_cells : exists x x1 v,
  init_trcwa isort diag_eig ex_cfg 2 1 1 (two_cells 3 3) 1%coqR = Ok x
  /\ init_trcwa isort diag_eig ex_cfg 1 1 1 (fun _ _ _ => RtoC 3) 1%coqR = Ok x1
  /\ RT_Solve true x1 = Ok v /\ RT_Solve true x = Ok v.
Proof.
  have [x [Rr [Tr [E1 E2]]]] := two_cells_solved diag_eig 3 3 ex_eigenbasis ltac:(lra) ltac:(lra) diag_eig_diag.
  have [x1 [Rr1 [Tr1 [F1 [F2 _]]]]] := C51_uniform_total isort diag_eig ex_cfg 1 (fun _ _ _ => RtoC 3) 1%coqR
    isort_sorts ex_usable Rlt_0_1 Rlt_0_1 ltac:(rewrite /=; lra)
    ltac:(move=> [|i] // _; exists (1 / 2)%coqR; split=> //; lra)
    ltac:(move=> i _; split; [move=> E; have := f_equal Re E; rewrite /=; lra | rewrite /passive_eps /=; lra]).
  exists x, x1, (RtoC Rr1, RtoC Tr1). do 3 (split=> //).
  apply/(C64_constant isort diag_eig diag_eig ex_cfg 2 1 1 (two_cells 3 3) (fun _ _ _ => RtoC 3) 1%coqR x x1) => //.
  - exact: isort_sorts.
  - exact: ex_usable.
  - exact: ex_eigenbasis.
  - move=> a b i _ _ _. rewrite /two_cells. by case: ifP.
  - move=> i _. left. rewrite /=. lra.
Qed.
