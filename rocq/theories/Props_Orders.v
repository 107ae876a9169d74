(** Property theorems C66: reflected and transmitted power by diffraction order.
    [order_at], [repeats] and [order_repeats] are defined in Spec_Orders.v, [moved],
    [is_sign] and [lattice_symmetric] in Spec_Symmetry.v, [eigenbasis], [usable],
    [passive_eps], [layer_thickness] and [resolved_entries] in Spec_TRCWA.v. *)
From Coq Require Import Reals Lra ZArith String Lia.
From mathcomp Require Import all_ssreflect all_algebra.
From Verif Require Import Base Cplx CplxLemmas CField Model_Lattice Spec_Lattice Proof_Lattice Proof_Lattice2
  Proof_Lattice3 Proof_Lattice4 Model_Stack Model_Modes Spec_Modes Model_TRCWA Spec_TRCWA Spec_Passive Spec_Symmetry
  Proof_FFT Proof_Init Proof_Init2 Proof_Pattern2 Props_TRCWA Proof_Basis Proof_Basis2 Props_Basis
  Model_Queries Spec_Orders Proof_Orders Proof_Orders3 Proof_Orders4.
Import GRing.Theory.
Delimit Scope R_scope with coqR.
Delimit Scope Z_scope with coqZ.
Local Open Scope ring_scope.

(** The total powers are the sums of the powers by order; one is defined exactly if
    the other is. *)
Theorem C66_sums : forall nrm x r t,
  RT_Solve nrm x = Ok (r, t) <->
  exists rs ts, RT_Solve_byorder nrm x = Ok (rs, ts) /\ r = \sum_i rs i 0 /\ t = \sum_i ts i 0.
Proof. exact orders_sum. Qed.
Print Assumptions C66_sums.
(** No order carries negative power, whatever the layers in between are. *)
Theorem C66_nonnegative : forall argsort eig c Nx Ny N grid f x nrm rs ts,
  sorts argsort -> (0 < f)%coqR -> (0 < t_top c)%coqR -> (0 < t_bottom c)%coqR ->
  init_trcwa argsort eig c Nx Ny N grid f = Ok x -> RT_Solve_byorder nrm x = Ok (rs, ts) ->
  forall i, exists Rr Tr, rs i 0 = RtoC Rr /\ ts i 0 = RtoC Tr /\ (0 <= Rr)%coqR /\ (0 <= Tr)%coqR.
Proof. exact orders_nonnegative. Qed.
Print Assumptions C66_nonnegative.
(** For passive layers no two orders, one reflected and one transmitted, carry more
    than the incident power. *)
Theorem C66_bounded : forall argsort eig c Nx Ny N grid f x rs ts,
  sorts argsort -> (0 < f)%coqR -> (0 < t_top c)%coqR -> (0 < t_bottom c)%coqR ->
  (forall i th, (i < N)%N -> layer_thickness (t_thick c) i = Some th -> (0 <= th)%coqR) ->
  (forall a b i, (a < Nx)%N -> (b < Ny)%N -> (i < N)%N -> passive_eps (grid a b i)) ->
  init_trcwa argsort eig c Nx Ny N grid f = Ok x -> RT_Solve_byorder true x = Ok (rs, ts) ->
  (Nx = 1%N /\ Ny = 1%N \/ eigenpairs eig
     /\ forall i, (i < N)%N -> resolved_entries (mkGrid2 Nx Ny (fun a b => grid a b i)) (x_G x)) ->
  forall i j, exists Rr Tr, rs i 0 = RtoC Rr /\ ts j 0 = RtoC Tr
    /\ (Rr + Tr <= exp (- (2 * sqrt (t_top c) * Im (omega_of f))))%coqR.
Proof. exact orders_bounded. Qed.
Print Assumptions C66_bounded.
(** Moving a pattern changes no order's power; mirroring it exchanges the orders. *)
Theorem C66_symmetric : forall argsort eig eig' c Nx Ny N grid grid' f x x' nrm rs ts e1 e2 s t,
  sorts argsort -> usable c -> eigenbasis eig -> eigenbasis eig' ->
  is_sign e1 -> is_sign e2 -> lattice_symmetric c e1 e2 ->
  (forall a b i, (a < Nx)%N -> (b < Ny)%N -> (i < N)%N -> grid' a b i = grid (moved Nx e1 s a) (moved Ny e2 t b) i) ->
  init_trcwa argsort eig c Nx Ny N grid f = Ok x -> init_trcwa argsort eig' c Nx Ny N grid' f = Ok x' ->
  (Nx = 1%N /\ Ny = 1%N \/ forall i, (i < N)%N -> resolved_entries (mkGrid2 Nx Ny (fun a b => grid a b i)) (x_G x)
                                    /\ resolved_entries (mkGrid2 Nx Ny (fun a b => grid' a b i)) (x_G x)) ->
  RT_Solve_byorder nrm x = Ok (rs, ts) ->
  exists rs' ts', RT_Solve_byorder nrm x' = Ok (rs', ts') /\
    forall i, exists j, order_at x j = (e1 * (order_at x' i).1, e2 * (order_at x' i).2)%coqZ
      /\ rs' i 0 = rs j 0 /\ ts' i 0 = ts j 0.
Proof. exact symmetric_orders. Qed.
Print Assumptions C66_symmetric.
(** If every layer looks the same after a move by (s, t) cells, only orders whose
    wave looks the same after that move carry power. *)
Theorem C66_selection : forall argsort eig c Nx Ny N grid f x nrm rs ts s t,
  sorts argsort -> usable c -> eigenbasis eig -> (0 < Nx)%N -> (0 < Ny)%N ->
  init_trcwa argsort eig c Nx Ny N grid f = Ok x ->
  (forall i, (i < N)%N -> repeats Nx Ny s t (fun a b => grid a b i)) ->
  RT_Solve_byorder nrm x = Ok (rs, ts) ->
  forall i, rs i 0 <> 0 \/ ts i 0 <> 0 -> order_repeats Nx Ny s t (order_at x i).
Proof. exact selection_rule. Qed.
Print Assumptions C66_selection.
(** Uniform layers reflect and transmit into the zero order only. *)
Theorem C66_uniform : forall argsort eig c N grid f x nrm rs ts,
  sorts argsort -> usable c -> eigenbasis eig -> init_trcwa argsort eig c 1 1 N grid f = Ok x ->
  RT_Solve_byorder nrm x = Ok (rs, ts) ->
  forall i, order_at x i <> (0, 0)%coqZ -> rs i 0 = 0 /\ ts i 0 = 0.
Proof. exact uniform_orders. Qed.
Print Assumptions C66_uniform.
(** Patterns that do not vary along y (along x) deflect nothing along y (along x). *)
Theorem C66_stripes_along_y : forall argsort eig c Nx Ny N grid f x nrm rs ts,
  sorts argsort -> usable c -> eigenbasis eig -> (0 < N)%N -> init_trcwa argsort eig c Nx Ny N grid f = Ok x ->
  (forall a b i, (a < Nx)%N -> (b < Ny)%N -> (i < N)%N -> grid a b i = grid a 0%N i) ->
  RT_Solve_byorder nrm x = Ok (rs, ts) ->
  forall i, (order_at x i).2 <> 0%coqZ -> rs i 0 = 0 /\ ts i 0 = 0.
Proof. exact stripes_y. Qed.
Print Assumptions C66_stripes_along_y.
Theorem C66_stripes_along_x : forall argsort eig c Nx Ny N grid f x nrm rs ts,
  sorts argsort -> usable c -> eigenbasis eig -> (0 < N)%N -> init_trcwa argsort eig c Nx Ny N grid f = Ok x ->
  (forall a b i, (a < Nx)%N -> (b < Ny)%N -> (i < N)%N -> grid a b i = grid 0%N b i) ->
  RT_Solve_byorder nrm x = Ok (rs, ts) ->
  forall i, (order_at x i).1 <> 0%coqZ -> rs i 0 = 0 /\ ts i 0 = 0.
Proof. exact stripes_x. Qed.
Print Assumptions C66_stripes_along_x.
(** A unit cell that is p copies of the same m cells diffracts only into every p-th
    order. *)
Theorem C66_supercell_x : forall argsort eig c p m Ny N grid f x nrm rs ts,
  sorts argsort -> usable c -> eigenbasis eig -> (0 < p)%N -> (0 < m)%N -> (0 < Ny)%N ->
  init_trcwa argsort eig c (p * m) Ny N grid f = Ok x ->
  (forall k a b i, (k < p)%N -> (a < m)%N -> (b < Ny)%N -> (i < N)%N -> grid (k * m + a)%N b i = grid a b i) ->
  RT_Solve_byorder nrm x = Ok (rs, ts) ->
  forall i, rs i 0 <> 0 \/ ts i 0 <> 0 -> exists z, (order_at x i).1 = (z * Z.of_nat p)%coqZ.
Proof. exact supercell_x. Qed.
Print Assumptions C66_supercell_x.
Theorem C66_supercell_y : forall argsort eig c p m Nx N grid f x nrm rs ts,
  sorts argsort -> usable c -> eigenbasis eig -> (0 < p)%N -> (0 < m)%N -> (0 < Nx)%N ->
  init_trcwa argsort eig c Nx (p * m) N grid f = Ok x ->
  (forall k a b i, (k < p)%N -> (b < m)%N -> (a < Nx)%N -> (i < N)%N -> grid a (k * m + b)%N i = grid a b i) ->
  RT_Solve_byorder nrm x = Ok (rs, ts) ->
  forall i, rs i 0 <> 0 \/ ts i 0 <> 0 -> exists z, (order_at x i).2 = (z * Z.of_nat p)%coqZ.
Proof. exact supercell_y. Qed.
Print Assumptions C66_supercell_y.

(** * Concrete cases *)
(** A square lattice with five orders *)
Definition five_cfg : trcwa_cfg :=
  mkTcfg (OInt 6) (as_arg (1, 0)%coqR) (as_arg (0, 1)%coqR) 1%coqR 4%coqR [:: (1 / 2)%coqR].
Example five_usable : usable five_cfg.
Proof.
  have [a [b [k1 [k2 [nG [A1 [A2 [_ [_ [D1 [D2 [D3 [D4 H]]]]]]]]]]]]] := ex_usable.
  by exists a, b, k1, k2, 6%coqZ.
Qed.
Lemma five_orders G : orders_of isort five_cfg G ->
  List.NoDup G /\ forall g, List.In g G <-> List.In g [:: (0,0); (1,0); (-1,0); (0,1); (0,-1)]%coqZ.
Proof.
  move=> O. have [ND _] := getG_nodup _ _ _ isort_sorts five_usable O. split=> //.
  move: O => [lk1 [lk2 [n [E1 E2]]]].
  have R := reciprocate_unique (1, 0)%coqR (0, 1)%coqR (1, 0)%coqR (0, 1)%coqR ltac:(rewrite /inner /=; lra)
     ltac:(rewrite /inner /=; lra) ltac:(rewrite /inner /=; lra) ltac:(rewrite /inner /=; lra).
  rewrite [Lattice_Reciprocate _ _]R in E1. case: E1 => ? ?; subst lk1 lk2.
  have [_ [S1 S2]] := square_five isort 1%coqR isort_sorts Rlt_0_1.
  have Ind : independent (1, 0)%coqR (0, 1)%coqR by rewrite /independent /=; lra.
  set S := [:: (0,0); (1,0); (-1,0); (0,1); (0,-1)]%coqZ.
  have NS : List.NoDup S by repeat (constructor; first by rewrite /=; intuition discriminate); constructor.
  have Inc : List.incl S G.
    apply: (orders_maximal isort 6 _ _ G n S (1 * 1)%coqR isort_sorts Ind E2 NS) => //.
      move=> g. split=> H; exact/S1.
    move=> g /S2 H. apply: Rlt_le_trans H. rewrite /len2 /recip /=. rewrite Rmax_left; lra.
  have [G' [E3 [L _]]] := orders_selected isort 6 (1, 0)%coqR (0, 1)%coqR isort_sorts Ind ltac:(lia).
  rewrite [Lattice_getG _ _ _ _ _]E3 in E2. case: E2 => ? _; subst G'.
  move=> g. split; last exact: Inc.
  apply: (List.NoDup_length_incl NS) => //. move: L. rewrite /= /length. lia.
Qed.

(** Uniform layers with five orders: an order that is not the zero one carries no
    power, the calculation succeeds. *)
Example C66_five_uniform eig : eigenbasis eig -> exists x rs ts,
  init_trcwa isort eig five_cfg 1 1 2 (fun _ _ i => if i == 0%N then (3, 1)%coqR else RtoC 2) 1%coqR = Ok x
  /\ RT_Solve_byorder true x = Ok (rs, ts)
  /\ exists i, order_at x i = (0, -1)%coqZ /\ rs i 0 = 0 /\ ts i 0 = 0.
Proof.
  move=> He.
  have [x [Rr [Tr [E1 [E2 _]]]]] := C51_uniform_total isort eig five_cfg 2
    (fun _ _ i => if i == 0%N then (3, 1)%coqR else RtoC 2) 1%coqR isort_sorts five_usable Rlt_0_1 Rlt_0_1 ltac:(rewrite /=; lra)
    ltac:(move=> [|[|i]] // _; exists (1 / 2)%coqR; split=> //; lra)
    ltac:(move=> [|[|i]] // _; split; [move=> E; have := f_equal Re E; rewrite /=; lra | rewrite /passive_eps /=; lra
           | move=> E; have := f_equal Re E; rewrite /=; lra | rewrite /passive_eps /=; lra]).
  have [rs [ts [E3 _]]] := proj1 (orders_sum _ _ _ _) E2. exists x, rs, ts. split=> //. split=> //.
  have [_ [_ [lk1 [lk2 [n [_ [HRe [HG _]]]]]]]] := init_facts _ _ _ _ _ _ _ _ _ E1.
  have [_ F] := five_orders (x_G x) ltac:(by exists lk1, lk2, n).
  have [k [Lk Ek]] := List.In_nth _ _ (0, 0)%coqZ (proj2 (F (0, -1)%coqZ) ltac:(by rewrite /=; intuition)).
  have Lk' : (k < size (x_G x))%N by apply/ltP. exists (Ordinal Lk'). have O : order_at x (Ordinal Lk') = (0, -1)%coqZ by [].
  split=> //. apply: (C66_uniform _ _ _ _ _ _ _ _ _ _ isort_sorts five_usable He E1 E3). by rewrite O.
Qed.

(** A patterned layer of 4 x 4 cells with five orders: all rules apply. *)
Example C66_five_patterned : exists x rs ts,
  init_trcwa isort diag_eig five_cfg (2 * 2) 4 1 (fun _ _ _ => RtoC 3) 1%coqR = Ok x
  /\ RT_Solve_byorder true x = Ok (rs, ts)
  /\ repeats 4 4 2 0 (fun _ _ => RtoC 3) /\ ~ order_repeats 4 4 2 0 (1, 0)%coqZ /\ order_repeats 4 4 2 0 (0, 1)%coqZ
  /\ exists i, order_at x i = (1, 0)%coqZ /\ rs i 0 = 0 /\ ts i 0 = 0.
Proof.
  have Hk : kept (RtoC 3) by left; rewrite /=; lra.
  have H3 : RtoC 3 <> C0 by move=> E; have := f_equal Re E; rewrite /=; lra.
  have Ht : (0 < t_top five_cfg)%coqR by rewrite /=; lra. have Hb : (0 < t_bottom five_cfg)%coqR by rewrite /=; lra.
  have Hth : forall i, (i < 1)%N -> exists th, layer_thickness (t_thick five_cfg) i = Some th /\ (0 <= th)%coqR.
    move=> [|i] // _. exists (1 / 2)%coqR. split=> //. lra.
  have HGr : forall G, orders_of isort five_cfg G -> List.NoDup G /\ resolves (2 * 2) 4 G.
    move=> G O. have [ND F] := five_orders G O. split=> // i j Li Lj. rewrite /order_diff.
    have Ii := proj1 (F _) (List.nth_In G (0,0)%coqZ (ltP Li)). have Ij := proj1 (F _) (List.nth_In G (0,0)%coqZ (ltP Lj)).
    move: (List.nth i G _) (List.nth j G _) Ii Ij => gi gj Ii Ij.
    have B : forall g : Z * Z, List.In g [:: (0,0); (1,0); (-1,0); (0,1); (0,-1)]%coqZ -> (-1 <= g.1 <= 1 /\ -1 <= g.2 <= 1)%coqZ.
      by move=> g [<-|[<-|[<-|[<-|[<-|[]]]]]] /=.
    have := B _ Ii. have := B _ Ij. rewrite /=. lia.
  have HG : forall G, orders_of isort five_cfg G -> resolves (2 * 2) 4 G
     /\ forall i, (i < 1)%N -> resolved_entries (mkGrid2 (2 * 2) 4 (fun _ _ => RtoC 3)) G.
    move=> G O. have [_ Rs] := HGr G O. split=> // i _ k j Lk Lj z.
    have [A B] := Rs k j Lk Lj. rewrite /z -/(constant_grid (2 * 2) 4 (RtoC 3)) fourier_constant //.
    case: ifP => _; [by right | by left].
  have [[x [Rr [Tr [E1 [E2 _]]]]]|] := C51_patterned_total isort diag_eig five_cfg (2 * 2) 4 1 (fun _ _ _ => RtoC 3) 1%coqR
    isort_sorts five_usable Rlt_0_1 Ht Hb erefl ltac:(done) erefl ex_eigenbasis Hth
    ltac:(move=> *; rewrite /absorbing_eps /=; lra) HG; last first.
    move=> [lk1 [lk2 [G [n [kx [ky [i [ei [e2 [e [F1 [F2 [_ [_ [Ef [Ee _]]]]]]]]]]]]]]]]. exfalso.
    have [ND Rs] := HGr G ltac:(by exists lk1, lk2, n).
    have [T _] := eps_fft_constant (2 * 2) 4 (RtoC 3) G ND erefl erefl Rs H3.
    rewrite -/(constant_grid (2 * 2) 4 (RtoC 3)) T // in Ef. case: Ef => ? ?; subst ei e2.
    have H3' : RtoC 3 != 0 by apply/eqP.
    have Tr : forall m (a b : 'rV[C]_m), row_mx (diag_mx a) (diag_mx b) = (col_mx (diag_mx a) (diag_mx b))^T.
      by move=> m a b; rewrite tr_col_mx !tr_diag_mx.
    rewrite /mode_matrix Tr constant_kp constant_matrix // in Ee. move: Ee.
    match goal with |- diag_eig ?m (diag_mx ?d) = _ -> _ => have [r ->] := diag_eig_diag m d end. by [].
  have [rs [ts [E3 _]]] := proj1 (orders_sum _ _ _ _) E2. exists x, rs, ts. split=> //. split=> //. split=> //.
  split; first by move=> [z]; rewrite /=; lia. split; first by exists 0%coqZ.
  have [_ [_ [lk1 [lk2 [n [_ [HRe [HGG _]]]]]]]] := init_facts _ _ _ _ _ _ _ _ _ E1.
  have [_ F] := five_orders (x_G x) ltac:(by exists lk1, lk2, n).
  have [k [Lk Ek]] := List.In_nth _ _ (0, 0)%coqZ (proj2 (F (1, 0)%coqZ) ltac:(by rewrite /=; intuition)).
  have Lk' : (k < size (x_G x))%N by apply/ltP. exists (Ordinal Lk'). have O : order_at x (Ordinal Lk') = (1, 0)%coqZ by [].
  split=> //. apply: (C66_stripes_along_x _ _ _ _ _ _ _ _ _ _ _ _ isort_sorts five_usable ex_eigenbasis _ E1 _ E3) => //. by rewrite O.
Qed.
