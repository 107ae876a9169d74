(** Which slice each layer of [_init_trcwa] gets. *)
From Coq Require Import Reals Lra Psatz ZArith String Lia Eqdep_dec.
From mathcomp Require Import all_ssreflect all_algebra.
From Verif Require Import Base Cplx CplxLemmas CField Model_Lattice Spec_Lattice Proof_Lattice Proof_Lattice2
  Proof_Lattice3 Proof_Lattice4 Model_Stack Model_Modes Spec_Modes Model_TRCWA Spec_TRCWA Spec_Passive Proof_Smatrix Proof_FFT Proof_Init.
Import GRing.Theory.
Delimit Scope R_scope with coqR.
Delimit Scope Z_scope with coqZ.
Local Open Scope ring_scope.

(** * Which slice a layer gets *)
Lemma eps_fft_ext dN g g' G : g_nx g = g_nx g' -> g_ny g = g_ny g' ->
  (forall x y, (x < g_nx g)%N -> (y < g_ny g)%N -> g_at g x y = g_at g' x y) ->
  Epsilon_fft dN (Iso g) G = Epsilon_fft dN (Iso g') G.
Proof.
  move=> Ex Ey H. have F : forall k l, fft2 g k l = fft2 g' k l.
    move=> k l. rewrite /fft2 -Ex -Ey. apply: eq_bigr => x _. apply: eq_bigr => y _. by rewrite H.
  suff E : get_conv dN g G = get_conv dN g' G by rewrite /Epsilon_fft E.
  rewrite /get_conv -Ex -Ey. case: ifP => // _. rewrite /bind.
  match goal with |- (if ?a then _ else _) = (if ?b then _ else _) => have -> : a = b end.
    apply: eq_forallb => i; apply: eq_forallb => j.
    case: (py_index _ _) => // k. by case: (py_index _ _).
  case: ifP => // _. congr Ok. apply/matrixP => i j. rewrite !mxE.
  case: (py_index _ _) => // k. case: (py_index _ _) => // l. by rewrite F.
Qed.

Lemma grid_slice Nx Ny N grid j ptr : (1 < Nx)%N -> Nx <> 3%N -> (j < N)%N ->
  layer_grid (T3 Nx Ny N grid) j.+1 ptr Nx Ny = Ok (Iso (mkGrid2 Nx Ny (fun x y => grid x y j))).
Proof.
  move=> H1 H3 Hj. rewrite /layer_grid [tensor_len _]/=. case: eqP => // _.
  rewrite /py_index.
  have -> : (Z.of_nat j.+1 - 1)%coqZ = Z.of_nat j by lia.
  have -> : (0 <=? Z.of_nat j)%coqZ = true by apply/Z.leb_le; lia.
  have -> : (Z.of_nat j <? Z.of_nat N)%coqZ = true by apply/Z.ltb_lt; move/ltP: Hj; lia.
  by rewrite /= Nat2Z.id.
Qed.

Lemma grid_three Ny N grid g1 : (0 < Ny)%N ->
  layer_grid (T3 3 Ny N grid) 2 (3 * Ny) 3 Ny = Ok g1 -> False.
Proof.
  move=> Hy. rewrite /layer_grid /= /reshape /=.
  have -> : minn (3 * Ny + 3 * Ny) Ny = Ny by apply/minn_idPr; rewrite -mulnDl; exact: leq_pmull.
  have -> : minn (3 * Ny) Ny = Ny by apply/minn_idPr; exact: leq_pmull.
  rewrite subnn mul0n. by case: eqP => //; case: Ny Hy.
Qed.

Lemma grid_three_one Ny N grid g1 : (0 < Ny)%N ->
  layer_grid (T3 3 Ny N grid) 1 0 3 Ny = Ok g1 -> N = 3%N.
Proof.
  move=> Hy. rewrite /layer_grid /= /reshape /=.
  rewrite add0n (minn_idPr (leq_pmull Ny (isT : (0 < 3)%N))) min0n subn0.
  case: eqP => // E _. move/eqP: E. rewrite [(3 * Ny)%N]mulnC eqn_pmul2l //. by move/eqP.
Qed.

Lemma grid_row Ny N f g1 : (1 < Ny)%N -> Ny <> 3%N ->
  layer_grid (T2 Ny N f) 1 0 1 Ny = Ok g1 ->
  N = 1%N /\ exists g, g1 = Iso g /\ g_nx g = 1%N /\ g_ny g = Ny
    /\ forall x y, (x < 1)%N -> (y < Ny)%N -> g_at g x y = f y 0%N.
Proof.
  move=> Hy N3. rewrite /layer_grid. case: eqP => [//|_].
  rewrite /= add0n mul1n minnn min0n subn0 /reshape. case: eqP => //= E [<-].
  have EN : N = 1%N. move/eqP: E. by rewrite mul1n -{2}(muln1 Ny) eqn_pmul2l ?(ltnW Hy) // => /eqP.
  split=> //. eexists; split; first reflexivity. split=> //. split=> //.
  move=> [|x] y // _ _ /=. by rewrite EN divn1 modn1 mul0n !add0n.
Qed.

Lemma grid_row_three N f g1 : (0 < N)%N ->
  layer_grid (T2 3 N f) N (N.-1 * (1 * 3)) 1 3 = Ok g1 -> False.
Proof.
  case: N f => // N f _. rewrite /layer_grid /= /reshape /=. case: eqP => // E. exfalso.
  have H : (minn (N * 3 + 3) N.+1 - minn (N * 3) N.+1 <= N.+1 - minn (N * 3) N.+1)%N by apply: leq_sub2r; exact: geq_minr.
  rewrite E in H. move: H. case: N {f E} => [|N] // /leP H. apply: (PeanoNat.Nat.lt_irrefl 3). move: H.
  rewrite /minn. case: ltnP => /leP; rewrite -!multE -?minusE; lia.
Qed.

(** * The object [_init_trcwa] builds *)
Lemma material_plain c Nx Ny N grid layers : (Nx <= 1)%N -> (Ny <= 1)%N ->
  material_layers c (squeeze0 (squeeze0 (T3 Nx Ny N grid))) Nx Ny N = Ok layers ->
  ((0 < N)%N -> Nx = 1%N /\ Ny = 1%N)
  /\ exists ths, size ths = N
     /\ (forall i, (i < N)%N -> exists th, List.nth_error ths i = Some th /\ layer_thickness (t_thick c) i = Some th)
     /\ layers = map (fun p => Uniform p.1 p.2) (zip ths (mkseq (fun i => ECplx (grid 0%N 0%N i)) N)).
Proof.
  move=> Hx Hy H. have S : (0 < N)%N -> Nx = 1%N /\ Ny = 1%N.
    case: N H => // N H _. move: H. rewrite /material_layers /= /bind.
    case: (cfg_thickness _ _) => // th.
    by case: Nx Hx => [|[|Nx]] // _; case: Ny Hy => [|[|Ny]] // _.
  split=> //. case: N S H => [|N] S H; first by exists [::]; move: H => [<-].
  have [Ex Ey] := S (ltn0Sn N). subst Nx Ny. have [ths [Sz [Ht ->]]] := material_uniform _ _ _ _ H.
  exists ths. split=> //. split=> //. rewrite /mkseq.
  have : size ths = size (iota 0 N.+1) by rewrite size_iota.
  move: (iota 0 N.+1) => l. elim: l ths {Sz Ht} => [|k l IH] [|th ths] //= [Sz]. by rewrite IH.
Qed.

Lemma init_object argsort eig c Nx Ny N grid f x :
  init_trcwa argsort eig c Nx Ny N grid f = Ok x ->
  outer_ok c N (x_ready x)
  /\ s_omega (x_ready x) = omega_of f
  /\ ((0 < N)%N -> Nx = 1%N /\ Ny = 1%N \/ (1 < Nx)%N /\ Nx <> 3%N /\ (0 < Ny)%N
                 \/ Nx = 1%N /\ (1 < Ny)%N /\ Ny <> 3%N /\ N = 1%N)
  /\ (forall i, (i < N)%N -> exists md, List.nth_error (s_modes (x_ready x)) i.+1 = Some (Some md)
        /\ layer_mode eig (x_ready x) (mkGrid2 Nx Ny (fun a b => grid a b i)) md).
Proof.
  move=> /init_inv [layers [r0 [E1 [E2 [E3 [E4 E5]]]]]].
  have [ep0 [lk1 [lk2 [n [H1 [H2 [H3 [H4 [H5 H6]]]]]]]]] := setup_ok argsort (trcwa_object c (omega_of f) layers) _ _ erefl erefl E2.
  case P: ((1 < Nx)%N || (1 < Ny)%N) E3 => E3; last first.
  - move: E3 => [E3]. rewrite -E3 {E3}.
    have [Ex Ey] : (Nx <= 1)%N /\ (Ny <= 1)%N by move/negbT: P; rewrite negb_or -!leqNgt => /andP.
    have [S [ths [Sz [Ht El]]]] := material_plain _ _ _ _ _ _ Ex Ey E1. rewrite El in E2.
    have [O M] := uniform_ready _ _ _ N _ _ _ _ Sz (size_mkseq _ N) Ht E2.
    split=> //. split; first by rewrite H5 . split; first by move=> /S H; left.
    move=> i Hi. have [md [M1 M2]] := M i _ (nth_error_mkseq _ _ _ Hi). exists md. split=> //.
    have [-> ->] := S (leq_ltn_trans (leq0n i) Hi). by rewrite /layer_mode /=.
  - have [ths [Sz [Ht El]]] := material_patterned _ _ _ _ _ _ P E1. rewrite El in E2.
    have [I1 [I2 [I3 [I4 [O M]]]]] := patterned_ready _ _ _ _ _ _ N _ _ _ _ _ Sz Ht E2 E3.
    split=> //. split; first by rewrite I1 H5. 
    have S : (0 < N)%N -> Nx = 1%N /\ Ny = 1%N \/ (1 < Nx)%N /\ Nx <> 3%N /\ (0 < Ny)%N
                 \/ Nx = 1%N /\ (1 < Ny)%N /\ Ny <> 3%N /\ N = 1%N.
      move=> HN. right. have [g0 [_ [_ [_ [Px [Py [L0 _]]]]]]] := M _ HN.
      case: (eqVneq Nx 1%N) => [Ex|Nx1].
        right. subst Nx. have Py1 : (1 < Ny)%N by move: P; rewrite ltnn.
        split=> //. split=> //. have Nt : squeeze0 (squeeze0 (T3 1 Ny N grid)) = T2 Ny N (grid 0%N).
          by case: Ny Py1 {M L0 P E1 E3 Py E2 El} => [|[|Ny]].
        rewrite Nt in L0 M. case: (eqVneq Ny 3%N) => [E|/eqP Ny3].
          exfalso. subst Ny. have HN1 : (N.-1 < N)%N by rewrite prednK.
          have [g1 [_ [_ [_ [_ [_ [L1 _]]]]]]] := M _ HN1. rewrite prednK // in L1. exact: grid_row_three HN L1.
        split=> //. have [] := grid_row Ny N _ _ Py1 Ny3 L0. by [].
      left. have Px1 : (1 < Nx)%N by rewrite ltn_neqAle eq_sym Nx1.
      split=> //. split=> //. move=> E. subst Nx.
      have [g1 [_ [_ [_ [_ [_ [L1 _]]]]]]] := M 1%N ltac:(rewrite (grid_three_one Ny N grid _ Py L0); by []).
      rewrite mul1n in L1. exact: grid_three Py L1.
    split=> // i Hi. have HN : (0 < N)%N := leq_ltn_trans (leq0n i) Hi.
    have [g [ei [e2 [md [Px [Py [L [Ef [K [Sv Md]]]]]]]]]] := M i Hi. exists md. split=> //.
    rewrite /layer_mode /=. have [[Ex Ey]|[[Px1 [Nx3 _]]|[Ex [Py1 [Ny3 EN]]]]] := S HN.
    + exfalso. by rewrite Ex Ey in P.
    + have -> : (Nx == 1%N) = false by apply/eqP => E; rewrite E in Px1.
      have Nt : squeeze0 (squeeze0 (T3 Nx Ny N grid)) = T3 Nx Ny N grid.
        by case: Nx Px1 {M L P E1 E3 E2 El Px S Nx3 Ef} => [|[|Nx]].
      rewrite Nt (grid_slice Nx Ny N grid i _ Px1 Nx3 Hi) in L. move: L => [Eg]. subst g.
      exists ei, e2. by [].
    + subst Nx N. have -> : (Ny == 1%N) = false by apply/eqP => E; rewrite E in Py1.
      have Nt : squeeze0 (squeeze0 (T3 1 Ny (size ths) grid)) = T2 Ny (size ths) (grid 0%N).
        by case: Ny Py1 {M L P E1 E3 Py E2 El S Ny3 Ef} => [|[|Ny]].
      have Ei : i = 0%N by move: Hi; rewrite EN; case: i {L Md}.
      subst i. rewrite Nt mul0n in L.
      have [_ [g' [Eg [X1 [X2 X3]]]]] := grid_row Ny _ _ _ Py1 Ny3 L. subst g.
      exists ei, e2. split=> //. rewrite /= -Ef. apply: eps_fft_ext => // a b /=. case: a => // _ Hb.
      by rewrite X3.
Qed.
