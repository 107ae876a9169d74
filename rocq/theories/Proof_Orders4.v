(** Selection rules for orders in whole numbers. *)
From Coq Require Import Reals Lra ZArith String Lia.
From mathcomp Require Import all_ssreflect all_algebra.
From Verif Require Import Base Cplx CplxLemmas CField Model_Lattice Spec_Lattice Proof_Lattice Proof_Lattice2
  Proof_Lattice3 Proof_Lattice4 Model_Stack Model_Modes Spec_Modes Model_TRCWA Spec_TRCWA Spec_Passive Spec_Symmetry
  Proof_Smatrix Proof_FFT Proof_Modes Proof_Passive3 Proof_RT Proof_Init Proof_Init2 Proof_TRCWA Proof_Pattern2 Proof_Basis Proof_Basis2
  Proof_Symmetry Proof_Symmetry2 Proof_Symmetry3 Model_Queries Spec_Orders Proof_Orders Proof_Orders2 Proof_Orders3.
Import GRing.Theory.
Delimit Scope R_scope with coqR.
Delimit Scope Z_scope with coqZ.
Local Open Scope ring_scope.

(** A phase factor is one only for whole turns. *)
Lemma whole_turns w : Cis (2 * PI * w)%coqR = 1 -> exists z : Z, w = IZR z.
Proof.
  move=> E. exists (Int_part w). have [B1 B2] := base_fp w. rewrite /frac_part in B1 B2.
  have Q := PI_RGT_0. have [//|Hlt] : (w - IZR (Int_part w) = 0)%coqR \/ (0 < w - IZR (Int_part w))%coqR by lra.
  - lra.
  - exfalso. apply: (@Cis_neq1 (2 * PI * (w - IZR (Int_part w)))%coqR); first by nra.
    have -> : (2 * PI * (w - IZR (Int_part w)) = 2 * PI * w + 2 * PI * IZR (- Int_part w))%coqR by rewrite opp_IZR; ring.
    by rewrite Cis_add E Cis_period mulr1.
Qed.

Lemma selection_rule argsort eig c Nx Ny N grid f x nrm rs ts s t :
  sorts argsort -> usable c -> eigenbasis eig -> (0 < Nx)%N -> (0 < Ny)%N ->
  init_trcwa argsort eig c Nx Ny N grid f = Ok x ->
  (forall i, (i < N)%N -> repeats Nx Ny s t (fun a b => grid a b i)) ->
  RT_Solve_byorder nrm x = Ok (rs, ts) ->
  forall i, rs i 0 <> 0 \/ ts i 0 <> 0 -> order_repeats Nx Ny s t (order_at x i).
Proof.
  move=> Hs Hu He Hx Hy I HR HRT i Hi.
  have P : phase_of (IZR s / INR Nx) (IZR t / INR Ny) (order_at x i) = 1.
    apply: Classical_Prop.NNPP => K.
    have [E1 E2] := selection argsort eig c Nx Ny N grid f x nrm rs ts _ _ Hs Hu He I
      (or_intror (ex_intro _ s (ex_intro _ t (conj erefl (conj erefl HR))))) HRT i K.
    by case: Hi => /(_ ltac:(done)).
  have [z Ez] := whole_turns _ P. exists z. apply: eq_IZR.
  have Px : INR Nx <> 0%coqR by apply: not_0_INR => E; rewrite E in Hx.
  have Py : INR Ny <> 0%coqR by apply: not_0_INR => E; rewrite E in Hy.
  rewrite plus_IZR !mult_IZR -!INR_IZR_INZ -Ez. by field.
Qed.

(** Uniform layers: only the zero order. *)
Lemma uniform_orders argsort eig c N grid f x nrm rs ts :
  sorts argsort -> usable c -> eigenbasis eig -> init_trcwa argsort eig c 1 1 N grid f = Ok x ->
  RT_Solve_byorder nrm x = Ok (rs, ts) ->
  forall i, order_at x i <> (0, 0)%coqZ -> rs i 0 = 0 /\ ts i 0 = 0.
Proof.
  move=> Hs Hu He I HRT i Hi.
  have S u v := selection argsort eig c 1 1 N grid f x nrm rs ts u v Hs Hu He I (or_introl (conj erefl erefl)) HRT i.
  have Half : Cis (2 * PI * (/ 2))%coqR <> 1 by apply: Cis_neq1; have := PI_RGT_0; lra.
  move: Hi S. case: (order_at x i) => g1 g2 Hi S.
  case: (Z.eq_dec g1 0) => [E1|N1].
  - have N2 : IZR g2 <> 0%coqR by move=> E; apply: Hi; rewrite E1 (eq_IZR_R0 _ E).
    apply: (S 0%coqR (/ (2 * IZR g2))%coqR). rewrite /phase_of /=.
    by have -> : (0 * IZR g1 + / (2 * IZR g2) * IZR g2 = / 2)%coqR by field.
  - have N2 : IZR g1 <> 0%coqR by move=> E; exact: N1 (eq_IZR_R0 _ E).
    apply: (S (/ (2 * IZR g1))%coqR 0%coqR). rewrite /phase_of /=.
    by have -> : (/ (2 * IZR g1) * IZR g1 + 0 * IZR g2 = / 2)%coqR by field.
Qed.

(** The orders of a patterned object are told apart by its cells. *)
Lemma object_resolves argsort eig c Nx Ny N grid f x :
  init_trcwa argsort eig c Nx Ny N grid f = Ok x -> (0 < N)%N -> ~ (Nx = 1%N /\ Ny = 1%N) ->
  (0 < Nx)%N /\ (0 < Ny)%N /\ resolves Nx Ny (x_G x).
Proof.
  move=> I HN Np. have [_ [_ [Sh M]]] := init_object _ _ _ _ _ _ _ _ _ I.
  have [Hx Hy] : (0 < Nx)%N /\ (0 < Ny)%N.
    have [[-> ->]|[[Px [_ Py]]|[-> [Py _]]]] := Sh HN; split=> //; exact: ltnW.
  split=> //. split=> //. have [md [_ B]] := M 0%N HN. move: B. rewrite /layer_mode /=.
  case: ifP => [/andP [/eqP Ex /eqP Ey]|_]; first by case: Np.
  move=> [ei [e2 [F _]]]. move: F. rewrite /Epsilon_fft /bind. case EC: (get_conv _ _ _) => [E|] // _.
  apply: Classical_Prop.NNPP => NR.
  have [_ D] := conv_defined (mkGrid2 Nx Ny (fun a b => grid a b 0%N)) (x_G x) Hx Hy. move: EC. by rewrite (D NR).
Qed.

Lemma zero_order_first argsort eig c Nx Ny N grid f x : sorts argsort -> usable c ->
  init_trcwa argsort eig c Nx Ny N grid f = Ok x -> (0 < size (x_G x))%N /\ List.nth 0 (x_G x) (0, 0)%coqZ = (0, 0)%coqZ.
Proof.
  move=> Hs Hu I. have [_ [_ [lk1 [lk2 [n [_ [HRe [HG _]]]]]]]] := init_facts _ _ _ _ _ _ _ _ _ I.
  have [_ [_ H0]] := mirror_closed argsort c 1 1 lk1 lk2 (x_G x) n Hs Hu (or_introl erefl) (or_introl erefl) (or_introl erefl) HRe HG.
  move: H0. by case: (x_G x).
Qed.

Lemma small_phase (n : nat) (z : Z) : (Z.abs z < Z.of_nat n)%coqZ -> z <> 0%coqZ -> Cis (2 * PI * (IZR z / INR n))%coqR <> 1.
Proof.
  move=> L Nz /whole_turns [k Ek].
  have Pn : INR n <> 0%coqR by move=> E; have := INR_eq n 0 E => ?; subst n; move: L; rewrite /=; lia.
  have E : (z = k * Z.of_nat n)%coqZ by apply: eq_IZR; rewrite mult_IZR -INR_IZR_INZ -Ek; field.
  case: (Z.eq_dec k 0) => [K|K]; first by apply: Nz; rewrite E K.
  have : (Z.of_nat n <= Z.abs k * Z.of_nat n)%coqZ by nia. rewrite E Z.abs_mul in L. lia.
Qed.

(** Stripes along one axis: no order deflected along that axis. *)
Lemma stripes_y argsort eig c Nx Ny N grid f x nrm rs ts :
  sorts argsort -> usable c -> eigenbasis eig -> (0 < N)%N -> init_trcwa argsort eig c Nx Ny N grid f = Ok x ->
  (forall a b i, (a < Nx)%N -> (b < Ny)%N -> (i < N)%N -> grid a b i = grid a 0%N i) ->
  RT_Solve_byorder nrm x = Ok (rs, ts) ->
  forall i, (order_at x i).2 <> 0%coqZ -> rs i 0 = 0 /\ ts i 0 = 0.
Proof.
  move=> Hs Hu He HN I Hg HRT i Hi.
  case: (Classical_Prop.classic (Nx = 1%N /\ Ny = 1%N)) => [[Ex Ey]|Np].
    subst Nx Ny. apply: (uniform_orders argsort eig c N grid f x nrm) => // E. by rewrite E in Hi.
  have [Hx [Hy Rs]] := object_resolves _ _ _ _ _ _ _ _ _ I HN Np.
  have [Z1 Z2] := zero_order_first _ _ _ _ _ _ _ _ _ Hs Hu I.
  have [_ L] := Rs i 0%N (ltn_ord i) Z1. move: L. rewrite /order_diff Z2 /= Z.sub_0_r => L.
  apply: (selection argsort eig c Nx Ny N grid f x nrm rs ts (IZR 0 / INR Nx) (IZR 1 / INR Ny)) => //.
  - right. exists 0%coqZ, 1%coqZ. do 2 (split=> //). move=> k Hk a b Ha Hb.
    have -> : Z.to_nat ((0 + Z.of_nat a) mod Z.of_nat Nx) = a.
      rewrite Z.add_0_l Z.mod_small ?Znat.Nat2Z.id //. move/ltP: Ha. lia.
    rewrite Hg // [in RHS]Hg //. apply/ltP. have := Z.mod_pos_bound (1 + Z.of_nat b) (Z.of_nat Ny). move/ltP: Hy. lia.
  - rewrite /phase_of. have -> : (IZR 0 / INR Nx * IZR (order_at x i).1 + IZR 1 / INR Ny * IZR (order_at x i).2 = IZR (order_at x i).2 / INR Ny)%coqR.
      rewrite /Rdiv. ring.
    exact: small_phase.
Qed.

Lemma stripes_x argsort eig c Nx Ny N grid f x nrm rs ts :
  sorts argsort -> usable c -> eigenbasis eig -> (0 < N)%N -> init_trcwa argsort eig c Nx Ny N grid f = Ok x ->
  (forall a b i, (a < Nx)%N -> (b < Ny)%N -> (i < N)%N -> grid a b i = grid 0%N b i) ->
  RT_Solve_byorder nrm x = Ok (rs, ts) ->
  forall i, (order_at x i).1 <> 0%coqZ -> rs i 0 = 0 /\ ts i 0 = 0.
Proof.
  move=> Hs Hu He HN I Hg HRT i Hi.
  case: (Classical_Prop.classic (Nx = 1%N /\ Ny = 1%N)) => [[Ex Ey]|Np].
    subst Nx Ny. apply: (uniform_orders argsort eig c N grid f x nrm) => // E. by rewrite E in Hi.
  have [Hx [Hy Rs]] := object_resolves _ _ _ _ _ _ _ _ _ I HN Np.
  have [Z1 Z2] := zero_order_first _ _ _ _ _ _ _ _ _ Hs Hu I.
  have [L _] := Rs i 0%N (ltn_ord i) Z1. move: L. rewrite /order_diff Z2 /= Z.sub_0_r => L.
  apply: (selection argsort eig c Nx Ny N grid f x nrm rs ts (IZR 1 / INR Nx) (IZR 0 / INR Ny)) => //.
  - right. exists 1%coqZ, 0%coqZ. do 2 (split=> //). move=> k Hk a b Ha Hb.
    have -> : Z.to_nat ((0 + Z.of_nat b) mod Z.of_nat Ny) = b.
      rewrite Z.add_0_l Z.mod_small ?Znat.Nat2Z.id //. move/ltP: Hb. lia.
    rewrite Hg // [in RHS]Hg //. apply/ltP. have := Z.mod_pos_bound (1 + Z.of_nat a) (Z.of_nat Nx). move/ltP: Hx. lia.
  - rewrite /phase_of. have -> : (IZR 1 / INR Nx * IZR (order_at x i).1 + IZR 0 / INR Ny * IZR (order_at x i).2 = IZR (order_at x i).1 / INR Nx)%coqR.
      rewrite /Rdiv. ring.
    exact: small_phase.
Qed.

Lemma mod_nat n a b : (0 < n)%N -> Z.to_nat ((Z.of_nat a + Z.of_nat b) mod Z.of_nat n) = ((a + b) %% n)%N.
Proof.
  move=> Hn. have E := divn_eq (a + b) n. have L : ((a + b) %% n < n)%N by rewrite ltn_mod.
  move: ((a + b) %/ n)%N ((a + b) %% n)%N E L => q r E L.
  have {E} E : (Z.of_nat a + Z.of_nat b = Z.of_nat n * Z.of_nat q + Z.of_nat r)%coqZ.
    rewrite -Znat.Nat2Z.inj_add -Znat.Nat2Z.inj_mul -Znat.Nat2Z.inj_add. f_equal. rewrite -[(a + b)%coq_nat]/(a + b)%N E mulnC. by [].
  rewrite E Z.mul_comm Z.add_comm Z.mod_add; last by move/ltP: Hn; lia.
  rewrite Z.mod_small ?Znat.Nat2Z.id //. move/ltP: L. lia.
Qed.

(** A unit cell made of [p] equal parts of [m] cells each along x diffracts only into
    every [p]-th order. *)
Lemma supercell_x argsort eig c p m Ny N grid f x nrm rs ts :
  sorts argsort -> usable c -> eigenbasis eig -> (0 < p)%N -> (0 < m)%N -> (0 < Ny)%N ->
  init_trcwa argsort eig c (p * m) Ny N grid f = Ok x ->
  (forall k a b i, (k < p)%N -> (a < m)%N -> (b < Ny)%N -> (i < N)%N -> grid (k * m + a)%N b i = grid a b i) ->
  RT_Solve_byorder nrm x = Ok (rs, ts) ->
  forall i, rs i 0 <> 0 \/ ts i 0 <> 0 -> exists z, (order_at x i).1 = (z * Z.of_nat p)%coqZ.
Proof.
  move=> Hs Hu He Hp Hm Hy I Hg HRT i Hi.
  have Hx : (0 < p * m)%N by rewrite muln_gt0 Hp.
  have [z Ez] : order_repeats (p * m) Ny (Z.of_nat m) 0 (order_at x i).
    apply: (selection_rule argsort eig c (p * m)%N Ny N grid f x nrm rs ts) => // k Hk a b Ha Hb.
    have -> : Z.to_nat ((0 + Z.of_nat b) mod Z.of_nat Ny) = b.
      rewrite Z.add_0_l Z.mod_small ?Znat.Nat2Z.id //. move/ltP: Hb. lia.
    have Red : forall a, (a < p * m)%N -> grid a b k = grid (a %% m)%N b k.
      move=> a' Ha'. rewrite {1}(divn_eq a' m). apply: Hg => //; first by rewrite ltn_divLR. by rewrite ltn_mod.
    have -> : Z.to_nat ((Z.of_nat m + Z.of_nat a) mod Z.of_nat (p * m)) = ((m + a) %% (p * m))%N.
      exact: mod_nat.
    rewrite Red // [in RHS]Red; last by rewrite ltn_mod. congr grid.
    by rewrite modn_dvdm ?dvdn_mull // modnDl.
  exists z. move: Ez. rewrite Z.mul_0_l Z.mul_0_l Z.add_0_r Znat.Nat2Z.inj_mul => Ez.
  apply: (Z.mul_reg_r _ _ (Z.of_nat m * Z.of_nat Ny)%coqZ); last by lia.
  move/ltP: Hm => Hm. move/ltP: Hy => Hy. have := Z.mul_pos_pos (Z.of_nat m) (Z.of_nat Ny). lia.
Qed.

(** The same along y. *)
Lemma supercell_y argsort eig c p m Nx N grid f x nrm rs ts :
  sorts argsort -> usable c -> eigenbasis eig -> (0 < p)%N -> (0 < m)%N -> (0 < Nx)%N ->
  init_trcwa argsort eig c Nx (p * m) N grid f = Ok x ->
  (forall k a b i, (k < p)%N -> (b < m)%N -> (a < Nx)%N -> (i < N)%N -> grid a (k * m + b)%N i = grid a b i) ->
  RT_Solve_byorder nrm x = Ok (rs, ts) ->
  forall i, rs i 0 <> 0 \/ ts i 0 <> 0 -> exists z, (order_at x i).2 = (z * Z.of_nat p)%coqZ.
Proof.
  move=> Hs Hu He Hp Hm Hx I Hg HRT i Hi.
  have Hy : (0 < p * m)%N by rewrite muln_gt0 Hp.
  have [z Ez] : order_repeats Nx (p * m) 0 (Z.of_nat m) (order_at x i).
    apply: (selection_rule argsort eig c Nx (p * m)%N N grid f x nrm rs ts) => // k Hk a b Ha Hb.
    have -> : Z.to_nat ((0 + Z.of_nat a) mod Z.of_nat Nx) = a.
      rewrite Z.add_0_l Z.mod_small ?Znat.Nat2Z.id //. move/ltP: Ha. lia.
    have Red : forall b, (b < p * m)%N -> grid a b k = grid a (b %% m)%N k.
      move=> b' Hb'. rewrite {1}(divn_eq b' m). apply: Hg => //; first by rewrite ltn_divLR. by rewrite ltn_mod.
    have -> : Z.to_nat ((Z.of_nat m + Z.of_nat b) mod Z.of_nat (p * m)) = ((m + b) %% (p * m))%N.
      exact: mod_nat.
    rewrite Red // [in RHS]Red; last by rewrite ltn_mod. congr grid.
    by rewrite modn_dvdm ?dvdn_mull // modnDl.
  exists z. move: Ez. rewrite Z.mul_0_l Z.mul_0_l Z.add_0_l Znat.Nat2Z.inj_mul => Ez.
  apply: (Z.mul_reg_r _ _ (Z.of_nat m * Z.of_nat Nx)%coqZ); last by lia.
  move/ltP: Hm => Hm. move/ltP: Hx => Hx. have := Z.mul_pos_pos (Z.of_nat m) (Z.of_nat Nx). lia.
Qed.

(** Every order stays within the energy balance. *)
Lemma orders_bounded argsort eig c Nx Ny N grid f x rs ts :
  sorts argsort -> (0 < f)%coqR -> (0 < t_top c)%coqR -> (0 < t_bottom c)%coqR ->
  (forall i th, (i < N)%N -> layer_thickness (t_thick c) i = Some th -> (0 <= th)%coqR) ->
  (forall a b i, (a < Nx)%N -> (b < Ny)%N -> (i < N)%N -> passive_eps (grid a b i)) ->
  init_trcwa argsort eig c Nx Ny N grid f = Ok x -> RT_Solve_byorder true x = Ok (rs, ts) ->
  (Nx = 1%N /\ Ny = 1%N \/ eigenpairs eig
     /\ forall i, (i < N)%N -> resolved_entries (mkGrid2 Nx Ny (fun a b => grid a b i)) (x_G x)) ->
  forall i j, exists Rr Tr, rs i 0 = RtoC Rr /\ ts j 0 = RtoC Tr
    /\ (Rr + Tr <= exp (- (2 * sqrt (t_top c) * Im (omega_of f))))%coqR.
Proof.
  move=> Hs Hf Ht Hb Hth Hp I HRT HR i j.
  have H0 := orders_nonnegative argsort eig c Nx Ny N grid f x true rs ts Hs Hf Ht Hb I HRT.
  have [r [t [Ert [Er Et]]]] : exists r t, RT_Solve true x = Ok (r, t) /\ r = \sum_i rs i 0 /\ t = \sum_i ts i 0.
    exists (\sum_i rs i 0), (\sum_i ts i 0). split=> //. apply/orders_sum. by exists rs, ts.
  have [Rr [Tr [E1 [E2 [_ [_ E3]]]]]] := init_energy argsort eig c Nx Ny N grid f x r t Hs Hf Ht Hb Hth Hp I Ert HR.
  have Part : forall (w : 'cV[C]_(size (x_G x))) k s, (forall l, exists v, w l 0 = RtoC v /\ (0 <= v)%coqR) ->
      \sum_l w l 0 = RtoC s -> exists v, w k 0 = RtoC v /\ (v <= s)%coqR.
    move=> w k s Hw Es. have [v [Ev Pv]] := Hw k. exists v. split=> //.
    rewrite (bigD1 k) //= Ev in Es.
    have [s' [Es' Ps']] : exists s', \sum_(l < size (x_G x) | l != k) w l 0 = RtoC s' /\ (0 <= s')%coqR.
      elim/big_ind: _ => [|u1 u2 [v1 [-> P1]] [v2 [-> P2]]|l _].
      - exists 0%coqR. split=> //. lra.
      - exists (v1 + v2)%coqR. split; last lra. by apply: Ceq; rewrite /=; ring.
      - have [v' [-> P']] := Hw l. by exists v'.
    rewrite Es' in Es. have := f_equal Re Es. rewrite /=. lra.
  have [v [Ev Lv]] : exists v, rs i 0 = RtoC v /\ (v <= Rr)%coqR.
    apply: Part; last by rewrite -Er. move=> l. have [a [b [A [_ [P _]]]]] := H0 l. by exists a.
  have [w [Ew Lw]] : exists v, ts j 0 = RtoC v /\ (v <= Tr)%coqR.
    apply: Part; last by rewrite -Et. move=> l. have [a [b [_ [B [_ P]]]]] := H0 l. by exists b.
  exists v, w. do 2 (split=> //). lra.
Qed.
