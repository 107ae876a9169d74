(** Fourier matrices of permittivity grids. *)
From Coq Require Import Reals ZArith String Lra Lia.
From mathcomp Require Import all_ssreflect all_algebra.
From Verif Require Import Base Cplx CplxLemmas CField Model_Lattice Model_Stack Model_Modes Model_TRCWA
  Spec_TRCWA Proof_Smatrix.
Import GRing.Theory.
Delimit Scope R_scope with coqR.
Delimit Scope Z_scope with coqZ.
Local Open Scope ring_scope.

Lemma Cis_add s t : Cis (Rplus s t) = Cis s * Cis t.
Proof. apply: Ceq; rewrite /Cis /= ?cos_plus ?sin_plus; ring. Qed.
Lemma Cis_0 : Cis 0 = 1.
Proof. by apply: Ceq; rewrite /Cis /= ?cos_0 ?sin_0. Qed.
Lemma Cis_period_nat (n : nat) : Cis (2 * PI * INR n)%coqR = 1.
Proof.
  elim: n => [|n IH]; first by rewrite Rmult_0_r Cis_0.
  rewrite S_INR Rmult_plus_distr_l Rmult_1_r Cis_add IH mul1r.
  by apply: Ceq; rewrite /Cis /= ?cos_2PI ?sin_2PI.
Qed.
Lemma Cis_opp t : Cis (Ropp t) = Cconj (Cis t).
Proof. by apply: Ceq; rewrite /Cis /= ?cos_neg ?sin_neg. Qed.
Lemma Cis_period (k : Z) : Cis (2 * PI * IZR k)%coqR = 1.
Proof.
  case: (Z_lt_le_dec k 0) => Hk.
  - have -> : (2 * PI * IZR k = - (2 * PI * INR (Z.to_nat (- k))))%coqR.
      rewrite INR_IZR_INZ Znat.Z2Nat.id; last lia. rewrite opp_IZR; ring.
    rewrite Cis_opp Cis_period_nat. apply: Ceq => /=; ring.
  - have -> : (2 * PI * IZR k = 2 * PI * INR (Z.to_nat k))%coqR.
      by rewrite INR_IZR_INZ Znat.Z2Nat.id; last lia.
    exact: Cis_period_nat.
Qed.

Lemma py_index_ok n i k : py_index n i = Ok k ->
  (k < n)%N /\ (i = Z.of_nat k \/ i = Z.of_nat k - Z.of_nat n)%coqZ.
Proof.
  rewrite /py_index. case: andP => [[/Z.leb_le A /Z.ltb_lt B]|_].
    move=> [<-]. split; [apply/ltP; lia | left; lia].
  case: andP => [[/Z.leb_le A /Z.ltb_lt B]|_] //.
  move=> [<-]. split; [apply/ltP; lia | right; lia].
Qed.
Lemma py_index_in n i : (- Z.of_nat n <= i < Z.of_nat n)%coqZ -> exists k, py_index n i = Ok k.
Proof.
  move=> H. rewrite /py_index. case: andP => [_|A]; first by eexists.
  case: andP => [_|B]; first by eexists.
  exfalso. case: (Z_lt_le_dec i 0) => K.
  - apply: B; split; [apply/Z.leb_le | apply/Z.ltb_lt]; lia.
  - apply: A; split; [apply/Z.leb_le | apply/Z.ltb_lt]; lia.
Qed.
Lemma py_index_out n i : ~ (- Z.of_nat n <= i < Z.of_nat n)%coqZ -> py_index n i = Err IndexError.
Proof.
  move=> H. rewrite /py_index. case: andP => [[/Z.leb_le A /Z.ltb_lt B]|_]; first by exfalso; apply: H; lia.
  by case: andP => [[/Z.leb_le A /Z.ltb_lt B]|_] //; exfalso; apply: H; lia.
Qed.

Definition dN_of (g : grid2) : R := (1 / INR (g_nx g) / INR (g_ny g))%coqR.

Lemma INR_neq0 n : n != 0%N -> INR n <> 0%coqR.
Proof. move=> /eqP H. exact: not_0_INR. Qed.

(** wrapping an index does not change the transform *)
Lemma fft2_wrap g (k l : nat) (i j : Z) : g_nx g != 0%N -> g_ny g != 0%N ->
  (i = Z.of_nat k \/ i = Z.of_nat k - Z.of_nat (g_nx g))%coqZ ->
  (j = Z.of_nat l \/ j = Z.of_nat l - Z.of_nat (g_ny g))%coqZ ->
  fft2 g k l * RtoC (dN_of g) = fourier g i j.
Proof.
  move=> Hx Hy Hi Hj. rewrite /fft2 /fourier mulrC. congr (_ * _).
    rewrite /dN_of. congr RtoC. have := INR_neq0 _ Hx; have := INR_neq0 _ Hy; move=> ? ?; field; split; auto.
  apply: eq_bigr => x _. apply: eq_bigr => y _. congr (_ * _).
  have Nx := INR_neq0 _ Hx. have Ny := INR_neq0 _ Hy.
  have [a Ea] : exists a : Z, (IZR i = INR k + IZR a * INR (g_nx g))%coqR.
    case: Hi => ->; [exists 0%coqZ|exists (-1)%coqZ]; rewrite ?minus_IZR -!INR_IZR_INZ; ring.
  have [b Eb] : exists b : Z, (IZR j = INR l + IZR b * INR (g_ny g))%coqR.
    case: Hj => ->; [exists 0%coqZ|exists (-1)%coqZ]; rewrite ?minus_IZR -!INR_IZR_INZ; ring.
  have -> : (- (2 * PI) * (IZR i * (INR x / INR (g_nx g)) + IZR j * (INR y / INR (g_ny g)))
     = - (2 * PI * (INR k * INR x / INR (g_nx g) + INR l * INR y / INR (g_ny g)))
       + 2 * PI * IZR (- (a * Z.of_nat x + b * Z.of_nat y)))%coqR.
    rewrite Ea Eb opp_IZR plus_IZR !mult_IZR -!INR_IZR_INZ. field; auto.
  by rewrite Cis_add Cis_period mulr1.
Qed.

Lemma conv_ok g G M : get_conv (dN_of g) g G = Ok M ->
  g_nx g != 0%N /\ g_ny g != 0%N
  /\ forall i j : 'I_(size G),
     (exists k l, py_index (g_nx g) (order_diff G i j).1 = Ok k /\ py_index (g_ny g) (order_diff G i j).2 = Ok l)
     /\ M i j = fourier g (order_diff G i j).1 (order_diff G i j).2.
Proof.
  rewrite /get_conv. case: eqP => //= Hx. case: eqP => //= Hy.
  case: forallP => // H [<-]. split; first exact/eqP. split; first exact/eqP. move=> i j.
  have /forallP /(_ j) := H i. rewrite mxE -/(order_diff G i j).
  case Ek: (py_index (g_nx g) (order_diff G i j).1) => [k|] //=.
  case El: (py_index (g_ny g) (order_diff G i j).2) => [l|] //= _.
  split; first by exists k, l.
  have [_ Hk] := py_index_ok _ _ _ Ek. have [_ Hl] := py_index_ok _ _ _ El.
  by apply: fft2_wrap => //; apply/eqP.
Qed.

Lemma order_diff_opp G i j : order_diff G j i = (- (order_diff G i j).1, - (order_diff G i j).2)%coqZ.
Proof. rewrite /order_diff /=; congr pair; lia. Qed.

Lemma conv_entry g G M : get_conv (1 / INR (g_nx g) / INR (g_ny g))%coqR g G = Ok M ->
  forall i j : 'I_(size G), M i j = fourier g (order_diff G i j).1 (order_diff G i j).2.
Proof. by move=> /conv_ok [_ [_ H]] i j; case: (H i j). Qed.

Lemma conv_defined g G : (0 < g_nx g)%N -> (0 < g_ny g)%N ->
  (resolves (g_nx g) (g_ny g) G -> exists M, get_conv (1 / INR (g_nx g) / INR (g_ny g))%coqR g G = Ok M)
  /\ (~ resolves (g_nx g) (g_ny g) G -> get_conv (1 / INR (g_nx g) / INR (g_ny g))%coqR g G = Err IndexError).
Proof.
  move=> Hx Hy. split.
  - move=> H. rewrite /get_conv. move: (Hx) (Hy); rewrite !lt0n => /negbTE -> /negbTE -> /=.
    case: forallP => [_|B]; first by eexists.
    exfalso. apply: B => i. apply/forallP => j. rewrite -/(order_diff G i j).
    have [A B] := H i j (ltn_ord i) (ltn_ord j).
    have [k ->] := py_index_in (g_nx g) (order_diff G i j).1 ltac:(lia).
    by have [l ->] := py_index_in (g_ny g) (order_diff G i j).2 ltac:(lia).
  - move=> H. case E: (get_conv _ _ _) => [M|e].
      exfalso. apply: H => i j Hi Hj.
      have [_ [_ K]] := conv_ok _ _ _ E.
      have [[k [l [Ek El]]] _] := K (Ordinal Hi) (Ordinal Hj).
      have [[k' [l' [Ek' El']]] _] := K (Ordinal Hj) (Ordinal Hi).
      move: Ek El Ek' El'; rewrite (order_diff_opp G i j) /=; case: (order_diff G i j) => u v /= Ek El Ek' El'.
      have [/ltP ? ?] := py_index_ok _ _ _ Ek. have [/ltP ? ?] := py_index_ok _ _ _ El.
      have [/ltP ? ?] := py_index_ok _ _ _ Ek'. have [/ltP ? ?] := py_index_ok _ _ _ El'.
      lia.
    move: E. rewrite /get_conv. move: (Hx) (Hy); rewrite !lt0n => /negbTE -> /negbTE -> /=.
    by case: forallP => _ // [<-].
Qed.

(** * Linearity, symmetry *)
Lemma conv_linear c d f g G M N :
  g_nx g = g_nx f -> g_ny g = g_ny f ->
  let dN := (1 / INR (g_nx f) / INR (g_ny f))%coqR in
  get_conv dN f G = Ok M -> get_conv dN g G = Ok N ->
  get_conv dN (combine_grids c d f g) G = Ok (c *: M + d *: N).
Proof.
  move=> Ex Ey dN HM HN.
  have [Hx [Hy KM]] := conv_ok _ _ _ HM.
  have HN' : get_conv (dN_of g) g G = Ok N by rewrite /dN_of Ex Ey.
  have [_ [_ KN]] := conv_ok _ _ _ HN'.
  have R : resolves (g_nx f) (g_ny f) G.
    move=> i j Hi Hj. 
    have [[k [l [Ek El]]] _] := KM (Ordinal Hi) (Ordinal Hj).
    have [[k' [l' [Ek' El']]] _] := KM (Ordinal Hj) (Ordinal Hi).
    move: Ek El Ek' El'; rewrite (order_diff_opp G i j) /=; case: (order_diff G i j) => u v /= Ek El Ek' El'.
    have [/ltP ? ?] := py_index_ok _ _ _ Ek. have [/ltP ? ?] := py_index_ok _ _ _ El.
    have [/ltP ? ?] := py_index_ok _ _ _ Ek'. have [/ltP ? ?] := py_index_ok _ _ _ El'.
    lia.
  have Hx' : (0 < g_nx (combine_grids c d f g))%N by rewrite lt0n.
  have Hy' : (0 < g_ny (combine_grids c d f g))%N by rewrite lt0n.
  have [P HP] := proj1 (conv_defined (combine_grids c d f g) G Hx' Hy') R.
  have -> : get_conv dN (combine_grids c d f g) G = Ok P by []. congr Ok.
  apply/matrixP => i j. rewrite !mxE (proj2 (KM i j)) (proj2 (KN i j)).
  rewrite (conv_entry (combine_grids c d f g) G _ HP) /fourier /= Ex Ey.
  set r := RtoC _.
  have -> : c * (r * \sum_(x < g_nx f) \sum_(y < g_ny f) g_at f x y *
       Cis (- (2 * PI) * (IZR (order_diff G i j).1 * (INR x / INR (g_nx f)) + IZR (order_diff G i j).2 * (INR y / INR (g_ny f)))))
      = r * (c * \sum_(x < g_nx f) \sum_(y < g_ny f) g_at f x y *
       Cis (- (2 * PI) * (IZR (order_diff G i j).1 * (INR x / INR (g_nx f)) + IZR (order_diff G i j).2 * (INR y / INR (g_ny f)))))
    by rewrite mulrCA.
  rewrite (mulrCA d) -mulrDr. congr (_ * _).
  rewrite !mulr_sumr -big_split /=. apply: eq_bigr => x _.
  rewrite !mulr_sumr -big_split /=. apply: eq_bigr => y _. by rewrite mulrDl !mulrA.
Qed.

Lemma conj_sum (n : nat) (F : 'I_n -> C) : Cconj (\sum_i F i) = \sum_i Cconj (F i).
Proof.
  apply: (big_morph Cconj) => [x y|]; first by apply: Ceq; rewrite /Cconj /=; ring.
  apply: Ceq; rewrite /=; ring.
Qed.
Lemma conj_mul (x y : C) : Cconj (x * y) = Cconj x * Cconj y.
Proof. apply: Ceq; rewrite /=; ring. Qed.

Lemma conv_hermitian g G M : real_grid g ->
  get_conv (1 / INR (g_nx g) / INR (g_ny g))%coqR g G = Ok M ->
  forall i j : 'I_(size G), M j i = Cconj (M i j).
Proof.
  move=> Hr HM i j. rewrite !(conv_entry _ _ _ HM) order_diff_opp /fourier /=.
  rewrite conj_mul conj_sum. congr (_ * _); first by apply: Ceq => /=; ring.
  apply: eq_bigr => x _. rewrite conj_sum. apply: eq_bigr => y _. rewrite conj_mul -Cis_opp. congr (_ * _).
    have := Hr x y. case: (g_at g x y) => u v /= ->. by apply: Ceq => /=; ring.
  congr Cis. rewrite !opp_IZR. ring.
Qed.

Lemma conv_diagonal g G M :
  get_conv (1 / INR (g_nx g) / INR (g_ny g))%coqR g G = Ok M ->
  forall i : 'I_(size G),
    M i i = RtoC (/ (INR (g_nx g) * INR (g_ny g)))%coqR * \sum_(x < g_nx g) \sum_(y < g_ny g) g_at g x y.
Proof.
  move=> HM i. rewrite (conv_entry _ _ _ HM) /fourier. congr (_ * _).
  apply: eq_bigr => x _. apply: eq_bigr => y _. rewrite /order_diff /= !Z.sub_diag.
  have -> : (- (2 * PI) * (0 * (INR x / INR (g_nx g)) + 0 * (INR y / INR (g_ny g))) = 0)%coqR by ring.
  by rewrite Cis_0 mulr1.
Qed.

Lemma conv_shift_invariant g G M :
  get_conv (1 / INR (g_nx g) / INR (g_ny g))%coqR g G = Ok M ->
  forall i j i' j' : 'I_(size G), order_diff G i j = order_diff G i' j' -> M i j = M i' j'.
Proof. by move=> HM i j i' j' E; rewrite !(conv_entry _ _ _ HM) E. Qed.

(** * Constant grids *)
Lemma Cis_pow t (n : nat) : Cis t ^+ n = Cis (INR n * t)%coqR.
Proof.
  elim: n => [|n IH]; first by rewrite expr0 Rmult_0_l Cis_0.
  rewrite exprSr IH S_INR Rmult_plus_distr_r Rmult_1_l Cis_add. by [].
Qed.

Lemma Cis_neq1 t : (0 < t < 2 * PI)%coqR -> Cis t <> 1.
Proof.
  move=> H E. have := f_equal fst E. rewrite /Cis /=.
  have -> : t = (2 * (t / 2))%coqR by field.
  rewrite cos_2a_sin => K.
  have : (0 < sin (t / 2))%coqR by apply: sin_gt_0; lra.
  move=> S. have := Rmult_lt_0_compat _ _ S S. nra.
Qed.

Lemma roots_sum (N : nat) (k : Z) : (0 < Z.abs k < Z.of_nat N)%coqZ ->
  \sum_(x < N) Cis (- (2 * PI) * (IZR k * (INR x / INR N)))%coqR = 0.
Proof.
  move=> Hk. have HN : INR N <> 0%coqR by apply: not_0_INR; lia.
  have PN : (0 < INR N)%coqR by apply: lt_0_INR; lia.
  set t := (- (2 * PI) * (IZR k / INR N))%coqR.
  have -> : \sum_(x < N) Cis (- (2 * PI) * (IZR k * (INR x / INR N)))%coqR = \sum_(x < N) Cis t ^+ x.
    apply: eq_bigr => x _. rewrite Cis_pow. congr Cis. rewrite /t. field; auto.
  have H1 : Cis t ^+ N = 1.
    rewrite Cis_pow. have -> : (INR N * t = 2 * PI * IZR (- k))%coqR by rewrite /t opp_IZR; field.
    exact: Cis_period.
  have H2 : Cis t - 1 != 0.
    rewrite subr_eq0. apply/eqP => E.
    have Q := PI_RGT_0.
    case: (Z_lt_le_dec k 0) => K.
    - apply: (@Cis_neq1 t) => //. rewrite /t.
      have A : (0 < - IZR k)%coqR by rewrite -opp_IZR; apply: IZR_lt; lia.
      have B : (- IZR k < INR N)%coqR by rewrite -opp_IZR INR_IZR_INZ; apply: IZR_lt; lia.
      have -> : (- (2 * PI) * (IZR k / INR N) = 2 * PI * (- IZR k / INR N))%coqR by field.
      have C1 : (0 < - IZR k / INR N)%coqR by apply: Rdiv_lt_0_compat.
      have C2 : (- IZR k / INR N < 1)%coqR.
        apply: (Rmult_lt_reg_r (INR N)) => //. rewrite /Rdiv Rmult_assoc Rinv_l // . lra.
      split; nra.
    - apply: (@Cis_neq1 (- t)%coqR); last by rewrite Cis_opp E; apply: Ceq => /=; ring.
      have A : (0 < IZR k)%coqR by apply: IZR_lt; lia.
      have B : (IZR k < INR N)%coqR by rewrite INR_IZR_INZ; apply: IZR_lt; lia.
      have -> : (- t = 2 * PI * (IZR k / INR N))%coqR by rewrite /t; ring.
      have C1 : (0 < IZR k / INR N)%coqR by apply: Rdiv_lt_0_compat.
      have C2 : (IZR k / INR N < 1)%coqR.
        apply: (Rmult_lt_reg_r (INR N)) => //. rewrite /Rdiv Rmult_assoc Rinv_l // . lra.
      split; nra.
  have := subrX1 (Cis t) N. rewrite H1 subrr => /esym/eqP.
  by rewrite mulf_eq0 (negbTE H2) /= => /eqP.
Qed.

Lemma fourier_constant nx ny c k l : (0 < nx)%N -> (0 < ny)%N ->
  (Z.abs k < Z.of_nat nx)%coqZ -> (Z.abs l < Z.of_nat ny)%coqZ ->
  fourier (constant_grid nx ny c) k l = if (k =? 0)%coqZ && (l =? 0)%coqZ then c else 0.
Proof.
  move=> Hx Hy Hk Hl. rewrite /fourier /constant_grid /=.
  have -> : \sum_(x < nx) \sum_(y < ny) c * Cis (- (2 * PI) * (IZR k * (INR x / INR nx) + IZR l * (INR y / INR ny)))%coqR
    = c * ((\sum_(x < nx) Cis (- (2 * PI) * (IZR k * (INR x / INR nx)))%coqR)
         * (\sum_(y < ny) Cis (- (2 * PI) * (IZR l * (INR y / INR ny)))%coqR)).
    rewrite big_distrl /= mulr_sumr. apply: eq_bigr => x _.
    rewrite mulr_sumr mulr_sumr. apply: eq_bigr => y _. by rewrite Rmult_plus_distr_l Cis_add.
  have Z1 : forall n, \sum_(x < n) Cis (- (2 * PI) * (0 * (INR x / INR n)))%coqR = RtoC (INR n).
    move=> n. rewrite (eq_bigr (fun _ => 1)); last by move=> x _; rewrite Rmult_0_l Rmult_0_r Cis_0.
    rewrite sumr_const card_ord. elim: n => [|n IH]; first by rewrite mulr0n.
    rewrite mulrS IH S_INR. apply: Ceq => /=; ring.
  case: (Z.eqb_spec k 0) => [->|Ek] /=; last by rewrite (roots_sum nx k) ?mul0r ?mulr0 //; lia.
  case: (Z.eqb_spec l 0) => [->|El] /=; last by rewrite (roots_sum ny l) ?mulr0 //; lia.
  rewrite !Z1. have Nx : INR nx <> 0%coqR by apply: not_0_INR => E0; by rewrite E0 in Hx.
  have Ny : INR ny <> 0%coqR by apply: not_0_INR => E0; by rewrite E0 in Hy.
  rewrite /RtoC. apply: Ceq => /=; field; auto.
Qed.

Lemma conv_constant nx ny c G M : List.NoDup G ->
  get_conv (1 / INR nx / INR ny)%coqR (constant_grid nx ny c) G = Ok M -> M = c%:M.
Proof.
  move=> U HM. have [Hx [Hy K]] := conv_ok (constant_grid nx ny c) _ _ HM. rewrite /= in Hx Hy K.
  have R : resolves nx ny G.
    apply: Classical_Prop.NNPP => NR.
    have Hx' : (0 < g_nx (constant_grid nx ny c))%N by rewrite lt0n.
    have Hy' : (0 < g_ny (constant_grid nx ny c))%N by rewrite lt0n.
    have := proj2 (conv_defined (constant_grid nx ny c) G Hx' Hy') NR. by rewrite /= HM.
  apply/matrixP => i j. rewrite (proj2 (K i j)) mxE.
  have [A B] := R i j (ltn_ord i) (ltn_ord j).
  rewrite fourier_constant ?lt0n // /order_diff /=.
  case: (eqVneq i j) => [->|N]; first by rewrite !Z.sub_diag mulr1n.
  rewrite mulr0n. case: (Z.eqb_spec _ 0) => //= E1. case: (Z.eqb_spec _ 0) => //= E2.
  exfalso. move/eqP: N; apply. apply: val_inj => /=.
  apply: (proj1 (List.NoDup_nth G (0,0)%coqZ) U); [exact/ltP/ltn_ord | exact/ltP/ltn_ord |].
  move: E1 E2. case: (List.nth i G _) => a b; case: (List.nth j G _) => a' b' /= E1 E2.
  congr pair; lia.
Qed.

(** * Epsilon_fft *)
Lemma threshold_spec z : (kept z -> threshold z = z) /\ (~ kept z -> threshold z = 0).
Proof.
  rewrite /threshold /kept. case: Rlt_dec => A; last by split=> // H; exfalso; apply: H; left; lra.
  case: Rlt_dec => B; last by split=> // H; exfalso; apply: H; right; lra.
  split=> // [[H|H]]; lra.
Qed.

Lemma threshold0 : threshold 0 = 0.
Proof. rewrite /threshold. by repeat case: Rlt_dec => ?. Qed.

Lemma eps_fft_iso dN g G ei e2 : Epsilon_fft dN (Iso g) G = Ok (ei, e2) ->
  exists M, get_conv dN g G = Ok M /\ M *m ei = 1%:M
    /\ ursubmx e2 = 0 /\ dlsubmx e2 = 0
    /\ (forall i j, (kept (M i j) -> ulsubmx e2 i j = M i j /\ drsubmx e2 i j = M i j)
                 /\ (~ kept (M i j) -> ulsubmx e2 i j = 0 /\ drsubmx e2 i j = 0)).
Proof.
  rewrite /Epsilon_fft. case E: (get_conv dN g G) => [M|] //=.
  case I: (inverse M) => [iM|] //= [<- <-]. have [U ->] := inverse_ok _ _ I.
  exists M. split=> //. split; first exact: mulmxV.
  rewrite map_block_mx block_mxKur block_mxKdl block_mxKul block_mxKdr.
  split; first by apply/matrixP => i j; rewrite !mxE threshold0.
  split; first by apply/matrixP => i j; rewrite !mxE threshold0.
  move=> i j. rewrite !mxE. have [A B] := threshold_spec (M i j). by split=> H; [rewrite (A H) | rewrite (B H)].
Qed.

Lemma unit_scalar n (c : C) : c != 0 -> (c%:M : 'M[C]_n) \in unitmx /\ invmx (c%:M : 'M[C]_n) = c^-1%:M.
Proof.
  move=> Hc. have E : (c%:M : 'M[C]_n) *m c^-1%:M = 1%:M by rewrite -scalar_mxM divff.
  have [U _] := mulmx1_unit E. split=> //. by rewrite -[RHS](mulKmx U) E mulmx1.
Qed.

Lemma eps_fft_constant nx ny c G : List.NoDup G -> (0 < nx)%N -> (0 < ny)%N -> resolves nx ny G -> c <> C0 ->
  let r := Epsilon_fft (1 / INR nx / INR ny)%coqR (Iso (constant_grid nx ny c)) G in
  (kept c -> r = Ok (c^-1%:M, c%:M)) /\ (~ kept c -> r = Ok (c^-1%:M, 0)).
Proof.
  move=> U Hx Hy R Hc r.
  have [M HM] := proj1 (conv_defined (constant_grid nx ny c) G Hx Hy) R. rewrite /= in HM.
  have EM := conv_constant _ _ _ _ _ U HM. subst M.
  have Hc' : c != 0 by apply/eqP.
  have [UM IM] := unit_scalar (size G) c Hc'.
  rewrite /r /Epsilon_fft HM /= /inverse UM /= IM map_block_mx.
  have T0 : map_mx threshold (0 : 'M[C]_(size G)) = 0 by apply/matrixP => i j; rewrite !mxE threshold0.
  have [A B] := threshold_spec c. split=> K; congr (Ok (_, _)).
  - have -> : map_mx threshold (c%:M : 'M[C]_(size G)) = c%:M.
      apply/matrixP => i j; rewrite !mxE. case: (i == j); rewrite ?mulr1n ?mulr0n ?A // threshold0 //.
    by rewrite T0 -scalar_mx_block.
  - have -> : map_mx threshold (c%:M : 'M[C]_(size G)) = 0.
      apply/matrixP => i j; rewrite !mxE. case: (i == j); rewrite ?mulr1n ?mulr0n ?B // threshold0 //.
    by rewrite T0 block_mx0.
Qed.

(** * A lossless pattern whose permittivity matrix is not Hermitian *)
Definition stripe : grid2 := mkGrid2 4 1 (fun x _ => RtoC (if (x == 1%N) || (x == 2%N) then 5 else 1)%coqR).
Definition two_orders : seq (Z * Z) := [:: (0, 0)%coqZ; (1, 0)%coqZ].

Lemma Cis_quarter (k : nat) : Cis (PI / 2 * INR k)%coqR = (Ci ^+ k : C).
Proof.
  elim: k => [|k IH]; first by rewrite expr0 Rmult_0_r Cis_0.
  rewrite S_INR Rmult_plus_distr_l Rmult_1_r Cis_add IH exprSr. congr (_ * _).
  apply: Ceq; rewrite /Cis /= ?cos_PI2 ?sin_PI2 //.
Qed.

Lemma stripe_coeffs : fourier stripe 0 0 = RtoC 3 /\ fourier stripe 1 0 = (-1, -1)%coqR
  /\ fourier stripe (-1) 0 = (-1, 1)%coqR.
Proof.
  have P : forall (k : Z) z, (forall x : nat, Cis (- (2 * PI) * (IZR k * (INR x / INR 4) + 0 * (INR 0 / INR 1)))%coqR = z x) ->
     fourier stripe k 0 = RtoC (/ 4)%coqR * (z 0%N + RtoC 5 * z 1%N + RtoC 5 * z 2%N + z 3%N).
    move=> k z E. rewrite /fourier /stripe /=. congr (_ * _); first by congr RtoC; field.
    rewrite !big_ord_recl !big_ord0 /= !addr0. have F := E. rewrite /= in F.
    rewrite /bump /= in F *. rewrite (F 0%N) (F 1%N) (F 2%N) (F 3%N). 
    have M1 : forall u : C, RtoC 1%coqR * u = u by move=> u; apply: Ceq => /=; ring.
    by rewrite !M1 !addrA.
  have H0 : forall x : nat, Cis (- (2 * PI) * (0 * (INR x / INR 4) + 0 * (INR 0 / INR 1)))%coqR = 1.
    move=> x. rewrite !Rmult_0_l Rplus_0_l Rmult_0_r. exact: Cis_0.
  have H1 : forall x : nat, Cis (- (2 * PI) * (1 * (INR x / INR 4) + 0 * (INR 0 / INR 1)))%coqR = Cconj (Ci ^+ x).
    move=> x. rewrite -Cis_quarter -Cis_opp. congr Cis. rewrite Rmult_0_l. change (INR 4) with (1+1+1+1)%coqR. field.
  have H2 : forall x : nat, Cis (- (2 * PI) * (-1 * (INR x / INR 4) + 0 * (INR 0 / INR 1)))%coqR = Ci ^+ x.
    move=> x. rewrite -Cis_quarter. congr Cis. rewrite Rmult_0_l. change (INR 4) with (1+1+1+1)%coqR. field.
  split; first by rewrite (P 0%coqZ _ H0); apply: Ceq => /=; field.
  split; first by rewrite (P 1%coqZ _ H1) expr0 expr1 !exprS; apply: Ceq => /=; field.
  by rewrite (P (-1)%coqZ _ H2) expr0 expr1 !exprS; apply: Ceq => /=; field.
Qed.

Lemma eps_fft_not_hermitian :
  exists ei e2, Epsilon_fft (1 / INR 4 / INR 1)%coqR (Iso stripe) two_orders = Ok (ei, e2)
    /\ (forall x y, Im (g_at stripe x y) = 0 /\ 1 <= Re (g_at stripe x y))%coqR
    /\ exists i j, e2 j i <> Cconj (e2 i j).
Proof.
  have R : resolves 4 1 two_orders.
    move=> [|[|i]] [|[|j]] //= _ _; rewrite /order_diff /=; lia.
  have [M HM] := proj1 (conv_defined stripe two_orders (isT : 0 < 4)%N (isT : 0 < 1)%N) R.
  rewrite [g_nx _]/= [g_ny _]/= in HM.
  have E := conv_entry stripe _ _ HM. have [F0 [F1 F2]] := stripe_coeffs.
  pose i0 : 'I_(size two_orders) := @Ordinal 2 0 isT. pose i1 : 'I_(size two_orders) := @Ordinal 2 1 isT.
  have E00 : M i0 i0 = RtoC 3 by rewrite E.
  have E11 : M i1 i1 = RtoC 3 by rewrite E.
  have E10 : M i1 i0 = (-1, -1)%coqR by rewrite E.
  have E01 : M i0 i1 = (-1, 1)%coqR by rewrite E.
  pose N : 'M[C]_(size two_orders) := \matrix_(i, j)
     (if (i == 0%N :> nat) then if (j == 0%N :> nat) then RtoC (3/7) else (1/7, -1/7)
      else if (j == 0%N :> nat) then (1/7, 1/7) else RtoC (3/7))%coqR.
  have MN : M *m N = 1%:M.
    apply/matrixP => i j.
    have Hi : i = i0 \/ i = i1.
      case: i => [[|[|i]] Hi] //; [left|right]; exact: val_inj.
    have Hj : j = i0 \/ j = i1.
      case: j => [[|[|j]] Hj] //; [left|right]; exact: val_inj.
    rewrite mxE.
    have S : forall F : 'I_(size two_orders) -> C, \sum_k F k = F i0 + F i1.
      move=> F. rewrite (@big_ord_recl _ _ _ 1) big_ord_recl big_ord0 addr0. 
      by congr (F _ + F _); exact: val_inj.
    rewrite S !mxE.
    case: Hi => ->; case: Hj => ->; rewrite ?E00 ?E01 ?E10 ?E11 /=; apply: Ceq => /=; rewrite ?mulr1n ?mulr0n /=; field.
  have [U _] := mulmx1_unit MN.
  have EF : Epsilon_fft (1 / INR 4 / INR 1)%coqR (Iso stripe) two_orders
     = Ok (invmx M, map_mx threshold (block_mx M 0 0 M)).
    by rewrite /Epsilon_fft HM /= /inverse U.
  do 2 eexists. split; first exact: EF. split.
    move=> x y. rewrite /stripe /=. case: ((x == 1%N) || (x == 2%N)); lra.
  exists (lshift _ i0), (lshift _ i1). rewrite map_block_mx block_mxEul block_mxEul !mxE E10 E01.
  have P0 : (0 < / 10 ^ 14)%coqR by apply: Rinv_0_lt_compat; apply: pow_lt; lra.
  have P1 : (/ 10 ^ 14 < 1)%coqR.
    rewrite -Rinv_1. apply: Rinv_lt_contravar; first by rewrite Rmult_1_l; apply: pow_lt; lra.
    apply: Rlt_pow_R1; [lra|lia].
  have [_ T1] := threshold_spec (-1, -1)%coqR. have [T2 _] := threshold_spec (-1, 1)%coqR.
  rewrite T1; last by rewrite /kept [Re _]/= [Im _]/= => [[|]]; lra.
  rewrite T2; last by rewrite /kept [Re _]/= [Im _]/=; right; lra.
  move=> K. have := f_equal fst K. rewrite /=. lra.
Qed.
