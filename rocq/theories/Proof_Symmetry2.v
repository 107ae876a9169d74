(** Fourier coefficients of moved patterns and the change of basis they induce. *)
From Coq Require Import Reals Lra ZArith Lia.
From mathcomp Require Import all_ssreflect all_algebra.
From Verif Require Import Base Cplx CplxLemmas CField Model_Lattice Spec_Lattice Model_Modes Spec_Modes Spec_Passive
  Model_TRCWA Spec_TRCWA Spec_Symmetry Proof_Smatrix Proof_FFT Proof_Pattern Proof_Basis Proof_Basis2 Proof_Symmetry.
Import GRing.Theory.
Delimit Scope R_scope with coqR.
Delimit Scope Z_scope with coqZ.
Local Open Scope ring_scope.

Lemma moved_lt n e s a : (0 < n)%N -> (moved n e s a < n)%N.
Proof.
  move=> H. have Hn : (0 < Z.of_nat n)%coqZ by move/ltP: H; lia. apply/ltP. rewrite /moved.
  have := Z.mod_pos_bound (s + e * Z.of_nat a) _ Hn. lia.
Qed.

Lemma moved_Z n e s a : (0 < n)%N -> exists z, Z.of_nat (moved n e s a) = (s + e * Z.of_nat a + Z.of_nat n * z)%coqZ.
Proof.
  move=> H. have Hn : (0 < Z.of_nat n)%coqZ by move/ltP: H; lia.
  have B := Z.mod_pos_bound (s + e * Z.of_nat a) _ Hn. have D := Z.div_mod (s + e * Z.of_nat a) (Z.of_nat n) ltac:(lia).
  exists (- ((s + e * Z.of_nat a) / Z.of_nat n))%coqZ. rewrite /moved Z2Nat.id; last by lia. lia.
Qed.

Lemma moved_back n e s a : is_sign e -> (a < n)%N -> moved n e (- (e * s)) (moved n e s a) = a.
Proof.
  move=> He Ha. have Hn : (0 < n)%N by apply: leq_ltn_trans Ha.
  have [z Ez] := moved_Z n e s a Hn. rewrite {1}/moved Ez.
  have -> : (- (e * s) + e * (s + e * Z.of_nat a + Z.of_nat n * z) = Z.of_nat a + (e * z) * Z.of_nat n)%coqZ.
    case: He => ->; ring.
  move/ltP: Ha => Ha. rewrite Z.mod_add; last by lia. rewrite Z.mod_small; last by lia. exact: Nat2Z.id.
Qed.

Lemma moved_sum n e s (F : nat -> C) : is_sign e -> \sum_(a < n) F (moved n e s a) = \sum_(x < n) F x.
Proof.
  move=> He. case: n => [|n]; first by rewrite !big_ord0.
  pose h (a : 'I_n.+1) := Ordinal (moved_lt n.+1 e s a isT).
  have Hi : injective h.
    move=> a b /(f_equal val) /= E. apply: val_inj. rewrite /=.
    by rewrite -(moved_back n.+1 e s a He (ltn_ord a)) -(moved_back n.+1 e s b He (ltn_ord b)) E.
  by rewrite [RHS](reindex_inj Hi).
Qed.

Lemma INR_IZR (n : nat) : INR n = IZR (Z.of_nat n). Proof. exact: INR_IZR_INZ. Qed.

Lemma moved_phase n e s k a : is_sign e -> (a < n)%N ->
  Cis (- (2 * PI) * (IZR k * (INR a / INR n)))%coqR
  = Cis (2 * PI * (IZR (e * k) * (IZR s / INR n)))%coqR
    * Cis (- (2 * PI) * (IZR (e * k) * (INR (moved n e s a) / INR n)))%coqR.
Proof.
  move=> He Ha. have Hn : (0 < n)%N by apply: leq_ltn_trans Ha.
  have [z Ez] := moved_Z n e s a Hn.
  have Nn : INR n <> 0%coqR by apply: INR_neq0; rewrite -lt0n.
  have P := Cis_period (- (k * (e * z)))%coqZ.
  rewrite -[LHS](mulr1) -P -!Cis_add. congr Cis.
  rewrite (INR_IZR (moved _ _ _ _)) Ez !opp_IZR !plus_IZR !mult_IZR -!INR_IZR_INZ.
  case: He => ->; field; exact: Nn.
Qed.

(** The coefficients of a moved pattern are those of the original one, mirrored
    and with a phase. *)
Definition shift_phase (nx ny : nat) (e1 e2 s t : Z) (g : Z * Z) : C :=
  Cis (2 * PI * (IZR (e1 * g.1) * (IZR s / INR nx) + IZR (e2 * g.2) * (IZR t / INR ny)))%coqR.

Lemma fourier_moved g g' e1 e2 s t k l : is_sign e1 -> is_sign e2 -> g_nx g' = g_nx g -> g_ny g' = g_ny g ->
  (forall a b, (a < g_nx g)%N -> (b < g_ny g)%N ->
     g_at g' a b = g_at g (moved (g_nx g) e1 s a) (moved (g_ny g) e2 t b)) ->
  fourier g' k l = shift_phase (g_nx g) (g_ny g) e1 e2 s t (k, l) * fourier g (e1 * k) (e2 * l).
Proof.
  move=> H1 H2 Ex Ey H. rewrite /fourier Ex Ey mulrCA. congr (_ * _).
  set F := fun a b => g_at g a b *
     Cis (- (2 * PI) * (IZR (e1 * k) * (INR a / INR (g_nx g)) + IZR (e2 * l) * (INR b / INR (g_ny g))))%coqR.
  transitivity (shift_phase (g_nx g) (g_ny g) e1 e2 s t (k, l) * \sum_(x < g_nx g) \sum_(y < g_ny g) F x y); last by [].
  have -> : \sum_(x < g_nx g) \sum_(y < g_ny g) F x y
          = \sum_(a < g_nx g) \sum_(b < g_ny g) F (moved (g_nx g) e1 s a) (moved (g_ny g) e2 t b).
    rewrite -(moved_sum _ e1 s (fun x => \sum_(y < g_ny g) F x y) H1). apply: eq_bigr => a _.
    by rewrite -(moved_sum _ e2 t (fun y => F (moved (g_nx g) e1 s a) y) H2).
  rewrite mulr_sumr. apply: eq_bigr => a _. rewrite mulr_sumr. apply: eq_bigr => b _.
  rewrite H // /F mulrCA. congr (_ * _). rewrite /shift_phase [(k, l).1]/= [(k, l).2]/= -Cis_add.
  have -> : forall u v w x : R, (- (2 * PI) * (u * v + w * x))%coqR = (- (2 * PI) * (u * v) + - (2 * PI) * (w * x))%coqR.
    move=> *; ring.
  rewrite Cis_add (moved_phase _ e1 s k a H1 (ltn_ord a)) (moved_phase _ e2 t l b H2 (ltn_ord b)) -!Cis_add.
  congr Cis. ring.
Qed.

Lemma shift_phase_sub nx ny e1 e2 s t g h :
  shift_phase nx ny e1 e2 s t (g.1 - h.1, g.2 - h.2)%coqZ * shift_phase nx ny e1 e2 s t h = shift_phase nx ny e1 e2 s t g.
Proof.
  rewrite /shift_phase -Cis_add. congr Cis. rewrite /= !mult_IZR !minus_IZR. ring.
Qed.
Lemma shift_phase_norm nx ny e1 e2 s t g : Cconj (shift_phase nx ny e1 e2 s t g) * shift_phase nx ny e1 e2 s t g = 1.
Proof. rewrite /shift_phase -Cis_opp -Cis_add Rplus_opp_l. exact: Cis_0. Qed.

(** The change of basis: order i takes the coefficient of its image. *)
Section Perm.
Context {n : nat} (sg : 'I_n -> 'I_n) (ph : 'I_n -> C).
Hypothesis Inj : injective sg.
Hypothesis Ph : forall i, Cconj (ph i) * ph i = 1.
Definition monomial : 'M[C]_n := \matrix_(i, j) (if j == sg i then ph i else 0).

Lemma monomial_l (A : 'M[C]_n) i k : (A *m monomial) i (sg k) = A i k * ph k.
Proof.
  rewrite mxE (bigD1 k) //= big1 ?addr0; first by rewrite mxE eqxx.
  move=> j Nj. rewrite mxE (inj_eq Inj) eq_sym (negbTE Nj) mulr0 //.
Qed.
Lemma monomial_r m (A : 'M[C]_(n, m)) i j : (monomial *m A) i j = ph i * A (sg i) j.
Proof.
  rewrite mxE (bigD1 (sg i)) //= big1 ?addr0; first by rewrite mxE eqxx.
  move=> k Nk. rewrite mxE (negbTE Nk) mul0r //.
Qed.
Lemma sg_onto j : exists k, j = sg k.
Proof. exists (invF Inj j). by rewrite f_invF. Qed.

Lemma monomial_unitary : unitary monomial.
Proof.
  rewrite /unitary. apply/matrixP => i j. have [k ->] := sg_onto j. rewrite monomial_l !mxE.
  case: eqP => _; first by rewrite Ph. by rewrite conj0 mul0r.
Qed.
Lemma monomial_diag (k : 'rV[C]_n) e : (forall i, k 0 (sg i) = e * k 0 i) -> monomial *m diag_mx k = e *: (diag_mx k *m monomial).
Proof.
  move=> H. apply/matrixP => i j. rewrite mul_mx_diag mul_diag_mx !mxE. case: eqP => [->|_].
    by rewrite H mulrCA [k 0 i * _]mulrC.
  by rewrite mul0r !mulr0.
Qed.
Lemma monomial_conj (E E' : 'M[C]_n) : (forall i k, E' i k * ph k = ph i * E (sg i) (sg k)) ->
  E' *m monomial = monomial *m E.
Proof. move=> H. apply/matrixP => i j. have [k ->] := sg_onto j. by rewrite monomial_l monomial_r. Qed.
End Perm.

Lemma conj_inverse {n} (P E E' : 'M[C]_n) : E \in unitmx -> E' \in unitmx ->
  E' *m P = P *m E -> invmx E' *m P = P *m invmx E.
Proof. move=> U U' H. apply: (can_inj (mulKmx U')). by rewrite mulKVmx // mulmxA H mulmxK. Qed.

(** Where thresholding changes nothing the permittivity matrix is the matrix of
    coefficients and its inverse. *)
Lemma eps_fft_resolved g G ei e2 : Epsilon_fft (1 / INR (g_nx g) / INR (g_ny g))%coqR (Iso g) G = Ok (ei, e2) ->
  resolved_entries g G ->
  exists E : 'M[C]_(size G), (forall i j : 'I_(size G), E i j = fourier g (order_diff G i j).1 (order_diff G i j).2)
    /\ E \in unitmx /\ ei = invmx E /\ e2 = block_mx E 0 0 E.
Proof.
  rewrite /Epsilon_fft /bind. case EC: (get_conv _ g G) => [E|] //. case EI: (inverse E) => [iE|] // [<- <-] Rs.
  have HE := conv_entry _ _ _ EC. have [U EiE] := inverse_ok _ _ EI. exists E. do 3 (split=> //).
  have T : map_mx threshold E = E.
    apply/matrixP => i j. rewrite mxE. apply: threshold_id. rewrite HE. exact: Rs.
  have T0 : map_mx threshold (0 : 'M[C]_(size G)) = 0 by apply/matrixP => i j; rewrite !mxE threshold0.
  by rewrite map_block_mx T T0.
Qed.
