(** Patterned layers made of gain-free materials are gain-free. *)
From Coq Require Import Reals Lra Psatz ZArith.
From mathcomp Require Import all_ssreflect all_algebra.
From Verif Require Import Base Cplx CplxLemmas CField Model_Modes Spec_Modes Model_TRCWA Spec_TRCWA Spec_Passive Proof_Sqrt
  Proof_Modes Proof_Smatrix Proof_FFT Proof_Passive Proof_Passive2 Proof_Passive3.
Import GRing.Theory.
Delimit Scope R_scope with coqR.
Delimit Scope Z_scope with coqZ.
Local Open Scope ring_scope.

Section Quadratic.
Context (g : grid2) (G : seq (Z * Z)).
Let ph (x y : nat) (j : 'I_(size G)) : C :=
  Cis (2 * PI * (IZR (List.nth j G (0, 0)%coqZ).1 * (INR x / INR (g_nx g)) + IZR (List.nth j G (0, 0)%coqZ).2 * (INR y / INR (g_ny g))))%coqR.

Lemma fourier_ph (i j : 'I_(size G)) :
  fourier g (order_diff G i j).1 (order_diff G i j).2
  = RtoC (/ (INR (g_nx g) * INR (g_ny g)))%coqR * \sum_(x < g_nx g) \sum_(y < g_ny g) (g_at g x y * (Cconj (ph x y i) * ph x y j)).
Proof.
  rewrite /fourier. congr (_ * _). apply: eq_bigr => x _. apply: eq_bigr => y _. congr (_ * _).
  rewrite /ph -Cis_opp -Cis_add. congr Cis. rewrite /order_diff /= !minus_IZR. ring.
Qed.

Definition sample (v : 'cV[C]_(size G)) (x y : nat) : C := \sum_j ph x y j * v j 0.

Lemma conv_quadratic (M : 'M[C]_(size G)) (v : 'cV[C]_(size G)) :
  (forall i j : 'I_(size G), M i j = fourier g (order_diff G i j).1 (order_diff G i j).2) ->
  herm v (M *m v) = RtoC (/ (INR (g_nx g) * INR (g_ny g)))%coqR *
    \sum_(x < g_nx g) \sum_(y < g_ny g) (g_at g x y * (Cconj (sample v x y) * sample v x y)).
Proof.
  move=> HM. set c := RtoC _.
  transitivity (c * \sum_i \sum_j \sum_(x < g_nx g) \sum_(y < g_ny g)
     (g_at g x y * ((Cconj (v i 0) * Cconj (ph x y i)) * (ph x y j * v j 0)))).
    rewrite /herm mulr_sumr. apply: eq_bigr => i _. rewrite mxE !mulr_sumr. apply: eq_bigr => j _.
    rewrite HM fourier_ph -/c -!mulrA mulrCA. congr (_ * _).
    rewrite mulr_suml mulr_sumr. apply: eq_bigr => x _. rewrite mulr_suml mulr_sumr. apply: eq_bigr => y _.
    rewrite -!mulrA mulrCA. by congr (_ * _).
  congr (_ * _). rewrite (eq_bigr (fun i => \sum_(x < g_nx g) \sum_j \sum_(y < g_ny g)
     (g_at g x y * ((Cconj (v i 0) * Cconj (ph x y i)) * (ph x y j * v j 0))))); last first.
    move=> i _. by rewrite exchange_big.
  rewrite exchange_big. apply: eq_bigr => x _.
  rewrite (eq_bigr (fun i => \sum_(y < g_ny g) \sum_j
     (g_at g x y * ((Cconj (v i 0) * Cconj (ph x y i)) * (ph x y j * v j 0))))); last first.
    move=> i _. by rewrite exchange_big.
  rewrite exchange_big. apply: eq_bigr => y _.
  rewrite /sample conj_sum mulr_suml mulr_sumr. apply: eq_bigr => i _.
  rewrite !mulr_sumr. apply: eq_bigr => j _. by rewrite conj_mul [Cconj (v i 0) * _]mulrC.
Qed.

Lemma Im_sum_nonneg (I : Type) (r : seq I) (F : I -> C) :
  (forall i, (0 <= Im (F i))%coqR) -> (0 <= Im (\sum_(i <- r) F i)%R)%coqR.
Proof.
  move=> H. elim: r => [|x r IH]; first by rewrite big_nil /=; lra.
  rewrite big_cons. change (0 <= Rplus (Im (F x)) (Im (\sum_(j <- r) F j)%R))%coqR. have := H x. lra.
Qed.

Lemma conv_gain_free (M : 'M[C]_(size G)) omega :
  (forall i j : 'I_(size G), M i j = fourier g (order_diff G i j).1 (order_diff G i j).2) ->
  (0 < g_nx g)%N -> (0 < g_ny g)%N ->
  (forall x y, (x < g_nx g)%N -> (y < g_ny g)%N -> (0 <= Im (g_at g x y * omega)%R)%coqR) ->
  forall v, (0 <= Im (omega * herm v (M *m v))%R)%coqR.
Proof.
  move=> HM Hx Hy Hg v. rewrite (conv_quadratic M v HM) mulrCA mulr_sumr.
  set s := \sum_(x < _) _. have : (0 <= Im s)%coqR.
    apply: Im_sum_nonneg => x. rewrite mulr_sumr. apply: Im_sum_nonneg => y.
    have := Hg x y (ltn_ord x) (ltn_ord y). move: (g_at g x y) (sample v x y) (omega) => [a1 a2] [b1 b2] [o1 o2].
    rewrite ?C_mulE /= => H.
    match goal with |- (0 <= ?t)%coqR => replace t with ((a1 * o2 + a2 * o1) * (b1 * b1 + b2 * b2))%coqR by ring end.
    apply: Rmult_le_pos => //. nra.
  have P : (0 <= / (INR (g_nx g) * INR (g_ny g)))%coqR.
    apply: Rlt_le. apply: Rinv_0_lt_compat. apply: Rmult_lt_0_compat; apply: lt_0_INR; exact/ltP.
  move: s => [s1 s2] /= H. rewrite ?C_mulE /=.
  have := Rmult_le_pos _ _ P H. lra.
Qed.
End Quadratic.

Lemma herm_block {n} (E : 'M[C]_n) (v : 'cV[C]_(n + n)) :
  herm v (block_mx E 0 0 E *m v) = herm (usubmx v) (E *m usubmx v) + herm (dsubmx v) (E *m dsubmx v).
Proof.
  rewrite -{1 2}(vsubmxK v) mul_block_col !mul0mx addr0 add0r /herm big_split_ord /=. congr (_ + _).
  - apply: eq_bigr => i _. by rewrite !col_mxEu.
  - apply: eq_bigr => i _. by rewrite !col_mxEd.
Qed.

Lemma Im_addC (x y : C) : Im (x + y)%R = (Im x + Im y)%coqR. Proof. by []. Qed.

(** a matrix without gain has an inverse without gain *)
Lemma inverse_gain_free {n} (E : 'M[C]_n) (omega : C) : omega <> C0 -> E \in unitmx ->
  (forall v, (0 <= Im (omega * herm v (E *m v))%R)%coqR) -> gain_free (- omega^-1 *: invmx E).
Proof.
  move=> Ho U H v. have := H (invmx E *m v). rewrite mulmxA mulmxV // mul1mx.
  rewrite -scalemxAl herm_scale_r (herm_conj v (invmx E *m v)).
  move: (herm (invmx E *m v) v) => [h1 h2].
  rewrite ?C_mulE ?C_oppE ?C_invE. have Np := Cnorm2_pos omega Ho. move: Np. move: (omega) => [o1 o2].
  rewrite /Cinv /Cconj /Cnorm2 /= => Np K.
  match goal with |- (0 <= ?t)%coqR => replace t with ((o1 * h2 + o2 * h1) / (o1 * o1 + o2 * o2))%coqR end.
    apply: Rmult_le_pos => //. apply: Rlt_le. exact: Rinv_0_lt_compat.
  field. lra.
Qed.

Lemma threshold_id z : z = 0 \/ kept z -> threshold z = z.
Proof.
  rewrite /threshold /kept. case=> [->|H].
    destruct (Rlt_dec (Re 0) (/ 10 ^ 14)) as [A|A]; destruct (Rlt_dec (Im 0) (/ 10 ^ 14)) as [B|B]; reflexivity.
  case: Rlt_dec => // A. case: Rlt_dec => // B. exfalso. by case: H; lra.
Qed.

Lemma threshold_0 : threshold 0 = 0.
Proof. by apply: threshold_id; left. Qed.

(** * The patterned layer *)
Lemma pattern_passive {G} (eig : eig_oracle) omega (kx ky : 'rV[C]_(size G)) g md :
  eigenpairs eig -> patterned_mode eig omega kx ky g md -> propagating (m_q md) -> omega <> C0 ->
  resolved_entries g G ->
  (forall x y, (x < g_nx g)%N -> (y < g_ny g)%N -> (0 <= Im (g_at g x y * omega)%R)%coqR) ->
  passive_layer omega kx ky md.
Proof.
  move=> He [ei [e2 [Ef [Kp Sv]]]] Pr Ho Rs Hg.
  move: Ef. rewrite /Epsilon_fft /bind. case EC: (get_conv _ _ _) => [E|] //.
  rewrite /inverse. case: ifP => // U [Ei E2].
  have [Hx [Hy _]] := conv_ok _ _ _ EC. have HM := conv_entry _ _ _ EC. rewrite -lt0n in Hx. rewrite -lt0n in Hy.
  have Q := conv_gain_free g G E omega HM Hx Hy Hg.
  have {}E2 : e2 = block_mx E 0 0 E.
    rewrite -E2 map_block_mx. have -> : map_mx threshold (0 : 'M[C]_(size G)) = 0 by apply/matrixP => i j; rewrite !mxE threshold_0.
    have -> // : map_mx threshold E = E. apply/matrixP => i j. rewrite mxE threshold_id // HM. exact: Rs.
  exists e2, ei. split; last split.
  - split=> //. split=> //. exact: (patterned_eigen (eig _) kx ky (m_kp md) e2 _ _ (He _) Sv).1.
  - move=> v. rewrite E2 -scalemxAl herm_scale_r herm_block mulrDr Im_addC.
    have := Q (usubmx v). have := Q (dsubmx v). lra.
  - rewrite -Ei. exact: inverse_gain_free.
Qed.
