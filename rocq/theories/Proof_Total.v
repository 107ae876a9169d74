(** Solving a passive stack at a complex frequency never fails. *)
From Coq Require Import Reals Lra Psatz ZArith String.
From mathcomp Require Import all_ssreflect all_algebra.
From Verif Require Import Base Cplx CplxLemmas CField Model_Modes Spec_Modes Model_TRCWA Spec_TRCWA Spec_Passive Proof_Sqrt
  Proof_Modes Proof_Smatrix Proof_FFT Proof_Passive Proof_Passive2 Proof_Passive3 Proof_Pattern Proof_Init.
Import GRing.Theory.
Delimit Scope R_scope with coqR.
Delimit Scope Z_scope with coqZ.
Local Open Scope ring_scope.

(** * Singular matrices *)
Lemma singular {n} (A : 'M[C]_n) : (forall v : 'cV[C]_n, A *m v = 0 -> v = 0) -> A \in unitmx.
Proof.
  move=> H. rewrite unitmxE unitfE. apply/negP. rewrite -det_tr => /det0P [v Nv Ev].
  move/negP: Nv; apply. apply/eqP. apply: trmx_inj. rewrite trmx0. apply: H.
  by rewrite -[A]trmxK -trmx_mul Ev trmx0.
Qed.

Lemma unit_col {n} (A : 'M[C]_n) j : A \in unitmx -> col j A <> 0.
Proof.
  move=> U E. have K : A *m delta_mx j 0 = 0 :> 'cV[C]_n by rewrite -colE.
  have : invmx A *m (A *m delta_mx j 0) = 0 :> 'cV[C]_n by rewrite K mulmx0.
  rewrite mulKmx // => /matrixP /(_ j 0). rewrite !mxE !eqxx /= => Z.
  have := f_equal Re Z. rewrite /=. lra.
Qed.

(** * The modes of a passive layer decay *)
Section Decay.
Context {n : nat} (omega : C) (kx ky : 'rV[C]_n) (kp ep2 : 'M[C]_(n + n)) (epinv : 'M[C]_n).
Hypothesis Hw : (0 < Im omega)%coqR.
Hypothesis Rx : real_row kx.
Hypothesis Ry : real_row ky.
Hypothesis Hkp : kp = MakeKP_patterned omega epinv kx ky.
Hypothesis G1 : gain_free (omega *: ep2).
Hypothesis G2 : gain_free (- omega^-1 *: epinv).

Lemma omega_neq : omega <> C0.
Proof. move=> E. have := Hw. rewrite E /=. lra. Qed.

Lemma kp_form (v : 'cV[C]_(n + n)) :
  herm v (kp *m v) = omega ^+ 2 * herm v v - herm ((Jk kx ky)^T *m v) (epinv *m ((Jk kx ky)^T *m v)).
Proof.
  rewrite Hkp /MakeKP_patterned mulmxBl mul_scalar_mx -!mulmxA herm_add_r herm_scale_r -scaleN1r herm_scale_r mulN1r.
  by rewrite (herm_real_move (Jk kx ky)); last exact: real_Jk.
Qed.

Lemma kp_dissipates (v : 'cV[C]_(n + n)) :
  (Im omega * Re (herm v v) <= Im (omega^-1 * herm v (kp *m v))%R)%coqR.
Proof.
  have := G2 ((Jk kx ky)^T *m v). rewrite kp_form expr2 -scalemxAl herm_scale_r.
  have [_ Z] := herm_self v. move: (herm v v) Z (herm _ _) => [h1 h2] /= -> [b1 b2].
  have Np := Cnorm2_pos _ omega_neq. move: (omega) Np => [o1 o2].
  rewrite ?C_mulE ?C_oppE ?C_addE ?C_invE /Cinv /Cnorm2 /= => Np.
  match goal with |- (0 <= ?t -> _)%coqR => set T := t end. move=> HT.
  match goal with |- (_ <= ?t)%coqR => replace t with (o2 * h1 + T)%coqR; first lra end.
  rewrite /T. field. lra.
Qed.

Lemma kp_unit : kp \in unitmx.
Proof.
  apply: singular => v E. case: (eqVneq v 0) => // /eqP Nv.
  have := kp_dissipates v. rewrite E.
  have -> : herm v 0 = 0 by rewrite /herm big1 // => i _; rewrite mxE mulr0.
  rewrite mulr0 /=. have := herm_self_pos v Nv. nra.
Qed.

Hypothesis Ue : ep2 \in unitmx.

Lemma no_real_mode (v : 'cV[C]_(n + n)) (s : R) : v <> 0 -> (0 <= s)%coqR ->
  mode_matrix kx ky kp ep2 *m v = RtoC s *: v -> False.
Proof.
  move=> Nv Hs. set E := kp *m v. set K := Kk kx ky.
  have Ho := omega_neq. have Ho2 : omega ^+ 2 != 0 by rewrite expf_neq0 //; apply/eqP.
  have KE : K^T *m v = (omega ^+ 2)^-1 *: (K^T *m E).
    rewrite /E mulmxA Hkp /K Kk_kp -scalemxAl scalerA mulVf // scale1r. by [].
  have -> : mode_matrix kx ky kp ep2 *m v = ep2 *m E - K *m (K^T *m v).
    rewrite /mode_matrix mulmxBl -!mulmxA /K /Kk tr_col_mx !tr_diag. by [].
  move=> M. have Q : herm E (ep2 *m E) - (omega ^+ 2)^-1 * herm (K^T *m E) (K^T *m E) = RtoC s * herm E v.
    rewrite -herm_scale_r -M herm_add_r -scaleN1r herm_scale_r mulN1r (herm_real_move K); last exact: real_Kk.
    by rewrite KE herm_scale_r.
  have D := kp_dissipates v. have P := herm_self_pos v Nv. rewrite -/E in D.
  have G := G1 E. rewrite -scalemxAl herm_scale_r in G.
  have [K1 K2] := herm_self (K^T *m E).
  have S0 : s = 0%coqR /\ Re (herm (K^T *m E) (K^T *m E)) = 0%coqR.
    move: Q D G K1 K2 P. rewrite (herm_conj E v) expr2.
    move: (herm v E) (herm E _) (herm (K^T *m E) _) (Re (herm v v)) => [x1 x2] [a1 a2] [k1 k2] h.
    have Np := Cnorm2_pos _ Ho. move: (omega) Np Hw => [o1 o2].
    rewrite ?C_mulE ?C_oppE ?C_addE ?C_invE /Cinv /Cnorm2 /=.
    set N := (o1 * o1 + o2 * o2)%coqR => Np Ho2' Q D G K1 K2 P. subst k2.
    have Q1 := f_equal fst Q. have Q2 := f_equal snd Q. rewrite /= in Q1 Q2. clear Q.
    have D' : (o2 * h * N <= o1 * x2 - o2 * x1)%coqR.
      have := Rmult_le_compat_r N _ _ (Rlt_le _ _ Np) D.
      match goal with |- (_ <= ?t)%coqR -> _ => replace t with (o1 * x2 - o2 * x1)%coqR by (field; lra) end. by [].
    have ON : (0 < (o1 * o1 - o2 * o2) * (o1 * o1 - o2 * o2) + (o1 * o2 + o2 * o1) * (o1 * o2 + o2 * o1))%coqR.
      replace (_ + _)%coqR with (N * N)%coqR by (rewrite /N; ring). nra.
    have G' : (o1 * a2 + o2 * a1 = - (k1 * o2 / N) - s * (o1 * x2 - o2 * x1))%coqR.
      have -> : a1 = (s * x1 - 0 * - x2 + (k1 * (o1 * o1 - o2 * o2) / ((o1 * o1 - o2 * o2) * (o1 * o1 - o2 * o2) + (o1 * o2 + o2 * o1) * (o1 * o2 + o2 * o1))))%coqR.
        rewrite -Q1. field. lra.
      have -> : a2 = (s * - x2 + 0 * x1 - (k1 * (o1 * o2 + o2 * o1) / ((o1 * o1 - o2 * o2) * (o1 * o1 - o2 * o2) + (o1 * o2 + o2 * o1) * (o1 * o2 + o2 * o1))))%coqR.
        rewrite -Q2. field. lra.
      rewrite /N. field. split; [rewrite -/N; lra | lra].
    have I : (0 < / N)%coqR := Rinv_0_lt_compat _ Np.
    have T1 : (0 <= k1 * o2 / N)%coqR by apply: Rmult_le_pos; [nra | lra].
    have hN : (0 < o2 * h * N)%coqR by apply: Rmult_lt_0_compat => //; apply: Rmult_lt_0_compat.
    have T2 : (0 <= s * (o1 * x2 - o2 * x1))%coqR by apply: Rmult_le_pos => //; lra.
    have Z1 : (k1 * o2 / N = 0)%coqR by lra.
    have Z2 : (s * (o1 * x2 - o2 * x1) = 0)%coqR by lra.
    split.
    - case: (Rmult_integral _ _ Z2) => //. lra.
    - case: (Rmult_integral _ _ Z1); last lra. move=> Z3. case: (Rmult_integral _ _ Z3) => //. lra.
  case: S0 => S0 Zk. have KZ : K^T *m E = 0.
    case: (eqVneq (K^T *m E) 0) => // /eqP /herm_self_pos. lra.
  have EZ : ep2 *m E = 0.
    have -> : ep2 *m E = RtoC s *: v + K *m (K^T *m v) by rewrite -M subrK.
    by rewrite KE KZ scaler0 mulmx0 S0 -[RtoC 0]/(0 : C) scale0r addr0.
  have E0 : E = 0 by rewrite -[E](mulKmx Ue) EZ mulmx0.
  move: D. rewrite E0. have -> : herm v 0 = 0 by rewrite /herm big1 // => i _; rewrite mxE mulr0.
  rewrite mulr0 /=. nra.
Qed.
End Decay.

(** A layer whose mode data are complete and that does not amplify. *)
Definition solid {n} (omega : C) (kx ky : 'rV[C]_n) (md : mode (n + n)) : Prop :=
  exists ep2 epinv, modes_of omega kx ky md ep2 epinv
    /\ gain_free (omega *: ep2) /\ gain_free (- omega^-1 *: epinv)
    /\ m_phi md \in unitmx /\ m_kp md \in unitmx /\ (forall j, (0 < Im (m_q md 0%R j))%coqR).

Lemma solid_intro {n} (omega : C) (kx ky : 'rV[C]_n) (md : mode (n + n)) ep2 epinv :
  (0 < Im omega)%coqR -> real_row kx -> real_row ky ->
  m_kp md = MakeKP_patterned omega epinv kx ky ->
  gain_free (omega *: ep2) -> gain_free (- omega^-1 *: epinv) -> ep2 \in unitmx -> m_phi md \in unitmx ->
  mode_matrix kx ky (m_kp md) ep2 *m m_phi md = m_phi md *m diag_mx (\row_j (m_q md 0 j * m_q md 0 j)) ->
  (forall j, (0 <= Im (m_q md 0%R j))%coqR) -> solid omega kx ky md.
Proof.
  move=> Hw Rx Ry Hk G1 G2 Ue Up M Hq.
  have D : forall j, (0 < Im (m_q md 0%R j))%coqR.
    move=> j. case: (Rle_lt_or_eq_dec _ _ (Hq j)) => // /esym Z. exfalso.
    apply: (no_real_mode omega kx ky (m_kp md) ep2 epinv Hw Rx Ry Hk G1 G2 Ue (col j (m_phi md)) (Re (m_q md 0%R j) * Re (m_q md 0%R j))%coqR).
    - exact: unit_col.
    - nra.
    - rewrite !colE mulmxA M -mulmxA. have -> : diag_mx (\row_j0 (m_q md 0 j0 * m_q md 0 j0)) *m delta_mx j 0 = (m_q md 0 j * m_q md 0 j) *: delta_mx j 0 :> 'cV[C]_(n + n).
        apply/colP => i. rewrite mul_diag_mx !mxE. case: eqP => [->|_] /=; last by rewrite !mulr0. by [].
      rewrite -scalemxAr. congr (_ *: _). move: (m_q md 0 j) Z => [x y] /= ->. rewrite C_mulE. apply: Ceq => /=; ring.
  exists ep2, epinv. split; last by do 4 split=> //; exact: kp_unit Hw Rx Ry Hk G2.
  split=> //. split=> // j E. have := D j. rewrite E /=. lra.
Qed.

Lemma solid_passive {n} (omega : C) (kx ky : 'rV[C]_n) md : solid omega kx ky md -> passive_layer omega kx ky md.
Proof. move=> [ep2 [epinv [M [G1 [G2 _]]]]]. by exists ep2, epinv. Qed.

Lemma uniform_solid {n} omega (kx ky : 'rV[C]_n) e md : uniform_layer omega kx ky e = Ok md ->
  (0 < Im omega)%coqR -> real_row kx -> real_row ky -> (0 <= Im (e * omega)%R)%coqR -> solid omega kx ky md.
Proof.
  move=> U Hw Rx Ry G. have [He [Eq [Ep Ek]]] := uniform_layer_ok _ _ _ _ _ U.
  have Ho : omega <> C0 by move=> E; rewrite E /= in Hw; lra.
  apply: (solid_intro omega kx ky md (e%:M) ((e^-1)%:M)) => //.
  - by rewrite Ek kp_uniform_patterned.
  - rewrite scale_scalar_mx. apply: gain_free_scalar. by rewrite mulrC.
  - rewrite scale_scalar_mx. apply: gain_free_scalar. rewrite mulNr -invfM Im_neg_inv; last exact: Cmul_neq_0.
    rewrite mulrC. apply: Rmult_le_pos => //. apply: Rlt_le. apply: Rinv_0_lt_compat. apply: Cnorm2_pos. exact: Cmul_neq_0.
  - rewrite unitmxE det_scalar unitfE expf_neq0 //. exact/eqP.
  - by rewrite Ep unitmx1.
  - rewrite Ek Ep Eq. exact: (uniform_eigen omega e kx ky He).
  - move=> j. rewrite Eq. have [H _] := uniform_modes omega e kx ky.
    rewrite -[j]splitK. case: (split j) => i /=; have [[_ [P _]] E] := H i; rewrite ?E //.
Qed.

(** * Functions that vanish far away *)
Definition vanishes (f : R -> C) : Prop :=
  forall eps, (0 < eps)%coqR -> exists Z, forall z, (Z <= z)%coqR -> (Cnorm2 (f z) < eps)%coqR.

Lemma vanishes_ext f g : (forall z, f z = g z) -> vanishes f -> vanishes g.
Proof. move=> E H eps He. have [Z HZ] := H eps He. exists Z => z Hz. rewrite -E. exact: HZ. Qed.
Lemma vanishes_0 : vanishes (fun _ => 0).
Proof. move=> eps He. exists 0%coqR => z _. rewrite /Cnorm2 /=. lra. Qed.
Lemma vanishes_add f g : vanishes f -> vanishes g -> vanishes (fun z => f z + g z).
Proof.
  move=> F G eps He. have [Z1 H1] := F (eps / 4)%coqR ltac:(lra). have [Z2 H2] := G (eps / 4)%coqR ltac:(lra).
  exists (Rmax Z1 Z2) => z Hz.
  have A := H1 z (Rle_trans _ _ _ (Rmax_l _ _) Hz). have B := H2 z (Rle_trans _ _ _ (Rmax_r _ _) Hz).
  move: (f z) (g z) A B => [x1 x2] [y1 y2]. rewrite C_addE /Cnorm2 /= => A B.
  have := Rle_0_sqr (x1 - y1)%coqR. have := Rle_0_sqr (x2 - y2)%coqR. rewrite /Rsqr. lra.
Qed.
Lemma vanishes_mul f g : vanishes f -> vanishes g -> vanishes (fun z => f z * g z).
Proof.
  move=> F G eps He. have [Z1 H1] := F eps He. have [Z2 H2] := G 1%coqR ltac:(lra).
  exists (Rmax Z1 Z2) => z Hz.
  have A := H1 z (Rle_trans _ _ _ (Rmax_l _ _) Hz). have B := H2 z (Rle_trans _ _ _ (Rmax_r _ _) Hz).
  rewrite C_mulE Cnorm2_mul. have := Cnorm2_nonneg (f z). have := Cnorm2_nonneg (g z). nra.
Qed.
Lemma vanishes_scale c f : vanishes f -> vanishes (fun z => c * f z).
Proof.
  move=> F eps He. have Nc := Cnorm2_nonneg c.
  have [Z H] := F (eps / (Cnorm2 c + 1))%coqR ltac:(apply: Rdiv_lt_0_compat; lra).
  exists Z => z Hz. rewrite C_mulE Cnorm2_mul. have A := H z Hz. have P := Cnorm2_nonneg (f z).
  have B : (Cnorm2 (f z) * (Cnorm2 c + 1) < eps)%coqR.
    have := Rmult_lt_compat_r (Cnorm2 c + 1)%coqR _ _ ltac:(lra) A.
    replace (eps / (Cnorm2 c + 1) * (Cnorm2 c + 1))%coqR with eps; [by []|field; lra].
  nra.
Qed.
Lemma vanishes_conj f : vanishes f -> vanishes (fun z => Cconj (f z)).
Proof.
  move=> F eps He. have [Z H] := F eps He. exists Z => z Hz. have := H z Hz. move: (f z) => [x y].
  rewrite /Cnorm2 /=. lra.
Qed.
Lemma vanishes_sum (I : Type) (r : seq I) (F : I -> R -> C) :
  (forall i, vanishes (F i)) -> vanishes (fun z => \sum_(i <- r) F i z).
Proof.
  move=> H. elim: r => [|x r IH].
    apply: vanishes_ext vanishes_0 => z. by rewrite big_nil.
  apply: vanishes_ext (vanishes_add _ _ (H x) IH) => z. by rewrite big_cons.
Qed.
Lemma vanishes_wave (q c : C) : (0 < Im q)%coqR ->
  vanishes (fun z => Cexp (Cmul (Cmul Ci q) (RtoC z)) * c).
Proof.
  move=> Hq. apply: vanishes_ext (vanishes_scale c (fun z => Cexp (Cmul (Cmul Ci q) (RtoC z))) _); first by move=> z; rewrite mulrC.
  move=> eps He. have Ip : (0 < / eps)%coqR := Rinv_0_lt_compat _ He.
  exists (/ eps / (2 * Im q))%coqR => z Hz.
  have -> : Cnorm2 (Cexp (Cmul (Cmul Ci q) (RtoC z))) = exp (- (2 * Im q * z)).
    rewrite Cexp_norm2 -exp_plus. congr exp. move: (q) => [q1 q2] /=. ring.
  have Hy : (/ eps <= 2 * Im q * z)%coqR.
    have := Rmult_le_compat_l (2 * Im q)%coqR _ _ ltac:(lra) Hz.
    replace (2 * Im q * (/ eps / (2 * Im q)))%coqR with (/ eps)%coqR; [by []|field; lra].
  rewrite exp_Ropp. have E1 := exp_ineq1_le (2 * Im q * z)%coqR.
  have L : (/ eps < exp (2 * Im q * z))%coqR by lra.
  have := Rinv_lt_contravar (/ eps) (exp (2 * Im q * z)) ltac:(nra) L. rewrite Rinv_involutive; lra.
Qed.
Lemma vanishes_below f (d : R) : vanishes f -> (0 < d)%coqR -> exists z, (1 <= z)%coqR /\ (- d < Re (f z))%coqR.
Proof.
  move=> H Hd. have [Z HZ] := H (d * d)%coqR ltac:(nra). exists (Rmax 1 Z). split; first exact: Rmax_l.
  have := HZ _ (Rmax_r 1 Z). move: (f _) => [x y]. rewrite /Cnorm2 /=. nra.
Qed.

(** * An outgoing field carries power away *)
Lemma outgoing_positive {n} omega (kx ky : 'rV[C]_n) md (v : 'cV[C]_(n + n)) :
  (0 < Im omega)%coqR -> real_row kx -> real_row ky -> solid omega kx ky md -> v <> 0 ->
  (0 < power (E_at omega md v 0) (H_at md v 0))%coqR.
Proof.
  move=> Hw Rx Ry [ep2 [epinv [M [G1 [G2 [Up [Uk Hq]]]]]]] Nv.
  have Ho : omega <> C0 by move=> E; rewrite E /= in Hw; lra.
  set p := fun z => power_at omega md 0%coqR z v 0.
  have p_def : forall z, p z = power (E_at omega md (forward_wave (m_q md) z v) 0) (H_at md (forward_wave (m_q md) z v) 0).
    move=> z. rewrite /p /power_at. have -> // : backward_wave (m_q md) 0%coqR z (0 : 'cV[C]_(n + n)) = 0.
    by apply/colP => i; rewrite !mxE mulr0.
  have p0 : p 0%coqR = power (E_at omega md v 0) (H_at md v 0) by rewrite p_def forward_0.
  rewrite -p0.
  set d := fun z => (- absorbed omega kx ky ep2 epinv
         (E_at omega md (forward_wave (m_q md) z v) (backward_wave (m_q md) 0%coqR z 0))
         (H_at md (forward_wave (m_q md) z v) (backward_wave (m_q md) 0%coqR z 0)))%coqR.
  have D : forall z, derivable_pt_lim p z (d z) by move=> z; exact: power_der Ho Rx Ry M.
  have Dn : forall z, (d z < 0)%coqR.
    move=> z. rewrite /d. set E := E_at _ _ _ _. set H := H_at _ _ _.
    have := absorbed_nonneg omega kx ky ep2 epinv E H (Rlt_le _ _ Hw) G1 G2.
    have NH : H <> 0.
      move=> H0. apply: Nv. have : invmx (m_phi md) *m H = 0 by rewrite H0 mulmx0.
      rewrite /H /H_at mulKmx // => W. apply/colP => i. have := f_equal (fun u : 'cV[C]_(n + n) => u i 0) W. rewrite !mxE mulr0 addr0.
      move: (v i 0) => c. rewrite C_mulE => Z. apply: Classical_Prop.NNPP => Nc.
      apply: (Cmul_neq_0 _ c _ Nc Z). exact: Cexp_neq_0.
    have := herm_self_pos H NH. nra.
  have Dec : forall x y, (x <= y)%coqR -> (p y <= p x)%coqR.
    move=> x y Hxy. apply: (decreasing p d) => // z _. have := Dn z. lra.
  have S1 : (p 1 < p 0)%coqR.
    have [c [E [H1 H2]]] := MVT_cor2 p d 0 1 ltac:(lra) ltac:(by move=> z _).
    have := Dn c. lra.
  suff : (0 <= p 1)%coqR by lra.
  apply: Rnot_lt_le => N1.
  have V : vanishes (fun z => herm (E_at omega md (forward_wave (m_q md) z v) 0) (H_at md (forward_wave (m_q md) z v) 0)).
    have W : forall i, vanishes (fun z => forward_wave (m_q md) z v i 0).
      move=> i. apply: vanishes_ext (vanishes_wave (m_q md 0 i) (v i 0) (Hq i)) => z. by rewrite mxE.
    have Wm : forall (A : 'M[C]_(n + n)) (F : R -> 'cV[C]_(n + n)), (forall i, vanishes (fun z => F z i 0)) -> forall i, vanishes (fun z => (A *m F z) i 0).
      move=> A F HF i. apply: (vanishes_ext (fun z => \sum_j A i j * F z j 0)); first by move=> z; rewrite [RHS]mxE.
      apply: vanishes_sum => j. exact: vanishes_scale.
    rewrite /herm. apply: vanishes_sum => i. apply: vanishes_mul.
    - apply: vanishes_conj. rewrite /E_at. apply: (Wm _) => j. apply: (Wm _) => k.
      apply: vanishes_ext (vanishes_scale ((omega * m_q md 0 k)^-1) _ (W k)) => z. rewrite [RHS]mxE subr0. exact: mulrC.
    - rewrite /H_at. apply: (Wm _) => j. apply: vanishes_ext (W j) => z. by rewrite addr0.
  have [z [Hz Hp]] := vanishes_below _ (- p 1)%coqR V ltac:(lra).
  have := Dec 1%coqR z Hz. rewrite [p z]p_def /power -/(herm _ _). rewrite Ropp_involutive in Hp. lra.
Qed.

(** * The S-matrix exists *)
Section Stack.
Context {n : nat} (omega : C) (kx ky : 'rV[C]_n) (ms : seq (option (mode (n + n)))) (ts : seq R) (N : nat).
Hypothesis Hw : (0 < Im omega)%coqR.
Hypothesis Rx : real_row kx.
Hypothesis Ry : real_row ky.
Hypothesis Lx : forall l, (l <= N)%N -> exists md t, layer_is ms ts l md t.
Hypothesis Ls : forall l md t, (l <= N)%N -> layer_is ms ts l md t -> solid omega kx ky md.
Hypothesis Lt : forall l md t, (0 < l < N)%N -> layer_is ms ts l md t -> (0 <= t)%coqR.

Lemma w_neq : omega <> C0.
Proof. move=> E. have := Hw. rewrite E /=. lra. Qed.

Lemma solid_prop md : solid omega kx ky md -> propagating (m_q md).
Proof. by move=> [ep2 [epinv [[_ [_ P]] _]]]. Qed.

Lemma step_total l M : (l < N)%N -> scatters ms ts 0 l M -> exists M', smat_step ms ts l M = Ok M'.
Proof.
  move=> Hl [F B]. have [cur [t L1]] := Lx l (ltnW Hl). have [nxt [t' L2]] := Lx l.+1 Hl.
  have S1 := Ls _ _ _ (ltnW Hl) L1. have S2 := Ls _ _ _ Hl L2.
  case: (S1) => _ [_ [[_ [_ P1]] [_ [_ [Up [Uk _]]]]]]. have P2 := solid_prop _ S2.
  have Ukp : m_kp cur *m m_phi cur \in unitmx by rewrite unitmx_mul Uk Up.
  set Q := invmx (m_phi cur) *m m_phi nxt.
  set P := (diag_mx (m_q cur) *m invmx (m_kp cur *m m_phi cur))
           *m ((m_kp nxt *m m_phi nxt) *m diag_mx (map_row (fun z => z^-1) (m_q nxt))).
  set T11 := half_C *: (Q + P). set T12 := half_C *: (Q - P).
  set d1 := phase (m_q cur) t. set d2 := phase (m_q nxt) t'.
  suff U : T11 - (d1 *m S12 M) *m T12 \in unitmx.
    eexists. apply/smat_step_core. exists cur, nxt, t, t'. split=> //. split=> //. apply/step_core_ok.
    cbv zeta. rewrite -/Q -/P -/T11 -/T12 -/d1 -/d2. split=> //. split=> //. split; first exact: propagating_neq.
    split; first exact: U. reflexivity.
  apply: singular => v Ev. case: (eqVneq v 0) => // /eqP Nv. exfalso.
  have [a [b [A0 [Bl Cn]]]] := B 0 (T12 *m v).
  have [Al _] := F a b Cn. rewrite A0 Bl mulmx0 add0r in Al.
  have Ev' : d1 *m a l = T11 *m v.
    rewrite Al. move/eqP: Ev. by rewrite mulmxBl subr_eq0 => /eqP ->; rewrite -!mulmxA.
  pose a2 := fun k => if k == l.+1 then v else a k.
  pose b2 := fun k => if k == l.+1 then 0 else b k.
  have Nk : forall k, (k <= l)%N -> (k == l.+1) = false by move=> k Hk; apply/negbTE; rewrite neq_ltn ltnS Hk.
  have Cn2 : forall k, (k < l.+1)%N -> continuous ms ts a2 b2 k.
    move=> k. rewrite ltnS leq_eqVlt => /orP [/eqP ->|Hk].
    - move=> m1 t1 m2 t2 K1 K2. have [-> ->] := layer_is_unique _ _ _ _ _ _ _ K1 L1. have [-> ->] := layer_is_unique _ _ _ _ _ _ _ K2 L2.
      apply/(matching cur nxt t t' _ _ _ _ Up Ukp (propagating_neq _ P1)). cbv zeta. rewrite -/Q -/P. apply/split_T.
      rewrite /a2 /b2 (Nk l) // eqxx -/T11 -/T12 -/d1 -/d2 !mulmx0 !addr0. by split.
    - move=> m1 t1 m2 t2 K1 K2. rewrite /a2 /b2 (Nk k) ?(Nk k.+1) //; last exact: ltnW. by apply: Cn.
  have [md0 [t0 L0]] := Lx 0%N (leq0n N).
  have S0 := Ls _ _ _ (leq0n N) L0.
  have SP : (power_at omega nxt t' 0 (a2 l.+1) (b2 l.+1) <= power_at omega md0 t0 t0 (a2 0%N) (b2 0%N))%coqR.
    apply: (stack_power omega kx ky ms ts l.+1 a2 b2 md0 t0 nxt t' w_neq (Rlt_le _ _ Hw) Rx Ry isT) => //.
    - move=> k Hk; apply: Lx; exact: leq_trans Hk Hl.
    - move=> k md th Hk K. apply: solid_prop. apply: Ls K. exact: leq_trans Hk Hl.
    - move=> k md th /andP [K1 K2] K. split.
        apply: solid_passive. apply: Ls K. apply: leq_trans (ltnW K2) Hl.
      apply: Lt K. rewrite K1. exact: leq_trans K2 Hl.
  move: SP. rewrite /a2 /b2 eqxx Nk // A0. 
  have -> : power_at omega nxt t' 0%coqR v 0 = power (E_at omega nxt v 0) (H_at nxt v 0).
    rewrite /power_at forward_0. have -> // : backward_wave (m_q nxt) t' 0%coqR (0 : 'cV[C]_(n + n)) = 0.
    by apply/colP => i; rewrite !mxE mulr0.
  have -> : power_at omega md0 t0 t0 0 (b 0%N) = (- power (E_at omega md0 (b 0%N) 0) (H_at md0 (b 0%N) 0))%coqR.
    rewrite /power_at backward_end. have -> : forward_wave (m_q md0) t0 (0 : 'cV[C]_(n + n)) = 0.
      by apply/colP => i; rewrite !mxE mulr0.
    rewrite E_at_swap /H_at add0r addr0 /power.
    transitivity (Re ((- (\sum_i Cconj (E_at omega md0 (b 0%N) 0 i 0) * (m_phi md0 *m b 0%N) i 0))%R)); last by [].
    rewrite -sumrN. congr Re. apply: eq_bigr => i _.
    move: (E_at omega md0 (b 0%N) 0) (m_phi md0 *m b 0%N) => E H.
    rewrite [(- E) i 0]mxE. move: (E i 0) (H i 0) => [x1 x2] [y1 y2].
    rewrite ?C_mulE ?C_oppE. apply: Ceq => /=; ring.
  have := outgoing_positive omega kx ky nxt v Hw Rx Ry S2 Nv.
  case: (eqVneq (b 0%N) 0) => [->|/eqP Nb].
    have -> : power (E_at omega md0 0 0) (H_at md0 0 0) = 0%coqR.
      rewrite /H_at addr0 mulmx0 /power big1 // => i _. by rewrite !mxE mulr0.
    lra.
  have := outgoing_positive omega kx ky md0 (b 0%N) Hw Rx Ry S0 Nb. lra.
Qed.

Lemma loop_total c : forall l M, (l + c <= N)%N -> scatters ms ts 0 l M -> exists M', smat_loop ms ts c l M = Ok M'.
Proof.
  elim: c => [|c IH] l M Hc S; first by exists M.
  have Hl : (l < N)%N by apply: leq_trans Hc; rewrite addnS ltnS leq_addr.
  have [M1 E1] := step_total l M Hl S. have Pq : forall md, List.nth_error ms l = Some (Some md) -> forall j, m_q md 0 j != 0.
    move=> md Em.
    have [md' [t L]] := Lx l (ltnW Hl). have E : md' = md by case: (L); rewrite Em => -[->]. subst md'.
    apply: propagating_neq. apply: solid_prop. exact: Ls (ltnW Hl) L.
  have [S1 _] := scatters_step ms ts 0 l M M1 (leq0n l) Pq S E1.
  have [M' E'] := IH l.+1 M1 ltac:(by rewrite addSnnS) S1. exists M'. by cbn [smat_loop bind]; rewrite E1.
Qed.

Lemma smatrix_total : exists M, GetSMatrix 0 N ms ts = Ok M.
Proof.
  rewrite /GetSMatrix. have [md0 [t0 [L0 _]]] := Lx 0%N (leq0n N). rewrite /get_mode L0 /bind.
  case: eqP => _; first by eexists. rewrite ltn0 subn0. apply: loop_total => //. exact: scatters_id.
Qed.
End Stack.

Lemma flux_total_ok {n} (a b : 'cV[C]_(n + n)) omega md : omega <> C0 -> propagating (m_q md) ->
  exists f g, GetZPoyntingFlux a b omega md = Ok (f, g).
Proof.
  move=> Ho Hq. rewrite /GetZPoyntingFlux /GetZPoyntingFlux_byorder /Flux_xy /Flux_A /row_inv /bind.
  case: ifP => [_|/forallP]; last by move=> H; exfalso; apply: H => j; apply/eqP; exact: Hq.
  case: eqP => // _. by eexists _, _.
Qed.

(** * RT_Solve succeeds *)
Lemma rt_total (x : excited) : let o := x_ready x in
  (0 < Im (s_omega o))%coqR -> real_row (s_kx o) -> real_row (s_ky o) ->
  x_direction x = "forward"%string -> size (s_thick o) = size (s_modes o) -> (0 < size (s_modes o))%N ->
  (forall l, (l < size (s_modes o))%N -> exists md, List.nth_error (s_modes o) l = Some (Some md)
      /\ solid (s_omega o) (s_kx o) (s_ky o) md) ->
  (forall l th, (0 < l < (size (s_modes o)).-1)%N -> List.nth_error (s_thick o) l = Some th -> (0 <= th)%coqR) ->
  forall nz, exists r t, RT_Solve nz x = Ok (r, t).
Proof.
  move=> o Hw Rx Ry Dir Sz S0 Hm Ht nz. rewrite /RT_Solve -/o.
  have Hs : ((size (s_modes o)).-1 < size (s_modes o))%N by rewrite ltn_predL.
  have [M EM] : exists M, GetSMatrix 0 (size (s_modes o)).-1 (s_modes o) (s_thick o) = Ok M.
    apply: (smatrix_total (s_omega o) (s_kx o) (s_ky o) (s_modes o) (s_thick o) (size (s_modes o)).-1 Hw Rx Ry).
    - move=> l Hl. have Hl' : (l < size (s_modes o))%N by exact: leq_ltn_trans Hl Hs.
      have [md [E _]] := Hm l Hl'. have [t Et] : exists t, List.nth_error (s_thick o) l = Some t.
        apply: nth_error_ex. by rewrite Sz.
      by exists md, t.
    - move=> l md t Hl [E _]. have [md' [E' H]] := Hm l (leq_ltn_trans Hl Hs). rewrite E in E'. by case: E' => ->.
    - move=> l md t Hl [_ E]. exact: Ht Hl E.
  rewrite /SolveExterior Sz EM /bind /last_mode /get_mode.
  have [m0 [-> Q0]] := Hm 0%N S0. have [mN [-> QN]] := Hm _ Hs.
  have Ho : s_omega o <> C0 by move=> E; rewrite E /= in Hw; lra.
  have [f1 [g1 ->]] := flux_total_ok (x_a0 x) (S21 M *m x_a0 x + S22 M *m x_bN x) _ _ Ho (solid_prop _ _ _ _ Q0).
  have [f2 [g2 ->]] := flux_total_ok (S11 M *m x_a0 x + S12 M *m x_bN x) (x_bN x) _ _ Ho (solid_prop _ _ _ _ QN).
  rewrite Dir /=. case: nz; by eexists _, _.
Qed.
