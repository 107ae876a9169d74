(** The power flux inside a layer never grows. *)
From Coq Require Import Reals Lra Lia.
From mathcomp Require Import all_ssreflect all_algebra.
From Verif Require Import Base Cplx CplxLemmas CField Model_Modes Spec_Modes Spec_Passive Proof_Sqrt
  Proof_Smatrix Proof_Modes Proof_Passive.
Import GRing.Theory.
Delimit Scope R_scope with coqR.
Local Open Scope ring_scope.

Lemma sum_wave_der {m} (q : 'rV[C]_m) t z (a b : 'cV[C]_m) :
  vder (fun x => forward_wave q x a + backward_wave q t x b) z
       (\col_j (Ci * q 0 j * (forward_wave q z a - backward_wave q t z b) j 0)).
Proof.
  move=> j. rewrite !mxE.
  apply: (@cder_ext (fun x => Cexp (Cmul (Cmul Ci (q 0 j)) (RtoC x)) * a j 0
                            + Cexp (Cmul (Cmul Ci (q 0 j)) (RtoC (Rminus t x))) * b j 0)).
    by move=> x; rewrite !mxE.
  have A := cder_mul _ _ _ _ _ (cder_exp (q 0 j) z) (cder_const (a j 0) z).
  have B := cder_mul _ _ _ _ _ (cder_exp_back (q 0 j) t z) (cder_const (b j 0) z).
  apply: cder_eq (cder_add _ _ _ _ _ A B). rewrite !mulr0 !addr0 mulrBr mulNr !mulrA. by [].
Qed.

Lemma diff_wave_der {m} (q : 'rV[C]_m) t z (a b : 'cV[C]_m) (omega : C) : omega != 0 -> (forall j, q 0 j != 0) ->
  vder (fun x => \col_j ((forward_wave q x a - backward_wave q t x b) j 0 / (omega * q 0 j))) z
       ((Ci / omega) *: (forward_wave q z a + backward_wave q t z b)).
Proof.
  move=> Ho Hq j. rewrite !mxE.
  apply: (@cder_ext (fun x => (omega * q 0 j)^-1 * (Cexp (Cmul (Cmul Ci (q 0 j)) (RtoC x)) * a j 0
                            + (-1) * (Cexp (Cmul (Cmul Ci (q 0 j)) (RtoC (Rminus t x))) * b j 0)))).
    by move=> x; rewrite !mxE mulN1r mulrC.
  have A := cder_mul _ _ _ _ _ (cder_exp (q 0 j) z) (cder_const (a j 0) z).
  have B := cder_mul _ _ _ _ _ (cder_exp_back (q 0 j) t z) (cder_const (b j 0) z).
  apply: cder_eq (cder_scale ((omega * q 0 j)^-1) _ _ _ (cder_add _ _ _ _ _ A (cder_scale (-1) _ _ _ B))).
  have /eqP Hj := Hq j. move/eqP: Ho.
  move: (Cexp (Cmul (Cmul Ci (q 0 j)) (RtoC z))) (Cexp (Cmul (Cmul Ci (q 0 j)) (RtoC (Rminus t z)))).
  move: (a j 0) (b j 0) (q 0 j) Hj => x y k Hk u v Ho.
  rewrite ?C_addE ?C_oppE ?C_mulE ?C_invE ?C_0E ?C_1E.
  match goal with |- @eq _ ?l ?r => change (@eq C l r) end. field. by split.
Qed.

Definition Kk {n} (kx ky : 'rV[C]_n) : 'M[C]_(n + n, n) := col_mx (diag_mx kx) (diag_mx ky).

Lemma Kk_Jk {n} (kx ky : 'rV[C]_n) : (Kk kx ky)^T *m Jk kx ky = 0.
Proof.
  rewrite /Kk /Jk tr_col_mx !tr_diag mul_row_col !mulmx_diag. apply/matrixP => i j. rewrite !mxE.
  case: (i == j); rewrite ?mulr0n ?mulr1n ?addr0 //. by move: (kx 0 i) (ky 0 i) => x y; cring.
Qed.

Lemma Kk_kp {n} omega (epinv : 'M[C]_n) kx ky :
  (Kk kx ky)^T *m MakeKP_patterned omega epinv kx ky = (omega ^+ 2) *: (Kk kx ky)^T.
Proof. by rewrite /MakeKP_patterned mulmxBr !mulmxA Kk_Jk !mul0mx subr0 mul_mx_scalar. Qed.

Section Layer.
Variables (n : nat) (omega : C) (kx ky : 'rV[C]_n) (md : mode (n + n)) (ep2 : 'M[C]_(n + n)) (epinv : 'M[C]_n).
Hypothesis omega0 : omega != 0.
Hypothesis modes : modes_of omega kx ky md ep2 epinv.
Variables (t : R) (a b : 'cV[C]_(n + n)).
Let u z := forward_wave (m_q md) z a.
Let v z := backward_wave (m_q md) t z b.
Let Hz z := H_at md (u z) (v z).
Let Ez z := E_at omega md (u z) (v z).

Lemma q_neq j : m_q md 0 j != 0.
Proof. have [_ [_ P]] := modes. by apply/eqP; exact: P. Qed.

Lemma H_der z : vder Hz z ((Ci * omega) *: (ep2 *m Ez z) - (Ci / omega) *: (Kk kx ky *m ((Kk kx ky)^T *m Ez z))).
Proof.
  have [Ekp [Eig _]] := modes.
  have D := vder_mul (m_phi md) _ _ _ (sum_wave_der (m_q md) t z a b).
  apply: vder_eq D.
  set W := \col_j ((u z - v z) j 0 / (omega * m_q md 0 j)).
  have EW : Ez z = m_kp md *m (m_phi md *m W) by [].
  have -> : \col_j (Ci * m_q md 0 j * (forward_wave (m_q md) z a - backward_wave (m_q md) t z b) j 0)
    = (Ci * omega) *: (diag_mx (\row_j (m_q md 0 j * m_q md 0 j)) *m W).
    apply/colP => j. rewrite mul_diag_mx [in RHS]mxE [in RHS]mxE [W _ _]mxE [in RHS]mxE [in LHS]mxE.
    have /eqP Hj := q_neq j. move/eqP: omega0 => Ho.
    rewrite -/(u z) -/(v z). move: ((u z - v z) j 0) (m_q md 0 j) Hj => x k Hk.
    rewrite ?C_addE ?C_oppE ?C_mulE ?C_invE ?C_0E ?C_1E.
    match goal with |- @eq _ ?l ?r => change (@eq C l r) end. field. by split.
  rewrite -scalemxAr (mulmxA (m_phi md)) -Eig -mulmxA /mode_matrix mulmxBl scalerBr -!mulmxA. congr (_ - _).
  have KE : (Kk kx ky)^T *m Ez z = (omega ^+ 2) *: ((Kk kx ky)^T *m (m_phi md *m W)).
    by rewrite EW mulmxA Ekp Kk_kp -scalemxAl.
  rewrite KE -/(Kk kx ky). have -> : row_mx (diag_mx kx) (diag_mx ky) = (Kk kx ky)^T by rewrite /Kk tr_col_mx !tr_diag.
  rewrite -scalemxAr scalerA. congr (_ *: _).
  rewrite expr2. move/eqP: omega0 => Ho. 
  rewrite ?C_addE ?C_oppE ?C_mulE ?C_invE ?C_0E ?C_1E.
  match goal with |- @eq _ ?l ?r => change (@eq C l r) end. by field.
Qed.

Lemma E_der z : vder Ez z ((Ci * omega) *: Hz z - (Ci / omega) *: (Jk kx ky *m (epinv *m ((Jk kx ky)^T *m Hz z)))).
Proof.
  have [Ekp _] := modes.
  have D := vder_mul (m_kp md) _ _ _ (vder_mul (m_phi md) _ _ _ (diff_wave_der (m_q md) t z a b omega omega0 q_neq)).
  apply: vder_eq D.
  rewrite -!scalemxAr -/(u z) -/(v z) -[m_phi md *m (u z + v z)]/(Hz z) Ekp /MakeKP_patterned mulmxBl scalerBr.
  congr (_ - _); last by rewrite !mulmxA.
  rewrite mul_scalar_mx scalerA. congr (_ *: _).
  rewrite expr2. move/eqP: omega0 => Ho. 
  rewrite ?C_addE ?C_oppE ?C_mulE ?C_invE ?C_0E ?C_1E.
  match goal with |- @eq _ ?l ?r => change (@eq C l r) end. by field.
Qed.
End Layer.

Lemma Re_add (x y : C) : Re (x + y) = Rplus (Re x) (Re y). Proof. by []. Qed.
Lemma Re_opp (x : C) : Re (- x) = Ropp (Re x). Proof. by []. Qed.

Lemma real_Jk {n} (kx ky : 'rV[C]_n) : real_row kx -> real_row ky -> forall i j, Im (Jk kx ky i j) = 0%coqR.
Proof.
  move=> Hx Hy i j. rewrite /Jk mxE. case: (split i) => k; rewrite !mxE; case: (_ == _); rewrite ?mulr1n ?mulr0n //=.
  - have := Hy k. move: (ky 0 k) => [x y] /= ->. by rewrite Ropp_0.
Qed.
Lemma real_Kk {n} (kx ky : 'rV[C]_n) : real_row kx -> real_row ky -> forall i j, Im (Kk kx ky i j) = 0%coqR.
Proof.
  move=> Hx Hy i j. rewrite /Kk mxE. case: (split i) => k; rewrite !mxE; case: (_ == _); by rewrite ?mulr1n ?mulr0n /=.
Qed.

(** The power lost per unit length *)
Definition absorbed {n} (omega : C) (kx ky : 'rV[C]_n) (ep2 : 'M[C]_(n + n)) (epinv : 'M[C]_n) (E H : 'cV[C]_(n + n)) : R :=
  let y := (Jk kx ky)^T *m H in
  let w := (Kk kx ky)^T *m E in
  (Im omega * Re (herm H H) + Im (herm E ((omega *: ep2) *m E))
   + Im (herm y ((- omega^-1 *: epinv) *m y)) + Im omega / Cnorm2 omega * Re (herm w w))%coqR.

Lemma power_der {n} (omega : C) (kx ky : 'rV[C]_n) (md : mode (n + n)) ep2 epinv t (a b : 'cV[C]_(n + n)) z :
  omega <> C0 -> real_row kx -> real_row ky -> modes_of omega kx ky md ep2 epinv ->
  derivable_pt_lim (fun x => power_at omega md t x a b) z
    (- absorbed omega kx ky ep2 epinv
         (E_at omega md (forward_wave (m_q md) z a) (backward_wave (m_q md) t z b))
         (H_at md (forward_wave (m_q md) z a) (backward_wave (m_q md) t z b)))%coqR.
Proof.
  move=> Ho Rx Ry M. have Ho' : omega != 0 by apply/eqP.
  have DH := H_der n omega kx ky md ep2 epinv Ho' M t a b z.
  have DE := E_der n omega kx ky md ep2 epinv Ho' M t a b z.
  have [D _] := herm_der _ _ _ _ _ DE DH.
  apply: der_eq D.
  set E := E_at omega md _ _. set H := H_at md _ _.
  rewrite herm_add_l herm_add_r -!scaleNr !herm_scale_l !herm_scale_r.
  rewrite (herm_real_move (Kk kx ky)); last exact: real_Kk.
  have -> : herm (Jk kx ky *m (epinv *m ((Jk kx ky)^T *m H))) H
     = Cconj (herm ((Jk kx ky)^T *m H) (epinv *m ((Jk kx ky)^T *m H))).
    by rewrite herm_conj (herm_real_move (Jk kx ky)); last exact: real_Jk.
  rewrite /absorbed -!scalemxAl !herm_scale_r.
  have [_ SH] := herm_self H. have [_ SK] := herm_self ((Kk kx ky)^T *m E).
  move: SH SK.
  move: (herm H H) (herm _ (_ *m _)) (herm ((Kk kx ky)^T *m E) _) (herm E _).
  move=> h1 h2 h3 h4 S1 S3.
  have Hn : Cnorm2 omega <> 0%coqR by move/Cnorm2_zero.
  case: omega h1 h2 h3 h4 S1 S3 Hn {Ho Ho' M DH DE E H} => o1 o2 [h11 h12] [h21 h22] [h31 h32] [h41 h42] /= -> ->.
  rewrite /Cnorm2 /= => Hn. rewrite /Cdiv /Cinv /Cnorm2 /=. by field.
Qed.

Lemma absorbed_nonneg {n} (omega : C) (kx ky : 'rV[C]_n) ep2 epinv E H :
  (0 <= Im omega)%coqR -> gain_free (omega *: ep2) -> gain_free (- omega^-1 *: epinv) ->
  (Im omega * Re (herm H H) <= absorbed omega kx ky ep2 epinv E H)%coqR.
Proof.
  move=> Io G1 G2. rewrite /absorbed. have A := G1 E. have B := G2 ((Jk kx ky)^T *m H).
  have [P _] := herm_self ((Kk kx ky)^T *m E).
  have N : (0 <= Im omega / Cnorm2 omega)%coqR.
    case: (Req_dec (Cnorm2 omega) 0) => [->|Z]; first by rewrite /Rdiv Rinv_0 Rmult_0_r; lra.
    apply: Rmult_le_pos => //. apply: Rlt_le. apply: Rinv_0_lt_compat. have := Cnorm2_nonneg omega. lra.
  have D := Rmult_le_pos _ _ N P.
  rewrite -[X in (X <= _)%coqR]Rplus_0_r !Rplus_assoc. apply: Rplus_le_compat_l.
  apply: Rplus_le_le_0_compat => //. apply: Rplus_le_le_0_compat => //.
Qed.

Lemma decreasing (f f' : R -> R) x y : (x <= y)%coqR ->
  (forall z, (x <= z <= y)%coqR -> derivable_pt_lim f z (f' z)) ->
  (forall z, (x <= z <= y)%coqR -> (f' z <= 0)%coqR) -> (f y <= f x)%coqR.
Proof.
  move=> Hxy D N. case: (Rle_lt_or_eq_dec _ _ Hxy) => [L|->]; last exact: Rle_refl.
  have [c [E [H1 H2]]] := MVT_cor2 f f' x y L D.
  have := N c ltac:(lra). nra.
Qed.

Lemma layer_power {n} (omega : C) (kx ky : 'rV[C]_n) (md : mode (n + n)) t (a b : 'cV[C]_(n + n)) x y :
  omega <> C0 -> (0 <= Im omega)%coqR -> real_row kx -> real_row ky -> passive_layer omega kx ky md ->
  (x <= y)%coqR ->
  (power_at omega md t y a b <= power_at omega md t x a b)%coqR.
Proof.
  move=> Ho Io Rx Ry [ep2 [epinv [M [G1 G2]]]] Hxy.
  apply: (decreasing (fun z => power_at omega md t z a b)
    (fun z => - absorbed omega kx ky ep2 epinv
         (E_at omega md (forward_wave (m_q md) z a) (backward_wave (m_q md) t z b))
         (H_at md (forward_wave (m_q md) z a) (backward_wave (m_q md) t z b)))%coqR x y Hxy) => [z _|z _].
    exact: power_der Ho Rx Ry M.
  have := absorbed_nonneg omega kx ky ep2 epinv
    (E_at omega md (forward_wave (m_q md) z a) (backward_wave (m_q md) t z b))
    (H_at md (forward_wave (m_q md) z a) (backward_wave (m_q md) t z b)) Io G1 G2.
  have [P _] := herm_self (H_at md (forward_wave (m_q md) z a) (backward_wave (m_q md) t z b)).
  have := Rmult_le_pos _ _ Io P. lra.
Qed.

Lemma constant_fun (f : R -> R) x y : (forall z, derivable_pt_lim f z 0%coqR) -> f y = f x.
Proof.
  move=> D. wlog Hxy : x y / (x <= y)%coqR.
    move=> W. case: (Rle_dec x y) => [/W //|N]. rewrite (W y x) //. lra.
  apply: Rle_antisym.
  - apply: (decreasing f (fun _ => 0%coqR)) => // z _; lra.
  - have : (- f y <= - f x)%coqR; last lra.
    apply: (decreasing (fun z => - f z)%coqR (fun _ => (- 0)%coqR)) => // [z _|z _]; last lra.
    exact: derivable_pt_lim_opp.
Qed.

Lemma layer_power_lossless {n} (omega : C) (kx ky : 'rV[C]_n) (md : mode (n + n)) t (a b : 'cV[C]_(n + n)) x y :
  omega <> C0 -> Im omega = 0%coqR -> real_row kx -> real_row ky -> lossless_layer omega kx ky md ->
  power_at omega md t y a b = power_at omega md t x a b.
Proof.
  move=> Ho Io Rx Ry [ep2 [epinv [M [G1 G2]]]].
  apply: (constant_fun (fun z => power_at omega md t z a b)) => z.
  apply: der_eq (power_der omega kx ky md ep2 epinv t a b z Ho Rx Ry M).
  rewrite /absorbed Io (G1 _) (G2 _) /Rdiv. ring.
Qed.

(** * Across interfaces and through a stack *)
Lemma E_field_at {m} omega (md : mode m) t z a b : omega != 0 -> (forall j, m_q md 0 j != 0) ->
  E_field md t z a b = omega *: E_at omega md (forward_wave (m_q md) z a) (backward_wave (m_q md) t z b).
Proof.
  move=> Ho Hq. rewrite /E_field /E_at !scalemxAr. congr (_ *m (_ *m _)).
  apply/colP => j. rewrite [in LHS]mxE [in RHS]mxE [in RHS]mxE.
  move/eqP: Ho => Ho. have /eqP Hj := Hq j.
  move: (_ j 0) (m_q md 0 j) Hj => x k Hk.
  rewrite ?C_addE ?C_oppE ?C_mulE ?C_invE ?C_0E ?C_1E.
  match goal with |- @eq _ ?l ?r => change (@eq C l r) end. field. by split.
Qed.

Lemma interface_power {m} omega (ms : seq (option (mode m))) ts a b l md t md' t' :
  omega <> C0 -> continuous ms ts a b l ->
  layer_is ms ts l md t -> layer_is ms ts l.+1 md' t' -> propagating (m_q md) -> propagating (m_q md') ->
  power_at omega md t t (a l) (b l) = power_at omega md' t' 0%coqR (a l.+1) (b l.+1).
Proof.
  move=> Ho Cn L L' P P'. have [EH EE] := Cn _ _ _ _ L L'.
  have Ho' : omega != 0 by apply/eqP.
  rewrite !(E_field_at omega) // in EE; try exact: propagating_neq.
  have {}EE : E_at omega md (forward_wave (m_q md) t (a l)) (backward_wave (m_q md) t t (b l))
     = E_at omega md' (forward_wave (m_q md') 0%coqR (a l.+1)) (backward_wave (m_q md') t' 0%coqR (b l.+1)).
    have := f_equal (fun v => omega^-1 *: v) EE. by rewrite !scalerA mulVf // !scale1r.
  rewrite /power_at EE. congr (power _ _). exact: EH.
Qed.
