(** How a unitary change of the field basis that respects the wave vectors acts on
    layers and fluxes. *)
From Coq Require Import Reals Lra.
From mathcomp Require Import all_ssreflect all_algebra.
From Verif Require Import Base Cplx CplxLemmas CField Model_Modes Spec_Modes Spec_Passive Model_TRCWA Spec_TRCWA
  Proof_Smatrix Proof_FFT Proof_Modes Proof_Basis Proof_Basis2.
Import GRing.Theory.
Delimit Scope R_scope with coqR.
Local Open Scope ring_scope.

Definition adj {m} (A : 'M[C]_m) : 'M[C]_m := (map_mx Cconj A)^T.
Definition unitary {m} (A : 'M[C]_m) : Prop := adj A *m A = 1%:M.

Lemma unitary_unit {m} (A : 'M[C]_m) : unitary A -> A \in unitmx /\ invmx A = adj A.
Proof.
  move=> H. have [U1 U2] := mulmx1_unit H. split=> //.
  apply: (can_inj (mulmxK U2)). by rewrite mulVmx.
Qed.

Lemma conj0 : Cconj 0 = 0. Proof. apply: Ceq; rewrite /=; ring. Qed.

Lemma herm_unitary {m} (D : 'M[C]_m) (u v : 'cV[C]_m) : unitary D -> herm (D *m u) (D *m v) = herm u v.
Proof.
  have K : forall x y : 'cV[C]_m, herm x y = ((map_mx Cconj x)^T *m y) 0 0.
    move=> x y. rewrite mxE. apply: eq_bigr => i _. by rewrite !mxE.
  move=> H. rewrite !K. have -> : (map_mx Cconj (D *m u))^T = (map_mx Cconj u)^T *m adj D.
    apply/matrixP => i j. rewrite !mxE conj_sum. apply: eq_bigr => k _. by rewrite !mxE conj_mul mulrC.
  by rewrite -mulmxA (mulmxA (adj D)) H mul1mx.
Qed.

(** Fluxes as inner products *)
Lemma flux_herm {n} (a b : 'cV[C]_(n + n)) omega md A : Flux_A omega md = Ok A ->
  let pa := m_phi md *m a in let pb := m_phi md *m b in
  let d := half_C * (herm pb (A *m a) - herm (A *m b) pa) in
  GetZPoyntingFlux a b omega md = Ok (RtoC (Re (herm (A *m a) pa)) + d,
                                      RtoC (Ropp (Re (herm (A *m b) pb))) + Cconj d).
Proof.
  move=> E pa pb d. rewrite /GetZPoyntingFlux /GetZPoyntingFlux_byorder /Flux_xy E /=.
  have S : forall v : 'cV[C]_(n + n), \sum_i fold_pol v i 0 = \sum_i v i 0.
    move=> v. rewrite /fold_pol big_split_ord -big_split /=. apply: eq_bigr => i _. by rewrite !mxE.
  have DD : d = \sum_i (half_C * (Cconj (pb i 0) * (A *m a) i 0 - Cconj ((A *m b) i 0) * pa i 0)).
    by rewrite -mulr_sumr /d /herm -sumrB.
  rewrite !S. congr (Ok (_, _)).
  - rewrite DD /herm -Re_sum -big_split /=. apply: eq_bigr => i _. by rewrite !mxE.
  - rewrite DD conj_sum. have -> : RtoC (Ropp (Re (herm (A *m b) pb))) = \sum_i RtoC (Ropp (Re (Cconj ((A *m b) i 0) * pb i 0))).
      rewrite /herm. have T : forall z, RtoC (Ropp (Re z)) = - RtoC (Re z) by move=> z; apply: Ceq; rewrite /=; ring.
      rewrite T -Re_sum -sumrN. apply: eq_bigr => i _. by rewrite T.
    rewrite -big_split /=. apply: eq_bigr => i _. by rewrite !mxE.
Qed.

Lemma flux_unitary {n} (D : 'M[C]_(n + n)) (a b : 'cV[C]_(n + n)) omega md : unitary D ->
  rebased D md md (invmx D) ->
  GetZPoyntingFlux (D *m a) (D *m b) omega md = GetZPoyntingFlux a b omega md.
Proof.
  move=> UD [U [K [P Q]]]. have [UU _] := unitary_unit D UD.
  case E: (Flux_A omega md) => [A|e]; last by rewrite /GetZPoyntingFlux /GetZPoyntingFlux_byorder /Flux_xy E.
  have DP : m_phi md *m D = D *m m_phi md by rewrite {1}P mulmxKV.
  have DK : m_kp md *m D = D *m m_kp md by rewrite {1}K mulmxKV.
  have DA : A *m D = D *m A.
    move: E. rewrite /Flux_A /row_inv /bind. case: ifP => // _. case: eqP => // _ [<-].
    have -> : map_row (fun z => omega^-1 * z) (map_row (fun z => z^-1) (m_q md)) = map_row (fun z => omega^-1 * z^-1) (m_q md).
      by apply/rowP => j; rewrite !mxE.
    set f := fun z => _. have S := diag_swap (invmx D) f f _ _ Q (fun _ => erefl).
    have S' : diag_mx (map_row f (m_q md)) *m D = D *m diag_mx (map_row f (m_q md)).
      apply: (can_inj (mulKmx U)). rewrite mulmxA -S mulmxKV // mulKmx //.
    by rewrite -mulmxA S' mulmxA -(mulmxA (m_kp md)) DP !mulmxA DK.
  have F := flux_herm (D *m a) (D *m b) omega md A E. have F' := flux_herm a b omega md A E. cbv zeta in F, F'.
  rewrite F F'. by rewrite !(mulmxA A) !(mulmxA (m_phi md)) DA DP -!(mulmxA D) !herm_unitary.
Qed.

(** * The field bases considered *)
Section Sym.
Context {n : nat} (kx ky : 'rV[C]_n) (P : 'M[C]_n) (e1 e2 : C).
Hypothesis UP : unitary P.
Hypothesis Hx : P *m diag_mx kx = e1 *: (diag_mx kx *m P).
Hypothesis Hy : P *m diag_mx ky = e2 *: (diag_mx ky *m P).
Hypothesis S1 : e1 = 1 \/ e1 = -1.
Hypothesis S2 : e2 = 1 \/ e2 = -1.

Definition twist : 'M[C]_(n + n) := block_mx P 0 0 ((e1 * e2) *: P).

Lemma s_sq (e : C) : e = 1 \/ e = -1 -> e * e = 1.
Proof. by move=> [->|->]; rewrite ?mulr1 // mulrNN mulr1. Qed.
Lemma s_conj (e : C) : e = 1 \/ e = -1 -> Cconj e = e.
Proof. by move=> [->|->]; apply: Ceq; rewrite /=; ring. Qed.

Lemma twist_unitary : unitary twist.
Proof.
  have Q : (e1 * e2) * (e1 * e2) = 1 by rewrite mulrACA (s_sq e1 S1) (s_sq e2 S2) mulr1.
  rewrite /unitary /adj /twist map_block_mx tr_block_mx.
  have Z : map_mx Cconj (0 : 'M[C]_n) = 0 by apply/matrixP => i j; rewrite !mxE conj0.
  have Sc : (map_mx Cconj ((e1 * e2) *: P))^T = (e1 * e2) *: adj P.
    apply/matrixP => i j. by rewrite !mxE conj_mul conj_mul (s_conj e1 S1) (s_conj e2 S2).
  rewrite Z Sc mulmx_block !trmx0 !mul0mx !mulmx0 !addr0 !add0r -scalemxAl -scalemxAr scalerA Q scale1r -/(adj P) UP.
  by rewrite -scalar_mx_block.
Qed.

Lemma Hx' : diag_mx kx *m P = e1 *: (P *m diag_mx kx).
Proof. by rewrite Hx scalerA (s_sq e1 S1) scale1r. Qed.
Lemma Hy' : diag_mx ky *m P = e2 *: (P *m diag_mx ky).
Proof. by rewrite Hy scalerA (s_sq e2 S2) scale1r. Qed.

Lemma twist_J : twist *m Jk kx ky = e2 *: (Jk kx ky *m P).
Proof.
  rewrite /twist /Jk mul_block_col mul_col_mx !mul0mx addr0 add0r scale_col_mx.
  rewrite raddfN /= mulmxN mulNmx scalerN Hy -scalemxAl Hx scalerA mulrAC (s_sq e1 S1) mul1r. by [].
Qed.
Lemma J_twist : (Jk kx ky)^T *m twist = e2 *: (P *m (Jk kx ky)^T).
Proof.
  rewrite /twist /Jk tr_col_mx !tr_diag_mx mul_row_block mul_mx_row !mulmx0 addr0 add0r scale_row_mx.
  rewrite raddfN /= mulmxN mulNmx scalerN Hy' -scalemxAr Hx' scalerA mulrAC (s_sq e1 S1) mul1r. by [].
Qed.
Lemma twist_k : twist *m col_mx (diag_mx kx) (diag_mx ky) = e1 *: (col_mx (diag_mx kx) (diag_mx ky) *m P).
Proof.
  rewrite /twist mul_block_col mul_col_mx !mul0mx addr0 add0r scale_col_mx.
  by rewrite Hx -scalemxAl Hy scalerA -mulrA (s_sq e2 S2) mulr1.
Qed.
Lemma k_twist : (col_mx (diag_mx kx) (diag_mx ky))^T *m twist = e1 *: (P *m (col_mx (diag_mx kx) (diag_mx ky))^T).
Proof.
  rewrite /twist tr_col_mx !tr_diag_mx mul_row_block mul_mx_row !mulmx0 addr0 add0r scale_row_mx.
  by rewrite Hx' -scalemxAr Hy' scalerA -mulrA (s_sq e2 S2) mulr1.
Qed.

Lemma twist_kp omega (ei ei' : 'M[C]_n) : ei' *m P = P *m ei ->
  MakeKP_patterned omega ei' kx ky *m twist = twist *m MakeKP_patterned omega ei kx ky.
Proof.
  move=> H. rewrite /MakeKP_patterned mulmxBl mulmxBr mul_scalar_mx mul_mx_scalar. congr (_ - _).
  rewrite -!mulmxA J_twist !mulmxA twist_J -!scalemxAl -!scalemxAr. congr (_ *: _).
  by rewrite !mulmxA -(mulmxA _ ei') H !mulmxA.
Qed.

Lemma twist_kk : let k := col_mx (diag_mx kx) (diag_mx ky) in (k *m k^T) *m twist = twist *m (k *m k^T).
Proof.
  move=> k. rewrite -mulmxA k_twist mulmxA twist_k -scalemxAr -scalemxAl. by rewrite mulmxA.
Qed.

Lemma twist_ep (E E' : 'M[C]_n) : E' *m P = P *m E -> block_mx E' 0 0 E' *m twist = twist *m block_mx E 0 0 E.
Proof.
  move=> H. rewrite /twist !mulmx_block !mul0mx !mulmx0 !addr0 !add0r.
  by rewrite -scalemxAr -scalemxAl H.
Qed.

(** Modes of a patterned layer *)
Lemma twist_same (eig eig' : eig_oracle) omega (ei ei' E E' : 'M[C]_n) md md' :
  eigenbasis eig -> eigenbasis eig' -> ei' *m P = P *m ei -> E' *m P = P *m E ->
  m_kp md = MakeKP_patterned omega ei kx ky -> m_kp md' = MakeKP_patterned omega ei' kx ky ->
  Solve_patterned (eig _) kx ky (m_kp md) (block_mx E 0 0 E) = Ok (m_q md, m_phi md) ->
  Solve_patterned (eig' _) kx ky (m_kp md') (block_mx E' 0 0 E') = Ok (m_q md', m_phi md') ->
  same_layer twist md md'.
Proof.
  move=> He He' Hi HE K K'. rewrite /Solve_patterned /bind K K'.
  have [UD _] := unitary_unit _ twist_unitary. have HD := twist_kp omega ei ei' Hi.
  set A := _ - _ *m _. set A' := block_mx E' 0 0 E' *m _ - _.
  have HA : A' *m twist = twist *m A.
    rewrite /A /A' mulmxBl mulmxBr twist_kk. congr (_ - _).
    by rewrite -mulmxA HD !mulmxA (twist_ep E E' HE).
  move: twist UD HD HA => D UD HD HA.
  case E1: (eig _ A) => [[w V]|] // [Eq Ep]. case E1': (eig' _ A') => [[w' V']|] // [Eq' Ep'].
  have [B1 B2] := He _ _ _ _ E1. have [B1' B2'] := He' _ _ _ _ E1'.
  rewrite /= in Ep Eq Ep' Eq'. exists (invmx V *m (invmx D *m V')).
  split; first by rewrite !unitmx_mul !unitmx_inv B2 UD. split; first by rewrite K K' -HD mulmxK.
  split; first by rewrite -Ep -Ep' -mulmxA mulKVmx // mulKVmx.
  have DW : diag_mx w *m (invmx V *m (invmx D *m V')) = (invmx V *m (invmx D *m V')) *m diag_mx w'.
    apply: (can_inj (mulKmx B2)). rewrite [LHS]mulmxA -B1 -[LHS]mulmxA mulKVmx // -[invmx V *m _ *m _]mulmxA mulKVmx //.
    apply: (can_inj (mulKmx UD)). by rewrite mulmxA -HA -[LHS]mulmxA mulKVmx // B1' -[invmx D *m V' *m _]mulmxA mulKVmx.
  move: (invmx V *m (invmx D *m V')) DW => W DW i j N.
  move: (f_equal (fun A : 'M[C]_(n + n) => A i j) DW). rewrite mul_diag_mx mul_mx_diag 2!mxE mulrC.
  move/(mulfI N) => Ew. by rewrite -Eq -Eq' !mxE Ew.
Qed.

(** Uniform layers keep their modes. *)
Lemma twist_uniform omega c md : uniform_layer omega kx ky c = Ok md -> rebased twist md md (invmx twist).
Proof.
  rewrite /uniform_layer. case: eqP => // _ [<-]. have [UD ID] := unitary_unit _ twist_unitary.
  split; first by rewrite unitmx_inv. split=> /=.
    by rewrite -constant_kp -(twist_kp omega _ (c^-1)%:M) ?mulmxK // mul_scalar_mx mul_mx_scalar.
  split; first by rewrite mulmx1 mulmxV.
  have KK : forall i j, P i j != 0 -> kx 0 i ^+ 2 = kx 0 j ^+ 2 /\ ky 0 i ^+ 2 = ky 0 j ^+ 2.
    move=> i j N. move: (f_equal (fun A : 'M[C]_n => A i j) Hx) (f_equal (fun A : 'M[C]_n => A i j) Hy).
    rewrite !mul_mx_diag !mul_diag_mx !mxE => F1 F2.
    rewrite mulrCA mulrA [_ * P i j]mulrC in F1. move/(mulfI N): F1 => ->. 
    rewrite mulrCA mulrA [_ * P i j]mulrC in F2. move/(mulfI N): F2 => ->.
    by rewrite !exprMn [e1 ^+ 2]expr2 [e2 ^+ 2]expr2 (s_sq e1 S1) (s_sq e2 S2) ?mul1r ?mulr1.
  have Cn : forall z : C, Cconj z != 0 -> z != 0 by move=> z; apply: contra => /eqP ->; rewrite conj0.
  move=> i j. rewrite ID /adj /twist map_block_mx tr_block_mx.
  rewrite !mxE. case: (splitP i) => i' _; rewrite !mxE; case: (splitP j) => j' _; rewrite !mxE ?conj0 ?eqxx //.
  - move/Cn/KK => [-> ->]. by [].
  - move/Cn. rewrite mulf_eq0 negb_or => /andP [_ /KK [-> ->]]. by [].
Qed.
End Sym.
