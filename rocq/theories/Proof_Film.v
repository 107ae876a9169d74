(** Stacks of uniform layers at normal incidence. *)
From Coq Require Import Reals Lra Psatz ZArith String.
From mathcomp Require Import all_ssreflect all_algebra.
From Verif Require Import Base Cplx CplxLemmas CField Spec_Film Proof_FilmC Model_Modes Spec_Modes Model_TRCWA Spec_TRCWA Spec_Passive Proof_Sqrt
  Proof_Modes Proof_Smatrix Proof_FFT Proof_Passive Proof_Passive2 Proof_Passive3 Proof_Outer Proof_RT Proof_Init.
Import GRing.Theory.
Delimit Scope R_scope with coqR.
Delimit Scope Z_scope with coqZ.
Local Open Scope ring_scope.

(** * The orders of a uniform layer do not mix *)
Definition order_of {n} (i : 'I_(n + n)) : 'I_n := match split i with inl j => j | inr j => j end.
Definition proj {n} (k : 'I_n) (v : 'cV[C]_(n + n)) : 'cV[C]_(n + n) := \col_i (if order_of i == k then v i 0 else 0).

Lemma order_l {n} (j : 'I_n) : order_of (lshift n j) = j.
Proof. rewrite /order_of. by rewrite -[lshift n j]/(unsplit (inl j)) unsplitK. Qed.
Lemma order_r {n} (j : 'I_n) : order_of (rshift n j) = j.
Proof. rewrite /order_of. by rewrite -[rshift n j]/(unsplit (inr j)) unsplitK. Qed.

Lemma kp_apply {n} omega ei (kx ky : 'rV[C]_n) (w : 'cV[C]_(n + n)) k :
  let s := - ky 0 k * w (lshift n k) 0 + kx 0 k * w (rshift n k) 0 in
  (MakeKP_uniform omega ei kx ky *m w) (lshift n k) 0 = omega ^+ 2 * w (lshift n k) 0 - ei * (- ky 0 k * s)
  /\ (MakeKP_uniform omega ei kx ky *m w) (rshift n k) 0 = omega ^+ 2 * w (rshift n k) 0 - ei * (kx 0 k * s).
Proof.
  rewrite /MakeKP_uniform mulmxBl mul_scalar_mx -scalemxAl -mulmxA.
  have J : ((Jk kx ky)^T *m w) k 0 = - ky 0 k * w (lshift n k) 0 + kx 0 k * w (rshift n k) 0.
    by rewrite /Jk tr_col_mx !tr_diag -{1}[w]vsubmxK mul_row_col !mul_diag_mx !mxE.
  move: ((Jk kx ky)^T *m w) J => s J.
  have JL : (Jk kx ky *m s) (lshift n k) 0 = - ky 0 k * s k 0.
    by rewrite /Jk mul_col_mx col_mxEu mul_diag_mx !mxE.
  have JR : (Jk kx ky *m s) (rshift n k) 0 = kx 0 k * s k 0.
    by rewrite /Jk mul_col_mx col_mxEd mul_diag_mx !mxE.
  move: (Jk kx ky *m s) JL JR => r JL JR. by rewrite !mxE JL JR J.
Qed.

Lemma kp_proj {n} omega ei (kx ky : 'rV[C]_n) k (w : 'cV[C]_(n + n)) :
  MakeKP_uniform omega ei kx ky *m proj k w = proj k (MakeKP_uniform omega ei kx ky *m w).
Proof.
  apply/colP => i. rewrite [RHS]mxE -(splitK i). case: (split i) => j /=.
  - rewrite order_l. have [-> _] := kp_apply omega ei kx ky (proj k w) j. have [-> _] := kp_apply omega ei kx ky w j.
    rewrite !mxE order_l order_r. case: eqP => // _. by rewrite !mulr0 addr0 !mulr0 subr0.
  - rewrite order_r. have [_ ->] := kp_apply omega ei kx ky (proj k w) j. have [_ ->] := kp_apply omega ei kx ky w j.
    rewrite !mxE order_l order_r. case: eqP => // _. by rewrite !mulr0 addr0 !mulr0 subr0.
Qed.

Lemma proj_forward {n} k (q : 'rV[C]_(n + n)) z a : forward_wave q z (proj k a) = proj k (forward_wave q z a).
Proof. apply/colP => i. rewrite !mxE. case: ifP => // _. by rewrite mulr0. Qed.
Lemma proj_backward {n} k (q : 'rV[C]_(n + n)) t z a : backward_wave q t z (proj k a) = proj k (backward_wave q t z a).
Proof. apply/colP => i. rewrite !mxE. case: ifP => // _. by rewrite mulr0. Qed.
Lemma proj_add {n} k (a b : 'cV[C]_(n + n)) : proj k a + proj k b = proj k (a + b).
Proof. apply/colP => i. rewrite !mxE. case: ifP => // _. by rewrite addr0. Qed.

Lemma fields_proj {n} omega (kx ky : 'rV[C]_n) e md k t z (a b : 'cV[C]_(n + n)) :
  uniform_layer omega kx ky e = Ok md ->
  H_field md t z (proj k a) (proj k b) = proj k (H_field md t z a b)
  /\ E_field md t z (proj k a) (proj k b) = proj k (E_field md t z a b).
Proof.
  move=> /uniform_layer_ok [_ [_ [Ep Ek]]]. rewrite /H_field /E_field Ep Ek !mul1mx proj_forward proj_backward. split.
  - by rewrite proj_add.
  - rewrite -kp_proj. congr (_ *m _). apply/colP => i. rewrite !mxE. case: ifP => // _. by rewrite subrr mul0r.
Qed.

Lemma proj_in_order {n} (k : 'I_n) a : in_order k a -> proj k a = a.
Proof.
  move=> Ia. apply/colP => i. rewrite !mxE -(splitK i). case: (split i) => j /=.
  - rewrite order_l. case: eqP => // /eqP Hj. by have [-> _] := Ia j Hj.
  - rewrite order_r. case: eqP => // /eqP Hj. by have [_ ->] := Ia j Hj.
Qed.
Lemma in_order_proj {n} (k : 'I_n) a : proj k a = a -> in_order k a.
Proof.
  move=> <- j Hj. rewrite !mxE order_l order_r. by rewrite (negbTE Hj).
Qed.

(** * The scalar equations *)
Section Stack.
Context (x : excited) (k : 'I_(size (x_G x))) (es : nat -> C).
Let o := x_ready x.
Hypothesis Ho : s_omega o <> C0.
Hypothesis Nk : normal (s_kx o) (s_ky o) k.
Hypothesis Ik : in_order k (x_a0 x).
Hypothesis Zb : x_bN x = 0.
Hypothesis HU : forall l md, List.nth_error (s_modes o) l = Some (Some md) ->
  uniform_layer (s_omega o) (s_kx o) (s_ky o) (es l) = Ok md.
Context (aN b0 : 'cV[C]_(size (x_G x) + size (x_G x))).
Hypothesis HS : SolveExterior (x_a0 x) (x_bN x) (s_modes o) (s_thick o) = Ok (aN, b0).
Hypothesis Hq0 : forall md, List.nth_error (s_modes o) 0 = Some (Some md) -> propagating (m_q md).
Let N := (size (s_thick o)).-1.

Lemma one_order : in_order k aN /\ in_order k b0.
Proof.
  have [[a [b [A0 [BN [AN [B0 Cn]]]]]] Uq] := exterior_solved _ _ _ _ _ _ Hq0 HS. rewrite -/N in BN AN Cn Uq.
  have [E1 E2] : proj k (a N) = aN /\ proj k (b 0%N) = b0.
    apply: (Uq (fun l => proj k (a l)) (fun l => proj k (b l))).
    - move=> l Hl md t md' t' L1 L2. have [C1 C2] := Cn l Hl md t md' t' L1 L2.
      have [P1 P2] := fields_proj _ _ _ _ _ k t t (a l) (b l) (HU _ _ L1.1).
      have [Q1 Q2] := fields_proj _ _ _ _ _ k t' 0 (a l.+1) (b l.+1) (HU _ _ L2.1).
      by rewrite P1 P2 Q1 Q2 C1 C2.
    - by rewrite A0 proj_in_order.
    - rewrite BN Zb. apply/colP => i. rewrite !mxE. by case: ifP.
  split; apply: in_order_proj.
  - by rewrite AN in E1.
  - by rewrite B0 in E2.
Qed.

Lemma E_normal_field omega (kx ky : 'rV[C]_(size (x_G x))) e md t z a b s :
  uniform_layer omega kx ky e = Ok md -> normal kx ky k -> order_of s = k ->
  E_field md t z a b s 0 = omega ^+ 2 * ((forward_wave (m_q md) z a - backward_wave (m_q md) t z b) s 0 / m_q md 0 s)
  /\ m_q md 0 s = m_q md 0 (lshift _ k)
  /\ mode_root (Cmul (Cmul e omega) omega) (m_q md 0 (lshift _ k)).
Proof.
  move=> /uniform_layer_ok [_ [Eq [Ep Ek]]] [Zx Zy] Hs.
  have [Um _] := uniform_modes omega e kx ky. have [Q Q'] := Um k. rewrite -Eq in Q Q'.
  have Q2 : mode_root (Cmul (Cmul e omega) omega) (m_q md 0 (lshift _ k)).
    move: Q. rewrite Zx Zy. match goal with |- mode_root ?a _ -> mode_root ?b _ => replace a with b; [by []|] end. rewrite ?C_0E. ring.
  rewrite /E_field Ep Ek mul1mx. set w := \col_j _.
  have -> : (forward_wave (m_q md) z a - backward_wave (m_q md) t z b) s 0 / m_q md 0 s = w s 0 by rewrite [RHS]mxE.
  move: w Hs => w. rewrite -(splitK s). case: (split s) => j /=; rewrite ?order_l ?order_r => ->; split=> //.
  - have [-> _] := kp_apply omega (e^-1) kx ky w k. by rewrite Zx Zy oppr0 !mul0r ?addr0 ?mulr0 subr0.
  - have [_ ->] := kp_apply omega (e^-1) kx ky w k. by rewrite Zx Zy oppr0 !mul0r ?addr0 ?mulr0 subr0.
Qed.

Definition index_at l : C := match List.nth_error (s_modes o) l with
  Some (Some md) => Cdiv (m_q md 0 (lshift _ k)) (s_omega o) | _ => C0 end.
Definition thick_at l : R := List.nth l (s_thick o) 0%coqR.

Lemma index_at_ok l md : List.nth_error (s_modes o) l = Some (Some md) ->
  Cmul (index_at l) (s_omega o) = m_q md 0 (lshift _ k).
Proof. move=> E. rewrite /index_at E. field. exact: Ho. Qed.

Lemma index_index l md : List.nth_error (s_modes o) l = Some (Some md) -> index_of (s_omega o) (es l) (index_at l).
Proof.
  move=> E. have [_ [_ [R1 [R2 _]]]] := E_normal_field _ _ _ _ _ 0 0 0 0 (lshift _ k) (HU _ _ E) Nk (order_l k).
  have Q := index_at_ok _ _ E. split; last by rewrite Q.
  rewrite -Q in R1. have Ho' := Ho. 
  transitivity (Cdiv (Cmul (Cmul (index_at l) (s_omega o)) (Cmul (index_at l) (s_omega o))) (Cmul (s_omega o) (s_omega o))); first by field.
  rewrite R1. by field.
Qed.

Lemma stack_interface a b l s md t md' t' : order_of s = k ->
  layer_is (s_modes o) (s_thick o) l md t -> layer_is (s_modes o) (s_thick o) l.+1 md' t' ->
  propagating (m_q md) -> propagating (m_q md') ->
  continuous (s_modes o) (s_thick o) a b l ->
  interface (s_omega o) (fun l => a l s 0) (fun l => b l s 0) index_at thick_at l.
Proof.
  move=> Hs L1 L2 P1 P2 Cn. have [C1 C2] := Cn _ _ _ _ L1 L2.
  have [E1 [Q1 _]] := E_normal_field _ _ _ _ _ t t (a l) (b l) s (HU _ _ L1.1) Nk Hs.
  have [E2 [Q2 _]] := E_normal_field _ _ _ _ _ t' 0 (a l.+1) (b l.+1) s (HU _ _ L2.1) Nk Hs.
  have {C1} C1 := f_equal (fun v : 'cV[C]_(size (x_G x) + size (x_G x)) => v s 0) C1.
  have {C2} C2 := f_equal (fun v : 'cV[C]_(size (x_G x) + size (x_G x)) => v s 0) C2.
  cbv beta in C1, C2. rewrite E1 E2 in C2.
  have [_ [_ [Ep1 _]]] := uniform_layer_ok _ _ _ _ _ (HU _ _ L1.1).
  have [_ [_ [Ep2 _]]] := uniform_layer_ok _ _ _ _ _ (HU _ _ L2.1).
  rewrite /H_field Ep1 Ep2 !mul1mx in C1.
  have I1 := index_at_ok _ _ L1.1. have I2 := index_at_ok _ _ L2.1.
  have T1 : thick_at l = t by exact: List.nth_error_nth L1.2.
  have T2 : thick_at l.+1 = t' by exact: List.nth_error_nth L2.2.
  have F1 : forward_wave (m_q md) t (a l) s 0 = Cmul (a l s 0) (film_phase (s_omega o) (index_at l) (thick_at l)).
    rewrite mxE /film_phase I1 T1 Q1 ?C_mulE. ring.
  have B1 : backward_wave (m_q md) t t (b l) s 0 = b l s 0 by rewrite backward_end.
  have F2 : forward_wave (m_q md') 0 (a l.+1) s 0 = a l.+1 s 0 by rewrite forward_0.
  have B2 : backward_wave (m_q md') t' 0 (b l.+1) s 0 = Cmul (b l.+1 s 0) (film_phase (s_omega o) (index_at l.+1) (thick_at l.+1)).
    rewrite mxE /film_phase I2 T2 Q2 ?C_mulE Rminus_0_r. ring.
  have N1 : m_q md 0 s <> C0 by apply: P1. have N2 : m_q md' 0 s <> C0 by apply: P2.
  move: C1 C2 F1 B1 F2 B2. move: (forward_wave (m_q md) t (a l)) (backward_wave (m_q md) t t (b l)) => f1 b1.
  move: (forward_wave (m_q md') 0 (a l.+1)) (backward_wave (m_q md') t' 0 (b l.+1)) => f2 b2 C1 C2 F1 B1 F2 B2.
  move: C1 C2. rewrite !mxE F1 B1 F2 B2 Q1 Q2 -I1 -I2. rewrite Q1 -I1 in N1. rewrite Q2 -I2 in N2.
  set d := film_phase _ (index_at l) _. set d' := film_phase _ (index_at l.+1) _.
  rewrite ?C_addE ?C_oppE ?C_mulE ?C_invE => C1 C2. rewrite /interface -/d -/d'. split=> //.
  move: C2. rewrite expr2 ?C_mulE. have Ho' := Ho.
  have M1 : index_at l <> C0 by move=> Z; apply: N1; rewrite Z; ring.
  have M2 : index_at l.+1 <> C0 by move=> Z; apply: N2; rewrite Z; ring.
  move: (a l s 0) (b l s 0) (a l.+1 s 0) (b l.+1 s 0) (index_at l) (index_at l.+1) (s_omega o) M1 M2 Ho' {N1 N2 C1} => A B A' B' n n' w M1 M2 Ho' C2.
  transitivity (Cmul (Cdiv (Cmul n n') w) (Cmul (Cmul w w) (Cmul (Cadd (Cmul A d) (Copp B)) (Cinv (Cmul n w))))); first by field.
  rewrite C2. by field.
Qed.

Lemma stack_film : (0 < N)%N -> (exists s, order_of s = k /\ x_a0 x s 0 <> C0) ->
  let '(X, D, P) := film (s_omega o) (index_at 0) (List.map (fun l => (index_at l, thick_at l)) (List.seq 1 N.-1)) (index_at N) in
  D <> C0 /\ forall s, order_of s = k ->
    b0 s 0 = Cmul (Cdiv X D) (Cmul (x_a0 x s 0) (film_phase (s_omega o) (index_at 0) (thick_at 0)))
    /\ aN s 0 = Cmul (Cdiv P D) (Cmul (x_a0 x s 0) (film_phase (s_omega o) (index_at 0) (thick_at 0))).
Proof.
  move=> HN [s0 [Hs0 Ns0]].
  have [[a [b [A0 [BN [AN [B0 Cn]]]]]] _] := exterior_solved _ _ _ _ _ _ Hq0 HS. rewrite -/N in BN AN Cn.
  have [M EM] : exists M, GetSMatrix 0 N (s_modes o) (s_thick o) = Ok M.
    move: HS. rewrite /SolveExterior -/N /bind. case: (GetSMatrix _ _ _ _) => [M|] // _. by exists M.
  have [Lx Lp] := smatrix_layers _ _ _ _ HN EM.
  have Pr : forall l md th, (l <= N)%N -> layer_is (s_modes o) (s_thick o) l md th -> propagating (m_q md).
    move=> [|l] md th Hl Hi; first by apply: Hq0; case: Hi.
    exact: Lp Hi.
  have Idx : forall l, (l <= N)%N -> index_at l <> C0.
    move=> l Hl Z. have [md [t Li]] := Lx l Hl. have := index_at_ok _ _ Li.1. rewrite Z => E.
    apply: (Pr l md t Hl Li (lshift _ k)). rewrite -E. ring.
  have Sound : forall s, order_of s = k ->
    let '(X, D, P) := film (s_omega o) (index_at 0) (List.map (fun l => (index_at l, thick_at l)) (List.seq 1 N.-1)) (index_at N) in
    Cmul P (Cmul (x_a0 x s 0) (film_phase (s_omega o) (index_at 0) (thick_at 0))) = Cmul D (aN s 0) /\ Cmul P (b0 s 0) = Cmul X (aN s 0).
    move=> s Hs. have := film_sound (s_omega o) (fun l => a l s 0) (fun l => b l s 0) index_at thick_at N.-1 0.
    have -> : (0 + N.-1 + 1)%coq_nat = N by rewrite plusE add0n addn1 prednK.
    rewrite A0 AN B0 BN Zb. apply; last by rewrite mxE.
    move=> l [_ /leP Hl]. rewrite plusE add0n in Hl.
    have Hl1 : (l < N)%N by apply: leq_ltn_trans Hl _; rewrite prednK.
    have [md [t L1]] := Lx l (ltnW Hl1). have [md' [t' L2]] := Lx l.+1 Hl1.
    apply: (stack_interface a b l s md t md' t') => //; [exact: Pr (ltnW Hl1) L1 | exact: Pr Hl1 L2 | exact: Cn].
  have HP := film_P (s_omega o) (index_at N) (Idx N (leqnn N)) (List.map (fun l => (index_at l, thick_at l)) (List.seq 1 N.-1)) (index_at 0).
  have HD := film_den (s_omega o) (index_at 0) (List.map (fun l => (index_at l, thick_at l)) (List.seq 1 N.-1)) (index_at N)
     (aN s0 0) (Cmul (x_a0 x s0 0) (film_phase (s_omega o) (index_at 0) (thick_at 0))).
  have S0 := Sound s0 Hs0.
  case: (film _ _ _ _) HP HD S0 Sound => [[X D] P] /= HP HD [S1 S2] Sound.
  have {}HP : P <> C0.
    apply: HP => n' t Hin. have [l [El Hl]] := (List.in_map_iff _ _ _).1 Hin. case: El => <- _.
    apply: Idx. have [_ Hl2] := (List.in_seq _ _ _).1 Hl. move: Hl2. rewrite plusE add1n prednK // => /ltP Hl2. exact: ltnW.
  have {}HD : D <> C0.
    apply: HD => //. apply: Cmul_neq_0 => //. exact: Cexp_neq_0.
  split=> // s Hs. have [H1 H2] := Sound s Hs. exact: film_ratio.
Qed.
End Stack.

(** * Reflection and transmission *)
Lemma forward_start {m} (q : 'rV[C]_m) a : forward_wave q 0 a = a.
Proof. exact: forward_0. Qed.

Lemma one_order_power {n} omega (kx ky : 'rV[C]_n) (e : R) md k (v : 'cV[C]_(n + n)) :
  uniform_layer omega kx ky (RtoC e) = Ok md -> normal kx ky k -> (0 < e)%coqR -> omega <> C0 ->
  (0 <= Re omega)%coqR -> (0 <= Im omega)%coqR -> in_order k v ->
  power (E_at omega md v 0) (H_at md v 0) = ((Cnorm2 (v (lshift n k) 0%R) + Cnorm2 (v (rshift n k) 0%R)) / sqrt e)%coqR.
Proof.
  move=> U Nk He Ho A B Iv. have := normal_incident omega kx ky e md k U Nk He Ho A B v 0%coqR Iv.
  rewrite forward_start !Rmult_0_r Ropp_0 exp_0 => ->. by rewrite Rmult_1_l.
Qed.

Lemma phase_norm omega (n t : R) : Cnorm2 (film_phase omega (RtoC n) t) = exp (- (2 * n * Im omega * t))%coqR.
Proof.
  rewrite /film_phase Cexp_norm2 -exp_plus. congr exp. move: omega => [x y] /=. ring.
Qed.

Lemma rt_film (x : excited) (e0 eN : R) (k : 'I_(size (x_G x))) (es : nat -> C) r t (t0 : R) :
  lit (x_ready x) e0 eN k (x_a0 x) -> x_direction x = "forward"%string -> x_bN x = 0 ->
  RT_Solve false x = Ok (r, t) -> List.nth_error (s_thick (x_ready x)) 0 = Some t0 ->
  (forall l md, List.nth_error (s_modes (x_ready x)) l = Some (Some md) ->
     uniform_layer (s_omega (x_ready x)) (s_kx (x_ready x)) (s_ky (x_ready x)) (es l) = Ok md) ->
  x_a0 x (lshift _ k) 0 <> C0 -> x_a0 x (rshift _ k) 0 = C0 ->
  let loss := (exp (- (2 * sqrt e0 * Im (s_omega (x_ready x)) * t0)) * Cnorm2 (x_a0 x (lshift _ k) 0%R))%coqR in
  exists l, size l = (size (s_modes (x_ready x))).-2
  /\ (forall i p, List.nth_error l i = Some p -> index_of (s_omega (x_ready x)) (es i.+1) p.1
        /\ List.nth_error (s_thick (x_ready x)) i.+1 = Some p.2)
  /\ let '(X, D, P) := film (s_omega (x_ready x)) (RtoC (sqrt e0)) l (RtoC (sqrt eN)) in
     D <> C0 /\ r = RtoC (loss * Cnorm2 (Cdiv X D) / sqrt e0)%coqR
     /\ t = RtoC (loss * Cnorm2 (Cdiv P D) / sqrt eN)%coqR.
Proof.
  move=> [Ho HRe HIm Rx Ry Nk Iw P0 PN [m0' [F1 F2]] [mN' [F3 F4]] [S1 S2]] Dir Zb HRT Ht0 HU A1 A2 loss.
  have [aN [b0 [m0 [mN [f1 [g1 [f2 [g2 [E1 [E2 [E3 [E4 [E5 E6]]]]]]]]]]]]] := RT_forward x false r t HRT Dir.
  have {F1} Em0 : m0' = m0 by rewrite E2 in F1; case: F1. subst m0'.
  have {F3} EmN : mN' = mN by rewrite E3 in F3; case: F3. subst mN'.
  have Pr0 := flux_propagating _ _ _ _ _ _ E4.
  have Hq0 : forall md, List.nth_error (s_modes (x_ready x)) 0 = Some (Some md) -> propagating (m_q md).
    move=> md. rewrite E2 => -[<-]. exact: Pr0.
  have [IaN Ib0] := one_order x k es Iw Zb HU aN b0 E1 Hq0.
  have G1 := normal_backward (s_omega (x_ready x)) (s_kx (x_ready x)) (s_ky (x_ready x)) e0 m0 k F2 Nk P0 Ho HRe HIm (x_a0 x) b0 f1 g1 Iw E4.
  have E5' := E5. rewrite Zb in E5'. have [G2 _] := (flux_one_way _ _ _ _ _).1 E5'.
  rewrite (one_order_power _ _ _ _ _ k b0 F2 Nk P0 Ho HRe HIm Ib0) in G1.
  rewrite (one_order_power _ _ _ _ _ k aN F4 Nk PN Ho HRe HIm IaN) in G2.
  set N := (size (s_modes (x_ready x))).-1 in E3 F4 *.
  have HN : (0 < N)%N by rewrite /N; case: (size (s_modes (x_ready x))) S2 => // -[].
  have EN : (size (s_thick (x_ready x))).-1 = N by rewrite S1.
  have HN' : (0 < (size (s_thick (x_ready x))).-1)%N by rewrite EN.
  have Ex : exists s, order_of s = k /\ x_a0 x s 0 <> C0 by exists (lshift _ k); rewrite order_l.
  have := stack_film x k es Ho Nk Zb HU aN b0 E1 Hq0 HN' Ex. rewrite EN.
  have [Q0 _] := normal_root _ _ _ _ _ k F2 Nk P0 HRe HIm. have [QN _] := normal_root _ _ _ _ _ k F4 Nk PN HRe HIm.
  have X0 : index_at x k 0 = RtoC (sqrt e0).
    rewrite /index_at E2 Q0 ?C_mulE. by field.
  have XN : index_at x k N = RtoC (sqrt eN).
    rewrite /index_at E3 QN ?C_mulE. by field.
  have T0 : thick_at x 0 = t0 by exact: List.nth_error_nth Ht0.
  rewrite X0 XN T0. set l := List.map _ _ => HF. exists l.
  have Sl : size l = N.-1 by rewrite /l; elim: (N.-1) 1%N => //= n IH s; rewrite IH.
  split=> //. split.
  - move=> i p Hp. have Hi := nth_error_size _ _ _ Hp. rewrite Sl in Hi.
    have Hi1 : (i.+1 <= N)%N by rewrite -(prednK HN) ltnW.
    have Ep : p = (index_at x k i.+1, thick_at x i.+1).
      move: Hp. rewrite /l List.nth_error_map. have -> : List.nth_error (List.seq 1 N.-1) i = Some i.+1.
        have Hi' : (i < List.length (List.seq 1 N.-1))%coq_nat by rewrite List.seq_length; exact/ltP.
        rewrite (List.nth_error_nth' _ 0%N Hi') List.seq_nth //. exact/ltP.
      by move=> [<-].
    have [M EM] : exists M, GetSMatrix 0 N (s_modes (x_ready x)) (s_thick (x_ready x)) = Ok M.
      move: E1. rewrite /SolveExterior EN /bind. case: (GetSMatrix _ _ _ _) => [M|] // _. by exists M.
    have [Lx _] := smatrix_layers _ _ _ _ HN EM. have [md [th Li]] := Lx i.+1 Hi1.
    rewrite Ep /=. split; first exact: (index_index x k es Ho Nk HU _ _ Li.1).
    have := Li.2. rewrite /= => ->. by rewrite /thick_at (List.nth_error_nth _ _ _ Li.2).
  - case: (film _ _ _ _) HF => [[X D] P] [HD HF]. split=> //.
    have [B1 W1] := HF (lshift _ k) (order_l k). have [B2 W2] := HF (rshift _ k) (order_r k).
    case: E6 => -> ->. rewrite G1 G2 B1 B2 W1 W2 A2 !Cnorm2_mul phase_norm /loss /=.
    have Z : Cnorm2 C0 = 0%coqR by rewrite /Cnorm2 /=; ring.
    have Sp0 := sqrt_lt_R0 _ P0. have SpN := sqrt_lt_R0 _ PN.
    rewrite Z. split; congr RtoC; field; lra.
Qed.
