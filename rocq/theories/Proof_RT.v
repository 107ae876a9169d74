(** Reflection and transmission of a stack between two uniform media. *)
From Coq Require Import Reals Lra Psatz ZArith String.
From mathcomp Require Import all_ssreflect all_algebra.
From Verif Require Import Base Cplx CplxLemmas CField Model_Modes Spec_Modes Proof_Sqrt Proof_Smatrix Proof_Modes
  Spec_Passive Proof_Passive Proof_Passive2 Proof_Passive3 Proof_Outer Model_TRCWA.
Import GRing.Theory.
Delimit Scope R_scope with coqR.
Local Open Scope ring_scope.

(** * The fields of a uniform medium, order by order *)
Lemma E_at_uniform {n} omega (kx ky : 'rV[C]_n) (e : R) md (v : 'cV[C]_(n + n)) k :
  uniform_layer omega kx ky (RtoC e) = Ok md ->
  E_at omega md v 0 (lshift n k) 0
    = order_Ex omega (m_q md 0 (lshift n k)) (kx 0 k) (ky 0 k) (v (lshift n k) 0) (v (rshift n k) 0) e
  /\ E_at omega md v 0 (rshift n k) 0
    = order_Ey omega (m_q md 0 (lshift n k)) (kx 0 k) (ky 0 k) (v (lshift n k) 0) (v (rshift n k) 0) e.
Proof.
  move=> /uniform_layer_ok [He [Eq [Ep Ek]]].
  have [U _] := uniform_modes omega (RtoC e) kx ky. have [_ Q] := U k. rewrite -Eq in Q.
  rewrite /E_at Ep Ek mul1mx /MakeKP_uniform mulmxBl mul_scalar_mx -scalemxAl -mulmxA.
  set w := \col_j _.
  have W1 : w (lshift n k) 0 = v (lshift n k) 0 / (omega * m_q md 0 (lshift n k)) by rewrite !mxE subr0.
  have W2 : w (rshift n k) 0 = v (rshift n k) 0 / (omega * m_q md 0 (lshift n k)) by rewrite !mxE subr0 Q.
  move: w W1 W2 => w W1 W2.
  have J : ((Jk kx ky)^T *m w) k 0 = - ky 0 k * w (lshift n k) 0 + kx 0 k * w (rshift n k) 0.
    by rewrite /Jk tr_col_mx !tr_diag -{1}[w]vsubmxK mul_row_col !mul_diag_mx !mxE.
  move: ((Jk kx ky)^T *m w) J => s J.
  have JL : (Jk kx ky *m s) (lshift n k) 0 = - ky 0 k * s k 0.
    by rewrite /Jk mul_col_mx col_mxEu mul_diag_mx !mxE.
  have JR : (Jk kx ky *m s) (rshift n k) 0 = kx 0 k * s k 0.
    by rewrite /Jk mul_col_mx col_mxEd mul_diag_mx !mxE.
  move: (Jk kx ky *m s) JL JR => r JL JR. split.
  - rewrite !mxE JL J W1 W2 expr2. rewrite /order_Ex /Cdiv ?C_invE; cring.
  - rewrite !mxE JR J W1 W2 expr2. rewrite /order_Ey /Cdiv ?C_invE; cring.
Qed.

Lemma uniform_root {n} omega (kx ky : 'rV[C]_n) (e : R) md k :
  uniform_layer omega kx ky (RtoC e) = Ok md -> real_row kx -> real_row ky ->
  kx 0 k = RtoC (Re (kx 0 k)) /\ ky 0 k = RtoC (Re (ky 0 k))
  /\ mode_root (Csub (Csub (Cmul (Cmul (RtoC e) omega) omega) (Cmul (RtoC (Re (kx 0 k))) (RtoC (Re (kx 0 k)))))
                     (Cmul (RtoC (Re (ky 0 k))) (RtoC (Re (ky 0 k))))) (m_q md 0 (lshift n k)).
Proof.
  move=> /uniform_layer_ok [He [Eq _]] Rx Ry.
  have [U _] := uniform_modes omega (RtoC e) kx ky. have [Q _] := U k. rewrite -Eq in Q.
  have Ex : kx 0 k = RtoC (Re (kx 0 k)) by apply: Ceq => //=; exact: Rx.
  have Ey : ky 0 k = RtoC (Re (ky 0 k)) by apply: Ceq => //=; exact: Ry.
  split=> //. split=> //. rewrite -Ex -Ey. move: Q. rewrite ?C_addE ?C_oppE ?C_mulE.
  match goal with |- mode_root ?a _ -> mode_root ?b _ => replace a with b; [by []|ring] end.
Qed.

Lemma power_orders {n} (E H : 'cV[C]_(n + n)) :
  power E H = Re (\sum_k (Cconj (E (lshift n k) 0) * H (lshift n k) 0 + Cconj (E (rshift n k) 0) * H (rshift n k) 0)).
Proof. by rewrite /power big_split_ord -big_split. Qed.

Lemma Re_sum_nonneg (I : Type) (r : seq I) (F : I -> C) :
  (forall i, (0 <= Re (F i))%coqR) -> (0 <= Re (\sum_(i <- r) F i))%coqR.
Proof.
  move=> H. elim: r => [|x r IH]; first by rewrite big_nil; exact: Rle_refl.
  rewrite big_cons. have := H x. change (Re (F x + \sum_(j <- r) F j)%R) with (Rplus (Re (F x)) (Re (\sum_(j <- r) F j))). lra.
Qed.

(** What flows away from the stack through a transparent medium is not negative,
    order by order. *)
Lemma outgoing_order {n} omega (kx ky : 'rV[C]_n) (e : R) md (v : 'cV[C]_(n + n)) k :
  uniform_layer omega kx ky (RtoC e) = Ok md -> real_row kx -> real_row ky -> propagating (m_q md) ->
  (0 < e)%coqR -> omega <> C0 -> (0 <= Re omega)%coqR -> (0 <= Im omega)%coqR ->
  (0 <= Re (Cconj (E_at omega md v 0 (lshift n k) 0) * H_at md v 0 (lshift n k) 0
          + Cconj (E_at omega md v 0 (rshift n k) 0) * H_at md v 0 (rshift n k) 0)%R)%coqR.
Proof.
  move=> U Rx Ry Pr He Ho A B.
  have [E1 E2] := E_at_uniform omega kx ky e md v k U.
  have [Ex [Ey [Q1 [Q2 Q3]]]] := uniform_root omega kx ky e md k U Rx Ry.
  have [_ [_ [Ep _]]] := uniform_layer_ok _ _ _ _ _ U.
  rewrite E1 E2 /H_at Ep mul1mx addr0 Ex Ey.
  have [_ Qd] := root_quadrant _ _ _ _ _ He A B Q1 Q2 Q3.
  exact: (order_flux_nonneg omega _ (v (lshift n k) 0) (v (rshift n k) 0) _ _ e Ho (Pr _) He Qd Q1).
Qed.

Lemma outgoing_power {n} omega (kx ky : 'rV[C]_n) (e : R) md (v : 'cV[C]_(n + n)) :
  uniform_layer omega kx ky (RtoC e) = Ok md -> real_row kx -> real_row ky -> propagating (m_q md) ->
  (0 < e)%coqR -> omega <> C0 -> (0 <= Re omega)%coqR -> (0 <= Im omega)%coqR ->
  (0 <= power (E_at omega md v 0) (H_at md v 0))%coqR.
Proof.
  move=> *. rewrite power_orders. apply: Re_sum_nonneg => k. exact: (outgoing_order omega kx ky e md v k).
Qed.

(** * A wave of normal incidence *)
Lemma normal_root {n} omega (kx ky : 'rV[C]_n) (e : R) md k :
  uniform_layer omega kx ky (RtoC e) = Ok md -> normal kx ky k ->
  (0 < e)%coqR -> (0 <= Re omega)%coqR -> (0 <= Im omega)%coqR ->
  m_q md 0 (lshift n k) = RtoC (sqrt e) * omega /\ m_q md 0 (rshift n k) = RtoC (sqrt e) * omega.
Proof.
  move=> /uniform_layer_ok [_ [Eq _]] [Nx Ny] He A B.
  have [U _] := uniform_modes omega (RtoC e) kx ky. have [Q Q'] := U k. rewrite -Eq in Q Q'.
  rewrite Q'. suff : m_q md 0 (lshift n k) = RtoC (sqrt e) * omega by [].
  have S : (sqrt e * sqrt e = e)%coqR by apply: sqrt_sqrt; lra. have Sp := sqrt_lt_R0 _ He.
  apply: (mode_root_unique _ _ _ Q). rewrite Nx Ny ?mulr0 ?subr0. split.
  - rewrite ?C_mulE. move: omega {Q Q' U Eq A B} => [a b]. rewrite -{3}S. apply: Ceq; rewrite /=; ring.
  - rewrite ?C_mulE. move: omega {Q Q' U Eq} A B => [a b] /= A B.
    rewrite !Rmult_0_l Rplus_0_r Rminus_0_r. split=> *; exact: Rmult_le_pos (Rlt_le _ _ Sp) _.
Qed.

Lemma E_normal {n} omega (kx ky : 'rV[C]_n) (e : R) md (v : 'cV[C]_(n + n)) k :
  uniform_layer omega kx ky (RtoC e) = Ok md -> normal kx ky k ->
  (0 < e)%coqR -> omega <> C0 -> (0 <= Re omega)%coqR -> (0 <= Im omega)%coqR ->
  E_at omega md v 0 (lshift n k) 0 = RtoC (/ sqrt e)%coqR * v (lshift n k) 0
  /\ E_at omega md v 0 (rshift n k) 0 = RtoC (/ sqrt e)%coqR * v (rshift n k) 0.
Proof.
  move=> U Nk He Ho A B. have [-> ->] := E_at_uniform omega kx ky e md v k U.
  have [-> _] := normal_root omega kx ky e md k U Nk He A B. case: Nk => -> ->.
  have Sp := sqrt_lt_R0 _ He.
  have -> : RtoC (/ sqrt e)%coqR = Cinv (RtoC (sqrt e)) by apply: Ceq; rewrite /RtoC /Cinv /Cnorm2 /=; field; lra.
  have Sn : RtoC (sqrt e) <> C0 by move=> /(f_equal fst) /=; lra.
  have En : RtoC e <> C0 by move=> /(f_equal fst) /=; lra.
  rewrite /order_Ex /order_Ey ?C_mulE ?C_0E. by split; field.
Qed.

Lemma E_order_zero {n} omega (kx ky : 'rV[C]_n) (e : R) md (v : 'cV[C]_(n + n)) k :
  uniform_layer omega kx ky (RtoC e) = Ok md ->
  v (lshift n k) 0 = 0 -> v (rshift n k) 0 = 0 ->
  E_at omega md v 0 (lshift n k) 0 = 0 /\ E_at omega md v 0 (rshift n k) 0 = 0.
Proof.
  move=> U V1 V2. have [-> ->] := E_at_uniform omega kx ky e md v k U. rewrite V1 V2.
  rewrite /order_Ex /order_Ey /Cdiv ?C_0E. split; ring.
Qed.

Lemma E_at_linear {m} omega (md : mode m) (a b : 'cV[C]_m) : E_at omega md a b = E_at omega md a 0 - E_at omega md b 0.
Proof.
  rewrite /E_at -!mulmxBr. congr (_ *m (_ *m _)). apply/colP => j. rewrite !mxE !subr0. by rewrite mulrBl.
Qed.

(** Incoming wave [a] of normal incidence: the fluxes of [a] and of any outgoing
    wave [b] do not interfere. *)
Section Normal.
Context {n : nat} (omega : C) (kx ky : 'rV[C]_n) (e : R) (md : mode (n + n)) (k : 'I_n).
Hypothesis U : uniform_layer omega kx ky (RtoC e) = Ok md.
Hypothesis Nk : normal kx ky k.
Hypothesis He : (0 < e)%coqR.
Hypothesis Ho : omega <> C0.
Hypothesis A : (0 <= Re omega)%coqR.
Hypothesis B : (0 <= Im omega)%coqR.

Lemma cross_zero (a b : 'cV[C]_(n + n)) j : in_order k a ->
  let Ea := E_at omega md a 0 in let Eb := E_at omega md b 0 in
  Re (Cconj (Ea j 0) * b j 0 - Cconj (Eb j 0) * a j 0)%R = 0%coqR
  /\ Re (Cconj (b j 0) * Ea j 0 - Cconj (Eb j 0) * a j 0)%R = 0%coqR.
Proof.
  move=> Ia Ea Eb.
  have K : (exists c : R, Ea j 0 = RtoC c * a j 0 /\ Eb j 0 = RtoC c * b j 0) \/ (Ea j 0 = 0 /\ a j 0 = 0).
    rewrite -(splitK j). case: (split j) => i /=.
    - case: (eqVneq i k) => [->|Hi].
      + left. exists (/ sqrt e)%coqR. by split; [have [E _] := E_normal omega kx ky e md a k U Nk He Ho A B
           | have [E _] := E_normal omega kx ky e md b k U Nk He Ho A B].
      + right. have [Z1 Z2] := Ia i Hi. split=> //. by have [] := E_order_zero omega kx ky e md a i U Z1 Z2.
    - case: (eqVneq i k) => [->|Hi].
      + left. exists (/ sqrt e)%coqR. by split; [have [_ E] := E_normal omega kx ky e md a k U Nk He Ho A B
           | have [_ E] := E_normal omega kx ky e md b k U Nk He Ho A B].
      + right. have [Z1 Z2] := Ia i Hi. split=> //. by have [] := E_order_zero omega kx ky e md a i U Z1 Z2.
  case: K => [[c [-> ->]]|[-> ->]].
  - rewrite ?C_mulE ?C_addE ?C_oppE. move: (a j 0) (b j 0) => [a1 a2] [b1 b2]. split; rewrite /=; ring.
  - rewrite ?C_mulE ?C_addE ?C_oppE ?C_0E. move: (b j 0) (Eb j 0) => [b1 b2] [c1 c2]. split; rewrite /=; ring.
Qed.

Lemma Re_sum_zero (I : Type) (r : seq I) (F : I -> C) :
  (forall i, Re (F i) = 0%coqR) -> Re (\sum_(i <- r) F i) = 0%coqR.
Proof.
  move=> H. elim: r => [|x r IH]; first by rewrite big_nil.
  rewrite big_cons. change (Rplus (Re (F x)) (Re (\sum_(j <- r) F j)) = 0%coqR). rewrite H IH. ring.
Qed.

Lemma Re_conj_part (x : R) (z : C) : Re (RtoC x + Cconj z)%R = (x + Re z)%coqR.
Proof. by []. Qed.

Lemma H_at_add (a b : 'cV[C]_(n + n)) : H_at md a b = a + b.
Proof. have [_ [_ [Ep _]]] := uniform_layer_ok _ _ _ _ _ U. by rewrite /H_at Ep mul1mx. Qed.

Lemma normal_power (a b : 'cV[C]_(n + n)) : in_order k a ->
  power (E_at omega md a b) (H_at md a b)
  = (power (E_at omega md a 0) (H_at md a 0) - power (E_at omega md b 0) (H_at md b 0))%coqR.
Proof.
  move=> Ia. rewrite E_at_linear !H_at_add !addr0 /power.
  set Ea := E_at omega md a 0. set Eb := E_at omega md b 0.
  have -> : \sum_i Cconj ((Ea - Eb)%R i 0) * (a + b)%R i 0
     = \sum_i Cconj (Ea i 0) * a i 0 + (- (\sum_i Cconj (Eb i 0) * b i 0)
       + \sum_i (Cconj (Ea i 0) * b i 0 - Cconj (Eb i 0) * a i 0)).
    rewrite -sumrN -!big_split /=. apply: eq_bigr => i _. rewrite !mxE.
    move: (Ea i 0) (Eb i 0) (a i 0) (b i 0) => [x1 x2] [y1 y2] [z1 z2] [w1 w2].
    rewrite ?C_addE ?C_oppE ?C_mulE. apply: Ceq; rewrite /=; ring.
  have Z := Re_sum_zero _ (index_enum (ordinal_finType (n + n))) (fun i : 'I_(n + n) => (Cconj (Ea i 0) * b i 0 - Cconj (Eb i 0) * a i 0)%R) (fun i => (cross_zero a b i Ia).1).
  rewrite !Re_add Re_opp Z. ring.
Qed.

Lemma normal_backward (a b : 'cV[C]_(n + n)) f g : in_order k a ->
  GetZPoyntingFlux a b omega md = Ok (f, g) ->
  (- Re g = power (E_at omega md b 0) (H_at md b 0))%coqR.
Proof.
  move=> Ia. rewrite /GetZPoyntingFlux /GetZPoyntingFlux_byorder /Flux_xy /bind.
  case EA: (Flux_A omega md) => [M|] // [_ <-]. have [_ [_ HA]] := Flux_A_ok _ _ _ EA.
  have [_ [_ [Ep _]]] := uniform_layer_ok _ _ _ _ _ U.
  rewrite /= fold_sum Ep !mul1mx H_at_add addr0.
  have -> : M *m a = E_at omega md a 0 by rewrite -HA subr0.
  have -> : M *m b = E_at omega md b 0 by rewrite -HA subr0.
  have CZ := fun i => (cross_zero a b i Ia).2. cbv zeta in CZ.
  move: (E_at omega md a 0) (E_at omega md b 0) CZ => Ea Eb CZ. rewrite /power.
  have -> : Re (\sum_i (\col_i0 (RtoC (Ropp (Re (Cconj (Eb i0 0) * b i0 0)%R)) + Cconj ((\col_i1 (half_C * (Cconj (b i1 0) * Ea i1 0 - Cconj (Eb i1 0) * a i1 0))) i0 0))) i 0)
    = (- Re (\sum_i (Cconj (Eb i 0) * b i 0)%R) + Re (\sum_i (half_C * (Cconj (b i 0) * Ea i 0 - Cconj (Eb i 0) * a i 0))%R))%coqR.
    elim: (index_enum _) => [|i r IH]; first by rewrite !big_nil /=; ring.
    rewrite !big_cons !Re_add IH !mxE.
    rewrite Re_conj_part.
    ring.
  have Z := Re_sum_zero _ (index_enum (ordinal_finType (n + n))) (fun i : 'I_(n + n) => (half_C * (Cconj (b i 0) * Ea i 0 - Cconj (Eb i 0) * a i 0))%R).
  rewrite Z; first ring.
  move=> i. have K := CZ i.
  move: (Cconj (b i 0) * Ea i 0 - Cconj (Eb i 0) * a i 0)%R K => [z1 z2] /= ->.
  rewrite ?C_mulE /=. ring.
Qed.

Lemma wave_in_order (a : 'cV[C]_(n + n)) z : in_order k a -> in_order k (forward_wave (m_q md) z a).
Proof. move=> Ia j Hj. have [Z1 Z2] := Ia j Hj. by rewrite !mxE Z1 Z2 !mulr0. Qed.

Lemma normal_incident (a : 'cV[C]_(n + n)) (z : R) : in_order k a ->
  power (E_at omega md (forward_wave (m_q md) z a) 0) (H_at md (forward_wave (m_q md) z a) 0)
  = (exp (- (2 * sqrt e * Im omega * z)) * (Cnorm2 (a (lshift n k) 0%R) + Cnorm2 (a (rshift n k) 0%R)) / sqrt e)%coqR.
Proof.
  move=> Ia. have Iw := wave_in_order a z Ia.
  have [W1 W2] : forward_wave (m_q md) z a (lshift n k) 0 = Cexp (Cmul (Cmul Ci (RtoC (sqrt e) * omega)) (RtoC z)) * a (lshift n k) 0
     /\ forward_wave (m_q md) z a (rshift n k) 0 = Cexp (Cmul (Cmul Ci (RtoC (sqrt e) * omega)) (RtoC z)) * a (rshift n k) 0.
    have [Q1 Q2] := normal_root omega kx ky e md k U Nk He A B. by rewrite !mxE Q1 Q2.
  move: (forward_wave (m_q md) z a) Iw W1 W2 => w Iw W1 W2.
  rewrite power_orders H_at_add addr0 (bigD1 k) //= big1 ?addr0; last first.
    move=> j Hj. have [Z1 Z2] := Iw j Hj. by rewrite Z1 Z2 !mulr0 addr0.
  have [-> ->] := E_normal omega kx ky e md w k U Nk He Ho A B.
  rewrite W1 W2. set ph := Cexp _.
  have Sp := sqrt_lt_R0 _ He.
  have Np : Cnorm2 ph = exp (- (2 * sqrt e * Im omega * z))%coqR.
    rewrite /ph Cexp_norm2 -exp_plus. congr exp. rewrite ?C_mulE. move: (omega) => [x y] /=. ring.
  rewrite -Np {Np}. move: ph (a (lshift n k) 0) (a (rshift n k) 0) => [p1 p2] [x1 x2] [y1 y2].
  rewrite ?C_mulE ?C_addE /Cnorm2 /=. field. lra.
Qed.
End Normal.

(** * The numbers RT_Solve returns *)
Lemma RT_forward (x : excited) normalize r t : RT_Solve normalize x = Ok (r, t) -> x_direction x = "forward"%string ->
  exists aN b0 m0 mN f1 g1 f2 g2,
    SolveExterior (x_a0 x) (x_bN x) (s_modes (x_ready x)) (s_thick (x_ready x)) = Ok (aN, b0)
    /\ List.nth_error (s_modes (x_ready x)) 0 = Some (Some m0)
    /\ List.nth_error (s_modes (x_ready x)) (size (s_modes (x_ready x))).-1 = Some (Some mN)
    /\ GetZPoyntingFlux (x_a0 x) b0 (s_omega (x_ready x)) m0 = Ok (f1, g1)
    /\ GetZPoyntingFlux aN (x_bN x) (s_omega (x_ready x)) mN = Ok (f2, g2)
    /\ (r, t) = (if normalize then (RtoC (- Re g1)%coqR * s_norm (x_ready x), RtoC (Re f2) * s_norm (x_ready x))
                 else (RtoC (- Re g1)%coqR, RtoC (Re f2))).
Proof.
  rewrite /RT_Solve /bind /last_mode.
  case E1: (SolveExterior _ _ _ _) => [[aN b0]|] //=.
  case E2: (get_mode _ 0) => [m0|] //. case E3: (GetZPoyntingFlux _ _ _ m0) => [[f1 g1]|] //.
  case E4: (get_mode _ _) => [mN|] //. case E5: (GetZPoyntingFlux _ _ _ mN) => [[f2 g2]|] //.
  move=> H D. move: H. rewrite D /= => H.
  exists aN, b0, m0, mN, f1, g1, f2, g2.
  have E2' := get_mode_ok _ _ _ E2. have E4' := get_mode_ok _ _ _ E4.
  split=> //. split; first exact: E2'. split; first exact: E4'. split=> //; split=> //.
  by case: normalize H => [] [<- <-].
Qed.

Lemma flux_propagating {n} (a b : 'cV[C]_(n + n)) omega md f g :
  GetZPoyntingFlux a b omega md = Ok (f, g) -> propagating (m_q md).
Proof.
  rewrite /GetZPoyntingFlux /GetZPoyntingFlux_byorder /Flux_xy /bind.
  case EA: (Flux_A omega md) => [M|] // _. have [_ [H _]] := Flux_A_ok _ _ _ EA. move=> j. by apply/eqP.
Qed.

(** What is assumed of the outer media, the frequency and the excitation. *)
Record lit {G} (o : ready G) (e0 eN : R) (k : 'I_(size G)) (a0 : 'cV[C]_(size G + size G)) : Prop := mkLit {
  lit_omega : s_omega o <> C0;
  lit_Re : (0 <= Re (s_omega o))%coqR;
  lit_Im : (0 <= Im (s_omega o))%coqR;
  lit_kx : real_row (s_kx o);
  lit_ky : real_row (s_ky o);
  lit_normal : normal (s_kx o) (s_ky o) k;
  lit_wave : in_order k a0;
  lit_e0 : (0 < e0)%coqR;
  lit_eN : (0 < eN)%coqR;
  lit_first : exists md, List.nth_error (s_modes o) 0 = Some (Some md)
                /\ uniform_layer (s_omega o) (s_kx o) (s_ky o) (RtoC e0) = Ok md;
  lit_last : exists md, List.nth_error (s_modes o) (size (s_modes o)).-1 = Some (Some md)
                /\ uniform_layer (s_omega o) (s_kx o) (s_ky o) (RtoC eN) = Ok md;
  lit_sizes : size (s_thick o) = size (s_modes o) /\ (1 < size (s_modes o))%N }.

Section RT.
Context (x : excited) (e0 eN : R) (k : 'I_(size (x_G x))) (r t : C) (t0 : R).
Let o := x_ready x.
Let I0 := Rplus (Cnorm2 (x_a0 x (lshift _ k) 0%R)) (Cnorm2 (x_a0 x (rshift _ k) 0%R)).
Hypothesis L : lit o e0 eN k (x_a0 x).
Hypothesis Dir : x_direction x = "forward"%string.
Hypothesis Zb : x_bN x = 0.
Hypothesis HRT : RT_Solve false x = Ok (r, t).
Hypothesis Ht0 : List.nth_error (s_thick o) 0 = Some t0.

Lemma rt_powers : exists Rr Tr p,
  r = RtoC Rr /\ t = RtoC Tr /\ (0 <= Rr)%coqR /\ (0 <= Tr)%coqR
  /\ ((forall l md th, (0 < l < (size (s_modes o)).-1)%N -> layer_is (s_modes o) (s_thick o) l md th ->
         propagating (m_q md) -> passive_layer (s_omega o) (s_kx o) (s_ky o) md /\ (0 <= th)%coqR) -> (Tr <= p)%coqR)
  /\ (Im (s_omega o) = 0%coqR ->
      (forall l md th, (0 < l < (size (s_modes o)).-1)%N -> layer_is (s_modes o) (s_thick o) l md th ->
         propagating (m_q md) -> lossless_layer (s_omega o) (s_kx o) (s_ky o) md) -> Tr = p)
  /\ p = (exp (- (2 * sqrt e0 * Im (s_omega o) * t0)) * I0 / sqrt e0 - Rr)%coqR.
Proof.
  case: L => Ho HRe HIm Rx Ry Nk Iw P0 PN [m0' [F1 F2]] [mN' [F3 F4]] [S1 S2].
  have [aN [b0 [m0 [mN [f1 [g1 [f2 [g2 [E1 [E2 [E3 [E4 [E5 E6]]]]]]]]]]]]] := RT_forward x false r t HRT Dir.
  rewrite -/o in E1 E2 E3 E4 E5 E6.
  have {F1} Em0 : m0' = m0 by rewrite E2 in F1; case: F1. subst m0'.
  have {F3} EmN : mN' = mN by rewrite E3 in F3; case: F3. subst mN'.
  have Pr0 := flux_propagating _ _ _ _ _ _ E4. have PrN := flux_propagating _ _ _ _ _ _ E5.
  have G1 := normal_backward (s_omega o) (s_kx o) (s_ky o) e0 m0 k F2 Nk P0 Ho HRe HIm (x_a0 x) b0 f1 g1 Iw E4.
  rewrite Zb in E5. have [G2 _] := (flux_one_way _ _ _ _ _).1 E5.
  set N := (size (s_modes o)).-1 in E3 *.
  have HN : (0 < N)%N by rewrite /N; case: (size (s_modes o)) S2 => // -[].
  have EN : (size (s_thick o)).-1 = N by rewrite S1.
  have [M EM] : exists M, GetSMatrix 0 N (s_modes o) (s_thick o) = Ok M.
    move: E1. rewrite /SolveExterior EN /bind. case: (GetSMatrix _ _ _ _) => [M|] // _. by exists M.
  have [Lx Lp] := smatrix_layers _ _ _ _ HN EM.
  have Hq0 : forall md, List.nth_error (s_modes o) 0 = Some (Some md) -> propagating (m_q md).
    move=> md. rewrite E2 => -[<-]. exact: Pr0.
  have [[a [b [A0 [BN [AN [B0 Cn]]]]]] _] := exterior_solved _ _ _ _ _ _ Hq0 E1. rewrite EN in BN AN Cn.
  have Pr : forall l md th, (l <= N)%N -> layer_is (s_modes o) (s_thick o) l md th -> propagating (m_q md).
    move=> [|l] md th Hl Hi; first by apply: Hq0; case: Hi.
    exact: Lp Hi.
  have L0 : layer_is (s_modes o) (s_thick o) 0 m0 t0 by split.
  have [mN' [tN LN]] := Lx N (leqnn N).
  have EmN : mN' = mN by case: LN; rewrite E3 => -[->]. subst mN'.
  have PN' : power_at (s_omega o) mN tN 0 (a N) (b N) = power (E_at (s_omega o) mN aN 0) (H_at mN aN 0).
    rewrite /power_at AN BN Zb forward_0.
    have -> : backward_wave (m_q mN) tN 0 (0 : 'cV[C]_(size (x_G x) + size (x_G x))) = 0 by apply/colP => j; rewrite !mxE mulr0.
    by [].
  have P0' : power_at (s_omega o) m0 t0 t0 (a 0%N) (b 0%N)
     = (exp (- (2 * sqrt e0 * Im (s_omega o) * t0)) * I0 / sqrt e0 - power (E_at (s_omega o) m0 b0 0%R) (H_at m0 b0 0%R))%coqR.
    rewrite /power_at A0 B0 backward_end.
    have Iww := wave_in_order m0 k (x_a0 x) t0 Iw.
    rewrite (normal_power (s_omega o) (s_kx o) (s_ky o) e0 m0 k F2 Nk P0 Ho HRe HIm _ b0 Iww).
    by rewrite (normal_incident (s_omega o) (s_kx o) (s_ky o) e0 m0 k F2 Nk P0 Ho HRe HIm (x_a0 x) t0 Iw).
  case: E6 => -> ->. rewrite G1 G2.
  exists (power (E_at (s_omega o) m0 b0 0) (H_at m0 b0 0)), (power (E_at (s_omega o) mN aN 0) (H_at mN aN 0)).
  exists (power_at (s_omega o) m0 t0 t0 (a 0%N) (b 0%N)).
  split=> //; split=> //.
  split; first exact: (outgoing_power (s_omega o) (s_kx o) (s_ky o) e0 m0 b0).
  split; first exact: (outgoing_power (s_omega o) (s_kx o) (s_ky o) eN mN aN).
  split; last split=> //.
  - move=> Hp. rewrite -PN'.
    apply: (stack_power (s_omega o) (s_kx o) (s_ky o) (s_modes o) (s_thick o) N a b) => //.
    move=> l md th Hl Hi. apply: (Hp l md th Hl Hi). apply: (Pr l md th) => //. by case/andP: Hl => _ /ltnW.
  - move=> Io Hp. rewrite -PN'.
    apply: (stack_power_lossless (s_omega o) (s_kx o) (s_ky o) (s_modes o) (s_thick o) N a b) => //.
    move=> l md th Hl Hi. apply: (Hp l md th Hl Hi). apply: (Pr l md th) => //. by case/andP: Hl => _ /ltnW.
Qed.
End RT.
