(** Lossless films at a real frequency can be solved if only the zero order is kept. *)
From Coq Require Import Reals Lra Psatz ZArith String Lia.
From mathcomp Require Import all_ssreflect all_algebra.
From Verif Require Import Base Cplx CplxLemmas CField Model_Lattice Spec_Lattice Proof_Lattice Proof_Lattice2
  Proof_Lattice3 Proof_Lattice4 Model_Stack Model_Modes Spec_Modes Model_TRCWA
  Spec_TRCWA Spec_Passive Spec_Film Proof_FilmC Proof_Modes Proof_Smatrix Proof_FFT
  Proof_Passive Proof_Passive2 Proof_Passive3 Proof_Outer Proof_RT Proof_Init Proof_Init2 Proof_Pattern Proof_TRCWA Proof_Film
  Proof_TRCWA2 Proof_Total Proof_Total2.
Import GRing.Theory.
Delimit Scope R_scope with coqR.
Delimit Scope Z_scope with coqZ.
Local Open Scope ring_scope.

(** A layer with one (real, forward) mode number. *)
Definition plain_mode {m} (w2 : C) (k : R) (md : mode m) : Prop :=
  m_q md = const_mx (RtoC k) /\ m_phi md = 1%:M /\ m_kp md = w2%:M /\ (0 < k)%coqR.

Lemma map_row_const {m} (f : C -> C) (a : C) : map_row f (const_mx a) = const_mx (f a) :> 'rV[C]_m.
Proof. by apply/rowP => j; rewrite !mxE. Qed.

Lemma scalar_unit {m} (a : C) : a != 0 -> (a%:M : 'M[C]_m) \in unitmx.
Proof. move=> H. by rewrite unitmxE det_scalar unitfE expf_neq0. Qed.

Lemma inv_scalar {m} (a : C) : a != 0 -> invmx (a%:M : 'M[C]_m) = (a^-1)%:M.
Proof.
  move=> H. have U := @scalar_unit m a H. apply: (can_inj (mulKmx U)).
  by rewrite mulmxV // -scalar_mxM mulfV.
Qed.

Lemma Cnorm2_inv (z : C) : z <> C0 -> Cnorm2 (Cinv z) = (/ Cnorm2 z)%coqR.
Proof. move=> /Cnorm2_pos. move: z => [x y]. rewrite /Cinv /Cnorm2 /= => H. field. lra. Qed.

(** The Moebius map of an interface keeps the unit disc. *)
Lemma moebius (a b : R) (z : C) : (Rabs b < a)%coqR -> (Cnorm2 z < 1)%coqR ->
  (RtoC a - z * RtoC b)%R <> C0 /\
  (Cnorm2 ((RtoC a - z * RtoC b)^-1 * (z * RtoC a - RtoC b))%R < 1)%coqR.
Proof.
  move=> Hb Hz. have B : (b * b < a * a)%coqR.
    have := Rabs_pos b. have E : (Rabs b * Rabs b = b * b)%coqR by rewrite -Rabs_mult Rabs_right //; nra. nra.
  have K : (Cnorm2 (z * RtoC a - RtoC b)%R < Cnorm2 (RtoC a - z * RtoC b)%R)%coqR.
    move: z Hz => [x y]. rewrite ?C_addE ?C_oppE ?C_mulE /Cnorm2 /= => Hz.
    match goal with |- (?l < ?r)%coqR => have E : (r - l = (a * a - b * b) * (1 - (x * x + y * y)))%coqR by ring end.
    nra.
  have P := Cnorm2_nonneg (z * RtoC a - RtoC b)%R.
  have N : (RtoC a - z * RtoC b)%R <> C0 by move=> E; rewrite E /Cnorm2 /= in K; rewrite /Cnorm2 /= in P; lra.
  split=> //. rewrite C_mulE Cnorm2_mul C_invE Cnorm2_inv //.
  have Q := Cnorm2_pos _ N. apply: (Rmult_lt_reg_l (Cnorm2 (RtoC a - z * RtoC b)%R)) => //.
  rewrite -Rmult_assoc Rinv_r ?Rmult_1_l ?Rmult_1_r //. lra.
Qed.

Lemma plain_step {m} (w2 : C) (k k' t t' : R) (cur nxt : mode m) M (s : C) : w2 != 0 ->
  plain_mode w2 k cur -> plain_mode w2 k' nxt -> S12 M = s%:M -> (Cnorm2 s < 1)%coqR ->
  exists M' s', step_core cur nxt t t' M = Ok M' /\ S12 M' = s'%:M /\ (Cnorm2 s' < 1)%coqR.
Proof.
  move=> Hw [Eq [Ep [Ek Hk]]] [Eq' [Ep' [Ek' Hk']]] Es Hs.
  have Nk' : RtoC k' != 0 by apply/eqP => E; have := f_equal Re E; rewrite /=; lra.
  pose ph (x u : R) : C := Cexp (Ci * RtoC x * RtoC u).
  have Nph : forall x u, Cnorm2 (ph x u) = 1%coqR.
    move=> x u. rewrite /ph Cexp_norm2 ?C_mulE /= -exp_plus -[RHS]exp_0. congr exp. ring.
  pose rho := (k / k')%coqR. have Hr : (0 < rho)%coqR by apply: Rdiv_lt_0_compat.
  pose a := (/ 2 * (1 + rho))%coqR. pose b := (/ 2 * (1 - rho))%coqR.
  have Hab : (Rabs b < a)%coqR by rewrite /a /b; apply: Rabs_def1; lra.
  pose z := ph k t * s.
  have Hz : (Cnorm2 z < 1)%coqR by rewrite /z C_mulE Cnorm2_mul Nph; lra.
  have [Nd Hd] := moebius a b z Hab Hz.
  have EQ : invmx (m_phi cur) *m m_phi nxt = 1%:M by rewrite Ep Ep' invmx1 mulmx1.
  have EP : (diag_mx (m_q cur) *m invmx (m_kp cur *m m_phi cur))
           *m ((m_kp nxt *m m_phi nxt) *m diag_mx (map_row (fun z => z^-1) (m_q nxt))) = (RtoC rho)%:M.
    rewrite Ep Ek Ek' Ep' Eq Eq' !mulmx1 map_row_const !diag_const_mx inv_scalar // -!scalar_mxM. congr (_%:M).
    rewrite -mulrA (mulrA w2^-1) mulVf // mul1r. apply: Ceq; rewrite ?C_mulE ?C_invE /Cinv /Cnorm2 /= /rho; field; lra.
  have ET1 : half_C *: (1%:M + (RtoC rho)%:M) = (RtoC a)%:M :> 'M[C]_m.
    rewrite -raddfD /= scale_scalar_mx. congr (_%:M). apply: Ceq; rewrite ?C_mulE ?C_addE /half_C /a /=; field.
  have ET2 : half_C *: (1%:M - (RtoC rho)%:M) = (RtoC b)%:M :> 'M[C]_m.
    rewrite -raddfB /= scale_scalar_mx. congr (_%:M). apply: Ceq; rewrite ?C_mulE ?C_addE ?C_oppE /half_C /b /=; field.
  have Eph : phase (m_q cur) t = (ph k t)%:M by rewrite /phase Eq map_row_const diag_const_mx.
  have Eph' : phase (m_q nxt) t' = (ph k' t')%:M by rewrite /phase Eq' map_row_const diag_const_mx.
  have EX : (RtoC a)%:M - ((ph k t)%:M *m S12 M) *m (RtoC b)%:M = (RtoC a - z * RtoC b)%:M :> 'M[C]_m.
    by rewrite Es -!scalar_mxM -raddfB.
  have Nd' : RtoC a - z * RtoC b != 0 by apply/eqP.
  have Ukp : m_kp cur *m m_phi cur \in unitmx by rewrite Ek Ep mulmx1; exact: scalar_unit.
  eexists. exists ((RtoC a - z * RtoC b)^-1 * (z * RtoC a - RtoC b) * ph k' t'). split.
    apply/step_core_ok. split; first by rewrite Ep unitmx1. split=> //.
    split; first by move=> j; rewrite Eq' mxE.
    split; last reflexivity. rewrite EQ EP ET1 ET2 Eph EX. exact: scalar_unit.
  split.
    rewrite /= EQ EP ET1 ET2 Eph Eph' EX inv_scalar // Es -!scalar_mxM -raddfB /= -!scalar_mxM. by rewrite /z !mulrA.
  rewrite C_mulE Cnorm2_mul Nph Rmult_1_r. exact: Hd.
Qed.

Lemma plain_loop {m} (w2 : C) (ms : seq (option (mode m))) ts N : w2 != 0 ->
  (forall l, (l <= N)%N -> exists md t k, layer_is ms ts l md t /\ plain_mode w2 k md) ->
  forall c l M s, (l + c <= N)%N -> S12 M = s%:M -> (Cnorm2 s < 1)%coqR -> exists M', smat_loop ms ts c l M = Ok M'.
Proof.
  move=> Hw H. elim=> [|c IH] l M s Hc Es Hs; first by exists M.
  have Hl : (l < N)%N by apply: leq_trans Hc; rewrite addnS ltnS leq_addr.
  have [cur [t [k [L1 P1]]]] := H l (ltnW Hl). have [nxt [t' [k' [L2 P2]]]] := H l.+1 Hl.
  have [M1 [s1 [E1 [Es1 Hs1]]]] := plain_step w2 k k' t t' cur nxt M s Hw P1 P2 Es Hs.
  have [M' E'] := IH l.+1 M1 s1 ltac:(by rewrite addSnnS) Es1 Hs1. exists M'. cbn [smat_loop bind].
  have -> // : smat_step ms ts l M = Ok M1. apply/smat_step_core. by exists cur, nxt, t, t'.
Qed.

(** A uniform layer of positive permittivity at normal incidence and real
    frequency, if there is one order. *)
Lemma uniform_plain {n} (w e : R) (kx ky : 'rV[C]_n) md : (0 < w)%coqR -> (0 < e)%coqR ->
  kx = 0 -> ky = 0 -> uniform_layer (RtoC w) kx ky (RtoC e) = Ok md ->
  plain_mode (RtoC w ^+ 2) (sqrt e * w)%coqR md.
Proof.
  move=> Hw He -> -> U. have [Ne [Eq [Ep Ek]]] := uniform_layer_ok _ _ _ _ _ U.
  have Hse := sqrt_lt_R0 _ He. have Sq := sqrt_sqrt e (Rlt_le _ _ He).
  split; [|split; [exact: Ep|split; last by nra]].
  - have [Um _] := uniform_modes (RtoC w) (RtoC e) (0 : 'rV[C]_n) 0. rewrite -Eq in Um.
    have R : forall j, m_q md 0 (lshift n j) = RtoC (sqrt e * w)%coqR.
      move=> j. have [Q _] := Um j. apply: mode_root_unique Q _. rewrite !mxE. split; [|split].
      + rewrite ?C_0E. apply: Ceq; rewrite ?C_mulE ?C_addE ?C_oppE /=; last ring.
        replace (_ - _)%coqR with (sqrt e * sqrt e * (w * w))%coqR; last ring. rewrite Sq. ring.
      + rewrite /=; lra.
      + rewrite /=. nra.
    apply/rowP => i. rewrite [RHS]mxE -(splitK i). case: (split i) => j /=; first exact: R.
    have [_ ->] := Um j. exact: R.
  - by rewrite Ek /MakeKP_uniform /Jk oppr0 !raddf0 col_mx0 mul0mx scaler0 subr0.
Qed.

(** * The simulation succeeds *)
Lemma lossless_total argsort c (f : R) films x :
  sorts argsort -> (0 < f)%coqR -> (0 < t_top c)%coqR -> (0 < t_bottom c)%coqR ->
  (forall p, List.In p films -> exists e, eps_C p.2 = RtoC e /\ (0 < e)%coqR) ->
  film_stack argsort c (RtoC f) films = Ok x -> size (x_G x) = 1%N ->
  exists r t, RT_Solve true x = Ok (r, t).
Proof.
  move=> Hs Hf Ht Hb He Hx Sz. pose w := (2 * PI * f)%coqR.
  have Hw : (0 < w)%coqR by rewrite /w; have := PI_RGT_0; nra.
  have Ew : Cmul (RtoC (2 * PI)%coqR) (RtoC f) = RtoC w by apply: Ceq; rewrite /= /w; ring.
  have Now : RtoC w <> C0 by move=> E; have := f_equal Re E; rewrite /=; lra.
  have [O [Mf [Dir [E2 E4]]]] := film_stack_ok _ _ _ _ _ Hx.
  have [F1 [F2 [Rx [Ry [F3 [k [Ek [[Nx Ny] [Ik [A1 A2]]]]]]]]]] := frame_ok _ _ _ _ _ _ _ _ Hs E2 E4.
  rewrite Ew in F2. set o := x_ready x in O Mf E2 F1 F2 Rx Ry Nx Ny *.
  have All : forall j : 'I_(size (x_G x)), j = k.
    move=> j. apply: val_inj. rewrite /= Ek. have := ltn_ord j. rewrite {2}Sz. by case: (nat_of_ord j).
  have Zx : s_kx o = 0 by apply/rowP => j; rewrite (All j) Nx mxE.
  have Zy : s_ky o = 0 by apply/rowP => j; rewrite (All j) Ny mxE.
  case: O => S1 [S2 [T0 [TN [Th [M0 MN]]]]].
  have Lay : forall l, (l <= (size films).+1)%N -> exists md k, List.nth_error (s_modes o) l = Some (Some md)
      /\ plain_mode (RtoC w ^+ 2) k md.
    move=> [_|l Hl].
      case: M0 => md [E U]. exists md. eexists. split=> //. rewrite F2 in U. exact: (uniform_plain w (t_top c) _ _ md Hw Ht Zx Zy U).
    move: Hl. rewrite ltnS leq_eqVlt => /orP [/eqP ->|Hl].
      case: MN => md [E U]. exists md. eexists. split=> //. rewrite F2 in U. exact: (uniform_plain w (t_bottom c) _ _ md Hw Hb Zx Zy U).
    have [p Ep] := nth_error_ex films l Hl. have [md [E U]] := Mf _ _ Ep.
    have [e [Ee Hpe]] := He p (List.nth_error_In _ _ Ep). rewrite F2 Ee in U.
    exists md. eexists. split=> //. exact: (uniform_plain w e _ _ md Hw Hpe Zx Zy U).
  have Nw2 : RtoC w ^+ 2 != 0 by rewrite expf_neq0 //; apply/eqP.
  have [M EM] : exists M, GetSMatrix 0 (size films).+1 (s_modes o) (s_thick o) = Ok M.
    rewrite /GetSMatrix. have [md0 [k0 [L0 _]]] := Lay 0%N (leq0n _). rewrite /get_mode L0 /bind /=.
    have [M EM] := plain_loop (RtoC w ^+ 2) (s_modes o) (s_thick o) (size films).+1 Nw2
      ltac:(move=> l Hl; have [md [k' [E P]]] := Lay l Hl;
            have [t Et] := nth_error_ex (s_thick o) l ltac:(by rewrite S2 ltnS); by exists md, t, k')
      (size films).+1 0%N smat_id 0 ltac:(by rewrite add0n) ltac:(by rewrite /= raddf0) ltac:(rewrite C_0E /Cnorm2 /=; lra).
    exists M. exact: EM.
  have Pr : forall k md, plain_mode (m := size (x_G x) + size (x_G x)) (RtoC w ^+ 2) k md -> propagating (m_q md).
    move=> k' md [Eq [_ [_ Hk]]] j. rewrite Eq mxE => E. have := f_equal Re E. rewrite /=; lra.
  rewrite /RT_Solve -/o /SolveExterior S2 EM /bind /last_mode /get_mode S1.
  have [m0 [k0 [-> Q0]]] := Lay 0%N (leq0n _). have [mN [kN [-> QN]]] := Lay _ (leqnn _).
  have Ho : s_omega o <> C0 by rewrite F2.
  have [f1 [g1 ->]] := flux_total_ok (x_a0 x) (S21 M *m x_a0 x + S22 M *m x_bN x) _ _ Ho (Pr _ _ Q0).
  have [f2 [g2 ->]] := flux_total_ok (S11 M *m x_a0 x + S12 M *m x_bN x) (x_bN x) _ _ Ho (Pr _ _ QN).
  rewrite Dir /=. by eexists _, _.
Qed.
