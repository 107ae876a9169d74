(** Stacks of uniform films: the film formulas, energy conservation and the
    simple limits. *)
From Coq Require Import Reals Lra Psatz ZArith String Lia.
From mathcomp Require Import all_ssreflect all_algebra.
From Verif Require Import Base Cplx CplxLemmas CField Model_Lattice Spec_Lattice Model_Stack Model_Modes Spec_Modes Model_TRCWA
  Spec_TRCWA Spec_Passive Spec_Film Proof_FilmC Proof_Smatrix Proof_FFT
  Proof_Passive Proof_Passive2 Proof_Passive3 Proof_Outer Proof_RT Proof_Init Proof_Init2 Proof_Pattern Proof_TRCWA Proof_Film.
Import GRing.Theory.
Delimit Scope R_scope with coqR.
Delimit Scope Z_scope with coqZ.
Local Open Scope ring_scope.

Definition with_thick (c : trcwa_cfg) (ts : seq R) : trcwa_cfg :=
  mkTcfg (t_NG c) (t_L1 c) (t_L2 c) (t_top c) (t_bottom c) ts.

Lemma nth_of_error {A} (l : seq A) i p : List.nth_error l i = Some p -> nth p l i = p.
Proof. by elim: l i => [|a l IH] [|i] //= => [[->]|/IH]. Qed.

Lemma thick_list (ts : seq R) i : (i < size ts)%N -> layer_thickness ts i = List.nth_error ts i.
Proof. rewrite /layer_thickness. case: eqP => // E. rewrite E. by case: i. Qed.

(** The object built by [film_stack]. *)
Lemma film_stack_ok argsort c freq films x :
  film_stack argsort c freq films = Ok x ->
  let om := Cmul (RtoC (2 * PI)%coqR) freq in
  outer_ok (with_thick c (map fst films)) (size films) (x_ready x)
  /\ (forall i p, List.nth_error films i = Some p -> exists md,
        List.nth_error (s_modes (x_ready x)) i.+1 = Some (Some md)
        /\ uniform_layer (s_omega (x_ready x)) (s_kx (x_ready x)) (s_ky (x_ready x)) (eps_C p.2) = Ok md)
  /\ x_direction x = "forward"%string
  /\ Init_Setup argsort (trcwa_object c om (map (fun p => Uniform p.1 p.2) films)) 1%coqR 0%coqZ = Ok (existT _ (x_G x) (x_ready x))
  /\ MakeExcitationPlanewave (size (x_G x)) 0%coqR 0%coqR 0 0%coqR 1 0%coqR 0%coqZ "forward" = Ok (x_a0 x, x_bN x).
Proof.
  rewrite /film_stack /TRCWA_new. cbv zeta. cbn [r_nG r_L1 r_L2 r_omega r_theta r_phi r_stack]. rewrite /bind.
  rewrite -/(trcwa_object c (Cmul (RtoC (2 * PI)%coqR) freq) (map (fun p => Uniform p.1 p.2) films)).
  case E2: (Init_Setup _ _ _ _) => [[G r0]|] //.
  case E3: (MakeExcitationPlanewave _ _ _ _ _ _ _ _ _) => [[a b]|] // [<-] /=.
  have Z : films = zip (map fst films) (map snd films) by elim: films {E2} => //= -[u v] l {1}->.
  have E2' := E2. rewrite Z in E2'.
  have Sz1 : size (map fst films) = size films by rewrite size_map.
  have Sz2 : size (map snd films) = size films by rewrite size_map.
  have Ht : forall i, (i < size films)%N -> exists th, List.nth_error (map fst films) i = Some th
      /\ layer_thickness (t_thick (with_thick c (map fst films))) i = Some th.
    move=> i Hi. have [th E] := nth_error_ex (map fst films) i (eq_ind_r (fun k => (i < k)%N) Hi Sz1).
    exists th. split=> //. by rewrite /= thick_list ?size_map.
  have [O M] := uniform_ready _ (with_thick c (map fst films)) _ _ _ _ _ _ Sz1 Sz2 Ht E2'.
  split=> //. split; last by [].
  move=> i p Hp. apply: M. by rewrite nth_error_map' Hp.
Qed.

Lemma film_lit argsort c freq films x :
  film_stack argsort c freq films = Ok x -> sorts argsort ->
  let om := Cmul (RtoC (2 * PI)%coqR) freq in
  om <> C0 -> (0 <= Re om)%coqR -> (0 <= Im om)%coqR ->
  (0 < t_top c)%coqR -> (0 < t_bottom c)%coqR ->
  x_bN x = 0 /\ s_omega (x_ready x) = om /\ s_norm (x_ready x) = RtoC (sqrt (t_top c))
  /\ exists k : 'I_(size (x_G x)),
     lit (x_ready x) (t_top c) (t_bottom c) k (x_a0 x)
     /\ x_a0 x (lshift _ k) 0 = - 1 /\ x_a0 x (rshift _ k) 0 = 0.
Proof.
  move=> Hi Hs om Ho HR HI Ht Hb. have [O [_ [D [E2 E4]]]] := film_stack_ok _ _ _ _ _ Hi.
  have [F1 [F2 [Rx [Ry [F3 [k [Ek [Nk [Ik [A1 A2]]]]]]]]]] := frame_ok _ _ _ _ _ _ _ _ Hs E2 E4.
  split=> //. split=> //. split=> //. exists k.
  case: O => S1 [S2 [T0 [TN [Th [M0 MN]]]]]. split=> //.
  constructor => //; try (rewrite F2; exact Ho || exact HR || exact HI); by rewrite S1 ?S2.
Qed.

Lemma film_rt argsort c freq films x r t :
  sorts argsort -> (0 < t_top c)%coqR -> (0 < t_bottom c)%coqR ->
  let om := Cmul (RtoC (2 * PI)%coqR) freq in
  om <> C0 -> (0 <= Re om)%coqR -> (0 <= Im om)%coqR ->
  film_stack argsort c freq films = Ok x -> RT_Solve true x = Ok (r, t) ->
  let loss := exp (- (2 * sqrt (t_top c) * Im om))%coqR in
  exists ns, size ns = size films
  /\ (forall i n p, List.nth_error ns i = Some n -> List.nth_error films i = Some p -> index_of om (eps_C p.2) n)
  /\ let '(X, D, P) := film om (RtoC (sqrt (t_top c))) (zip ns (map fst films)) (RtoC (sqrt (t_bottom c))) in
     D <> C0 /\ r = RtoC (loss * Cnorm2 (Cdiv X D))%coqR
     /\ t = RtoC (loss * (sqrt (t_top c) / sqrt (t_bottom c)) * Cnorm2 (Cdiv P D))%coqR.
Proof.
  move=> Hs Ht Hb om Ho HR HI Hi HRT loss.
  have [Zb [Eo [En [k [L [A1 A2]]]]]] := film_lit _ _ _ _ _ Hi Hs Ho HR HI Ht Hb.
  have [[S1 [S2 [T0 [TN [Th [[m0 [M0 U0]] [mN [MN UN]]]]]]]] [Mi [Dir _]]] := film_stack_ok _ _ _ _ _ Hi.
  have [r' [t' [HF [-> ->]]]] := RT_normalized _ _ _ HRT.
  pose es l := if l == 0%N then RtoC (t_top c) else if l == (size films).+1 then RtoC (t_bottom c)
               else match List.nth_error films l.-1 with Some p => eps_C p.2 | None => C0 end.
  have HU : forall l md, List.nth_error (s_modes (x_ready x)) l = Some (Some md) ->
     uniform_layer (s_omega (x_ready x)) (s_kx (x_ready x)) (s_ky (x_ready x)) (es l) = Ok md.
    move=> l md Hl. have Hsz := nth_error_size _ _ _ Hl. rewrite S1 ltnS in Hsz.
    rewrite /es. case: eqP => [E|Nl0].
      subst l. rewrite M0 in Hl. by case: Hl => <-.
    case: eqP => [E|NlN].
      subst l. rewrite MN in Hl. by case: Hl => <-.
    case: l Hl Hsz Nl0 NlN => // l Hl Hsz _ NlN.
    have Hlt : (l < size films)%N by rewrite ltn_neqAle -ltnS Hsz andbT; apply/eqP => E; apply: NlN; rewrite E.
    have [p Ep] := nth_error_ex films l Hlt. rewrite Ep. have [md' [M1 M2]] := Mi _ _ Ep.
    rewrite M1 in Hl. by case: Hl => <-.
  have NA : x_a0 x (lshift _ k) 0 <> C0.
    rewrite A1 ?C_oppE ?C_1E => E. have := f_equal fst E. rewrite /=. lra.
  have [l [Sl [Hl HX]]] := rt_film x (t_top c) (t_bottom c) k es r' t' 1%coqR L Dir Zb HF T0 HU NA A2.
  rewrite S1 /= in Sl.
  have El : l = zip (map fst l) (map fst films).
    have : map snd l = map fst films.
      apply: (@eq_from_nth _ 0%coqR); first by rewrite !size_map.
      move=> i. rewrite size_map Sl => Hlt.
      have [p Ep] := nth_error_ex l i (eq_ind_r (fun k => (i < k)%N) Hlt Sl).
      have [q Eq] := nth_error_ex films i Hlt. have [_ T] := Hl _ _ Ep.
      rewrite Th // /= thick_list ?size_map // nth_error_map' Eq /= in T. case: T => T.
      rewrite (nth_map p) ?Sl // (nth_map q) //.
      by rewrite (nth_of_error _ _ _ Ep) (nth_of_error _ _ _ Eq).
    move=> <-. by elim: (l) => //= -[u v] l' <-.
  exists (map fst l). split; first by rewrite size_map.
  split.
  - move=> i n p Hn Hp. have Hlt := nth_error_size _ _ _ Hp.
    move: Hn. rewrite nth_error_map'. case El': (List.nth_error l i) => [u|] // [<-].
    have [U _] := Hl _ _ El'. move: U. rewrite Eo /es /= eqSS.
    case: eqP => [E|_]; first by rewrite E ltnn in Hlt.
    by rewrite Hp.
  - rewrite -El. move: HX. rewrite Eo. case: (film _ _ _ _) => [[X D] P] [HD [-> ->]]. split=> //.
    have N1 : Cnorm2 (- 1 : C)%R = 1%coqR by rewrite ?C_oppE ?C_1E /Cnorm2 /=; ring.
    rewrite A1 N1 En ?C_mulE -/loss -!RtoC_mul Rmult_1_r Rmult_1_r.
    have Sp0 := sqrt_lt_R0 _ Ht. have SpN := sqrt_lt_R0 _ Hb.
    rewrite -/om -/loss. split; congr RtoC; field; lra.
Qed.

(** * Energy is conserved exactly without losses *)
Lemma film_lossless argsort c (f : R) films x r t :
  sorts argsort -> (0 < f)%coqR -> (0 < t_top c)%coqR -> (0 < t_bottom c)%coqR ->
  (forall p, List.In p films -> Im (eps_C p.2) = 0%coqR) ->
  film_stack argsort c (RtoC f) films = Ok x -> RT_Solve true x = Ok (r, t) ->
  exists Rr Tr, r = RtoC Rr /\ t = RtoC Tr /\ (0 <= Rr)%coqR /\ (0 <= Tr)%coqR /\ (Rr + Tr = 1)%coqR.
Proof.
  move=> Hs Hf Ht Hb Hr Hi HRT. have Hp := PI_RGT_0.
  set om := Cmul (RtoC (2 * PI)%coqR) (RtoC f).
  have Eom : om = RtoC (2 * PI * f)%coqR by rewrite /om -RtoC_mul.
  have Ho : om <> C0 by rewrite Eom => E; have := f_equal fst E; rewrite /=; nra.
  have HR : (0 <= Re om)%coqR by rewrite Eom /=; nra.
  have HI : Im om = 0%coqR by rewrite Eom.
  have HI' : (0 <= Im om)%coqR by rewrite HI; lra.
  have [Zb [Eo [En [k [L [A1 A2]]]]]] := film_lit _ _ _ _ _ Hi Hs Ho HR HI' Ht Hb. rewrite -/om in Eo.
  have [[S1 [S2 [T0 [TN [Th [[m0 [M0 U0]] [mN [MN UN]]]]]]]] [Mi [Dir _]]] := film_stack_ok _ _ _ _ _ Hi.
  have [r' [t' [HF [-> ->]]]] := RT_normalized _ _ _ HRT.
  have [Rr [Tr [p [Er [Et [PR [PT [_ [Q Ep]]]]]]]]] := rt_powers x (t_top c) (t_bottom c) k r' t' 1%coqR L Dir Zb HF T0.
  have Sp := sqrt_lt_R0 _ Ht.
  have {Q} Q : Tr = p.
    apply: Q; first by rewrite Eo.
    move=> l md th. rewrite S1 /= => /andP [Hl Hl2] [Lm Lt] Pr.
    case: l Hl Hl2 Lm Lt => // l _ Hl Lm Lt. rewrite ltnS in Hl.
    have [q Eq] := nth_error_ex films l Hl. have [md' [M1 M2]] := Mi _ _ Eq.
    have E : md' = md by rewrite Lm in M1; case: M1. subst md'.
    apply: (uniform_lossless _ _ _ _ _ M2 Pr); rewrite ?Eo //.
    have := Hr q (List.nth_error_In _ _ Eq). rewrite ?C_mulE Eom. move: (eps_C q.2) => [e1 e2] /= ->. ring.
  rewrite En Er Et. exists (Rr * sqrt (t_top c))%coqR, (Tr * sqrt (t_top c))%coqR.
  split; first by rewrite ?C_mulE; apply: Ceq => /=; ring.
  split; first by rewrite ?C_mulE; apply: Ceq => /=; ring.
  split; first by apply: Rmult_le_pos => //; lra. split; first by apply: Rmult_le_pos => //; lra.
  have N1 : Cnorm2 (- 1 : C)%R = 1%coqR by rewrite ?C_oppE ?C_1E /Cnorm2 /=; ring.
  have N0 : Cnorm2 (0 : C)%R = 0%coqR by rewrite ?C_0E /Cnorm2 /=; ring.
  rewrite A1 A2 N1 N0 Eo HI in Ep. rewrite Q Ep.
  replace (- (2 * sqrt (t_top c) * 0 * 1))%coqR with 0%coqR by ring. rewrite exp_0. field. lra.
Qed.

(** * Simple stacks *)
Lemma index_positive om (e : R) n : (0 < e)%coqR -> (0 < Im om)%coqR -> index_of om (RtoC e) n -> n = RtoC (sqrt e).
Proof.
  move=> He Ho [N2 Ni]. have S : (sqrt e * sqrt e = e)%coqR by apply: sqrt_sqrt; lra. have Sp := sqrt_lt_R0 _ He.
  have F : Cmul (Csub n (RtoC (sqrt e))) (Cadd n (RtoC (sqrt e))) = C0.
    transitivity (Csub (Cmul n n) (Cmul (RtoC (sqrt e)) (RtoC (sqrt e)))); first ring.
    rewrite N2 -RtoC_mul S. ring.
  case: (Req_EM_T (Cnorm2 (Csub n (RtoC (sqrt e)))) 0) => [H|H].
    apply/Csub_eq0. exact/Cnorm2_zero.
  exfalso. case: (Req_EM_T (Cnorm2 (Cadd n (RtoC (sqrt e)))) 0) => [K|K].
    have E : n = Copp (RtoC (sqrt e)).
      transitivity (Csub (Cadd n (RtoC (sqrt e))) (RtoC (sqrt e))); first ring. rewrite ((Cnorm2_zero _).1 K). ring.
    move: Ni. rewrite E. move: (om) Ho => [o1 o2] /= Ho Ni. nra.
  have : Cmul (Csub n (RtoC (sqrt e))) (Cadd n (RtoC (sqrt e))) <> C0; last by [].
  apply: Cmul_neq_0 => Z; first by apply: H; apply/Cnorm2_zero.
  by apply: K; apply/Cnorm2_zero.
Qed.

Lemma film_vacuum argsort c freq films x r t :
  sorts argsort -> (0 < t_top c)%coqR -> t_bottom c = t_top c ->
  let om := Cmul (RtoC (2 * PI)%coqR) freq in
  (0 <= Re om)%coqR -> (0 < Im om)%coqR ->
  (forall p, List.In p films -> eps_C p.2 = RtoC (t_top c)) ->
  film_stack argsort c freq films = Ok x -> RT_Solve true x = Ok (r, t) ->
  r = C0 /\ t = RtoC (exp (- (2 * sqrt (t_top c) * Im om * (1 + List.fold_right Rplus 0 (map fst films)))))%coqR.
Proof.
  move=> Hs Ht Eb om HR HI Hr Hi HRT.
  have Ho : om <> C0 by move=> E; rewrite E /= in HI; lra.
  have Hb : (0 < t_bottom c)%coqR by rewrite Eb.
  have [ns [Sn [Hn HX]]] := film_rt _ _ _ _ _ _ _ Hs Ht Hb Ho HR (Rlt_le _ _ HI) Hi HRT.
  rewrite -/om in Hn HX.
  have Same : forall n' t', List.In (n', t') (zip ns (map fst films)) -> n' = RtoC (sqrt (t_top c)).
    move=> n' t' /(@List.In_nth_error (C * R)%type) [i Ei].
    have [p [Ep En]] : exists p, List.nth_error films i = Some p /\ List.nth_error ns i = Some n'.
      elim: ns films i Sn Ei {Hn HX Hr Hi} => [|a ns IH] [|q fs] [|i] //= [Sn].
        by move=> [<- _]; exists q.
      by move=> /(IH fs i Sn).
    apply: (index_positive om) => //. rewrite -(Hr p (List.nth_error_In _ _ Ep)). exact: Hn En Ep.
  have := film_same om (RtoC (sqrt (t_top c))) (zip ns (map fst films)) Same.
  move: HX. rewrite Eb. case: (film _ _ _ _) => [[X D] P] [HD [-> ->]] [EX EP].
  have Sp := sqrt_lt_R0 _ Ht.
  have -> : Cdiv X D = C0 by rewrite EX; field.
  have -> : Cdiv P D = film_phase om (RtoC (sqrt (t_top c))) (List.fold_right Rplus 0%coqR (List.map snd (zip ns (map fst films)))).
    rewrite EP. by field.
  rewrite phase_norm. split; first by rewrite /Cnorm2 /=; apply: Ceq => /=; ring.
  have -> : List.map snd (zip ns (map fst films)) = map fst films.
    elim: ns (films) Sn {Hn Same EP} => [|a ns IH] [|q fs] //= [Sn]. by rewrite IH.
  congr RtoC. have -> : (sqrt (t_top c) / sqrt (t_top c) = 1)%coqR by field; lra.
  rewrite Rmult_1_r -exp_plus. congr exp. ring.
Qed.

Lemma film_interface argsort c freq x r t :
  sorts argsort -> (0 < t_top c)%coqR -> (0 < t_bottom c)%coqR ->
  let om := Cmul (RtoC (2 * PI)%coqR) freq in
  om <> C0 -> (0 <= Re om)%coqR -> (0 <= Im om)%coqR ->
  film_stack argsort c freq [::] = Ok x -> RT_Solve true x = Ok (r, t) ->
  let loss := exp (- (2 * sqrt (t_top c) * Im om))%coqR in
  let n1 := sqrt (t_top c) in let n2 := sqrt (t_bottom c) in
  r = RtoC (loss * ((n1 - n2) / (n1 + n2)) ^ 2)%coqR
  /\ t = RtoC (loss * (4 * n1 * n2 / (n1 + n2) ^ 2))%coqR.
Proof.
  move=> Hs Ht Hb om Ho HR HI Hi HRT loss n1 n2.
  have [ns [Sn [_ HX]]] := film_rt _ _ _ _ _ _ _ Hs Ht Hb Ho HR HI Hi HRT.
  rewrite -/om -/loss -/n1 -/n2 in HX.
  have P1 : (0 < n1)%coqR := sqrt_lt_R0 _ Ht. have P2 : (0 < n2)%coqR := sqrt_lt_R0 _ Hb.
  case: ns Sn HX => // _ /= [_ [-> ->]].
  have D : forall u v : R, v <> 0%coqR -> Cdiv (RtoC u) (RtoC v) = RtoC (u / v)%coqR.
    move=> u v Hv. apply: Ceq; rewrite /Cdiv /Cinv /RtoC /Cnorm2 /=; field; auto.
  have -> : Csub (RtoC n2) (RtoC n1) = RtoC (n2 - n1)%coqR by apply: Ceq => /=; ring.
  have -> : Cadd (RtoC n2) (RtoC n1) = RtoC (n2 + n1)%coqR by rewrite RtoC_add.
  rewrite -RtoC_mul !D; try lra. rewrite /Cnorm2 /=. split; congr RtoC; field; lra.
Qed.

(** One film: Airy's formulas *)
Lemma film_single argsort c freq th e x r t :
  sorts argsort -> (0 < t_top c)%coqR -> (0 < t_bottom c)%coqR ->
  let om := Cmul (RtoC (2 * PI)%coqR) freq in
  (0 <= Re om)%coqR -> (0 < Im om)%coqR ->
  film_stack argsort c freq [:: (th, e)] = Ok x -> RT_Solve true x = Ok (r, t) ->
  let loss := exp (- (2 * sqrt (t_top c) * Im om))%coqR in
  let n0 := RtoC (sqrt (t_top c)) in let n2 := RtoC (sqrt (t_bottom c)) in
  exists n1, index_of om (eps_C e) n1 /\
    let d := film_phase om n1 th in
    let r01 := ((n1 - n0) / (n1 + n0))%C in let r12 := ((n2 - n1) / (n2 + n1))%C in
    let t01 := (RtoC 2 * n1 / (n1 + n0))%C in let t12 := (RtoC 2 * n2 / (n2 + n1))%C in
    r = RtoC (loss * Cnorm2 ((r01 + r12 * (d * d)) / (C1 + r01 * r12 * (d * d)))%C)%coqR
    /\ t = RtoC (loss * (sqrt (t_top c) / sqrt (t_bottom c)) * Cnorm2 (t01 * t12 * d / (C1 + r01 * r12 * (d * d)))%C)%coqR.
Proof.
  move=> Hs Ht Hb om HR HI Hi HRT loss n0 n2.
  have Ho : om <> C0 by move=> E; rewrite E /= in HI; lra.
  have [ns [Sn [Hn HX]]] := film_rt _ _ _ _ _ _ _ Hs Ht Hb Ho HR (Rlt_le _ _ HI) Hi HRT.
  rewrite -/om -/loss -/n0 -/n2 in Hn HX. case: ns Sn Hn HX => [|n1 [|]] // _ Hn HX.
  have I1 := Hn 0%N n1 (th, e) erefl erefl. exists n1. split=> //.
  have NZ : forall s : R, (0 < s)%coqR -> Cadd n1 (RtoC s) <> C0.
    move=> s Hs0 E. have En : n1 = Copp (RtoC s).
      transitivity (Csub (Cadd n1 (RtoC s)) (RtoC s)); first ring. rewrite E. ring.
    case: I1 => _. rewrite En. move: (om) HI => [o1 o2] /= K1 K2. nra.
  have Z1 : Cadd n1 n0 <> C0 by apply: NZ; exact: sqrt_lt_R0.
  have Z2 : Cadd n2 n1 <> C0.
    have -> : Cadd n2 n1 = Cadd n1 n2 by ring. apply: NZ; exact: sqrt_lt_R0.
  have A := film_airy om n0 n1 th n2 Z1 Z2. move: HX A. rewrite /zip /map /fst /film => [[HD [-> ->]]] A.
  have [E1 E2] := A HD. by rewrite E1 E2.
Qed.

(** [_init_trcwa] on a 1x1 grid is such a stack. *)
Lemma init_is_film_stack argsort eig c N grid f x :
  init_trcwa argsort eig c 1 1 N grid f = Ok x ->
  exists ts, size ts = N /\ (forall i, (i < N)%N -> List.nth_error ts i = layer_thickness (t_thick c) i)
    /\ film_stack argsort c (RtoC f * (1 + Ci * RtoC (/ (2 * Q_ABS))%coqR)) (zip ts (mkseq (fun i => ECplx (grid 0%N 0%N i)) N)) = Ok x.
Proof.
  rewrite /init_trcwa. cbv zeta. rewrite /bind. case E1: (material_layers _ _ _ _ _) => [layers|] //.
  have [_ [ts [Sz [Ht El]]]] := material_plain c 1 1 N grid layers isT isT E1. subst layers. move=> H.
  exists ts. split=> //. split; first by move=> i Hi; have [th [-> ->]] := Ht i Hi.
  by rewrite /film_stack /bind.
Qed.
