(** From [_init_trcwa] to reflection and transmission. *)
From Coq Require Import Reals Lra Psatz ZArith String Lia.
From mathcomp Require Import all_ssreflect all_algebra.
From Verif Require Import Base Cplx CplxLemmas CField Model_Lattice Spec_Lattice Proof_Lattice Proof_Lattice2
  Proof_Lattice3 Proof_Lattice4 Model_Stack Model_Modes Spec_Modes Model_TRCWA Spec_TRCWA Spec_Passive Proof_Smatrix Proof_FFT
  Proof_Passive Proof_Passive2 Proof_Passive3 Proof_Outer Proof_RT Proof_Init Proof_Init2 Proof_Pattern.
Import GRing.Theory.
Delimit Scope R_scope with coqR.
Delimit Scope Z_scope with coqZ.
Local Open Scope ring_scope.

Lemma first_uniform (l : seq (layer_call R eps_val unit)) e : forall s,
  List.nth_error (Uniform_ep_list s) 0 = Some e -> List.nth_error (Uniform_ep_list (add_layers l s)) 0 = Some e.
Proof.
  elim: l => [|y l IH] s H //. apply: IH. move: H. case: s => ? ? ? u ? ? ? ? ? ?. by case: y; case: u.
Qed.

Lemma omega_pos f : (0 < f)%coqR -> (0 < Re (omega_of f))%coqR /\ (0 < Im (omega_of f))%coqR /\ omega_of f <> C0.
Proof.
  move=> Hf. have Hp := PI_RGT_0. have P : (0 < 2 * PI * f)%coqR by nra.
  split=> //. split; first by rewrite /omega_of /=; lra.
  move=> E. have : Re (omega_of f) = 0%coqR by rewrite E. rewrite /omega_of /=. lra.
Qed.

(** Everything about the object except its material layers. *)
Lemma frame_ok argsort c om layers G (r0 : ready G) a0 bN :
  sorts argsort ->
  Init_Setup argsort (trcwa_object c om layers) 1%coqR 0%coqZ = Ok (existT _ G r0) ->
  MakeExcitationPlanewave (size G) 0%coqR 0%coqR 0 0%coqR 1 0%coqR 0%coqZ "forward" = Ok (a0, bN) ->
  s_norm r0 = RtoC (sqrt (t_top c)) /\ s_omega r0 = om /\ real_row (s_kx r0) /\ real_row (s_ky r0) /\ bN = 0
  /\ exists k : 'I_(size G), k = 0%N :> nat /\ normal (s_kx r0) (s_ky r0) k
      /\ in_order k a0 /\ a0 (lshift _ k) 0 = - 1 /\ a0 (rshift _ k) 0 = 0.
Proof.
  move=> Hs E2 E4.
  have [ep0 [lk1 [lk2 [n [H1 [H2 [H3 [H4 [H5 [H6 [H7 [H8 [H9 H10]]]]]]]]]]]]] := setup_ok argsort (trcwa_object c om layers) _ _ erefl erefl E2.
  have Ee : ep0 = EReal (t_top c).
    have F := first_uniform (layers ++ [:: Uniform 1%coqR (EReal (t_bottom c))]) (EReal (t_top c))
      (Add_LayerUniform 1%coqR (EReal (t_top c)) empty_stack) erefl.
    move: H1. rewrite /trcwa_object /= in F *. rewrite F. by move=> [<-].
  subst ep0. move: H2. rewrite /=. case: Rlt_dec => // _ [H2].
  rewrite -H2. split=> //. split=> //.
  split; first by move=> j; have [-> _] := H9 j.
  split; first by move=> j; have [_ ->] := H9 j.
  have [Hn [Eb Ha]] := excitation_ok _ _ _ E4. split=> //.
  have k0 : (0 < size G)%N := Hn. exists (Ordinal k0). split=> //.
  have [Hx Hy] := Ha (Ordinal k0). split.
  - have Ind : independent lk1 lk2.
      move: H3. rewrite /=. case: (t_L1 c) => [a|] //; case: (t_L2 c) => [b|] //.
      case: a => [|a1 [|a2 [|]]] //; case: b => [|b0 [|b1 [|]]] //.
      exact: (reciprocate_independent (a1, a2) (b0, b1)).
    have G0 : List.nth 0 G (0, 0)%coqZ = (0, 0)%coqZ.
      move: H4. rewrite /=. case: (t_NG c) => [nG|] // H4.
      have [Hle|Hgt] : ((nG <= 0) \/ (1 <= nG))%coqZ by lia.
        by rewrite (no_orders _ _ _ _ Ind Hle) in H4.
      have [G' [EG [_ [_ [_ Hz]]]]] := orders_selected _ _ _ _ Hs Ind Hgt.
      rewrite EG in H4. case: H4 => <- _. case: G' Hz {EG} => // g G' Hz. by have := Hz ltac:(by []).
    have [X Y] := H9 (Ordinal k0). cbv zeta in X, Y. rewrite G0 in X Y. split; rewrite ?X ?Y.
    + apply: Ceq => //=. ring.
    + apply: Ceq => //=. ring.
  - split=> //. move=> j Hj. have [J1 J2] := Ha j. split=> //. rewrite J1. case: eqP => // E.
    exfalso. move/eqP: Hj. apply. exact: val_inj.
Qed.

Lemma init_frame argsort eig c Nx Ny N grid f x :
  init_trcwa argsort eig c Nx Ny N grid f = Ok x -> sorts argsort ->
  s_norm (x_ready x) = RtoC (sqrt (t_top c))
  /\ real_row (s_kx (x_ready x)) /\ real_row (s_ky (x_ready x))
  /\ x_direction x = "forward"%string /\ x_bN x = 0
  /\ exists k : 'I_(size (x_G x)), k = 0%N :> nat /\ normal (s_kx (x_ready x)) (s_ky (x_ready x)) k
      /\ in_order k (x_a0 x) /\ x_a0 x (lshift _ k) 0 = - 1 /\ x_a0 x (rshift _ k) 0 = 0.
Proof.
  move=> /init_inv [layers [r0 [E1 [E2 [E3 [E4 E5]]]]]] Hs.
  have [F1 [_ F2]] := frame_ok _ _ _ _ _ _ _ _ Hs E2 E4.
  have [I1 [I2 I3]] : s_kx (x_ready x) = s_kx r0 /\ s_ky (x_ready x) = s_ky r0 /\ s_norm (x_ready x) = s_norm r0.
    move: E3. case: ifP => _; last by move=> [->].
    rewrite /GridLayer_geteps /bind. by case: (geteps_loop _ _ _ _ _ _ _ _ _ _ _) => // ms [<-].
  rewrite I1 I2 I3. have [F3 [F4 F5]] := F2. by [].
Qed.

Lemma init_lit argsort eig c Nx Ny N grid f x :
  init_trcwa argsort eig c Nx Ny N grid f = Ok x -> sorts argsort -> (0 < f)%coqR ->
  (0 < t_top c)%coqR -> (0 < t_bottom c)%coqR ->
  exists k : 'I_(size (x_G x)), k = 0%N :> nat
    /\ lit (x_ready x) (t_top c) (t_bottom c) k (x_a0 x)
    /\ x_a0 x (lshift _ k) 0 = - 1 /\ x_a0 x (rshift _ k) 0 = 0.
Proof.
  move=> Hi Hs Hf Ht Hb. have [_ [Rx [Ry [_ [_ [k [Ek [Nk [Ik [A1 A2]]]]]]]]]] := init_frame _ _ _ _ _ _ _ _ _ Hi Hs.
  have [O [Eo _]] := init_object _ _ _ _ _ _ _ _ _ Hi. have [P1 [P2 P3]] := omega_pos f Hf.
  case: O => S1 [S2 [T0 [TN [Th [M0 MN]]]]]. exists k. split=> //. split=> //.
  constructor => //; try (rewrite Eo; (done || lra)); by rewrite S1 ?S2.
Qed.

Lemma RT_normalized (x : excited) r t : RT_Solve true x = Ok (r, t) ->
  exists r' t', RT_Solve false x = Ok (r', t') /\ r = r' * s_norm (x_ready x) /\ t = t' * s_norm (x_ready x).
Proof.
  rewrite /RT_Solve /bind /last_mode.
  case E1: (SolveExterior _ _ _ _) => [[aN b0]|] //=.
  case E2: (get_mode _ 0) => [m0|] //. case E3: (GetZPoyntingFlux _ _ _ m0) => [[f1 g1]|] //.
  case E4: (get_mode _ _) => [mN|] //. case E5: (GetZPoyntingFlux _ _ _ mN) => [[f2 g2]|] //.
  case: ifP => _.
    move=> [<- <-]. by eexists _, _.
  case: ifP => // _ [<- <-]. by eexists _, _.
Qed.

Lemma passive_eps_omega f e : (0 < f)%coqR -> passive_eps e -> (0 <= Im (e * omega_of f)%R)%coqR.
Proof.
  move=> Hf. rewrite /passive_eps /omega_of ?C_mulE. move: e => [e1 e2] /= H. have Hp := PI_RGT_0.
  match goal with |- (0 <= ?t)%coqR => replace t with ((2 * PI * f) * (e2 + e1 / (2 * 10 ^ 5)))%coqR end.
    apply: Rmult_le_pos; [nra | exact: H].
  simpl. field.
Qed.

Lemma init_energy argsort eig c Nx Ny N grid f x r t :
  sorts argsort -> (0 < f)%coqR -> (0 < t_top c)%coqR -> (0 < t_bottom c)%coqR ->
  (forall i th, (i < N)%N -> layer_thickness (t_thick c) i = Some th -> (0 <= th)%coqR) ->
  (forall a b i, (a < Nx)%N -> (b < Ny)%N -> (i < N)%N -> passive_eps (grid a b i)) ->
  init_trcwa argsort eig c Nx Ny N grid f = Ok x -> RT_Solve true x = Ok (r, t) ->
  (Nx = 1%N /\ Ny = 1%N \/ eigenpairs eig
     /\ forall i, (i < N)%N -> resolved_entries (mkGrid2 Nx Ny (fun a b => grid a b i)) (x_G x)) ->
  exists Rr Tr, r = RtoC Rr /\ t = RtoC Tr /\ (0 <= Rr)%coqR /\ (0 <= Tr)%coqR
    /\ (Rr + Tr <= exp (- (2 * sqrt (t_top c) * Im (omega_of f))))%coqR.
Proof.
  move=> Hs Hf Ht Hb Hth Hp Hi HR Hc.
  have [En [_ [_ [Dir [Zb _]]]]] := init_frame _ _ _ _ _ _ _ _ _ Hi Hs.
  have [k [_ [L [A1 A2]]]] := init_lit _ _ _ _ _ _ _ _ _ Hi Hs Hf Ht Hb.
  have [O [Eo [_ M]]] := init_object _ _ _ _ _ _ _ _ _ Hi. case: O => S1 [S2 [T0 [TN [Th _]]]].
  have [r' [t' [HF [-> ->]]]] := RT_normalized _ _ _ HR.
  have [Rr [Tr [p [Er [Et [PR [PT [Q [_ Ep]]]]]]]]] := rt_powers x (t_top c) (t_bottom c) k r' t' 1%coqR L Dir Zb HF T0.
  have Sp := sqrt_lt_R0 _ Ht. have [P1 [P2 P3]] := omega_pos f Hf.
  have {Q} Q : (Tr <= p)%coqR.
    apply: Q => l md th. rewrite S1 /= => /andP [Hl Hl2] [Lm Lt] Pr.
    case: l Hl Hl2 Lm Lt => // l _ Hl Lm Lt. rewrite ltnS in Hl. split; last by apply: (Hth l) => //; rewrite -Th.
    have [md' [M1 M2]] := M l Hl. have E : md' = md by rewrite Lm in M1; case: M1. subst md'.
    move: M2. rewrite /layer_mode /=. case: ifP => [/andP [/eqP Ex /eqP Ey]|Hn] M2.
    - apply: (uniform_passive _ _ _ _ _ M2 Pr); rewrite Eo //. apply: passive_eps_omega => //. by apply: Hp; rewrite ?Ex ?Ey.
    - case: Hc => [[Ex Ey]|[Ei Hr]]; first by rewrite Ex Ey in Hn.
      apply: (pattern_passive eig _ _ _ _ _ Ei M2 Pr); rewrite ?Eo //; first exact: Hr.
      move=> a b Ha Hb'. apply: passive_eps_omega => //. exact: Hp.
  rewrite En Er Et. exists (Rr * sqrt (t_top c))%coqR, (Tr * sqrt (t_top c))%coqR.
  split; first by rewrite ?C_mulE; apply: Ceq => /=; ring.
  split; first by rewrite ?C_mulE; apply: Ceq => /=; ring.
  split; first by apply: Rmult_le_pos => //; lra. split; first by apply: Rmult_le_pos => //; lra.
  have N1 : Cnorm2 (- 1 : C)%R = 1%coqR by rewrite ?C_oppE ?C_1E /Cnorm2 /=; ring.
  have N0 : Cnorm2 (0 : C)%R = 0%coqR by rewrite ?C_0E /Cnorm2 /=; ring.
  rewrite A1 A2 N1 N0 Eo Rmult_1_r in Ep. set E := exp _ in Ep *.
  have K : (Tr + Rr <= E / sqrt (t_top c))%coqR.
    rewrite Ep in Q. replace (E / sqrt (t_top c))%coqR with (E * (1 + 0) / sqrt (t_top c))%coqR by (field; lra). lra.
  have {}K := Rmult_le_compat_r _ _ _ (Rlt_le _ _ Sp) K.
  replace (E / sqrt (t_top c) * sqrt (t_top c))%coqR with E in K by (field; lra). lra.
Qed.
