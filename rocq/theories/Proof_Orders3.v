(** Which orders carry power. *)
From Coq Require Import Reals Lra ZArith String Lia.
From mathcomp Require Import all_ssreflect all_algebra.
From Verif Require Import Base Cplx CplxLemmas CField Model_Lattice Spec_Lattice Proof_Lattice Proof_Lattice2
  Proof_Lattice3 Proof_Lattice4 Model_Stack Model_Modes Spec_Modes Model_TRCWA Spec_TRCWA Spec_Passive Spec_Symmetry
  Proof_Smatrix Proof_FFT Proof_Modes Proof_Passive3 Proof_RT Proof_Init Proof_Init2 Proof_TRCWA Proof_Pattern2 Proof_Basis Proof_Basis2
  Proof_Symmetry Proof_Symmetry2 Proof_Symmetry3 Model_Queries Spec_Orders Proof_Orders Proof_Orders2.
Import GRing.Theory.
Delimit Scope R_scope with coqR.
Delimit Scope Z_scope with coqZ.
Local Open Scope ring_scope.

Lemma symmetric_orders argsort eig eig' c Nx Ny N grid grid' f x x' nrm rs ts e1 e2 s t :
  sorts argsort -> usable c -> eigenbasis eig -> eigenbasis eig' ->
  is_sign e1 -> is_sign e2 -> lattice_symmetric c e1 e2 ->
  (forall a b i, (a < Nx)%N -> (b < Ny)%N -> (i < N)%N -> grid' a b i = grid (moved Nx e1 s a) (moved Ny e2 t b) i) ->
  init_trcwa argsort eig c Nx Ny N grid f = Ok x -> init_trcwa argsort eig' c Nx Ny N grid' f = Ok x' ->
  (Nx = 1%N /\ Ny = 1%N \/ forall i, (i < N)%N -> resolved_entries (mkGrid2 Nx Ny (fun a b => grid a b i)) (x_G x)
                                    /\ resolved_entries (mkGrid2 Nx Ny (fun a b => grid' a b i)) (x_G x)) ->
  RT_Solve_byorder nrm x = Ok (rs, ts) ->
  exists rs' ts', RT_Solve_byorder nrm x' = Ok (rs', ts') /\
    forall i, exists j, order_at x j = (e1 * (order_at x' i).1, e2 * (order_at x' i).2)%coqZ
      /\ rs' i 0 = rs j 0 /\ ts' i 0 = ts j 0.
Proof.
  move=> Hs Hu He He' S1 S2 HL Hg I I' HR HRT.
  have [G [r [r' [a [b [Ex [Ex' [Eo [Ekx [Eky En]]]]]]]]]] := frames _ _ _ _ _ _ _ _ _ _ _ _ _ _ _ I I'.
  have [O [_ [Sh M]]] := init_object _ _ _ _ _ _ _ _ _ I. have [O' [_ [_ M']]] := init_object _ _ _ _ _ _ _ _ _ I'.
  have [_ [Eex [lk1 [lk2 [n [_ [HRe [HG [_ Hk]]]]]]]]] := init_facts _ _ _ _ _ _ _ _ _ I.
  subst x x'. cbn [x_ready x_G x_a0 x_bN] in O, O', M, M', Eex, HG, Hk, HR.
  have [ND [HC H0]] := mirror_closed argsort c e1 e2 lk1 lk2 G n Hs Hu S1 S2 HL HRe HG.
  have HA := lattice_axes c e1 e2 lk1 lk2 S1 S2 HL HRe.
  have [sg [Inj Hsg]] := order_map e1 e2 G S1 S2 ND HC.
  have [Gpos [Eb Ha]] := excitation_ok _ _ _ Eex.
  pose ph (i : 'I_(size G)) := shift_phase Nx Ny e1 e2 s t (List.nth i G (0, 0)%coqZ).
  have Ph : forall i, Cconj (ph i) * ph i = 1 by move=> i; exact: shift_phase_norm.
  pose P := monomial sg ph. have UP : unitary P := monomial_unitary sg ph Inj Ph.
  have Sc : forall e, is_sign e -> RtoC (IZR e) = 1 \/ RtoC (IZR e) = -1.
    move=> e [->|->]; [left|right]; apply: Ceq; rewrite /=; ring.
  have K : forall i : 'I_(size G), s_kx r 0 (sg i) = RtoC (IZR e1) * s_kx r 0 i /\ s_ky r 0 (sg i) = RtoC (IZR e2) * s_ky r 0 i.
    move=> i. have [-> ->] := Hk (sg i). have [-> ->] := Hk i. rewrite Hsg.
    have [A1 A2] := HA (List.nth i G (0, 0)%coqZ). move: A1 A2. rewrite /recip /= => A1 A2.
    split; apply: Ceq; rewrite /=; try ring.
      rewrite (Rmult_comm (fst lk1)) (Rmult_comm (fst lk2)) A1. ring.
    rewrite (Rmult_comm (snd lk1)) (Rmult_comm (snd lk2)) A2. ring.
  have Hx : P *m diag_mx (s_kx r) = RtoC (IZR e1) *: (diag_mx (s_kx r) *m P) by apply: monomial_diag => i; case: (K i).
  have Hy : P *m diag_mx (s_ky r) = RtoC (IZR e2) *: (diag_mx (s_ky r) *m P) by apply: monomial_diag => i; case: (K i).
  have UD := twist_unitary P _ _ UP (Sc _ S1) (Sc _ S2).
  have zero : forall i : 'I_(size G), (sg i == 0%N :> nat) = (i == 0%N :> nat) /\ (i = 0%N :> nat -> ph i = 1).
    move=> i. have N0 : List.nth 0 G (0, 0)%coqZ = (0, 0)%coqZ.
      rewrite -{2}H0. apply: List.nth_indep. exact/ltP.
    have Z : forall k : 'I_(size G), k = 0%N :> nat -> sg k = k.
      move=> k Ek. apply: val_inj. apply: (proj1 (List.NoDup_nth G (0, 0)%coqZ) ND _ _ (ltP (ltn_ord _)) (ltP (ltn_ord _))).
      rewrite /= Hsg Ek N0 /mirror_order /=. congr pair; lia.
    split.
      apply/eqP/eqP => E; last by rewrite Z.
      pose z : 'I_(size G) := Ordinal Gpos. have Ez : sg i = sg z by rewrite (Z z) //; apply: val_inj; rewrite /= E.
      by rewrite (Inj _ _ Ez).
    move=> Ei. rewrite /ph Ei N0 /shift_phase /=. have -> : forall u v w : R, (u * (IZR (e1 * 0) * v + IZR (e2 * 0) * w) = 0)%coqR.
      move=> u w w'. rewrite !Z.mul_0_r. ring.
    exact: Cis_0.
  exists (\col_i rs (sg i) 0), (\col_i ts (sg i) 0). split; last first.
    move=> i. exists (sg i). by rewrite !(mxE matrix_key) /order_at /= Hsg.
  apply: (byorder_twisted G r r' a b c N nrm sg ph _ _ rs ts Inj Ph (Sc _ S1) (Sc _ S2) UD) => //.
  - rewrite /twist -[a]vsubmxK mul_block_col !mul0mx addr0 add0r. congr col_mx; apply/colP => i; last first.
      rewrite -scalemxAl mxE monomial_r !mxE. have [_ ->] := Ha (sg i). have [_ ->] := Ha i. by rewrite !mulr0.
    rewrite monomial_r !mxE. have [-> _] := Ha (sg i). have [-> _] := Ha i. have [-> Z1] := zero i.
    case: eqP => [/Z1 ->|_]; by rewrite ?mul1r ?mulr0.
  - by rewrite Eb mulmx0.
  - move=> e md. exact: twist_uniform UP Hx Hy (Sc _ S1) (Sc _ S2) _ e md.
  - move=> i Hi. have [md [A1 A2]] := M i Hi. have [md' [B1 B2]] := M' i Hi. exists md, md'. do 2 (split=> //).
    move: A2 B2. rewrite /layer_mode /= Eo Ekx Eky. case: ifP => [/andP [/eqP E1 /eqP E2]|Hn].
      move=> A2. rewrite Hg ?E1 ?E2 //.
      have -> : forall e s, moved 1 e s 0 = 0%N by move=> e s0; rewrite /moved Z.mod_1_r.
      have -> : forall e s, moved 1 e s 0 = 0%N by move=> e s0; rewrite /moved Z.mod_1_r.
      rewrite A2 => -[<-]. eexists. exact: twist_uniform UP Hx Hy (Sc _ S1) (Sc _ S2) _ _ _ A2.
    case: HR => [[E1 E2]|HR]; first by rewrite E1 E2 in Hn.
    have [R1 R2] := HR i Hi. move=> [ei [e2' [F1 [F2 F3]]]] [ei' [e2'' [F1' [F2' F3']]]].
    have [E [HE [UE [Ei E2]]]] := eps_fft_resolved _ _ _ _ F1 R1. have [E' [HE' [UE' [Ei' E2']]]] := eps_fft_resolved _ _ _ _ F1' R2.
    subst ei e2' ei' e2''. have HP : E' *m P = P *m E.
      apply: monomial_conj => // k l. rewrite HE HE'.
      rewrite (fourier_moved (mkGrid2 Nx Ny (fun a b => grid a b i)) _ e1 e2 s t _ _ S1 S2) //; last first.
        by move=> u w /= Hu' Hw; apply: Hg.
      rewrite mulrAC /ph -(shift_phase_sub Nx Ny e1 e2 s t (List.nth k G (0, 0)%coqZ) (List.nth l G (0, 0)%coqZ)).
      congr (_ * _). rewrite /order_diff !Hsg /mirror_order /=. by rewrite !Z.mul_sub_distr_l.
    apply: (twist_same _ _ P _ _ UP Hx Hy (Sc _ S1) (Sc _ S2) eig eig' _ _ _ E E' md md' He He' _ HP F2 F2') => //.
    exact: conj_inverse.
Qed.

(** * Patterns that repeat within the cell *)
Lemma eps_fft_entries g G ei e2 : Epsilon_fft (1 / INR (g_nx g) / INR (g_ny g))%coqR (Iso g) G = Ok (ei, e2) ->
  exists E : 'M[C]_(size G), (forall i j : 'I_(size G), E i j = fourier g (order_diff G i j).1 (order_diff G i j).2)
    /\ E \in unitmx /\ ei = invmx E /\ e2 = block_mx (map_mx threshold E) 0 0 (map_mx threshold E).
Proof.
  rewrite /Epsilon_fft /bind. case EC: (get_conv _ g G) => [E|] //. case EI: (inverse E) => [iE|] // [<- <-].
  have HE := conv_entry _ _ _ EC. have [U EiE] := inverse_ok _ _ EI. exists E. do 3 (split=> //).
  have T0 : map_mx threshold (0 : 'M[C]_(size G)) = 0 by apply/matrixP => i j; rewrite !mxE threshold0.
  by rewrite map_block_mx T0.
Qed.

(** A wave that vanishes in an order carries no power in it. *)
Lemma flux_order_zero {n} omega (kx ky : 'rV[C]_n) e md (a b : 'cV[C]_(n + n)) f g i :
  uniform_layer omega kx ky e = Ok md ->
  a (lshift n i) 0 = 0 -> a (rshift n i) 0 = 0 -> b (lshift n i) 0 = 0 -> b (rshift n i) 0 = 0 ->
  GetZPoyntingFlux_byorder a b omega md = Ok (f, g) -> f i 0 = 0 /\ g i 0 = 0.
Proof.
  move=> /uniform_layer_ok [_ [_ [Ep _]]] A1 A2 B1 B2. rewrite /GetZPoyntingFlux_byorder /Flux_xy /bind Ep !mul1mx.
  case: (Flux_A omega md) => [A|] // [<- <-]. cbn [fst snd]. rewrite !fold_at !(mxE matrix_key) A1 A2 B1 B2.
  move: (A *m a) (A *m b) => u v.
  have Z : forall z : C, RtoC (Re (Cmul z 0)) = 0 by move=> [p q]; apply: Ceq; rewrite /=; ring.
  have Z' : forall z : C, RtoC (- Re (Cmul z 0)%R)%coqR = 0 by move=> [p q]; apply: Ceq; rewrite /=; ring.
  have Zc : Cconj 0 = 0 := conj0.
  rewrite !Zc !mul0r !mulr0 subr0 mulr0 Zc !addr0. split; [rewrite ?Z|rewrite ?Z'].
  all: by apply: Ceq; rewrite /=; ring.
Qed.

Definition phase_of (u v : R) (g : Z * Z) : C := Cis (2 * PI * (u * IZR g.1 + v * IZR g.2))%coqR.

Lemma selection argsort eig c Nx Ny N grid f x nrm rs ts (u v : R) :
  sorts argsort -> usable c -> eigenbasis eig ->
  init_trcwa argsort eig c Nx Ny N grid f = Ok x ->
  (Nx = 1%N /\ Ny = 1%N \/ exists s t, u = (IZR s / INR Nx)%coqR /\ v = (IZR t / INR Ny)%coqR
     /\ forall i, (i < N)%N -> repeats Nx Ny s t (fun a b => grid a b i)) ->
  RT_Solve_byorder nrm x = Ok (rs, ts) ->
  forall i, phase_of u v (order_at x i) <> 1 -> rs i 0 = 0 /\ ts i 0 = 0.
Proof.
  move=> Hs Hu He I HR HRT i Hi.
  have [O [_ [_ M]]] := init_object _ _ _ _ _ _ _ _ _ I.
  have [_ [_ [lk1 [lk2 [n [_ [HRe [HG _]]]]]]]] := init_facts _ _ _ _ _ _ _ _ _ I.
  have [_ [_ [_ [Dir [Zb [k [Ek [_ [Ik _]]]]]]]]] := init_frame _ _ _ _ _ _ _ _ _ I Hs.
  have [_ [_ H0]] := mirror_closed argsort c 1 1 lk1 lk2 (x_G x) n Hs Hu (or_introl erefl) (or_introl erefl) (or_introl erefl) HRe HG.
  pose ph j := phase_of u v (order_at x j). pose id_ (j : 'I_(size (x_G x))) := j.
  have Inj : injective id_ by [].
  have Ph : forall j, Cconj (ph j) * ph j = 1.
    move=> j. rewrite /ph /phase_of -Cis_opp -Cis_add Rplus_opp_l. exact: Cis_0.
  pose P := monomial id_ ph. have UP : unitary P := monomial_unitary id_ ph Inj Ph.
  have Hd : forall w : 'rV[C]_(size (x_G x)), P *m diag_mx w = 1 *: (diag_mx w *m P).
    move=> w. apply: monomial_diag => j. by rewrite mul1r.
  have S : (1 : C) = 1 \/ (1 : C) = -1 by left.
  pose D := twist P 1 1. have UD : unitary D := twist_unitary P _ _ UP S S.
  have TA : forall (w : 'cV[C]_(size (x_G x) + size (x_G x))) j, (D *m w) (lshift _ j) 0 = ph j * w (lshift _ j) 0 /\ (D *m w) (rshift _ j) 0 = ph j * w (rshift _ j) 0.
    move=> w j. have := twist_at id_ ph 1 1 w j. by rewrite !mul1r.
  have P0 : ph k = 1.
    rewrite /ph /phase_of /order_at Ek. have -> : List.nth 0 (x_G x) (0, 0)%coqZ = (0, 0)%coqZ.
      rewrite -{2}H0. apply: List.nth_indep. apply/ltP. rewrite -Ek. exact: ltn_ord.
    have -> : (2 * PI * (u * IZR (0, 0)%coqZ.1 + v * IZR (0, 0)%coqZ.2) = 0)%coqR by rewrite /=; ring. exact: Cis_0.
  have Da : D *m x_a0 x = x_a0 x.
    apply/colP => j. rewrite -(splitK j). case: (split j) => l /=; have [A1 A2] := TA (x_a0 x) l; rewrite ?A1 ?A2;
      (case: (eqVneq l k) => [->|Nl]; [by rewrite P0 mul1r|have [Z1 Z2] := Ik l Nl; by rewrite ?Z1 ?Z2 mulr0]).
  have Db : D *m x_bN x = x_bN x by rewrite Zb mulmx0.
  have HU : forall e md, uniform_layer (s_omega (x_ready x)) (s_kx (x_ready x)) (s_ky (x_ready x)) e = Ok md -> rebased D md md (invmx D).
    move=> e md. exact: (twist_uniform _ _ P 1 1 UP (Hd _) (Hd _) S S _ e md).
  have HS : forall l, (l < N)%N -> exists md md', List.nth_error (s_modes (x_ready x)) l.+1 = Some (Some md) /\
     List.nth_error (s_modes (x_ready x)) l.+1 = Some (Some md') /\ same_layer D md md'.
    move=> l Hl. have [md [A1 A2]] := M l Hl. exists md, md. do 2 (split=> //).
    move: A2. rewrite /layer_mode. case: ifP => [_|Hn].
      move=> A2. exists (invmx D). exact: HU A2.
    case: HR => [[E1 E2]|[s [t [Eu [Ev HR]]]]]; first by rewrite /= E1 E2 in Hn.
    move=> [ei [e2 [F1 [F2 F3]]]]. have [E [HE [UE [Ei E2]]]] := eps_fft_entries _ _ _ _ F1. subst ei e2.
    have Q : forall j j' : 'I_(size (x_G x)), E j j' * ph j' = ph j * E j j'.
      move=> j j'. rewrite HE. set g := mkGrid2 _ _ _.
      have FM := fourier_moved g g 1 1 s t (order_diff (x_G x) j j').1 (order_diff (x_G x) j j').2 (or_introl erefl) (or_introl erefl) erefl erefl.
      have HM : forall a b, (a < g_nx g)%N -> (b < g_ny g)%N -> g_at g a b = g_at g (moved (g_nx g) 1 s a) (moved (g_ny g) 1 t b).
        move=> a b Ha Hb. rewrite /moved !Z.mul_1_l. exact: (HR l Hl a b Ha Hb).
      have {HM} FM := FM HM.
      rewrite {1}FM !Z.mul_1_l mulrAC. congr (_ * _).
      rewrite /shift_phase /ph /phase_of -!Cis_add. congr Cis. rewrite /order_diff /order_at !Z.mul_1_l /= !minus_IZR Eu Ev.
      ring.
    have HP : E *m P = P *m E by apply: monomial_conj => // j j'; exact: Q.
    have HT : map_mx threshold E *m P = P *m map_mx threshold E.
      apply: monomial_conj => // j j'. rewrite !(mxE map_mx_key).
      case: (eqVneq (E j j') 0) => [->|NE]; first by rewrite threshold0 mul0r mulr0.
      have := Q j j'. rewrite [RHS]mulrC => /(mulfI NE) ->. by rewrite mulrC.
    apply: (twist_same _ _ P 1 1 UP (Hd _) (Hd _) S S eig eig _ _ _ (map_mx threshold E) (map_mx threshold E) md md He He _ HT F2 F2) => //.
    exact: conj_inverse.
  have [aN [b0 [m0 [mN [f1 [g1 [f2 [g2 [E1 [E2 [E3 [E4 [E5 E6]]]]]]]]]]]]] := byorder_forward x nrm rs ts HRT Dir.
  have := exterior_twisted _ _ _ _ _ c N D UD Da Db O O erefl erefl erefl HU HS _ _ E1. rewrite E1 => -[DaN Db0].
  have ZZ : forall w : 'cV[C]_(size (x_G x) + size (x_G x)), D *m w = w -> w (lshift _ i) 0 = 0 /\ w (rshift _ i) 0 = 0.
    move=> w Hw. have [T1 T2] := TA w i. rewrite Hw in T1 T2.
    have Z : forall y : C, y = ph i * y -> y = 0.
      move=> y Hy. case: (eqVneq y 0) => // Ny'. exfalso. apply: Hi.
      apply: (mulIf Ny'). by rewrite mul1r -Hy.
    split; exact: Z.
  case: O => Z1 [_ [_ [_ [_ [[m0' [M0 U0]] [mN' [MN UN]]]]]]].
  rewrite M0 in E2. case: E2 => ?; subst m0'. rewrite Z1 [N.+2.-1]/= MN in E3. case: E3 => ?; subst mN'.
  have [A1 A2] := ZZ _ Da. have [B1 B2] := ZZ _ Db. have [C1 C2] := ZZ _ (esym DaN). have [C3 C4] := ZZ _ (esym Db0).
  have [_ G1] := flux_order_zero _ _ _ _ _ _ _ _ _ i U0 A1 A2 C3 C4 E4.
  have [F2 _] := flux_order_zero _ _ _ _ _ _ _ _ _ i UN C1 C2 B1 B2 E5.
  have [-> ->] := E6 i. rewrite G1 F2. split; last exact: mul0r.
  have -> : RtoC (- Re 0%R)%coqR = 0 by apply: Ceq; rewrite /=; ring. exact: mul0r.
Qed.
