(** Powers of the orders of moved and mirrored patterns. *)
From Coq Require Import Reals Lra ZArith String Lia.
From mathcomp Require Import all_ssreflect all_algebra.
From Verif Require Import Base Cplx CplxLemmas CField Model_Lattice Spec_Lattice Proof_Lattice Proof_Lattice2
  Proof_Lattice3 Proof_Lattice4 Model_Stack Model_Modes Spec_Modes Model_TRCWA Spec_TRCWA Spec_Passive Spec_Symmetry
  Proof_Smatrix Proof_FFT Proof_Init Proof_Init2 Proof_TRCWA Proof_Pattern2 Proof_Basis Proof_Basis2
  Proof_Symmetry Proof_Symmetry2 Proof_Symmetry3 Model_Queries Spec_Orders Proof_Orders.
Import GRing.Theory.
Delimit Scope R_scope with coqR.
Delimit Scope Z_scope with coqZ.
Local Open Scope ring_scope.

Lemma rebased_swap {m} (D : 'M[C]_m) md omega A : rebased D md md (invmx D) -> D \in unitmx -> Flux_A omega md = Ok A ->
  A *m D = D *m A /\ m_phi md *m D = D *m m_phi md.
Proof.
  move=> [U [K [P Q]]] UU E.
  have DP : m_phi md *m D = D *m m_phi md by rewrite {1}P mulmxKV.
  have DK : m_kp md *m D = D *m m_kp md by rewrite {1}K mulmxKV.
  split=> //. move: E. rewrite /Flux_A /row_inv /bind. case: ifP => // _. case: eqP => // _ [<-].
  have -> : map_row (fun z => omega^-1 * z) (map_row (fun z => z^-1) (m_q md)) = map_row (fun z => omega^-1 * z^-1) (m_q md).
    by apply/rowP => j; rewrite !mxE.
  set f := fun z => _. have S := diag_swap (invmx D) f f _ _ Q (fun _ => erefl).
  have S' : diag_mx (map_row f (m_q md)) *m D = D *m diag_mx (map_row f (m_q md)).
    apply: (can_inj (mulKmx U)). rewrite mulmxA -S mulmxKV // mulKmx //.
  by rewrite -mulmxA S' mulmxA -(mulmxA (m_kp md)) DP !mulmxA DK.
Qed.

(** Fluxes when [D] sends every component to one other with a phase *)
Lemma flux_component_twisted {m} (D : 'M[C]_m) (tau : 'I_m -> 'I_m) (psi : 'I_m -> C) (a b : 'cV[C]_m) omega md f g :
  (forall j, Cconj (psi j) * psi j = 1) -> (forall (v : 'cV[C]_m) j, (D *m v) j 0 = psi j * v (tau j) 0) ->
  rebased D md md (invmx D) -> D \in unitmx ->
  Flux_xy a b omega md = Ok (f, g) ->
  Flux_xy (D *m a) (D *m b) omega md = Ok (\col_j f (tau j) 0, \col_j g (tau j) 0).
Proof.
  move=> Hpsi HD HR UD. rewrite /Flux_xy /bind. case E: (Flux_A omega md) => [A|] //.
  have [DA DP] := rebased_swap D md omega A HR UD E.
  rewrite !(mulmxA A) !(mulmxA (m_phi md)) DA DP -!(mulmxA D).
  move: (m_phi md *m a) (m_phi md *m b) (A *m a) (A *m b) => pa pb Aa Ab [<- <-].
  have K : forall (u v : 'cV[C]_m) j, Cconj ((D *m u) j 0) * (D *m v) j 0 = Cconj (u (tau j) 0) * v (tau j) 0.
    move=> u v j. rewrite !HD conj_mul. rewrite mulrACA Hpsi mul1r. by [].
  have KR : forall (u v : 'cV[C]_m) j, Re (Cmul (Cconj ((D *m u) j 0)) ((D *m v) j 0)) = Re (Cmul (Cconj (u (tau j) 0)) (v (tau j) 0)).
    move=> u v j. exact: (f_equal Re (K u v j)).
  congr (Ok (_, _)); apply/colP => j; by rewrite !(mxE matrix_key) KR !K.
Qed.

Section Twist.
Context {n : nat} (sg : 'I_n -> 'I_n) (ph : 'I_n -> C) (e1 e2 : C).
Hypothesis Inj : injective sg.
Hypothesis Ph : forall i, Cconj (ph i) * ph i = 1.
Hypothesis S1 : e1 = 1 \/ e1 = -1.
Hypothesis S2 : e2 = 1 \/ e2 = -1.
Let P := monomial sg ph.
Let D := twist P e1 e2.

Lemma twist_at (v : 'cV[C]_(n + n)) i : (D *m v) (lshift n i) 0 = ph i * v (lshift n (sg i)) 0
  /\ (D *m v) (rshift n i) 0 = e1 * e2 * ph i * v (rshift n (sg i)) 0.
Proof.
  rewrite -{1 3}[v]vsubmxK /D /twist mul_block_col !mul0mx addr0 add0r col_mxEu col_mxEd.
  rewrite -scalemxAl (mxE scalemx_key) !monomial_r (mxE usubmx_key) (mxE dsubmx_key). by rewrite !mulrA.
Qed.

Lemma flux_orders_twisted (a b : 'cV[C]_(n + n)) omega md f g :
  unitary D -> rebased D md md (invmx D) -> GetZPoyntingFlux_byorder a b omega md = Ok (f, g) ->
  GetZPoyntingFlux_byorder (D *m a) (D *m b) omega md = Ok (\col_i f (sg i) 0, \col_i g (sg i) 0).
Proof.
  move=> UD HR. rewrite /GetZPoyntingFlux_byorder /bind. case E: (Flux_xy a b omega md) => [[u v]|] // [<- <-].
  pose tau (j : 'I_(n + n)) := match split j with inl i => lshift n (sg i) | inr i => rshift n (sg i) end.
  pose psi (j : 'I_(n + n)) := match split j with inl i => ph i | inr i => e1 * e2 * ph i end.
  have TL : forall i, tau (lshift n i) = lshift n (sg i) by move=> i; rewrite /tau (unsplitK (inl i)).
  have TR : forall i, tau (rshift n i) = rshift n (sg i) by move=> i; rewrite /tau (unsplitK (inr i)).
  rewrite (flux_component_twisted D tau psi a b omega md u v) //.
  - cbn [fst snd]. congr (Ok (_, _)); apply/colP => i; by rewrite fold_at !(mxE matrix_key) TL TR fold_at.
  - move=> j. rewrite /psi. case: (split j) => i //.
    rewrite !conj_mul (s_conj e1 S1) (s_conj e2 S2) mulrACA Ph mulr1 mulrACA. by rewrite (s_sq e1 S1) (s_sq e2 S2) mulr1.
  - move=> w j. rewrite -(splitK j) /tau /psi unsplitK. case: (split j) => i /=; by have [A1 A2] := twist_at w i; rewrite ?A1 ?A2.
  - by have [] := unitary_unit D UD.
Qed.
End Twist.

(** The amplitudes of a twisted stack *)
Lemma exterior_twisted G (r r' : ready G) a b c N (D : 'M[C]_(size G + size G)) :
  unitary D -> D *m a = a -> D *m b = b ->
  outer_ok c N r -> outer_ok c N r' ->
  s_omega r' = s_omega r -> s_kx r' = s_kx r -> s_ky r' = s_ky r ->
  (forall e md, uniform_layer (s_omega r) (s_kx r) (s_ky r) e = Ok md -> rebased D md md (invmx D)) ->
  (forall i, (i < N)%N -> exists md md', List.nth_error (s_modes r) i.+1 = Some (Some md) /\
     List.nth_error (s_modes r') i.+1 = Some (Some md') /\ same_layer D md md') ->
  forall aN b0, SolveExterior a b (s_modes r) (s_thick r) = Ok (aN, b0) ->
    SolveExterior a b (s_modes r') (s_thick r') = Ok (D *m aN, D *m b0).
Proof.
  move=> UD Da Db O O' Eo Ex Ey HU HS aN b0 E. have [UU _] := unitary_unit D UD.
  have Et := outer_thick _ _ _ _ _ _ O O'.
  case: O => S1 [S2 [_ [_ [_ [[m0 [M0 U0]] [mN [MN UN]]]]]]]. case: O' => S1' [_ [_ [_ [_ [[m0' [M0' U0']] [mN' [MN' UN']]]]]]].
  rewrite Eo Ex Ey U0 in U0'. case: U0' => ?; subst m0'. rewrite Eo Ex Ey UN in UN'. case: UN' => ?; subst mN'.
  have R0 := HU _ _ U0. have RN := HU _ _ UN.
  rewrite (exterior_rebased D (invmx D) (s_modes r) _ _ _ _ (D *m aN) (D *m b0)) ?Et ?unitmx_inv //.
  - move=> l md Hl. have Hs := nth_error_size _ _ _ Hl. rewrite S1 in Hs.
    case: l Hl Hs => [|l] Hl Hs.
      exists m0. split; first by []. rewrite M0 in Hl. case: Hl => <-. by exists (invmx D).
    rewrite !ltnS leq_eqVlt in Hs. case/orP: Hs => [/eqP El|Hs].
      subst l. exists mN. split; first by []. rewrite MN in Hl. case: Hl => <-. by exists (invmx D).
    have [md1 [md' [Hm1 [Hm Hr]]]] := HS l Hs. exists md'. split=> //. rewrite Hm1 in Hl. by case: Hl => <-.
  - move=> l md [->|->]; [rewrite M0|rewrite S2 [N.+2.-1]/= MN] => -[<-]; [exists m0|exists mN]; by split.
  - by rewrite !mulKmx // -{1}Da -{1}Db !mulKmx.
Qed.

(** R and T by order in a twisted basis *)
Lemma byorder_twisted G (r r' : ready G) a b c N nrm sg ph (e1 e2 : C) rs ts :
  injective sg -> (forall i, Cconj (ph i) * ph i = 1) -> (e1 = 1 \/ e1 = -1) -> (e2 = 1 \/ e2 = -1) ->
  let D := twist (monomial sg ph) e1 e2 in
  unitary D -> D *m a = a -> D *m b = b ->
  outer_ok c N r -> outer_ok c N r' ->
  s_omega r' = s_omega r -> s_kx r' = s_kx r -> s_ky r' = s_ky r -> s_norm r' = s_norm r ->
  (forall e md, uniform_layer (s_omega r) (s_kx r) (s_ky r) e = Ok md -> rebased D md md (invmx D)) ->
  (forall i, (i < N)%N -> exists md md', List.nth_error (s_modes r) i.+1 = Some (Some md) /\
     List.nth_error (s_modes r') i.+1 = Some (Some md') /\ same_layer D md md') ->
  RT_Solve_byorder nrm (mkExcited G r a b "forward") = Ok (rs, ts) ->
  RT_Solve_byorder nrm (mkExcited G r' a b "forward") = Ok (\col_i rs (sg i) 0, \col_i ts (sg i) 0).
Proof.
  move=> Inj Ph S1 S2 D UD Da Db O O' Eo Ex Ey En HU HS.
  have HE := exterior_twisted G r r' a b c N D UD Da Db O O' Eo Ex Ey HU HS.
  case: O => Z1 [Z2 [_ [_ [_ [[m0 [M0 U0]] [mN [MN UN]]]]]]]. case: O' => Z1' [_ [_ [_ [_ [[m0' [M0' U0']] [mN' [MN' UN']]]]]]].
  rewrite Eo Ex Ey U0 in U0'. case: U0' => ?; subst m0'. rewrite Eo Ex Ey UN in UN'. case: UN' => ?; subst mN'.
  have R0 := HU _ _ U0. have RN := HU _ _ UN.
  rewrite /RT_Solve_byorder /last_mode /bind /get_mode. cbn [x_G x_ready x_a0 x_bN x_direction]. rewrite Z1 Z1' Eo En [N.+2.-1]/=.
  rewrite MN MN' M0 M0'.
  case E: (SolveExterior a b (s_modes r) (s_thick r)) => [[aN b0]|] //. rewrite (HE _ _ E).
  cbn [fst snd].
  case E0: (GetZPoyntingFlux_byorder a b0 _ m0) => [[f1 g1]|] //.
  have := flux_orders_twisted sg ph e1 e2 Ph S1 S2 _ _ _ _ _ _ UD R0 E0. rewrite Da => ->.
  case EN: (GetZPoyntingFlux_byorder aN b _ mN) => [[f2 g2]|] //.
  have := flux_orders_twisted sg ph e1 e2 Ph S1 S2 _ _ _ _ _ _ UD RN EN. rewrite Db => ->.
  by case: nrm => /= -[<- <-]; congr (Ok (_, _)); apply/colP => i; rewrite !(mxE matrix_key).
Qed.
