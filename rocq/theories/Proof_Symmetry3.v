(** Moving or mirroring a pattern changes neither reflection nor transmission. *)
From Coq Require Import Reals Lra ZArith String Lia.
From mathcomp Require Import all_ssreflect all_algebra.
From Verif Require Import Base Cplx CplxLemmas CField Model_Lattice Spec_Lattice Proof_Lattice Proof_Lattice2
  Proof_Lattice3 Proof_Lattice4 Model_Stack Model_Modes Spec_Modes Model_TRCWA Spec_TRCWA Spec_Passive Spec_Symmetry
  Proof_Smatrix Proof_FFT Proof_Init Proof_Init2 Proof_TRCWA Proof_Pattern2 Proof_Basis Proof_Basis2
  Proof_Symmetry Proof_Symmetry2.
Import GRing.Theory.
Delimit Scope R_scope with coqR.
Delimit Scope Z_scope with coqZ.
Local Open Scope ring_scope.

Lemma nth_In {A} (l : seq A) i d : (i < size l)%N -> List.In (List.nth i l d) l.
Proof. move=> /ltP H. exact: List.nth_In. Qed.

(** The orders are closed under the symmetries of the lattice. *)
Definition mirror_order (e1 e2 : Z) (g : Z * Z) : Z * Z := (e1 * g.1, e2 * g.2)%coqZ.

Lemma lattice_axes c e1 e2 lk1 lk2 : is_sign e1 -> is_sign e2 -> lattice_symmetric c e1 e2 ->
  Lattice_Reciprocate (t_L1 c) (t_L2 c) = Ok (lk1, lk2) ->
  forall g, fst (recip lk1 lk2 (mirror_order e1 e2 g)) = (IZR e1 * fst (recip lk1 lk2 g))%coqR
         /\ snd (recip lk1 lk2 (mirror_order e1 e2 g)) = (IZR e2 * snd (recip lk1 lk2 g))%coqR.
Proof.
  move=> S1 S2 [->|[Lx [Ly [E1 E2]]]] HR g.
  - rewrite /recip /mirror_order /= !mult_IZR. split; ring.
  - rewrite E1 E2 in HR.
    have [I|N] := Classical_Prop.classic (independent (Lx, 0%coqR) (0%coqR, Ly)); last first.
      by rewrite (reciprocate_dependent _ _ N) in HR.
    have Hx : Lx <> 0%coqR by move=> Z; apply: I; rewrite /= Z; ring.
    have Hy : Ly <> 0%coqR by move=> Z; apply: I; rewrite /= Z; ring.
    have U := reciprocate_unique (Lx, 0)%coqR (0, Ly)%coqR (/ Lx, 0)%coqR (0, / Ly)%coqR.
    rewrite U in HR; rewrite /inner /=; try by field.
    case: HR => <- <-. rewrite /recip /mirror_order /= !mult_IZR. split; ring.
Qed.

Lemma sign_sq e : is_sign e -> (IZR e * IZR e = 1)%coqR.
Proof. move=> [->|->]; ring. Qed.

Lemma mirror_closed argsort c e1 e2 lk1 lk2 G n : sorts argsort -> usable c -> is_sign e1 -> is_sign e2 ->
  lattice_symmetric c e1 e2 -> Lattice_Reciprocate (t_L1 c) (t_L2 c) = Ok (lk1, lk2) ->
  Lattice_getG argsort (t_NG c) lk1 lk2 0%coqZ = Ok (G, n) ->
  List.NoDup G /\ (forall g, List.In g G -> List.In (mirror_order e1 e2 g) G)
  /\ (List.nth 0 G (1, 1)%coqZ = (0, 0)%coqZ).
Proof.
  move=> Hs Hu S1 S2 HL E1 E2.
  have HA := lattice_axes c e1 e2 lk1 lk2 S1 S2 HL E1.
  have [ND P] := getG_nodup argsort c G Hs Hu ltac:(by exists lk1, lk2, n).
  case: Hu => [a [b [k1 [k2 [nG [Ea [Eb [En [Hn [D1 [D2 [D3 [D4 _]]]]]]]]]]]]].
  have HRq := reciprocate_unique _ _ _ _ D1 D2 D3 D4. rewrite Ea Eb HRq in E1. case: E1 => ? ?; subst lk1 lk2.
  have I := reciprocate_independent _ _ _ _ HRq. rewrite En in E2. split=> //. split.
  - move=> g Hg. apply: (orders_complete _ _ _ _ _ _ Hs I E2 _ g Hg). rewrite {1}/len2.
    have [-> ->] := HA g.
    have -> : forall u v w x : R, (u * v * (u * v) + w * x * (w * x) = u * u * (v * v) + w * w * (x * x))%coqR by move=> *; ring.
    rewrite (sign_sq e1 S1) (sign_sq e2 S2) !Rmult_1_l -/(len2 k1 k2 g).
    have : (0 <= len2 k1 k2 (1, 0)%coqZ)%coqR by rewrite /len2; nra.
    have := Rmax_l (len2 k1 k2 (1, 0)%coqZ) (len2 k1 k2 (0, 1)%coqZ).
    have T : (0 < / 10 ^ 10)%coqR by apply: Rinv_0_lt_compat; lra. nra.
  - have [G2 [E' [_ [_ [_ H0]]]]] := orders_selected argsort nG k1 k2 Hs I ltac:(lia).
    rewrite E' in E2. case: E2 => EG _. rewrite EG in H0. apply: H0. by move=> E; move: P; rewrite E.
Qed.

(** The image of an order, as an index *)
Lemma order_map e1 e2 (G : seq (Z * Z)) : is_sign e1 -> is_sign e2 -> List.NoDup G ->
  (forall g, List.In g G -> List.In (mirror_order e1 e2 g) G) ->
  exists sg : 'I_(size G) -> 'I_(size G), injective sg
    /\ forall i : 'I_(size G), List.nth (sg i) G (0, 0)%coqZ = mirror_order e1 e2 (List.nth i G (0, 0)%coqZ).
Proof.
  move=> S1 S2 ND H.
  have F : forall i : 'I_(size G), exists j : 'I_(size G), List.nth j G (0, 0)%coqZ = mirror_order e1 e2 (List.nth i G (0, 0)%coqZ).
    move=> i. have Hi := H _ (nth_In G i (0, 0)%coqZ (ltn_ord i)).
    have [k [Hk Ek]] := List.In_nth _ _ (0, 0)%coqZ Hi. move/ltP: Hk => Hk. by exists (Ordinal Hk).
  pose sg (i : 'I_(size G)) := odflt i [pick j : 'I_(size G) | (fst (List.nth j G (0, 0)%coqZ) =? e1 * fst (List.nth i G (0, 0)%coqZ))%coqZ
                               && (snd (List.nth j G (0, 0)%coqZ) =? e2 * snd (List.nth i G (0, 0)%coqZ))%coqZ].
  have Sg : forall i : 'I_(size G), List.nth (sg i) G (0, 0)%coqZ = mirror_order e1 e2 (List.nth i G (0, 0)%coqZ).
    move=> i. rewrite /sg. case: pickP => [j /andP [/Z.eqb_eq A1 /Z.eqb_eq A2]|K] /=.
      rewrite /mirror_order -A1 -A2. by case: (List.nth j G _).
    exfalso. have [j Ej] := F i. move: (K j). by rewrite Ej /= !Z.eqb_refl.
  exists sg. split=> // i j E.
  have : mirror_order e1 e2 (List.nth i G (0, 0)%coqZ) = mirror_order e1 e2 (List.nth j G (0, 0)%coqZ) by rewrite -!Sg E.
  move=> [M1 M2].
  have Eg : List.nth i G (0, 0)%coqZ = List.nth j G (0, 0)%coqZ.
    rewrite (surjective_pairing (List.nth i G _)) (surjective_pairing (List.nth j G _)).
    congr pair; [case: S1 M1 => -> | case: S2 M2 => ->]; lia.
  apply: val_inj. exact: (proj1 (List.NoDup_nth G (0, 0)%coqZ) ND _ _ (ltP (ltn_ord i)) (ltP (ltn_ord j)) Eg).
Qed.

(** R and T in a twisted basis *)
Lemma RT_twisted G (r r' : ready G) a b c N nrm (D : 'M[C]_(size G + size G)) :
  unitary D -> D *m a = a -> D *m b = b ->
  outer_ok c N r -> outer_ok c N r' ->
  s_omega r' = s_omega r -> s_kx r' = s_kx r -> s_ky r' = s_ky r -> s_norm r' = s_norm r ->
  (forall e md, uniform_layer (s_omega r) (s_kx r) (s_ky r) e = Ok md -> rebased D md md (invmx D)) ->
  (forall i, (i < N)%N -> exists md md', List.nth_error (s_modes r) i.+1 = Some (Some md) /\
     List.nth_error (s_modes r') i.+1 = Some (Some md') /\ same_layer D md md') ->
  forall v, RT_Solve nrm (mkExcited G r a b "forward") = Ok v -> RT_Solve nrm (mkExcited G r' a b "forward") = Ok v.
Proof.
  move=> UD Da Db O O' Eo Ex Ey En HU HS v. have [UU _] := unitary_unit D UD.
  have Et := outer_thick _ _ _ _ _ _ O O'.
  case: O => S1 [S2 [_ [_ [_ [[m0 [M0 U0]] [mN [MN UN]]]]]]]. case: O' => S1' [_ [_ [_ [_ [[m0' [M0' U0']] [mN' [MN' UN']]]]]]].
  rewrite Eo Ex Ey U0 in U0'. case: U0' => ?; subst m0'. rewrite Eo Ex Ey UN in UN'. case: UN' => ?; subst mN'.
  have R0 := HU _ _ U0. have RN := HU _ _ UN.
  rewrite /RT_Solve /last_mode /bind /get_mode. cbn [x_G x_ready x_a0 x_bN x_direction]. rewrite S1 S1' Eo En [N.+2.-1]/=.
  rewrite MN MN' M0 M0'.
  case E: (SolveExterior a b (s_modes r) (s_thick r)) => [[aN b0]|] //.
  rewrite (exterior_rebased D (invmx D) (s_modes r) _ _ _ _ (D *m aN) (D *m b0)) ?Et ?unitmx_inv //.
  - have F0 : GetZPoyntingFlux a (D *m b0) (s_omega r) m0 = GetZPoyntingFlux a b0 (s_omega r) m0.
      by rewrite -{1}Da flux_unitary.
    have FN : GetZPoyntingFlux (D *m aN) b (s_omega r) mN = GetZPoyntingFlux aN b (s_omega r) mN.
      by rewrite -{1}Db flux_unitary.
    cbn [fst snd]. by rewrite F0 FN.
  - move=> l md Hl. have Hs := nth_error_size _ _ _ Hl. rewrite S1 in Hs.
    case: l Hl Hs => [|l] Hl Hs.
      exists m0. split; first by []. rewrite M0 in Hl. case: Hl => <-. by exists (invmx D).
    rewrite !ltnS leq_eqVlt in Hs. case/orP: Hs => [/eqP El|Hs].
      subst l. exists mN. split; first by []. rewrite MN in Hl. case: Hl => <-. by exists (invmx D).
    have [md1 [md' [Hm1 [Hm Hr]]]] := HS l Hs. exists md'. split=> //. rewrite Hm1 in Hl. by case: Hl => <-.
  - move=> l md [->|->]; [rewrite M0|rewrite S2 [N.+2.-1]/= MN] => -[<-]; [exists m0|exists mN]; by split.
  - by rewrite !mulKmx // -{1}Da -{1}Db !mulKmx.
Qed.

Lemma symmetric_pattern_one argsort eig eig' c Nx Ny N grid grid' f x x' nrm v e1 e2 s t :
  sorts argsort -> usable c -> eigenbasis eig -> eigenbasis eig' ->
  is_sign e1 -> is_sign e2 -> lattice_symmetric c e1 e2 ->
  (forall a b i, (a < Nx)%N -> (b < Ny)%N -> (i < N)%N -> grid' a b i = grid (moved Nx e1 s a) (moved Ny e2 t b) i) ->
  init_trcwa argsort eig c Nx Ny N grid f = Ok x -> init_trcwa argsort eig' c Nx Ny N grid' f = Ok x' ->
  (Nx = 1%N /\ Ny = 1%N \/ forall i, (i < N)%N -> resolved_entries (mkGrid2 Nx Ny (fun a b => grid a b i)) (x_G x)
                                    /\ resolved_entries (mkGrid2 Nx Ny (fun a b => grid' a b i)) (x_G x)) ->
  RT_Solve nrm x = Ok v -> RT_Solve nrm x' = Ok v.
Proof.
  move=> Hs Hu He He' S1 S2 HL Hg I I' HR.
  have [G [r [r' [a [b [Ex [Ex' [Eo [Ekx [Eky En]]]]]]]]]] := frames _ _ _ _ _ _ _ _ _ _ _ _ _ _ _ I I'.
  have [O [_ [Sh M]]] := init_object _ _ _ _ _ _ _ _ _ I. have [O' [_ [_ M']]] := init_object _ _ _ _ _ _ _ _ _ I'.
  have [_ [Eex [lk1 [lk2 [n [_ [HRe [HG [_ Hk]]]]]]]]] := init_facts _ _ _ _ _ _ _ _ _ I.
  subst x x'. cbn [x_ready x_G x_a0 x_bN] in O, O', M, M', Eex, HG, Hk, HR.
  have [ND [HC H0]] := mirror_closed argsort c e1 e2 lk1 lk2 G n Hs Hu S1 S2 HL HRe HG.
  have HA := lattice_axes c e1 e2 lk1 lk2 S1 S2 HL HRe.
  have [sg [Inj Hsg]] := order_map e1 e2 G S1 S2 ND HC.
  have [Gpos [Eb Ha]] := excitation_ok _ _ _ Eex.
  pose ph (i : 'I_(size G)) := shift_phase Nx Ny e1 e2 s t (List.nth i G (0, 0)%coqZ).
  have Ph : forall i, Cconj (ph i) * ph i = 1 by move=> i; exact: shift_phase_norm.
  pose P := monomial sg ph. have UP : unitary P := monomial_unitary sg ph Inj Ph.
  have Sc : forall e, is_sign e -> RtoC (IZR e) = 1 \/ RtoC (IZR e) = -1.
    move=> e [->|->]; [left|right]; apply: Ceq; rewrite /=; ring.
  have K : forall i : 'I_(size G), s_kx r 0 (sg i) = RtoC (IZR e1) * s_kx r 0 i /\ s_ky r 0 (sg i) = RtoC (IZR e2) * s_ky r 0 i.
    move=> i. have [-> ->] := Hk (sg i). have [-> ->] := Hk i. rewrite Hsg.
    have [A1 A2] := HA (List.nth i G (0, 0)%coqZ). move: A1 A2. rewrite /recip /= => A1 A2.
    split; apply: Ceq; rewrite /=; try ring.
      rewrite (Rmult_comm (fst lk1)) (Rmult_comm (fst lk2)) A1. ring.
    rewrite (Rmult_comm (snd lk1)) (Rmult_comm (snd lk2)) A2. ring.
  have Hx : P *m diag_mx (s_kx r) = RtoC (IZR e1) *: (diag_mx (s_kx r) *m P) by apply: monomial_diag => i; case: (K i).
  have Hy : P *m diag_mx (s_ky r) = RtoC (IZR e2) *: (diag_mx (s_ky r) *m P) by apply: monomial_diag => i; case: (K i).
  have UD := twist_unitary P _ _ UP (Sc _ S1) (Sc _ S2).
  have zero : forall i : 'I_(size G), (sg i == 0%N :> nat) = (i == 0%N :> nat) /\ (i = 0%N :> nat -> ph i = 1).
    move=> i. have N0 : List.nth 0 G (0, 0)%coqZ = (0, 0)%coqZ.
      rewrite -{2}H0. apply: List.nth_indep. exact/ltP.
    have Z : forall k : 'I_(size G), k = 0%N :> nat -> sg k = k.
      move=> k Ek. apply: val_inj. apply: (proj1 (List.NoDup_nth G (0, 0)%coqZ) ND _ _ (ltP (ltn_ord _)) (ltP (ltn_ord _))).
      rewrite /= Hsg Ek N0 /mirror_order /=. congr pair; lia.
    split.
      apply/eqP/eqP => E; last by rewrite Z.
      pose z : 'I_(size G) := Ordinal Gpos. have Ez : sg i = sg z by rewrite (Z z) //; apply: val_inj; rewrite /= E.
      by rewrite (Inj _ _ Ez).
    move=> Ei. rewrite /ph Ei N0 /shift_phase /=. have -> : forall u v w : R, (u * (IZR (e1 * 0) * v + IZR (e2 * 0) * w) = 0)%coqR.
      move=> u w w'. rewrite !Z.mul_0_r. ring.
    exact: Cis_0.
  apply: (RT_twisted G r r' a b c N nrm _ UD) => //.
  - rewrite /twist -[a]vsubmxK mul_block_col !mul0mx addr0 add0r. congr col_mx; apply/colP => i; last first.
      rewrite -scalemxAl mxE monomial_r !mxE. have [_ ->] := Ha (sg i). have [_ ->] := Ha i. by rewrite !mulr0.
    rewrite monomial_r !mxE. have [-> _] := Ha (sg i). have [-> _] := Ha i. have [-> Z1] := zero i.
    case: eqP => [/Z1 ->|_]; by rewrite ?mul1r ?mulr0.
  - by rewrite Eb mulmx0.
  - move=> e md. exact: twist_uniform UP Hx Hy (Sc _ S1) (Sc _ S2) _ e md.
  - move=> i Hi. have [md [A1 A2]] := M i Hi. have [md' [B1 B2]] := M' i Hi. exists md, md'. do 2 (split=> //).
    move: A2 B2. rewrite /layer_mode /= Eo Ekx Eky. case: ifP => [/andP [/eqP E1 /eqP E2]|Hn].
      move=> A2. rewrite Hg ?E1 ?E2 //.
      have -> : forall e s, moved 1 e s 0 = 0%N by move=> e s0; rewrite /moved Z.mod_1_r.
      have -> : forall e s, moved 1 e s 0 = 0%N by move=> e s0; rewrite /moved Z.mod_1_r.
      rewrite A2 => -[<-]. eexists. exact: twist_uniform UP Hx Hy (Sc _ S1) (Sc _ S2) _ _ _ A2.
    case: HR => [[E1 E2]|HR]; first by rewrite E1 E2 in Hn.
    have [R1 R2] := HR i Hi. move=> [ei [e2' [F1 [F2 F3]]]] [ei' [e2'' [F1' [F2' F3']]]].
    have [E [HE [UE [Ei E2]]]] := eps_fft_resolved _ _ _ _ F1 R1. have [E' [HE' [UE' [Ei' E2']]]] := eps_fft_resolved _ _ _ _ F1' R2.
    subst ei e2' ei' e2''. have HP : E' *m P = P *m E.
      apply: monomial_conj => // k l. rewrite HE HE'.
      rewrite (fourier_moved (mkGrid2 Nx Ny (fun a b => grid a b i)) _ e1 e2 s t _ _ S1 S2) //; last first.
        by move=> u w /= Hu' Hw; apply: Hg.
      rewrite mulrAC /ph -(shift_phase_sub Nx Ny e1 e2 s t (List.nth k G (0, 0)%coqZ) (List.nth l G (0, 0)%coqZ)).
      congr (_ * _). rewrite /order_diff !Hsg /mirror_order /=. by rewrite !Z.mul_sub_distr_l.
    apply: (twist_same _ _ P _ _ UP Hx Hy (Sc _ S1) (Sc _ S2) eig eig' _ _ _ E E' md md' He He' _ HP F2 F2') => //.
    exact: conj_inverse.
Qed.


Lemma symmetric_pattern argsort eig eig' c Nx Ny N grid grid' f x x' nrm v e1 e2 s t :
  sorts argsort -> usable c -> eigenbasis eig -> eigenbasis eig' ->
  is_sign e1 -> is_sign e2 -> lattice_symmetric c e1 e2 ->
  (forall a b i, (a < Nx)%N -> (b < Ny)%N -> (i < N)%N -> grid' a b i = grid (moved Nx e1 s a) (moved Ny e2 t b) i) ->
  init_trcwa argsort eig c Nx Ny N grid f = Ok x -> init_trcwa argsort eig' c Nx Ny N grid' f = Ok x' ->
  (Nx = 1%N /\ Ny = 1%N \/ forall i, (i < N)%N -> resolved_entries (mkGrid2 Nx Ny (fun a b => grid a b i)) (x_G x)
                                    /\ resolved_entries (mkGrid2 Nx Ny (fun a b => grid' a b i)) (x_G x')) ->
  RT_Solve nrm x = Ok v <-> RT_Solve nrm x' = Ok v.
Proof.
  move=> Hs Hu He He' S1 S2 HL Hg I I' HR.
  have EG : x_G x' = x_G x by have [G [r [r' [a [b [-> [-> _]]]]]]] := frames _ _ _ _ _ _ _ _ _ _ _ _ _ _ _ I I'.
  split.
  - apply: (symmetric_pattern_one argsort eig eig' c Nx Ny N grid grid' f x x' nrm v e1 e2 s t) => //. by rewrite -{2}EG.
  - apply: (symmetric_pattern_one argsort eig' eig c Nx Ny N grid' grid f x' x nrm v e1 e2 (- (e1 * s))%coqZ (- (e2 * t))%coqZ) => //.
    + move=> a b i Ha Hb Hi. have Px : (0 < Nx)%N by apply: leq_ltn_trans Ha. have Py : (0 < Ny)%N by apply: leq_ltn_trans Hb.
      rewrite Hg ?moved_lt //.
      have B : forall n e s k, is_sign e -> (k < n)%N -> moved n e s (moved n e (- (e * s)) k) = k.
        move=> n e s0 k Se Hk. rewrite -{2}(moved_back n e (- (e * s0)) k Se Hk). congr (moved n e _ _).
        case: Se => ->; ring.
      by rewrite !B.
    + case: HR => [?|HR]; [by left|right=> i Hi]. rewrite EG. have [] := HR i Hi. by rewrite EG.
Qed.
