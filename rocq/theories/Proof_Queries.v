(** Amplitude and permittivity queries. *)
From Coq Require Import Reals Lra ZArith String Lia.
From mathcomp Require Import all_ssreflect all_algebra.
From Verif Require Import Base Cplx CplxLemmas CField Model_Lattice Spec_Lattice Model_Stack Spec_Stack Proof_Stack Model_Modes Spec_Modes
  Model_TRCWA Spec_TRCWA Proof_Sqrt Proof_Smatrix Proof_FFT Proof_Modes Proof_Passive3 Proof_RT Proof_Init Proof_Init2 Proof_TRCWA Proof_Pattern2 Proof_Basis2 Spec_Symmetry Proof_Symmetry3
  Model_Queries Spec_Queries.
Import GRing.Theory.
Delimit Scope R_scope with coqR.
Delimit Scope Z_scope with coqZ.
Local Open Scope ring_scope.

Lemma travelled_add q s t : travelled q (s + t)%coqR = travelled q s * travelled q t.
Proof.
  rewrite /travelled. transitivity (Cexp (Cadd (Cmul (Cmul Ci q) (RtoC s)) (Cmul (Cmul Ci q) (RtoC t)))).
    congr Cexp. move: q => [a b]. apply: Ceq; rewrite /=; ring.
  by rewrite Cexp_add.
Qed.
Lemma travelled_0 q : travelled q 0 = 1.
Proof.
  rewrite /travelled. have -> : Cmul (Cmul Ci q) (RtoC 0) = C0 by move: q => [a b]; apply: Ceq; rewrite /=; ring.
  by apply: Ceq; rewrite /Cexp /= exp_0 ?cos_0 ?sin_0; ring.
Qed.

(** Where the query can succeed at all *)
Lemma amplitudes_inv l z x a b : GetAmplitudes l z x = Ok (a, b) ->
  exists aN b0 md t, SolveExterior (x_a0 x) (x_bN x) (s_modes (x_ready x)) (s_thick (x_ready x)) = Ok (aN, b0)
    /\ (l = 0%coqZ \/ l = (Z.of_nat (size (s_modes (x_ready x))) - 1)%coqZ /\ l <> 0%coqZ)
    /\ List.nth_error (s_modes (x_ready x)) (Z.to_nat l) = Some (Some md)
    /\ List.nth_error (s_thick (x_ready x)) (Z.to_nat l) = Some t
    /\ let ab := if (l =? 0)%coqZ then (x_a0 x, b0) else (aN, x_bN x) in
       (forall i, a i 0 = ab.1 i 0 * travelled (m_q md 0 i) z)
       /\ (forall i, b i 0 = ab.2 i 0 * travelled (m_q md 0 i) (t - z)%coqR).
Proof.
  rewrite /GetAmplitudes /GetAmplitudes_noTranslate /bind.
  have G : forall md t ab, (a, b) = TranslateAmplitudes (m_q md) t z ab.1 ab.2 ->
      (forall i, a i 0 = ab.1 i 0 * travelled (m_q md 0 i) z)
      /\ (forall i, b i 0 = ab.2 i 0 * travelled (m_q md 0 i) (t - z)%coqR).
    move=> md t ab [-> ->]. split=> i; by rewrite mxE.
  rewrite /get_mode /get_thickness.
  case: (Z.eqb_spec l 0) => [El|Nl].
  - case: (SolveExterior _ _ _ _) => [[aN b0]|] //=. case Em: (List.nth_error _ _) => [[md|]|] //.
    case Et: (List.nth_error _ _) => [t|] // [Ea Eb]. exists aN, b0, md, t. split=> //. split; first by left.
    split=> //. split=> //. apply: (G md t (x_a0 x, b0)). by rewrite -Ea -Eb.
  case: (Z.eqb_spec l _) => [El|Nl'].
  - case: (SolveExterior _ _ _ _) => [[aN b0]|] //=. case Em: (List.nth_error _ _) => [[md|]|] //.
    case Et: (List.nth_error _ _) => [t|] // [Ea Eb]. exists aN, b0, md, t. split=> //. split; first by right.
    split=> //. split=> //. apply: (G md t (aN, x_bN x)). by rewrite -Ea -Eb.
  case: ifP => _; first by case: (List.nth_error _ 0) => [[md|]|].
  match goal with |- context [SolveInterior ?k ?a ?b ?ms ?ts] => have [e ->] := interior_raises k a b ms ts end. by [].
Qed.

(** Moving along z *)
Lemma amplitudes_move l z dz x a b : GetAmplitudes l z x = Ok (a, b) ->
  exists q a' b', layer_q x (Z.to_nat l) q /\ GetAmplitudes l (z + dz) x = Ok (a', b')
    /\ forall i, a' i 0 = a i 0 * travelled (q 0 i) dz /\ b i 0 = b' i 0 * travelled (q 0 i) dz.
Proof.
  move=> H. have [aN [b0 [md [t [E1 [E2 [E3 [E4 [E5 E6]]]]]]]]] := amplitudes_inv _ _ _ _ _ H.
  exists (m_q md). set ab := if _ then _ else _ in E5 E6.
  exists (\col_i (ab.1 i 0 * travelled (m_q md 0 i) (z + dz)%coqR)), (\col_i (ab.2 i 0 * travelled (m_q md 0 i) (t - (z + dz))%coqR)).
  split; first by exists md. split.
    move: H. rewrite /GetAmplitudes /GetAmplitudes_noTranslate /get_mode /get_thickness /bind E3 E4.
    move: @ab E5 E6. case: (Z.eqb_spec l 0) => [El|Nl] ab E5 E6; first by rewrite E1.
    case: E2 => [//|[-> _]]. by rewrite Z.eqb_refl E1.
  move=> i. rewrite !(mxE matrix_key) E5 E6 travelled_add mulrA. split=> //.
  rewrite -mulrA -travelled_add. congr (_ * travelled _ _). ring.
Qed.

Lemma amplitudes_noTranslate l x a b : GetAmplitudes_noTranslate l x = Ok (a, b) ->
  l = 0%coqZ \/ l = (Z.of_nat (size (s_modes (x_ready x))) - 1)%coqZ.
Proof.
  rewrite /GetAmplitudes_noTranslate /bind. case: (Z.eqb_spec l 0) => [->|_]; first by left.
  case: (Z.eqb_spec l _) => [->|_]; first by right. case: ifP => _; first by case: (get_mode _ _).
  match goal with |- context [SolveInterior ?k ?a ?b ?ms ?ts] => have [e ->] := interior_raises k a b ms ts end. by [].
Qed.

(** Objects made by init_trcwa: which numbers work *)
Lemma queries_succeed argsort eig c Nx Ny N grid f x z v :
  init_trcwa argsort eig c Nx Ny N grid f = Ok x -> RT_Solve true x = Ok v ->
  forall l, (exists ab, GetAmplitudes l z x = Ok ab) <-> l = 0%coqZ \/ l = (Z.of_nat N + 1)%coqZ.
Proof.
  move=> I HR l. have [[O1 [O2 [O3 [O4 [_ [[m0 [O5 _]] [mN [O6 _]]]]]]]] _] := init_object _ _ _ _ _ _ _ _ _ I.
  have Sz : (Z.of_nat (size (s_modes (x_ready x))) - 1 = Z.of_nat N + 1)%coqZ by rewrite O1; lia.
  split.
  - move=> [[a b] H]. have [aN [b0 [md [t [_ [E2 _]]]]]] := amplitudes_inv _ _ _ _ _ H.
    rewrite -Sz. case: E2 => [|[]]; by [left|right].
  - move=> Hl. have [ab Eab] : exists ab, SolveExterior (x_a0 x) (x_bN x) (s_modes (x_ready x)) (s_thick (x_ready x)) = Ok ab.
      move: HR. rewrite /RT_Solve /bind. case: (SolveExterior _ _ _ _) => [ab|] // _. by exists ab.
    rewrite /GetAmplitudes /GetAmplitudes_noTranslate /get_mode /get_thickness /bind Sz.
    case: Hl => ->.
    + rewrite Z.eqb_refl Eab [Z.to_nat 0]/= O5 O3. by eexists.
    + have -> : (Z.of_nat N + 1 =? 0)%coqZ = false by apply/Z.eqb_spec; lia.
      have En : Z.to_nat (Z.of_nat N + 1) = N.+1 by lia.
      rewrite Z.eqb_refl Eab En O6 O4. by eexists.
Qed.

(** The incident wave, and the absence of one from behind *)
Lemma amplitudes_incident argsort eig c Nx Ny N grid f x z :
  sorts argsort -> usable c -> (0 < f)%coqR -> (0 < t_top c)%coqR -> init_trcwa argsort eig c Nx Ny N grid f = Ok x ->
  (forall a b, GetAmplitudes 0 z x = Ok (a, b) ->
     forall k : 'I_(size (x_G x)), a (rshift _ k) 0 = 0
       /\ (List.nth k (x_G x) (1, 1)%coqZ = (0, 0)%coqZ ->
           a (lshift _ k) 0 = - travelled (RtoC (sqrt (t_top c)) * omega_of f) z)
       /\ (List.nth k (x_G x) (1, 1)%coqZ <> (0, 0)%coqZ -> a (lshift _ k) 0 = 0))
  /\ (forall a b, GetAmplitudes (Z.of_nat N + 1) z x = Ok (a, b) -> b = 0).
Proof.
  move=> Hs Hu Hf Ht I.
  have [[O1 [O2 [O3 [O4 [_ [[m0 [O5 Um]] _]]]]]] [Om _]] := init_object _ _ _ _ _ _ _ _ _ I.
  have [_ [Exc [lk1 [lk2 [n [_ [HRe [HG _]]]]]]]] := init_facts _ _ _ _ _ _ _ _ _ I.
  have [ND [_ H0]] := mirror_closed argsort c 1 1 lk1 lk2 (x_G x) n Hs Hu (or_introl erefl) (or_introl erefl) (or_introl erefl) HRe HG.
  have [Sz [Eb Ea]] := excitation_ok _ _ _ Exc.
  have [_ [_ [_ [_ [_ [k0 [Ek0 [Nk0 _]]]]]]]] := init_frame _ _ _ _ _ _ _ _ _ I Hs.
  split=> a b H; last first.
    have [aN [b0 [md [t [_ [_ [_ [_ [_ E6]]]]]]]]] := amplitudes_inv _ _ _ _ _ H.
    apply/colP => i. rewrite E6. have -> : (Z.of_nat N + 1 =? 0)%coqZ = false by apply/Z.eqb_spec; lia.
    by rewrite /= Eb !mxE mul0r.
  have [aN [b0 [md [t [_ [_ [E3 [_ [E5 _]]]]]]]]] := amplitudes_inv _ _ _ _ _ H.
  rewrite [Z.to_nat 0]/= O5 in E3. case: E3 => Emd; subst md. rewrite /= in E5.
  move=> k. have [E1 E2] := Ea k. split; first by rewrite E5 E2 mul0r.
  rewrite E5 E1. case: (eqVneq (val k) 0%N) => [Kz|Kn]; split=> E.
  - have Ek : k = k0 by apply: val_inj; rewrite Kz.
    have [Hr [Hi _]] := omega_pos f Hf. rewrite Om in Um.
    have [Q _] := normal_root _ _ _ _ _ _ Um Nk0 Ht (Rlt_le _ _ Hr) (Rlt_le _ _ Hi).
    by rewrite Ek Q mulN1r.
  - by case: E; rewrite Kz H0.
  - exfalso. move/eqP: Kn; apply.
    apply: (proj1 (List.NoDup_nth _ (1, 1)%coqZ) ND); [exact/ltP/ltn_ord | | by rewrite E H0].
    apply/ltP. exact: leq_ltn_trans (leq0n _) (ltn_ord k).
  - by rewrite mul0r.
Qed.

(** Waves do not grow along their way *)
Lemma travelled_small q dz : (0 <= Im q)%coqR -> (0 <= dz)%coqR -> (Cnorm2 (travelled q dz) <= 1)%coqR.
Proof.
  move=> Hq Hd. rewrite /travelled.
  have -> : Cmul (Cmul Ci q) (RtoC dz) = (- (Im q * dz), Re q * dz)%coqR by move: q {Hq} => [u v]; apply: Ceq; rewrite /=; ring.
  rewrite /Cexp /Cnorm2 /=. have Hs := sin2_cos2 (Re q * dz). rewrite /Rsqr in Hs.
  have He : (exp (- (Im q * dz)) <= 1)%coqR.
    rewrite -exp_0. have [L|E] : (- (Im q * dz) < 0 \/ - (Im q * dz) = 0)%coqR by nra.
      by left; apply: exp_increasing. by rewrite E; right.
  have Hp := exp_pos (- (Im q * dz)).
  have -> : (exp (- (Im q * dz)) * cos (Re q * dz) * (exp (- (Im q * dz)) * cos (Re q * dz)) +
     exp (- (Im q * dz)) * sin (Re q * dz) * (exp (- (Im q * dz)) * sin (Re q * dz))
     = exp (- (Im q * dz)) * exp (- (Im q * dz)) * (sin (Re q * dz) * sin (Re q * dz) + cos (Re q * dz) * cos (Re q * dz)))%coqR by ring.
  rewrite Hs. nra.
Qed.
Lemma shrinks (u w : C) q dz : (0 <= Im q)%coqR -> (0 <= dz)%coqR -> u = w * travelled q dz -> (Cnorm2 u <= Cnorm2 w)%coqR.
Proof.
  move=> Hq Hd ->. rewrite C_mulE Cnorm2_mul. have := travelled_small _ _ Hq Hd.
  have := Cnorm2_nonneg w. nra.
Qed.
Lemma outer_upper argsort eig c Nx Ny N grid f x l q :
  init_trcwa argsort eig c Nx Ny N grid f = Ok x -> l = 0%N \/ l = N.+1 -> layer_q x l q -> forall i, (0 <= Im (q 0%R i))%coqR.
Proof.
  move=> I Hl [md [Em <-]] i.
  have [[O1 [O2 [O3 [O4 [_ [[m0 [O5 U0]] [mN [O6 UN]]]]]]]] _] := init_object _ _ _ _ _ _ _ _ _ I.
  have H : exists e : R, uniform_layer (s_omega (x_ready x)) (s_kx (x_ready x)) (s_ky (x_ready x)) (RtoC e) = Ok md.
    case: Hl => El; subst l; [rewrite O5 in Em|rewrite O6 in Em]; case: Em => <-; by eexists; eassumption.
  have [e Ue] := H. have [_ [Eq _]] := uniform_layer_ok _ _ _ _ _ Ue.
  have [U _] := uniform_modes (s_omega (x_ready x)) (RtoC e) (s_kx (x_ready x)) (s_ky (x_ready x)).
  case: (split_ordP i) => k ->; have [Q Q'] := U k; rewrite -Eq in Q Q'; rewrite ?Q'; exact: (proj1 (proj2 Q)).
Qed.
Lemma amplitudes_decay argsort eig c Nx Ny N grid f x l z dz a b a' b' :
  init_trcwa argsort eig c Nx Ny N grid f = Ok x -> (0 <= dz)%coqR ->
  GetAmplitudes l z x = Ok (a, b) -> GetAmplitudes l (z + dz) x = Ok (a', b') ->
  forall i, (Cnorm2 (a' i 0%R) <= Cnorm2 (a i 0%R))%coqR /\ (Cnorm2 (b i 0%R) <= Cnorm2 (b' i 0%R))%coqR.
Proof.
  move=> I Hd H H'. have [q [a1 [b1 [Lq [H1 M]]]]] := amplitudes_move l z dz x a b H.
  rewrite H1 in H'. case: H' => ? ?; subst a1 b1.
  have [aN [b0 [md [t [_ [E2 _]]]]]] := amplitudes_inv _ _ _ _ _ H.
  have [[O1 _] _] := init_object _ _ _ _ _ _ _ _ _ I.
  have Hq : forall i, (0 <= Im (q 0%R i))%coqR.
    apply: (outer_upper _ _ _ _ _ _ _ _ _ (Z.to_nat l) q I) => //.
    case: E2 => [->|[-> _]]; [by left|right]. rewrite O1. lia.
  move=> i. have [M1 M2] := M i. split; [exact: (shrinks _ _ _ _ (Hq i) Hd M1)|exact: (shrinks _ _ _ _ (Hq i) Hd M2)].
Qed.

(** The queried amplitudes solve the interface conditions *)
Lemma amplitudes_solve argsort eig c Nx Ny N grid f x v a0 b0 aN bN :
  init_trcwa argsort eig c Nx Ny N grid f = Ok x -> RT_Solve true x = Ok v ->
  GetAmplitudes_noTranslate 0 x = Ok (a0, b0) -> GetAmplitudes_noTranslate (Z.of_nat N + 1) x = Ok (aN, bN) ->
  (exists a b, a 0%N = a0 /\ b 0%N = b0 /\ a N.+1 = aN /\ b N.+1 = bN
     /\ (forall l, (l <= N)%N -> continuous (s_modes (x_ready x)) (s_thick (x_ready x)) a b l))
  /\ (forall a b, (forall l, (l <= N)%N -> continuous (s_modes (x_ready x)) (s_thick (x_ready x)) a b l) ->
        a 0%N = a0 -> b N.+1 = bN -> a N.+1 = aN /\ b 0%N = b0).
Proof.
  move=> I HR.
  have Pr : forall md, List.nth_error (s_modes (x_ready x)) 0 = Some (Some md) -> propagating (m_q md).
    move=> md Em. move: HR. rewrite /RT_Solve /bind. case: (SolveExterior _ _ _ _) => [[u w]|] //. rewrite /get_mode Em.
    case F: (GetZPoyntingFlux _ _ _ md) => [[p q]|] // _. exact: flux_propagating F.
  have [[O1 [O2 _]] _] := init_object _ _ _ _ _ _ _ _ _ I.
  rewrite /GetAmplitudes_noTranslate /bind Z.eqb_refl.
  have -> : (Z.of_nat N + 1 =? 0)%coqZ = false by apply/Z.eqb_spec; lia.
  have -> : (Z.of_nat N + 1 =? Z.of_nat (size (s_modes (x_ready x))) - 1)%coqZ = true by apply/Z.eqb_spec; rewrite O1; lia.
  case E: (SolveExterior _ _ _ _) => [[a1 b1]|] //= [Ea0 Eb0] [EaN EbN]. subst a0 b1 a1 bN.
  have := exterior_solved _ _ _ _ _ _ Pr E. rewrite O2 /=. move=> [[a [b [A1 [A2 [A3 [A4 A5]]]]]] Un]. split=> //.
  by exists a, b.
Qed.

(** What raises *)
Lemma field_queries_raise x l :
  (exists e, Solve_FieldFourier l x = Err e) /\ (exists e, Solve_FieldOnGrid l x = Err e)
  /\ (exists e, Solve_ZStressTensorIntegral l x = Err e)
  /\ (forall A (rest : amplitudes x -> A), exists e, Volume_integral l x rest = Err e).
Proof.
  have F : exists e, Solve_FieldFourier l x = Err e.
    rewrite /Solve_FieldFourier /bind. case: (GetAmplitudes_noTranslate _ _) => [?|e]; by eexists.
  split=> //. split; first by eexists. split=> // A rest. rewrite /Volume_integral /bind. case: ifP => _.
    case: (get_mode _ _) => [?|?]; by eexists.
  match goal with |- context [SolveInterior ?k ?a ?b ?ms ?ts] => have [e ->] := interior_raises k a b ms ts end. by exists e.
Qed.

(** Permittivity queries *)
Lemma return_eps {T E P} (cs : list (layer_call T E P)) i Nx Ny component :
  let s := add_layers cs empty_stack in
  (forall t e, List.nth_error cs i = Some (Uniform t e) -> Return_eps s i Nx Ny component = Ok (Constant Nx Ny e))
  /\ (forall t nx ny, List.nth_error cs i = Some (Grid t nx ny) -> exists e, Return_eps s i Nx Ny component = Err e)
  /\ (forall t q, List.nth_error cs i = Some (Fourier t q) -> Return_eps s i Nx Ny component = Ok Nothing)
  /\ (List.nth_error cs i = None -> Return_eps s i Nx Ny component = Err IndexError).
Proof.
  have [_ [_ [_ [_ [_ [_ [_ [_ [L [_ B]]]]]]]]]] := layer_bookkeeping cs. cbv zeta in *.
  set s := add_layers cs empty_stack in B L *. rewrite /Return_eps.
  split; [|split; [|split]].
  - move=> t e H. have [id [-> [k [-> ->]]]] := B _ _ H. by [].
  - move=> t nx ny H. have [id [-> [p [g [-> _]]]]] := B _ _ H. case: ifP => _; by eexists.
  - move=> t q H. have [id [-> [p [g [-> _]]]]] := B _ _ H. by [].
  - move=> H. suff -> : List.nth_error (id_list s) i = None by [].
    apply/List.nth_error_None. rewrite L. exact/List.nth_error_None.
Qed.
