(** TRCWA spectra frequency by frequency, and the choice of the solver. *)
From Coq Require Import Reals Lra Psatz ZArith String Lia.
From mathcomp Require Import all_ssreflect all_algebra.
From Verif Require Import Base BaseLemmas PyVal Cplx CplxLemmas CField Model_Config Spec_Config Model_Units Model_Layout Model_Lattice
  Model_Stack Model_Modes Spec_Modes Model_TRCWA Spec_TRCWA Proof_Init Model_Dispatch Spec_Dispatch.
Import GRing.Theory.
Delimit Scope R_scope with coqR.
Delimit Scope Z_scope with coqZ.
Local Open Scope ring_scope.

(** * NaN and shapes *)
Lemma no_nanP e : has_nan e = false <-> no_nan e.
Proof.
  rewrite /has_nan. split.
  - move=> /negbT /existsPn H x y l f Hx Hy Hl Hf.
    move: (H (Ordinal Hx)) => /existsPn /(_ (Ordinal Hy)) /existsPn /(_ (Ordinal Hl)) /existsPn /(_ (Ordinal Hf)) /=.
    case: (e_at e x y l f) => // z _. by exists z.
  - move=> H. apply/negbTE. apply/existsPn => x. apply/existsPn => y. apply/existsPn => l. apply/existsPn => f.
    by have [z ->] := H x y l f (ltn_ord x) (ltn_ord y) (ltn_ord l) (ltn_ord f).
Qed.

Lemma spectrum_nan argsort eig e u : ~ no_nan e -> compute_spectrum_trcwa argsort eig e u = Err ValueError.
Proof. move=> H. rewrite /compute_spectrum_trcwa. by case E: (has_nan e) => //; case: H; apply/no_nanP. Qed.

Lemma ensure_cases b e : ensure b e = if b then Ok tt else Err e.
Proof. by case: b. Qed.

Definition loop argsort eig e u (fs : seq R) : res (seq C * seq C) :=
  let! rs := map_layers (fun p : nat * R =>
       let! x := init_trcwa argsort eig (u_cfg u) (e_nx e) (e_ny e) (e_nl e) (slice4 e p.1) p.2 in
       RT_Solve true x) (zip (iota 0 (size fs)) fs) in
  Ok (map fst rs, map snd rs).

Lemma spectrum_body argsort eig e u fs : no_nan e -> shapes_match e u fs ->
  compute_spectrum_trcwa argsort eig e u = loop argsort eig e u fs.
Proof.
  move=> /no_nanP Hn [E1 [E2 [E3 [E4 [E5 E6]]]]].
  rewrite /compute_spectrum_trcwa Hn E1 /bind !ensure_cases -E3 -E4 -E5 E6 E2 !Z.eqb_refl. reflexivity.
Qed.

Lemma spectrum_shapes argsort eig e u : no_nan e -> ~ (exists fs, shapes_match e u fs) ->
  compute_spectrum_trcwa argsort eig e u = Err AssertionError.
Proof.
  move=> /no_nanP Hn Hs. rewrite /compute_spectrum_trcwa Hn /bind.
  case E1: (u_freqs u) => [fs|] //. rewrite !ensure_cases.
  case: Z.eqb_spec => // E2. case: Z.eqb_spec => // E3. case: Z.eqb_spec => // E4.
  case: Z.eqb_spec => // E5. case: Z.eqb_spec => // E6.
  case: Hs. by exists fs.
Qed.

Lemma nth_zip_iota {A} (fs : seq A) s i f : List.nth_error fs i = Some f ->
  List.nth_error (zip (iota s (size fs)) fs) i = Some ((s + i)%N, f).
Proof.
  elim: fs s i => [|g fs IH] s [|i] //= => [[->]|H]; first by rewrite addn0.
  by rewrite (IH _ _ H) addSnnS.
Qed.

Lemma map_layers_intro {A B} (f : A -> res B) l ys : size ys = size l ->
  (forall i x, List.nth_error l i = Some x -> exists y, List.nth_error ys i = Some y /\ f x = Ok y) ->
  map_layers f l = Ok ys.
Proof.
  elim: l ys => [|x l IH] [|y ys] //= [S] H.
  have [z [[<-] ->]] := H 0%N x erefl. by rewrite /= (IH ys S (fun i => H i.+1)).
Qed.

Lemma map_layers_err {A B} (f : A -> res B) l er : map_layers f l = Err er ->
  exists i x, List.nth_error l i = Some x /\ f x = Err er
    /\ forall j y, (j < i)%N -> List.nth_error l j = Some y -> exists z, f y = Ok z.
Proof.
  elim: l => [|x l IH] //=. case E: (f x) => [y|er'] /=; last first.
  - move=> [<-]. by exists 0%N, x.
  - case E': (map_layers f l) => [ys|er'] // [Ee]. rewrite Ee in E'. have [i [z [H1 [H2 H3]]]] := IH E'.
    exists i.+1, z. split=> //. split=> // -[|j] w; first by move=> _ [<-]; exists y.
    by move=> Hj Hw; apply: (H3 j).
Qed.

Lemma spectrum_ok argsort eig e u fs rs ts : no_nan e -> shapes_match e u fs ->
  (compute_spectrum_trcwa argsort eig e u = Ok (rs, ts) <->
   size rs = size fs /\ size ts = size fs
   /\ forall i f, List.nth_error fs i = Some f ->
        exists r t, List.nth_error rs i = Some r /\ List.nth_error ts i = Some t
          /\ one_frequency argsort eig e u i f (Ok (r, t))).
Proof.
  move=> Hn Hs. rewrite (spectrum_body argsort eig e u fs) // /loop. split.
  - case E: (map_layers _ _) => [ws|] //= [<- <-].
    have [S H] := map_layers_ok _ _ _ E. rewrite size_zip size_iota minnn in S.
    rewrite !size_map S. split=> //. split=> // i f Hf.
    have [[r t] [Hw]] := H i _ (nth_zip_iota _ 0 _ _ Hf). rewrite /one_frequency add0n [_.1]/= [_.2]/= /bind.
    move=> Ho. exists r, t. rewrite !nth_error_map' Hw. split=> //. split=> //.
    by case: (init_trcwa _ _ _ _ _ _ _ _) Ho.
  - move=> [S1 [S2 H]].
    have -> : map_layers (fun p : nat * R =>
        bind (init_trcwa argsort eig (u_cfg u) (e_nx e) (e_ny e) (e_nl e) (slice4 e p.1) p.2)
        (fun x => RT_Solve true x)) (zip (iota 0 (size fs)) fs) = Ok (zip rs ts).
      apply: map_layers_intro; first by rewrite !size_zip size_iota S1 S2 !minnn.
      move=> i [k f] Hi.
      have Hl := nth_error_size _ _ _ Hi. rewrite size_zip size_iota minnn in Hl.
      have [f' Hf] := nth_error_ex _ _ Hl.
      move: Hi. rewrite (nth_zip_iota _ 0 _ _ Hf) add0n => -[<- <-].
      have [r [t [Hr [Ht Ho]]]] := H i f' Hf. exists (r, t). split.
        clear -Hr Ht. elim: rs ts i Hr Ht => [|x rs IH] [|y ts] [|i] //=; first by move=> [->] [->].
        exact: IH.
      move: Ho. rewrite /one_frequency [_.1]/= [_.2]/=. case: (init_trcwa _ _ _ _ _ _ _ _) => [x|er] //= -> //.
    have Z1 : map fst (zip rs ts) = rs by apply: unzip1_zip; rewrite S1 S2.
    have Z2 : map snd (zip rs ts) = ts by apply: unzip2_zip; rewrite S1 S2.
    by rewrite /= Z1 Z2.
Qed.

Lemma spectrum_err argsort eig e u fs er : no_nan e -> shapes_match e u fs ->
  compute_spectrum_trcwa argsort eig e u = Err er ->
  exists i f, List.nth_error fs i = Some f /\ one_frequency argsort eig e u i f (Err er)
    /\ forall j g, (j < i)%N -> List.nth_error fs j = Some g -> exists rt, one_frequency argsort eig e u j g (Ok rt).
Proof.
  move=> Hn Hs. rewrite (spectrum_body argsort eig e u fs) // /loop.
  case E: (map_layers _ _) => [ws|er'] //= [Ee]. rewrite Ee in E.
  have [i [[k f] [H1 [H2 H3]]]] := map_layers_err _ _ _ E.
  have Hl := nth_error_size _ _ _ H1. rewrite size_zip size_iota minnn in Hl.
  have [f' Hf] := nth_error_ex _ _ Hl. move: H1 H2. rewrite (nth_zip_iota _ 0 _ _ Hf) add0n => -[<- <-].
  rewrite [_.1]/= [_.2]/= => H2. exists i, f'. split=> //. split.
    rewrite /one_frequency. by case: (init_trcwa _ _ _ _ _ _ _ _) H2 => [x|er2] /= ->.
  move=> j g Hj Hg. have [rt Hrt] := H3 j _ Hj (nth_zip_iota _ 0 _ _ Hg).
  exists rt. rewrite /one_frequency. move: Hrt. rewrite add0n [_.1]/= [_.2]/=.
  by case: (init_trcwa _ _ _ _ _ _ _ _) => [x|er2] /=.
Qed.

(** * Only the entries of the tensor count *)
Definition teq (t t' : tensor) : Prop :=
  match t, t' with
  | T1 a f, T1 a' f' => a = a' /\ forall i, (i < a)%N -> f i = f' i
  | T2 a b f, T2 a' b' f' => a = a' /\ b = b' /\ forall i j, (i < a)%N -> (j < b)%N -> f i j = f' i j
  | T3 a b c f, T3 a' b' c' f' =>
      a = a' /\ b = b' /\ c = c' /\ forall i j k, (i < a)%N -> (j < b)%N -> (k < c)%N -> f i j k = f' i j k
  | _, _ => False
  end.

Lemma squeeze0_teq t t' : teq t t' -> teq (squeeze0 t) (squeeze0 t').
Proof.
  case: t t' => [a f|a b f|a b c f] [a' f'|a' b' f'|a' b' c' f'] //=.
  - move=> [<- [<- H]]. case: a H => [|[|a]] //= H; split=> // j Hj. exact: H.
  - move=> [<- [<- [<- H]]]. case: a H => [|[|a]] //= H; do 2 (split=> //). move=> j k Hj Hk. exact: H.
Qed.

Definition geq (g g' : grid2) : Prop :=
  g_nx g = g_nx g' /\ g_ny g = g_ny g'
  /\ forall x y, (x < g_nx g)%N -> (y < g_ny g)%N -> g_at g x y = g_at g' x y.
Definition aeq (g g' : grid_arg) : Prop :=
  match g, g' with
  | Iso a, Iso a' => geq a a'
  | Aniso a b c, Aniso a' b' c' => geq a a' /\ geq b b' /\ geq c c'
  | _, _ => False
  end.
Definition req {A} (P : A -> A -> Prop) (r r' : res A) : Prop :=
  match r, r' with Ok a, Ok a' => P a a' | Err e, Err e' => e = e' | _, _ => False end.

Lemma slice_bound ptr n a k : (k < minn (ptr + n) a - minn ptr a)%N -> (ptr + k < a)%N.
Proof.
  rewrite ltn_subRL. case: (leqP ptr a) => H K; first by apply: (leq_trans K); rewrite geq_minr.
  have E : minn (ptr + n) a = a by apply/minn_idPr; apply: (leq_trans (ltnW H)); rewrite leq_addr.
  by rewrite E ltnNge leq_addr in K.
Qed.

Lemma slice_teq t t' ptr n : (forall a b c f, t <> T3 a b c f) -> teq t t' ->
  (slice_flat t ptr n).1 = (slice_flat t' ptr n).1
  /\ forall k, (k < (slice_flat t ptr n).1)%N -> (slice_flat t ptr n).2 k = (slice_flat t' ptr n).2 k.
Proof.
  case: t t' => [a f|a b f|a b c f] [a' f'|a' b' f'|a' b' c' f'] //= N3; last by case: (N3 a b c f).
  - move=> [<- H]. split=> // k Hk. apply: H. exact: slice_bound Hk.
  - move=> [<- [<- H]]. split=> // k Hk.
    have Hb : (0 < b)%N by case: b Hk {H N3 f f'} => //; rewrite muln0.
    have Hd : (k %/ b < minn (ptr + n) a - minn ptr a)%N by rewrite ltn_divLR.
    apply: H; last by rewrite ltn_mod.
    exact: slice_bound Hd.
Qed.

Lemma reshape_teq len v v' Nx Ny : (forall k, (k < len)%N -> v k = v' k) ->
  req geq (reshape len v Nx Ny) (reshape len v' Nx Ny).
Proof.
  move=> H. rewrite /reshape. case: eqP => //= E. split=> //. split=> //= x y Hx Hy. apply: H. rewrite E.
  apply: (@leq_trans (x * Ny + Ny)); first by rewrite ltn_add2l.
  by rewrite addnC -mulSn leq_mul2r Hx orbT.
Qed.

Lemma slice_reshape_teq t t' ptr Nx Ny : (forall a b c f, t <> T3 a b c f) -> teq t t' ->
  req geq (reshape (slice_flat t ptr (Nx * Ny)).1 (slice_flat t ptr (Nx * Ny)).2 Nx Ny)
          (reshape (slice_flat t' ptr (Nx * Ny)).1 (slice_flat t' ptr (Nx * Ny)).2 Nx Ny).
Proof.
  move=> N3 H. have [<- E] := slice_teq t t' ptr (Nx * Ny) N3 H. exact: reshape_teq.
Qed.

Lemma py_index_lt n i k : py_index n i = Ok k -> (k < n)%N.
Proof.
  rewrite /py_index. case: Z.leb_spec => H1; case: Z.ltb_spec => H2 //=.
  - move=> [<-]. apply/ltP. lia.
  - case: Z.leb_spec => H3; case: Z.ltb_spec => H4 //= [<-]. apply/ltP; lia.
  - case: Z.leb_spec => H3; case: Z.ltb_spec => H4 //= [<-]; apply/ltP; lia.
  - case: Z.leb_spec => H3; case: Z.ltb_spec => H4 //= [<-]; apply/ltP; lia.
Qed.

Lemma layer_grid_teq t t' i ptr Nx Ny : teq t t' -> req aeq (layer_grid t i ptr Nx Ny) (layer_grid t' i ptr Nx Ny).
Proof.
  move=> H. rewrite /layer_grid.
  have El : tensor_len t = tensor_len t'.
    by case: t t' H => [a f|a b f|a b c f] [a' f'|a' b' f'|a' b' c' f'] //= [].
  have Flat : (forall a b c f, t <> T3 a b c f) ->
    req aeq (let! g := reshape (slice_flat t ptr (Nx * Ny)).1 (slice_flat t ptr (Nx * Ny)).2 Nx Ny in Ok (Iso g))
            (let! g := reshape (slice_flat t' ptr (Nx * Ny)).1 (slice_flat t' ptr (Nx * Ny)).2 Nx Ny in Ok (Iso g)).
    move=> N3. have := slice_reshape_teq t t' ptr Nx Ny N3 H. by case: reshape; case: reshape.
  rewrite -El. case: eqP => [E3|_]; last first.
    case: t t' H {El} Flat => [a f|a b f|a b c f] [a' f'|a' b' f'|a' b' c' f'] //= H Flat; try exact: Flat.
    case: H => [<- [<- [<- H]]]. case E: (py_index c _) => [k|er] //=. split=> //. split=> //= x y Hx Hy.
    apply: H => //. exact: py_index_lt E.
  case: t t' H El Flat E3 => [a f|a b f|a b c f] [a' f'|a' b' f'|a' b' c' f'] //= H El Flat E3; first exact: Flat.
  - have K k : (k < 3)%N -> req geq (reshape (slice_flat (T1 b (f k)) ptr (Nx * Ny)).1 (slice_flat (T1 b (f k)) ptr (Nx * Ny)).2 Nx Ny)
      (reshape (slice_flat (T1 b' (f' k)) ptr (Nx * Ny)).1 (slice_flat (T1 b' (f' k)) ptr (Nx * Ny)).2 Nx Ny).
      move=> Hk. apply: slice_reshape_teq => //=. case: H => [_ [Eb Hf]]. split=> // j Hj. apply: Hf => //. by rewrite E3.
    have := K 0%N erefl. have := K 1%N erefl. have := K 2%N erefl. rewrite /=.
    do 6 (case: reshape => [?|?] //=); congruence.
  - have K k : (k < 3)%N -> req geq (reshape (slice_flat (T2 b c (f k)) ptr (Nx * Ny)).1 (slice_flat (T2 b c (f k)) ptr (Nx * Ny)).2 Nx Ny)
      (reshape (slice_flat (T2 b' c' (f' k)) ptr (Nx * Ny)).1 (slice_flat (T2 b' c' (f' k)) ptr (Nx * Ny)).2 Nx Ny).
      move=> Hk. apply: slice_reshape_teq => //=. case: H => [_ [Eb [Ec Hf]]]. split=> //. split=> // j l Hj Hl. apply: Hf => //. by rewrite E3.
    have := K 0%N erefl. have := K 1%N erefl. have := K 2%N erefl. rewrite /=.
    do 6 (case: reshape => [?|?] //=); congruence.
Qed.

Lemma get_conv_geq dN g g' G : geq g g' -> get_conv dN g G = get_conv dN g' G.
Proof.
  case: g g' => [nx ny v] [nx' ny' v'] [/= <- [<- H]].
  have F k l : fft2 (mkGrid2 nx ny v) k l = fft2 (mkGrid2 nx ny v') k l.
    rewrite /fft2 /=. apply: eq_bigr => x _. apply: eq_bigr => y _. by rewrite H.
  rewrite /get_conv /=. case: ifP => // _.
  have D (i j : nat) (A : res C) : True by [].
  match goal with |- (if ?a then _ else _) = (if ?b then _ else _) => have -> : a = b end.
    apply: eq_forallb => i. apply: eq_forallb => j. by rewrite /bind; case: py_index => // k; case: py_index.
  case: ifP => // _. congr Ok. apply/matrixP => i j. rewrite !mxE /bind.
  case: py_index => // k. case: py_index => // l. by rewrite F.
Qed.

Lemma Epsilon_fft_aeq dN g g' G : aeq g g' -> Epsilon_fft dN g G = Epsilon_fft dN g' G.
Proof.
  case: g g' => [a|a b c] [a'|a' b' c'] //=; first by move=> /get_conv_geq ->.
  by move=> [/get_conv_geq -> [/get_conv_geq -> /get_conv_geq ->]].
Qed.

Lemma geteps_loop_teq {G} eig om (kx ky : 'rV[C]_(size G)) Nxy t t' ids i ptri ptr ms : teq t t' ->
  geteps_loop eig om kx ky Nxy t ids i ptri ptr ms = geteps_loop eig om kx ky Nxy t' ids i ptri ptr ms.
Proof.
  move=> H. elim: ids i ptri ptr ms => [|id ids IH] i ptri ptr ms //=.
  case: id => [|[|[|k]] [|no id]] //. case: (List.nth_error Nxy ptri) => [[Nx Ny]|] //.
  case: ifP => // _. have := layer_grid_teq t t' i ptr Nx Ny H.
  case: (layer_grid t) => [g|e]; case: (layer_grid t') => [g'|e'] //=; last by move=> ->.
  move=> /Epsilon_fft_aeq ->. case: Epsilon_fft => [[ei e2]|] //=. case: Solve_patterned => //= qphi.
Qed.

Lemma init_ext argsort eig c Nx Ny N grid grid' f :
  (forall x y l, (x < Nx)%N -> (y < Ny)%N -> (l < N)%N -> grid x y l = grid' x y l) ->
  init_trcwa argsort eig c Nx Ny N grid f = init_trcwa argsort eig c Nx Ny N grid' f.
Proof.
  move=> H.
  have T : teq (squeeze0 (squeeze0 (T3 Nx Ny N grid))) (squeeze0 (squeeze0 (T3 Nx Ny N grid'))).
    do 2 apply: squeeze0_teq. by do 3 (split=> //).
  rewrite /init_trcwa.
  have M : material_layers c (squeeze0 (squeeze0 (T3 Nx Ny N grid))) Nx Ny N
         = material_layers c (squeeze0 (squeeze0 (T3 Nx Ny N grid'))) Nx Ny N.
    rewrite /material_layers. move: T. move: (squeeze0 (squeeze0 (T3 Nx Ny N grid))) (squeeze0 (squeeze0 (T3 Nx Ny N grid'))) => t t' T.
    elim: (iota 0 N) => [|k l IH] //=. rewrite IH. case: cfg_thickness => //= th. case: ifP => // _.
    case: t t' T {IH} => [a g|a b g|a b d g] [a' g'|a' b' g'|a' b' d' g'] //= [<- T]. case: ifP => //= Hk. by rewrite T.
  rewrite M. case: material_layers => //= ls. case: Init_Setup => //= -[G r]. case: MakeExcitationPlanewave => //= ab.
  case: ifP => // _. by rewrite /GridLayer_geteps (geteps_loop_teq _ _ _ _ _ _ _ _ _ _ _ _ T).
Qed.

Lemma spectrum_local argsort eig e u fs rs ts e' u' fs' rs' ts' i j f :
  no_nan e -> shapes_match e u fs -> no_nan e' -> shapes_match e' u' fs' -> u_cfg u = u_cfg u' ->
  same_slice e i e' j -> List.nth_error fs i = Some f -> List.nth_error fs' j = Some f ->
  compute_spectrum_trcwa argsort eig e u = Ok (rs, ts) ->
  compute_spectrum_trcwa argsort eig e' u' = Ok (rs', ts') ->
  List.nth_error rs i = List.nth_error rs' j /\ List.nth_error ts i = List.nth_error ts' j.
Proof.
  move=> Hn Hs Hn' Hs' Hc [E1 [E2 [E3 Hsl]]] Hf Hf' /(spectrum_ok _ _ _ _ _ _ _ Hn Hs) [_ [_ H]]
    /(spectrum_ok _ _ _ _ _ _ _ Hn' Hs') [_ [_ H']].
  have [r [t [-> [-> Ho]]]] := H i f Hf. have [r' [t' [-> [-> Ho']]]] := H' j f Hf'.
  move: Ho Ho'. rewrite /one_frequency -Hc -E1 -E2 -E3.
  rewrite (init_ext argsort eig (u_cfg u) (e_nx e) (e_ny e) (e_nl e) (slice4 e i) (slice4 e' j)); last first.
    move=> x y l Hx Hy Hl. by rewrite /slice4 Hsl.
  case: init_trcwa => // x <- [-> ->]. by [].
Qed.
