(** Spectra do not depend on the eigenvectors; constant patterns. *)
From Coq Require Import Reals Lra ZArith String Lia.
From mathcomp Require Import all_ssreflect all_algebra.
From Verif Require Import Base Cplx CplxLemmas CField Model_Lattice Spec_Lattice Proof_Lattice Proof_Lattice2
  Proof_Lattice3 Proof_Lattice4 Model_Stack Model_Modes Spec_Modes Model_TRCWA Spec_TRCWA Spec_Passive
  Proof_Smatrix Proof_FFT Proof_Init Proof_Init2 Proof_TRCWA Proof_Pattern2 Proof_Basis.
Import GRing.Theory.
Delimit Scope R_scope with coqR.
Delimit Scope Z_scope with coqZ.
Local Open Scope ring_scope.

(** Two eigenbases of one matrix give the same layer. *)
Lemma eig_rebased {n} (eig eig' : eig_oracle) (kx ky : 'rV[C]_n) (kp ep2 : 'M[C]_(n + n)) md md' :
  eigenbasis eig -> eigenbasis eig' -> m_kp md = kp -> m_kp md' = kp ->
  Solve_patterned (eig _) kx ky kp ep2 = Ok (m_q md, m_phi md) ->
  Solve_patterned (eig' _) kx ky kp ep2 = Ok (m_q md', m_phi md') -> same_layer 1%:M md md'.
Proof.
  move=> He He' K K'. rewrite /Solve_patterned /bind.
  set A := ep2 *m kp - _.
  case E: (eig _ A) => [[w V]|] // [Eq Ep]. case E': (eig' _ A) => [[w' V']|] // [Eq' Ep'].
  have [B1 B2] := He _ _ _ _ E. have [B1' B2'] := He' _ _ _ _ E'.
  rewrite /= in Ep Eq Ep' Eq'. exists (invmx V *m V').
  split; first by rewrite unitmx_mul unitmx_inv B2. split; first by rewrite K K' invmx1 mulmx1 mul1mx.
  split; first by rewrite mul1mx -Ep -Ep' mulKVmx.
  have D : diag_mx w *m (invmx V *m V') = (invmx V *m V') *m diag_mx w'.
    apply: (can_inj (mulKmx B2)). transitivity (A *m V'); first by rewrite mulmxA -B1 -mulmxA mulKVmx.
    by rewrite B1' -mulmxA mulKVmx.
  move: (invmx V *m V') D => W D i j N.
  move: (f_equal (fun A : 'M[C]_(n + n) => A i j) D). rewrite mul_diag_mx mul_mx_diag 2!mxE mulrC.
  move/(mulfI N) => Ew. by rewrite -Eq -Eq' !mxE Ew.
Qed.

(** The modes of a layer filled with one permittivity. *)
Lemma Jk_kk {n} (kx ky : 'rV[C]_n) :
  Jk kx ky *m (Jk kx ky)^T + col_mx (diag_mx kx) (diag_mx ky) *m (col_mx (diag_mx kx) (diag_mx ky))^T
  = diag_mx (\row_j (row_mx kx kx 0 j ^+ 2 + row_mx ky ky 0 j ^+ 2)).
Proof.
  rewrite /Jk !tr_col_mx !mul_col_row !tr_diag_mx !mulmx_diag add_block_mx -!raddfD /=.
  match goal with |- block_mx (diag_mx ?a) (diag_mx ?b) (diag_mx ?c) (diag_mx ?d) = _ =>
    have -> : b = 0; [|have -> : c = 0; [|have -> : a = \row_j (kx 0 j ^+ 2 + ky 0 j ^+ 2);
     [|have -> : d = \row_j (kx 0 j ^+ 2 + ky 0 j ^+ 2)]]] end.
  1-4: apply/rowP => j; rewrite !mxE ?expr2; move: (kx 0 j) (ky 0 j) => a b; cring.
  rewrite !raddf0 -diag_mx_row /=. congr diag_mx. apply/rowP => j. rewrite !mxE.
  by case: splitP => k _; rewrite !mxE.
Qed.

Lemma constant_kp {n} omega (kx ky : 'rV[C]_n) (c : C) :
  MakeKP_patterned omega (c^-1)%:M kx ky = MakeKP_uniform omega c^-1 kx ky.
Proof. by rewrite /MakeKP_patterned /MakeKP_uniform mul_mx_scalar -scalemxAl. Qed.

Lemma constant_matrix {n} omega (kx ky : 'rV[C]_n) (c : C) : c != 0 ->
  c%:M *m MakeKP_uniform omega c^-1 kx ky
    - col_mx (diag_mx kx) (diag_mx ky) *m (col_mx (diag_mx kx) (diag_mx ky))^T
  = diag_mx (\row_j (c * omega ^+ 2 - row_mx kx kx 0 j ^+ 2 - row_mx ky ky 0 j ^+ 2)).
Proof.
  move=> Hc. rewrite /MakeKP_uniform mul_scalar_mx scalerBr scalerA divff // scale1r -addrA -opprD Jk_kk.
  apply/matrixP => i j. rewrite !mxE. case: (eqVneq i j) => [->|_]; last by rewrite !mulr0n mulr0 subr0.
  rewrite !mulr1n. by rewrite opprD addrA.
Qed.

Lemma constant_same {n} (eig : eig_oracle) omega (kx ky : 'rV[C]_n) (c : C) md0 md :
  eigenbasis eig -> uniform_layer omega kx ky c = Ok md0 ->
  m_kp md = MakeKP_patterned omega (c^-1)%:M kx ky ->
  Solve_patterned (eig _) kx ky (m_kp md) c%:M = Ok (m_q md, m_phi md) -> same_layer 1%:M md0 md.
Proof.
  move=> He. rewrite /uniform_layer. case: eqP => // /eqP Hc [<-] K. rewrite /Solve_patterned /bind K constant_kp constant_matrix //.
  set d := \row_j _.
  have Dd : forall j, d 0 j = c * omega ^+ 2 - row_mx kx kx 0 j ^+ 2 - row_mx ky ky 0 j ^+ 2 by move=> j; rewrite mxE.
  clearbody d. case E: (eig _ _) => [[w V]|] // [Eq Ep]. have [B1 B2] := He _ _ _ _ E.
  exists V. split=> //. split=> /=; first by rewrite K constant_kp invmx1 mulmx1 mul1mx. split; first by rewrite -Ep !mul1mx.
  move=> i j N. move: (f_equal (fun A : 'M[C]_(n + n) => A i j) B1). rewrite mul_diag_mx mul_mx_diag 2!mxE mulrC.
  move/(mulfI N) => Ew. rewrite -Eq /= mxE [RHS]mxE -Ew Dd !mxE.
  by case: (splitP i) => k _; rewrite !mxE.
Qed.

(** What every successful set-up fixes. *)
Lemma init_facts argsort eig c Nx Ny N grid f x : init_trcwa argsort eig c Nx Ny N grid f = Ok x ->
    x_direction x = "forward"%string /\
    MakeExcitationPlanewave (size (x_G x)) 0%coqR 0%coqR 0 0%coqR 1 0%coqR 0%coqZ "forward" = Ok (x_a0 x, x_bN x) /\
    exists lk1 lk2 n, eps_sqrt (EReal (t_top c)) = Ok (s_norm (x_ready x))
    /\ Lattice_Reciprocate (t_L1 c) (t_L2 c) = Ok (lk1, lk2)
    /\ Lattice_getG argsort (t_NG c) lk1 lk2 0%coqZ = Ok (x_G x, n)
    /\ s_omega (x_ready x) = omega_of f
    /\ (forall j : 'I_(size (x_G x)), let g := List.nth j (x_G x) (0, 0)%coqZ in
          s_kx (x_ready x) 0 j = RtoC (2 * PI * (fst lk1 * IZR g.1 + fst lk2 * IZR g.2))%coqR
          /\ s_ky (x_ready x) 0 j = RtoC (2 * PI * (snd lk1 * IZR g.1 + snd lk2 * IZR g.2))%coqR).
Proof.
    move=> /init_inv [layers [r0 [E1 [E2 [E3 [E4 E5]]]]]]. split=> //. split=> //.
    have [ep0 [lk1 [lk2 [n [H1 [H2 [H3 [H4 [H5 [H6 [H7 [H8 [H9 _]]]]]]]]]]]]] := setup_ok argsort (trcwa_object c (omega_of f) layers) _ _ erefl erefl E2.
    have [I0 [I1 [I2 I3]]] : s_omega (x_ready x) = s_omega r0 /\ s_kx (x_ready x) = s_kx r0 /\ s_ky (x_ready x) = s_ky r0 /\ s_norm (x_ready x) = s_norm r0.
      move: E3. case: ifP => _; last by move=> [->].
      rewrite /GridLayer_geteps /bind. by case: (geteps_loop _ _ _ _ _ _ _ _ _ _ _) => // ms [<-].
    exists lk1, lk2, n. rewrite I0 I1 I2 I3. split; last by [].
    have : List.nth_error (Uniform_ep_list (r_stack (trcwa_object c (omega_of f) layers))) 0 = Some (EReal (t_top c)).
      rewrite /trcwa_object /=. apply: Proof_TRCWA.first_uniform. by [].
    by rewrite H1 => -[<-].
Qed.

(** Two runs at one frequency with one configuration share everything but the
    inner layers. *)
Lemma frames argsort eig eig' c Nx Ny Nx' Ny' N N' grid grid' f x x' :
  init_trcwa argsort eig c Nx Ny N grid f = Ok x -> init_trcwa argsort eig' c Nx' Ny' N' grid' f = Ok x' ->
  exists G (r r' : ready G) a b, x = mkExcited G r a b "forward" /\ x' = mkExcited G r' a b "forward"
    /\ s_omega r' = s_omega r /\ s_kx r' = s_kx r /\ s_ky r' = s_ky r /\ s_norm r' = s_norm r.
Proof.
  move=> /init_facts [D [E [lk1 [lk2 [n [A1 [A2 [A3 [A4 A5]]]]]]]]] /init_facts [D' [E' [lk1' [lk2' [n' [B1 [B2 [B3 [B4 B5]]]]]]]]].
  rewrite A2 in B2. case: B2 => ? ?; subst lk1' lk2'. rewrite A3 in B3. case: B3 => EG _.
  case: x x' D D' E E' A1 A3 A4 A5 B1 B4 B5 EG => [G r a b d] [G' r' a' b' d'] /= -> -> E E' A1 A3 A4 A5 B1 B4 B5 EG.
  subst G'. rewrite E in E'. case: E' => ? ?; subst a' b'. exists G, r, r', a, b.
  do 2 (split=> //). split; first by rewrite A4 B4.
  split; first by apply/rowP => j; have [-> _] := A5 j; have [-> _] := B5 j.
  split; first by apply/rowP => j; have [_ ->] := A5 j; have [_ ->] := B5 j.
  by rewrite A1 in B1; case: B1.
Qed.

Lemma nth_error_inj {A} (l l' : seq A) : size l = size l' ->
  (forall i, (i < size l)%N -> List.nth_error l i = List.nth_error l' i) -> l = l'.
Proof.
  elim: l l' => [|a l IH] [|a' l'] //= [S] H. have [->] := H 0%N isT. congr cons. apply: IH => // i Hi. exact: (H i.+1).
Qed.

Lemma outer_thick c N G (r : ready G) G' (r' : ready G') : outer_ok c N r -> outer_ok c N r' -> s_thick r' = s_thick r.
Proof.
  move=> [_ [S [T0 [TN [Th _]]]]] [_ [S' [T0' [TN' [Th' _]]]]]. apply: nth_error_inj; first by rewrite S S'.
  rewrite S'. move=> [|i] Hi; first by rewrite T0 T0'. rewrite !ltnS leq_eqVlt in Hi.
  case/orP: Hi => [/eqP ->|Hi]; first by rewrite TN TN'. by rewrite Th // Th'.
Qed.

(** Equal outer layers and inner layers in other bases: the same numbers. *)
Lemma RT_rebased G (r r' : ready G) a b c N nrm :
  outer_ok c N r -> outer_ok c N r' ->
  s_omega r' = s_omega r -> s_kx r' = s_kx r -> s_ky r' = s_ky r -> s_norm r' = s_norm r ->
  (forall i md md', (i < N)%N -> List.nth_error (s_modes r) i.+1 = Some (Some md) ->
     List.nth_error (s_modes r') i.+1 = Some (Some md') -> same_layer 1%:M md md') ->
  (forall i, (i < N)%N -> exists md, List.nth_error (s_modes r') i.+1 = Some (Some md)) ->
  forall v, RT_Solve nrm (mkExcited G r a b "forward") = Ok v -> RT_Solve nrm (mkExcited G r' a b "forward") = Ok v.
Proof.
  move=> O O' Eo Ex Ey En HS HX v.
  have Et := outer_thick _ _ _ _ _ _ O O'.
  case: O => S1 [S2 [_ [_ [_ [[m0 [M0 U0]] [mN [MN UN]]]]]]]. case: O' => S1' [_ [_ [_ [_ [[m0' [M0' U0']] [mN' [MN' UN']]]]]]].
  rewrite Eo Ex Ey U0 in U0'. case: U0' => ?; subst m0'. rewrite Eo Ex Ey UN in UN'. case: UN' => ?; subst mN'.
  rewrite /RT_Solve /last_mode /bind /get_mode. cbn [x_G x_ready x_a0 x_bN x_direction]. rewrite S1 S1' Eo En [N.+2.-1]/=.
  rewrite MN MN' M0 M0'.
  case E: (SolveExterior a b (s_modes r) (s_thick r)) => [[aN b0]|] //.
  rewrite (exterior_rebased 1%:M 1%:M (s_modes r) _ _ _ _ aN b0) ?Et ?unitmx1 ?mul1mx //.
  - move=> l md Hl. have Hs := nth_error_size _ _ _ Hl. rewrite S1 in Hs.
    case: l Hl Hs => [|l] Hl Hs.
      exists m0. split; first by []. rewrite M0 in Hl. case: Hl => <-. exists 1%:M. exact: rebased_refl.
    rewrite !ltnS leq_eqVlt in Hs. case/orP: Hs => [/eqP El|Hs].
      subst l. exists mN. split; first by []. rewrite MN in Hl. case: Hl => <-. exists 1%:M. exact: rebased_refl.
    have [md' Hm] := HX l Hs. exists md'. split=> //. exact: HS Hs Hl Hm.
  - move=> l md [->|->]; [rewrite M0|rewrite S2 [N.+2.-1]/= MN] => -[<-]; [exists m0|exists mN]; split=> //; exact: rebased_refl.
Qed.

Lemma eigenvectors_free argsort eig eig' c Nx Ny N grid f x x' nrm v :
  eigenbasis eig -> eigenbasis eig' ->
  init_trcwa argsort eig c Nx Ny N grid f = Ok x -> init_trcwa argsort eig' c Nx Ny N grid f = Ok x' ->
  RT_Solve nrm x = Ok v -> RT_Solve nrm x' = Ok v.
Proof.
  move=> He He' I I'. have [G [r [r' [a [b [Ex [Ex' [Eo [Ekx [Eky En]]]]]]]]]] := frames _ _ _ _ _ _ _ _ _ _ _ _ _ _ _ I I'.
  have [O [_ [_ M]]] := init_object _ _ _ _ _ _ _ _ _ I. have [O' [_ [_ M']]] := init_object _ _ _ _ _ _ _ _ _ I'.
  subst x x'. cbn [x_ready x_G] in O, O', M, M'. apply: (RT_rebased _ _ _ _ _ c N) => // [i md md' Hi Hm Hm'|i Hi].
  - have [m [A1 A2]] := M i Hi. rewrite A1 in Hm. case: Hm => ?; subst m.
    have [m [B1 B2]] := M' i Hi. rewrite B1 in Hm'. case: Hm' => ?; subst m.
    move: A2 B2. rewrite /layer_mode /= Eo Ekx Eky. case: ifP => _.
      move=> -> [<-]. exists 1%:M. exact: rebased_refl.
    move=> [ei [e2 [F1 [F2 F3]]]] [ei' [e2' [F1' [F2' F3']]]]. rewrite F1 in F1'. case: F1' => ? ?; subst ei' e2'.
    rewrite F2 in F3. rewrite F2' in F3'. exact: eig_rebased He He' F2 F2' F3 F3'.
  - have [m [B1 _]] := M' i Hi. by exists m.
Qed.

Lemma RT_rebased_iff G (r r' : ready G) a b c N nrm v :
  outer_ok c N r -> outer_ok c N r' ->
  s_omega r' = s_omega r -> s_kx r' = s_kx r -> s_ky r' = s_ky r -> s_norm r' = s_norm r ->
  (forall i, (i < N)%N -> exists md md', List.nth_error (s_modes r) i.+1 = Some (Some md) /\
     List.nth_error (s_modes r') i.+1 = Some (Some md') /\ same_layer 1%:M md md') ->
  RT_Solve nrm (mkExcited G r a b "forward") = Ok v <-> RT_Solve nrm (mkExcited G r' a b "forward") = Ok v.
Proof.
  move=> O O' Eo Ex Ey En H. split; apply: (RT_rebased _ _ _ _ _ c N) => //.
  - move=> i m m' Hi Hm Hm'. have [md [md' [A1 [A2 A3]]]] := H i Hi.
    rewrite A1 in Hm. case: Hm => <-. rewrite A2 in Hm'. by case: Hm' => <-.
  - move=> i Hi. have [md [md' [A1 [A2 A3]]]] := H i Hi. by exists md'.
  - move=> i m m' Hi Hm Hm'. have [md [md' [A1 [A2 A3]]]] := H i Hi.
    rewrite A2 in Hm. case: Hm => <-. rewrite A1 in Hm'. case: Hm' => <-. rewrite -invmx1. exact: same_layer_sym (unitmx1 _ _) A3.
  - move=> i Hi. have [md [md' [A1 [A2 A3]]]] := H i Hi. by exists md.
Qed.

Lemma constant_pattern argsort eig eig' c Nx Ny N grid grid1 f x x1 nrm v :
  sorts argsort -> usable c -> eigenbasis eig ->
  (forall a b i, (a < Nx)%N -> (b < Ny)%N -> (i < N)%N -> grid a b i = grid1 0%N 0%N i) ->
  (forall i, (i < N)%N -> kept (grid1 0%N 0%N i)) ->
  init_trcwa argsort eig c Nx Ny N grid f = Ok x -> init_trcwa argsort eig' c 1 1 N grid1 f = Ok x1 ->
  RT_Solve nrm x1 = Ok v <-> RT_Solve nrm x = Ok v.
Proof.
  move=> Hs Hu He Hg Hk I I1.
  have HG : orders_of argsort c (x_G x).
    have [layers [r0 [_ [E2 _]]]] := init_inv _ _ _ _ _ _ _ _ _ I.
    have [ep0 [lk1 [lk2 [n [_ [_ [H3 [H4 _]]]]]]]] := setup_ok argsort (trcwa_object c (omega_of f) layers) _ _ erefl erefl E2.
    by exists lk1, lk2, n.
  have [ND _] := getG_nodup _ _ _ Hs Hu HG.
  have [G [r1 [r [a [b [Ex1 [Ex [Eo [Ekx [Eky En]]]]]]]]]] := frames _ _ _ _ _ _ _ _ _ _ _ _ _ _ _ I1 I.
  have [O [_ [S M]]] := init_object _ _ _ _ _ _ _ _ _ I. have [O' [_ [_ M']]] := init_object _ _ _ _ _ _ _ _ _ I1.
  subst x x1. cbn [x_ready x_G] in O, O', M, M', ND. apply: (RT_rebased_iff _ _ _ _ _ c N) => // i Hi.
  have [md' [B1 B2]] := M' i Hi. have [md [A1 A2]] := M i Hi. exists md', md. split=> //; split=> //.
  move: B2. rewrite /layer_mode /= => B2.
  move: A2. rewrite /layer_mode Eo Ekx Eky /=. case: ifP => [/andP [/eqP Ex /eqP Ey]|Hn].
    rewrite Hg ?Ex ?Ey // B2 => -[<-]. exists 1%:M. exact: rebased_refl.
  have Hc : grid1 0%N 0%N i <> C0.
    move=> E. move: B2. by rewrite /uniform_layer E eqxx.
  set e := grid1 0%N 0%N i in B2 Hc. move=> [ei [e2 [F1 [F2 F3]]]].
  have F0 : Epsilon_fft (1 / INR Nx / INR Ny)%coqR (Iso (constant_grid Nx Ny e)) G = Ok (ei, e2).
    rewrite -F1. apply: eps_fft_ext => // u w /= Hu' Hw. by rewrite Hg.
  have Hpos : (0 < Nx)%N /\ (0 < Ny)%N.
    have [[-> ->]|[[Px [_ Py]]|[-> [Py _]]]] := S (leq_ltn_trans (leq0n i) Hi); split=> //; exact: ltnW.
  have Rs : resolves Nx Ny G.
    move: F0. rewrite /Epsilon_fft /bind. case EC: (get_conv _ _ _) => [E|] // _.
    apply: Classical_Prop.NNPP => NR.
    have := proj2 (conv_defined (constant_grid Nx Ny e) G (proj1 Hpos) (proj2 Hpos)) NR. by rewrite /= EC.
  have [T _] := eps_fft_constant Nx Ny e G ND (proj1 Hpos) (proj2 Hpos) Rs Hc.
  rewrite T in F0; last exact: Hk. case: F0 => ? ?; subst ei e2. rewrite F2 in F3.
  apply: (constant_same eig (s_omega r1) (s_kx r1) (s_ky r1) e) => //. by rewrite F2.
Qed.

(** Two successful mappings with the same results give the same list. *)
Lemma map_layers_agree {A B} (f g : A -> res B) l : (forall x y z, List.In x l -> f x = Ok y -> g x = Ok z -> y = z) ->
  forall ys zs, map_layers f l = Ok ys -> map_layers g l = Ok zs -> ys = zs.
Proof.
  elim: l => [|x l IH] H ys zs /=; first by move=> [<-] [<-].
  rewrite /bind. case E: (f x) => [y|] //. case E': (map_layers f l) => [ys'|] // [<-].
  case F: (g x) => [z|] //. case F': (map_layers g l) => [zs'|] // [<-].
  rewrite (H x y z) //; last by left. congr cons. apply: IH => // x' y' z' Hx. apply: H. by right.
Qed.

Lemma in_zip_iota {A} (l : seq A) s k y : List.In (k, y) (zip (iota s (size l)) l) -> (k < s + size l)%N.
Proof.
  elim: l s => [|a l IH] s //= [[<- _]|H]; first by rewrite addnS ltnS leq_addr.
  have := IH _ H. by rewrite addSnnS.
Qed.

(** What a successful [compute_spectrum_trcwa] has checked and computed. *)
Lemma spectrum_inv argsort eig e u s : compute_spectrum_trcwa argsort eig e u = Ok s ->
  has_nan e = false /\ exists freqs rs, u_freqs u = Some freqs /\ size freqs = e_nf e
    /\ map_layers (fun p : nat * R => bind (init_trcwa argsort eig (u_cfg u) (e_nx e) (e_ny e) (e_nl e) (slice4 e p.1) p.2)
                                         (fun x => RT_Solve true x)) (zip (iota 0 (size freqs)) freqs) = Ok rs
    /\ s = (map fst rs, map snd rs).
Proof.
  rewrite /compute_spectrum_trcwa. case: ifP => // Hn. case: (u_freqs u) => [freqs|] //=.
  rewrite /ensure. case: Z.eqb_spec => //= E1. do 3 (case: ifP => //= _). case: Z.eqb_spec => //= E2.
  case EM: (map_layers _ _) => [rs|] //= [<-]. split=> //. exists freqs, rs. split=> //. split=> //. lia.
Qed.

Lemma spectrum_eigenvectors argsort eig eig' e u s s' :
  eigenbasis eig -> eigenbasis eig' ->
  compute_spectrum_trcwa argsort eig e u = Ok s -> compute_spectrum_trcwa argsort eig' e u = Ok s' -> s = s'.
Proof.
  move=> He He' /spectrum_inv [_ [fr [rs [F [_ [M ->]]]]]] /spectrum_inv [_ [fr' [rs' [F' [_ [M' ->]]]]]].
  rewrite F in F'. case: F' => ?; subst fr'.
  suff -> : rs = rs' by []. move: M M'. apply: map_layers_agree => -[k f] y z _ /=. rewrite /bind.
  case E: (init_trcwa _ eig _ _ _ _ _ _) => [x|] // Hy. case E': (init_trcwa _ eig' _ _ _ _ _ _) => [x'|] // Hz.
  have := eigenvectors_free _ _ _ _ _ _ _ _ _ _ _ _ _ He He' E E' Hy. rewrite Hz. by case.
Qed.

Lemma spectrum_constant argsort eig eig' e e1 u s s1 :
  sorts argsort -> usable (u_cfg u) -> eigenbasis eig ->
  e_nx e1 = 1%N -> e_ny e1 = 1%N -> e_nl e1 = e_nl e -> e_nf e1 = e_nf e ->
  (forall a b i k, (a < e_nx e)%N -> (b < e_ny e)%N -> (i < e_nl e)%N -> (k < e_nf e)%N ->
     e_at e a b i k = e_at e1 0%N 0%N i k) ->
  (forall i k z, (i < e_nl e)%N -> (k < e_nf e)%N -> e_at e1 0%N 0%N i k = Some z -> kept z) ->
  compute_spectrum_trcwa argsort eig e u = Ok s ->
  compute_spectrum_trcwa argsort eig' e1 (mkTrun 1 1 (u_Nl u) (u_Nf u) (u_freqs u) (u_cfg u)) = Ok s1 -> s = s1.
Proof.
  move=> Hs Hu He X Y L F Hg Hk /spectrum_inv [_ [fr [rs [Ef [Sf [M ->]]]]]] /spectrum_inv [N1 [fr' [rs' [/= Ef' [Sf' [M' ->]]]]]].
  rewrite Ef in Ef'. case: Ef' => ?; subst fr'.
  suff -> : rs = rs' by []. move: M M'. apply: map_layers_agree => -[k f] y z Hin /=. rewrite /bind X Y L.
  have Hk' : (k < e_nf e)%N by have := in_zip_iota _ _ _ _ Hin; rewrite add0n Sf.
  have Full : forall i, (i < e_nl e)%N -> exists w, e_at e1 0%N 0%N i k = Some w.
    move=> i Hi. case Ew: (e_at e1 0%N 0%N i k) => [w|]; first by exists w.
    exfalso. move/negP: (negbT N1). apply. rewrite /has_nan X Y.
    apply/existsP; exists ord0. apply/existsP; exists ord0.
    rewrite -L in Hi. rewrite -F in Hk'. apply/existsP; exists (Ordinal Hi). apply/existsP; exists (Ordinal Hk').
    by rewrite /= Ew.
  case E: (init_trcwa _ eig _ _ _ _ _ _) => [x|] // Hy. case E': (init_trcwa _ eig' _ _ _ _ _ _) => [x'|] // Hz.
  have := constant_pattern argsort eig eig' (u_cfg u) (e_nx e) (e_ny e) (e_nl e) (slice4 e k) (slice4 e1 k) f x x' true z Hs Hu He.
  move=> T. have {T} T : RT_Solve true x = Ok z.
    apply/T => //.
    - move=> a b i Ha Hb Hi. by rewrite /slice4 Hg.
    - move=> i Hi. have [w Ew] := Full i Hi. rewrite /slice4 Ew. exact: Hk Hi Hk' Ew.
  rewrite T in Hy. by case: Hy.
Qed.
