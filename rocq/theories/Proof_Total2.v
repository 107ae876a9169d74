(** TRCWA simulations of passive stacks never fail. *)
From Coq Require Import Reals Lra Psatz ZArith String Lia.
From mathcomp Require Import all_ssreflect all_algebra.
From Verif Require Import Base Cplx CplxLemmas CField Model_Lattice Spec_Lattice Proof_Lattice Proof_Lattice2
  Proof_Lattice3 Proof_Lattice4 Model_Stack Model_Modes Spec_Modes Model_TRCWA
  Spec_TRCWA Spec_Passive Spec_Film Proof_FilmC Proof_Modes Proof_Smatrix Proof_FFT
  Proof_Passive Proof_Passive2 Proof_Passive3 Proof_Outer Proof_RT Proof_Init Proof_Init2 Proof_Pattern Proof_TRCWA Proof_Film
  Proof_TRCWA2 Proof_Total.
Import GRing.Theory.
Delimit Scope R_scope with coqR.
Delimit Scope Z_scope with coqZ.
Local Open Scope ring_scope.

(** * Patterned layers *)
Lemma basis_pairs eig : eigenbasis eig -> eigenpairs eig.
Proof. move=> H m A w V E. by have [] := H _ _ _ _ E. Qed.

Lemma pattern_solid {G} (eig : eig_oracle) omega (kx ky : 'rV[C]_(size G)) g md :
  eigenbasis eig -> patterned_mode eig omega kx ky g md -> (0 < Im omega)%coqR -> real_row kx -> real_row ky ->
  resolved_entries g G ->
  (forall x y, (x < g_nx g)%N -> (y < g_ny g)%N -> (0 <= Im (g_at g x y * omega)%R)%coqR) ->
  solid omega kx ky md.
Proof.
  move=> He [ei [e2 [Ef [Kp Sv]]]] Hw Rx Ry Rs Hg.
  have Ho : omega <> C0 by move=> E; rewrite E /= in Hw; lra.
  move: Ef. rewrite /Epsilon_fft /bind. case EC: (get_conv _ _ _) => [E|] //.
  rewrite /inverse. case: ifP => // U [Ei E2].
  have [Hx [Hy _]] := conv_ok _ _ _ EC. have HM := conv_entry _ _ _ EC. rewrite -lt0n in Hx. rewrite -lt0n in Hy.
  have Q := conv_gain_free g G E omega HM Hx Hy Hg.
  have {}E2 : e2 = block_mx E 0 0 E.
    rewrite -E2 map_block_mx. have -> : map_mx threshold (0 : 'M[C]_(size G)) = 0 by apply/matrixP => i j; rewrite !mxE threshold_0.
    have -> // : map_mx threshold E = E. apply/matrixP => i j. rewrite mxE threshold_id // HM. exact: Rs.
  have [M1 M2] := patterned_eigen (eig _) kx ky (m_kp md) e2 _ _ (basis_pairs _ He _) Sv.
  apply: (solid_intro omega kx ky md e2 ei) => //.
  - move=> v. rewrite E2 -scalemxAl herm_scale_r herm_block mulrDr Im_addC.
    have := Q (usubmx v). have := Q (dsubmx v). lra.
  - rewrite -Ei. exact: inverse_gain_free.
  - rewrite E2 unitmxE det_ublock. rewrite unitmxE in U. by rewrite unitrM U.
  - move: Sv. rewrite /Solve_patterned /bind. case Ee: (eig _ _) => [[w V]|] // [_ <-]. exact: (He _ _ _ _ Ee).2.
  - move=> j. by have [_ [H _]] := M2 j.
Qed.

(** * RT_Solve after [_init_trcwa] *)
Lemma init_solves argsort eig c Nx Ny N grid f x :
  sorts argsort -> (0 < f)%coqR -> (0 < t_top c)%coqR -> (0 < t_bottom c)%coqR ->
  (forall i th, (i < N)%N -> layer_thickness (t_thick c) i = Some th -> (0 <= th)%coqR) ->
  (forall a b i, (a < Nx)%N -> (b < Ny)%N -> (i < N)%N -> passive_eps (grid a b i)) ->
  init_trcwa argsort eig c Nx Ny N grid f = Ok x ->
  (Nx = 1%N /\ Ny = 1%N \/ eigenbasis eig
     /\ forall i, (i < N)%N -> resolved_entries (mkGrid2 Nx Ny (fun a b => grid a b i)) (x_G x)) ->
  exists r t, RT_Solve true x = Ok (r, t).
Proof.
  move=> Hs Hf Ht Hb Hth Hp Hi Hc.
  have [_ [Rx [Ry [Dir _]]]] := init_frame _ _ _ _ _ _ _ _ _ Hi Hs.
  have [O [Eo [_ M]]] := init_object _ _ _ _ _ _ _ _ _ Hi. case: O => S1 [S2 [T0 [TN [Th [[m0 [M0 U0]] [mN [MN UN]]]]]]].
  have [P1 [P2 P3]] := omega_pos f Hf.
  have Pos : forall e : R, (0 < e)%coqR -> (0 <= Im (RtoC e * omega_of f)%R)%coqR.
    move=> e He. move: (omega_of f) P2 => [o1 o2] /= P2'. rewrite ?C_mulE /=. nra.
  apply: rt_total => //; rewrite ?S1 ?S2 ?Eo //.
  - move=> l. rewrite ltnS leq_eqVlt => /orP [/eqP ->|].
      exists mN. split=> //. rewrite -Eo. apply: (uniform_solid _ _ _ _ _ UN) => //; rewrite Eo //. exact: Pos.
    case: l => [_|l Hl].
      exists m0. split=> //. rewrite -Eo. apply: (uniform_solid _ _ _ _ _ U0) => //; rewrite Eo //. exact: Pos.
    rewrite ltnS in Hl. have [md [M1 M2]] := M l Hl. exists md. split=> //.
    move: M2. rewrite /layer_mode /=. case: ifP => [/andP [/eqP Ex /eqP Ey]|Hn] M2.
    + rewrite -Eo. apply: (uniform_solid _ _ _ _ _ M2) => //; rewrite Eo //. apply: passive_eps_omega => //. by apply: Hp; rewrite ?Ex ?Ey.
    + case: Hc => [[Ex Ey]|[Ei Hr]]; first by rewrite Ex Ey in Hn.
      rewrite -Eo. apply: (pattern_solid eig _ _ _ _ _ Ei M2) => //; rewrite ?Eo //; first exact: Hr.
      move=> a b Ha Hb'. apply: passive_eps_omega => //. exact: Hp.
  - move=> l th. case: l => // l /=. rewrite ltnS => Hl El. apply: (Hth l) => //. by rewrite -Th.
Qed.

(** * Uniform stacks can always be set up *)
Lemma map_layers_total {A B} (f : A -> res B) l : (forall i x, List.nth_error l i = Some x -> exists y, f x = Ok y) ->
  exists ys, map_layers f l = Ok ys.
Proof.
  elim: l => [|x l IH] H; first by exists [::].
  have [y E] := H 0%N x erefl. have [ys E'] := IH (fun i => H i.+1). exists (y :: ys). by rewrite /= E /= E'.
Qed.

Lemma orders_exist argsort c : sorts argsort -> usable c ->
  exists lk1 lk2 G n, Lattice_Reciprocate (t_L1 c) (t_L2 c) = Ok (lk1, lk2)
    /\ Lattice_getG argsort (t_NG c) lk1 lk2 0%coqZ = Ok (G, n) /\ (0 < size G)%N.
Proof.
  move=> Hs [a [b [k1 [k2 [nG [-> [-> [-> [Hn [D1 [D2 [D3 [D4 Gap]]]]]]]]]]]]].
  have R := reciprocate_unique _ _ _ _ D1 D2 D3 D4. have I := reciprocate_independent _ _ _ _ R.
  have [G [EG _]] := orders_selected argsort nG k1 k2 Hs I ltac:(lia).
  exists k1, k2, G, (Z.of_nat (List.length G)). split=> //. split=> //.
  have Z0 : len2 k1 k2 (0, 0)%coqZ = 0%coqR by rewrite /len2 /recip /=; ring.
  have T : (0 <= / 10 ^ 10 * Rmax (len2 k1 k2 (1, 0)%coqZ) (len2 k1 k2 (0, 1)%coqZ))%coqR.
    apply: Rmult_le_pos; first by lra. apply: Rle_trans (Rmax_l _ _). rewrite /len2 /=. nra.
  have S : List.incl [:: (0, 0)%coqZ] G.
    apply: (orders_maximal argsort nG k1 k2 G _ [:: (0, 0)%coqZ] 0%coqR Hs I EG).
    - constructor; [by []|constructor].
    - rewrite /=. lia.
    - move=> g. split; first by move=> [<-|[]]; rewrite Z0; lra.
      move=> L. left. apply: Classical_Prop.NNPP => Ng. have := Gap g (fun E => Ng (esym E)). lra.
    - move=> g L. rewrite Rplus_0_l. apply: Gap => E. rewrite E Z0 in L. lra.
  have := S (0, 0)%coqZ (or_introl erefl). by case: G {EG S}.
Qed.

Lemma excitation_total n : (0 < n)%N ->
  exists a b, MakeExcitationPlanewave n 0%coqR 0%coqR 0 0%coqR 1 0%coqR 0%coqZ "forward" = Ok (a, b).
Proof.
  case: n => // n _.
  have E1 : py_index (n.+1 + n.+1) 0 = Ok 0%N.
    rewrite /py_index. have -> : (0 <? Z.of_nat (n.+1 + n.+1))%coqZ = true by apply/Z.ltb_lt; rewrite -plusE; lia. by [].
  have E2 : py_index (n.+1 + n.+1) (0 + Z.of_nat n.+1)%coqZ = Ok n.+1.
    rewrite Z.add_0_l /py_index. have -> : (0 <=? Z.of_nat n.+1)%coqZ = true by apply/Z.leb_le; lia.
    have -> : (Z.of_nat n.+1 <? Z.of_nat (n.+1 + n.+1))%coqZ = true.
      by apply/Z.ltb_lt; rewrite -plusE; lia.
    by rewrite andTb Nat2Z.id.
  rewrite /MakeExcitationPlanewave /bind E1 E2.
  by eexists _, _.
Qed.

Lemma setup_total argsort c om (films : seq (R * eps_val)) :
  sorts argsort -> usable c -> (0 < t_top c)%coqR -> t_bottom c <> 0%coqR ->
  (forall p, List.In p films -> eps_C p.2 <> C0) ->
  exists G (r : ready G), (0 < size G)%N
    /\ Init_Setup argsort (trcwa_object c om (map (fun p => Uniform p.1 p.2) films)) 1%coqR 0%coqZ = Ok (existT _ G r).
Proof.
  move=> Hs Hu Ht Hb Hf. have [lk1 [lk2 [G [n [E1 [E2 HG]]]]]] := orders_exist _ _ Hs Hu.
  pose cs := (1%coqR, EReal (t_top c)) :: films ++ [:: (1%coqR, EReal (t_bottom c))].
  have Est : r_stack (trcwa_object c om (map (fun p => Uniform p.1 p.2) films))
     = add_layers (map (fun p => Uniform p.1 p.2) cs) empty_stack.
    by rewrite /cs map_cons map_cat.
  have [A1 [A2 [A3 [A4 [A5 A6]]]]] := add_uniforms cs empty_stack. rewrite -Est in A1 A2 A3 A4 A5 A6.
  set o := trcwa_object _ _ _ in Est A1 A2 A3 A4 A5 A6 *. rewrite /= in A3 A4.
  rewrite /Init_Setup /bind. rewrite A4 /=.
  destruct (Rlt_dec (t_top c) 0) as [K|?]; first by exfalso; lra.
  rewrite E1 /= E2 /=. destruct (Req_EM_T 1 0) as [K|?]; first by exfalso; lra.
  destruct (Req_EM_T (cos 0) 0) as [K|?]; first by exfalso; rewrite cos_0 in K; lra.
  match goal with |- context [map_layers ?f ?l] => have [ms Em] : exists ys, map_layers f l = Ok ys end.
    apply: map_layers_total => i id. rewrite A3 => Hi. have Hl := nth_error_size _ _ _ Hi. rewrite size_mkseq in Hl.
    rewrite nth_error_mkseq // in Hi. case: Hi => <-. rewrite /= /bind.
    have [p Ep] := nth_error_ex cs i Hl.
    have -> : List.nth_error (EReal (t_top c) :: map snd (films ++ [:: (1%coqR, EReal (t_bottom c))])) i = Some p.2.
      by rewrite -[_ :: _]/(map snd cs) nth_error_map' Ep.
    rewrite /uniform_layer. case: eqP => [Z|_]; last by eexists. exfalso.
    have : List.In p cs := List.nth_error_In _ _ Ep. rewrite /cs => -[E|].
      move: Z. rewrite -E /= => Z. have := f_equal Re Z. rewrite /=. lra.
    move=> /(@List.in_app_or _ films) [/Hf //|[E|[]]]. move: Z. rewrite -E /= => Z. apply: Hb. exact: (f_equal Re Z).
  rewrite Em. exists G. eexists. split; [exact: HG | reflexivity].
Qed.

Lemma film_total argsort c freq films :
  sorts argsort -> usable c -> (0 < t_top c)%coqR -> t_bottom c <> 0%coqR ->
  (forall p, List.In p films -> eps_C p.2 <> C0) ->
  exists x, film_stack argsort c freq films = Ok x.
Proof.
  move=> Hs Hu Ht Hb Hf. have [G [r [HG E]]] := setup_total argsort c (Cmul (RtoC (2 * PI)%coqR) freq) films Hs Hu Ht Hb Hf.
  rewrite /film_stack /TRCWA_new. cbv zeta. cbn [r_nG r_L1 r_L2 r_omega r_theta r_phi r_stack]. rewrite /bind.
  rewrite -/(trcwa_object c (Cmul (RtoC (2 * PI)%coqR) freq) (map (fun p => Uniform p.1 p.2) films)) E.
  have [a [b Ea]] := excitation_total _ HG. cbn [projT1]. rewrite Ea. by eexists.
Qed.

Lemma in_zip {A B} (l : seq A) (m : seq B) p : List.In p (zip l m) -> exists i, List.nth_error m i = Some p.2.
Proof.
  elim: l m => [|a l IH] [|b m] //= [<-|/IH [i E]]; by [exists 0%N | exists i.+1].
Qed.

Lemma init_total argsort eig c N grid f :
  sorts argsort -> usable c -> (0 < t_top c)%coqR -> t_bottom c <> 0%coqR ->
  (forall i, (i < N)%N -> layer_thickness (t_thick c) i <> None) ->
  (forall i, (i < N)%N -> grid 0%N 0%N i <> C0) ->
  exists x, init_trcwa argsort eig c 1 1 N grid f = Ok x.
Proof.
  move=> Hs Hu Ht Hb Hth Hg.
  have [layers E] : exists l, material_layers c (squeeze0 (squeeze0 (T3 1 1 N grid))) 1 1 N = Ok l.
    rewrite /material_layers. apply: map_layers_total => i k Hi.
    have Hl := nth_error_size _ _ _ Hi. rewrite size_iota in Hl. rewrite nth_error_iota // add0n in Hi. case: Hi => <-.
    have := Hth i Hl. rewrite /cfg_thickness /layer_thickness /bind. case: (List.nth_error _ _) => // th _.
    rewrite /= Hl. by eexists.
  have [_ [ts [Sz [Hts El]]]] := material_plain c 1 1 N grid layers isT isT E.
  have Nz : forall p, List.In p (zip ts (mkseq (fun i => ECplx (grid 0%N 0%N i)) N)) -> eps_C p.2 <> C0.
    move=> p /in_zip [k Ek]. have Hk := nth_error_size _ _ _ Ek. rewrite size_mkseq in Hk.
    rewrite nth_error_mkseq // in Ek. case: Ek => <-. exact: Hg.
  have [G [r [HG Es]]] := setup_total argsort c (omega_of f) _ Hs Hu Ht Hb Nz.
  have [a [b Ea]] := excitation_total _ HG.
  rewrite /init_trcwa /TRCWA_new. cbv zeta. cbn [r_nG r_L1 r_L2 r_omega r_theta r_phi r_stack]. rewrite omega_of_ok /bind E El.
  rewrite -/(trcwa_object c (omega_of f) _) Es. cbn [projT1]. rewrite Ea. by eexists.
Qed.

(** The whole calculation for a stack of homogeneous passive layers *)
Lemma uniform_spectrum argsort eig c N grid f :
  sorts argsort -> usable c -> (0 < f)%coqR -> (0 < t_top c)%coqR -> (0 < t_bottom c)%coqR ->
  (forall i, (i < N)%N -> exists th, layer_thickness (t_thick c) i = Some th /\ (0 <= th)%coqR) ->
  (forall i, (i < N)%N -> grid 0%N 0%N i <> C0 /\ passive_eps (grid 0%N 0%N i)) ->
  exists x Rr Tr, init_trcwa argsort eig c 1 1 N grid f = Ok x
    /\ RT_Solve true x = Ok (RtoC Rr, RtoC Tr) /\ (0 <= Rr)%coqR /\ (0 <= Tr)%coqR
    /\ (Rr + Tr <= exp (- (2 * sqrt (t_top c) * Im (omega_of f))))%coqR.
Proof.
  move=> Hs Hu Hf Ht Hb Hth Hg.
  have [x Ex] : exists x, init_trcwa argsort eig c 1 1 N grid f = Ok x.
    apply: init_total => //; first by lra.
    - by move=> i Hi; have [th [-> _]] := Hth i Hi.
    - by move=> i Hi; have [] := Hg i Hi.
  have T : forall i th, (i < N)%N -> layer_thickness (t_thick c) i = Some th -> (0 <= th)%coqR.
    move=> i th Hi E. have [th' [E' P]] := Hth i Hi. rewrite E in E'. by case: E' => ->.
  have P : forall a b i, (a < 1)%N -> (b < 1)%N -> (i < N)%N -> passive_eps (grid a b i).
    move=> [|a] [|b] i // _ _ Hi. by have [] := Hg i Hi.
  have [r [t E]] := init_solves _ _ _ _ _ _ _ _ _ Hs Hf Ht Hb T P Ex (or_introl (conj erefl erefl)).
  have [Rr [Tr [E1 [E2 [P1 [P2 P3]]]]]] := init_energy _ _ _ _ _ _ _ _ _ _ _ Hs Hf Ht Hb T P Ex E (or_introl (conj erefl erefl)).
  exists x, Rr, Tr. by rewrite E E1 E2.
Qed.
