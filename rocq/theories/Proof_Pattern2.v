(** TRCWA simulations of absorbing patterned stacks fail only if the eigensolver does. *)
From Coq Require Import Reals Lra Psatz ZArith String Lia.
From mathcomp Require Import all_ssreflect all_algebra.
From Verif Require Import Base Cplx CplxLemmas CField Model_Lattice Spec_Lattice Proof_Lattice Proof_Lattice2
  Proof_Lattice3 Proof_Lattice4 Model_Stack Model_Modes Spec_Modes Model_TRCWA
  Spec_TRCWA Spec_Passive Spec_Film Proof_FilmC Proof_Modes Proof_Smatrix Proof_FFT
  Proof_Passive Proof_Passive2 Proof_Passive3 Proof_Outer Proof_RT Proof_Init Proof_Init2 Proof_Pattern Proof_TRCWA Proof_Film
  Proof_TRCWA2 Proof_Total Proof_Total2.
Import GRing.Theory.
Delimit Scope R_scope with coqR.
Delimit Scope Z_scope with coqZ.
Local Open Scope ring_scope.

(** * The Fourier matrix of an absorbing pattern is invertible *)
Lemma Im_sum_zero n (F : 'I_n -> C) : (forall i, (0 <= Im (F i))%coqR) -> Im (\sum_i F i)%R = 0%coqR ->
  forall i, Im (F i) = 0%coqR.
Proof.
  move=> H Z i. have P : forall r : seq 'I_n, (0 <= Im (\sum_(j <- r | j != i) F j)%R)%coqR.
    move=> r. rewrite -big_filter. exact: Im_sum_nonneg.
  have {P} := P (index_enum (ordinal_finType n)). set s := (\sum_(j < n | j != i) F j)%R => P.
  have E : \sum_j F j = F i + s by rewrite (bigD1 i).
  rewrite E Im_addC in Z. have := H i. lra.
Qed.

Lemma conv_unit g G (M : 'M[C]_(size G)) omega : List.NoDup G ->
  get_conv (1 / INR (g_nx g) / INR (g_ny g))%coqR g G = Ok M ->
  (forall x y, (x < g_nx g)%N -> (y < g_ny g)%N -> (0 < Im (g_at g x y * omega)%R)%coqR) ->
  M \in unitmx.
Proof.
  move=> U HM Hg. have [Hx [Hy _]] := conv_ok _ _ _ HM. rewrite -lt0n in Hx. rewrite -lt0n in Hy.
  have Rs : resolves (g_nx g) (g_ny g) G.
    apply: Classical_Prop.NNPP => NR. have [_ D] := conv_defined g G Hx Hy. by rewrite (D NR) in HM.
  have Pos : (0 < / (INR (g_nx g) * INR (g_ny g)))%coqR.
    apply: Rinv_0_lt_compat. apply: Rmult_lt_0_compat; apply: lt_0_INR; exact/ltP.
  have E := conv_entry _ _ _ HM. apply: singular => v Mv.
  have Q := conv_quadratic g G M v E. rewrite Mv in Q.
  have Z0 : herm v 0 = 0 by rewrite /herm big1 // => i _; rewrite mxE mulr0.
  rewrite Z0 in Q.
  pose T (x : 'I_(g_nx g)) (y : 'I_(g_ny g)) := omega * (g_at g x y * (Cconj (sample g G v x y) * sample g G v x y)).
  have T_def : forall x y, Im (T x y) = (Im (g_at g x y * omega)%R * Cnorm2 (sample g G v x y))%coqR.
    move=> x y. rewrite /T. move: (g_at g x y) (sample g G v x y) (omega) => [a1 a2] [b1 b2] [o1 o2].
    rewrite ?C_mulE /Cnorm2 /=. ring.
  have T_pos : forall x y, (0 <= Im (T x y))%coqR.
    move=> x y. rewrite T_def. apply: Rmult_le_pos; last exact: Cnorm2_nonneg. apply: Rlt_le. exact: Hg.
  have K : Im (\sum_x \sum_y T x y)%R = 0%coqR.
    have := f_equal (fun z => Im (omega * z)%R) Q. rewrite mulr0 mulrCA mulr_sumr.
    have -> : (\sum_(x < g_nx g) omega * (\sum_(y < g_ny g) (g_at g x y * (Cconj (sample g G v x y) * sample g G v x y))))
           = \sum_x \sum_y T x y by apply: eq_bigr => x _; rewrite mulr_sumr.
    move: (\sum_x _) => [s1 s2]. rewrite ?C_mulE /=. nra.
  have S0 : forall (x : 'I_(g_nx g)) (y : 'I_(g_ny g)), sample g G v x y = C0.
    move=> x y. apply: Classical_Prop.NNPP => N.
    have A := Im_sum_zero _ _ (fun x => Im_sum_nonneg _ _ _ (T_pos x)) K x.
    have := Im_sum_zero _ _ (T_pos x) A y. rewrite T_def.
    have := Hg x y (ltn_ord x) (ltn_ord y). have := Cnorm2_pos _ N. nra.
  have [_ D] := (I, conv_defined (constant_grid (g_nx g) (g_ny g) 1) G Hx Hy).
  have [M1 HM1] := (proj1 D) Rs. have EM1 := conv_constant _ _ _ _ _ U HM1.
  have Q1 := conv_quadratic (constant_grid (g_nx g) (g_ny g) 1) G M1 v (conv_entry _ _ _ HM1).
  rewrite EM1 mul1mx in Q1.
  case: (eqVneq v 0) => // /eqP Nv. exfalso. have := herm_self_pos v Nv. rewrite Q1 big1; first by rewrite mulr0 /=; lra.
  move=> x _. rewrite big1 // => y _. have -> : sample (constant_grid (g_nx g) (g_ny g) 1) G v x y = 0 by exact: (S0 x y).
  by rewrite !mulr0.
Qed.

(** * The loop over the layers *)
Section Run.
Context {G : seq (Z * Z)} (eig : eig_oracle) (omega : C) (kx ky : 'rV[C]_(size G)) (Nx Ny N : nat) (t : tensor).
Hypothesis Hx : (0 < Nx)%N.
Hypothesis Hy : (0 < Ny)%N.
Hypothesis Hl : forall j, (j < N)%N -> exists g ei e2, layer_grid t j.+1 (j * (Nx * Ny)) Nx Ny = Ok g
  /\ Epsilon_fft (1 / INR Nx / INR Ny)%coqR g G = Ok (ei, e2).

Lemma geteps_total c : forall s ms, (s + c = N)%N ->
  (exists ms', geteps_loop eig omega kx ky (nseq N (Nx, Ny)) t
    (map (fun j => [:: 1%N; j.+1; j; j]) (iota s c) ++ [:: [:: 0%N; N.+1; 1%N]]) s.+1 s (s * (Nx * Ny)) ms = Ok ms')
  \/ (exists j g ei e2 e, (j < N)%N /\ layer_grid t j.+1 (j * (Nx * Ny)) Nx Ny = Ok g
        /\ Epsilon_fft (1 / INR Nx / INR Ny)%coqR g G = Ok (ei, e2)
        /\ eig _ (mode_matrix kx ky (MakeKP_patterned omega ei kx ky) e2) = Err e /\ geteps_loop eig omega kx ky (nseq N (Nx, Ny)) t
    (map (fun j => [:: 1%N; j.+1; j; j]) (iota s c) ++ [:: [:: 0%N; N.+1; 1%N]]) s.+1 s (s * (Nx * Ny)) ms = Err e).
Proof.
  elim: c => [|c IH] s ms Es; first by left; eexists.
  cbn [iota map cat geteps_loop]. have Hs : (s < N)%N by rewrite -Es -addSnnS leq_addr.
  rewrite (nth_error_nseq _ _ _ Hs). move: (Hx) (Hy). rewrite !lt0n => /negbTE -> /negbTE -> /=. rewrite /bind.
  have [g [ei [e2 [El E]]]] := Hl s Hs. rewrite El E /= /Solve_patterned tr_col_mx !tr_diag /bind.
  case Ee: (eig _ _) => [[w V]|e] /=; last by right; exists s, g, ei, e2, e.
  have -> : (s * (Nx * Ny) + Nx * Ny = s.+1 * (Nx * Ny))%N by rewrite mulSn addnC.
  apply: IH. by rewrite addSnnS.
Qed.
End Run.

(** * The whole calculation *)
Lemma getG_nodup argsort c G : sorts argsort -> usable c -> orders_of argsort c G -> List.NoDup G /\ (0 < size G)%N.
Proof.
  move=> Hs Hu [lk1 [lk2 [n [E1 E2]]]]. have [k1 [k2 [G' [n' [F1 [F2 F3]]]]]] := orders_exist _ _ Hs Hu.
  rewrite E1 in F1. case: F1 => ? ?; subst k1 k2. rewrite E2 in F2. case: F2 => ? ?; subst G' n'. split=> //.
  case: Hu => [a [b [k1 [k2 [nG [Ea [Eb [En [Hn [D1 [D2 [D3 [D4 _]]]]]]]]]]]]].
  have R := reciprocate_unique _ _ _ _ D1 D2 D3 D4. rewrite Ea Eb R in E1. case: E1 => ? ?; subst lk1 lk2.
  have I := reciprocate_independent _ _ _ _ R.
  have [G2 [E' [_ [U _]]]] := orders_selected argsort nG k1 k2 Hs I ltac:(lia).
  rewrite En E' in E2. case: E2 => <- _. exact: U.
Qed.

Lemma setup_grids argsort c om Nx Ny (ths : seq R) :
  sorts argsort -> usable c -> (0 < t_top c)%coqR -> t_bottom c <> 0%coqR ->
  exists G (r : ready G), orders_of argsort c G
    /\ Init_Setup argsort (trcwa_object c om (map (fun th => Grid th Nx Ny) ths)) 1%coqR 0%coqZ = Ok (existT _ G r).
Proof.
  move=> Hs Hu Ht Hb. have [lk1 [lk2 [G [n [E1 [E2 HG]]]]]] := orders_exist _ _ Hs Hu.
  rewrite /trcwa_object. set o := mkRcwa _ _ _ _ _ _ _. set N := size ths.
  set s1 := Add_LayerUniform 1%coqR (EReal (t_top c)) empty_stack : stack R eps_val unit.
  have Est : r_stack o = Add_LayerUniform 1%coqR (EReal (t_bottom c)) (add_layers (map (fun th => Grid th Nx Ny) ths) s1).
    rewrite /= /add_layers /=. by rewrite List.fold_left_app.
  have [A1 [A2 [A3 [A4 [A5 [A6 [A7 A8]]]]]]] := add_grids ths Nx Ny s1.
  have {}A3 : id_list (r_stack o) = [:: 0%N; 0%N; 0%N] :: mkseq (fun j => [:: 1%N; j.+1; j; j]) N ++ [:: [:: 0%N; N.+1; 1%N]].
    by rewrite Est /= A3 A1 A5.
  have {}A4 : Uniform_ep_list (r_stack o) = [:: EReal (t_top c); EReal (t_bottom c)] by rewrite Est /= A4.
  rewrite /Init_Setup /bind. rewrite A4 /=.
  destruct (Rlt_dec (t_top c) 0) as [K|?]; first by exfalso; lra.
  rewrite E1 /= E2 /=. destruct (Req_EM_T 1 0) as [K|?]; first by exfalso; lra.
  destruct (Req_EM_T (cos 0) 0) as [K|?]; first by exfalso; rewrite cos_0 in K; lra.
  match goal with |- context [map_layers ?f ?l] => have [ms Em] : exists ys, map_layers f l = Ok ys end.
    apply: map_layers_total => i id Hi.
    have : List.In id ([:: 0%N; 0%N; 0%N] :: mkseq (fun j => [:: 1%N; j.+1; j; j]) N ++ [:: [:: 0%N; N.+1; 1%N]]).
      by rewrite -A3; exact: List.nth_error_In Hi.
    case=> [<-|HI]; last case: (List.in_app_or _ _ _ HI) => [H|[<-|[]]].
    - rewrite /= /uniform_layer. case: eqP => [Z|_]; last by eexists. exfalso. have := f_equal Re Z. rewrite /=. lra.
    - have [j Ej] := List.In_nth_error _ _ H. have Hj := nth_error_size _ _ _ Ej. rewrite size_mkseq in Hj.
      rewrite nth_error_mkseq // in Ej. case: Ej => <-. by eexists.
    - rewrite /= /uniform_layer. case: eqP => [Z|_]; last by eexists. exfalso. apply: Hb. exact: (f_equal Re Z).
  rewrite Em. exists G. eexists. split; last reflexivity. by exists lk1, lk2, n.
Qed.

Lemma pattern_spectrum argsort eig c Nx Ny N grid f :
  sorts argsort -> usable c -> (0 < f)%coqR -> (0 < t_top c)%coqR -> (0 < t_bottom c)%coqR ->
  (1 < Nx)%N -> Nx <> 3%N -> (0 < Ny)%N -> eigenbasis eig ->
  (forall i, (i < N)%N -> exists th, layer_thickness (t_thick c) i = Some th /\ (0 <= th)%coqR) ->
  (forall a b i, (a < Nx)%N -> (b < Ny)%N -> (i < N)%N -> absorbing_eps (grid a b i)) ->
  (forall G, orders_of argsort c G -> resolves Nx Ny G
     /\ forall i, (i < N)%N -> resolved_entries (mkGrid2 Nx Ny (fun a b => grid a b i)) G) ->
  (exists x Rr Tr, init_trcwa argsort eig c Nx Ny N grid f = Ok x
    /\ RT_Solve true x = Ok (RtoC Rr, RtoC Tr) /\ (0 <= Rr)%coqR /\ (0 <= Tr)%coqR
    /\ (Rr + Tr <= exp (- (2 * sqrt (t_top c) * Im (omega_of f))))%coqR)
  \/ (exists lk1 lk2 G n (kx ky : 'rV[C]_(size G)) i ei e2 e,
        Lattice_Reciprocate (t_L1 c) (t_L2 c) = Ok (lk1, lk2) /\ Lattice_getG argsort (t_NG c) lk1 lk2 0%coqZ = Ok (G, n)
        /\ (forall j : 'I_(size G), let k := recip lk1 lk2 (List.nth j G (0, 0)%coqZ) in
              kx 0 j = RtoC (2 * PI * fst k)%coqR /\ ky 0 j = RtoC (2 * PI * snd k)%coqR)
        /\ (i < N)%N /\ Epsilon_fft (1 / INR Nx / INR Ny)%coqR (Iso (mkGrid2 Nx Ny (fun a b => grid a b i))) G = Ok (ei, e2)
        /\ eig _ (mode_matrix kx ky (MakeKP_patterned (omega_of f) ei kx ky) e2) = Err e
        /\ init_trcwa argsort eig c Nx Ny N grid f = Err e).
Proof.
  move=> Hs Hu Hf Ht Hb Hx Hx3 Hy He Hth Hp HG.
  have Hp' : forall a b i, (a < Nx)%N -> (b < Ny)%N -> (i < N)%N -> passive_eps (grid a b i).
    move=> a b i Ha Hb' Hi. have := Hp a b i Ha Hb' Hi. rewrite /absorbing_eps /passive_eps. lra.
  have Hth' : forall i th, (i < N)%N -> layer_thickness (t_thick c) i = Some th -> (0 <= th)%coqR.
    move=> i th Hi E. have [th' [E' P]] := Hth i Hi. rewrite E in E'. by case: E' => ->.
  suff D : (exists x, init_trcwa argsort eig c Nx Ny N grid f = Ok x /\ orders_of argsort c (x_G x))
    \/ (exists lk1 lk2 G n (kx ky : 'rV[C]_(size G)) i ei e2 e,
        Lattice_Reciprocate (t_L1 c) (t_L2 c) = Ok (lk1, lk2) /\ Lattice_getG argsort (t_NG c) lk1 lk2 0%coqZ = Ok (G, n)
        /\ (forall j : 'I_(size G), let k := recip lk1 lk2 (List.nth j G (0, 0)%coqZ) in
              kx 0 j = RtoC (2 * PI * fst k)%coqR /\ ky 0 j = RtoC (2 * PI * snd k)%coqR)
        /\ (i < N)%N /\ Epsilon_fft (1 / INR Nx / INR Ny)%coqR (Iso (mkGrid2 Nx Ny (fun a b => grid a b i))) G = Ok (ei, e2)
        /\ eig _ (mode_matrix kx ky (MakeKP_patterned (omega_of f) ei kx ky) e2) = Err e
        /\ init_trcwa argsort eig c Nx Ny N grid f = Err e).
    case: D => [[x [Ex Ox]]|D]; last by right. left.
    have [_ HR] := HG _ Ox.
    have [r [t Ert]] := init_solves argsort eig c Nx Ny N grid f x Hs Hf Ht Hb Hth' Hp' Ex (or_intror (conj He HR)).
    have [Rr [Tr [E1 [E2 K]]]] := init_energy argsort eig c Nx Ny N grid f x r t Hs Hf Ht Hb Hth' Hp' Ex Ert
      (or_intror (conj (basis_pairs _ He) HR)).
    exists x, Rr, Tr. by rewrite Ert E1 E2.
  have Nt : squeeze0 (squeeze0 (T3 Nx Ny N grid)) = T3 Nx Ny N grid.
    by case: Nx Hx {Hx3 Hp Hp' HG} => [|[|n]].
  have [ths El] : exists ths, material_layers c (T3 Nx Ny N grid) Nx Ny N = Ok (map (fun th => Grid th Nx Ny) ths) /\ size ths = N.
    have [layers E] : exists l, material_layers c (T3 Nx Ny N grid) Nx Ny N = Ok l.
      rewrite /material_layers Hx /=. apply: map_layers_total => i k Hi.
      have Hl := nth_error_size _ _ _ Hi. rewrite size_iota in Hl. rewrite nth_error_iota // add0n in Hi. case: Hi => <-.
      have [th [E _]] := Hth i Hl. move: E. rewrite /cfg_thickness /layer_thickness /bind => ->. by eexists.
    have P : (1 < Nx)%N || (1 < Ny)%N by rewrite Hx.
    have [ths [Sz [_ El]]] := material_patterned _ _ _ _ _ _ P E. exists ths. by rewrite E El.
  case: El => El Sz.
  have Hb0 : t_bottom c <> 0%coqR by lra.
  have [G [r [OG EI]]] := setup_grids argsort c (omega_of f) Nx Ny ths Hs Hu Ht Hb0.
  have [U HG0] := getG_nodup _ _ _ Hs Hu OG. have [Rs Re] := HG _ OG.
  have [a [b Ea]] := excitation_total _ HG0.
  rewrite /init_trcwa /TRCWA_new. cbv zeta. cbn [r_nG r_L1 r_L2 r_omega r_theta r_phi r_stack]. rewrite omega_of_ok Nt El /bind.
  rewrite -/(trcwa_object c (omega_of f) (map (fun th => Grid th Nx Ny) ths)) EI. cbn [projT1 projT2]. rewrite Ea Hx orTb.
  have EO : s_omega r = omega_of f /\ s_Nxy r = nseq N (Nx, Ny)
     /\ s_ids r = [:: 0%N; 0%N; 0%N] :: mkseq (fun j => [:: 1%N; j.+1; j; j]) N ++ [:: [:: 0%N; N.+1; 1%N]]
     /\ exists lk1 lk2 n, Lattice_Reciprocate (t_L1 c) (t_L2 c) = Ok (lk1, lk2)
        /\ Lattice_getG argsort (t_NG c) lk1 lk2 0%coqZ = Ok (G, n)
        /\ (forall j : 'I_(size G), let k := recip lk1 lk2 (List.nth j G (0, 0)%coqZ) in
              s_kx r 0 j = RtoC (2 * PI * fst k)%coqR /\ s_ky r 0 j = RtoC (2 * PI * snd k)%coqR).
    have [ep0 [lk1 [lk2 [n [H1 [H2 [H3 [H4 [H5 [H6 [H7 [H8 [H9 _]]]]]]]]]]]]] := setup_ok argsort (trcwa_object c (omega_of f) (map (fun th => Grid th Nx Ny) ths)) G r erefl erefl EI.
    set s1 := Add_LayerUniform 1%coqR (EReal (t_top c)) empty_stack : stack R eps_val unit.
    have Est : r_stack (trcwa_object c (omega_of f) (map (fun th => Grid th Nx Ny) ths)) = Add_LayerUniform 1%coqR (EReal (t_bottom c)) (add_layers (map (fun th => Grid th Nx Ny) ths) s1).
      rewrite /= /add_layers /=. by rewrite List.fold_left_app.
    have [A1 [A2 [A3 [A4 [A5 [A6 [A7 A8]]]]]]] := add_grids ths Nx Ny s1.
    rewrite H5 H7 H8 Est /= A8 A3 A1 A5 Sz. do 3 (split=> //). exists lk1, lk2, n. split; first exact: H3. split; first exact: H4.
    move=> j. have [-> ->] := H9 j. split; congr RtoC; rewrite /recip /=; ring.
  case: EO => EO [EN [Eid [lk1 [lk2 [n [W1 [W2 W3]]]]]]].
  have Lay : forall j, (j < N)%N -> exists g ei e2, layer_grid (T3 Nx Ny N grid) j.+1 (j * (Nx * Ny)) Nx Ny = Ok g
      /\ Epsilon_fft (1 / INR Nx / INR Ny)%coqR g G = Ok (ei, e2).
    move=> j Hj. rewrite (grid_slice Nx Ny N grid j _ Hx Hx3 Hj).
    set g := mkGrid2 Nx Ny (fun x y => grid x y j).
    have [D _] := conv_defined g G (ltnW Hx) Hy. have [M EM] := D Rs.
    have UM : M \in unitmx.
      apply: (conv_unit g G M (omega_of f) U EM) => x y Hx' Hy'.
      have := Hp x y j Hx' Hy' Hj. rewrite /absorbing_eps /omega_of ?C_mulE /g /=. move: (grid x y j) => [e1 e2] /= H. have HP := PI_RGT_0.
      match goal with |- (0 < ?t)%coqR => replace t with ((2 * PI * f) * (e2 + e1 / (2 * 10 ^ 5)))%coqR end.
        apply: Rmult_lt_0_compat; [nra | exact: H].
      simpl. field.
    rewrite /= in EM. eexists (Iso g). rewrite /Epsilon_fft EM /bind /inverse UM. by eexists _, _.
  have [[ms' Em]|[j [g [ei [e2 [e [Hj [Eg [Ef [Ee Em]]]]]]]]]] := geteps_total eig (s_omega r) (s_kx r) (s_ky r) Nx Ny N (T3 Nx Ny N grid) (ltnW Hx) Hy Lay N 0 (s_modes r) (add0n N).
  - left. rewrite /GridLayer_geteps EN Eid /bind. cbn [geteps_loop]. rewrite Em. eexists. split; first reflexivity. exact: OG.
  - right. rewrite (grid_slice Nx Ny N grid j _ Hx Hx3 Hj) in Eg. case: Eg => Eg. rewrite -Eg in Ef.
    exists lk1, lk2, G, n, (s_kx r), (s_ky r), j, ei, e2, e. rewrite EO in Ee.
    do 6 (split; first by []). rewrite /GridLayer_geteps EN Eid /bind. cbn [geteps_loop]. by rewrite Em.
Qed.
