(** What [_init_trcwa] builds. *)
From Coq Require Import Reals Lra Psatz ZArith String Lia Eqdep_dec.
From mathcomp Require Import all_ssreflect all_algebra.
From Verif Require Import Base Cplx CplxLemmas CField Model_Lattice Spec_Lattice Proof_Lattice Proof_Lattice2
  Proof_Lattice3 Proof_Lattice4 Model_Stack Model_Modes Spec_Modes Model_TRCWA Spec_TRCWA Spec_Passive Proof_Smatrix Proof_FFT.
Import GRing.Theory.
Delimit Scope R_scope with coqR.
Delimit Scope Z_scope with coqZ.
Local Open Scope ring_scope.

(** * Mapping with failure *)
Lemma map_layers_ok {A B} (f : A -> res B) l ys : map_layers f l = Ok ys ->
  size ys = size l
  /\ forall i x, List.nth_error l i = Some x -> exists y, List.nth_error ys i = Some y /\ f x = Ok y.
Proof.
  elim: l ys => [|x l IH] ys /=; first by move=> [<-]; split=> // -[].
  rewrite /bind. case E: (f x) => [y|] //. case E': (map_layers f l) => [ys'|] // [<-].
  have [S H] := IH _ E'. split; first by rewrite /= S.
  move=> [|i] z /=; first by move=> [<-]; exists y.
  exact: H.
Qed.

Lemma nth_error_size {A} (l : seq A) i x : List.nth_error l i = Some x -> (i < size l)%N.
Proof. move=> E. apply/ltP. apply/List.nth_error_Some. by rewrite E. Qed.

Lemma nth_error_ex {A} (l : seq A) i : (i < size l)%N -> exists x, List.nth_error l i = Some x.
Proof.
  move=> /ltP /List.nth_error_Some. case: (List.nth_error l i) => // x _. by exists x.
Qed.

Lemma nth_error_iota s n i : (i < n)%N -> List.nth_error (iota s n) i = Some (s + i)%N.
Proof.
  elim: n s i => // n IH s [|i] //= Hi; first by rewrite addn0. by rewrite IH // addSnnS.
Qed.

Lemma nth_error_map' {A B} (f : A -> B) l i : List.nth_error (map f l) i = omap f (List.nth_error l i).
Proof. elim: l i => [|x l IH] [|i] //=. Qed.

Lemma app_cat {A} (l r : seq A) : List.app l r = l ++ r. Proof. by []. Qed.

(** * Adding runs of layers *)
Lemma add_grids (ths : seq R) Nx Ny : forall s : stack R eps_val unit,
  let s' := add_layers (map (fun th => Grid th Nx Ny) ths) s in
  Layer_N s' = (Layer_N s + size ths)%N
  /\ thickness_list s' = thickness_list s ++ ths
  /\ id_list s' = id_list s ++ mkseq (fun j => [:: 1%N; (Layer_N s + j)%N; (Patterned_N s + j)%N; (GridLayer_N s + j)%N]) (size ths)
  /\ Uniform_ep_list s' = Uniform_ep_list s /\ Uniform_N s' = Uniform_N s
  /\ Patterned_N s' = (Patterned_N s + size ths)%N /\ GridLayer_N s' = (GridLayer_N s + size ths)%N
  /\ GridLayer_Nxy_list s' = GridLayer_Nxy_list s ++ nseq (size ths) (Nx, Ny).
Proof.
  elim: ths => [|th ths IH] s; first by rewrite /= !addn0 !cats0.
  have [H1 [H2 [H3 [H4 [H5 [H6 [H7 H8]]]]]]] := IH (Add_LayerGrid th Nx Ny s).
  rewrite /= in H1 H2 H3 H4 H5 H6 H7 H8 *.
  rewrite H1 H2 H3 H4 H5 H6 H7 H8 !addSnnS !app_cat -!catA /=. split=> //; split=> //; split; last by [].
  congr (_ ++ _ :: _); first by rewrite !addn0.
  rewrite -[RHS]/(map _ (iota 1 (size ths))) (iotaDl 1 0) -map_comp. apply: eq_map => j /=.
  by rewrite !addSnnS.
Qed.

Lemma add_uniforms (cs : seq (R * eps_val)) : forall s : stack R eps_val unit,
  let s' := add_layers (map (fun p => Uniform p.1 p.2) cs) s in
  Layer_N s' = (Layer_N s + size cs)%N
  /\ thickness_list s' = thickness_list s ++ map fst cs
  /\ id_list s' = id_list s ++ mkseq (fun j => [:: 0%N; (Layer_N s + j)%N; (Uniform_N s + j)%N]) (size cs)
  /\ Uniform_ep_list s' = Uniform_ep_list s ++ map snd cs /\ Uniform_N s' = (Uniform_N s + size cs)%N
  /\ GridLayer_Nxy_list s' = GridLayer_Nxy_list s.
Proof.
  elim: cs => [|[th e] cs IH] s; first by rewrite /= !addn0 !cats0.
  have [H1 [H2 [H3 [H4 [H5 H6]]]]] := IH (Add_LayerUniform th e s).
  rewrite /= in H1 H2 H3 H4 H5 H6 *.
  rewrite H1 H2 H3 H4 H5 H6 !addSnnS !app_cat -!catA /=. split=> //; split=> //; split; last by [].
  congr (_ ++ _ :: _); first by rewrite !addn0.
  rewrite -[RHS]/(map _ (iota 1 (size cs))) (iotaDl 1 0) -map_comp. apply: eq_map => j /=.
  by rewrite !addSnnS.
Qed.

(** * Init_Setup at normal incidence *)
Lemma setup_ok argsort o G (r : ready G) :
  r_theta o = 0%coqR -> r_phi o = 0%coqR ->
  Init_Setup argsort o 1%coqR 0%coqZ = Ok (existT _ G r) ->
  exists ep0 lk1 lk2 n,
    List.nth_error (Uniform_ep_list (r_stack o)) 0 = Some ep0
    /\ eps_sqrt ep0 = Ok (s_norm r)
    /\ Lattice_Reciprocate (r_L1 o) (r_L2 o) = Ok (lk1, lk2)
    /\ Lattice_getG argsort (r_nG o) lk1 lk2 0%coqZ = Ok (G, n)
    /\ s_omega r = r_omega o /\ s_thick r = thickness_list (r_stack o)
    /\ s_ids r = id_list (r_stack o) /\ s_Nxy r = GridLayer_Nxy_list (r_stack o)
    /\ (forall j : 'I_(size G), let g := List.nth j G (0, 0)%coqZ in
          s_kx r 0 j = RtoC (2 * PI * (fst lk1 * IZR g.1 + fst lk2 * IZR g.2))%coqR
          /\ s_ky r 0 j = RtoC (2 * PI * (snd lk1 * IZR g.1 + snd lk2 * IZR g.2))%coqR)
    /\ map_layers (setup_layer (s_omega r) (s_kx r) (s_ky r) (Uniform_ep_list (r_stack o))) (id_list (r_stack o))
       = Ok (s_modes r).
Proof.
  move=> Ht Hp. rewrite /Init_Setup /bind Ht Hp.
  case E0: (List.nth_error _ 0) => [ep0|] //. case E1: (eps_sqrt ep0) => [root|] //.
  case E2: (Lattice_Reciprocate _ _) => [[lk1 lk2]|] //.
  case E3: (Lattice_getG _ _ _ _ _) => [[G' n]|] //.
  cbv zeta. cbn [fst snd]. destruct (Req_EM_T 1 0) as [H|H1]; first by exfalso; lra.
  destruct (Req_EM_T (cos 0) 0) as [H|H2]; first by exfalso; rewrite cos_0 in H; lra.
  set kx := row_of _. set ky := row_of _.
  case E4: (map_layers _ _) => [ms|] // H.
  have EG : G' = G by move: (f_equal (fun z => match z with Ok u => projT1 u | Err _ => [::] end) H).
  subst G'. have {H}-> : r = mkReady (r_omega o) 0%coqR 0%coqR kx ky (root * RtoC (/ cos 0)%coqR) (id_list (r_stack o))
      (GridLayer_Nxy_list (r_stack o)) (thickness_list (r_stack o)) ms.
    case: H => H. apply: esym. apply: Eqdep_dec.inj_pair2_eq_dec H.
    apply: List.list_eq_dec. decide equality; exact: Z.eq_dec.
  exists ep0, lk1, lk2, n. split=> //. split.
    rewrite E1 /=. congr Ok. rewrite cos_0 Rinv_1. rewrite ?C_mulE. apply: Ceq; rewrite /=; ring.
  split=> //; split=> //; split=> //; split=> //; split=> //; split=> //. split=> //.
  move=> j. set g := List.nth j G _. rewrite /= /kx /ky !mxE /Lattice_SetKs.
  have L : (j < List.length G)%coq_nat by apply/ltP; exact: ltn_ord.
  have N : forall (f : Z * Z -> C), List.nth j (List.map f G) C0 = f g.
    move=> f. rewrite (List.nth_indep _ C0 (f (0,0)%coqZ)); last by rewrite List.map_length.
    exact: List.map_nth.
  rewrite /= !N /= sin_0 /Rdiv Rinv_1 !Rmult_1_r. split.
  - rewrite ?C_mulE. apply: Ceq => /=; ring.
  - rewrite ?C_mulE. apply: Ceq => /=; ring.
Qed.

(** * Taking [_init_trcwa] apart *)
Definition trcwa_object (c : trcwa_cfg) (om : C) (layers : seq (layer_call R eps_val unit)) : rcwa :=
  mkRcwa (t_NG c) (t_L1 c) (t_L2 c) om 0%coqR 0%coqR
    (add_layers (Uniform 1%coqR (EReal (t_top c)) :: layers ++ [:: Uniform 1%coqR (EReal (t_bottom c))]) empty_stack).

Lemma omega_of_ok f : Cmul (RtoC (2 * PI)%coqR) (RtoC f * (1 + Ci * RtoC (/ (2 * Q_ABS))%coqR))%R = omega_of f.
Proof.
  rewrite ?C_mulE ?C_addE /Q_ABS. apply: Ceq; rewrite /RtoC /Ci /omega_of /=; field.
Qed.

Lemma init_inv argsort eig c Nx Ny N grid f x :
  init_trcwa argsort eig c Nx Ny N grid f = Ok x ->
  let t := squeeze0 (squeeze0 (T3 Nx Ny N grid)) in
  exists layers r0,
    material_layers c t Nx Ny N = Ok layers
    /\ Init_Setup argsort (trcwa_object c (omega_of f) layers) 1%coqR 0%coqZ = Ok (existT _ (x_G x) r0)
    /\ (if (1 < Nx)%N || (1 < Ny)%N then GridLayer_geteps eig t r0 else Ok r0) = Ok (x_ready x)
    /\ MakeExcitationPlanewave (size (x_G x)) 0%coqR 0%coqR 0 0%coqR 1 0%coqR 0%coqZ "forward" = Ok (x_a0 x, x_bN x)
    /\ x_direction x = "forward"%string.
Proof.
  rewrite /init_trcwa /TRCWA_new. cbv zeta. cbn [r_nG r_L1 r_L2 r_omega r_theta r_phi r_stack]. rewrite omega_of_ok. set t := squeeze0 _. rewrite /bind.
  case E1: (material_layers c t Nx Ny N) => [layers|] //.
  rewrite -/(trcwa_object c (omega_of f) layers).
  case E2: (Init_Setup _ _ _ _) => [[G r0]|] //.
  case E3: (MakeExcitationPlanewave _ _ _ _ _ _ _ _ _) => [[a b]|] //.
  case E4: (if _ then _ else _) => [r|] // [<-]. exists layers, r0. by [].
Qed.

(** The excitation: a unit wave in order 0, polarised along x. *)
Lemma excitation_ok n a b :
  MakeExcitationPlanewave n 0%coqR 0%coqR 0 0%coqR 1 0%coqR 0%coqZ "forward" = Ok (a, b) ->
  (0 < n)%N /\ b = 0
  /\ (forall k : 'I_n, a (lshift n k) 0 = (if k == 0%N :> nat then - 1 else 0) /\ a (rshift n k) 0 = 0).
Proof.
  rewrite /MakeExcitationPlanewave /bind /= cos_0 sin_0.
  case: n a b => [|n] a b; first by rewrite /py_index.
  have -> : py_index (n.+1 + n.+1) 0 = Ok 0%N.
    rewrite /py_index. have -> : (0 <? Z.of_nat (n.+1 + n.+1))%coqZ = true by apply/Z.ltb_lt; rewrite -plusE; lia. by [].
  have -> : py_index (n.+1 + n.+1) (Z.of_nat n.+1) = Ok n.+1.
    rewrite /py_index. have -> : (0 <=? Z.of_nat n.+1)%coqZ = true by apply/Z.leb_le; lia.
    have -> : (Z.of_nat n.+1 <? Z.of_nat (n.+1 + n.+1))%coqZ = true.
      by apply/Z.ltb_lt; rewrite -plusE; lia.
    by rewrite /= SuccNat2Pos.id_succ.
  move=> [<- <-]. split=> //; split=> //. move=> k. rewrite !mxE /=.
  have Z : Cexp (Cmul Ci (RtoC 0)) = C1.
    have -> : Cmul Ci (RtoC 0) = C0 by apply: Ceq => /=; ring. exact: CplxLemmas.Cexp_0.
  rewrite ?Z. split.
  - have -> : (k == n.+1 :> nat) = false by apply/eqP => E; have := ltn_ord k; rewrite E ltnn.
    rewrite addr0. case: (k == 0%N :> nat) => //.
    rewrite ?C_mulE ?C_addE ?C_oppE ?C_1E ?C_0E. apply: Ceq => /=; ring.
    rewrite add0r. case: eqP => // _. rewrite ?C_mulE ?C_addE ?C_oppE ?C_1E ?C_0E. apply: Ceq => /=; ring.
Qed.

(** * The material layers *)
Lemma map_thick {B} (g : nat -> res R) (h : nat -> R -> B) N : forall s ys,
  map_layers (fun i => bind (g i) (fun th => Ok (h i th))) (iota s N) = Ok ys ->
  exists ths, size ths = N /\ (forall i, (i < N)%N -> exists th, List.nth_error ths i = Some th /\ g (s + i)%N = Ok th)
    /\ ys = map (fun p => h p.1 p.2) (zip (iota s N) ths).
Proof.
  elim: N => [|N IH] s ys /=; first by move=> [<-]; exists [::].
  rewrite /bind. case E: (g s) => [th|] //.
  case E': (map_layers _ _) => [ys'|] // [<-]. have [ths [S [H Ey]]] := IH _ _ E'.
  exists (th :: ths). split; first by rewrite /= S. split; last by rewrite /= Ey.
  move=> [|i] Hi; first by exists th; rewrite addn0.
  have [th' [H1 H2]] := H i Hi. exists th'. by rewrite -addSnnS.
Qed.

Lemma cfg_thickness_ok ts i th : cfg_thickness ts i = Ok th -> layer_thickness ts i = Some th.
Proof. rewrite /cfg_thickness /layer_thickness. by case: (List.nth_error _ _) => // t [->]. Qed.

Lemma material_uniform c N f layers : material_layers c (T1 N f) 1 1 N = Ok layers ->
  exists ths, size ths = N /\ (forall i, (i < N)%N -> exists th, List.nth_error ths i = Some th /\ layer_thickness (t_thick c) i = Some th)
    /\ layers = map (fun p => Uniform p.2 (ECplx (f p.1))) (zip (iota 0 N) ths).
Proof.
  rewrite /material_layers /= => H.
  have {H} : map_layers (fun i => bind (cfg_thickness (t_thick c) i) (fun th => Ok (Uniform th (ECplx (f i)) : layer_call R eps_val unit))) (iota 0 N) = Ok layers.
    rewrite -H. have : forall k, k \in iota 0 N -> (k < N)%N by move=> k; rewrite mem_iota.
    elim: (iota 0 N) => //= k l IH Hk. rewrite Hk ?inE ?eqxx // IH // => j Hj. by apply: Hk; rewrite inE Hj orbT.
  move=> /map_thick [ths [S [H ->]]]. exists ths. split=> //. split=> // i Hi.
  have [th [H1 H2]] := H i Hi. exists th. split=> //. exact: cfg_thickness_ok.
Qed.

Lemma material_patterned c t Nx Ny N layers : (1 < Nx)%N || (1 < Ny)%N -> material_layers c t Nx Ny N = Ok layers ->
  exists ths, size ths = N /\ (forall i, (i < N)%N -> exists th, List.nth_error ths i = Some th /\ layer_thickness (t_thick c) i = Some th)
    /\ layers = map (fun th => Grid th Nx Ny) ths.
Proof.
  move=> P. rewrite /material_layers P => /map_thick [ths [S [H ->]]]. exists ths. split=> //. split.
  - move=> i Hi. have [th [H1 H2]] := H i Hi. exists th. split=> //. exact: cfg_thickness_ok.
  - rewrite -[in RHS](@unzip2_zip _ _ (iota 0 N) ths); last by rewrite size_iota S.
    by rewrite /unzip2 -map_comp.
Qed.

Lemma nth_error_cons {A} (x : A) l i : List.nth_error (x :: l) i.+1 = List.nth_error l i.
Proof. by []. Qed.
Lemma nth_error_cat1 {A} (l r : seq A) i : (i < size l)%N -> List.nth_error (l ++ r) i = List.nth_error l i.
Proof. exact: nth_app1. Qed.
Lemma nth_error_last {A} (l : seq A) x n : size l = n -> List.nth_error (l ++ [:: x]) n = Some x.
Proof. move=> <-. by rewrite -{1}(addn0 (size l)) nth_app2. Qed.
Lemma nth_error_mkseq {A} (f : nat -> A) n i : (i < n)%N -> List.nth_error (mkseq f n) i = Some (f i).
Proof. move=> Hi. by rewrite /mkseq nth_error_map' nth_error_iota. Qed.
Lemma nth_error_zip {A B} (l : seq A) (r : seq B) i x y :
  List.nth_error l i = Some x -> List.nth_error r i = Some y -> List.nth_error (zip l r) i = Some (x, y).
Proof. elim: l r i => [|a l IH] [|b r] [|i] //= => [[->] [->]|H1 H2] //. exact: IH. Qed.

Lemma uniform_ready argsort c f N es ths G (r : ready G) :
  size ths = N -> size es = N ->
  (forall i, (i < N)%N -> exists th, List.nth_error ths i = Some th /\ layer_thickness (t_thick c) i = Some th) ->
  Init_Setup argsort (trcwa_object c f (map (fun p => Uniform p.1 p.2) (zip ths es))) 1%coqR 0%coqZ = Ok (existT _ G r) ->
  outer_ok c N r
  /\ (forall i e, List.nth_error es i = Some e -> exists md, List.nth_error (s_modes r) i.+1 = Some (Some md)
        /\ uniform_layer (s_omega r) (s_kx r) (s_ky r) (eps_C e) = Ok md).
Proof.
  move=> S1 S2 Ht. set cs := (1%coqR, EReal (t_top c)) :: zip ths es ++ [:: (1%coqR, EReal (t_bottom c))].
  rewrite /trcwa_object. set o := mkRcwa _ _ _ _ _ _ _ => HI.
  have Est : r_stack o = add_layers (map (fun p => Uniform p.1 p.2) cs) empty_stack.
    by rewrite /= /cs /= map_cat.
  have Sc : size cs = N.+2 by rewrite /cs /= size_cat size_zip S1 S2 minnn addn1.
  have [A1 [A2 [A3 [A4 [A5 A6]]]]] := add_uniforms cs empty_stack. rewrite -Est in A1 A2 A3 A4 A5 A6.
  have {}A3 : id_list (r_stack o) = mkseq (fun j => [:: 0%N; j; j]) (size cs) := A3.
  have {}A2 : thickness_list (r_stack o) = map fst cs := A2.
  have {}A4 : Uniform_ep_list (r_stack o) = map snd cs := A4.
  have [ep0 [lk1 [lk2 [n [H1 [H2 [H3 [H4 [H5 [H6 [H7 [H8 [H9 H10]]]]]]]]]]]]] := setup_ok argsort o G r erefl erefl HI.
  have [Sm Hm] := map_layers_ok _ _ _ H10.
  have Nid : forall i, (i < N.+2)%N -> List.nth_error (id_list (r_stack o)) i = Some [:: 0%N; i; i].
    move=> i Hi. by rewrite A3 nth_error_mkseq ?Sc.
  have Mode : forall i p, List.nth_error cs i = Some p -> exists md, List.nth_error (s_modes r) i = Some (Some md)
        /\ uniform_layer (s_omega r) (s_kx r) (s_ky r) (eps_C p.2) = Ok md.
    move=> i p Hp. have Hi := nth_error_size _ _ _ Hp. rewrite Sc in Hi.
    have [y [Y1 Y2]] := Hm _ _ (Nid i Hi). move: Y2. rewrite /setup_layer A4 nth_error_map' Hp /= /bind.
    case E: (uniform_layer _ _ _ _) => [md|] // [Ey]. exists md. by rewrite Y1 -Ey.
  have Szip : size (zip ths es) = N by rewrite size_zip S1 S2 minnn.
  split.
  - split; first by rewrite Sm A3 size_mkseq Sc.
    have St : size (s_thick r) = N.+2 by rewrite H6 A2 size_map Sc.
    split=> //. split; first by rewrite H6 A2. split.
      by rewrite H6 A2 /cs nth_error_map' nth_error_cons (nth_error_last _ _ _ Szip).
    split.
      move=> i Hi. have [th [T1 T2]] := Ht i Hi. have [e Ee] := nth_error_ex es i (eq_ind_r (fun k => (i < k)%N) Hi S2).
      rewrite H6 A2 /cs nth_error_map' nth_error_cons nth_error_cat1 ?Szip //.
      by rewrite (nth_error_zip _ _ _ _ _ T1 Ee) T2.
    split; first exact: (Mode 0%N (1%coqR, EReal (t_top c))).
    apply: (Mode N.+1 (1%coqR, EReal (t_bottom c))). by rewrite /cs nth_error_cons (nth_error_last _ _ _ Szip).
  - move=> i e He. have Hi := nth_error_size _ _ _ He. rewrite S2 in Hi.
    have [th [T1 T2]] := Ht i Hi. apply: (Mode i.+1 (th, e)).
    rewrite /cs nth_error_cons nth_error_cat1 ?Szip //. exact: nth_error_zip.
Qed.

(** * Patterned layers *)
Lemma nth_error_set {A} (d : A) l k x i : (k < size l)%N ->
  List.nth_error (set_nth d l k x) i = if i == k then Some x else List.nth_error l i.
Proof.
  elim: l k i => // y l IH [|k] [|i] //= Hk. rewrite IH //. 
Qed.

Lemma nth_error_nseq {A} (x : A) N s : (s < N)%N -> List.nth_error (nseq N x) s = Some x.
Proof. by elim: N s => // N IH [|s] //= /IH. Qed.

Lemma geteps_run {G} eig omega (kx ky : 'rV[C]_(size G)) Nx Ny N t c : forall s ms ms',
  (s + c = N)%N -> (N.+1 < size ms)%N ->
  geteps_loop eig omega kx ky (nseq N (Nx, Ny)) t
    (map (fun j => [:: 1%N; j.+1; j; j]) (iota s c) ++ [:: [:: 0%N; N.+1; 1%N]]) s.+1 s (s * (Nx * Ny)) ms = Ok ms' ->
  size ms' = size ms
  /\ (forall l, (l < s.+1)%N || (N < l)%N -> List.nth_error ms' l = List.nth_error ms l)
  /\ (forall j, (s <= j < N)%N -> exists g ei e2 md,
        (0 < Nx)%N /\ (0 < Ny)%N
        /\ layer_grid t j.+1 (j * (Nx * Ny)) Nx Ny = Ok g
        /\ Epsilon_fft (1 / INR Nx / INR Ny)%coqR g G = Ok (ei, e2)
        /\ m_kp md = MakeKP_patterned omega ei kx ky
        /\ Solve_patterned (eig _) kx ky (m_kp md) e2 = Ok (m_q md, m_phi md)
        /\ List.nth_error ms' j.+1 = Some (Some md)).
Proof.
  elim: c => [|c IH] s ms ms'.
  - rewrite addn0 => -> Sz /= [<-]. split=> //; split=> // j. by rewrite leqNgt => /andP [/negbTE ->].
  - move=> Es Sz. cbn [iota map cat geteps_loop].
    have Hs : (s < N)%N by rewrite -Es -addSnnS leq_addr.
    have -> : List.nth_error (nseq N (Nx, Ny)) s = Some (Nx, Ny).
      exact: nth_error_nseq.
    case: eqP => //= Zx. case: eqP => //= Zy. rewrite /bind.
    case E1: (layer_grid _ _ _ _ _) => [g|] //. case E2: (Epsilon_fft _ _ _) => [[ei e2]|] //=.
    case E3: (Solve_patterned _ _ _ _ _) => [[q phi]|] //=.
    set md := mkMode q phi _.
    have -> : (s * (Nx * Ny) + Nx * Ny = s.+1 * (Nx * Ny))%N by rewrite mulSn addnC.
    have Es' : (s.+1 + c = N)%N by rewrite addSnnS.
    have Sz' : size (set_nth None ms s.+1 (Some md)) = size ms.
      rewrite size_set_nth. apply/maxn_idPr. apply: leq_trans Sz. by rewrite !ltnS ltnW.
    have Hs2 : (s.+1 < size ms)%N by apply: leq_trans Sz; rewrite !ltnS ltnW.
    move=> /(IH _ _ _ Es'). rewrite Sz' => /(_ Sz) [A1 [A2 A3]]. split=> //. split.
    + move=> l Hl. rewrite A2.
        rewrite nth_error_set //. case: eqP => // El. subst l. move: Hl. rewrite ltnn /=.
        by rewrite ltnS leqNgt Hs.
      case/orP: Hl => Hl; last by rewrite Hl orbT. by rewrite (leq_trans Hl (leqnSn _)).
    + move=> j /andP [Hj1 Hj2]. case: (eqVneq j s) => [->|Nj].
        exists g, ei, e2, md. split; first by rewrite lt0n; exact/eqP. split; first by rewrite lt0n; exact/eqP.
        do 4 (split=> //). change (List.nth_error ms' s.+1 = Some (Some md)). by rewrite A2 ?ltnSn // nth_error_set // eqxx.
      apply: A3. by rewrite Hj2 ltn_neqAle eq_sym Nj Hj1.
Qed.

Lemma patterned_ready argsort eig c f Nx Ny N ths t G (r0 r : ready G) :
  size ths = N ->
  (forall i, (i < N)%N -> exists th, List.nth_error ths i = Some th /\ layer_thickness (t_thick c) i = Some th) ->
  Init_Setup argsort (trcwa_object c f (map (fun th => Grid th Nx Ny) ths)) 1%coqR 0%coqZ = Ok (existT _ G r0) ->
  GridLayer_geteps eig t r0 = Ok r ->
  s_omega r = s_omega r0 /\ s_kx r = s_kx r0 /\ s_ky r = s_ky r0 /\ s_norm r = s_norm r0
  /\ outer_ok c N r
  /\ (forall j, (j < N)%N -> exists g ei e2 md,
        (0 < Nx)%N /\ (0 < Ny)%N
        /\ layer_grid t j.+1 (j * (Nx * Ny)) Nx Ny = Ok g
        /\ Epsilon_fft (1 / INR Nx / INR Ny)%coqR g G = Ok (ei, e2)
        /\ m_kp md = MakeKP_patterned (s_omega r) ei (s_kx r) (s_ky r)
        /\ Solve_patterned (eig _) (s_kx r) (s_ky r) (m_kp md) e2 = Ok (m_q md, m_phi md)
        /\ List.nth_error (s_modes r) j.+1 = Some (Some md)).
Proof.
  move=> S1 Ht. rewrite /trcwa_object. set o := mkRcwa _ _ _ _ _ _ _ => HI.
  set s1 := Add_LayerUniform 1%coqR (EReal (t_top c)) empty_stack : stack R eps_val unit.
  have Est : r_stack o = Add_LayerUniform 1%coqR (EReal (t_bottom c)) (add_layers (map (fun th => Grid th Nx Ny) ths) s1).
    rewrite /= /add_layers /=. by rewrite List.fold_left_app.
  have [A1 [A2 [A3 [A4 [A5 [A6 [A7 A8]]]]]]] := add_grids ths Nx Ny s1.
  have {}A2 : thickness_list (r_stack o) = 1%coqR :: ths ++ [:: 1%coqR] by rewrite Est /= A2.
  have {}A3 : id_list (r_stack o) = [:: 0%N; 0%N; 0%N] :: mkseq (fun j => [:: 1%N; j.+1; j; j]) N ++ [:: [:: 0%N; N.+1; 1%N]].
    by rewrite Est /= A3 A1 A5 S1.
  have {}A4 : Uniform_ep_list (r_stack o) = [:: EReal (t_top c); EReal (t_bottom c)] by rewrite Est /= A4.
  have {}A8 : GridLayer_Nxy_list (r_stack o) = nseq N (Nx, Ny) by rewrite Est /= A8 S1.
  have [ep0 [lk1 [lk2 [n [H1 [H2 [H3 [H4 [H5 [H6 [H7 [H8 [H9 H10]]]]]]]]]]]]] := setup_ok argsort o G r0 erefl erefl HI.
  have [Sm Hm] := map_layers_ok _ _ _ H10.
  have Sm' : size (s_modes r0) = N.+2 by rewrite Sm A3 /= size_cat size_mkseq addn1.
  rewrite /GridLayer_geteps /bind H7 H8 A3 A8. cbn [geteps_loop].
  case EL: (geteps_loop _ _ _ _ _ _ _ _ _ _ _) => [ms'|] // [<-] /=.
  have Hsz : (N.+1 < size (s_modes r0))%N by rewrite Sm'.
  have [B1 [B2 B3]] := geteps_run eig (s_omega r0) (s_kx r0) (s_ky r0) Nx Ny N t N 0 (s_modes r0) ms' (add0n N) Hsz EL.
  do 4 (split=> //). split; last by move=> j Hj; exact: B3.
  split=> /=; first by rewrite B1.
  have St : size (s_thick r0) = N.+2 by rewrite H6 A2 /= size_cat S1 addn1.
  split=> //. split; first by rewrite H6 A2. split; first by rewrite H6 A2 /= (nth_error_last _ _ _ S1).
  split.
    move=> i Hi. have [th [T1 T2]] := Ht i Hi. by rewrite H6 A2 /= nth_error_cat1 ?S1 // T1 T2.
  split.
  - have E0 : List.nth_error ms' 0 = List.nth_error (s_modes r0) 0 by rewrite B2. rewrite /= in E0. rewrite E0. have [y [Y1 Y2]] := Hm 0%N [:: 0%N; 0%N; 0%N] (f_equal (fun l => List.nth_error l 0) A3).
    move: Y2. rewrite /setup_layer A4 /= /bind. case E: (uniform_layer _ _ _ _) => [md|] // [Ey].
    exists md. by rewrite /= in Y1; rewrite Y1 -Ey.
  - have EN1 : List.nth_error ms' N.+1 = List.nth_error (s_modes r0) N.+1 by rewrite B2 ?ltnSn ?orbT.
    rewrite /= in EN1. rewrite EN1.
    have EN : List.nth_error (id_list (r_stack o)) N.+1 = Some [:: 0%N; N.+1; 1%N].
      by rewrite A3 nth_error_cons nth_error_last // size_mkseq.
    have [y [Y1 Y2]] := Hm _ _ EN.
    move: Y2. rewrite /setup_layer A4 /= /bind. case E: (uniform_layer _ _ _ _) => [md|] // [Ey].
    exists md. by rewrite /= in Y1; rewrite Y1 -Ey.
Qed.
