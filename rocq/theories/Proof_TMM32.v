(** The incoherent method: an absorbing incoherent layer, a coated slab. *)
From Coq Require Import Reals ZArith String List Bool Lia Lra Psatz.
From Verif Require Import Base PyVal Cplx CplxLemmas Model_TMM Model_TMM2 Model_TMM3 Spec_TMM Spec_TMM3.
From Verif Require Import Proof_TMM Proof_TMM2 Proof_TMM3 Proof_TMM4 Proof_TMM5 Proof_TMM6 Proof_TMM7 Proof_TMM9 Proof_TMM13 Proof_TMM14 Proof_TMM16 Proof_TMM21 Proof_TMM22 Proof_TMM23 Proof_TMM24 Proof_TMM25 Proof_TMM26 Proof_TMM27 Proof_TMM28 Proof_TMM29 Proof_TMM30 Proof_TMM31.
Import ListNotations.
Open Scope R_scope.

Lemma interface_exists pol n n' th th' : (pol = "s" \/ pol = "p")%string -> 0 < Re n -> 0 < Re n' -> Ccos th = C1 -> Ccos th' = C1 ->
  exists Rf Tf, interface_R pol n n' th th' = Ok Rf /\ interface_T pol n n' th th' = Ok Tf.
Proof.
  intros Hp N N' E E'. unfold interface_R, interface_T, interface_r, interface_t, T_from_t, R_from_r. rewrite E, E'.
  assert (Z : forall u v : C, 0 < Re u -> 0 < Re v -> (u * C1 + v * C1)%C <> C0) by (intros u v U V Q; apply (f_equal Re) in Q; destruct u, v; cbn in *; lra).
  assert (Cc : Re (n * Cconj C1)%C = Re n) by (destruct n; cbn; ring). assert (Cd : Re (n * C1)%C = Re n) by (destruct n; cbn; ring).
  destruct Hp as [-> | ->]; cbn [String.eqb Ascii.eqb Bool.eqb]; rewrite !cdiv_ok by (apply Z; assumption); cbn [bind]; unfold rdiv; rewrite ?Cc, ?Cd; destruct (Req_EM_T (Re n) 0); try lra; cbn [bind]; eauto.
Qed.

Definition thin_d : R := ln (10/9) / (4 * PI).
Lemma absorber_success f : inverts_sine f -> principal f ->
  exists D, inc_tmm f "s" [(1, 0); (1, 1); (1, 0)] [PInf; Fin thin_d; PInf] ["i"; "i"; "i"]%string C0 1 = Ok D.
Proof.
  intros inv pri. pose proof PI_RGT_0 as Pi. assert (N11 : ((1, 1) : C) <> C0) by (intros Z; apply (f_equal Re) in Z; cbn in Z; lra). assert (N10 : ((1, 0) : C) <> C0) by (intros Z; apply (f_equal Re) in Z; cbn in Z; lra).
  assert (A0 := arcsin_zero f inv pri).
  assert (Et : list_snell f [(1, 0); (1, 1); (1, 0)] C0 = Ok [f C0; f C0; f C0]).
  { unfold list_snell, angles_of. rewrite Csin_0, !cdiv_ok by assumption. cbn [bind].
    replace ((1, 0) * C0 / (1, 0))%C with C0 by (field; assumption). replace ((1, 0) * C0 / (1, 1))%C with C0 by (field; assumption).
    assert (F : is_forward_angle (1, 0) (f C0) = Ok true).
    { apply (admits_forward 0 (1, 0) C1); [apply transparent_admits; split; [reflexivity|rewrite Rabs_R0; cbn; lra]| | |symmetry; exact A0]; [apply Ceq; cbn; ring|cbn; lra]. }
    unfold make_forward. cbn [nth]. rewrite F. cbn [bind]. cbn [nth length Nat.sub]. rewrite F. reflexivity. }
  assert (G : inc_group_layers [(1, 0); (1, 1); (1, 0)] [PInf; Fin thin_d; PInf] ["i"; "i"; "i"]%string =
    Ok (mkGroup [] [] [0; 1; 2]%nat [Some 0; Some 1; Some 2]%nat [] [None; None; None] [] [None; None; None])) by reflexivity.
  unfold inc_tmm. cbn [length Nat.eqb negb ensure bind]. cbn [nth]. rewrite Csin_0.
  replace (Rabs (Im ((1, 0) * C0)%C)) with 0 by (cbn; rewrite Rmult_0_r, Rmult_0_l, Rplus_0_l, Rabs_R0; reflexivity).
  assert (EP : 0 < 100 * EPSILON) by (unfold EPSILON; assert (0 < / 2 ^ 52) by (apply Rinv_0_lt_compat, pow_lt; lra); lra).
  unfold Rltb at 1. destruct (Rlt_dec 0 (100 * EPSILON)); [|contradiction]. cbn [ensure bind]. rewrite G. cbn [bind]. rewrite Et. cbn [bind length g_all_from_stack g_all_from_inc seq mapM map].
  assert (EP' : passes [(1, 0); (1, 1); (1, 0)] [PInf; Fin thin_d; PInf] [f C0; f C0; f C0] 1 (mkGroup [] [] [0; 1; 2]%nat [Some 0; Some 1; Some 2]%nat [] [None; None; None] [] [None; None; None]) = Ok [0; 9/10; 0]).
  { unfold passes. cbn [length g_all_from_inc Nat.sub seq mapM bind nth]. unfold pass_through. cbn [nth bind]. rewrite A0. unfold rdiv. destruct (Req_EM_T 1 0); [lra|]. cbn [bind].
    replace (-4 * PI * thin_d * Im ((1, 1) * C1)%C / 1) with (- ln (10/9)) by (unfold thin_d; cbn; field; lra). rewrite exp_Ropp, exp_ln by lra. replace (/ (10 / 9)) with (9/10) by lra.
    unfold Rltb. destruct (Rlt_dec (9/10) (/ 10 ^ 30)) as [Q|]; [|reflexivity]. exfalso. assert (/ 10 ^ 30 <= / 10); [|lra]. apply Rinv_le_contravar; [lra|]. replace (10 ^ 30) with (10 * 10 ^ 29) by (cbn; ring). assert (1 <= 10 ^ 29) by (apply pow_R1_Rle; lra). lra. }
  rewrite EP'. cbn [bind Nat.sub seq mapM]. unfold crossing_at. cbn [g_all_from_inc g_stack_from_inc nth].
  assert (P1 : 0 < Re (1, 0)) by (cbn; lra). assert (P2 : 0 < Re (1, 1)) by (cbn; lra).
  destruct (interface_exists "s" (1, 0) (1, 1) (f C0) (f C0) (or_introl eq_refl) P1 P2 A0 A0) as (Rf & Tf & E1 & E2).
  destruct (interface_exists "s" (1, 1) (1, 0) (f C0) (f C0) (or_introl eq_refl) P2 P1 A0 A0) as (Rb & Tb & E3 & E4).
  rewrite E1, E2. cbn [bind]. rewrite E3, E4. cbn [bind].
  apply interface_R_is in E1, E3. apply interface_T_is in E2 as (_ & _ & E2), E4 as (_ & _ & E4). rewrite A0 in *.
  pose proof (crossing_normal "s" (1, 0) (1, 1) (or_introl eq_refl) P1 P2) as X. unfold interface_crossing in X. rewrite <- E1, <- E2, <- E3, <- E4 in X. unfold Cnorm2 in X. cbn in X. injection X as X1 X2 X3 X4.
  assert (Rf = 1/5) by (rewrite X1; field). assert (Tf = 4/5) by (rewrite X2; field). assert (Rb = 1/5) by (rewrite X3; field). assert (Tb = 8/5) by (rewrite X4; field). clear X1 X2 X3 X4 E1 E2 E3 E4. subst.
  cbn [Nat.ltb Nat.leb ensure bind nth]. unfold L_interface at 1. cbn [x_Rf x_Tf x_Rb x_Tb]. unfold Reqb at 1. destruct (Req_EM_T (4/5) 0); [lra|]. cbn [negb ensure bind].
  unfold L_layer, L_interface. cbn [x_Rf x_Tf x_Rb x_Tb]. unfold Reqb. destruct (Req_EM_T (8/5) 0); [lra|]. cbn [negb ensure bind]. unfold rdiv at 1. destruct (Req_EM_T (9/10) 0); [lra|]. cbn [bind fold_left].
  unfold rdiv. destruct (Req_EM_T _ 0) as [Q|]; [exfalso; cbn in Q; lra|]. cbn [bind].
  cbn [mapM seq]. unfold entering_at. cbn [nth g_stack_from_inc Nat.eqb bind]. eexists. reflexivity.
Qed.
Lemma absorber_gains : exists arcsin D d, inverts_sine arcsin /\ principal arcsin /\ 0 < d /\
  inc_tmm arcsin "s" [(1, 0); (1, 1); (1, 0)] [PInf; Fin d; PInf] ["i"; "i"; "i"]%string C0 1 = Ok D /\ 1 < i_T D.
Proof.
  destruct arcsin_exists as (f & inv & pri). destruct (absorber_success f inv pri) as (D & H). pose proof PI_RGT_0 as Pi.
  exists f, D, thin_d. do 2 (split; [assumption|]). split.
  { unfold thin_d. apply Rdiv_lt_0_compat; [|lra]. rewrite <- ln_1. apply ln_increasing; lra. }
  split; [exact H|]. destruct (one_layer f "s" (1, 1) (Fin thin_d) D inv pri (or_introl eq_refl) ltac:(cbn; lra) H) as (M & X0 & X1 & t & E & P).
  injection E as <-. destruct (three_layers _ _ _ _ _ _ _ _ H M) as (_ & -> & _). cbn zeta. rewrite X1, X0, P. cbn [x_Rf x_Tf x_Rb x_Tb].
  replace (- (4 * PI * Im (1, 1) * thin_d)) with (- ln (10/9)) by (unfold thin_d; cbn; field; lra). rewrite exp_Ropp, exp_ln by lra. replace (/ (10 / 9)) with (9/10) by lra.
  rewrite Rmax_left by (assert (/ 10 ^ 30 <= / 10); [|lra]; apply Rinv_le_contravar; [lra|]; replace (10 ^ 30) with (10 * 10 ^ 29) by (cbn; ring); assert (1 <= 10 ^ 29) by (apply pow_R1_Rle; lra); lra).
  unfold Cnorm2. cbn. match goal with |- 1 < ?x => replace x with (2880/2419) by (field; lra) end. lra.
Qed.

Definition coated : list C := [(1, 0); (2, 1/20); (3/2, 0); (1, 0)].
(** A slab of glass with an absorbing coating, light under 30 degrees *)
Lemma coated_example : exists arcsin D l, inverts_sine arcsin /\ principal arcsin /\
  inc_tmm arcsin "p" [(1, 0); (2, 1/20); (3/2, 0); (1, 0)] [PInf; Fin 1; Fin 5; PInf] ["i"; "c"; "i"; "i"]%string (PI / 6, 0) 1 = Ok D /\
  inc_absorp_in_each_layer D = Ok l /\ length l = 4%nat /\ total l = 1 /\ nth 2 l 0 = 0 /\
  0 <= i_R D /\ 0 < i_T D /\ i_R D + i_T D <= 1.
Proof.
  destruct arcsin_exists as (f & inv & pri). assert (Hs : (nth 0 coated C0 * Csin deg30)%C = RtoC (1/2)) by exact (film_s (1/20)).
  assert (HI : forall i, nth i ["i"; "c"; "i"; "i"]%string EmptyString = "i"%string -> transparent (1/2) (nth i coated C0)).
  { assert (R2 : Rabs (1/2) = 1/2) by (apply Rabs_pos_eq; lra). intros i Hi. destruct i as [|[|[|[|i]]]]; [|discriminate Hi| | |destruct i; discriminate]; (split; [reflexivity|rewrite R2; cbn; lra]). }
  assert (HC : forall i, nth i ["i"; "c"; "i"; "i"]%string EmptyString = "c"%string -> i = 1%nat).
  { intros i Hi. destruct i as [|[|[|[|i]]]]; try discriminate Hi; [reflexivity|destruct i; discriminate]. }
  destruct (inc_succeeds f inv pri "p" coated [PInf; Fin 1; Fin 5; PInf] ["i"; "c"; "i"; "i"]%string deg30 1 (1/2) (or_intror eq_refl)) as (D & H & Op); [| | |exact Hs|exact HI| | |].
  - unfold well_formed. cbn. repeat split; try discriminate. intros c [<-|[<-|[<-|[<-|[]]]]]; auto.
  - cbn; lia.
  - lra.
  - intros i H1 H2. cbn in H2. destruct i as [|[|[|i]]]; try lia; cbn; eauto.
  - intros i Hi. rewrite (HC i Hi). cbn [nth thickness]. split; [exact (film_admits (1/20) 1 ltac:(lra) ltac:(lia))|]. split; [lra|].
    destruct (film_layers f (1/20) 1 inv pri ltac:(lra) ltac:(lra) 1 ltac:(lia) ltac:(cbn; lia)) as (d & E & _ & Q). injection E as <-. exact Q.
  - assert (HC' : forall i, nth i ["i"; "c"; "i"; "i"]%string EmptyString = "c"%string -> 0 <= thickness (nth i [PInf; Fin 1; Fin 5; PInf] NaN) /\ passive (nth i coated C0)).
    { intros i Hi. rewrite (HC i Hi). cbn. split; [lra|]. unfold passive. cbn. lra. }
    assert (Hth : 0 < Re (Ccos deg30)) by (change deg30 with deg30; rewrite cos30; cbn; assert (0 < sqrt 3) by (apply sqrt_lt_R0; lra); lra).
    destruct (transparent_absorption _ _ _ _ _ _ _ _ _ inv pri H Hs Hth Rlt_0_1 HI HC' Op) as (l & A & _ & _ & Z & _).
    destruct (inc_accounts _ _ _ _ _ _ _ _ inv H (fun i Hi => proj1 (HC' i Hi))) as (l' & A' & L & T & _). assert (l' = l) by congruence. subst l'.
    exists f, D, l. do 4 (split; [assumption|]). split; [exact L|]. split; [exact T|]. split; [apply Z; [lia|cbn; lia|reflexivity]|].
    exact (transparent_bounds _ _ _ _ _ _ _ _ _ inv pri H Hs Hth Rlt_0_1 HI HC' Op).
Qed.

(** The coating between air and glass *)
Lemma film_case : exists arcsin D c, inverts_sine arcsin /\ principal arcsin /\
  inc_tmm arcsin "p" [(1, 0); (2, 1/20); (3/2, 0)] [PInf; Fin 1; PInf] ["i"; "c"; "i"]%string (PI / 6, 0) 1 = Ok D /\
  coh_tmm arcsin "p" [(1, 0); (2, 1/20); (3/2, 0)] [PInf; Fin 1; PInf] (PI / 6, 0) 1 = Ok c /\ i_R D = c_R c /\ i_T D = c_T c.
Proof.
  destruct arcsin_exists as (f & inv & pri). destruct (film_ok f "p" (1/20) 1 inv pri (or_intror eq_refl)) as (c & Hc & _); try lra.
  assert (HC : forall i, nth i ["i"; "c"; "i"]%string EmptyString = "c"%string -> i = 1%nat).
  { intros i Hi. destruct i as [|[|[|i]]]; try discriminate Hi; [reflexivity|destruct i; discriminate]. }
  destruct (inc_succeeds f inv pri "p" (film (1/20)) (film_d 1) ["i"; "c"; "i"]%string deg30 1 (1/2) (or_intror eq_refl)) as (D & H & _).
  - unfold well_formed. cbn. repeat split; try discriminate. intros x [<-|[<-|[<-|[]]]]; auto.
  - cbn; lia.
  - lra.
  - exact (film_s (1/20)).
  - assert (R2 : Rabs (1/2) = 1/2) by (apply Rabs_pos_eq; lra). intros i Hi. destruct i as [|[|[|i]]]; [|discriminate Hi| |destruct i; discriminate]; (split; [reflexivity|rewrite R2; cbn; lra]).
  - intros i H1 H2. cbn in H2. replace i with 1%nat by lia. exists 1. reflexivity.
  - intros i Hi. rewrite (HC i Hi). cbn [nth thickness]. split; [exact (film_admits (1/20) 1 ltac:(lra) ltac:(lia))|]. split; [cbn; lra|].
    destruct (film_layers f (1/20) 1 inv pri ltac:(lra) ltac:(lra) 1 ltac:(lia) ltac:(cbn; lia)) as (d & E & _ & Q). injection E as <-. exact Q.
  - exists f, D, c. do 4 (split; [assumption|]). refine (all_coherent _ _ _ _ _ _ _ _ H inv c _ _ Hc); [cbn; lia|]. intros i H1 H2. cbn in H2. replace i with 1%nat by lia. reflexivity.
Qed.
