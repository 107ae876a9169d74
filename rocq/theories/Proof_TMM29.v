(** Special cases of the incoherent method. *)
From Coq Require Import Reals ZArith String List Bool Lia Lra Psatz.
From Verif Require Import Base PyVal Cplx CplxLemmas Model_TMM Model_TMM2 Model_TMM3 Spec_TMM Spec_TMM3.
From Verif Require Import Proof_TMM Proof_TMM2 Proof_TMM4 Proof_TMM5 Proof_TMM6 Proof_TMM9 Proof_TMM16 Proof_TMM22 Proof_TMM23 Proof_TMM24 Proof_TMM25 Proof_TMM26 Proof_TMM27 Proof_TMM28.
Import ListNotations.
Open Scope R_scope.

(** Angles with the same sine and cosine *)
Lemma Ccos_conj z : Ccos (Cconj z) = Cconj (Ccos z).
Proof.
  unfold Ccos, Cconj. cbn. f_equal; [f_equal|]; unfold cosh, sinh; rewrite !Ropp_involutive; field.
Qed.
Lemma coh_angle arcsin pol n d th th' lam c c' : Csin th' = Csin th -> Ccos th' = Ccos th ->
  coh_tmm arcsin pol n d th lam = Ok c -> coh_tmm arcsin pol n d th' lam = Ok c' -> c_R c' = c_R c /\ c_T c' = c_T c.
Proof.
  intros Es Ec H H'.
  assert (Q : coh_tmm arcsin pol n d th' lam = let! c := coh_tmm arcsin pol n d th lam in
     Ok (mkCoh (c_r c) (c_t c) (c_R c) (c_T c) (c_entering c) (c_vw c) (c_kz c) (c_th c) (c_pol c) (c_n c) (c_d c) th' (c_lam c))).
  { unfold coh_tmm, power_entering_from_r, T_from_t, is_forward_angle, list_snell. rewrite !Ccos_conj, Es, Ec.
    repeat match goal with
    | |- bind ?x _ = bind (bind ?x _) _ => destruct x; cbn [bind]; [|reflexivity]
    | |- (let! _ := ?x in _) = _ => destruct x; cbn [bind]; [|reflexivity]
    end; try reflexivity.
    all: repeat match goal with |- context [bind ?x _] => destruct x; cbn [bind]; try reflexivity end. }
  rewrite H in Q. cbn [bind] in Q. rewrite H' in Q. apply Ok_inj in Q. rewrite Q. cbn. auto.
Qed.

Section Special.
Variables (arcsin : C -> C) (pol : string) (ns : list C) (ds : list pyfloat) (cs : list string) (th0 : C) (lam : R) (D : inc_data).
Hypothesis H : inc_tmm arcsin pol ns ds cs th0 lam = Ok D.
Notation M := (incoherent_layers D).

Lemma two_layers : M = 2%nat -> i_R D = x_Rf (crossing_of D 0) /\ i_T D = x_Tf (crossing_of D 0).
Proof.
  intros E. destruct (balance_all _ _ _ _ _ _ _ _ H) as (_ & Bal & E0 & E1). rewrite E in *. destruct (Bal 0%nat ltac:(lia)) as (b & F1 & F2 & F3).
  cbn [Nat.eqb Nat.sub] in *. rewrite E0, E1 in *. cbn [fst snd] in *. subst b. lra.
Qed.
Lemma three_layers : M = 3%nat -> let x := crossing_of D 0 in let y := crossing_of D 1 in let P := pass_of D 1 in
  1 - x_Rb x * x_Rf y * (P * P) <> 0 /\
  i_T D = x_Tf x * P * x_Tf y / (1 - x_Rb x * x_Rf y * (P * P)) /\
  i_R D = x_Rf x + x_Tf x * P * x_Rf y * P * x_Tb x / (1 - x_Rb x * x_Rf y * (P * P)).
Proof.
  cbv zeta. intros E. set (x := crossing_of D 0). set (y := crossing_of D 1). set (P := pass_of D 1). destruct (inc_calc _ _ _ _ _ _ _ _ H) as (ths & K). assert (Q0 : (1 < M)%nat) by lia. pose proof (q_Tf _ _ _ _ _ _ _ _ _ K 0%nat Q0) as Nz. fold x in Nz.
  destruct (balance_all _ _ _ _ _ _ _ _ H) as (_ & Bal & E0 & E1). rewrite E in *. destruct (Bal 0%nat ltac:(lia)) as (b & F1 & F2 & F3). destruct (Bal 1%nat ltac:(lia)) as (b' & G1 & G2 & G3).
  cbn [Nat.eqb Nat.sub] in *. fold x y P in F2, F3, G1, G2, G3. rewrite E0, E1 in *. cbn [fst snd] in *. destruct (intensity D 1) as [V W]. cbn [fst snd] in *.
  rewrite G3 in G1. rewrite F3 in F1. clear F3 G3 b b'. subst W. assert (EV : V * (1 - x_Rb x * x_Rf y * (P * P)) = x_Tf x) by lra.
  assert (Nd : 1 - x_Rb x * x_Rf y * (P * P) <> 0) by (intros Z; rewrite Z in EV; lra). split; [exact Nd|].
  assert (EV' : V = x_Tf x / (1 - x_Rb x * x_Rf y * (P * P))) by (rewrite <- EV; field; exact Nd).
  split; [rewrite G2|rewrite F1]; rewrite EV'; field; exact Nd.
Qed.

Hypothesis inv : inverts_sine arcsin.
(** Only coherent layers between the outer ones *)
Lemma all_coherent c : (2 <= length ns)%nat -> (forall i, (0 < i)%nat -> (S i < length ns)%nat -> nth i cs EmptyString = "c"%string) ->
  coh_tmm arcsin pol ns ds th0 lam = Ok c -> i_R D = c_R c /\ i_T D = c_T c.
Proof.
  intros N2 Cc Hc. destruct (inc_calc _ _ _ _ _ _ _ _ H) as (ths & K). destruct (runs _ _ _ _ _ _ _ _ _ K) as (ks & Ec & G & LN & EM & LO & WF).
  destruct (needs_all _ _ _ _ _ _ _ inv Hc) as (Ld & _ & D0 & DN & Fin & Hp & Nl & Sm & _). pose proof (q_M _ _ _ _ _ _ _ _ _ K) as M2.
  assert (L1 : length ks = 1%nat).
  { destruct (Nat.eq_dec (length ks) 1) as [|Ne]; [assumption|]. exfalso. assert (P1 : (pos ks 0 < pos ks 1)%nat) by (apply pos_mono; lia). assert (P2 : (pos ks 1 < pos ks (length ks))%nat) by (apply pos_mono; lia).
    rewrite pos_0 in P1. specialize (Cc (pos ks 1) P1 ltac:(lia)). rewrite Ec, letter_i in Cc by lia. discriminate. }
  assert (EM2 : M = 2%nat) by lia. destruct (two_layers EM2) as (-> & ->). destruct ks as [|m [|? ?]]; try discriminate. cbn [length] in *.
  assert (LO0 : layer_of D 0 = 0%nat) by (rewrite LO, pos_0; lia). assert (LO1 : layer_of D 1 = S m) by (rewrite LO by lia; unfold pos; cbn; lia).
  assert (LN' : length ns = (m + 2)%nat) by (rewrite LN; unfold pos; cbn; lia).
  destruct (list_snell_spec arcsin inv ns th0 ths N2 (q_ths _ _ _ _ _ _ _ _ _ K)) as (LT & Sn & _ & _ & _ & F0 & _).
  assert (Fw : forwards (nth 0 ns C0 * Ccos th0)%C = true).
  { unfold coh_tmm in Hc. do 4 (destruct (ensure _ _); [cbn [bind] in Hc|discriminate]). destruct (is_forward_angle (nth 0 ns C0) th0) as [[]|] eqn:Q; [|discriminate|discriminate]. apply is_forward_inv in Q as (_ & <-). reflexivity. }
  specialize (F0 Fw). destruct (Sn 0%nat ltac:(lia)) as (N0 & S0). apply Cmul_cancel in S0; [|exact N0].
  destruct (crossings_are _ _ _ _ _ _ _ _ _ K 0%nat ltac:(lia)) as (X1 & X2). rewrite LO0, LO1 in *. destruct (Nat.eq_dec m 0) as [Z|Z].
  - subst m. rewrite X1 by reflexivity. destruct ns as [|n0 [|n1 [|? ?]]]; try discriminate. cbn [nth] in *. unfold interface_crossing. cbn [x_Rf x_Tf].
    rewrite F0. clear - Hc K inv N0 S0 F0 Fw LT H.
    pose proof Hc as Hc'. unfold coh_tmm in Hc. cbn [length] in Hc. do 4 (destruct (ensure _ _); [cbn [bind] in Hc|discriminate]). destruct (is_forward_angle _ _); [|discriminate]. cbn [bind] in Hc. destruct (ensure _ _); [|discriminate]. cbn [bind] in Hc.
    rewrite (q_ths _ _ _ _ _ _ _ _ _ K) in Hc. destruct ths as [|t0 [|t1 [|? ?]]]; try discriminate. cbn [nth] in *. cbn [bind] in Hc.
    destruct (ensure (negb (Reqb lam 0)) RuntimeError); [|discriminate]. cbn [interfaces bind] in Hc.
    destruct (interface_t pol n0 n1 t0 t1) as [t|] eqn:Et; [|cbn [bind] in Hc; discriminate]. cbn [bind] in Hc. destruct (interface_r pol n0 n1 t0 t1) as [r|] eqn:Er; [|cbn [bind] in Hc; discriminate]. cbn [bind] in Hc.
    destruct (ensure _ _) as [[]|] eqn:En; [|cbn [bind] in Hc; discriminate]. cbn [bind] in Hc.
    apply ensure_inv in En. cbn [forallb] in En. rewrite andb_true_r in En. apply negb_true_iff in En. cbn [snd] in En. 
    assert (Nt : t <> C0) by (intros ->; unfold Reqb in En; destruct Req_EM_T as [|Q]; [discriminate|apply Q; unfold Cnorm2; cbn; ring]).
    inv_bind Hc. inv_bind Hc. inv_bind Hc. inv_bind Hc. apply Ok_inj in Hc. subst c. cbn [c_R c_T].
    apply cdiv_inv in E as (_ & ->). apply cdiv_inv in E0 as (_ & ->). 
    unfold M_total, M_list in *. cbn [length map combine seq fold_left nth fst snd Nat.sub] in *. unfold mdot, mscal, m_id in *. cbn [m00 m01 m10 m11] in *.
    replace (C1 / t * C1 * C1 + C1 / t * r * C0)%C with (C1 / t)%C in * by ring. replace (C1 / t * r * C1 + C1 / t * C1 * C0)%C with (C1 / t * r)%C in * by ring.
    replace (C1 / t * r / (C1 / t))%C with r in * by (field; split; [exact Nt|intros Q; apply (f_equal Re) in Q; cbn in Q; lra]).
    replace (C1 / (C1 / t))%C with t in * by (field; split; [exact Nt|intros Q; apply (f_equal Re) in Q; cbn in Q; lra]).
    assert (Ir : interface_R pol n0 n1 t0 t1 = Ok (R_from_r r)) by (unfold interface_R; rewrite Er; reflexivity). rewrite <- F0. split; [symmetry; apply interface_R_is; exact Ir|].
    assert (It : interface_T pol n0 n1 t0 t1 = Ok a1). { unfold interface_T. rewrite Et. cbn [bind]. unfold T_from_t in *. rewrite F0. exact E1. }
    symmetry. apply (interface_T_is _ _ _ _ _ _ It).
  - destruct X2 as (c' & b & Hc' & _ & ->); [lia|]. cbn zeta in Hc'. replace (S m - 0 - 1)%nat with m in Hc' by lia. cbn [x_Rf x_Tf].
    assert (En : map (fun i => nth i ns C0) (seq 0 (m + 2)) = ns).
    { apply (nth_ext _ _ C0 C0); [rewrite map_length, seq_length; lia|]. rewrite map_length, seq_length. intros i Hi. rewrite (nth_indep _ _ (nth 0 ns C0)) by (rewrite map_length, seq_length; lia). rewrite (map_nth (fun i => nth i ns C0)), seq_nth by lia. reflexivity. }
    assert (Ed : PInf :: map (fun i => nth i ds NaN) (seq 1 m) ++ [PInf] = ds).
    { apply (nth_ext _ _ NaN NaN); [cbn [length]; rewrite app_length, map_length, seq_length; cbn; lia|]. cbn [length]. rewrite app_length, map_length, seq_length. cbn [length]. intros i Hi. destruct i as [|i]; [exact (eq_sym D0)|]. cbn [nth].
      destruct (Nat.eq_dec i m) as [->|Ni]; [rewrite app_nth2 by (rewrite map_length, seq_length; lia); rewrite map_length, seq_length, Nat.sub_diag; cbn; rewrite <- DN; f_equal; lia|].
      rewrite app_nth1 by (rewrite map_length, seq_length; lia). rewrite (nth_indep _ _ (nth 0 ds NaN)) by (rewrite map_length, seq_length; lia). rewrite (map_nth (fun i => nth i ds NaN)), seq_nth by lia. reflexivity. }
    rewrite En, Ed in Hc'. destruct (coh_angle arcsin pol ns ds th0 (nth 0 ths C0) lam c c' S0 F0 Hc Hc') as (-> & ->). auto.
Qed.
End Special.

(** The thickness of layers without absorption *)
Lemma thickness_irrelevant arcsin pol ns ds ds' cs th0 lam s D D' : inverts_sine arcsin -> principal arcsin ->
  inc_tmm arcsin pol ns ds cs th0 lam = Ok D -> inc_tmm arcsin pol ns ds' cs th0 lam = Ok D' ->
  (nth 0 ns C0 * Csin th0)%C = RtoC s -> 0 < Re (Ccos th0) ->
  (forall i, nth i cs EmptyString = "i"%string -> transparent s (nth i ns C0)) ->
  (forall i, nth i cs EmptyString = "c"%string -> nth i ds' NaN = nth i ds NaN) ->
  i_R D' = i_R D /\ i_T D' = i_T D /\ (forall k, (k < incoherent_layers D)%nat -> intensity D' k = intensity D k).
Proof.
  intros inv pri H H' Hs Hth HI Hd.
  pose proof (pass_one _ _ _ _ _ _ _ _ _ inv pri H Hs Hth HI) as P1. pose proof (pass_one _ _ _ _ _ _ _ _ _ inv pri H' Hs Hth HI) as P2.
  destruct (inc_calc _ _ _ _ _ _ _ _ H) as (ths & K). destruct (inc_calc _ _ _ _ _ _ _ _ H') as (ths' & K').
  assert (ths' = ths) by (pose proof (q_ths _ _ _ _ _ _ _ _ _ K); pose proof (q_ths _ _ _ _ _ _ _ _ _ K'); congruence). subst ths'.
  assert (Ea : g_all_from_inc (i_group D') = g_all_from_inc (i_group D)).
  { rewrite (inc_positions _ _ _ _ (q_group _ _ _ _ _ _ _ _ _ K)), (inc_positions _ _ _ _ (q_group _ _ _ _ _ _ _ _ _ K')). reflexivity. }
  assert (EM : incoherent_layers D' = incoherent_layers D) by (unfold incoherent_layers; rewrite Ea; reflexivity).
  assert (EL : forall k, layer_of D' k = layer_of D k) by (intros; unfold layer_of; rewrite Ea; reflexivity).
  assert (EX : forall k, (S k < incoherent_layers D)%nat -> crossing_of D' k = crossing_of D k).
  { intros k Hk. destruct (crossings_are _ _ _ _ _ _ _ _ _ K k Hk) as (X1 & X2). destruct (crossings_are _ _ _ _ _ _ _ _ _ K' k ltac:(lia)) as (Y1 & Y2). rewrite !EL in *.
    destruct (Nat.eq_dec (layer_of D (S k)) (S (layer_of D k))) as [Z|Z]; [rewrite X1, Y1 by exact Z; reflexivity|].
    destruct (X2 Z) as (c & b & Hc & Hb & E1). destruct (Y2 Z) as (c' & b' & Hc' & Hb' & E2). cbn zeta in *.
    destruct (runs _ _ _ _ _ _ _ _ _ K) as (ks & Ec & G & LN & EMk & LO & _).
    assert (Ed : map (fun i => nth i ds' NaN) (seq (S (layer_of D k)) (layer_of D (S k) - layer_of D k - 1)) = map (fun i => nth i ds NaN) (seq (S (layer_of D k)) (layer_of D (S k) - layer_of D k - 1))).
    { apply map_ext_in. intros i Hi. apply in_seq in Hi. apply Hd. rewrite !LO in Hi by lia. rewrite pos_S in Hi by lia. rewrite Ec. replace i with (S (pos ks k) + (i - S (pos ks k)))%nat by lia. apply letter_c; lia. }
    rewrite Ed in Hc', Hb'. assert (c' = c) by congruence. assert (b' = b) by congruence. congruence. }
  destruct (balance_all _ _ _ _ _ _ _ _ H') as (H2 & Bal & E0 & E1). rewrite EM in *.
  destruct (unique_balance_all _ _ _ _ _ _ _ _ (intensity D') (i_T D') H) as (Q1 & Q2 & Q3).
  - intros k Hk. destruct (Bal k Hk) as (b & F1 & F2 & F3). exists b. rewrite (EX k Hk) in F2, F3. destruct (Nat.eqb_spec k 0) as [W|W]; [auto|].
    rewrite P2 in F1, F2, F3 by lia. rewrite P1 by lia. auto.
  - rewrite E0. reflexivity.
  - exact E1.
  - rewrite E0 in Q1. cbn in Q1. auto.
Qed.

Lemma analytic_raises layer D : exists e, inc_find_absorp_analytic_fn layer D = Err e.
Proof. unfold inc_find_absorp_analytic_fn. destruct (py_index _ _); cbn [bind]; [|eauto]. destruct (nth _ _ _) as [[? ?]|]; eauto. Qed.
