(** What is between incoherent layers. *)
From Coq Require Import Reals ZArith String List Bool Lia Lra.
From Verif Require Import Base PyVal Cplx CplxLemmas Model_TMM Model_TMM2 Model_TMM3 Spec_TMM Spec_TMM3.
From Verif Require Import Proof_TMM Proof_TMM2 Proof_TMM4 Proof_TMM5 Proof_TMM22 Proof_TMM23 Proof_TMM24.
Import ListNotations.
Open Scope R_scope.

Lemma interface_R_is pol n n' th th' x : interface_R pol n n' th th' = Ok x -> x = Cnorm2 (fresnel_r pol n n' (Ccos th) (Ccos th')).
Proof.
  unfold interface_R, R_from_r. intros H. inv_bind H. apply Ok_inj in H. subst x. unfold Cabs.
  replace (sqrt (Cnorm2 a) ^ 2) with (Cnorm2 a) by (cbn [pow]; rewrite Rmult_1_r, sqrt_sqrt by apply Cnorm2_ge0; reflexivity).
  unfold interface_r in E. unfold fresnel_r. destruct (String.eqb pol "s"); [apply cdiv_inv in E as (_ & ->); reflexivity|].
  destruct (String.eqb pol "p"); [apply cdiv_inv in E as (_ & ->); reflexivity|discriminate].
Qed.
Lemma power_forward pol n c t : power pol n c (t, C0) = power pol n c (C1, C0) * Cnorm2 t.
Proof. rewrite !power_closed. cbn [fst snd]. unfold Cnorm2. destruct t. cbn. ring. Qed.
Lemma interface_T_is pol n n' th th' x : interface_T pol n n' th th' = Ok x ->
  (pol = "s" \/ pol = "p")%string /\ power pol n (Ccos th) (C1, C0) <> 0 /\
  x = power pol n' (Ccos th') (fresnel_t pol n n' (Ccos th) (Ccos th'), C0) / power pol n (Ccos th) (C1, C0).
Proof.
  unfold interface_T, T_from_t. intros H. inv_bind H. rewrite power_forward.
  assert (a = fresnel_t pol n n' (Ccos th) (Ccos th')) as <-.
  { unfold interface_t in E. unfold fresnel_t. destruct (String.eqb pol "s"); [apply cdiv_inv in E as (_ & ->); reflexivity|].
    destruct (String.eqb pol "p"); [apply cdiv_inv in E as (_ & ->); reflexivity|discriminate]. }
  rewrite !power_closed. unfold weight. cbn [fst snd].
  destruct (String.eqb_spec pol "s").
  - inv_bind H. apply rdiv_inv in E0 as (N & ->). apply Ok_inj in H. subst x. rewrite Cabs_sq. split; [auto|].
    destruct n, n', (Ccos th), (Ccos th'). unfold Cnorm2. cbn in *. split; [nra|]. field. nra.
  - destruct (String.eqb_spec pol "p"); [|discriminate]. inv_bind H. apply rdiv_inv in E0 as (N & ->). apply Ok_inj in H. subst x. rewrite Cabs_sq. split; [auto|].
    destruct n, n', (Ccos th), (Ccos th'). unfold Cnorm2. cbn in *. split; [nra|]. field. nra.
Qed.

Section Calc.
Variables (arcsin : C -> C) (pol : string) (ns : list C) (ds : list pyfloat) (cs : list string) (th0 : C) (lam : R) (D : inc_data) (ths : list C).
Hypothesis K : calc arcsin pol ns ds cs th0 lam D ths.
Notation M := (incoherent_layers D).

(** The runs *)
Lemma runs : exists ks, cs = coherency ks /\ i_group D = group_of ns ds ks /\ length ns = S (pos ks (length ks)) /\ M = S (length ks) /\
  (forall k, (k < M)%nat -> layer_of D k = pos ks k) /\ well_formed ns ds cs.
Proof.
  destruct (group_ks _ _ _ _ (q_group _ _ _ _ _ _ _ _ _ K)) as (ks & E & G & WF & L). exists ks. split; [exact E|]. split; [exact G|]. split; [exact L|].
  assert (EM : M = S (length ks)) by (unfold incoherent_layers; rewrite G; cbn [group_of g_all_from_inc]; rewrite map_length, seq_length; reflexivity).
  split; [exact EM|]. split; [|exact WF]. intros k Hk. unfold layer_of. rewrite G. cbn [group_of g_all_from_inc].
  rewrite (nth_indep _ _ (pos ks 0)) by (rewrite map_length, seq_length; lia). rewrite map_nth, seq_nth by lia. reflexivity.
Qed.

(** What the code looks up for the interface behind layer [k] *)
Lemma lookup ks k : i_group D = group_of ns ds ks -> (k < length ks)%nat ->
  nth (S k) (g_stack_from_inc (i_group D)) None = if Nat.eqb (nth k ks 0%nat) 0 then None else Some (cnt ks k).
Proof.
  intros G Hk. rewrite G. cbn [group_of g_stack_from_inc nth].
  rewrite (nth_indep _ _ ((fun j => if Nat.eqb (nth j ks 0%nat) 0 then None else Some (cnt ks j)) 0%nat)) by (rewrite map_length, seq_length; lia).
  rewrite (map_nth (fun j => if Nat.eqb (nth j ks 0%nat) 0 then None else Some (cnt ks j))), seq_nth by lia. reflexivity.
Qed.
Lemma stack_lookup ks k : i_group D = group_of ns ds ks -> (k < length ks)%nat -> nth k ks 0%nat <> 0%nat ->
  exists c b, nth_error (i_coh D) (cnt ks k) = Some c /\ nth_error (i_bcoh D) (cnt ks k) = Some b /\
    let n := map (fun i => nth i ns C0) (seq (pos ks k) (nth k ks 0%nat + 2)) in
    let d := PInf :: map (fun i => nth i ds NaN) (seq (S (pos ks k)) (nth k ks 0%nat)) ++ [PInf] in
    coh_tmm arcsin pol n d (nth (pos ks k) ths C0) lam = Ok c /\ coh_tmm_reverse arcsin pol n d (nth (pos ks k) ths C0) lam = Ok b /\
    nth (cnt ks k) (i_FB D) (0, 0) = (reaching_end D k, snd (intensity D (S k))).
Proof.
  intros G Hk Nz. pose proof (nonempty_at ks k Hk Nz) as NE.
  assert (Hs : (cnt ks k < length (g_all_from_stack (i_group D)))%nat).
  { rewrite G. cbn [group_of g_all_from_stack]. rewrite map_length. apply nth_error_Some. congruence. }
  destruct (q_stack _ _ _ _ _ _ _ _ _ K _ Hs) as (c & b & E1 & E2 & E3). exists c, b. split; [exact E1|]. split; [exact E2|]. cbn zeta.
  assert (NX : forall {A} (f : nat -> A) d, nth (cnt ks k) (map f (nonempty ks)) d = f k).
  { intros A f d. apply nth_error_nth. rewrite nth_error_map', NE. reflexivity. }
  unfold stack_data in E3. rewrite G in E3. cbn [group_of g_stack_n g_stack_d g_all_from_stack] in E3. rewrite !NX in E3. rewrite seq_nth in E3 by lia. rewrite Nat.add_0_r in E3.
  destruct (coh_tmm _ _ _ _ _ _) as [c'|] eqn:Ec in E3; [|discriminate]. cbn [bind] in E3. destruct (coh_tmm_reverse _ _ _ _ _ _) as [b'|] eqn:Eb in E3; [|discriminate]. cbn [bind] in E3.
  apply Ok_inj in E3. injection E3 as <- <-. split; [exact Ec|]. split; [exact Eb|].
  rewrite (q_FB _ _ _ _ _ _ _ _ _ K), G. cbn [group_of g_inc_from_stack]. rewrite NX. unfold towards_stack, reaching_end, intensity, pass_of.
  destruct (Nat.eqb_spec k 0); cbn [Nat.eqb]; f_equal; [f_equal; f_equal; lia|apply Rmult_comm|f_equal; f_equal; lia].
Qed.

Lemma crossings_are k : (S k < M)%nat ->
  (layer_of D (S k) = S (layer_of D k) ->
     crossing_of D k = interface_crossing pol (nth (layer_of D k) ns C0) (Ccos (nth (layer_of D k) ths C0))
                                              (nth (S (layer_of D k)) ns C0) (Ccos (nth (S (layer_of D k)) ths C0))) /\
  (layer_of D (S k) <> S (layer_of D k) -> exists c b,
     let a := layer_of D k in let m := (layer_of D (S k) - a - 1)%nat in
     coh_tmm arcsin pol (map (fun i => nth i ns C0) (seq a (m + 2))) (PInf :: map (fun i => nth i ds NaN) (seq (S a) m) ++ [PInf]) (nth a ths C0) lam = Ok c /\
     coh_tmm_reverse arcsin pol (map (fun i => nth i ns C0) (seq a (m + 2))) (PInf :: map (fun i => nth i ds NaN) (seq (S a) m) ++ [PInf]) (nth a ths C0) lam = Ok b /\
     crossing_of D k = mkCross (c_R c) (c_T c) (c_R b) (c_T b)).
Proof.
  intros Hk. destruct runs as (ks & _ & G & LN & EM & LO & _). rewrite !LO by lia. rewrite pos_S by lia.
  pose proof (q_X _ _ _ _ _ _ _ _ _ K k Hk) as X. unfold crossing_at in X. rewrite (lookup ks) in X by (auto; lia).
  fold (layer_of D k) in X. rewrite LO in X by lia. split.
  - intros E. destruct (Nat.eqb_spec (nth k ks 0%nat) 0); [|lia]. inv_bind X. inv_bind X. inv_bind X. inv_bind X. apply Ok_inj in X. rewrite <- X.
    apply interface_R_is in E0. apply interface_T_is in E1 as (_ & _ & E1). apply interface_R_is in E2. apply interface_T_is in E3 as (_ & _ & E3).
    unfold interface_crossing. congruence.
  - intros E. destruct (Nat.eqb_spec (nth k ks 0%nat) 0); [lia|]. destruct (stack_lookup ks k G ltac:(lia) n) as (c & b & E1 & E2 & E3 & E4 & _).
    rewrite E1, E2 in X. apply Ok_inj in X. exists c, b. cbn zeta. replace (pos ks k + S (nth k ks 0%nat) - pos ks k - 1)%nat with (nth k ks 0%nat) by lia.
    split; [exact E3|]. split; [exact E4|]. symmetry. exact X.
Qed.

Lemma pass_is k : (0 < k)%nat -> (S k < M)%nat -> exists d, nth (layer_of D k) ds NaN = Fin d /\ lam <> 0 /\
  pass_of D k = Rmax (exp (- (4 * PI * Im (nth (layer_of D k) ns C0 * Ccos (nth (layer_of D k) ths C0))%C / lam * d))) (/ 10 ^ 30).
Proof.
  intros H1 H2. pose proof (q_P _ _ _ _ _ _ _ _ _ K k H1 H2) as P. unfold pass_through in P. fold (layer_of D k) in P.
  destruct (nth (layer_of D k) ds NaN) as [d| | |]; try discriminate. cbn [bind] in P. exists d. split; [reflexivity|].
  inv_bind P. apply rdiv_inv in E as (L & ->). split; [exact L|]. apply Ok_inj in P. rewrite <- P.
  replace (- (4 * PI * Im (nth (layer_of D k) ns C0 * Ccos (nth (layer_of D k) ths C0))%C / lam * d)) with (- 4 * PI * d * Im (nth (layer_of D k) ns C0 * Ccos (nth (layer_of D k) ths C0))%C / lam) by (field; exact L).
  unfold Rltb. destruct (Rlt_dec _ _); symmetry; [apply Rmax_right|apply Rmax_left]; lra.
Qed.

(** ** Absorption *)
Lemma entering_direct ks k : i_group D = group_of ns ds ks -> (k < length ks)%nat -> M = S (length ks) -> nth k ks 0%nat = 0%nat ->
  nth (S k) (i_entering D) 0 = x_Tf (crossing_of D k) * reaching_end D k - x_Tb (crossing_of D k) * snd (intensity D (S k)).
Proof.
  intros G Hk EM Z. pose proof (q_ent _ _ _ _ _ _ _ _ _ K (S k) ltac:(lia) ltac:(lia)) as X. unfold entering_at in X. rewrite (lookup ks) in X by auto. rewrite Z in X. cbn [Nat.eqb] in X.
  unfold reaching_end, intensity, pass_of, crossing_of. cbn [Nat.eqb]. replace (S k - 1)%nat with k in * by lia. destruct k as [|k]; cbn [Nat.eqb] in *.
  - apply Ok_inj in X. rewrite <- X. ring.
  - apply Ok_inj in X. rewrite <- X. replace (S (S k) - 2)%nat with k by lia. replace (S k - 1)%nat with k by lia. ring.
Qed.
Lemma entering_stack ks k c b : i_group D = group_of ns ds ks -> (k < length ks)%nat -> M = S (length ks) -> nth k ks 0%nat <> 0%nat ->
  nth_error (i_coh D) (cnt ks k) = Some c -> nth_error (i_bcoh D) (cnt ks k) = Some b ->
  nth (S k) (i_entering D) 0 = c_T c * reaching_end D k - c_entering b * snd (intensity D (S k)).
Proof.
  intros G Hk EM Z Ec Eb. pose proof (q_ent _ _ _ _ _ _ _ _ _ K (S k) ltac:(lia) ltac:(lia)) as X. unfold entering_at in X. rewrite (lookup ks) in X by auto.
  destruct (Nat.eqb_spec (nth k ks 0%nat) 0); [lia|]. rewrite Ec, Eb in X. destruct (stack_lookup ks k G Hk Z) as (c' & b' & _ & _ & _ & _ & F). rewrite F in X. cbn [fst snd] in X.
  apply Ok_inj in X. rewrite <- X. ring.
Qed.
Lemma entering_last : nth (M - 1) (i_entering D) 0 = i_T D.
Proof.
  destruct runs as (ks & _ & G & LN & EM & LO & _). pose proof (q_M _ _ _ _ _ _ _ _ _ K) as HM. set (k := (length ks - 1)%nat). replace (M - 1)%nat with (S k) by lia.
  destruct (flows_balance _ _ _ _ _ _ _ _ _ K) as (B & I0 & IL). replace (M - 1)%nat with (S k) in IL by lia.
  assert (T : i_T D = x_Tf (crossing_of D k) * reaching_end D k).
  { destruct (B k ltac:(lia)) as (bw & _ & Q & _). rewrite IL in Q. cbn [fst snd] in Q. rewrite Q. unfold reaching_end. rewrite I0. cbn [fst]. ring. }
  destruct (Nat.eq_dec (nth k ks 0%nat) 0) as [Z|Z].
  - rewrite (entering_direct ks) by (auto; lia). rewrite IL. cbn [snd]. rewrite T. ring.
  - destruct (stack_lookup ks k G ltac:(lia) Z) as (c & b & E1 & E2 & _). rewrite (entering_stack ks k c b) by (auto; lia). rewrite IL. cbn [snd]. rewrite T.
    pose proof (q_X _ _ _ _ _ _ _ _ _ K k ltac:(lia)) as X. unfold crossing_at in X. rewrite (lookup ks) in X by (auto; lia). destruct (Nat.eqb_spec (nth k ks 0%nat) 0); [lia|].
    rewrite E1, E2 in X. apply Ok_inj in X. rewrite <- X. cbn [x_Tf]. ring.
Qed.
End Calc.
