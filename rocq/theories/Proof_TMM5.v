From Coq Require Import Reals ZArith String List Bool Lra Lia Psatz.
From Verif Require Import Base PyVal Cplx CplxLemmas Model_TMM Spec_TMM Proof_TMM Proof_TMM2 Proof_TMM3 Proof_TMM4.
Import ListNotations.
Open Scope R_scope.

Section Arcsin.
Variable arcsin : C -> C.
Hypothesis arcsin_spec : forall z, Csin (arcsin z) = z.
Section Calc.
Variables (pol : string) (ns : list C) (ds : list pyfloat) (th0 : C) (lam : R) (D : coh_data).
Hypothesis K : calc arcsin pol ns ds th0 lam D.
Let N := length ns.
Let n i := nth i ns C0.
Let c i := Ccos (nth i (c_th D) C0).
Let wave i := if Nat.eqb i 0 then (C1, c_r D) else nth i (c_vw D) (C0, C0).
Let norm := Re (weight pol (n 0) (Ccos th0)).

Lemma pol_sp : pol = "s"%string \/ pol = "p"%string.
Proof.
  destruct (k_rt _ _ _ _ _ _ _ K) as (rt & Hrt & _).
  destruct (interfaces_spec _ _ _ _ (th_length arcsin _ _ _ _ _ _ K) Hrt) as (_ & F).
  assert (HN := k_N _ _ _ _ _ _ _ K). apply (F 0%nat). lia.
Qed.

Lemma c_0 : c 0 = Ccos th0.
Proof.
  unfold c. pose proof (list_snell_spec arcsin arcsin_spec _ _ _ (k_N _ _ _ _ _ _ _ K) (k_snell _ _ _ _ _ _ _ K)) as (_ & _ & _ & _ & _ & H & _).
  apply H. pose proof (k_fwd _ _ _ _ _ _ _ K) as F. apply is_forward_inv in F as (_ & F). symmetry. exact F.
Qed.
Lemma snell_all i : (i < N)%nat -> n i <> C0 /\ (n i * Csin (nth i (c_th D) C0))%C = (n 0 * Csin th0)%C.
Proof.
  pose proof (list_snell_spec arcsin arcsin_spec _ _ _ (k_N _ _ _ _ _ _ _ K) (k_snell _ _ _ _ _ _ _ K)) as (_ & H & _).
  apply H.
Qed.
Lemma snell_cos i s : (i < N)%nat -> (n 0 * Csin th0)%C = RtoC s -> (n i * n i * (c i * c i))%C = (n i * n i - RtoC (s * s))%C.
Proof.
  intros Hi Hs. destruct (snell_all i Hi) as (_ & H). rewrite Hs in H.
  replace (RtoC (s * s)) with (RtoC s * RtoC s)%C by (apply Ceq; simpl; ring). rewrite <- H.
  pose proof (Csin2_cos2 (nth i (c_th D) C0)) as Q. unfold c.
  transitivity (n i * n i * (Csin (nth i (c_th D) C0) * Csin (nth i (c_th D) C0) + Ccos (nth i (c_th D) C0) * Ccos (nth i (c_th D) C0))
     - n i * Csin (nth i (c_th D) C0) * (n i * Csin (nth i (c_th D) C0)))%C; [ring|].
  rewrite Q. ring.
Qed.
Lemma kz_is i : (i < N)%nat -> nth i (c_kz D) C0 = (RtoC (2 * PI / lam) * (n i * c i))%C.
Proof.
  intros Hi. rewrite (kz_nth arcsin _ _ _ _ _ _ K i Hi). unfold n, c, Cdiv.
  assert (Hl := k_lam _ _ _ _ _ _ _ K).
  replace (RtoC (2 * PI / lam)) with (RtoC (2 * PI) * / RtoC lam)%C; [ring|].
  assert (Hc : RtoC lam <> C0) by (intros Q; apply Hl; injection Q; auto).
  apply (Cmul_cancel (RtoC lam)); auto. transitivity (RtoC (2 * PI)); [field; exact Hc|].
  apply Ceq; simpl; field; exact Hl.
Qed.

Lemma wave_0 : wave 0 = (C1, c_r D).
Proof. reflexivity. Qed.
Lemma wave_nth i : (i < N)%nat -> wave i = nth i (waves_of (c_r D) (c_vw D)) (C0, C0).
Proof.
  intros Hi. unfold wave, waves_of. destruct i; simpl; auto.
  destruct (c_vw D); simpl; auto. destruct i; reflexivity.
Qed.
Lemma wave_last : wave (N - 1) = (c_t D, C0).
Proof.
  assert (HN := k_N _ _ _ _ _ _ _ K). fold N in HN. unfold wave. destruct (Nat.eqb_spec (N - 1) 0); [lia|].
  apply (coh_wave arcsin _ _ _ _ _ _ K).
Qed.
(** fields match at the interfaces *)
Definition leaving i := if Nat.eqb i 0 then wave 0 else advance (nth i (phases D) C0) (wave i).
Lemma match_interface i : (S i < N)%nat ->
  tangential pol (n i) (c i) (leaving i) = tangential pol (n (S i)) (c (S i)) (wave (S i)).
Proof.
  intros Hi. destruct (coh_wave arcsin _ _ _ _ _ _ K) as ((L & H) & _). specialize (H i Hi).
  rewrite !(cs_nth arcsin _ _ _ _ _ _ K) in H.
  fold N in H. destruct (Nat.ltb_spec i N); [|lia]. destruct (Nat.ltb_spec (S i) N); [|lia].
  rewrite <- !wave_nth in H by lia. exact H.
Qed.
Lemma power_interface i : (S i < N)%nat -> power pol (n i) (c i) (leaving i) = power pol (n (S i)) (c (S i)) (wave (S i)).
Proof. intros Hi. unfold power. rewrite (match_interface i Hi). reflexivity. Qed.

Lemma norm_neq : norm <> 0.
Proof.
  pose proof (k_T _ _ _ _ _ _ _ K) as H. unfold T_from_t in H. unfold norm, weight.
  destruct String.eqb.
  - inv_bind H. apply rdiv_inv in E as (E & _). exact E.
  - destruct String.eqb; [|discriminate]. inv_bind H. apply rdiv_inv in E as (E & _).
    intros Q. apply E. rewrite <- Q. fold (n 0). destruct (n 0), (Ccos th0). simpl. ring.
Qed.
Lemma Ok_inj {A} (a b : A) : Ok a = Ok b -> a = b.
Proof. congruence. Qed.
Lemma Cabs_sq z : Cabs (z * z)%C = Cnorm2 z.
Proof.
  unfold Cabs. rewrite Cnorm2_mul. apply sqrt_square. apply Cnorm2_ge0.
Qed.
Lemma c_T_power : c_T D = power pol (n (N - 1)) (c (N - 1)) (wave (N - 1)) / norm.
Proof.
  rewrite wave_last, power_closed. pose proof (k_T _ _ _ _ _ _ _ K) as H. unfold T_from_t in H. fold N in H. fold (n (N - 1)) (n 0) in H.
  fold (c (N - 1)) in H. unfold norm, weight. cbn [fst snd].
  replace (Cnorm2 C0) with 0 by (unfold Cnorm2; simpl; ring).
  replace (Im (c_t D * Cconj C0)%C) with 0 by (simpl; ring).
  destruct String.eqb.
  - inv_bind H. apply rdiv_inv in E as (E & ->). apply Ok_inj in H; rewrite <- H. rewrite Cabs_sq.
    field. exact E.
  - destruct String.eqb; [|discriminate]. inv_bind H. apply rdiv_inv in E as (E & ->). apply Ok_inj in H; rewrite <- H. rewrite Cabs_sq.
    replace (Re (Cconj (n (N - 1)) * c (N - 1))%C) with (Re (n (N - 1) * Cconj (c (N - 1)))%C) by (destruct (n (N - 1)), (c (N - 1)); simpl; ring).
    replace (Re (Cconj (n 0) * Ccos th0)%C) with (Re (n 0 * Cconj (Ccos th0))%C) by (destruct (n 0), (Ccos th0); simpl; ring).
    field. exact E.
Qed.
Lemma c_entering_power : c_entering D = power pol (n 0) (c 0) (wave 0) / norm.
Proof.
  rewrite wave_0, power_closed, c_0. pose proof (k_e _ _ _ _ _ _ _ K) as H. unfold power_entering_from_r in H. fold (n 0) in H.
  unfold norm, weight. cbn [fst snd].
  destruct String.eqb.
  - apply rdiv_inv in H as (E & ->). f_equal. destruct (n 0), (Ccos th0), (c_r D). unfold Cnorm2; simpl. ring.
  - destruct String.eqb; [|discriminate]. apply rdiv_inv in H as (E & ->).
    f_equal; destruct (n 0), (Ccos th0), (c_r D); unfold Cnorm2; simpl; ring.
Qed.

(** [position_resolved] *)
Lemma position_resolved_spec i z p : position_resolved i z D = Ok p ->
  (i < N)%nat /\ (if Nat.eqb i 0 then z <= 0 else 0 <= z /\ fle (Fin z) (nth i ds NaN) = true) /\
  let fb := advance (nth i (c_kz D) C0 * RtoC z)%C (wave i) in
  p_poyn p = power pol (n i) (c i) fb / norm /\
  p_absor p = loss_density pol (n i) (c i) (nth i (c_kz D) C0) fb / norm /\
  (p_Ex p, p_Ey p, p_Ez p) = (if String.eqb pol "s" then (C0, fst fb + snd fb, C0)
     else ((fst fb - snd fb) * c i, C0, - (fst fb + snd fb) * Csin (nth i (c_th D) C0)))%C.
Proof.
  unfold position_resolved. destruct (k_in _ _ _ _ _ _ _ K) as (-> & -> & -> & -> & _). intros H.
  inv_bind H. destruct a. apply ensure_inv, Nat.ltb_lt in E.
  inv_bind H. destruct a. apply ensure_inv in E0. split; [exact E|]. split.
  { destruct i as [|i]; simpl in E0 |- *.
    - destruct (Rleb z 0) eqn:Q; [|discriminate]. apply Rleb_true. exact Q.
    - rewrite orb_false_r in E0. apply andb_true_iff in E0 as (Q & Q'). apply Rleb_true in Q. auto. }
  set (k := nth i (c_kz D) C0) in *. 
  assert (Ev : (if Nat.ltb 0 i then fst (nth i (c_vw D) (C0, C0)) else C1) = fst (wave i)) by (unfold wave; destruct i; reflexivity).
  assert (Ew : (if Nat.ltb 0 i then snd (nth i (c_vw D) (C0, C0)) else c_r D) = snd (wave i)) by (unfold wave; destruct i; reflexivity).
  rewrite Ev, Ew in H. clear Ev Ew.
  replace (Ci * k * RtoC z)%C with (Ci * (k * RtoC z))%C in H by ring.
  replace (- Ci * k * RtoC z)%C with (- Ci * (k * RtoC z))%C in H by ring.
  set (fb := advance (k * RtoC z)%C (wave i)).
  change (fst (wave i) * Cexp (Ci * (k * RtoC z)))%C with (fst fb) in H.
  change (snd (wave i) * Cexp (- Ci * (k * RtoC z)))%C with (snd fb) in H.
  clearbody fb. fold (n i) (n 0) (c i) in H. rewrite power_closed. unfold loss_density.
  unfold norm, weight. destruct String.eqb.
  - inv_bind H. apply rdiv_inv in E1 as (E1 & ->). inv_bind H. apply rdiv_inv in E2 as (E2 & ->). apply Ok_inj in H; rewrite <- H. cbn [p_poyn p_absor p_Ex p_Ey p_Ez].
    split; [|split; [|reflexivity]].
    + f_equal. destruct (n i), (c i), fb as [[? ?] [? ?]]. unfold Cnorm2; simpl. ring.
    + f_equal. unfold k. rewrite (kz_is i E). unfold Cabs. rewrite pow2_sqrt by apply Cnorm2_ge0.
      destruct (n i), (c i), fb as [[? ?] [? ?]]. unfold Cnorm2; simpl. ring.
  - inv_bind H. apply rdiv_inv in E1 as (E1 & ->). inv_bind H. apply rdiv_inv in E2 as (E2 & ->). apply Ok_inj in H; rewrite <- H. cbn [p_poyn p_absor p_Ex p_Ey p_Ez].
    replace (Re (Cconj (n 0) * Ccos th0)%C) with (Re (n 0 * Cconj (Ccos th0))%C) by (destruct (n 0), (Ccos th0); simpl; ring).
    split; [|split].
    + f_equal. destruct (n i), (c i), fb as [[? ?] [? ?]]. unfold Cnorm2; simpl. ring.
    + f_equal. unfold Cabs. rewrite !pow2_sqrt by apply Cnorm2_ge0.
      destruct k, (n i), (c i), fb as [[? ?] [? ?]]. unfold Cnorm2; simpl. ring.
    + f_equal. destruct fb as [[? ?] [? ?]]. apply Ceq; simpl; ring.
Qed.
Lemma position_resolved_ok i z : (i < N)%nat -> (if Nat.eqb i 0 then z <= 0 else 0 <= z /\ fle (Fin z) (nth i ds NaN) = true) ->
  exists p, position_resolved i z D = Ok p.
Proof.
  intros Hi Hz. unfold position_resolved. destruct (k_in _ _ _ _ _ _ _ K) as (-> & -> & -> & -> & _).
  assert (E : Nat.ltb i (length ns) = true) by (apply Nat.ltb_lt; exact Hi). rewrite E. cbn [bind ensure].
  assert (E0 : (Nat.leb 1 i && (Rleb 0 z && fle (Fin z) (nth i ds NaN)) || Nat.eqb i 0 && Rleb z 0)%bool = true).
  { destruct i as [|i]; simpl in Hz |- *.
    - apply Rleb_true. exact Hz.
    - destruct Hz as (Hz & ->). apply Rleb_true in Hz. rewrite Hz. reflexivity. }
  rewrite E0. cbn [bind ensure].
  pose proof norm_neq as Q. unfold norm, weight in Q. fold (n 0).
  destruct String.eqb.
  - rewrite !rdiv_ok by exact Q. cbn [bind]. eexists. reflexivity.
  - replace (Re (Cconj (n 0) * Ccos th0)%C) with (Re (n 0 * Cconj (Ccos th0))%C) in Q by (destruct (n 0), (Ccos th0); simpl; ring).
    rewrite !rdiv_ok by exact Q. cbn [bind]. eexists. reflexivity.
Qed.

(** ** Absorption in each layer *)
Lemma drops_length l : length (drops l) = (length l - 1)%nat.
Proof. induction l as [|a [|b l] IH]; simpl in *; auto. rewrite IH. lia. Qed.
Lemma drops_nth l i : (S i < length l)%nat -> nth i (drops l) 0 = nth i l 0 - nth (S i) l 0.
Proof.
  revert i; induction l as [|a l IH]; intros i Hi; [simpl in Hi; lia|].
  destruct l as [|b l]; [simpl in Hi; lia|].
  destruct i as [|i]; [reflexivity|]. change (drops (a :: b :: l)) with ((a - b) :: drops (b :: l)).
  change (nth (S i) ((a - b) :: drops (b :: l)) 0) with (nth i (drops (b :: l)) 0).
  rewrite IH by (simpl in *; lia). reflexivity.
Qed.
Lemma last_indep {A} (l : list A) x a b : last (x :: l) a = last (x :: l) b.
Proof. revert x; induction l as [|y l IH]; intros x; [reflexivity|]. apply (IH y). Qed.
Lemma drops_total a l : total (drops (a :: l)) = a - last l a.
Proof.
  revert a; induction l as [|b l IH]; intros a; [simpl; ring|].
  change (total (drops (a :: b :: l))) with ((a - b) + total (drops (b :: l))). rewrite IH.
  destruct l as [|x l]; [simpl; ring|]. change (last (b :: x :: l) a) with (last (x :: l) a).
  rewrite (last_indep l x b a). ring.
Qed.
Lemma poynting_starts l : (forall i, In i l -> (0 < i < N)%nat) -> (forall i, In i l -> fle (Fin 0) (nth i ds NaN) = true) ->
  poynting_at_starts D l = Ok (map (fun i => power pol (n i) (c i) (wave i) / norm) l).
Proof.
  induction l as [|i l IH]; intros H1 H2; [reflexivity|]. simpl.
  destruct (H1 i (or_introl eq_refl)) as (Hi & HiN).
  destruct (position_resolved_ok i 0 HiN) as (p & Hp).
  { destruct (Nat.eqb_spec i 0); [lia|]. split; [lra|]. apply H2. left. reflexivity. }
  rewrite Hp. destruct (position_resolved_spec _ _ _ Hp) as (_ & _ & E & _). rewrite advance_0 in E. cbn [bind].
  rewrite IH by (intros; first [apply H1|apply H2]; right; auto). cbn [bind]. rewrite E. reflexivity.
Qed.
Let P i := power pol (n i) (c i) (wave i) / norm.
Lemma absorp_list : (forall i, (1 < i)%nat -> (S i < N)%nat -> fle (Fin 0) (nth i ds NaN) = true) ->
  absorp_in_each_layer D = Ok (drops (1 :: map P (seq 1 (N - 1))) ++ [c_T D])%list.
Proof.
  intros Hd. unfold absorp_in_each_layer. destruct (k_in _ _ _ _ _ _ _ K) as (_ & _ & -> & _ & _).
  rewrite (k_ds _ _ _ _ _ _ _ K). fold N. assert (HN := k_N _ _ _ _ _ _ _ K). fold N in HN.
  rewrite poynting_starts.
  2:{ intros i Hi. apply in_seq in Hi. lia. }
  2:{ intros i Hi. apply in_seq in Hi. apply Hd; lia. }
  cbn [bind]. f_equal. f_equal. f_equal. cbn [app]. f_equal.
  assert (ET : c_T D = P (N - 1)) by (rewrite c_T_power; reflexivity).
  assert (E0 : c_entering D = P 1).
  { rewrite c_entering_power. unfold P. f_equal. apply (power_interface 0). lia. }
  rewrite ET, E0. fold P.
  destruct N as [|[|[|m]]]; try lia.
  - reflexivity.
  - replace (S (S (S m)) - 3)%nat with m by lia. replace (S (S (S m)) - 1)%nat with (S (S m)) by lia.
    cbn [Nat.ltb Nat.leb app]. change (seq 1 (S (S m))) with (1%nat :: seq 2 (S m)). rewrite seq_S, map_cons, map_app. reflexivity.
Qed.
Lemma absorp_entries : (forall i, (1 < i)%nat -> (S i < N)%nat -> fle (Fin 0) (nth i ds NaN) = true) ->
  exists l, absorp_in_each_layer D = Ok l /\ length l = N /\ total l = 1 /\
    nth 0 l 0 = 1 - c_entering D /\ nth (N - 1) l 0 = c_T D /\
    forall i, (0 < i)%nat -> (S i < N)%nat ->
      nth i l 0 = (power pol (n i) (c i) (wave i) - power pol (n i) (c i) (leaving i)) / norm.
Proof.
  intros Hd. eexists. split; [apply absorp_list; exact Hd|].
  assert (HN := k_N _ _ _ _ _ _ _ K). fold N in HN.
  assert (LD : length (drops (1 :: map P (seq 1 (N - 1)))) = (N - 1)%nat).
  { rewrite drops_length. simpl. rewrite map_length, seq_length. lia. }
  assert (E0 : c_entering D = P 1).
  { rewrite c_entering_power. unfold P. f_equal. apply (power_interface 0). lia. }
  assert (ET : c_T D = P (N - 1)) by (rewrite c_T_power; reflexivity).
  assert (Pn : forall i, (0 < i < N)%nat -> nth i (1 :: map P (seq 1 (N - 1))) 0 = P i).
  { intros i Hi. destruct i as [|i]; [lia|]. simpl. rewrite (nth_indep _ _ (P 0)) by (rewrite map_length, seq_length; lia).
    rewrite map_nth, seq_nth by lia. reflexivity. }
  split; [rewrite app_length, LD; simpl; lia|]. split.
  { assert (TA : forall a b, total (a ++ b)%list = total a + total b) by (induction a; simpl; intros; [ring|rewrite IHa; ring]).
    rewrite TA, drops_total. simpl. rewrite ET. 
    replace (seq 1 (N - 1)) with (seq 1 (N - 2) ++ [(N - 1)%nat])%list.
    2:{ replace (N - 1)%nat with (S (N - 2)) at 2 by lia. rewrite seq_S. f_equal. f_equal. lia. }
    rewrite map_app. change (map P [(N - 1)%nat]) with [P (N - 1)%nat]. rewrite last_last. ring. }
  split.
  { rewrite app_nth1 by lia. rewrite drops_nth by (simpl; rewrite map_length, seq_length; lia).
    rewrite (Pn 1%nat) by lia. rewrite E0. reflexivity. }
  split.
  { rewrite app_nth2 by lia. rewrite LD. replace (N - 1 - (N - 1))%nat with 0%nat by lia. reflexivity. }
  intros i Hi1 Hi2. rewrite app_nth1 by lia. rewrite drops_nth by (simpl; rewrite map_length, seq_length; lia).
  rewrite !Pn by lia. unfold P. rewrite (power_interface i) by lia. field. apply norm_neq.
Qed.

(** ** Passive stacks *)
Section Passive.
Variable s : R.
Hypothesis real_s : (n 0 * Csin th0)%C = RtoC s.
Hypothesis lam_pos : 0 < lam.
Hypothesis not_opaque : no_opaque_layer D.
Hypothesis thick : forall i, (0 < i)%nat -> (S i < N)%nat -> 0 <= thickness (nth i ds NaN).

Lemma leaving_is i : (0 < i)%nat -> (S i < N)%nat ->
  leaving i = advance (RtoC (2 * PI / lam) * (n i * c i) * RtoC (thickness (nth i ds NaN)))%C (wave i).
Proof.
  intros H1 H2. unfold leaving. destruct (Nat.eqb_spec i 0); [lia|]. f_equal.
  rewrite (phases_nth arcsin _ _ _ _ _ _ K) by (fold N; lia). unfold phase_of.
  assert (Q := not_opaque i). destruct (k_in _ _ _ _ _ _ _ K) as (_ & E1 & E2 & _ & _). rewrite E1, E2 in Q.
  specialize (Q H1 H2). destruct (Rltb 35 _) eqn:E; [apply Rltb_true in E; lra|].
  rewrite kz_is by lia. reflexivity.
Qed.
Lemma K_pos : 0 <= 2 * PI / lam.
Proof. pose proof PI_RGT_0. left. apply Rdiv_lt_0_compat; lra. Qed.
Lemma layer_loss i : (0 < i)%nat -> (S i < N)%nat -> passive (n i) ->
  power pol (n i) (c i) (leaving i) <= power pol (n i) (c i) (wave i).
Proof.
  intros H1 H2 HP. rewrite leaving_is by auto. apply (power_drop_nonneg _ _ _ s); auto using K_pos.
  - apply snell_all. lia.
  - apply snell_cos; [lia|exact real_s].
Qed.
Lemma layer_lossless i : (0 < i)%nat -> (S i < N)%nat -> lossless (n i) ->
  power pol (n i) (c i) (leaving i) = power pol (n i) (c i) (wave i).
Proof.
  intros H1 H2 HP. rewrite leaving_is by auto. apply (power_drop_zero _ _ _ s); auto.
  - apply snell_all. lia.
  - apply snell_cos; [lia|exact real_s].
Qed.
Lemma chain_le : (forall i, (0 < i)%nat -> (S i < N)%nat -> passive (n i)) ->
  power pol (n (N - 1)) (c (N - 1)) (wave (N - 1)) <= power pol (n 0) (c 0) (wave 0).
Proof.
  intros HP. assert (HN := k_N _ _ _ _ _ _ _ K). fold N in HN.
  assert (Q : forall m, (S m < N)%nat -> power pol (n (S m)) (c (S m)) (wave (S m)) <= power pol (n 0) (c 0) (wave 0)).
  { induction m as [|m IH]; intros Hm.
    - rewrite <- (power_interface 0) by lia. apply Rle_refl.
    - rewrite <- (power_interface (S m)) by lia. eapply Rle_trans; [apply layer_loss; try lia; apply HP; lia|apply IH; lia]. }
  replace (N - 1)%nat with (S (N - 2)) by lia. apply Q. lia.
Qed.
Lemma chain_eq : (forall i, (0 < i)%nat -> (S i < N)%nat -> lossless (n i)) ->
  power pol (n (N - 1)) (c (N - 1)) (wave (N - 1)) = power pol (n 0) (c 0) (wave 0).
Proof.
  intros HP. assert (HN := k_N _ _ _ _ _ _ _ K). fold N in HN.
  assert (Q : forall m, (S m < N)%nat -> power pol (n (S m)) (c (S m)) (wave (S m)) = power pol (n 0) (c 0) (wave 0)).
  { induction m as [|m IH]; intros Hm.
    - rewrite <- (power_interface 0) by lia. reflexivity.
    - rewrite <- (power_interface (S m)) by lia. rewrite layer_lossless by (try lia; apply HP; lia). apply IH; lia. }
  replace (N - 1)%nat with (S (N - 2)) by lia. apply Q. lia.
Qed.

(** the last medium carries power away *)
Lemma forward_weight nn cc : nn <> C0 -> passive nn -> (nn * nn * (cc * cc))%C = (nn * nn - RtoC (s * s))%C ->
  0 <= Re (nn * cc)%C -> 0 <= Re (weight pol nn cc).
Proof.
  intros Hn HP H Hr. 
  unfold weight. destruct String.eqb; [exact Hr|].
  assert (Hp : 0 < Cnorm2 nn) by (apply Cnorm2_pos; exact Hn).
  assert (E : Cnorm2 nn * Re (Cconj nn * cc)%C = Re (nn * cc)%C * (Cnorm2 (nn * cc)%C + s * s)).
  { assert (ER := f_equal Re H). assert (EI := f_equal Im H). destruct nn as [a b], cc as [u v]. unfold Cnorm2. simpl in *.
    transitivity ((a * u - b * v) * (a * a - b * b) + (a * v + b * u) * (a * b + b * a)); [ring|].
    replace (a * b + b * a) with ((a * b + b * a) * (u * u - v * v) + (a * a - b * b) * (u * v + v * u)) by lra.
    replace (a * a - b * b) with ((a * a - b * b) * (u * u - v * v) - (a * b + b * a) * (u * v + v * u) + s * s) at 1 by lra.
    ring. }
  pose proof (Cnorm2_ge0 (nn * cc)%C). assert (0 <= Cnorm2 nn * Re (Cconj nn * cc)%C) by (rewrite E; apply Rmult_le_pos; nra).
  nra.
Qed.
Lemma last_q : 0 <= Re (n (N - 1) * c (N - 1))%C.
Proof.
  assert (HN := k_N _ _ _ _ _ _ _ K). fold N in HN.
  assert (Hi : (N - 1 < N)%nat) by lia. pose proof (snell_cos (N - 1) s Hi real_s) as H.
  pose proof (list_snell_spec arcsin arcsin_spec _ _ _ (k_N _ _ _ _ _ _ _ K) (k_snell _ _ _ _ _ _ _ K)) as (_ & _ & _ & _ & HP & _ & La).
  cbv zeta in La. fold N in La, HP. fold (n (N - 1)) in La, HP. set (g := arcsin (nth 0 ns C0 * Csin th0 / n (N - 1))%C) in *.
  unfold c in *. rewrite La in *.
  assert (Pq : 0 <= Re (n (N - 1) * Ccos g)%C * Im (n (N - 1) * Ccos g)%C).
  { assert (H' : (n (N - 1) * n (N - 1) * (Ccos g * Ccos g))%C = (n (N - 1) * n (N - 1) - RtoC (s * s))%C).
    { rewrite <- H. match goal with |- context [if ?b then _ else _] => destruct b end; [reflexivity|]. rewrite Ccos_pi_minus. ring. }
    assert (E := f_equal Im H'). unfold passive in HP. destruct (n (N - 1)) as [a b], (Ccos g) as [u v]. simpl in *. nra. }
  destruct (forwards (n (N - 1) * Ccos g)%C) eqn:F; unfold forwards in F; pose proof EPSILON_pos as EP.
  - destruct (Rltb (100 * EPSILON) _); apply Rltb_true in F; nra.
  - rewrite Ccos_pi_minus. replace (n (N - 1) * - Ccos g)%C with (- (n (N - 1) * Ccos g))%C by ring.
    change (0 <= - Re (n (N - 1) * Ccos g)%C).
    destruct (Rltb (100 * EPSILON) _) eqn:F2; apply Rltb_false in F; [|lra].
    apply Rltb_true in F2. rewrite Rabs_left1 in F2 by exact F. nra.
Qed.
Lemma last_forward_weight : 0 <= power pol (n (N - 1)) (c (N - 1)) (wave (N - 1)).
Proof.
  pose proof last_q as F. rewrite wave_last, power_closed. cbn [fst snd].
  replace (Cnorm2 C0) with 0 by (unfold Cnorm2; simpl; ring).
  replace (Im (c_t D * Cconj C0)%C) with 0 by (simpl; ring).
  assert (HN := k_N _ _ _ _ _ _ _ K). fold N in HN.
  assert (0 <= Re (weight pol (n (N - 1)) (c (N - 1)))).
  { apply forward_weight; auto.
    - apply snell_all. lia.
    - pose proof (list_snell_spec arcsin arcsin_spec _ _ _ (k_N _ _ _ _ _ _ _ K) (k_snell _ _ _ _ _ _ _ K)) as (_ & _ & _ & _ & Q & _). exact Q.
    - apply snell_cos; [lia|exact real_s]. }
  pose proof (Cnorm2_ge0 (c_t D)). nra.
Qed.
End Passive.
End Calc.
End Arcsin.
