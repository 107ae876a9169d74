From Coq Require Import Reals ZArith String List Bool Lra Lia Psatz.
From Verif Require Import Base BaseLemmas PyVal Model_Training Spec_Training.
Import ListNotations.
Open Scope R_scope.

Lemma lastn_all {A} k (l : list A) : (length l <= k)%nat -> lastn k l = l.
Proof. intros. unfold lastn. replace (length l - k)%nat with 0%nat by lia. auto. Qed.
Lemma lastn_length {A} k (l : list A) : length (lastn k l) = Nat.min k (length l).
Proof. unfold lastn. rewrite skipn_length. lia. Qed.
Lemma skipn_tl {A} n (l : list A) : tl (skipn n l) = skipn (S n) l.
Proof. revert l; induction n; intros [|x l]; simpl; auto. rewrite IHn. destruct l; auto. Qed.
Lemma deque_lastn l x : deque_append (lastn 20 l) x = lastn 20 (l ++ [x]).
Proof.
  unfold deque_append. destruct (le_lt_dec (length l) 20) as [H|H].
  - rewrite (lastn_all 20 l) by auto. destruct (Nat.ltb_spec 20 (length (l ++ [x]))) as [H'|H'].
    + rewrite app_length in H'; simpl in H'. assert (E : length l = 20%nat) by lia.
      unfold lastn. rewrite app_length, E. simpl (20 + length [x] - 20)%nat. destruct l; simpl in *; try discriminate. auto.
    + rewrite lastn_all; auto.
  - assert (E : lastn 20 l ++ [x] = skipn (length l - 20) (l ++ [x])).
    { unfold lastn. rewrite skipn_app. replace (length l - 20 - length l)%nat with 0%nat by lia. auto. }
    rewrite E. rewrite skipn_length, app_length. simpl length.
    destruct (Nat.ltb_spec 20 (length l + 1 - (length l - 20))); [|lia].
    rewrite skipn_tl. unfold lastn. rewrite app_length. simpl length. f_equal. lia.
Qed.

Lemma losses_S out n : losses out (S n) = losses out n ++ match out n with Done l _ _ => [l] | _ => [] end.
Proof. unfold losses. rewrite seq_S, flat_map_app. simpl. rewrite app_nil_r. auto. Qed.
Lemma l1s_S out n : l1s out (S n) = l1s out n ++ match out n with Done _ l _ => [l] | _ => [] end.
Proof. unfold l1s. rewrite seq_S, flat_map_app. simpl. rewrite app_nil_r. auto. Qed.
Lemma errors_S out n : errors out (S n) = (errors out n + match out n with SpectrumValueError => 1 | _ => 0 end)%nat.
Proof. unfold errors. rewrite seq_S, filter_app, app_length. simpl. destruct (out n); auto. Qed.
Lemma errors_losses out n : (forall k e, (k < n)%nat -> out k <> Raised e) ->
  (length (losses out n) + errors out n = n)%nat.
Proof.
  induction n; intros H; auto. rewrite losses_S, errors_S, app_length.
  specialize (IHn ltac:(intros; apply H; lia)). specialize (H n).
  destruct (out n) eqn:E; simpl; try lia. exfalso. eapply H; eauto.
Qed.
Lemma in_losses out n l : In l (losses out n) <-> exists k l1 rn, (k < n)%nat /\ out k = Done l l1 rn.
Proof.
  unfold losses. rewrite in_flat_map. split.
  - intros (k & Hk & H). apply in_seq in Hk. destruct (out k) eqn:E; simpl in H; try tauto.
    destruct H as [<-|[]]. exists k, l1, renormalized. split; auto; lia.
  - intros (k & l1 & rn & Hk & E). exists k. split; [apply in_seq; lia|]. rewrite E; simpl; auto.
Qed.

(** running minimum *)
Definition best_of (ls : list pyfloat) := fold_left (fun b l => if flt l b then l else b) ls PInf.
Lemma best_of_app ls l : best_of (ls ++ [l]) = if flt l (best_of ls) then l else best_of ls.
Proof. unfold best_of. rewrite fold_left_app. auto. Qed.
Lemma flt_trans a b c : flt a b = true -> flt b c = true -> flt a c = true.
Proof.
  destruct a, b, c; simpl; auto; try discriminate.
  unfold Rltb; destruct (Rlt_dec r r0), (Rlt_dec r0 r1), (Rlt_dec r r1); auto; try discriminate; lra.
Qed.
Lemma flt_nan_r a : flt a NaN = false. Proof. destruct a; auto. Qed.
Lemma best_of_spec ls :
  (best_of ls = PInf \/ In (best_of ls) ls /\ flt (best_of ls) PInf = true) /\
  best_of ls <> NaN /\
  (forall l, flt l (best_of ls) = true <-> flt l PInf = true /\ forall l', In l' ls -> l' = NaN \/ flt l l' = true).
Proof.
  induction ls as [|x ls IH] using rev_ind.
  - simpl. split; [auto|]. split; [discriminate|]. intros l. unfold best_of; simpl. split; [intros; split; auto; tauto|tauto].
  - rewrite best_of_app. destruct IH as (I1 & I2 & I3).
    destruct (flt x (best_of ls)) eqn:E.
    + assert (Xi : flt x PInf = true) by (apply I3; auto).
      split; [right; split; auto; apply in_or_app; simpl; auto|].
      split. { intros ->. discriminate. }
      intros l. split.
      * intros Hl. split; [eapply flt_trans; eauto|]. intros l' Hl'. apply in_app_or in Hl'.
        destruct Hl' as [Hl'|[<-|[]]]; auto. apply I3 in E. destruct E as (_ & E). destruct (E l' Hl'); auto.
        right. eapply flt_trans; eauto.
      * intros [_ H]. destruct (H x ltac:(apply in_or_app; simpl; auto)); auto. subst; discriminate.
    + split. { destruct I1 as [I1|[I1 I1']]; auto. right; split; auto; apply in_or_app; auto. }
      split; auto. intros l. rewrite I3. split.
      * intros [H1 H2]. split; auto. intros l' Hl'. apply in_app_or in Hl'. destruct Hl' as [Hl'|[<-|[]]]; auto.
        assert (Hb : flt l (best_of ls) = true) by (apply I3; auto).
        destruct x as [x| | |], (best_of ls) as [b| | |], l as [l| | |]; simpl in *; auto; try discriminate; try congruence.
        right. unfold Rltb in *; destruct (Rlt_dec x b), (Rlt_dec l b), (Rlt_dec l x); auto; try discriminate; lra.
      * intros [H1 H2]. split; auto. intros l' Hl'. apply H2. apply in_or_app; auto.
Qed.

Section Run.
Context {W O : Type}.
Variable evaluate : nat -> W -> outcome.
Variable adam : nat -> W -> O -> R -> W * O.
Variables (w0 : W) (o0 : O) (lr0 : R).

Definition st k := iterations evaluate adam k (initial_state w0 o0 lr0).
Definition wsf k := match st k with Ok s => s_weights s | Err _ => w0 end.
Definition lrf k := match st k with Ok s => s_lr s | Err _ => 0 end.
Definition outf k := evaluate k (wsf k).

Lemma st_S k : st (S k) = let! s := st k in iteration evaluate adam k s.
Proof. reflexivity. Qed.
Lemma st_ok_le n s k : st n = Ok s -> (k <= n)%nat -> exists s', st k = Ok s'.
Proof.
  revert s. induction n; intros s H Hk.
  - assert (k = 0)%nat by lia. subst. eauto.
  - destruct (Nat.eq_dec k (S n)) as [->|]; [eauto|].
    rewrite st_S in H. destruct (st n) as [s1|] eqn:E; [|discriminate]. apply (IHn s1); auto; lia.
Qed.
Lemma st_inv n s : st (S n) = Ok s -> exists s', st n = Ok s' /\ wsf n = s_weights s' /\ lrf n = s_lr s' /\
  iteration evaluate adam n s' = Ok s.
Proof.
  rewrite st_S. unfold wsf, lrf. destruct (st n) as [s'|]; [|discriminate]. simpl. intros. exists s'. auto.
Qed.

(** unrenormalised records and the stored state *)
Definition stored (out : nat -> outcome) n k := (k < n)%nat /\ (exists l, record_at out k l) /\ ~ renormalised_at out k.

Record inv (n : nat) (s : tstate W O) : Prop := {
  i_ok : forall k e, (k < n)%nat -> outf k <> Raised e;
  i_loss : s_loss_log s = losses outf n;
  i_l1 : s_l1_log s = l1s outf n;
  i_win : s_window s = lastn 20 (losses outf n);
  i_wavg : s_wavg_log s = map (fun i => fmean (lastn 20 (firstn (S i) (losses outf n)))) (seq 0 (length (losses outf n)));
  i_best : s_best_loss s = best_of (losses outf n);
  i_state : (s_best_state s = None /\ (forall k, ~ stored outf n k)) \/
            exists k, s_best_state s = Some (wsf k) /\ stored outf n k /\ forall j, stored outf n j -> (j <= k)%nat;
  i_bad : (pl_bad (s_plateau s) <= length (losses outf n))%nat }.

Lemma stored_S out n : forall k, stored out (S n) k <-> stored out n k \/ (k = n /\ stored out (S n) n).
Proof.
  intros k. unfold stored. split.
  - intros (H1 & H2 & H3). destruct (Nat.eq_dec k n) as [->|]; [right; auto|left; repeat split; auto; lia].
  - intros [(H1 & H2 & H3)|[-> H]]; auto.
Qed.
Lemma stored_new out n : stored out (S n) n <->
  exists l l1, out n = Done l l1 false /\ flt l (best_of (losses out n)) = true.
Proof.
  unfold stored. destruct (best_of_spec (losses out n)) as (_ & _ & B). split.
  - intros (_ & (l & (l1 & rn & E) & F & G) & NR). destruct rn.
    + exfalso. apply NR. exists l, l1; auto.
    + exists l, l1. split; auto. apply B. split; auto. intros l' Hl'. apply in_losses in Hl'.
      destruct Hl' as (k & l1' & rn' & Hk & E'). eapply G; eauto.
  - intros (l & l1 & E & F). split; [lia|]. apply B in F. destruct F as [F1 F2]. split.
    + exists l. split; [eauto|]. split; auto. intros j l' l1' rn' Hj Ej. apply F2. apply in_losses. eauto 6.
    + intros (l' & l1' & E'). congruence.
Qed.

Lemma plateau_bad p lr m : (pl_bad (fst (plateau_step p lr m)) <= S (pl_bad p))%nat.
Proof.
  unfold plateau_step. destruct (flt m _); destruct (Nat.ltb _ _); simpl; lia.
Qed.

Lemma inv_holds n s : st n = Ok s -> inv n s.
Proof.
  revert s. induction n; intros s H.
  - unfold st in H. simpl in H. inversion H; subst.
    constructor; simpl; auto; try (intros; lia).
    left. split; auto. intros k (Hk & _). lia.
  - apply st_inv in H. destruct H as (s' & Hs & Hw & Hlr & Hit). destruct (IHn s' Hs) as [A1 A2 A3 A4 A5 A6 A7 A8].
    unfold iteration in Hit. fold (outf n) in *. assert (Ho : evaluate n (s_weights s') = outf n) by (unfold outf; rewrite Hw; auto).
    rewrite Ho in Hit. destruct (outf n) as [e| |loss l1 rn] eqn:E; [discriminate| |].
    + inversion Hit; subst s; clear Hit. constructor; simpl; rewrite ?losses_S, ?l1s_S, ?E, ?app_nil_r; auto.
      * intros k e Hk. destruct (Nat.eq_dec k n) as [->|]; [congruence|apply A1; lia].
      * assert (NS : ~ stored outf (S n) n). { rewrite stored_new. intros (l & l1 & E' & _). congruence. }
        destruct A7 as [[B1 B2]|(k & B1 & B2 & B3)].
        -- left. split; auto. intros k Hk. apply stored_S in Hk. destruct Hk as [Hk|[-> Hk]]; [eapply B2; eauto|auto].
        -- right. exists k. split; auto. split; [apply stored_S; auto|].
           intros j Hj. apply stored_S in Hj. destruct Hj as [Hj|[-> Hj]]; [apply B3; auto|contradiction].
    + destruct (adam n (s_weights s') (s_opt s') (s_lr s')) as [w' o'] eqn:EA.
      destruct (plateau_step (s_plateau s') (s_lr s') loss) as [p' lr'] eqn:EP.
      inversion Hit; subst s; clear Hit.
      assert (LS : losses outf (S n) = losses outf n ++ [loss]) by (rewrite losses_S, E; auto).
      assert (LS1 : l1s outf (S n) = l1s outf n ++ [l1]) by (rewrite l1s_S, E; auto).
      constructor; simpl s_loss_log; simpl s_l1_log; simpl s_window; simpl s_wavg_log; simpl s_best_loss;
        simpl s_best_state; simpl s_plateau; rewrite ?LS, ?LS1.
      * intros k e Hk. destruct (Nat.eq_dec k n) as [->|]; [congruence|apply A1; lia].
      * rewrite A2; auto.
      * rewrite A3; auto.
      * rewrite A4. apply deque_lastn.
      * rewrite app_length. simpl length. rewrite Nat.add_1_r, seq_S, map_app. cbn [map]. rewrite A5, A4, deque_lastn. f_equal.
        -- apply map_ext_in. intros i Hi. apply in_seq in Hi. rewrite firstn_app.
           replace (S i - length (losses outf n))%nat with 0%nat by lia. simpl (firstn 0 _). rewrite app_nil_r. auto.
        -- f_equal. f_equal. f_equal. symmetry. apply firstn_all2. rewrite app_length; simpl; lia.
      * rewrite A6, best_of_app. auto.
      * rewrite A6. destruct (flt loss (best_of (losses outf n))) eqn:EB; destruct rn; simpl.
        1, 3, 4 : (assert (NS : ~ stored outf (S n) n) by
          (rewrite stored_new; intros (l & l1' & E' & E''); congruence);
          destruct A7 as [[B1 B2]|(k & B1 & B2 & B3)];
          [ left; split; auto; intros k Hk; apply stored_S in Hk; destruct Hk as [Hk|[-> Hk]]; [eapply B2; eauto|auto]
          | right; exists k; split; auto; split; [apply stored_S; auto|];
            intros j Hj; apply stored_S in Hj; destruct Hj as [Hj|[-> Hj]]; [apply B3; auto|contradiction] ]).
        right. exists n. rewrite <- Hw. split; auto. split.
        -- apply stored_new. eauto.
        -- intros j (Hj & _). lia.
      * rewrite app_length. simpl length. pose proof (plateau_bad (s_plateau s') (s_lr s') loss) as Hb. rewrite EP in Hb. simpl in Hb. lia.
Qed.

Lemma history_holds n s : st n = Ok s -> history evaluate adam w0 lr0 n wsf outf lrf.
Proof.
  intros H. constructor; auto.
  - apply (i_ok n s (inv_holds n s H)).
  - intros k l l1 rn Hk E. destruct (st_ok_le n s (S k) H ltac:(lia)) as (s2 & H2).
    destruct (st_inv k s2 H2) as (s1 & H1 & Hw & Hlr & Hit). unfold iteration in Hit.
    assert (Ho : evaluate k (s_weights s1) = outf k) by (unfold outf; rewrite Hw; auto).
    rewrite Ho, E in Hit. destruct (adam k (s_weights s1) (s_opt s1) (s_lr s1)) as [w' o'] eqn:EA.
    destruct (plateau_step _ _ _). inversion Hit; subst s2. exists (s_opt s1), o'. rewrite Hw, Hlr, EA.
    f_equal. unfold wsf. rewrite H2. auto.
Qed.

Lemma run_inv n w logs : run_training evaluate adam n w0 o0 lr0 = Ok (w, logs) ->
  exists s, st n = Ok s /\ w = load_best s /\ logs = (s_loss_log s, s_wavg_log s, s_l1_log s).
Proof.
  unfold run_training. fold (st n). destruct (st n) as [s|]; [|discriminate]. simpl. intros E. inversion E; subst. eauto.
Qed.

Lemma wsf_n n s : st n = Ok s -> wsf n = s_weights s.
Proof. intros H; unfold wsf; rewrite H; auto. Qed.
Lemma lrf_n n s : st n = Ok s -> lrf n = s_lr s.
Proof. intros H; unfold lrf; rewrite H; auto. Qed.

(** learning rate *)
Lemma plateau_lr p lr m : 0 < lr -> let lr' := snd (plateau_step p lr m) in
  0 < lr' /\ lr' <= lr /\ Rmin lr MIN_LR <= lr' /\ ((pl_bad p < 500)%nat -> lr' = lr) /\
  (lr' = lr \/ lr' = Rmax (lr * FACTOR) MIN_LR).
Proof.
  intros Hl. unfold plateau_step, PATIENCE. assert (HM : 0 < MIN_LR) by (unfold MIN_LR; lra).
  set (bad := if flt _ _ then 0%nat else S (pl_bad p)).
  assert (Hb : (bad <= S (pl_bad p))%nat) by (unfold bad; destruct (flt _ _); lia).
  destruct (Nat.ltb_spec 500 bad); cbv zeta; simpl.
  - destruct (Rlt_dec LR_EPS _) as [Hr|Hr].
    + unfold LR_EPS in Hr. pose proof (Rmax_r (lr * FACTOR) MIN_LR). repeat split; try lra; try lia; auto.
      pose proof (Rmin_r lr MIN_LR). lra.
    + repeat split; try lra; auto. apply Rmin_l.
  - repeat split; try lra; auto. apply Rmin_l.
Qed.
End Run.

(** * The theorems *)
Lemma logs_spec {W O} (evaluate : nat -> W -> outcome) (adam : nat -> W -> O -> R -> W * O) n w0 o0 lr0 w ll wl l1 :
  run_training evaluate adam n w0 o0 lr0 = Ok (w, (ll, wl, l1)) ->
  exists ws out lr, history evaluate adam w0 lr0 n ws out lr /\
    ll = losses out n /\ l1 = l1s out n /\
    length ll = (n - errors out n)%nat /\ length wl = length ll /\ length l1 = length ll /\
    forall i, (i < length ll)%nat -> nth i wl NaN = fmean (lastn 20 (firstn (S i) ll)).
Proof.
  intros H. apply run_inv in H. destruct H as (s & Hs & -> & E). inversion E; subst.
  exists (wsf evaluate adam w0 o0 lr0), (outf evaluate adam w0 o0 lr0), (lrf evaluate adam w0 o0 lr0).
  split; [eapply history_holds; eauto|]. destruct (inv_holds _ _ _ _ _ _ _ Hs) as [A1 A2 A3 A4 A5 A6 A7 A8].
  pose proof (errors_losses _ n A1) as EL.
  split; auto. split; auto. rewrite A2, A5, A3, map_length, seq_length. split; [lia|]. split; auto. split.
  - clear. unfold l1s, losses. induction (seq 0 n); simpl; auto. rewrite !app_length, IHl. destruct (outf _ _ _ _ _ a); auto.
  - intros i Hi. set (f := fun i => fmean _). rewrite (nth_indep _ NaN (f 0%nat)) by (rewrite map_length, seq_length; auto).
    rewrite (map_nth f), seq_nth by auto. reflexivity.
Qed.

Lemma fmean_fin l : l <> [] -> fmean (map Fin l) = Fin (Rsum l / INR (length l)).
Proof.
  intros _. unfold fmean. rewrite map_length.
  assert (G : forall a, fold_left fadd (map Fin l) (Fin a) = Fin (a + Rsum l)).
  { induction l as [|x l IH]; intros a; simpl; [unfold Rsum; simpl; f_equal; ring|]. rewrite IH. f_equal. unfold Rsum; simpl; ring. }
  rewrite G. simpl. f_equal. rewrite Rplus_0_l. reflexivity.
Qed.

Lemma returned_general {W O} (evaluate : nat -> W -> outcome) (adam : nat -> W -> O -> R -> W * O) n w0 o0 lr0 w logs :
  run_training evaluate adam n w0 o0 lr0 = Ok (w, logs) ->
  exists ws out lr, history evaluate adam w0 lr0 n ws out lr /\
    ((w = ws n /\ forall k l, (k < n)%nat -> record_at out k l -> renormalised_at out k) \/
     exists k l, (k < n)%nat /\ w = ws k /\ record_at out k l /\ ~ renormalised_at out k /\
       forall j l', (k < j < n)%nat -> record_at out j l' -> renormalised_at out j).
Proof.
  intros H. apply run_inv in H. destruct H as (s & Hs & -> & E).
  exists (wsf evaluate adam w0 o0 lr0), (outf evaluate adam w0 o0 lr0), (lrf evaluate adam w0 o0 lr0).
  split; [eapply history_holds; eauto|]. destruct (inv_holds _ _ _ _ _ _ _ Hs) as [A1 A2 A3 A4 A5 A6 A7 A8].
  set (out := outf evaluate adam w0 o0 lr0) in *.
  assert (D : forall k l, record_at out k l -> renormalised_at out k \/ ~ renormalised_at out k).
  { intros k l ((l1 & rn & E1) & _). destruct rn; [left; exists l, l1; auto|right; intros (? & ? & E2); congruence]. }
  destruct A7 as [[B1 B2]|(k & B1 & B2 & B3)].
  - left. split. { unfold load_best. rewrite B1. symmetry. apply wsf_n; auto. }
    intros k l Hk Hr. destruct (D k l Hr); auto. exfalso. apply (B2 k). repeat split; eauto.
  - right. destruct B2 as (C1 & (l & C2) & C3). exists k, l. split; auto. split. { unfold load_best. rewrite B1. auto. }
    split; auto. split; auto. intros j l' Hj Hr. destruct (D j l' Hr); auto.
    exfalso. assert (j <= k)%nat; [|lia]. apply B3. repeat split; eauto. lia.
Qed.

Lemma flt_total a b : a <> NaN -> b <> NaN -> flt a b = false -> flt b a = true \/ a = b.
Proof.
  destruct a, b; simpl; auto; try congruence.
  unfold Rltb; destruct (Rlt_dec r r0), (Rlt_dec r0 r); auto; try discriminate. intros. right. f_equal. lra.
Qed.
Lemma flt_not_nan a b : flt a b = true -> a <> NaN /\ b <> NaN.
Proof. destruct a, b; simpl; split; congruence. Qed.

Lemma first_record out n :
  (exists k l l1 rn, (k < n)%nat /\ out k = Done l l1 rn /\ flt l PInf = true) ->
  exists k l, (k < n)%nat /\ record_at out k l /\
    (forall j l' l1' rn', (j < n)%nat -> out j = Done l' l1' rn' -> flt l' l = false) /\
    (forall j l', (k < j < n)%nat -> ~ record_at out j l').
Proof.
  induction n; intros (k & l & l1 & rn & Hk & E & F); [lia|].
  destruct (out n) as [e| |ln l1n rnn] eqn:En.
  1, 2 : (assert (Hkn : k <> n) by congruence;
    destruct IHn as (k' & l' & P1 & P2 & P3 & P4); [exists k, l, l1, rn; repeat split; auto; lia|];
    exists k', l'; split; [lia|]; split; auto; split;
    [ intros j l2 l1' rn' Hj Ej; destruct (Nat.eq_dec j n) as [->|]; [congruence|apply (P3 j l2 l1' rn'); [lia|auto]]
    | intros j l2 Hj Hr; destruct (Nat.eq_dec j n) as [->|];
      [destruct Hr as ((? & ? & ?) & _); congruence|apply (P4 j l2); auto; lia] ]).
  destruct (best_of_spec (losses out n)) as (_ & _ & B).
  destruct (flt ln (best_of (losses out n))) eqn:EB.
  - apply B in EB. destruct EB as [B1 B2]. exists n, ln. split; [lia|]. split.
    + split; [eauto|]. split; auto. intros j l2 l1' rn' Hj Ej. apply B2. apply in_losses. eauto 6.
    + split; [|intros; lia]. intros j l2 l1' rn' Hj Ej. destruct (Nat.eq_dec j n) as [->|].
      * assert (l2 = ln) by congruence. subst. destruct ln; simpl; auto. unfold Rltb. destruct (Rlt_dec r r); auto; lra.
      * destruct (B2 l2) as [->|Hlt]. { apply in_losses. exists j, l1', rn'. split; auto; lia. }
        -- destruct ln; auto.
        -- destruct (flt l2 ln) eqn:X; auto. pose proof (flt_trans _ _ _ X Hlt) as Y.
           destruct l2; simpl in Y; try discriminate. unfold Rltb in Y. destruct (Rlt_dec r r); [lra|discriminate].
  - assert (Hkn : exists k l l1 rn, (k < n)%nat /\ out k = Done l l1 rn /\ flt l PInf = true).
    { destruct (Nat.eq_dec k n) as [->|].
      - assert (ln = l) by congruence. subst ln.
        destruct (best_of_spec (losses out n)) as ([Bp|[Bi Bf]] & _ & _).
        + rewrite Bp in EB. congruence.
        + apply in_losses in Bi. destruct Bi as (k' & l1' & rn' & Hk' & E'). eauto 8.
      - exists k, l, l1, rn. repeat split; auto; lia. }
    destruct (IHn Hkn) as (k' & l' & P1 & P2 & P3 & P4). exists k', l'. split; [lia|]. split; auto. split.
    + intros j l2 l1' rn' Hj Ej. destruct (Nat.eq_dec j n) as [->|]; [|apply (P3 j l2 l1' rn'); [lia|auto]].
      assert (l2 = ln) by congruence. subst l2. destruct (flt ln l') eqn:X; auto. exfalso.
      rewrite <- not_true_iff_false in EB. apply EB. apply B.
      destruct P2 as ((l1'' & rn'' & P2) & P2' & P2''). split; [eapply flt_trans; eauto|].
      intros l3 Hl3. apply in_losses in Hl3. destruct Hl3 as (k3 & l13 & rn3 & Hk3 & E3).
      specialize (P3 _ _ _ _ Hk3 E3). destruct (flt_not_nan _ _ X) as [_ Nn].
      destruct l3 as [r3| | |]; auto; right.
      all: match type of P3 with flt ?q _ = false =>
             destruct (flt_total q l' ltac:(discriminate) Nn P3) as [Y|Y]; [eapply flt_trans; eauto|rewrite Y; auto] end.
    + intros j l2 Hj Hr. destruct (Nat.eq_dec j n) as [->|]; [|apply (P4 j l2); auto; lia].
      destruct Hr as ((l1' & rn' & Hr) & Hr1 & Hr2). assert (l2 = ln) by congruence. subst l2.
      rewrite <- not_true_iff_false in EB. apply EB. apply B. split; auto.
      intros l3 Hl3. apply in_losses in Hl3. destruct Hl3 as (k3 & l13 & rn3 & Hk3 & E3). eapply Hr2; eauto.
Qed.

(** no renormalisation: the returned weights achieved the smallest loss, first *)
Lemma returned_best {W O} (evaluate : nat -> W -> outcome) (adam : nat -> W -> O -> R -> W * O) n w0 o0 lr0 w logs :
  run_training evaluate adam n w0 o0 lr0 = Ok (w, logs) ->
  exists ws out lr, history evaluate adam w0 lr0 n ws out lr /\
    ((forall k, (k < n)%nat -> ~ renormalised_at out k) ->
     (exists k l l1 rn, (k < n)%nat /\ out k = Done l l1 rn /\ flt l PInf = true) ->
     exists k l l1, (k < n)%nat /\ w = ws k /\ out k = Done l l1 false /\
       (forall j l' l1' rn', (j < n)%nat -> out j = Done l' l1' rn' -> flt l' l = false) /\
       (forall j l' l1' rn', (j < k)%nat -> out j = Done l' l1' rn' -> l' = NaN \/ flt l l' = true)).
Proof.
  intros H. destruct (returned_general _ _ _ _ _ _ _ _ H) as (ws & out & lr & Hh & HG).
  exists ws, out, lr. split; auto. intros NR Hex.
  destruct (first_record out n Hex) as (k & l & P1 & P2 & P3 & P4).
  destruct HG as [[_ G]|(k' & l' & G1 & G2 & G3 & G4 & G5)].
  - exfalso. eapply NR; eauto.
  - assert (k' = k).
    { destruct (lt_eq_lt_dec k k') as [[X|X]|X]; auto.
      - exfalso. apply (P4 k' l'); auto.
      - exfalso. apply (NR k P1). apply (G5 k l); auto. }
    subst k'. destruct P2 as ((l1 & rn & E) & F & G).
    exists k, l, l1. split; auto. split; auto. split; [|split; auto].
    destruct rn; auto. exfalso. apply G4. exists l, l1; auto.
Qed.

(** nothing stored: the live weights come back *)
Lemma returned_live {W O} (evaluate : nat -> W -> outcome) (adam : nat -> W -> O -> R -> W * O) n w0 o0 lr0 w logs :
  run_training evaluate adam n w0 o0 lr0 = Ok (w, logs) ->
  exists ws out lr, history evaluate adam w0 lr0 n ws out lr /\
    ((forall k l l1, (k < n)%nat -> out k = Done l l1 false -> flt l PInf = false) -> w = ws n).
Proof.
  intros H. destruct (returned_general _ _ _ _ _ _ _ _ H) as (ws & out & lr & Hh & HG).
  exists ws, out, lr. split; auto. intros NR.
  destruct HG as [[G _]|(k' & l' & G1 & G2 & ((l1 & rn & E) & F & _) & G4 & G5)]; auto.
  destruct rn; [exfalso; apply G4; exists l', l1; auto|]. rewrite (NR _ _ _ G1 E) in F. discriminate.
Qed.

(** C22 fails once some iteration was renormalised *)
Definition ev_bad (k : nat) (w : nat) : outcome :=
  match k with
  | 0%nat => Done (Fin (5/10)) (Fin 0) false
  | 1%nat => Done (Fin (3/10)) (Fin 0) true
  | _ => Done (Fin (4/10)) (Fin 0) false
  end.
Definition adam_count (k : nat) (w : nat) (o : unit) (lr : R) : nat * unit := (S w, tt).
Lemma best_unphysical_refuted : exists (evaluate : nat -> nat -> outcome) adam n w logs,
  run_training (O := unit) evaluate adam n 0%nat tt (1/1000) = Ok (w, logs) /\
  (** weights 0 are returned with loss 0.5 although weights 2 had loss 0.4, unrenormalised *)
  w = 0%nat /\ evaluate 0%nat 0%nat = Done (Fin (5/10)) (Fin 0) false /\
  evaluate 2%nat 2%nat = Done (Fin (4/10)) (Fin 0) false /\ (2 < n)%nat.
Proof.
  exists ev_bad, adam_count, 3%nat. eexists; eexists. split.
  - unfold run_training, iterations, iteration. generalize plateau_step. intros ps.
    assert (E1 : flt (Fin (3/10)) (Fin (5/10)) = true) by (simpl; apply Rltb_true; lra).
    assert (E2 : flt (Fin (4/10)) (Fin (3/10)) = false) by (simpl; apply Rltb_false; lra).
    cbn -[flt fmean]. change (flt (Fin (5/10)) PInf) with true. cbv iota.
    destruct (ps _ _ _). cbn -[flt fmean]. rewrite E1. destruct (ps _ _ _). cbn -[flt fmean]. rewrite E2.
    destruct (ps _ _ _). cbn -[flt fmean]. reflexivity.
  - simpl. auto.
Qed.

(** * learning rate *)
Lemma lr_spec {W O} (evaluate : nat -> W -> outcome) (adam : nat -> W -> O -> R -> W * O) n w0 o0 lr0 w logs :
  0 < lr0 -> run_training evaluate adam n w0 o0 lr0 = Ok (w, logs) ->
  exists ws out lr, history evaluate adam w0 lr0 n ws out lr /\
    (forall k, (k < n)%nat -> 0 < lr (S k) <= lr k) /\
    (forall k, (k < n)%nat -> out k = SpectrumValueError -> lr (S k) = lr k / 2) /\
    (forall k, (k < n)%nat -> out k <> SpectrumValueError ->
       lr (S k) = lr k \/ lr (S k) = Rmax (lr k * (66 / 100)) (/ 1000000)) /\
    (forall k, (k <= n)%nat -> Rmin lr0 (/ 1000000) * (/ 2) ^ errors out k <= lr k) /\
    (forall k, (k <= n)%nat -> (length (losses out k) <= 500)%nat -> lr k = lr0 * (/ 2) ^ errors out k).
Proof.
  intros Hlr H. apply run_inv in H. destruct H as (s & Hs & -> & E).
  set (ws := wsf evaluate adam w0 o0 lr0). set (out := outf evaluate adam w0 o0 lr0). set (lr := lrf evaluate adam w0 o0 lr0).
  exists ws, out, lr. split; [eapply history_holds; eauto|].
  (* one-step facts *)
  assert (Step : forall k, (k < n)%nat -> 0 < lr k ->
     (out k = SpectrumValueError /\ lr (S k) = lr k * / 2) \/
     (exists l l1 rn, out k = Done l l1 rn /\ 0 < lr (S k) /\ lr (S k) <= lr k /\ Rmin (lr k) MIN_LR <= lr (S k) /\
       ((length (losses out k) < 500)%nat -> lr (S k) = lr k) /\
       (lr (S k) = lr k \/ lr (S k) = Rmax (lr k * FACTOR) MIN_LR))).
  { intros k Hk Hp. destruct (st_ok_le _ _ _ _ _ _ _ (S k) Hs ltac:(lia)) as (s2 & H2).
    destruct (st_inv _ _ _ _ _ _ _ H2) as (s1 & H1 & Hw & Hl & Hit).
    destruct (inv_holds _ _ _ _ _ _ _ H1) as [A1 A2 A3 A4 A5 A6 A7 A8].
    fold lr in Hl. rewrite Hl in *. unfold lr. rewrite (lrf_n _ _ _ _ _ _ _ H2).
    unfold iteration in Hit. rewrite <- Hw in Hit. fold (out k) in Hit.
    change (evaluate k (wsf evaluate adam w0 o0 lr0 k)) with (out k) in Hit.
    destruct (out k) as [e| |l l1 rn] eqn:Eo; [discriminate| |].
    - left. split; auto. inversion Hit; auto.
    - right. exists l, l1, rn. split; auto.
      destruct (adam k _ _ _). destruct (plateau_step (s_plateau s1) (s_lr s1) l) as [p' lr'] eqn:EP.
      inversion Hit; subst s2. simpl s_lr. pose proof (plateau_lr (s_plateau s1) (s_lr s1) l Hp) as HP. rewrite EP in HP. simpl in HP.
      destruct HP as (P1 & P2 & P3 & P4 & P5). repeat split; auto. intros Hlen. apply P4. fold out in A8. lia. }
  assert (Pos : forall k, (k <= n)%nat -> 0 < lr k).
  { induction k; intros Hk. - change (lr 0%nat) with lr0; auto.
    - destruct (Step k ltac:(lia) (IHk ltac:(lia))) as [[_ ->]|(l & l1 & rn & _ & P & _)]; auto.
      specialize (IHk ltac:(lia)). lra. }
  split; [|split; [|split; [|split]]].
  - intros k Hk. pose proof (Pos k ltac:(lia)). split; [apply Pos; lia|].
    destruct (Step k Hk H) as [[_ ->]|(l & l1 & rn & _ & _ & P & _)]; auto. lra.
  - intros k Hk Eo. destruct (Step k Hk (Pos k ltac:(lia))) as [[_ ->]|(l & l1 & rn & E1 & _)]; [lra|congruence].
  - intros k Hk Eo. destruct (Step k Hk (Pos k ltac:(lia))) as [[E1 _]|(l & l1 & rn & E1 & _ & _ & _ & _ & P)]; [congruence|auto].
  - set (m := Rmin lr0 (/ 1000000)).
    assert (Hm : 0 < m) by (unfold m; apply Rmin_glb_lt; lra).
    assert (Hm' : m <= / 1000000) by apply Rmin_r.
    assert (Hpw : forall e, 0 < (/ 2) ^ e <= 1).
    { induction e; simpl; lra. }
    induction k; intros Hk.
    + change (lr 0%nat) with lr0. simpl. rewrite Rmult_1_r. apply Rmin_l.
    + specialize (IHk ltac:(lia)). rewrite errors_S.
      destruct (Step k ltac:(lia) (Pos k ltac:(lia))) as [[E1 ->]|(l & l1 & rn & E1 & _ & _ & P & _)]; rewrite E1.
      * rewrite Nat.add_1_r. simpl. lra.
      * rewrite Nat.add_0_r. unfold MIN_LR in P. eapply Rle_trans; [|exact P]. apply Rmin_glb; auto.
        specialize (Hpw (errors out k)). nra.
  - induction k; intros Hk Hlen.
    + change (lr 0%nat) with lr0. simpl. ring.
    + rewrite losses_S, app_length in Hlen. rewrite errors_S.
      destruct (Step k ltac:(lia) (Pos k ltac:(lia))) as [[E1 ->]|(l & l1 & rn & E1 & _ & _ & _ & P & _)]; rewrite E1 in *; simpl length in Hlen.
      * rewrite IHk by lia. rewrite Nat.add_1_r. simpl. ring.
      * rewrite Nat.add_0_r, P by lia. apply IHk; lia.
Qed.

(** an iteration whose simulation raises ValueError contributes nothing *)
Lemma error_iteration {W O} (evaluate : nat -> W -> outcome) (adam : nat -> W -> O -> R -> W * O) n w0 o0 lr0 w logs :
  run_training evaluate adam (S n) w0 o0 lr0 = Ok (w, logs) ->
  exists ws out lr, history evaluate adam w0 lr0 (S n) ws out lr /\
    (out n = SpectrumValueError -> run_training evaluate adam n w0 o0 lr0 = Ok (w, logs) /\ ws (S n) = w).
Proof.
  intros H. apply run_inv in H. destruct H as (s & Hs & -> & ->).
  exists (wsf evaluate adam w0 o0 lr0), (outf evaluate adam w0 o0 lr0), (lrf evaluate adam w0 o0 lr0).
  split; [eapply history_holds; eauto|]. intros Eo.
  destruct (st_inv _ _ _ _ _ _ _ Hs) as (s1 & H1 & Hw & _ & Hit).
  unfold iteration in Hit. rewrite <- Hw in Hit. change (evaluate n (wsf evaluate adam w0 o0 lr0 n)) with (outf evaluate adam w0 o0 lr0 n) in Hit.
  rewrite Eo in Hit. inversion Hit. rewrite (wsf_n _ _ _ _ _ _ _ Hs). rewrite <- H0.
  unfold run_training. fold (st evaluate adam w0 o0 lr0 n). rewrite H1. simpl. unfold load_best. simpl.
  destruct (s_best_state s1); split; auto.
Qed.

(** an exception of any other kind ends the run *)
Lemma raised_propagates {W O} (evaluate : nat -> W -> outcome) (adam : nat -> W -> O -> R -> W * O) n m w0 o0 lr0 s e :
  iterations evaluate adam n (initial_state w0 o0 lr0) = Ok s -> evaluate n (s_weights s) = Raised e -> (n < m)%nat ->
  run_training evaluate adam m w0 o0 lr0 = Err e.
Proof.
  intros H E Hm. unfold run_training.
  assert (G : iterations evaluate adam m (initial_state w0 o0 lr0) = Err e).
  { induction m; [lia|]. simpl. destruct (Nat.eq_dec m n) as [->|].
    - rewrite H. simpl. unfold iteration. rewrite E. auto.
    - rewrite IHm by lia. auto. }
  rewrite G. auto.
Qed.
