From Coq Require Import Reals String List Bool Lra Lia.
From Verif Require Import Base BaseLemmas PyVal Model_Training Spec_Training Proof_Training Model_LossPlot.
Import ListNotations.
Open Scope R_scope.

Lemma log_points_spec l : forall k j x, In (j, x) (log_points k l) <-> (k <= j)%nat /\ nth_error l (j - k) = Some (Fin x) /\ 0 < x.
Proof.
  assert (Skip : forall A (v : A) (r : list A) k j, (k <= j)%nat -> j <> k -> nth_error (v :: r) (j - k) = nth_error r (j - S k)).
  { intros A v r k j H1 H2. replace (j - k)%nat with (S (j - S k)) by lia. reflexivity. }
  induction l as [|v r IH]; intros k j x; cbn [log_points].
  - split; [intros []|]. intros (_ & H & _). destruct (j - k)%nat; discriminate.
  - assert (Tail : (forall y, v = Fin y -> ~ 0 < y) -> (In (j, x) (log_points (S k) r) <-> (k <= j)%nat /\ nth_error (v :: r) (j - k) = Some (Fin x) /\ 0 < x)).
    { intros Hv. rewrite IH. split.
      - intros (H1 & H2 & H3). split; [lia|]. rewrite Skip by lia. auto.
      - intros (H1 & H2 & H3). destruct (Nat.eq_dec j k) as [->|N].
        + rewrite Nat.sub_diag in H2. injection H2 as ->. destruct (Hv x eq_refl H3).
        + rewrite Skip in H2 by assumption. split; [lia|auto]. }
    destruct v as [y| | |]; try (apply Tail; intros; discriminate).
    unfold Rltb. destruct (Rlt_dec 0 y) as [P|P]; [|apply Tail; intros z [= <-]; exact P]. cbn [In]. rewrite IH. split.
    + intros [H|(H1 & H2 & H3)].
      * injection H as <- <-. rewrite Nat.sub_diag. auto.
      * split; [lia|]. rewrite Skip by lia. auto.
    + intros (H1 & H2 & H3). destruct (Nat.eq_dec j k) as [->|N].
      * left. rewrite Nat.sub_diag in H2. injection H2 as ->. reflexivity.
      * right. rewrite Skip in H2 by assumption. split; [lia|auto].
Qed.

Lemma flat_nth {A B} (f : A -> list B) l : (forall a, (length (f a) <= 1)%nat) -> forall k b,
  nth_error (flat_map f l) k = Some b <-> exists j a, nth_error l j = Some a /\ f a = [b] /\ length (flat_map f (firstn j l)) = k.
Proof.
  intros Hf. induction l as [|a l IH]; intros k b; cbn [flat_map].
  - split; [intros H; destruct k; discriminate|]. intros (j & a & H & _). destruct j; discriminate.
  - assert (Q := Hf a). destruct (f a) as [|b0 [|]] eqn:E; cbn [length app] in *; [| |lia].
    + rewrite IH. split; intros (j & a' & H1 & H2 & H3).
      * exists (S j), a'. cbn [nth_error firstn flat_map]. rewrite E. auto.
      * destruct j as [|j]; [cbn in H1; injection H1 as <-; congruence|]. exists j, a'. cbn [nth_error firstn flat_map] in *. rewrite E in H3. auto.
    + destruct k as [|k]; cbn [nth_error].
      * split.
        -- intros [= <-]. exists 0%nat, a. cbn. auto.
        -- intros (j & a' & H1 & H2 & H3). destruct j as [|j]; [cbn in H1; injection H1 as <-; congruence|].
           cbn [firstn flat_map] in H3. rewrite E in H3. discriminate.
      * rewrite IH. split; intros (j & a' & H1 & H2 & H3).
        -- exists (S j), a'. cbn [nth_error firstn flat_map]. rewrite E. cbn. auto.
        -- destruct j as [|j]; [cbn in H3; discriminate|]. exists j, a'. cbn [nth_error firstn flat_map] in *. rewrite E in H3. cbn in H3. auto.
Qed.

Lemma firstn_seq' n : forall a j, (j <= n)%nat -> firstn j (seq a n) = seq a j.
Proof.
  induction n as [|n IH]; intros a j H; [replace j with 0%nat by lia; reflexivity|]. destruct j as [|j]; [reflexivity|]. cbn. rewrite IH by lia. reflexivity.
Qed.

Lemma of_seq (f : nat -> list pyfloat) n k b : (forall a, (length (f a) <= 1)%nat) ->
  (nth_error (flat_map f (seq 0 n)) k = Some b <-> exists j, (j < n)%nat /\ f j = [b] /\ length (flat_map f (seq 0 j)) = k).
Proof.
  intros Hf. rewrite flat_nth by exact Hf. split.
  - intros (j & a & H1 & H2 & H3). assert (Hj : (j < n)%nat) by (rewrite <- (seq_length n 0); apply nth_error_Some; congruence).
    rewrite (nth_error_nth' (seq 0 n) 0%nat) in H1 by (rewrite seq_length; exact Hj). rewrite seq_nth in H1 by exact Hj. injection H1 as <-.
    exists j. rewrite firstn_seq' in H3 by lia. auto.
  - intros (j & H1 & H2 & H3). exists j, j. rewrite (nth_error_nth' (seq 0 n) 0%nat) by (rewrite seq_length; exact H1).
    rewrite seq_nth by exact H1. rewrite firstn_seq' by lia. auto.
Qed.

Lemma same_length out n : length (l1s out n) = length (losses out n).
Proof.
  unfold l1s, losses. induction (seq 0 n) as [|k r IH]; [reflexivity|]. cbn [flat_map]. rewrite !app_length, IH. destruct (out k); reflexivity.
Qed.

Lemma errors_le out j : (errors out j <= j)%nat.
Proof.
  unfold errors. rewrite <- (seq_length j 0) at 2. generalize (seq 0 j). intros s. induction s as [|a s IHs]; [apply le_n|].
  cbn [filter length]. destruct (out a); cbn [length]; lia.
Qed.

Lemma loss_curves {W O} (evaluate : nat -> W -> outcome) (adam : nat -> W -> O -> R -> W * O) n w0 o0 lr0 w ll wl l1 path :
  run_training evaluate adam n w0 o0 lr0 = Ok (w, (ll, wl, l1)) ->
  exists ws out lr c1 c2 c3, history evaluate adam w0 lr0 n ws out lr
    /\ plot_losses ll wl l1 path = ([("L1", c1); ("Loss", c2); ("Weighted Average Loss", c3)]%string, option_map (fun p => p ++ "/losses.png")%string path)
    /\ (forall k x, In (k, x) c1 <-> 0 < x /\ exists j l rn, (j < n)%nat /\ out j = Done l (Fin x) rn /\ k = (j - errors out j)%nat)
    /\ (forall k x, In (k, x) c2 <-> 0 < x /\ exists j l rn, (j < n)%nat /\ out j = Done (Fin x) l rn /\ k = (j - errors out j)%nat)
    /\ (forall k x, In (k, x) c3 <-> 0 < x /\ (k < n - errors out n)%nat /\ fmean (lastn 20 (firstn (S k) (losses out n))) = Fin x).
Proof.
  intros E. destruct (logs_spec evaluate adam n w0 o0 lr0 w ll wl l1 E) as (ws & out & lr & H & -> & -> & L0 & L1 & L2 & V).
  exists ws, out, lr. do 3 eexists. split; [exact H|]. split; [unfold plot_losses; cbn [combine]; destruct path; reflexivity|].
  assert (Cnt : forall j, (j <= n)%nat -> length (losses out j) = (j - errors out j)%nat).
  { intros j Hj. assert (NR : forall i e, (i < j)%nat -> out i <> Raised e) by (intros i e Hi; apply (h_ok _ _ _ _ _ _ _ _ H); lia). clear -NR.
    induction j as [|j IH]; [reflexivity|]. assert (errors out j <= j)%nat.
    { exact (errors_le out j). }
    unfold losses, errors in *. rewrite seq_S, flat_map_app, app_length, filter_app, app_length, IH by (intros i e Hi; apply NR; lia). cbn [flat_map filter Nat.add].
    destruct (out j) eqn:Ej; cbn [length app]; try lia. destruct (NR j _ (Nat.lt_succ_diag_r j) Ej). }
  split; [|split]; intros k x; rewrite log_points_spec, Nat.sub_0_r.
  - unfold l1s. rewrite of_seq by (intros a; destruct (out a); cbn; lia). fold (l1s out). split.
    + intros (_ & (j & H1 & H2 & H3) & H4). split; [exact H4|]. destruct (out j) as [| |l l' rn] eqn:Ej; try discriminate. injection H2 as ->.
      exists j, l, rn. split; [exact H1|]. split; [exact Ej|]. rewrite <- H3. change (length (l1s out j) = (j - errors out j)%nat). rewrite same_length. apply Cnt; lia.
    + intros (H1 & j & l & rn & H2 & H3 & H4). split; [lia|]. split; [|exact H1]. exists j. split; [exact H2|]. rewrite H3. split; [reflexivity|].
      change (length (l1s out j) = k). rewrite same_length, Cnt by lia. auto.
  - unfold losses. rewrite of_seq by (intros a; destruct (out a); cbn; lia). split.
    + intros (_ & (j & H1 & H2 & H3) & H4). split; [exact H4|]. destruct (out j) as [| |l l' rn] eqn:Ej; try discriminate. injection H2 as ->.
      exists j, l', rn. split; [exact H1|]. split; [exact Ej|]. rewrite <- H3. apply Cnt; lia.
    + intros (H1 & j & l & rn & H2 & H3 & H4). split; [lia|]. split; [|exact H1]. exists j. split; [exact H2|]. rewrite H3. split; [reflexivity|].
      rewrite H4. apply Cnt. lia.
  - rewrite <- L0. split.
    + intros (_ & H1 & H2). assert (Hk : (k < length wl)%nat) by (apply nth_error_Some; congruence). rewrite L1 in Hk. split; [exact H2|]. split; [exact Hk|].
      rewrite <- (V k Hk). apply nth_error_nth. exact H1.
    + intros (H1 & H2 & H3). split; [lia|]. split; [|exact H1]. rewrite (nth_error_nth' wl NaN) by (rewrite L1; exact H2). rewrite (V k H2), H3. reflexivity.
Qed.
