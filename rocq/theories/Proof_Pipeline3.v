(** Failing, recovering and best iterations of a run without noise. *)
From Coq Require Import Reals ZArith String List Bool Lra Lia Classical.
From Verif Require Import Base BaseLemmas PyVal Model_Training Spec_Training Proof_Training Model_Networks Model_Start Spec_Pipeline.
Import ListNotations.
Open Scope R_scope.

Section same.
Context {W O : Type}.
Variables (evaluate : nat -> W -> outcome) (adam : nat -> W -> O -> R -> W * O) (w0 : W) (o0 : O) (lr0 : R).
Hypothesis D : forall i j w, evaluate i w = evaluate j w.
Notation st := (st evaluate adam w0 o0 lr0).
Notation wsf := (wsf evaluate adam w0 o0 lr0).
Notation outf := (outf evaluate adam w0 o0 lr0).

Lemma reload k s' : st (S k) = Ok s' -> outf k = SpectrumValueError -> exists s, st k = Ok s /\ wsf (S k) = load_best s /\ s_best_state s' = s_best_state s /\ s_weights s' = load_best s.
Proof.
  intros H E. destruct (st_inv _ _ _ _ _ _ _ H) as (s & Hs & Hw & _ & Hit). exists s. split; [exact Hs|].
  rewrite (wsf_n _ _ _ _ _ _ _ H). unfold iteration in Hit. unfold Proof_Training.outf in E. rewrite Hw in E. rewrite E in Hit. injection Hit as <-. auto.
Qed.

Lemma stored_kept out n k : stored out n k -> (forall j, stored out n j -> (j <= k)%nat) -> kept_for out n k.
Proof.
  intros (H1 & H2 & H3) M. split; [exact H1|]. split; [exact H2|]. split; [exact H3|].
  intros i l Hi Hr. apply NNPP. intros N. assert (i <= k)%nat; [|lia]. apply M. split; [lia|]. split; [eauto|exact N].
Qed.
Lemma kept_unique out n j k : kept_for out n j -> kept_for out n k -> j = k.
Proof.
  intros (A1 & [l A2] & A3 & A4) (B1 & [l' B2] & B3 & B4). destruct (lt_eq_lt_dec j k) as [[H|H]|H]; [|exact H|].
  - exfalso. apply B3. apply (A4 k l'); [lia|exact B2].
  - exfalso. apply A3. apply (B4 j l); [lia|exact A2].
Qed.

Lemma reload_kept k j s' : st (S k) = Ok s' -> outf k = SpectrumValueError -> kept_for outf k j -> wsf (S k) = wsf j /\ outf (S k) = outf j.
Proof.
  intros H E K. destruct (reload k s' H E) as (s & Hs & Hw & _). destruct (inv_holds _ _ _ _ _ _ _ Hs) as [_ _ _ _ _ _ I _].
  assert (wsf (S k) = wsf j).
  { rewrite Hw. unfold load_best. destruct I as [[_ N]|(i & -> & Si & Mi)].
    - exfalso. destruct K as (K1 & K2 & K3 & _). apply (N j). split; [exact K1|]. split; [exact K2|exact K3].
    - rewrite (kept_unique _ _ _ _ (stored_kept _ _ _ Si Mi) K). reflexivity. }
  split; [assumption|]. unfold Proof_Training.outf. rewrite H0. apply D.
Qed.

Lemma reload_live k s' : st (S k) = Ok s' -> outf k = SpectrumValueError -> (forall j, ~ kept_for outf k j) ->
  wsf (S k) = wsf k /\ outf (S k) = SpectrumValueError /\ forall j, ~ kept_for outf (S k) j.
Proof.
  intros H E K. destruct (reload k s' H E) as (s & Hs & Hw & _). destruct (inv_holds _ _ _ _ _ _ _ Hs) as [_ _ _ _ _ _ I _].
  assert (wsf (S k) = wsf k).
  { rewrite Hw. unfold load_best. destruct I as [[-> N]|(i & -> & Si & Mi)].
    - symmetry. apply (wsf_n _ _ _ _ _ _ _ Hs).
    - exfalso. exact (K i (stored_kept _ _ _ Si Mi)). }
  split; [assumption|]. split.
  - unfold Proof_Training.outf. rewrite H0. rewrite (D (S k) k). exact E.
  - intros j (J1 & [l J2] & J3 & J4). destruct (Nat.eq_dec j k) as [->|NE].
    + destruct J2 as [(l1 & rn & J2) _]. congruence.
    + apply (K j). split; [lia|]. split; [eauto|]. split; [exact J3|]. intros i l' Hi. apply J4. lia.
Qed.

Lemma stuck k n s : st n = Ok s -> (k < n)%nat -> outf k = SpectrumValueError -> (forall j, ~ kept_for outf k j) ->
  forall j, (k <= j)%nat -> (j <= n)%nat -> wsf j = wsf k /\ outf j = SpectrumValueError /\ forall i, ~ kept_for outf j i.
Proof.
  intros H Hk E K j Hj. induction Hj as [|j Hj IH]; intros Hn; [auto|].
  destruct (IH ltac:(lia)) as (I1 & I2 & I3). destruct (st_ok_le _ _ _ _ _ _ _ (S j) H Hn) as (s' & Hs').
  destruct (reload_live j s' Hs' I2 I3) as (J1 & J2 & J3). split; [congruence|]. auto.
Qed.

Lemma failures n w logs : run_training evaluate adam n w0 o0 lr0 = Ok (w, logs) ->
  exists ws out lr, history evaluate adam w0 lr0 n ws out lr /\
    forall k, (k < n)%nat -> out k = SpectrumValueError ->
      (forall j, kept_for out k j -> ws (S k) = ws j /\ (S k < n -> out (S k) = out j)%nat)
      /\ ((forall j, ~ kept_for out k j) -> w = ws k /\ forall j, (k <= j < n)%nat -> out j = SpectrumValueError /\ ws j = ws k).
Proof.
  intros H. apply run_inv in H. destruct H as (s & Hs & -> & _).
  exists wsf, outf, (lrf evaluate adam w0 o0 lr0). split; [exact (history_holds _ _ _ _ _ _ _ Hs)|].
  intros k Hk E. split.
  - intros j K. destruct (st_ok_le _ _ _ _ _ _ _ (S k) Hs Hk) as (s' & Hs'). destruct (reload_kept k j s' Hs' E K) as [A B]. auto.
  - intros K. pose proof (stuck k n s Hs Hk E K) as St. split.
    + destruct (St n ltac:(lia) ltac:(lia)) as (A & _ & C). destruct (inv_holds _ _ _ _ _ _ _ Hs) as [_ _ _ _ _ _ I _].
      unfold load_best. destruct I as [[-> _]|(i & -> & Si & Mi)].
      * rewrite <- A. symmetry. apply (wsf_n _ _ _ _ _ _ _ Hs).
      * exfalso. exact (C i (stored_kept _ _ _ Si Mi)).
    + intros j Hj. destruct (St j ltac:(lia) ltac:(lia)) as (A & B & _). auto.
Qed.
End same.

(** Every iteration fails. *)
Lemma never_ok {W O} (evaluate : nat -> W -> outcome) (adam : nat -> W -> O -> R -> W * O) w0 o0 lr0 n :
  (forall it, evaluate it w0 = SpectrumValueError) -> run_training evaluate adam n w0 o0 lr0 = Ok (w0, ([], [], [])).
Proof.
  intros H. assert (I : exists s, iterations evaluate adam n (initial_state w0 o0 lr0) = Ok s /\ s_weights s = w0 /\ s_best_state s = None
    /\ s_loss_log s = [] /\ s_wavg_log s = [] /\ s_l1_log s = []).
  { induction n as [|n (s & E & A1 & A2 & A3 & A4 & A5)].
    - eexists. split; [reflexivity|]. cbn. auto.
    - cbn [iterations]. rewrite E. cbn [bind]. unfold iteration. rewrite A1, H. eexists. split; [reflexivity|]. cbn. unfold load_best. rewrite A2. auto. }
  destruct I as (s & E & A1 & A2 & A3 & A4 & A5). unfold run_training. rewrite E. cbn [bind]. unfold load_best. rewrite A2, A1, A3, A4, A5. reflexivity.
Qed.
