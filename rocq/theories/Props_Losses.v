(** Property theorems C18-C23: losses and training. *)
From Coq Require Import Reals ZArith String List Bool Lra Lia.
From Verif Require Import Base BaseLemmas PyVal Model_Losses Model_Training Spec_Losses Spec_Training Proof_Losses Proof_Training.
Import ListNotations.
Open Scope R_scope.

(** C18: on physical spectra of the target's length the loss is the (averaged) L-distance. *)
Theorem C18_value : forall pR pT tR tT fs L A,
  0 < L -> pR <> [] ->
  length pT = length pR -> length tR = length pR -> length tT = length pR -> length fs = length pR ->
  physical pR pT ->
  spectrum_loss pR pT tR tT fs L A =
  Ok ((sumL L pR tR + sumL L pT tT + (if A then sumL L (absorption pR pT) (absorption tR tT) else 0))
      / ((if A then 3 else 2) * INR (length pR)), false).
Proof. exact spectrum_loss_value. Qed.
Print Assumptions C18_value.
Theorem C18_distance : forall pR pT tR tT fs L A,
  0 < L -> pR <> [] ->
  length pT = length pR -> length tR = length pR -> length tT = length pR -> length fs = length pR ->
  physical pR pT ->
  exists v, spectrum_loss pR pT tR tT fs L A = Ok (v, false) /\ 0 <= v /\
    (v = 0 <-> pR = tR /\ pT = tT) /\
    (physical tR tT -> spectrum_loss tR tT pR pT fs L A = Ok (v, false)).
Proof. exact spectrum_loss_distance. Qed.
Print Assumptions C18_distance.
Theorem C18_triangle_L1 : forall pR pT qR qT tR tT fs,
  pR <> [] ->
  length pT = length pR -> length qR = length pR -> length qT = length pR ->
  length tR = length pR -> length tT = length pR -> length fs = length pR ->
  physical pR pT -> physical qR qT ->
  exists a b c, spectrum_loss pR pT tR tT fs 1 false = Ok (a, false) /\
    spectrum_loss pR pT qR qT fs 1 false = Ok (b, false) /\
    spectrum_loss qR qT tR tT fs 1 false = Ok (c, false) /\ a <= b + c.
Proof. exact spectrum_loss_L1_triangle. Qed.
Print Assumptions C18_triangle_L1.
Theorem C18_empty : forall pT tR tT fs L A,
  spectrum_loss [] pT tR tT fs L A = Err ZeroDivisionError.
Proof. exact spectrum_loss_empty. Qed.
Print Assumptions C18_empty.
(** Longer produced spectra are cut silently: different spectra at distance 0. *)
Theorem C18_length_mismatch_refuted : exists pR pT tR tT fs L,
  0 < L /\ physical pR pT /\ length pR = length pT /\ length tR = length tT /\ length fs = length pR /\
  (pR <> tR \/ pT <> tT) /\ spectrum_loss pR pT tR tT fs L false = Ok (0, false).
Proof. exact loss_truncation_refuted. Qed.
Print Assumptions C18_length_mismatch_refuted.
Example C18_case : physical [1/2; 1/4] [1/2; 1/4] /\ physical [1/3; 0] [0; 1] /\
  spectrum_loss [1/2; 1/4] [1/2; 1/4] [1/3; 0] [0; 1] [1; 2] 1 false = Ok (5/12, false).
Proof.
  assert (P : physical [1/2; 1/4] [1/2; 1/4]) by (intros p [<-|[<-|[]]]; simpl; lra).
  split; auto. split. { intros p [<-|[<-|[]]]; simpl; lra. }
  rewrite spectrum_loss_value by (auto; try lra; discriminate). unfold sumL; simpl. rewrite !absL_1. unfold Rsum; simpl.
  rewrite (Rabs_right (1/2 - 1/3)), (Rabs_right (1/4 - 0)), (Rabs_right (1/2 - 0)), (Rabs_left (1/4 - 1)) by lra. f_equal. f_equal. field.
Qed.

(** C19: when and how a point is renormalised; it does not reach R + T = 1. *)
Theorem C19_flag : forall pR pT tR tT fs L A v fl,
  0 < L -> pR <> [] ->
  length pT = length pR -> length tR = length pR -> length tT = length pR -> length fs = length pR ->
  spectrum_loss pR pT tR tT fs L A = Ok (v, fl) ->
  (fl = true <-> exists i, (i < length pR)%nat /\ 1 < nth i pR 0 + nth i pT 0).
Proof. exact renorm_flag. Qed.
Print Assumptions C19_flag.
Theorem C19_pair : forall r t,
  0 <= r -> 0 <= t -> 1 < r + t ->
  exists r' t', renorm_point r t = (r', t', true) /\ r' = r / (r + t) /\ t' = t / (r / (r + t) + t) /\
    (r' + t' = 1 <-> r = 0 \/ t = 0) /\ (0 < r -> 0 < t -> 1 < r' + t').
Proof. exact renorm_pair. Qed.
Print Assumptions C19_pair.
Theorem C19_sum_one_refuted : exists r t, 0 <= r /\ 0 <= t /\ 1 < r + t /\
  forall v fl, spectrum_loss [r] [t] [r / (r + t)] [t / (r + t)] [1] 1 false = Ok (v, fl) -> 0 < v.
Proof. exact renorm_intended_refuted. Qed.
Print Assumptions C19_sum_one_refuted.
Example C19_case : exists r' t', renorm_point 1 1 = (r', t', true) /\ r' = 1 / 2 /\ t' = 2 / 3.
Proof.
  destruct (renorm_pair 1 1 ltac:(lra) ltac:(lra) ltac:(lra)) as (r' & t' & E & Er & Et & _).
  exists r', t'. split; auto. subst. split; field.
Qed.

(** C20 *)
Theorem C20_regularisation : forall cells L,
  0 < L -> concat cells <> [] ->
  (forall p, In p (concat cells) -> 0 <= p <= 1) ->
  0 <= reg_loss cells L <= Rpower (1 / 2) L /\
  (reg_loss cells L = 0 <-> forall p, In p (concat cells) -> p = 0 \/ p = 1).
Proof. exact reg_loss_bounds. Qed.
Print Assumptions C20_regularisation.
Theorem C20_use_max : forall cells,
  cells <> [] ->
  (forall c, In c cells -> c <> [] /\ forall p, In p c -> 0 <= p <= 1) ->
  0 <= reg_loss_max cells <= 1 /\
  (reg_loss_max cells = 0 <-> forall c, In c cells -> In 1 c).
Proof. exact reg_loss_max_spec. Qed.
Print Assumptions C20_use_max.
Example C20_case : 0 < 2 /\ concat [[1; 0]; [1/2; 1/2]] <> [] /\
  (forall p, In p (concat [[1; 0]; [1/2; 1/2]]) -> 0 <= p <= 1).
Proof. split; [lra|]. split; [discriminate|]. simpl. intros p H. intuition lra. Qed.

(** C21 *)
Theorem C21_logs : forall {W O} (evaluate : nat -> W -> outcome) (adam : nat -> W -> O -> R -> W * O) n w0 o0 lr0 w ll wl l1,
  run_training evaluate adam n w0 o0 lr0 = Ok (w, (ll, wl, l1)) ->
  exists ws out lr, history evaluate adam w0 lr0 n ws out lr /\
    ll = losses out n /\ l1 = l1s out n /\
    length ll = (n - errors out n)%nat /\ length wl = length ll /\ length l1 = length ll /\
    forall i, (i < length ll)%nat -> nth i wl NaN = fmean (lastn 20 (firstn (S i) ll)).
Proof. exact (@logs_spec). Qed.
Print Assumptions C21_logs.
Theorem C21_window_mean : forall l,
  l <> [] -> fmean (map Fin l) = Fin (Rsum l / INR (length l)).
Proof. exact fmean_fin. Qed.
Print Assumptions C21_window_mean.
Example C21_case : exists w, run_training (O := unit) (fun k _ => match k with 1%nat => SpectrumValueError | _ => Done (Fin 1) (Fin 2) false end)
    adam_count 2 0%nat tt (1/1000) = Ok (w, ([Fin 1], [fmean [Fin 1]], [Fin 2])).
Proof. exists 0%nat. unfold run_training, iterations, iteration. generalize plateau_step. intros ps. cbn -[flt fmean].
  destruct (ps _ _ _). cbn -[flt fmean]. reflexivity. Qed.

(** C22 *)
Theorem C22_returned_general : forall {W O} (evaluate : nat -> W -> outcome) (adam : nat -> W -> O -> R -> W * O) n w0 o0 lr0 w logs,
  run_training evaluate adam n w0 o0 lr0 = Ok (w, logs) ->
  exists ws out lr, history evaluate adam w0 lr0 n ws out lr /\
    ((w = ws n /\ forall k l, (k < n)%nat -> record_at out k l -> renormalised_at out k) \/
     exists k l, (k < n)%nat /\ w = ws k /\ record_at out k l /\ ~ renormalised_at out k /\
       forall j l', (k < j < n)%nat -> record_at out j l' -> renormalised_at out j).
Proof. exact (@returned_general). Qed.
Print Assumptions C22_returned_general.
Theorem C22_returned_best : forall {W O} (evaluate : nat -> W -> outcome) (adam : nat -> W -> O -> R -> W * O) n w0 o0 lr0 w logs,
  run_training evaluate adam n w0 o0 lr0 = Ok (w, logs) ->
  exists ws out lr, history evaluate adam w0 lr0 n ws out lr /\
    ((forall k, (k < n)%nat -> ~ renormalised_at out k) ->
     (exists k l l1 rn, (k < n)%nat /\ out k = Done l l1 rn /\ flt l PInf = true) ->
     exists k l l1, (k < n)%nat /\ w = ws k /\ out k = Done l l1 false /\
       (forall j l' l1' rn', (j < n)%nat -> out j = Done l' l1' rn' -> flt l' l = false) /\
       (forall j l' l1' rn', (j < k)%nat -> out j = Done l' l1' rn' -> l' = NaN \/ flt l l' = true)).
Proof. exact (@returned_best). Qed.
Print Assumptions C22_returned_best.
Theorem C22_returned_live : forall {W O} (evaluate : nat -> W -> outcome) (adam : nat -> W -> O -> R -> W * O) n w0 o0 lr0 w logs,
  run_training evaluate adam n w0 o0 lr0 = Ok (w, logs) ->
  exists ws out lr, history evaluate adam w0 lr0 n ws out lr /\
    ((forall k l l1, (k < n)%nat -> out k = Done l l1 false -> flt l PInf = false) -> w = ws n).
Proof. exact (@returned_live). Qed.
Print Assumptions C22_returned_live.
(** With a renormalised record in between, a worse model is returned. *)
Theorem C22_best_unphysical_refuted : exists (evaluate : nat -> nat -> outcome) adam n w logs,
  run_training (O := unit) evaluate adam n 0%nat tt (1/1000) = Ok (w, logs) /\
  (** weights 0 are returned with loss 0.5 although weights 2 had loss 0.4, unrenormalised *)
  w = 0%nat /\ evaluate 0%nat 0%nat = Done (Fin (5/10)) (Fin 0) false /\
  evaluate 2%nat 2%nat = Done (Fin (4/10)) (Fin 0) false /\ (2 < n)%nat.
Proof. exact best_unphysical_refuted. Qed.
Print Assumptions C22_best_unphysical_refuted.
Example C22_case : exists logs, run_training (O := unit) (fun k _ => Done (Fin (INR k)) (Fin 0) false) adam_count 2 7%nat tt 1
  = Ok (7%nat, logs).
Proof.
  eexists. unfold run_training, iterations, iteration. generalize plateau_step. intros ps. cbn -[flt fmean INR].
  change (flt (Fin (INR 0)) PInf) with true. cbv iota. destruct (ps _ _ _). cbn -[flt fmean INR].
  assert (E : flt (Fin (INR 1)) (Fin (INR 0)) = false) by (simpl; apply Rltb_false; lra). rewrite E.
  destruct (ps _ _ _). cbn -[flt fmean INR]. reflexivity.
Qed.

(** C23 *)
Theorem C23_learning_rate : forall {W O} (evaluate : nat -> W -> outcome) (adam : nat -> W -> O -> R -> W * O) n w0 o0 lr0 w logs,
  0 < lr0 -> run_training evaluate adam n w0 o0 lr0 = Ok (w, logs) ->
  exists ws out lr, history evaluate adam w0 lr0 n ws out lr /\
    (forall k, (k < n)%nat -> 0 < lr (S k) <= lr k) /\
    (forall k, (k < n)%nat -> out k = SpectrumValueError -> lr (S k) = lr k / 2) /\
    (forall k, (k < n)%nat -> out k <> SpectrumValueError ->
       lr (S k) = lr k \/ lr (S k) = Rmax (lr k * (66 / 100)) (/ 1000000)) /\
    (forall k, (k <= n)%nat -> Rmin lr0 (/ 1000000) * (/ 2) ^ errors out k <= lr k) /\
    (forall k, (k <= n)%nat -> (length (losses out k) <= 500)%nat -> lr k = lr0 * (/ 2) ^ errors out k).
Proof. exact (@lr_spec). Qed.
Print Assumptions C23_learning_rate.
Theorem C23_error_iteration : forall {W O} (evaluate : nat -> W -> outcome) (adam : nat -> W -> O -> R -> W * O) n w0 o0 lr0 w logs,
  run_training evaluate adam (S n) w0 o0 lr0 = Ok (w, logs) ->
  exists ws out lr, history evaluate adam w0 lr0 (S n) ws out lr /\
    (out n = SpectrumValueError -> run_training evaluate adam n w0 o0 lr0 = Ok (w, logs) /\ ws (S n) = w).
Proof. exact (@error_iteration). Qed.
Print Assumptions C23_error_iteration.
Theorem C23_other_exceptions_propagate : forall {W O} (evaluate : nat -> W -> outcome) (adam : nat -> W -> O -> R -> W * O) n m w0 o0 lr0 s e,
  iterations evaluate adam n (initial_state w0 o0 lr0) = Ok s -> evaluate n (s_weights s) = Raised e -> (n < m)%nat ->
  run_training evaluate adam m w0 o0 lr0 = Err e.
Proof. exact (@raised_propagates). Qed.
Print Assumptions C23_other_exceptions_propagate.
Example C23_case : exists w logs, run_training (O := unit) (fun _ _ => SpectrumValueError) adam_count 1 0%nat tt (1/1000) = Ok (w, logs).
Proof. eexists; eexists; reflexivity. Qed.
