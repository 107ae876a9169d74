(** Property theorem C98: the plot of losses of a finished training.  [history],
    [losses], [errors] and [lastn] are defined in Spec_Training.v. *)
From Coq Require Import Reals String List Bool Lra Lia.
From Verif Require Import Base PyVal Model_Training Spec_Training Model_LossPlot Proof_Losses Proof_Training Proof_LossPlot Props_Losses.
Import ListNotations.
Open Scope R_scope.

(** The curves L1, Loss and Weighted Average Loss show the positive numbers of the
    run under their own names.  The place on the axis is the number of earlier
    iterations that gave a spectrum, not the number of the iteration: failed ones
    leave no gap. *)
Theorem C98_curves : forall {W O} (evaluate : nat -> W -> outcome) (adam : nat -> W -> O -> R -> W * O) n w0 o0 lr0 w ll wl l1 path,
  run_training evaluate adam n w0 o0 lr0 = Ok (w, (ll, wl, l1)) ->
  exists ws out lr c1 c2 c3, history evaluate adam w0 lr0 n ws out lr
    /\ plot_losses ll wl l1 path = ([("L1", c1); ("Loss", c2); ("Weighted Average Loss", c3)]%string, option_map (fun p => p ++ "/losses.png")%string path)
    /\ (forall k x, In (k, x) c1 <-> 0 < x /\ exists j l rn, (j < n)%nat /\ out j = Done l (Fin x) rn /\ k = (j - errors out j)%nat)
    /\ (forall k x, In (k, x) c2 <-> 0 < x /\ exists j l rn, (j < n)%nat /\ out j = Done (Fin x) l rn /\ k = (j - errors out j)%nat)
    /\ (forall k x, In (k, x) c3 <-> 0 < x /\ (k < n - errors out n)%nat /\ fmean (lastn 20 (firstn (S k) (losses out n))) = Fin x).
Proof. exact (@loss_curves). Qed.
Print Assumptions C98_curves.
(** A run of two iterations whose second one fails; one point on each curve. *)
Example C98_case : exists w, run_training (O := unit) (fun k _ => match k with 1%nat => SpectrumValueError | _ => Done (Fin 1) (Fin 2) false end)
    adam_count 2 0%nat tt (1/1000) = Ok (w, ([Fin 1], [fmean [Fin 1]], [Fin 2]))
  /\ plot_losses [Fin 1] [fmean [Fin 1]] [Fin 2] (Some "out"%string)
     = ([("L1", [(0%nat, 2)]); ("Loss", [(0%nat, 1)]); ("Weighted Average Loss", [(0%nat, 1)])]%string, Some "out/losses.png"%string).
Proof.
  destruct C21_case as [w E]. exists w. split; [exact E|]. change [Fin 1] with (map Fin [1]). rewrite C21_window_mean by discriminate.
  unfold plot_losses. cbn [map combine log_points Rsum fold_right length INR]. replace ((1 + 0) / 1) with 1 by field.
  unfold Rltb. destruct (Rlt_dec 0 1), (Rlt_dec 0 2); try lra. reflexivity.
Qed.
