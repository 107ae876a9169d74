(** nidn/plots/plot_losses.py: the curves of the plot of losses.

    Simplifications: sizes and names of the axes are left out, and so is a config
    without results. *)
From Coq Require Import Reals String List Bool.
From Verif Require Import Base PyVal.
Import ListNotations.
Open Scope R_scope.

(** [plt.semilogy(l)]: the points of a curve; numbers that are not positive, not
    finite or undefined have no place on the axis.  A list without x is drawn over
    0, 1, 2, ... *)
Fixpoint log_points (k : nat) (l : list pyfloat) : list (nat * R) :=
  match l with
  | [] => []
  | Fin x :: r => if Rltb 0 x then (k, x) :: log_points (S k) r else log_points (S k) r
  | _ :: r => log_points (S k) r
  end.

(** plot_losses.py 5-24: names and curves in the order drawn ([plt.legend] names the
    curves in that order), and the file, if any. *)
Definition plot_losses (loss_log weighted_average_log L1_errs : list pyfloat) (save_path : option string)
    : list (string * list (nat * R)) * option string :=
  (combine ["L1"; "Loss"; "Weighted Average Loss"]%string
     [log_points 0 L1_errs; log_points 0 loss_log; log_points 0 weighted_average_log],
   match save_path with Some p => Some (p ++ "/losses.png")%string | None => None end).
