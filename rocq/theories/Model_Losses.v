(** nidn/training/losses: spectrum_loss.py and likelihood_regularization_loss.py. *)
From Coq Require Import Reals ZArith String List Bool.
From Verif Require Import Base Model_Materials Model_EpsGrid.
Import ListNotations.
Open Scope R_scope.

(** [t ** L] / [torch.pow(t, L)] for t >= 0 and L >= 0 (the validator requires
    L > 0; negative exponents of 0 give inf and are not modelled). *)
Definition tpow (t L : R) : R :=
  if Req_EM_T t 0 then (if Req_EM_T L 0 then 1 else 0) else Rpower t L.

(** spectrum_loss.py:46-52: one point.  Note the second division uses the
    already updated prod_R.  Returns (prod_R, prod_T, renormalized). *)
Definition renorm_point (prod_R prod_T : R) : R * R * bool :=
  if Rlt_dec 1 (prod_R + prod_T) then
    let prod_R := prod_R / (prod_R + prod_T) in
    let prod_T := prod_T / (prod_R + prod_T) in
    (prod_R, prod_T, true)
  else (prod_R, prod_T, false).

(** spectrum_loss.py:36-61, the loop over [zip] of the five sequences.  The
    target frequencies only limit the length.  Accumulator: R, T, A losses and
    the flag. *)
Fixpoint loss_loop (L : R) (A : bool) (pR pT tR tT freqs : list R) (acc : R * R * R * bool)
    : R * R * R * bool :=
  match pR, pT, tR, tT, freqs with
  | r :: pR, t :: pT, r' :: tR, t' :: tT, _ :: freqs =>
      let '(aR, aT, aA, fl) := acc in
      let '(r, t, f) := renorm_point r t in
      loss_loop L A pR pT tR tT freqs
        (aR + tpow (Rabs (r - r')) L, aT + tpow (Rabs (t - t')) L,
         (if A then aA + tpow (Rabs ((1 - t - r) - (1 - t' - r'))) L else aA), fl || f)
  | _, _, _, _, _ => acc
  end.

(** spectrum_loss.py:5-66 [_spectrum_loss_fn].  Dividing by 2*len = 0 raises
    (the accumulators are then Python ints). *)
Definition spectrum_loss (pR pT tR tT freqs : list R) (L : R) (include_absorption : bool)
    : res (R * bool) :=
  let '(aR, aT, aA, fl) := loss_loop L include_absorption pR pT tR tT freqs (0, 0, 0, false) in
  match pR with
  | [] => Err ZeroDivisionError
  | _ => if include_absorption
         then Ok ((aA + aR + aT) / (3 * INR (length pR)), fl)
         else Ok ((aR + aT) / (2 * INR (length pR)), fl)
  end.

(** likelihood_regularization_loss.py:21-26, [use_max=False].  The tensor is
    given by its cells' weight vectors; the mean runs over all entries.  (The mean
    of an empty tensor is NaN and not modelled.) *)
Definition reg_loss (cells : list (list R)) (L : R) : R :=
  Rmean (map (fun p => Rmin (tpow (1 - p) L) (tpow p L)) (concat cells)).

(** likelihood_regularization_loss.py:16-19 and 26, [use_max=True] *)
Definition reg_loss_max (cells : list (list R)) : R :=
  Rmean (map (fun c => 1 - Rmaximum c) cells).
