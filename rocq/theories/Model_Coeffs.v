(** nidn/fdtd_integration/calculate_transmission_reflection_coefficients.py (called
    "calc" below) and the detector averaging of compute_spectrum_fdtd.py.
    A signal is a list of reals (a 1-D tensor of finite floats). *)
From Coq Require Import Reals ZArith String List Bool.
From Verif Require Import Base PyVal Model_Materials Model_EpsGrid.
Import ListNotations.
Open Scope R_scope.

(** torch's float division: never raises; x/0 is an infinity and 0/0 NaN *)
Definition tdiv (a b : pyfloat) : pyfloat :=
  match a, b with
  | Fin x, Fin y =>
      if Req_EM_T y 0 then (if Req_EM_T x 0 then NaN else if Rlt_dec 0 x then PInf else NInf)
      else Fin (x / y)
  | NaN, _ | _, NaN => NaN
  | Fin _, _ => Fin 0
  | i, Fin y => if Rlt_dec y 0 then fneg i else i
  | _, _ => NaN
  end.

(** calc:61-92 [_check_and_normalize_coefficients] (T, R).  Lines 62-70 and the
    1.05 branch only write log messages. *)
Definition check_and_normalize (t r : pyfloat) : pyfloat * pyfloat :=
  let s := fadd t r in
  if flt (Fin 1) s && flt s (Fin (101/100)) then (tdiv t s, tdiv r s)
  else if flt (Fin 1) s && flt s (Fin (105/100)) then (tdiv t s, tdiv r s)
  else (t, r).

(** calc:95-103 [_mean_square], for a non-empty tensor (0/0 otherwise) *)
Definition mean_square (l : list R) : R := Rsum (map (fun x => x * x) l) / INR (length l).

(** calc:106-110 [_check_for_all_zero_signal], the argument is signals[0] *)
Definition check_all_zero (free : list R) : res unit :=
  if Rle_dec (mean_square free) (/ 10 ^ 15) then Err ValueError else Ok tt.

(** * calc:268-378 [_eliminate_transient_part] *)
(** lines 294-296 *)
Definition window_size (min_gp : nat) (wavelength : R) : nat :=
  Z.to_nat (Rtrunc (3 * INR min_gp * (wavelength / (/ 10 ^ 6)))).

(** lines 300-304: first index with |s| > 1e-8, else 0 *)
Fixpoint first_over (l : list R) (i : nat) : option nat :=
  match l with
  | [] => None
  | x :: r => if Rlt_dec (/ 10 ^ 8) (Rabs x) then Some i else first_over r (S i)
  end.
Definition first_non_zero_index (l : list R) : nat :=
  match first_over l 0 with Some i => i | None => 0%nat end.

(** [torch.split(l, w)] for w > 0 and non-empty l; the first argument bounds the recursion *)
Fixpoint split_fuel (fuel w : nat) (l : list R) : list (list R) :=
  match fuel, l with
  | 0%nat, _ | _, [] => []
  | S f, _ => firstn w l :: split_fuel f w (skipn w l)
  end.
Definition tsplit (w : nat) (l : list R) : list (list R) := split_fuel (length l) w l.

(** lines 320-321 *)
Definition merge_last (cs : list (list R)) : res (list (list R)) :=
  match rev cs with
  | c1 :: c2 :: r => Ok (rev ((c1 ++ c2) :: r))
  | _ => Err IndexError
  end.

Definition Rminimum (l : list R) : R :=
  match l with [] => 0 | x :: r => fold_left Rmin r x end.

(** lines 333-335 *)
Definition ranges (cs : list (list R)) : list R := map (fun c => Rmaximum c - Rminimum c) cs.
(** lines 337-339 *)
Definition changes (rs : list R) : list R :=
  map (fun p => Rabs (fst p - snd p)) (combine (removelast rs) (tl rs)).

(** lines 352-362: walk back while below the threshold; [None] when the index gets negative *)
Fixpoint scan_back (below : nat -> bool) (i : nat) : option nat :=
  if below i then match i with 0%nat => None | S j => scan_back below j end else Some i.

(** the whole function, the window size being given.  Window 0: torch.split
    raises RuntimeError.  No change value: [.max()] of an empty tensor raises
    RuntimeError.  [raise logger.error(..)] raises TypeError. *)
Definition eliminate_transient (w : nat) (is_freespace : bool) (signal : list R) : res (list R) :=
  let threshold := if is_freespace then 5/10 else 1/10 in
  let signal := skipn (first_non_zero_index signal) signal in
  if Nat.ltb (length signal) (2 * w) then Ok signal
  else if Nat.eqb w 0 then Err RuntimeError
  else
    let! chunks := merge_last (tsplit w signal) in
    let ch := changes (ranges chunks) in
    match ch with
    | [] => Err RuntimeError
    | _ =>
        let mx := Rmaximum ch in
        let below i := flt (tdiv (Fin (nth i ch 0)) (Fin mx)) (Fin threshold) in
        match scan_back below (length ch - 1) with
        | None => Err TypeError
        | Some i => Ok (skipn ((i + 1) * w) signal)
        end
    end.

(** calc:382-391 [_torch_find_peaks].  Slices: [1:-1], [:-2], [2:]. *)
Definition map2 (f : R -> R -> R) (a b : list R) : list R :=
  map (fun p => f (fst p) (snd p)) (combine a b).
Fixpoint nonzero_from (i : nat) (l : list R) : list nat :=
  match l with
  | [] => []
  | x :: r => if Req_EM_T x 0 then nonzero_from (S i) r else i :: nonzero_from (S i) r
  end.
Definition find_peaks (signal : list R) : list nat :=
  let mid := tl (removelast signal) in
  let t1 := map2 Rminus mid (removelast (removelast signal)) in
  let t2 := map2 Rminus mid (tl (tl signal)) in
  let out1 := map (fun x => if Rlt_dec 0 x then x * 0 + 1 else x * 0) t1 in
  let out2 := map2 (fun x o => if Rlt_dec 0 x then o else x * 0) t2 out1 in
  map (fun i => (i + 1)%nat) (nonzero_from 0 out2).

(** calc:203-255: the mean square between first and last peak, or max^2/2.
    ([max(signal)] of an empty signal raises ValueError.) *)
Definition signal_power (s : list R) : res R :=
  match find_peaks s with
  | p0 :: p1 :: r => Ok (mean_square (firstn (last (p1 :: r) 0%nat - p0) (skipn p0 s)))
  | _ => match s with [] => Err ValueError | _ => Ok ((Rmaximum s) ^ 2 / 2) end
  end.

(** calc:185-265 [_peak_based_coefficient_computation]: returns (R, T) *)
Definition peak_based (t_free t_mat r_free true_refl : list R) : res (pyfloat * pyfloat) :=
  let! tm := signal_power t_mat in
  let! tf := signal_power t_free in
  let! rm := signal_power true_refl in
  let! rf := signal_power r_free in
  Ok (tdiv (Fin rm) (Fin rf), tdiv (Fin tm) (Fin tf)).

(** calc:7-58 [calculate_transmission_reflection_coefficients]: returns (T, R).
    Simplification: subtracting signals of different lengths raises
    RuntimeError (torch would broadcast a signal of length 1). *)
Definition calculate_coefficients (w : nat) (t_free t_mat r_free r_mat : list R) : res (pyfloat * pyfloat) :=
  if negb (Nat.eqb (length r_mat) (length r_free)) then Err RuntimeError else
  let true_reflection := map2 Rminus r_mat r_free in
  let! _ := check_all_zero t_free in
  let! _ := check_all_zero r_free in
  let! t_free := eliminate_transient w true t_free in
  let! t_mat := eliminate_transient w false t_mat in
  let! r_free := eliminate_transient w true r_free in
  let! true_reflection := eliminate_transient w false true_reflection in
  let! rt := peak_based t_free t_mat r_free true_reflection in
  Ok (check_and_normalize (snd rt) (fst rt)).

(** * compute_spectrum_fdtd.py:124-164.  A record holds, per time step, the field
    vectors (x,y,z) at the detector's cells. *)
Definition vec3 := (R * R * R)%type.
(** lines 147-164 [_average_along_detector] *)
Definition average_along_detector (signal : list (list vec3)) : list vec3 :=
  map (fun cells =>
         let n := INR (length cells) in
         fold_left (fun s p => let '(s0, s1, s2) := s in let '(p0, p1, p2) := p in
                      (s0 + p0 / n, s1 + p1 / n, s2 + p2 / n)) cells (0, 0, 0)) signal.
(** lines 124-144 [_get_abs_value_from_3D_signal]; the absolute value is computed
    and dropped, the z component is returned *)
Definition detector_signal (signal : list (list vec3)) : list R :=
  map (fun v : vec3 => snd v) (average_along_detector signal).
