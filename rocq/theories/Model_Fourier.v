(** nidn/fdtd/fourier.py ("fourier"), with the torch backend of
    nidn/fdtd/backend.py ("backend"), the only one there is.  Numbers that Python
    keeps as int or float are reals; the messages are dropped. *)
From Coq Require Import Reals ZArith List Bool.
From Verif Require Import Base.
Import ListNotations.
Open Scope R_scope.

(** [math.ceil] *)
Definition Rceil (r : R) : Z := (- Rfloor (- r))%Z.
(** Division of Python floats *)
Definition fdiv (a b : R) : res R := if Req_EM_T b 0 then Err ZeroDivisionError else Ok (a / b).
(** Truth of a number or None *)
Definition truthy (o : option R) : bool := match o with None => false | Some x => negb (Reqb x 0) end.

(** fourier 49-119 [compute_padding]; [L] is the length of the record *)
Definition compute_padding (L : nat) (dt : R) (window : option (R * R)) (num_bins resolution : option R)
    : res (Z * R) :=
  let! range := match window with
                | None => let! e := fdiv (INR L / 2) (dt * INR L) in Ok (0, e)
                | Some be => Ok be
                end in
  let begin_freq := fst range in
  let end_freq := snd range in
  let end_time := INR L * dt in
  let! bins := match num_bins, resolution with
               | None, Some r => fdiv (begin_freq - end_freq) r
               | None, None => Ok (INR L)
               | Some n, _ => if truthy num_bins || truthy resolution then Ok n else Ok (INR L)
               end in
  let! _ := fdiv 1 end_time in
  let! rate := fdiv 1 dt in
  let! _ := fdiv rate bins in
  let! q := fdiv bins ((end_freq - begin_freq) * dt) in
  Ok ((Rceil q - Z.of_nat L)%Z, end_time).

(** [numpy.fft.fftfreq(n, d)], backend 164 *)
Definition fftfreq (n : nat) (d : R) : res (list R) :=
  let! v := fdiv 1 (INR n * d) in
  let half := ((n - 1) / 2 + 1)%nat in
  Ok (map (fun k => INR k * v) (seq 0 half) ++ map (fun k => - INR (n - k) * v) (seq half (n - half))).

(** fourier 121-141 [compute_frequencies]: the frequencies and the range of
    indices, which is used as a Python slice *)
Definition compute_frequencies (n : nat) (dt : R) (window : option (R * R)) : res (list R * Z * Z) :=
  let! fs := fftfreq n dt in
  match window with
  | None => Ok (fs, 0%Z, (-1)%Z)
  | Some _ => Err NotImplementedError
  end.

(** The Python slice [l[0:-1]] *)
Definition but_last {A} (l : list A) : list A := removelast l.

(** fourier 175-226 [FFT] and 228-288 [impedance] of a grid that has made [steps]
    steps.  [record] is the outcome of lines 191-204 (250-265): reading the signal from
    the argument.  [torch.nn.functional.pad] does not know the mode "edge" (and
    [torch.fft] is a module, which cannot be called).  For [impedance] the two
    reshapes between, which can only raise, are left out. *)
Definition FFT (steps : nat) (record : res (list R)) (dt : R) (window : option (R * R))
    (num_bins resolution : option R) : res (list R * list (R * R)) :=
  if Nat.eqb steps 0 then Ok ([], [])
  else
    let! data := record in
    let! pad := compute_padding (length data) dt window num_bins resolution in
    Err NotImplementedError.
