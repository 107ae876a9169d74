(** Property theorems C68: frequency analysis of recorded signals.  [bins_fit] is
    defined in Spec_Fourier.v. *)
From Coq Require Import Reals ZArith List Bool Lra Lia.
From Verif Require Import Base Model_Fourier Spec_Fourier Proof_Fourier.
Import ListNotations.
Open Scope R_scope.

(** Without further arguments a record is padded to twice its length. *)
Theorem C68_padding_default : forall L dt, (0 < L)%nat -> 0 < dt ->
  compute_padding L dt None None None = Ok (Z.of_nat L, INR L * dt).
Proof. exact padding_default. Qed.
Print Assumptions C68_padding_default.

(** For a band and a number of bins the padded length is the least for which that
    many bins fit into the band (it can be less than the length of the record; the
    padding is then negative). *)
Theorem C68_padding_band : forall L dt b e n resolution, (0 < L)%nat -> 0 < dt -> b < e -> 0 < n ->
  exists p, compute_padding L dt (Some (b, e)) (Some n) resolution = Ok (p, INR L * dt)
    /\ let P := (Z.of_nat L + p)%Z in
       (0 < P)%Z /\ bins_fit n P dt (e - b) /\ forall P', (0 < P')%Z -> bins_fit n P' dt (e - b) -> (P <= P')%Z.
Proof. exact padding_window. Qed.
Print Assumptions C68_padding_band.

(** Asking for a resolution never gives a usable padding: the padded length is not
    positive. *)
Theorem C68_resolution_refuted : forall L dt window r, (0 < L)%nat -> 0 < dt -> 0 < r ->
  (forall b e, window = Some (b, e) -> b < e) ->
  exists p, compute_padding L dt window None (Some r) = Ok (p, INR L * dt) /\ (Z.of_nat L + p <= 0)%Z.
Proof. exact padding_resolution. Qed.
Print Assumptions C68_resolution_refuted.

(** Exactly for empty records, a time step of zero, an empty band, a resolution of
    zero, and no bins but a resolution is there no padding. *)
Theorem C68_padding_raises : forall L dt window nb r,
  let fails := L = 0%nat \/ dt = 0 \/ (exists b, window = Some (b, b)) \/ (nb = None /\ r = Some 0)
               \/ (nb = Some 0 /\ exists x, r = Some x /\ x <> 0) in
  (fails -> compute_padding L dt window nb r = Err ZeroDivisionError) /\
  (~ fails -> exists p, compute_padding L dt window nb r = Ok (p, INR L * dt)).
Proof. exact padding_raises. Qed.
Print Assumptions C68_padding_raises.
(** Zero bins mean the default. *)
Theorem C68_no_bins : forall L dt window r, r = None \/ r = Some 0 ->
  compute_padding L dt window (Some 0) r = compute_padding L dt window None None.
Proof. exact padding_no_bins. Qed.
Print Assumptions C68_no_bins.

(** The frequencies of n bins: bin k has the frequency k / (n dt), or that less the
    sampling rate, whichever lies in the half-open band of the sampling theorem. *)
Theorem C68_frequencies : forall n d, (0 < n)%nat -> 0 < d ->
  exists fs, fftfreq n d = Ok fs /\ length fs = n
    /\ forall k, (k < n)%nat ->
         nth k fs 0 = (if (2 * k <? n)%nat then INR k else INR k - INR n) / (INR n * d)
         /\ - (1 / (2 * d)) <= nth k fs 0 < 1 / (2 * d).
Proof. exact fftfreq_ok. Qed.
Print Assumptions C68_frequencies.
(** [compute_frequencies] returns them with the index range from the first to the
    last but one, and raises for every band. *)
Theorem C68_band_raises : forall n d, (0 < n)%nat -> 0 < d ->
  (exists fs, fftfreq n d = Ok fs /\ compute_frequencies n d None = Ok (fs, 0%Z, (-1)%Z))
  /\ forall w, compute_frequencies n d (Some w) = Err NotImplementedError.
Proof. exact frequencies_ok. Qed.
Print Assumptions C68_band_raises.
(** The documented range, the part with real (not negative) frequencies, is not
    what it is. *)
Theorem C68_real_part_refuted : forall n d, (4 <= n)%nat -> 0 < d ->
  exists fs, fftfreq n d = Ok fs /\ exists f, In f (but_last fs) /\ f < 0.
Proof. exact frequencies_negative. Qed.
Print Assumptions C68_real_part_refuted.

(** A transform is returned only before the first step, and then it is empty. *)
Theorem C68_transform_raises : forall steps record dt window num_bins resolution,
  (steps = 0%nat -> FFT steps record dt window num_bins resolution = Ok ([], []))
  /\ (steps <> 0%nat -> exists e, FFT steps record dt window num_bins resolution = Err e).
Proof. exact fft_raises. Qed.
Print Assumptions C68_transform_raises.

(** Ten samples every half second: padded by ten; 3 bins between 0.1 and 0.4 Hz
    need 20 samples. *)
Example C68_case : compute_padding 10 (1 / 2) None None None = Ok (10%Z, 5)
  /\ exists p, compute_padding 10 (1 / 2) (Some (1 / 10, 4 / 10)) (Some 3) None = Ok (p, 5) /\ (10 + p = 20)%Z.
Proof.
  split. { rewrite C68_padding_default by (lia || lra). do 2 f_equal. cbn. lra. }
  destruct (C68_padding_band 10 (1 / 2) (1 / 10) (4 / 10) 3 None ltac:(lia) ltac:(lra) ltac:(lra) ltac:(lra)) as [p [E [P1 [F M]]]].
  exists p. split. { rewrite E. do 2 f_equal. cbn. lra. }
  assert (A : (Z.of_nat 10 + p <= 20)%Z).
  { apply M; [lia|]. unfold bins_fit. lra. }
  assert (B : 20 <= IZR (Z.of_nat 10 + p)).
  { apply IZR_lt in P1. unfold bins_fit in F. set (x := IZR (Z.of_nat 10 + p)) in *.
    apply Rmult_le_compat_r with (r := x) in F; [|lra].
    replace (3 * (1 / (x * (1 / 2))) * x) with 6 in F by (field; lra). lra. }
  apply le_IZR in B. lia.
Qed.
