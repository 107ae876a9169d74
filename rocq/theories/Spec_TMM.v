(** What a plane wave in a stack of layers is, without transfer matrices. *)
From Coq Require Import Reals String List.
From Verif Require Import Base PyVal Cplx Model_TMM.
Import ListNotations.
Open Scope R_scope.

(** A wave of amplitude [f] forwards and [b] backwards in a medium with index [n],
    at an angle with cosine [c]: its electric and magnetic field along the
    interfaces (up to constants).  "s": E is along the interface; "p": H is. *)
Definition tangential (pol : string) (n c : C) (fb : C * C) : C * C :=
  if String.eqb pol "s" then ((fst fb + snd fb)%C, (n * c * (fst fb - snd fb))%C)
  else ((n * (fst fb + snd fb))%C, (c * (fst fb - snd fb))%C).

(** The power such a wave carries through a unit of area: Re (E x conj H). *)
Definition power (pol : string) (n c : C) (fb : C * C) : R :=
  Re (fst (tangential pol n c fb) * Cconj (snd (tangential pol n c fb)))%C.

(** The amplitudes at a depth where the wave has gained the phase [delta]. *)
Definition advance (delta : C) (fb : C * C) : C * C :=
  ((fst fb * Cexp (Ci * delta))%C, (snd fb * Cexp (- Ci * delta))%C).

(** A wave in a stack: [waves] are the amplitudes at the start of each layer (in
    the first layer: at its end).  At each interface the tangential fields on the
    two sides agree. *)
Definition wave_in_stack (pol : string) (ns cs deltas : list C) (waves : list (C * C)) : Prop :=
  length waves = length ns /\
  forall i, (S i < length ns)%nat ->
    tangential pol (nth i ns C0) (nth i cs C0)
      (if Nat.eqb i 0 then nth 0 waves (C0, C0) else advance (nth i deltas C0) (nth i waves (C0, C0)))
    = tangential pol (nth (S i) ns C0) (nth (S i) cs C0) (nth (S i) waves (C0, C0)).

(** The phases over the layers of a result: kz d, with the imaginary part of
    opaque layers reduced to 35. *)
Definition phases (c : coh_data) : list C :=
  map (fun p => let delta := (fst p * RtoC (thickness (snd p)))%C in (Re delta, Rmin (Im delta) 35)) (combine (c_kz c) (c_d c)).

(** No layer but the outer ones is opaque: the phase is what it should be. *)
Definition no_opaque_layer (c : coh_data) : Prop :=
  forall i, (0 < i)%nat -> (S i < length (c_n c))%nat ->
    Im (nth i (c_kz c) C0 * RtoC (thickness (nth i (c_d c) NaN)))%C <= 35.

(** A medium without gain. *)
Definition passive (n : C) : Prop := 0 <= Re n * Im n.
(** A medium without loss or gain. *)
Definition lossless (n : C) : Prop := Re n * Im n = 0.

(** ** Reading a result *)
(** Index and cosine of the angle in layer [i]. *)
Definition index_of (c : coh_data) (i : nat) : C := nth i (c_n c) C0.
Definition cosine_of (c : coh_data) (i : nat) : C := Ccos (nth i (c_th c) C0).
(** The wave at the start of layer [i]; in the first layer, at its end. *)
Definition wave_of (c : coh_data) (i : nat) : C * C :=
  if Nat.eqb i 0 then (C1, c_r c) else nth i (c_vw c) (C0, C0).
(** The wave at the distance [z] from there. *)
Definition wave_at (c : coh_data) (i : nat) (z : R) : C * C :=
  advance (nth i (c_kz c) C0 * RtoC z)%C (wave_of c i).
(** The power it carries, in units of the power of the incident wave (1, 0). *)
Definition relative_power (c : coh_data) (i : nat) (fb : C * C) : R :=
  power (c_pol c) (index_of c i) (cosine_of c i) fb / power (c_pol c) (index_of c 0) (cosine_of c 0) (C1, C0).

(** What numpy's arcsin does: it inverts the sine, *)
Definition inverts_sine (f : C -> C) : Prop := forall z, Csin (f z) = z.
(** and the cosine of its value is in the right half plane, away from the cuts. *)
Definition principal (f : C -> C) : Prop := forall z, Im z <> 0 \/ -1 < Re z < 1 -> 0 < Re (Ccos (f z)).

(** A medium with index [n] in which a wave with transverse index [s] (n sin th)
    propagates: absorbing, or not beyond the critical angle. *)
Definition admits (s : R) (n : C) : Prop := 0 < Re n /\ 0 <= Im n /\ (0 < Im n \/ Rabs s < Re n).

Definition total (l : list R) : R := fold_right Rplus 0 l.

(** The positions the code accepts: [z <= 0] in the first medium, and in any
    later layer a distance from its start within its thickness, the last
    medium having no end. *)
Definition in_layer (ds : list pyfloat) (i : nat) (z : R) : Prop :=
  (i = 0%nat /\ z <= 0) \/
  ((0 < i < length ds)%nat /\ 0 <= z /\ ((S i < length ds)%nat -> z <= thickness (nth i ds NaN))).

(** Fresnel's coefficients between the media [n] and [n'], at angles with the
    cosines [c] and [c']. *)
Definition fresnel_r (pol : string) (n n' c c' : C) : C :=
  (if String.eqb pol "s" then (n * c - n' * c') / (n * c + n' * c') else (n' * c - n * c') / (n' * c + n * c'))%C.
Definition fresnel_t (pol : string) (n n' c c' : C) : C :=
  (if String.eqb pol "s" then RtoC 2 * n * c / (n * c + n' * c') else RtoC 2 * n * c / (n' * c + n * c'))%C.

(** A thickness [k] times as large *)
Definition scaled (k : R) (d : pyfloat) : pyfloat := match d with Fin x => Fin (k * x) | y => y end.
