(** Stacks of layers between incoherent layers; intensities of light. *)
From Coq Require Import Reals String List.
From Verif Require Import Base PyVal Cplx Model_TMM Spec_TMM Model_TMM3.
Import ListNotations.
Open Scope R_scope.

(** Layers the incoherent method accepts: outer layers are infinite and incoherent,
    each layer is incoherent, "i", or coherent, "c". *)
Definition well_formed (ns : list C) (ds : list pyfloat) (cs : list string) : Prop :=
  ns <> [] /\ length ds = length ns /\ length cs = length ns /\
  nth 0 ds NaN = PInf /\ nth (length ds - 1) ds NaN = PInf /\
  nth 0 cs EmptyString = "i"%string /\ nth (length cs - 1) cs EmptyString = "i"%string /\
  forall c, In c cs -> c = "i"%string \/ c = "c"%string.

(** The layers from [a], incoherent, over [m > 0] coherent layers to the next
    incoherent layer. *)
Definition is_stack (cs : list string) (a m : nat) : Prop :=
  (0 < m)%nat /\ (a + m + 1 < length cs)%nat /\
  nth a cs EmptyString = "i"%string /\ nth (a + m + 1) cs EmptyString = "i"%string /\
  forall i, (a < i <= a + m)%nat -> nth i cs EmptyString = "c"%string.

(** Reading a result: the forward and backward intensities at the start of the
    incoherent layer number [k]; in the first medium, at its end. *)
Definition intensity (D : inc_data) (k : nat) : R * R :=
  if Nat.eqb k 0 then (1, i_R D) else nth (k - 1) (i_VW D) (0, 0).
(** How light crosses what is between the incoherent layers [k] and [k + 1]. *)
Definition crossing_of (D : inc_data) (k : nat) : crossing := nth k (i_crossings D) (mkCross 0 0 0 0).
(** The part of the light that passes the incoherent layer [k]. *)
Definition pass_of (D : inc_data) (k : nat) : R := nth k (i_P D) 0.
Definition incoherent_layers (D : inc_data) : nat := length (g_all_from_inc (i_group D)).

(** Intensities in balance: what leaves an incoherent layer forwards or backwards
    is what is reflected there and what comes through from the other side. *)
Definition balanced (m : nat) (X : nat -> crossing) (P : nat -> R) (I : nat -> R * R) : Prop :=
  forall k, (S k < m)%nat ->
    let forward := if Nat.eqb k 0 then fst (I 0%nat) else P k * fst (I k) in
    exists backward, snd (I k) = (if Nat.eqb k 0 then backward else P k * backward) /\
      fst (I (S k)) = x_Tf (X k) * forward + x_Rb (X k) * snd (I (S k)) /\
      backward = x_Rf (X k) * forward + x_Tb (X k) * snd (I (S k)).

(** Light crossing an interface from the medium [n] to [n'], at angles with the
    cosines [c] and [c'], in both directions: Fresnel's coefficients and the power
    they carry. *)
Definition interface_crossing (pol : string) (n c n' c' : C) : crossing :=
  mkCross (Cnorm2 (fresnel_r pol n n' c c'))
          (power pol n' c' (fresnel_t pol n n' c c', C0) / power pol n c (C1, C0))
          (Cnorm2 (fresnel_r pol n' n c' c))
          (power pol n c (fresnel_t pol n' n c' c, C0) / power pol n' c' (C1, C0)).

(** The layer number of the incoherent layer [k]. *)
Definition layer_of (D : inc_data) (k : nat) : nat := nth k (g_all_from_inc (i_group D)) 0%nat.
(** The intensity that reaches the end of the incoherent layer [k]. *)
Definition reaching_end (D : inc_data) (k : nat) : R :=
  if Nat.eqb k 0 then 1 else pass_of D k * fst (intensity D k).

(** Crossings that do not make light. *)
Definition no_gain (x : crossing) : Prop :=
  0 <= x_Rf x /\ 0 < x_Tf x /\ x_Rf x + x_Tf x <= 1 /\ 0 <= x_Rb x /\ 0 < x_Tb x /\ x_Rb x + x_Tb x <= 1.
(** A medium without absorption in which a wave with transverse index [s] (n sin th)
    propagates. *)
Definition transparent (s : R) (n : C) : Prop := Im n = 0 /\ Rabs s < Re n.
