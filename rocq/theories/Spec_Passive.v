(** Vocabulary of energy balance in layered media. *)
From Coq Require Import Reals.
From mathcomp Require Import all_ssreflect all_algebra.
From Verif Require Import Base Cplx CplxLemmas CField Model_Modes Spec_Modes.
Import GRing.Theory.
Delimit Scope R_scope with coqR.
Local Open Scope ring_scope.

(** The Hermitian product of two vectors *)
Definition herm {m} (u v : 'cV[C]_m) : C := \sum_i (Cconj (u i 0) * v i 0).

(** The medium with response matrix [M] does no work on the field, *)
Definition gain_free {m} (M : 'M[C]_m) : Prop := forall v : 'cV[C]_m, (0 <= Im (herm v (M *m v)))%coqR.
(** and takes none from it either. *)
Definition lossless {m} (M : 'M[C]_m) : Prop := forall v : 'cV[C]_m, Im (herm v (M *m v)) = 0%coqR.

Definition real_row {n} (k : 'rV[C]_n) : Prop := forall j, Im (k 0 j) = 0%coqR.

(** [md] are modes of a layer with in-plane permittivity matrix [ep2] and inverse
    z permittivity [epinv]: its kp matrix is the one belonging to [epinv], its mode
    vectors are eigenvectors and no mode number is zero. *)
Definition modes_of {n} (omega : C) (kx ky : 'rV[C]_n) (md : mode (n + n)) (ep2 : 'M[C]_(n + n)) (epinv : 'M[C]_n) : Prop :=
  m_kp md = MakeKP_patterned omega epinv kx ky
  /\ mode_matrix kx ky (m_kp md) ep2 *m m_phi md = m_phi md *m diag_mx (\row_j (m_q md 0 j * m_q md 0 j))
  /\ propagating (m_q md).

(** The power flux through the plane at depth [z] of a layer of thickness [t]. *)
Definition power_at {m} (omega : C) (md : mode m) (t z : R) (a b : 'cV[C]_m) : R :=
  let u := forward_wave (m_q md) z a in
  let v := backward_wave (m_q md) t z b in
  power (E_at omega md u v) (H_at md u v).

(** A layer that does not amplify, resp. that conserves energy, at frequency [omega]. *)
Definition passive_layer {n} (omega : C) (kx ky : 'rV[C]_n) (md : mode (n + n)) : Prop :=
  exists ep2 epinv, modes_of omega kx ky md ep2 epinv
    /\ gain_free (omega *: ep2) /\ gain_free (- omega^-1 *: epinv).
Definition lossless_layer {n} (omega : C) (kx ky : 'rV[C]_n) (md : mode (n + n)) : Prop :=
  exists ep2 epinv, modes_of omega kx ky md ep2 epinv
    /\ lossless (omega *: ep2) /\ lossless (- omega^-1 *: epinv).

(** [a] has components in order [k] only. *)
Definition in_order {n} (k : 'I_n) (a : 'cV[C]_(n + n)) : Prop :=
  forall j, j != k -> a (lshift n j) 0 = 0 /\ a (rshift n j) 0 = 0.
Definition normal {n} (kx ky : 'rV[C]_n) (k : 'I_n) : Prop := kx 0 k = 0 /\ ky 0 k = 0.

