(** Vocabulary of the mode, S-matrix and flux properties. *)
From Coq Require Import Reals.
From mathcomp Require Import all_ssreflect all_algebra.
From Verif Require Import Base Cplx CplxLemmas CField Model_Modes.
Import GRing.Theory.
Delimit Scope R_scope with coqR.
Local Open Scope ring_scope.

(** Layer [l] of a stack has mode data [md] and thickness [t]. *)
Definition layer_is {m} (ms : seq (option (mode m))) (ts : seq R) (l : nat) (md : mode m) (t : R) : Prop :=
  List.nth_error ms l = Some (Some md) /\ List.nth_error ts l = Some t.

(** Every mode propagates: no mode number is zero. *)
Definition propagating {m} (q : 'rV[C]_m) : Prop := forall j, q 0 j <> C0.

(** The field of a layer of thickness [t] at depth [z].  Mode [j] has vector
    [phi_j] and mode number [q_j]; [a_j] is the amplitude of its forward wave at
    the front of the layer, [b_j] that of its backward wave at the back. *)
Definition forward_wave {m} (q : 'rV[C]_m) (z : R) (a : 'cV[C]_m) : 'cV[C]_m :=
  \col_j (Cexp (Cmul (Cmul Ci (q 0 j)) (RtoC z)) * a j 0).
Definition backward_wave {m} (q : 'rV[C]_m) (t z : R) (b : 'cV[C]_m) : 'cV[C]_m :=
  \col_j (Cexp (Cmul (Cmul Ci (q 0 j)) (RtoC (Rminus t z))) * b j 0).
Definition H_field {m} (md : mode m) (t z : R) (a b : 'cV[C]_m) : 'cV[C]_m :=
  m_phi md *m (forward_wave (m_q md) z a + backward_wave (m_q md) t z b).
(** omega times the rotated tangential electric field *)
Definition E_field {m} (md : mode m) (t z : R) (a b : 'cV[C]_m) : 'cV[C]_m :=
  m_kp md *m (m_phi md *m
    (\col_j ((forward_wave (m_q md) z a - backward_wave (m_q md) t z b) j 0 / m_q md 0 j))).

(** The tangential fields are continuous between layers [l] and [l+1]. *)
Definition continuous {m} (ms : seq (option (mode m))) (ts : seq R) (a b : nat -> 'cV[C]_m) (l : nat) : Prop :=
  forall md t md' t', layer_is ms ts l md t -> layer_is ms ts l.+1 md' t' ->
    H_field md t t (a l) (b l) = H_field md' t' 0 (a l.+1) (b l.+1)
    /\ E_field md t t (a l) (b l) = E_field md' t' 0 (a l.+1) (b l.+1).

(** The matrix whose eigenvectors are the modes of a layer with permittivity
    matrix [ep2] (acting on both polarisations) and kp matrix [kp]:
    [ep2 kp - k k^T]. *)
Definition mode_matrix {n} (kx ky : 'rV[C]_n) (kp ep2 : 'M[C]_(n + n)) : 'M[C]_(n + n) :=
  ep2 *m kp - col_mx (diag_mx kx) (diag_mx ky) *m row_mx (diag_mx kx) (diag_mx ky).

(** [q] is the mode number belonging to the squared wave number [w]: a square root
    that makes the forward wave decay, or travel forward if it does not decay. *)
Definition mode_root (w q : C) : Prop :=
  Cmul q q = w /\ (0 <= Im q)%coqR /\ (Im q = 0%coqR -> (0 <= Re q)%coqR).

(** The real power flux density of tangential fields E and H, summed over the
    components. *)
Definition power {m} (E H : 'cV[C]_m) : R := Re (\sum_i (Cconj (E i 0) * H i 0)).

(** The tangential fields at a plane where the forward amplitudes are [a] and the
    backward amplitudes [b]. *)
Definition H_at {m} (md : mode m) (a b : 'cV[C]_m) : 'cV[C]_m := m_phi md *m (a + b).
Definition E_at {m} (omega : C) (md : mode m) (a b : 'cV[C]_m) : 'cV[C]_m :=
  m_kp md *m (m_phi md *m (\col_j ((a - b) j 0 / (omega * m_q md 0 j)))).
