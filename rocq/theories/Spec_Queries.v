(** Vocabulary of the properties of queries. *)
From Coq Require Import Reals ZArith.
From mathcomp Require Import all_ssreflect all_algebra.
From Verif Require Import Base Cplx CField Model_Modes Model_TRCWA.
Local Open Scope ring_scope.

(** The answer of an amplitude query: forward and backward amplitudes of all modes *)
Definition amplitudes (x : excited) : Type :=
  ('cV[C]_(size (x_G x) + size (x_G x)) * 'cV[C]_(size (x_G x) + size (x_G x)))%type.

(** Layer [l] of the object has these mode numbers. *)
Definition layer_q (x : excited) (l : nat) (q : 'rV[C]_(size (x_G x) + size (x_G x))) : Prop :=
  exists md, List.nth_error (s_modes (x_ready x)) l = Some (Some md) /\ m_q md = q.

(** The factor by which a wave with mode number [q] changes along a distance [dz]. *)
Definition travelled (q : C) (dz : R) : C := Cexp (Cmul (Cmul Ci q) (RtoC dz)).
