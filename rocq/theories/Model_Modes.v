(** nidn/trcwa/trcwa.py lines 657-929: modes of a layer, S-matrix, amplitudes and
    Poynting flux.  Complex arithmetic is exact; matrices are mathcomp matrices
    over the field of Cplx.v (CField.v); a 1-D tensor that multiplies a matrix is
    a column. *)
From Coq Require Import Reals.
From mathcomp Require Import all_ssreflect all_algebra.
From Verif Require Import Base Cplx CplxLemmas CField.
Import GRing.Theory.
Delimit Scope R_scope with coqR.
Local Open Scope ring_scope.

(** [torch.sqrt] of a complex number: the root with non-negative real part; on
    the negative real axis the root with non-negative imaginary part (a negative
    zero imaginary part, which selects the other root, is not modelled). *)
Definition Csqrt (z : C) : C :=
  let x := sqrt (Rdiv (Rplus (Cabs z) (Re z)) 2) in
  let y := sqrt (Rdiv (Rminus (Cabs z) (Re z)) 2) in
  (x, if Rlt_dec (Im z) 0 then Ropp y else y).

(** lines 705, 735: [torch.where(torch.imag(q) < 0.0, -q, q)] *)
Definition branch_cut (q : C) : C := if Rlt_dec (Im q) 0 then - q else q.

Definition map_row {n} (f : C -> C) (v : 'rV[C]_n) : 'rV[C]_n := \row_j f (v 0 j).

(** [torch.inverse]: raises RuntimeError (LinAlgError) on a singular matrix. *)
Definition inverse {n} (A : 'M[C]_n) : res 'M[C]_n :=
  if A \in unitmx then Ok (invmx A) else Err RuntimeError.

(** [1.0 / q] for a row of numbers.  torch gives infinities where an entry is
    0; the model raises there instead, so that nothing is claimed of such runs. *)
Definition row_inv {n} (q : 'rV[C]_n) : res 'rV[C]_n :=
  if [forall j, q 0 j != 0] then Ok (map_row (fun z => z^-1) q) else Err RuntimeError.

(** lines 677, 683 *)
Definition Jk {n} (kx ky : 'rV[C]_n) : 'M[C]_(n + n, n) := col_mx (diag_mx (- ky)) (diag_mx kx).

(** lines 657-687 [MakeKPMatrix], layer_type 0: [epinv] is a number *)
Definition MakeKP_uniform {n} (omega epinv : C) (kx ky : 'rV[C]_n) : 'M[C]_(n + n) :=
  (omega ^+ 2)%:M - epinv *: (Jk kx ky *m (Jk kx ky)^T).
(** ... layer_type > 0: [epinv] is a matrix *)
Definition MakeKP_patterned {n} (omega : C) (epinv : 'M[C]_n) (kx ky : 'rV[C]_n) : 'M[C]_(n + n) :=
  (omega ^+ 2)%:M - (Jk kx ky *m epinv) *m (Jk kx ky)^T.

(** What is stored for one layer in q_list, phi_list and kp_list (the three lists
    are always extended together). *)
Record mode (m : nat) := mkMode { m_q : 'rV[C]_m; m_phi : 'M[C]_m; m_kp : 'M[C]_m }.
Arguments mkMode {m}. Arguments m_q {m}. Arguments m_phi {m}. Arguments m_kp {m}.

(** lines 690-709 [SolveLayerEigensystem_uniform] *)
Definition Solve_uniform {n} (omega : C) (kx ky : 'rV[C]_n) (epsilon : C) : 'rV[C]_(n + n) * 'M[C]_(n + n) :=
  let q := \row_j branch_cut (Csqrt (epsilon * omega ^+ 2 - kx 0 j ^+ 2 - ky 0 j ^+ 2)) in
  (row_mx q q, 1%:M).

(** lines 712-736 [SolveLayerEigensystem].  [torch.linalg.eig] is an oracle that
    may raise. *)
Definition Solve_patterned {n} (eig : 'M[C]_(n + n) -> res ('rV[C]_(n + n) * 'M[C]_(n + n)))
    (kx ky : 'rV[C]_n) (kp ep2 : 'M[C]_(n + n)) : res ('rV[C]_(n + n) * 'M[C]_(n + n)) :=
  let k := col_mx (diag_mx kx) (diag_mx ky) in
  let kkT := k *m k^T in
  let M := ep2 *m kp - kkT in
  let! r := eig M in
  Ok (map_row (fun z => branch_cut (Csqrt z)) (fst r), snd r).

(** [q_list[l]] etc.: the entry of a patterned layer is None until its
    permittivity is given, and None cannot be multiplied. *)
Definition get_mode {m} (ms : seq (option (mode m))) (l : nat) : res (mode m) :=
  match List.nth_error ms l with
  | None => Err IndexError
  | Some None => Err TypeError
  | Some (Some x) => Ok x
  end.
Definition get_thickness (ts : seq R) (l : nat) : res R :=
  match List.nth_error ts l with None => Err IndexError | Some t => Ok t end.

(** line 789: [torch.diag(torch.exp(1j * q * thickness))] *)
Definition phase {m} (q : 'rV[C]_m) (t : R) : 'M[C]_m :=
  diag_mx (map_row (fun z => Cexp (Ci * z * RtoC t)) q).

Record smat (m : nat) := mkSmat { S11 : 'M[C]_m; S12 : 'M[C]_m; S21 : 'M[C]_m; S22 : 'M[C]_m }.
Arguments mkSmat {m}. Arguments S11 {m}. Arguments S12 {m}. Arguments S21 {m}. Arguments S22 {m}.

Definition half_C : C := RtoC (Rinv 2).

(** lines 766-807: the loop body for layer [l] *)
Definition smat_step {m} (ms : seq (option (mode m))) (ts : seq R) (l : nat) (S : smat m) : res (smat m) :=
  let! cur := get_mode ms l in
  let! nxt := get_mode ms (l + 1) in
  let! ip := inverse (m_phi cur) in
  let Q := ip *m m_phi nxt in
  let! ikp := inverse (m_kp cur *m m_phi cur) in
  let P1 := diag_mx (m_q cur) *m ikp in
  let! iq := row_inv (m_q nxt) in
  let P2 := (m_kp nxt *m m_phi nxt) *m diag_mx iq in
  let P := P1 *m P2 in
  let T11 := half_C *: (Q + P) in
  let T12 := half_C *: (Q - P) in
  let! t := get_thickness ts l in
  let! t' := get_thickness ts (l + 1) in
  let d1 := phase (m_q cur) t in
  let d2 := phase (m_q nxt) t' in
  let! P1 := inverse (T11 - (d1 *m S12 S) *m T12) in
  let s11 := (P1 *m d1) *m S11 S in
  let s12 := (P1 *m (d1 *m (S12 S *m T11) - T12)) *m d2 in
  let s21 := S21 S + S22 S *m (T12 *m s11) in
  let s22 := S22 S *m (T11 *m d2) + S22 S *m (T12 *m s12) in
  Ok (mkSmat s11 s12 s21 s22).

(** [for l in range(l, l + count)] *)
Fixpoint smat_loop {m} (ms : seq (option (mode m))) (ts : seq R) (count l : nat) (S : smat m) : res (smat m) :=
  match count with
  | O => Ok S
  | S c => let! S' := smat_step ms ts l S in smat_loop ms ts c l.+1 S'
  end.

Definition smat_id {m} : smat m := mkSmat 1%:M 0 0 1%:M.

(** lines 739-809 [GetSMatrix]; line 756 reads [q_list[0]] *)
Definition GetSMatrix {m} (indi indj : nat) (ms : seq (option (mode m))) (ts : seq R) : res (smat m) :=
  let! _ := get_mode ms 0 in
  if indi == indj then Ok smat_id
  else if (indj < indi)%N then Err PlainException
  else smat_loop ms ts (indj - indi) indi smat_id.

(** lines 812-835 [SolveExterior]: returns (aN, b0).  (For no layers
    [q_list[0]] raises.) *)
Definition SolveExterior {m} (a0 bN : 'cV[C]_m) (ms : seq (option (mode m))) (ts : seq R)
    : res ('cV[C]_m * 'cV[C]_m) :=
  let! M := GetSMatrix 0 (size ts).-1 ms ts in
  Ok (S11 M *m a0 + S12 M *m bN, S21 M *m a0 + S22 M *m bN).

(** lines 838-871 [SolveInterior]: after both S-matrices are computed it calls
    [torch.inv], which does not exist in torch. *)
Definition SolveInterior {m} (which_layer : nat) (a0 bN : 'cV[C]_m)
    (ms : seq (option (mode m))) (ts : seq R) : res ('cV[C]_m * 'cV[C]_m) :=
  let! M := GetSMatrix 0 which_layer ms ts in
  let! M' := GetSMatrix which_layer (size ts).-1 ms ts in
  Err AttributeError.

(** lines 874-889 [TranslateAmplitudes] *)
Definition TranslateAmplitudes {m} (q : 'rV[C]_m) (thickness dz : R) (ai bi : 'cV[C]_m) : 'cV[C]_m * 'cV[C]_m :=
  (\col_i (ai i 0 * Cexp (Ci * q 0 i * RtoC dz)),
   \col_i (bi i 0 * Cexp (Ci * q 0 i * RtoC (thickness - dz)%coqR))).

(** lines 892-929 [GetZPoyntingFlux].  [Flux_xy] is lines 907-921, per mode. *)
Definition Flux_A {m} (omega : C) (md : mode m) : res 'M[C]_m :=
  let! iq := row_inv (m_q md) in
  if omega == 0 then Err RuntimeError
  else Ok ((m_kp md *m m_phi md) *m diag_mx (map_row (fun z => omega^-1 * z) iq)).

Definition Flux_xy {m} (ai bi : 'cV[C]_m) (omega : C) (md : mode m) : res ('cV[C]_m * 'cV[C]_m) :=
  let! A := Flux_A omega md in
  let pa := m_phi md *m ai in
  let pb := m_phi md *m bi in
  let Aa := A *m ai in
  let Ab := A *m bi in
  let diff := \col_i (half_C * (Cconj (pb i 0) * Aa i 0 - Cconj (Ab i 0) * pa i 0)) in
  Ok (\col_i (RtoC (Re (Cconj (Aa i 0) * pa i 0)) + diff i 0),
      \col_i (RtoC (Ropp (Re (Cconj (Ab i 0) * pb i 0))) + Cconj (diff i 0))).

(** lines 923-924: [x[:n] + x[n:]] *)
Definition fold_pol {n} (v : 'cV[C]_(n + n)) : 'cV[C]_n := usubmx v + dsubmx v.

(** with byorder > 0 *)
Definition GetZPoyntingFlux_byorder {n} (ai bi : 'cV[C]_(n + n)) (omega : C) (md : mode (n + n))
    : res ('cV[C]_n * 'cV[C]_n) :=
  let! r := Flux_xy ai bi omega md in Ok (fold_pol (fst r), fold_pol (snd r)).

(** with byorder = 0: lines 925-927 *)
Definition GetZPoyntingFlux {n} (ai bi : 'cV[C]_(n + n)) (omega : C) (md : mode (n + n)) : res (C * C) :=
  let! r := GetZPoyntingFlux_byorder ai bi omega md in
  Ok (\sum_i fst r i 0, \sum_i snd r i 0).
