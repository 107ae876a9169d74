(** The rest of notebooks/tmm_core.py ("tmm") on coherent stacks: finding depths,
    the absorption as a function of depth, ellipsometry.  Simplifications as in
    Model_TMM.v. *)
From Coq Require Import Reals ZArith String List Bool.
From Verif Require Import Base PyVal Cplx Model_TMM.
Import ListNotations.
Open Scope R_scope.

(** * Depths *)

(** lines 515-518 *)
Fixpoint find_loop (d_list : list pyfloat) (layer : Z) (distance : pyfloat) : Z * pyfloat :=
  match d_list with
  | [] => (layer, distance)
  | d :: r => if fle d distance then find_loop r (layer + 1)%Z (fadd distance (fneg d)) else (layer, distance)
  end.
(** lines 496-519 [find_in_structure] *)
Definition find_in_structure (d_list : list pyfloat) (distance : pyfloat) : res (Z * pyfloat) :=
  if feq (fold_left fadd d_list (Fin 0)) PInf then Err ValueError
  else if flt distance (Fin 0) then Ok ((-1)%Z, distance)
  else Ok (find_loop d_list 0 distance).

(** lines 522-540 [find_in_structure_with_inf]; [d_list[1:-1]] *)
Definition find_in_structure_with_inf (d_list : list pyfloat) (distance : pyfloat) : res (Z * pyfloat) :=
  if flt distance (Fin 0) then Ok (0%Z, distance)
  else let! f := find_in_structure (removelast (tl d_list)) distance in
       Ok ((fst f + 1)%Z, snd f).

(** lines 555-556: the starts from layer 2 on *)
Fixpoint starts_from (start : pyfloat) (d_list : list pyfloat) : list pyfloat :=
  match d_list with
  | [] => []
  | d :: r => fadd start d :: starts_from (fadd start d) r
  end.
(** lines 543-557 [layer_starts]; with fewer than two layers line 553 or 554
    raises *)
Definition layer_starts (d_list : list pyfloat) : res (list pyfloat) :=
  if Nat.ltb (length d_list) 2 then Err IndexError
  else Ok (NInf :: Fin 0 :: starts_from (Fin 0) (removelast (tl d_list))).

(** * Absorption as a function of depth *)

(** lines 559-573: the attributes of an [absorp_analytic_fn] *)
Record absorption_fn := mkAbs { A1 : R; A2 : R; A3 : C; a1 : R; a3 : R; f_d : pyfloat }.

(** [l[i]] with Python's negative indices, as a position in a list of [n] *)
Definition py_index (n : nat) (i : Z) : res nat :=
  if (0 <=? i)%Z && (i <? Z.of_nat n)%Z then Ok (Z.to_nat i)
  else if (- Z.of_nat n <=? i)%Z && (i <? 0)%Z then Ok (Z.to_nat (i + Z.of_nat n))
  else Err IndexError.

(** lines 575-615 [fill_in]; the lists of [coh_tmm_data] have the same length *)
Definition fill_in (c : coh_data) (layer : Z) : res absorption_fn :=
  let! i := py_index (length (c_vw c)) layer in
  let v := fst (nth i (c_vw c) (C0, C0)) in
  let w := snd (nth i (c_vw c) (C0, C0)) in
  let kz := nth i (c_kz c) C0 in
  let n := nth i (c_n c) C0 in
  let n_0 := nth 0 (c_n c) C0 in
  let th_0 := c_th0 c in
  let th := nth i (c_th c) C0 in
  let d := nth i (c_d c) NaN in
  if String.eqb (c_pol c) "s" then
    let! temp := rdiv (Im (n * Ccos th * kz)%C) (Re (n_0 * Ccos th_0)%C) in
    Ok (mkAbs (temp * Cabs w ^ 2) (temp * Cabs v ^ 2) (RtoC temp * v * Cconj w)%C (2 * Im kz) (2 * Re kz) d)
  else
    let! temp := rdiv (2 * Im kz * Re (n * Ccos (Cconj th))%C) (Re (n_0 * Cconj (Ccos th_0))%C) in
    let! temp3 := rdiv (- 2 * Re kz * Im (n * Ccos (Cconj th))%C) (Re (n_0 * Cconj (Ccos th_0))%C) in
    Ok (mkAbs (temp * Cabs w ^ 2) (temp * Cabs v ^ 2) (v * Cconj w * RtoC temp3)%C (2 * Im kz) (2 * Re kz) d).

(** lines 632-642 [run] *)
Definition run (f : absorption_fn) (z : R) : C :=
  (RtoC (A1 f * exp (a1 f * z)) + RtoC (A2 f * exp (- a1 f * z))
   + A3 f * Cexp (Ci * RtoC (a3 f) * RtoC z) + Cconj (A3 f) * Cexp (- Ci * RtoC (a3 f) * RtoC z))%C.

(** lines 644-653 [flip]; an infinite thickness gives NaN (see Model_TMM.v) *)
Definition flip (f : absorption_fn) : res absorption_fn :=
  match f_d f with
  | Fin d =>
      Ok (mkAbs (A2 f * exp (- a1 f * d)) (A1 f * exp (a1 f * d))
                (Cconj (A3 f * Cexp (Ci * RtoC (a3 f) * RtoC d))%C) (a1 f) (a3 f) (f_d f))
  | _ => Err RuntimeError
  end.

(** lines 655-662 [scale] *)
Definition scale (f : absorption_fn) (factor : R) : absorption_fn :=
  mkAbs (A1 f * factor) (A2 f * factor) (A3 f * RtoC factor)%C (a1 f) (a3 f) (f_d f).

(** lines 664-673 [add] *)
Definition add (f b : absorption_fn) : res absorption_fn :=
  if negb (Reqb (a1 b) (a1 f)) || negb (Reqb (a3 b) (a3 f)) then Err ValueError
  else Ok (mkAbs (A1 f + A1 b) (A2 f + A2 b) (A3 f + A3 b)%C (a1 f) (a3 f) (f_d f)).

(** * Ellipsometry *)

(** [numpy.angle], the phase of a number in (-pi, pi] *)
Definition angle (z : C) : R :=
  let x := Re z in let y := Im z in
  if Rlt_dec 0 x then atan (y / x)
  else if Rlt_dec x 0 then (if Rle_dec 0 y then atan (y / x) + PI else atan (y / x) - PI)
  else if Rlt_dec 0 y then PI / 2 else if Rlt_dec y 0 then - (PI / 2) else 0.

(** lines 404-415 [ellips] *)
Definition ellips (arcsin : C -> C) (n_list : list C) (d_list : list pyfloat) (th_0 : C) (lam_vac : R) : res (R * R) :=
  let! s_data := coh_tmm arcsin "s" n_list d_list th_0 lam_vac in
  let! p_data := coh_tmm arcsin "p" n_list d_list th_0 lam_vac in
  let rs := c_r s_data in
  let rp := c_r p_data in
  let! q := cdiv rp rs in
  let! q' := cdiv (- rp)%C rs in
  Ok (atan (Cabs q), angle q').
