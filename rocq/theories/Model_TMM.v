(** notebooks/tmm_core.py ("tmm"): the coherent transfer-matrix method, the
    reference the solvers are compared with in FDTD_RCWA_TMM_Comparison.ipynb.

    Simplifications: exact complex arithmetic without signed zeros; numbers that
    numpy keeps as float or complex are complex; where numpy divides by zero or
    multiplies infinities it goes on with NaN or infinities, the model raises
    RuntimeError there, so that nothing is claimed of such runs; the warning about
    opaque layers is dropped; wavelength and angle are single numbers (lines
    277-283 refuse arrays). *)
From Coq Require Import Reals ZArith String List Bool.
From Verif Require Import Base PyVal Cplx.
Import ListNotations.
Open Scope R_scope.

(** line 31: [sys.float_info.epsilon] *)
Definition EPSILON : R := / 2 ^ 52.

(** [numpy.cos] and [numpy.sin] of a complex number *)
Definition Ccos (z : C) : C := (cos (Re z) * cosh (Im z), - (sin (Re z) * sinh (Im z))).
Definition Csin (z : C) : C := (sin (Re z) * cosh (Im z), cos (Re z) * sinh (Im z)).

(** Division *)
Definition cdiv (a b : C) : res C := if Req_EM_T (Cnorm2 b) 0 then Err RuntimeError else Ok (a / b)%C.
Definition rdiv (a b : R) : res R := if Req_EM_T b 0 then Err RuntimeError else Ok (a / b).

(** lines 34-45: 2x2 matrices, and [numpy.dot] *)
Record m22 := mkM { m00 : C; m01 : C; m10 : C; m11 : C }.
Definition mdot (a b : m22) : m22 :=
  mkM (m00 a * m00 b + m01 a * m10 b)%C (m00 a * m01 b + m01 a * m11 b)%C
      (m10 a * m00 b + m11 a * m10 b)%C (m10 a * m01 b + m11 a * m11 b)%C.
Definition mscal (c : C) (a : m22) : m22 := mkM (c * m00 a)%C (c * m01 a)%C (c * m10 a)%C (c * m11 a)%C.
Definition mvec (a : m22) (v : C * C) : C * C :=
  ((m00 a * fst v + m01 a * snd v)%C, (m10 a * fst v + m11 a * snd v)%C).
Definition m_id : m22 := mkM C1 C0 C0 C1.

(** lines 48-91 [is_forward_angle] *)
Definition is_forward_angle (n theta : C) : res bool :=
  let! _ := ensure (Rleb 0 (Re n * Im n)) AssertionError in
  let ncostheta := (n * Ccos theta)%C in
  let answer := if Rltb (100 * EPSILON) (Rabs (Im ncostheta)) then Rltb 0 (Im ncostheta)
                else Rltb 0 (Re ncostheta) in
  let other := Re (n * Ccos (Cconj theta))%C in
  if answer then
    let! _ := ensure (Rltb (- (100 * EPSILON)) (Im ncostheta)) AssertionError in
    let! _ := ensure (Rltb (- (100 * EPSILON)) (Re ncostheta)) AssertionError in
    let! _ := ensure (Rltb (- (100 * EPSILON)) other) AssertionError in
    Ok true
  else
    let! _ := ensure (Rltb (Im ncostheta) (100 * EPSILON)) AssertionError in
    let! _ := ensure (Rltb (Re ncostheta) (100 * EPSILON)) AssertionError in
    let! _ := ensure (Rltb other (100 * EPSILON)) AssertionError in
    Ok false.

(** [l[i] = x] *)
Fixpoint list_set {A} (i : nat) (x : A) (l : list A) : list A :=
  match l, i with
  | [], _ => []
  | _ :: r, O => x :: r
  | y :: r, S j => y :: list_set j x r
  end.

Section Arcsin.
(** [scipy.arcsin]; the properties assume only that it inverts the sine. *)
Variable arcsin : C -> C.

(** lines 94-106 [snell] *)
Definition snell (n_1 n_2 th_1 : C) : res C :=
  let! x := cdiv (n_1 * Csin th_1)%C n_2 in
  let guess := arcsin x in
  let! f := is_forward_angle n_2 guess in
  Ok (if f then guess else (RtoC PI - guess)%C).

(** lines 119-120, 121-122: the angle at [i] is made the forward one *)
Definition make_forward (n_list : list C) (i : nat) (angles : list C) : res (list C) :=
  let! f := is_forward_angle (nth i n_list C0) (nth i angles C0) in
  Ok (if f then angles else list_set i (RtoC PI - nth i angles C0)%C angles).

(** lines 109-124 [list_snell] *)
Fixpoint angles_of (x : C) (n_list : list C) : res (list C) :=
  match n_list with
  | [] => Ok []
  | n :: r => let! s := cdiv x n in let! rest := angles_of x r in Ok (arcsin s :: rest)
  end.
Definition list_snell (n_list : list C) (th_0 : C) : res (list C) :=
  match n_list with
  | [] => Err IndexError
  | n_0 :: _ =>
      let! angles := angles_of (n_0 * Csin th_0)%C n_list in
      let! angles := make_forward n_list 0 angles in
      make_forward n_list (length n_list - 1) angles
  end.

(** lines 127-143 [interface_r] *)
Definition interface_r (polarization : string) (n_i n_f th_i th_f : C) : res C :=
  if String.eqb polarization "s" then
    cdiv (n_i * Ccos th_i - n_f * Ccos th_f)%C (n_i * Ccos th_i + n_f * Ccos th_f)%C
  else if String.eqb polarization "p" then
    cdiv (n_f * Ccos th_i - n_i * Ccos th_f)%C (n_f * Ccos th_i + n_i * Ccos th_f)%C
  else Err ValueError.

(** lines 146-162 [interface_t] *)
Definition interface_t (polarization : string) (n_i n_f th_i th_f : C) : res C :=
  if String.eqb polarization "s" then
    cdiv (RtoC 2 * n_i * Ccos th_i)%C (n_i * Ccos th_i + n_f * Ccos th_f)%C
  else if String.eqb polarization "p" then
    cdiv (RtoC 2 * n_i * Ccos th_i)%C (n_f * Ccos th_i + n_i * Ccos th_f)%C
  else Err ValueError.

(** lines 165-169 [R_from_r] *)
Definition R_from_r (r : C) : R := Cabs r ^ 2.

(** lines 172-193 [T_from_t] *)
Definition T_from_t (pol : string) (t n_i n_f th_i th_f : C) : res R :=
  if String.eqb pol "s" then
    let! q := rdiv (Re (n_f * Ccos th_f)%C) (Re (n_i * Ccos th_i)%C) in Ok (Cabs (t * t)%C * q)
  else if String.eqb pol "p" then
    let! q := rdiv (Re (n_f * Cconj (Ccos th_f))%C) (Re (n_i * Cconj (Ccos th_i))%C) in Ok (Cabs (t * t)%C * q)
  else Err ValueError.

(** lines 196-214 [power_entering_from_r] *)
Definition power_entering_from_r (pol : string) (r n_i th_i : C) : res R :=
  if String.eqb pol "s" then
    rdiv (Re (n_i * Ccos th_i * (C1 + Cconj r) * (C1 - r))%C) (Re (n_i * Ccos th_i)%C)
  else if String.eqb pol "p" then
    rdiv (Re (n_i * Cconj (Ccos th_i) * (C1 + r) * (C1 - Cconj r))%C) (Re (n_i * Cconj (Ccos th_i))%C)
  else Err ValueError.

(** lines 217-230 [interface_R], [interface_T] *)
Definition interface_R (polarization : string) (n_i n_f th_i th_f : C) : res R :=
  let! r := interface_r polarization n_i n_f th_i th_f in Ok (R_from_r r).
Definition interface_T (polarization : string) (n_i n_f th_i th_f : C) : res R :=
  let! t := interface_t polarization n_i n_f th_i th_f in T_from_t polarization t n_i n_f th_i th_f.

(** The dictionary [coh_tmm] returns *)
Record coh_data := mkCoh {
  c_r : C; c_t : C; c_R : R; c_T : R; c_entering : R;
  c_vw : list (C * C); c_kz : list C; c_th : list C;
  c_pol : string; c_n : list C; c_d : list pyfloat; c_th0 : C; c_lam : R }.

(** The thickness of an inner layer; it must be finite (see the header) *)
Definition finite_thickness (d : pyfloat) : bool := match d with Fin _ => true | _ => false end.
Definition thickness (d : pyfloat) : R := match d with Fin x => x | _ => 0 end.

(** lines 306, 314-316: the phase over a layer *)
Definition phase_of (kz : C) (d : R) : C :=
  let delta := (kz * RtoC d)%C in
  if Rltb 35 (Im delta) then (Re delta, 35) else delta.

(** lines 333-339: amplitudes (r, t) at the interfaces, in order *)
Fixpoint interfaces (pol : string) (ns ths : list C) : res (list (C * C)) :=
  match ns, ths with
  | n :: ((n' :: _) as ns'), th :: ((th' :: _) as ths') =>
      let! t := interface_t pol n n' th th' in
      let! r := interface_r pol n n' th th' in
      let! rest := interfaces pol ns' ths' in
      Ok ((r, t) :: rest)
  | _, _ => Ok []
  end.

(** lines 348-353 *)
Definition M_layer (delta : C) (rt : C * C) : m22 :=
  mscal (C1 / snd rt)%C
    (mdot (mkM (Cexp (- Ci * delta)%C) C0 C0 (Cexp (Ci * delta)%C)) (mkM C1 (fst rt) (fst rt) C1)).

(** The matrices M_1, ..., M_{N-2} *)
Definition M_list (kz : list C) (d : list pyfloat) (rt : list (C * C)) : list m22 :=
  map (fun i => M_layer (phase_of (nth i kz C0) (thickness (nth i d NaN))) (nth i rt (C0, C0)))
      (seq 1 (length kz - 2)).

(** lines 354-360 *)
Definition M_total (rt0 : C * C) (Ms : list m22) : m22 :=
  mdot (mscal (C1 / snd rt0)%C (mkM C1 (fst rt0) (fst rt0) C1)) (fold_left mdot Ms m_id).

(** lines 368-373: [v_1, w_1], ..., from the last layer backwards *)
Definition amplitudes (Ms : list m22) (t : C) : list (C * C) :=
  fold_right (fun M l => mvec M (hd (C0, C0) l) :: l) [(t, C0)] Ms.

(** lines 233-393 [coh_tmm] *)
Definition coh_tmm (pol : string) (n_list : list C) (d_list : list pyfloat) (th_0 : C) (lam_vac : R)
    : res coh_data :=
  let N := length n_list in
  let! _ := ensure (Nat.eqb N (length d_list)) ValueError in
  let! _ := ensure (negb (Nat.eqb N 0)) IndexError in
  let d_0 := nth 0 d_list NaN in
  let d_last := nth (N - 1) d_list NaN in
  let! _ := ensure (feq d_0 d_last && feq d_last PInf) AssertionError in
  let n_0 := nth 0 n_list C0 in
  let! _ := ensure (Rltb (Rabs (Im (n_0 * Csin th_0)%C)) (100 * EPSILON)) AssertionError in
  let! f := is_forward_angle n_0 th_0 in
  let! _ := ensure f AssertionError in
  let! th_list := list_snell n_list th_0 in
  let! _ := ensure (negb (Reqb lam_vac 0)) RuntimeError in
  let kz_list := map (fun p => (RtoC (2 * PI) * fst p * Ccos (snd p) / RtoC lam_vac)%C) (combine n_list th_list) in
  let! _ := ensure (forallb (fun i => finite_thickness (nth i d_list NaN)) (seq 1 (N - 2))) RuntimeError in
  let! rt := interfaces pol n_list th_list in
  let! _ := ensure (negb (Nat.eqb N 1)) IndexError in
  let! _ := ensure (forallb (fun p => negb (Reqb (Cnorm2 (snd p)) 0)) rt) RuntimeError in
  let Ms := M_list kz_list d_list rt in
  let Mtilde := M_total (nth 0 rt (C0, C0)) Ms in
  let! r := cdiv (m10 Mtilde) (m00 Mtilde) in
  let! t := cdiv C1 (m00 Mtilde) in
  let n_last := nth (N - 1) n_list C0 in
  let th_last := nth (N - 1) th_list C0 in
  let! T := T_from_t pol t n_0 n_last th_0 th_last in
  let! entering := power_entering_from_r pol r n_0 th_0 in
  Ok (mkCoh r t (R_from_r r) T entering ((C0, C0) :: amplitudes Ms t) kz_list th_list
            pol n_list d_list th_0 lam_vac).

(** lines 396-401 [coh_tmm_reverse] *)
Definition coh_tmm_reverse (pol : string) (n_list : list C) (d_list : list pyfloat) (th_0 : C) (lam_vac : R)
    : res coh_data :=
  let! _ := ensure (negb (Nat.eqb (length n_list) 0)) IndexError in
  let! th_f := snell (nth 0 n_list C0) (nth (length n_list - 1) n_list C0) th_0 in
  coh_tmm pol (rev n_list) (rev d_list) th_f lam_vac.

(** lines 418-427 [unpolarized_RT] *)
Definition unpolarized_RT (n_list : list C) (d_list : list pyfloat) (th_0 : C) (lam_vac : R) : res (R * R) :=
  let! s := coh_tmm "s" n_list d_list th_0 lam_vac in
  let! p := coh_tmm "p" n_list d_list th_0 lam_vac in
  Ok ((c_R s + c_R p) / 2, (c_T s + c_T p) / 2).
End Arcsin.

(** lines 430-493 [position_resolved]; layers are numbered from 0 (a negative
    number fails the assertion).  [c_pol] is "s" or "p" where coh_tmm returned. *)
Record at_point := mkPoint { p_poyn : R; p_absor : R; p_Ex : C; p_Ey : C; p_Ez : C }.
Definition position_resolved (layer : nat) (distance : R) (c : coh_data) : res at_point :=
  let! _ := ensure (Nat.ltb layer (length (c_n c))) IndexError in
  let v := if Nat.ltb 0 layer then fst (nth layer (c_vw c) (C0, C0)) else C1 in
  let w := if Nat.ltb 0 layer then snd (nth layer (c_vw c) (C0, C0)) else c_r c in
  let kz := nth layer (c_kz c) C0 in
  let th := nth layer (c_th c) C0 in
  let n := nth layer (c_n c) C0 in
  let n_0 := nth 0 (c_n c) C0 in
  let th_0 := c_th0 c in
  let! _ := ensure ((Nat.leb 1 layer && (Rleb 0 distance && fle (Fin distance) (nth layer (c_d c) NaN)))
                    || (Nat.eqb layer 0 && Rleb distance 0)) AssertionError in
  let Ef := (v * Cexp (Ci * kz * RtoC distance))%C in
  let Eb := (w * Cexp (- Ci * kz * RtoC distance))%C in
  if String.eqb (c_pol c) "s" then
    let norm := Re (n_0 * Ccos th_0)%C in
    let! poyn := rdiv (Re (n * Ccos th * Cconj (Ef + Eb) * (Ef - Eb))%C) norm in
    let! absor := rdiv (Im (n * Ccos th * kz * RtoC (Cabs (Ef + Eb)%C ^ 2))%C) norm in
    Ok (mkPoint poyn absor C0 (Ef + Eb)%C C0)
  else
    let norm := Re (n_0 * Cconj (Ccos th_0))%C in
    let! poyn := rdiv (Re (n * Cconj (Ccos th) * (Ef + Eb) * Cconj (Ef - Eb))%C) norm in
    let! absor := rdiv (Im (n * Cconj (Ccos th)
                            * (kz * RtoC (Cabs (Ef - Eb)%C ^ 2) - Cconj kz * RtoC (Cabs (Ef + Eb)%C ^ 2)))%C) norm in
    Ok (mkPoint poyn absor ((Ef - Eb) * Ccos th)%C C0 ((- Ef - Eb) * Csin th)%C).

(** lines 676-698 [absorp_in_each_layer].  [-numpy.diff(l)] *)
Fixpoint drops (l : list R) : list R :=
  match l with
  | a :: ((b :: _) as r) => (a - b) :: drops r
  | _ => []
  end.
Fixpoint poynting_at_starts (c : coh_data) (layers : list nat) : res (list R) :=
  match layers with
  | [] => Ok []
  | i :: r => let! p := position_resolved i 0 c in let! rest := poynting_at_starts c r in Ok (p_poyn p :: rest)
  end.
Definition absorp_in_each_layer (c : coh_data) : res (list R) :=
  let N := length (c_d c) in
  let! inner := poynting_at_starts c (seq 2 (N - 3)) in
  let entering := [1] ++ (if Nat.ltb 2 N then [c_entering c] else []) ++ inner ++ [c_T c] in
  Ok (drops entering ++ [c_T c]).
