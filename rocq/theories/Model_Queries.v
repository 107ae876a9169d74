(** nidn/trcwa/trcwa.py: what a TRCWA object answers besides total powers (lines
    258-440; 442-655 only as far as they raise).  The layers are numbered as in
    the code, [which_layer] may be any integer. *)
From Coq Require Import Reals ZArith String.
From mathcomp Require Import all_ssreflect all_algebra.
From Verif Require Import Base Cplx CplxLemmas CField Model_Stack Model_Modes Model_TRCWA.
Import GRing.Theory.
Delimit Scope R_scope with coqR.
Delimit Scope Z_scope with coqZ.
Local Open Scope ring_scope.

(** trcwa 291-342 [RT_Solve] with byorder = 1: one pair of numbers per order *)
Definition RT_Solve_byorder (normalize : bool) (x : excited)
    : res ('cV[C]_(size (x_G x)) * 'cV[C]_(size (x_G x))) :=
  let o := x_ready x in
  let! ab := SolveExterior (x_a0 x) (x_bN x) (s_modes o) (s_thick o) in
  let! m0 := get_mode (s_modes o) 0 in
  let! fb := GetZPoyntingFlux_byorder (x_a0 x) (snd ab) (s_omega o) m0 in
  let! mN := last_mode (s_modes o) in
  let! fe := GetZPoyntingFlux_byorder (fst ab) (x_bN x) (s_omega o) mN in
  let back := \col_i RtoC (- Re (snd fb i 0%R))%coqR in
  let forth := \col_i RtoC (Re (fst fe i 0)) in
  let! rt := (if String.eqb (x_direction x) "forward" then Ok (back, forth)
              else if String.eqb (x_direction x) "backward" then Ok (forth, back)
              else Err UnboundLocalError) in
  Ok (if normalize then (\col_i (fst rt i 0 * s_norm o), \col_i (snd rt i 0 * s_norm o)) else rt).

(** trcwa 344-385 [GetAmplitudes_noTranslate]; [Layer_N] is the number of entries
    of the mode list.  A negative number goes to SolveInterior, whose first call
    of GetSMatrix reads [q_list[0]] and then raises (lines 756-764). *)
Definition GetAmplitudes_noTranslate (which_layer : Z) (x : excited)
    : res ('cV[C]_(size (x_G x) + size (x_G x)) * 'cV[C]_(size (x_G x) + size (x_G x))) :=
  let o := x_ready x in
  if (which_layer =? 0)%coqZ then
    let! ab := SolveExterior (x_a0 x) (x_bN x) (s_modes o) (s_thick o) in
    Ok (x_a0 x, snd ab)
  else if (which_layer =? Z.of_nat (size (s_modes o)) - 1)%coqZ then
    let! ab := SolveExterior (x_a0 x) (x_bN x) (s_modes o) (s_thick o) in
    Ok (fst ab, x_bN x)
  else if (which_layer <? 0)%coqZ then
    let! _ := get_mode (s_modes o) 0 in Err PlainException
  else SolveInterior (Z.to_nat which_layer) (x_a0 x) (x_bN x) (s_modes o) (s_thick o).

(** trcwa 387-440 [GetAmplitudes] (its first part repeats the function above).
    Where that part does not raise, [which_layer] is not negative. *)
Definition GetAmplitudes (which_layer : Z) (z_offset : R) (x : excited)
    : res ('cV[C]_(size (x_G x) + size (x_G x)) * 'cV[C]_(size (x_G x) + size (x_G x))) :=
  let! ab := GetAmplitudes_noTranslate which_layer x in
  let! md := get_mode (s_modes (x_ready x)) (Z.to_nat which_layer) in
  let! t := get_thickness (s_thick (x_ready x)) (Z.to_nat which_layer) in
  Ok (TranslateAmplitudes (m_q md) t z_offset (fst ab) (snd ab)).

(** trcwa 442-456 [Solve_FieldFourier]: after the amplitudes it calls
    [torch.isinstance], which does not exist in torch. *)
Definition Solve_FieldFourier (which_layer : Z) (x : excited) : res unit :=
  let! _ := GetAmplitudes_noTranslate which_layer x in Err AttributeError.

(** trcwa 493-507 [Solve_FieldOnGrid]: the same call comes first. *)
Definition Solve_FieldOnGrid (which_layer : Z) (x : excited) : res unit := Err AttributeError.

(** trcwa 601-615 [Solve_ZStressTensorIntegral] *)
Definition Solve_ZStressTensorIntegral (which_layer : Z) (x : excited) : res unit :=
  Solve_FieldFourier which_layer x.

(** trcwa 534-599 [Volume_integral]: SolveInterior is called for every layer, also
    the first and the last; [rest] stands for lines 573-599.  Reading the lists at
    a number that does not exist raises IndexError before that. *)
Definition Volume_integral {A} (which_layer : Z) (x : excited)
    (rest : 'cV[C]_(size (x_G x) + size (x_G x)) * 'cV[C]_(size (x_G x) + size (x_G x)) -> A) : res A :=
  let o := x_ready x in
  let! ab := (if (which_layer <? 0)%coqZ then let! _ := get_mode (s_modes o) 0 in Err PlainException
              else SolveInterior (Z.to_nat which_layer) (x_a0 x) (x_bN x) (s_modes o) (s_thick o)) in
  Ok (rest ab).

(** trcwa 258-289 [Return_eps].  For a uniform layer it returns Nx x Ny copies of
    the stored permittivity; for a grid layer each component calls a function
    torch does not have ([torch.inv], [torch.ifft2] in fft_funs.py:84), another
    name leaves [epk] unbound, and the model does not look at the errors that may
    come before that (lists that do not exist yet, no permittivities yet, G not
    yet set); for a Fourier layer nothing is returned.  Only non-negative layer
    numbers. *)
Inductive shown (E : Type) := Constant (Nx Ny : nat) (e : E) | Nothing.
Arguments Constant {E}. Arguments Nothing {E}.

Definition Return_eps {T E P} (s : stack T E P) (i Nx Ny : nat) (component : string) : res (shown E) :=
  match List.nth_error (id_list s) i with
  | None => Err IndexError
  | Some id =>
      match id with
      | 0%N :: _ :: k :: _ =>
          match List.nth_error (Uniform_ep_list s) k with
          | None => Err IndexError
          | Some e => Ok (Constant Nx Ny e)
          end
      | 1%N :: _ =>
          if has (String.eqb component) [:: "zz"; "xx"; "xy"; "yx"; "yy"]%string
          then Err AttributeError else Err UnboundLocalError
      | _ => Ok Nothing
      end
  end.
