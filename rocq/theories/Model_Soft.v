(** nidn/fdtd/sources.py 530-658: [SoftArbitraryPointSource], a voltage source
    with a waveform given step by step, which is also a detector of the current
    through its cell.

    Simplification: soft sources come after the other sources in [grid.sources]
    (every source adds to the field, so that the order only matters for which of
    two exceptions is raised). *)
From Coq Require Import Reals ZArith String List Bool.
From Verif Require Import Base Model_FDTD Model_Register.
Import ListNotations.
Open Scope R_scope.

(** sources.py 568-586: the attributes.  [so_cell] is [None] until line 616
    ([self.x, self.y, self.z]), [so_det] is the place of the current detector in
    [grid.detectors], [None] until line 623. *)
Record soft_source := mkSoft {
  so_wave : list R; so_impedance : R;
  so_cell : option zpos; so_det : option nat;
  so_in : list R;    (* input_voltage *)
  so_out : list R }. (* source_voltage *)

(** A grid with soft sources. *)
Record sgrid := mkSG { sg_grid : grid; sg_soft : list soft_source }.

(** sources.py 588-624: [_register_grid].  Line 619 reads the local variable
    [detector_name] before it is assigned. *)
Definition register_soft (wave : list R) (name : option string) (impedance : R)
    (x y z : hkey) (sg : sgrid) : sgrid * option exn :=
  let new cell det := sg_soft sg ++ [mkSoft wave impedance cell det [] []] in
  match claim_name name (sg_grid sg) with
  | Err e => (mkSG (sg_grid sg) (new None None), Some e)
  | Ok g1 =>
    match x, y, z with
    | HList [i], HList [j], HList [k] =>
        match name with
        | Some _ => (mkSG g1 (new (Some (i, j, k)) None), Some UnboundLocalError)
        | None =>
            let '(g2, e) := setitem [KNum (PInt i); KNum (PInt j); KNum (PInt k)]
                                    (CDetector DCurrent None) g1 in
            (mkSG g2 (new (Some (i, j, k)) (Some (length (g_detectors g1)))), e)
        end
    | _, _, _ => (mkSG g1 (new None None), Some ValueError)
    end
  end.

(** grid.py 358-375: [grid[key] = SoftArbitraryPointSource(wave, name, impedance)]. *)
Definition set_soft (key : list pykey) (wave : list R) (name : option string) (impedance : R)
    (sg : sgrid) : sgrid * option exn :=
  match pad_key key with
  | Err e => (sg, Some e)
  | Ok (x, y, z) =>
      let h := handle_key (g_spacing (sg_grid sg)) in
      register_soft wave name impedance (h x) (h y) (h z) sg
  end.

(** sources.py 631-635. *)
Definition soft_input (q : nat) (s : soft_source) : R :=
  if (q <? length (so_wave s))%nat then nth q (so_wave s) 0 else 0.

(** sources.py 637-640: the last reading of the current detector. *)
Definition soft_current (q : nat) (ds : list detector) (s : soft_source) : res R :=
  if (0 <? q)%nat then
    match so_det s with
    | None => Err AttributeError
    | Some d =>
        match nth d ds UnplacedDetector with
        | CurrentDetector _ Is =>
            match rev Is with
            | (i :: _) :: _ => Ok i
            | _ => Err IndexError
            end
        | _ => Err AttributeError
        end
    end
  else Ok 0.

(** sources.py 626-655: [update_E]. *)
Definition soft_update_E (N : shape3) (spacing : R) (q : nat) (ds : list detector)
    (s : soft_source) (E : field) : res (soft_source * field) :=
  let input := soft_input q s in
  let! current := soft_current q ds s in
  let output := if Rltb 0 (so_impedance s) then input + so_impedance s * current else input in
  match so_cell s with
  | None => Err AttributeError
  | Some c =>
      let! p := resolve3 N c in
      Ok (mkSoft (so_wave s) (so_impedance s) (so_cell s) (so_det s)
                 (so_in s ++ [input]) (so_out s ++ [output]),
          add_at E p AZ (output / spacing))
  end.
Fixpoint softs_update_E (N : shape3) (spacing : R) (q : nat) (ds : list detector)
    (l : list soft_source) (E : field) : res (list soft_source * field) :=
  match l with
  | [] => Ok ([], E)
  | s :: r =>
      let! s1 := soft_update_E N spacing q ds s E in
      let! r1 := softs_update_E N spacing q ds r (snd s1) in
      Ok (fst s1 :: fst r1, snd r1)
  end.

(** grid.py 276-304: [Grid.update_E] with soft sources. *)
Definition update_E_soft (sg : sgrid) : res sgrid :=
  let g := sg_grid sg in
  let! bs := map_res (boundary_phi_E (g_N g) (g_H g)) (g_boundaries g) in
  let E1 := bulk_E g in
  let E2 := fold_left (fun E b => boundary_update_E (g_N g) (g_courant g) (g_ie g) b E)
                      bs E1 in
  let! E3 := fold_res (source_update_E (g_N g) (g_steps g)) (g_sources g) E2 in
  let! sE := softs_update_E (g_N g) (g_spacing g) (g_steps g) (g_detectors g) (sg_soft sg) E3 in
  let! ds := map_res (detect_E (g_N g) (snd sE)) (g_detectors g) in
  Ok (mkSG (with_fields g (snd sE) (g_H g) (g_steps g) bs ds) (fst sE)).

(** grid.py 306-330 and sources.py 657-658: soft sources do nothing in
    [update_H]. *)
Definition update_H_soft (sg : sgrid) : res sgrid :=
  let! g := update_H (sg_grid sg) in Ok (mkSG g (sg_soft sg)).

(** grid.py 268-274: [Grid.step]. *)
Definition step_soft (sg : sgrid) : res sgrid :=
  let! s1 := update_E_soft sg in
  let! s2 := update_H_soft s1 in
  let g2 := sg_grid s2 in
  Ok (mkSG (with_fields g2 (g_E g2) (g_H g2) (S (g_steps g2)) (g_boundaries g2) (g_detectors g2))
           (sg_soft s2)).
(** grid.py 251-266: [Grid.run] with an int. *)
Fixpoint run_soft (n : nat) (sg : sgrid) : res sgrid :=
  match n with O => Ok sg | S m => let! s := step_soft sg in run_soft m s end.
(** grid.py 332-336: [Grid.reset]. *)
Definition reset_soft (sg : sgrid) : sgrid := mkSG (reset (sg_grid sg)) (sg_soft sg).
