(** Property theorems C71: plane sources. *)
From Coq Require Import Reals ZArith String List Bool Lra Lia.
From Verif Require Import Base BaseLemmas Model_Units Model_FDTD Model_Register Spec_FDTD Spec_Register Spec_Plane Proof_Steps Proof_Linear Proof_Reset Proof_Cavity Proof_Register Proof_PML Proof_Plane.
Import ListNotations.
Open Scope R_scope.

(** Which placements are accepted. *)
Theorem C71_accepted_iff : forall x y z nm s g,
  (forall n, nm = Some n -> ~ In n (g_attrs g)) ->
  ((exists g', setitem [x; y; z] (CPlane nm s) g = (g', None)) <->
   exists lo hi e h, placed_plane (g_N g) (pl_polarization s) (handle_key (g_spacing g) x) (handle_key (g_spacing g) y) (handle_key (g_spacing g) z) lo hi e h).
Proof. exact plane_accepted. Qed.
Print Assumptions C71_accepted_iff.
Theorem C71_refused_with : forall key nm s g g' e,
  (1 <= length key <= 3)%nat -> setitem key (CPlane nm s) g = (g', Some e) -> e = ValueError.
Proof. exact plane_refused. Qed.
Print Assumptions C71_refused_with.
(** One letter: both polarizations are in the plane, at right angles. *)
Theorem C71_polarizations : forall N e0 x y z lo hi e h,
  placed_plane N (axis_letter e0) x y z lo hi e h ->
  e = e0 /\ e <> h /\ (zcoord e hi - zcoord e lo <> 1)%Z /\ (zcoord h hi - zcoord h lo <> 1)%Z.
Proof. exact plane_polarizations. Qed.
Print Assumptions C71_polarizations.
(** Other spellings get an electric field along the normal past the check. *)
Theorem C71_polarization_check_refuted : exists key s g g', setitem key (CPlane None s) g = (g', None)
  /\ (exists lo hi h amp per ph, g_sources g' = g_sources g ++ [PlaneSource lo hi AX h amp per ph] /\ (zcoord AX hi - zcoord AX lo = 1)%Z)
  /\ pl_polarization s = "xy"%string.
Proof. exact plane_normal_polarization. Qed.
Print Assumptions C71_polarization_check_refuted.

(** After every step of any run the fields on the plane are the signal, whatever
    else is on the grid. *)
Theorem C71_fields_are_signal : forall key nm s g g' n g'',
  setitem key (CPlane nm s) g = (g', None) -> run_steps (S n) g' = Ok g'' ->
  exists x y z lo hi e h, pad_key key = Ok (x, y, z)
  /\ placed_plane (g_N g) (pl_polarization s) (handle_key (g_spacing g) x) (handle_key (g_spacing g) y) (handle_key (g_spacing g) z) lo hi e h
  /\ forall p, in_cells (clip3 (g_N g) lo) (clip3 (g_N g) hi) p ->
     g_E g'' p e = plane_signal g s (g_steps g + n) /\ g_H g'' p h = plane_signal g s (g_steps g + n).
Proof. exact plane_emits. Qed.
Print Assumptions C71_fields_are_signal.
(** The whole plane at an index of the grid: the run still works, and every cell
    of the plane carries the signal. *)
Theorem C71_whole_plane : forall a v nm s g g' n,
  setitem (plane_at a v) (CPlane nm s) g = (g', None) ->
  handle_time (g_time_step g) (pl_period s) <> 0%Z -> index_ok (g_N g a) v -> v <> (-1)%Z ->
  (exists k, run_steps (S n) g = Ok k) ->
  exists k e h, run_steps (S n) g' = Ok k /\ In (pl_polarization s, e) polarizations /\ h = third_axis e a
  /\ forall p, in_grid (g_N g) p -> coord a p = Z.to_nat (if (v <? 0)%Z then v + Z.of_nat (g_N g a) else v) ->
     g_E k p e = plane_signal g s (g_steps g + n) /\ g_H k p h = plane_signal g s (g_steps g + n).
Proof. exact plane_at_acts. Qed.
Print Assumptions C71_whole_plane.
(** At index -1, or outside the grid, it is accepted and never does anything. *)
Theorem C71_silent_placement : forall a v nm s g g' n,
  setitem (plane_at a v) (CPlane nm s) g = (g', None) ->
  handle_time (g_time_step g) (pl_period s) <> 0%Z -> v = (-1)%Z \/ ~ index_ok (g_N g a) v ->
  match run_steps n g, run_steps n g' with
  | Ok k, Ok k' => g_E k' = g_E k /\ g_H k' = g_H k /\ g_detectors k' = g_detectors k /\ g_steps k' = g_steps k
  | Err e1, Err e2 => e1 = e2
  | _, _ => False
  end.
Proof. exact plane_silent. Qed.
Print Assumptions C71_silent_placement.
(** A slice that counts its start from the end and runs past index 0 is accepted,
    and every run raises. *)
Theorem C71_negative_start_raises : forall key nm s g g' n,
  setitem key (CPlane nm s) g = (g', None) ->
  (exists x y z a b c k, pad_key key = Ok (x, y, z) /\ In (a, k) [(AX, x); (AY, y); (AZ, z)]
     /\ handle_key (g_spacing g) k = HSlice (Some b) c None /\ (b < 0)%Z /\ (c = None \/ exists d, c = Some d /\ (b + 1 < d /\ 0 <= d)%Z)
     /\ (1 <= g_N g a)%nat) ->
  (0 < n)%nat -> forall g'', run_steps n g' <> Ok g''.
Proof. exact plane_negative_raises. Qed.
Print Assumptions C71_negative_start_raises.

Example C71_case :
  (exists g, setitem (plane_at AX 4) (CPlane (Some "p"%string) (mkPlane (PInt 10) 1 0 "z"%string)) demo_grid = (g, Some ValueError))
  /\ (let g := mkGrid (shape_of 8 3 2) 1 1 1 zero_field zero_field zero_field (fun _ _ => 1) (fun _ _ => 1) 0 [] [] [] 0 builtin_attrs in
      let s := mkPlane (PInt 10) 1 0 "z"%string in
      (exists g', setitem (plane_at AX 4) (CPlane (Some "p"%string) s) g = (g', None))
      /\ (exists g', setitem (plane_at AX (-1)) (CPlane None s) g = (g', None))
      /\ (exists g', setitem (plane_at AY (-2)) (CPlane None s) g = (g', None))
      /\ (exists g', setitem [int_slice (Some (-3)%Z) None; KNum (PInt 1); full_slice] (CPlane None s) g = (g', None))
      /\ index_ok (g_N g AX) 4 /\ handle_time (g_time_step g) (pl_period s) <> 0%Z
      /\ (forall n, exists k, run_steps n g = Ok k)
      /\ in_grid (g_N g) (4, 2, 1)%nat).
Proof.
  split; [eexists; reflexivity|]. cbv zeta. split; [eexists; reflexivity|]. split; [eexists; reflexivity|].
  split; [eexists; reflexivity|]. split; [eexists; reflexivity|]. split; [unfold index_ok; cbn; lia|]. split; [cbn; lia|].
  split; [|intros [| |]; cbn; lia].
  intros n. apply run_raises_iff. right. repeat split; constructor.
Qed.
