(** Property theorems C37, C38 (registration), C39, C41-C43 and C60: building a
    grid. *)
From Coq Require Import Reals ZArith String List Bool Lra Lia.
From Verif Require Import Base BaseLemmas Model_Units Model_FDTD Model_Register Spec_FDTD Spec_Register Proof_Torus Proof_FDTD Proof_Energy Proof_Propagate Proof_Steps Proof_Linear Proof_Reset Proof_Cavity Proof_Register Proof_Register2 Proof_Material Proof_Index Proof_Signal Proof_PML Proof_Placement Proof_Placement2 Spec_Members Proof_Members Spec_Lists Proof_Lists Spec_Border Proof_Border.
Import ListNotations.
Open Scope R_scope.

(** C37: names are unique after any history, caught exceptions included. *)
Theorem C37_names_unique : forall shape sp eps mu co g0 l,
  make_grid shape sp eps mu co = Ok g0 ->
  NoDup (g_attrs (assign_all l g0)).
Proof. exact names_unique. Qed.
Print Assumptions C37_names_unique.
(** A taken name is refused; the grid keeps its names, fields and materials. *)
Theorem C37_taken_name_refused : forall key c g n,
  (1 <= length key <= 3)%nat -> comp_name c = Some n -> In n (g_attrs g) ->
  exists g' e, setitem key c g = (g', Some e) /\ g_attrs g' = g_attrs g
    /\ g_E g' = g_E g /\ g_H g' = g_H g /\ g_ie g' = g_ie g /\ g_abs g' = g_abs g
    /\ (match c with CPeriodic _ | CPML _ _ => True | _ => e = ValueError end).
Proof. exact taken_name_refused. Qed.
Print Assumptions C37_taken_name_refused.
(** The names of the members of a grid ([grid_members] of Spec_Members.v) are taken
    after any history, ... *)
Theorem C37_member_names_refused : forall shape sp eps mu co g0 l key c n,
  make_grid shape sp eps mu co = Ok g0 ->
  (1 <= length key <= 3)%nat -> comp_name c = Some n -> In n grid_members ->
  exists g' e, setitem key c (assign_all l g0) = (g', Some e) /\ g_attrs g' = g_attrs (assign_all l g0).
Proof. exact member_names_refused. Qed.
Print Assumptions C37_member_names_refused.
(** ... and no other name is taken in a new grid. *)
Theorem C37_fresh_names : forall shape sp eps mu co g0 n,
  make_grid shape sp eps mu co = Ok g0 -> (In n (g_attrs g0) <-> In n grid_members).
Proof. exact fresh_names. Qed.
Print Assumptions C37_fresh_names.
(** An accepted component is in the list of its kind, after those that were there;
    the other lists stay. *)
Theorem C37_registered : forall key c g g',
  setitem key c g = (g', None) -> grown (added c) g g'.
Proof. exact Proof_Lists.registered. Qed.
Print Assumptions C37_registered.
(** A rejected source, detector or PML stays in the grid: no later step works,
    whatever is registered afterwards. *)
Theorem C37_rejected_blocks_every_step : forall key c g g' e l n,
  is_vital c -> setitem key c g = (g', Some e) ->
  (1 <= length key <= 3)%nat -> (0 < n)%nat ->
  forall g'', run_steps n (assign_all l g') <> Ok g''.
Proof. exact rejected_blocks_forever. Qed.
Print Assumptions C37_rejected_blocks_every_step.
(** A rejected object has no effect, if it is a plain one or its index keeps
    within the grid. *)
Theorem C37_rejected_object_harmless : forall key nm eps cond g g' e n,
  setitem key (CObject nm eps cond) g = (g', Some e) -> cond = None \/ within_grid g key ->
  match run_steps n g, run_steps n g' with
  | Ok a, Ok b => same_physics a b
  | Err e1, Err e2 => e1 = e2
  | _, _ => False
  end.
Proof. exact rejected_object_harmless. Qed.
Print Assumptions C37_rejected_object_harmless.
(** An absorbing object can be refused after its permittivity was written. *)
Theorem C37_rejected_absorbing_refuted : exists key nm eps s g g' e p c,
  setitem key (CObject nm eps (Some s)) g = (g', Some e) /\ in_grid (g_N g) p /\ g_ie g' p c <> g_ie g p c.
Proof. exact rejected_absorbing. Qed.
Print Assumptions C37_rejected_absorbing_refuted.
Example C37_member_case : make_grid [PInt 8; PInt 3; PInt 1] (/ 10 ^ 7) 1 1 None = Ok demo_grid
  /\ In "add_source"%string grid_members /\ ~ In "t_detector"%string grid_members
  /\ comp_name (CDetector DLine (Some "add_source"%string)) = Some "add_source"%string.
Proof.
  split; [exact demo_grid_made|]. split; [cbn; auto 60|]. split; [|reflexivity].
  cbn. intros H. repeat (destruct H as [H|H]; [discriminate|]). exact H.
Qed.
Example C37_case :
  exists g1 g2, setitem [KNum (PInt 4); full_slice; KNum (PInt 0)] (CDetector DLine (Some "t"%string)) demo_grid = (g1, None)
  /\ setitem [KNum (PInt 5); full_slice; KNum (PInt 0)] (CDetector DLine (Some "t"%string)) g1 = (g2, Some ValueError)
  /\ (exists g3, run_steps 5 g1 = Ok g3) /\ run_steps 5 g2 = Err AttributeError.
Proof.
  do 2 eexists. split; [reflexivity|]. split; [reflexivity|]. split; [|reflexivity].
  apply run_raises_iff. right. cbn. split; [constructor|]. split; [|intros; constructor].
  constructor; [|constructor]. apply Forall_forall. intros c Hc. vm_compute in Hc.
  repeat (destruct Hc as [<-|Hc]; [cbn; unfold index_ok; cbn; lia|]). contradiction.
Qed.
Example C37_object_case :
  (exists g1, setitem [int_slice (Some 2%Z) (Some 20%Z)] (CObject None 4 None) demo_grid = (g1, Some RuntimeError))
  /\ (exists g1, setitem [KSlice (Some (PInt 1)) (Some (PInt 5)) (Some (PInt 2))] (CObject None 4 (Some 1)) demo_grid = (g1, Some IndexError))
  /\ within_grid demo_grid [KSlice (Some (PInt 1)) (Some (PInt 5)) (Some (PInt 2))].
Proof.
  split; [eexists; reflexivity|]. split; [eexists; reflexivity|].
  intros x y z H. cbn in H. inversion H; subst. split; [|split; [|split]].
  - intros v [E|E]; inversion E; subst; split; vm_compute; discriminate.
  - intros v [E|E]; discriminate.
  - intros v [E|E]; discriminate.
  - cbn. lia.
Qed.

(** C38, registration: as long as nothing raised, every face has at most one
    boundary. *)
Theorem C38_one_boundary_per_face : forall shape sp eps mu co g0 l g ax hi,
  make_grid shape sp eps mu co = Ok g0 ->
  setitems l g0 = (g, None) -> (count_on ax hi (g_boundaries g) <= 1)%nat.
Proof. exact one_boundary_fresh. Qed.
Print Assumptions C38_one_boundary_per_face.
(** The second boundary on a face raises AttributeError.  A periodic boundary
    rejected this way nevertheless acts from then on. *)
Theorem C38_second_periodic_raises_but_acts : forall nm g ax key,
  key = match ax with
    | AX => [KNum (PInt 0)] | AY => [full_slice; KNum (PInt 0)] | AZ => [full_slice; full_slice; KNum (PInt 0)] end ->
  match nm with Some n => ~ In n (g_attrs g) /\ n <> face_attr ax false /\ n <> face_attr ax true | None => True end ->
  (In (face_attr ax false) (g_attrs g) \/ In (face_attr ax true) (g_attrs g)) ->
  exists g', setitem key (CPeriodic nm) g = (g', Some AttributeError)
    /\ g_boundaries g' = g_boundaries g ++ [Periodic ax].
Proof. exact second_periodic. Qed.
Print Assumptions C38_second_periodic_raises_but_acts.
(** A periodic boundary belongs to the first axis whose entry of the index touches a border
    of the grid (Spec_Border.v); it takes both faces of it.  Without such an entry
    IndexError is raised. *)
Theorem C38_periodic_placed : forall g nm x y z r,
  integers x -> integers y -> integers z -> meant_axis x y z r ->
  (forall n, nm = Some n -> ~ In n (g_attrs g)) ->
  match r with
  | Some ax =>
      (forall hi, ~ In (face_attr ax hi) (g_attrs g) /\ nm <> Some (face_attr ax hi)) ->
      exists g', setitem [x; y; z] (CPeriodic nm) g = (g', None)
        /\ g_boundaries g' = g_boundaries g ++ [Periodic ax]
        /\ forall n, In n (g_attrs g') <-> In n (g_attrs g) \/ nm = Some n \/ exists hi, n = face_attr ax hi
  | None => exists g', setitem [x; y; z] (CPeriodic nm) g = (g', Some IndexError)
        /\ g_boundaries g' = g_boundaries g ++ [InertPeriodic]
  end.
Proof. exact periodic_placed. Qed.
Print Assumptions C38_periodic_placed.
Example C38_placed_case : meant_axis full_slice (int_slice (Some (-1)%Z) (Some 0%Z)) full_slice (Some AY)
  /\ meant_axis full_slice (int_slice (Some 0%Z) (Some 2%Z)) (KNum (PInt 1)) None
  /\ integers full_slice /\ integers (int_slice (Some 0%Z) (Some 2%Z)) /\ integers (KNum (PInt 1))
  /\ forall hi, ~ In (face_attr AY hi) (g_attrs demo_grid).
Proof.
  assert (F : ~ touches_border full_slice) by (intros (z & _ & [E|(b & E & _)]); discriminate).
  split; [split; [exact F|]; exists (-1)%Z; split; [lia|]; right; exists 0%Z; split; [reflexivity|lia]|].
  split; [split; [exact F|]; split|].
  - intros (z & _ & [E|(b & E & L)]); [discriminate|]. inversion E; subst. lia.
  - intros (z & H & [E|(b & E & L)]); [|discriminate]. inversion E; subst. lia.
  - split; [right; exists None, None; reflexivity|]. split; [right; do 2 eexists; reflexivity|]. split; [left; eexists; reflexivity|].
    intros [|]; cbn; intros H; repeat (destruct H as [H|H]; [discriminate|]); contradiction.
Qed.
Theorem C38_second_pml_raises : forall nm a g ax hi t key,
  (0 < t)%nat ->
  key = (let s := if hi : bool then int_slice (Some (- Z.of_nat t)%Z) None else int_slice (Some 0%Z) (Some (Z.of_nat t)) in
    match ax with
    | AX => [s] | AY => [full_slice; s] | AZ => [full_slice; full_slice; s] end) ->
  match nm with Some n => ~ In n (g_attrs g) | None => True end ->
  In (face_attr ax hi) (g_attrs g) ->
  exists g', setitem key (CPML nm a) g = (g', Some AttributeError).
Proof. exact second_pml. Qed.
Print Assumptions C38_second_pml_raises.
Definition nidn_boundaries : list (list pykey * component) :=
  [([int_slice (Some 0%Z) (Some 2%Z)], CPML (Some "pml_xlow"%string) default_pml_a);
   ([int_slice (Some (-2)%Z) None], CPML (Some "pml_xhigh"%string) default_pml_a);
   ([full_slice; KNum (PInt 0)], CPeriodic (Some "ybounds"%string))].
Example C38_second_case :
  let g := fst (setitems nidn_boundaries demo_grid) in
  In (face_attr AX false) (g_attrs g) /\ In (face_attr AX true) (g_attrs g) /\ In (face_attr AY false) (g_attrs g)
  /\ ~ In "more"%string (g_attrs g) /\ "more"%string <> face_attr AX false /\ "more"%string <> face_attr AX true.
Proof.
  cbn. split; [auto 60|]. split; [auto 60|]. split; [auto 60|]. split; [|split; discriminate].
  intros H. repeat (destruct H as [H|H]; [discriminate|]). exact H.
Qed.
Example C38_reg_case :
  let g := fst (setitems nidn_boundaries demo_grid) in
  let o := setitem [KNum (PInt 0)] (CPeriodic None) g in
  snd (setitems nidn_boundaries demo_grid) = None
  /\ count_on AX false (g_boundaries g) = 1%nat /\ count_on AY true (g_boundaries g) = 1%nat
  /\ snd o = Some AttributeError /\ count_on AX false (g_boundaries (fst o)) = 2%nat.
Proof. split; [reflexivity|]. split; [reflexivity|]. split; [reflexivity|]. split; reflexivity. Qed.

(** C39: factors of every placed PML. *)
Theorem C39_factors : forall ax hi t a co,
  0 < a -> 0 < co -> forall q c, (coord ax q < t)%nat ->
  let pm := make_pml ax hi t a co in
  (0 < p_bE pm q c < 1 /\ -1 < p_cE pm q c <= 0 /\ (p_cE pm q c = 0 <-> c <> ax))
  /\ (0 < p_bH pm q c < 1 /\ -1 < p_cH pm q c <= 0
      /\ (p_cH pm q c = 0 <-> (c <> ax \/ S (coord ax q) = t))).
Proof. exact pml_factors. Qed.
Print Assumptions C39_factors.
(** The electric decay grows strictly outwards; the magnetic one does so at the
    low side and, at the high side, up to the outermost layer, which has none. *)
Theorem C39_outward_electric : forall ax (hi : bool) t a co,
  0 < co -> forall q q', (coord ax q < t)%nat -> (coord ax q' < t)%nat ->
  (if hi then coord ax q' < coord ax q else coord ax q < coord ax q')%nat ->
  p_bE (make_pml ax hi t a co) q ax < p_bE (make_pml ax hi t a co) q' ax.
Proof. exact pml_outward_E. Qed.
Print Assumptions C39_outward_electric.
Theorem C39_outward_magnetic : forall ax (hi : bool) t a co,
  0 < co -> forall q q', (coord ax q < t)%nat -> (coord ax q' < t)%nat ->
  (if hi then coord ax q' < coord ax q /\ S (coord ax q) < t else coord ax q < coord ax q')%nat ->
  p_bH (make_pml ax hi t a co) q ax < p_bH (make_pml ax hi t a co) q' ax.
Proof. exact pml_outward_H. Qed.
Print Assumptions C39_outward_magnetic.
Theorem C39_high_side_hole : forall ax t a co,
  0 < co -> forall q q', S (coord ax q) = t -> (S (coord ax q') < t)%nat ->
  p_bH (make_pml ax true t a co) q' ax < p_bH (make_pml ax true t a co) q ax.
Proof. exact pml_high_H_hole. Qed.
Print Assumptions C39_high_side_hole.
(** Bounded fields leave a bounded memory, for any number of steps. *)
Theorem C39_memory_bounded : forall B n,
  forall g g', 0 <= B ->
  (forall k h, (k <= n)%nat -> run_steps k g = Ok h -> fields_below B h) ->
  Forall (fun b => match b with PMLb pm => dissipative pm /\ memory_below (g_N g) (2 * B) pm | _ => True end) (g_boundaries g) ->
  run_steps n g = Ok g' ->
  Forall (fun b => match b with PMLb pm => memory_below (g_N g') (2 * B) pm | _ => True end) (g_boundaries g').
Proof. exact memory_bounded. Qed.
Print Assumptions C39_memory_bounded.
(** Every PML that can be placed starts like this. *)
Theorem C39_placed_dissipative : forall ax hi t a co,
  0 < a -> 0 < co -> dissipative (make_pml ax hi t a co).
Proof. exact make_pml_dissipative. Qed.
Print Assumptions C39_placed_dissipative.
Theorem C39_placed_empty : forall N ax hi t a co,
  memory_below N 0 (make_pml ax hi t a co).
Proof. exact make_pml_memory. Qed.
Print Assumptions C39_placed_empty.
Example C39_outward_case : exists q q' : pos, (coord AX q < 3)%nat /\ (coord AX q' < 3)%nat
  /\ (coord AX q' < coord AX q)%nat /\ (S (coord AX q) < 3)%nat.
Proof. exists (1,0,0)%nat, (0,0,0)%nat. cbn. lia. Qed.
Example C39_case :
  exists g, setitem [int_slice (Some 0%Z) (Some 2%Z)] (CPML None default_pml_a) demo_grid = (g, None)
  /\ 0 < default_pml_a /\ 0 < g_courant demo_grid
  /\ Forall (fun b => match b with PMLb pm => dissipative pm /\ memory_below (g_N g) (2 * 1) pm | _ => True end) (g_boundaries g).
Proof.
  assert (A : 0 < default_pml_a) by (unfold default_pml_a; apply Rinv_0_lt_compat, pow_lt; lra).
  eexists. split; [reflexivity|]. split; [exact A|]. split; [apply demo_courant_pos|].
  constructor; [|constructor]. split; [apply make_pml_dissipative; [exact A|apply demo_courant_pos]|].
  intros x q c H. destruct (make_pml_memory (shape_of 8 3 1) AX false 2 default_pml_a (g_courant demo_grid) x q c H) as [M1 M2].
  split; (eapply Rle_trans; [eassumption|lra]).
Qed.

(** C41: an absorbing object damps: the old field is multiplied by a factor of
    magnitude at most 1, the curl by one in (0, 1]. *)
Theorem C41_absorbing_damps : forall key nm eps s g g',
  setitem key (CObject nm eps (Some s)) g = (g', None) ->
  0 < eps -> 0 <= s -> 0 <= g_courant g -> 0 <= g_spacing g ->
  (forall p c, in_grid (g_N g) p -> 0 < g_ie g p c /\ 0 <= g_abs g p c) ->
  forall p c, in_grid (g_N g) p -> exists keep gain,
    Rabs keep <= 1 /\ 0 < gain <= 1
    /\ (forall E H : field, bulk_E (with_fields g' E H (g_steps g') (g_boundaries g') (g_detectors g')) p c
        = keep * E p c + gain * (g_courant g' * g_ie g' p c * curl_H H p c)).
Proof. exact absorbing_damps. Qed.
Print Assumptions C41_absorbing_damps.
(** Without conductivity an absorbing object is exactly a plain object. *)
Theorem C41_zero_conductivity : forall key nm eps g,
  (forall p c, g_abs g p c = 0) ->
  (exists g', setitem key (CObject nm eps (Some 0)) g = (g', None)) \/ within_grid g key ->
  setitem key (CObject nm eps (Some 0)) g = setitem key (CObject nm eps None) g.
Proof. exact zero_conductivity. Qed.
Print Assumptions C41_zero_conductivity.
(** Objects with permittivity between 1 and 1/m and non-negative conductivity
    keep a passive grid passive (so the energy theorems of C31 apply). *)
Theorem C41_objects_keep_passive : forall key nm eps cond g g' m,
  setitem key (CObject nm eps cond) g = (g', None) ->
  0 < m -> passive m g -> m <= 1 / eps <= 1 -> 0 <= g_courant g -> 0 <= g_spacing g ->
  match cond with Some s => 0 <= s | None => True end -> passive m g'.
Proof. exact object_keeps_passive. Qed.
Print Assumptions C41_objects_keep_passive.
(** A plain object placed over an absorbing one does not remove its
    absorption. *)
Theorem C41_plain_object_keeps_absorption : forall key nm eps g g',
  setitem key (CObject nm eps None) g = (g', None) ->
  forall p c, g_abs g' p c = g_abs g p c.
Proof. exact plain_object_keeps_absorption. Qed.
Print Assumptions C41_plain_object_keeps_absorption.
Example C41_zero_case : (forall p c, g_abs demo_grid p c = 0)
  /\ exists g, setitem [int_slice (Some 2%Z) (Some 5%Z)] (CObject None 4 (Some 0)) demo_grid = (g, None).
Proof. split; [reflexivity|]. eexists. reflexivity. Qed.
Example C41_case :
  exists g, setitem [int_slice (Some 2%Z) (Some 5%Z)] (CObject None 4 (Some 3)) demo_grid = (g, None)
  /\ passive (1/4) demo_grid /\ g_ie g (3,1,0)%nat AZ = 1 / 4 /\ 0 < g_abs g (3,1,0)%nat AZ.
Proof.
  eexists. split; [reflexivity|]. split; [|split].
  - intros p c _. cbn. unfold zero_field. lra.
  - reflexivity.
  - change (0 < / 2 * g_courant demo_grid * (1 / 4) * 3 * g_spacing demo_grid * ETA_0).
    pose proof demo_courant_pos. pose proof demo_spacing_pos. pose proof ETA_pos.
    repeat match goal with |- 0 < _ * _ => apply Rmult_lt_0_compat end; lra.
Qed.

(** C42: distances go to a nearest index, halves up; integers are kept. *)
Theorem C42_distance_nearest : forall spacing d,
  0 < spacing -> - (/ 2) * spacing <= d ->
  let i := IZR (handle_distance spacing (PFloat d)) in
  d - spacing / 2 < i * spacing <= d + spacing / 2.
Proof. exact distance_nearest. Qed.
Print Assumptions C42_distance_nearest.
Theorem C42_index_kept : forall spacing z,
  handle_distance spacing (PInt z) = z.
Proof. exact distance_int. Qed.
Print Assumptions C42_index_kept.
(** Distances below minus half a cell are shifted: the index is between half a
    cell and one and a half cells above the distance. *)
Theorem C42_negative_distance_shifted : forall spacing d,
  0 < spacing -> d < - (/ 2) * spacing ->
  let i := IZR (handle_distance spacing (PFloat d)) in
  d + spacing / 2 <= i * spacing < d + 3 / 2 * spacing.
Proof. exact distance_negative. Qed.
Print Assumptions C42_negative_distance_shifted.
Example C42_negative_case : handle_distance 1 (PFloat (- (12/10))) = 0%Z.
Proof.
  cbn. replace (- (12 / 10) / 1 + / 2) with (- (7/10)) by lra. rewrite Rtrunc_neg by lra.
  replace (Rfloor (- - (7/10))) with 0%Z; [reflexivity|]. symmetry. apply Rfloor_unique. lra.
Qed.
(** A line along y at fixed x and z visits every y index exactly once. *)
Theorem C42_line_visits_each_y_once : forall minimum N x z s,
  (minimum <= N AY)%nat -> (0 < N AY)%nat ->
  line_cells minimum N (HList [x]) (HSlice None None s) (HList [z])
  = Ok (map (fun j => (x, Z.of_nat j, z)) (seq 0 (N AY))).
Proof. exact line_across_y. Qed.
Print Assumptions C42_line_visits_each_y_once.
(** Negative line bounds are not counted from the end. *)
Theorem C42_line_negative_start : forall N x z k s,
  (0 < k)%nat -> (k <= N AY)%nat ->
  line_cells 0 N (HList [x]) (HSlice (Some (- Z.of_nat k)%Z) None s) (HList [z])
  = Ok (map (fun j => (x, Z.of_nat j - Z.of_nat k, z)%Z) (seq 0 (N AY + k))).
Proof. exact line_negative_start. Qed.
Print Assumptions C42_line_negative_start.
(** A block detector includes its stop indices. *)
Theorem C42_block_includes_stop : forall N xa xb ya yb za zb s1 s2 s3 cells,
  block_cells N (HSlice (Some xa) (Some xb) s1) (HSlice (Some ya) (Some yb) s2) (HSlice (Some za) (Some zb) s3) = Ok cells ->
  forall x y z, In (x, y, z) cells <-> (xa <= x <= xb /\ ya <= y <= yb /\ za <= z <= zb)%Z.
Proof. exact block_cells_incl. Qed.
Print Assumptions C42_block_includes_stop.
(** With an open-ended slice a block or current detector is accepted, and every
    step raises. *)
Theorem C42_open_block_blocks : forall k nm g g' key l n,
  k <> DLine -> (1 <= length key <= 3)%nat ->
  (In full_slice key \/ (length key < 3)%nat) ->
  (forall x, In x key -> x = full_slice \/ exists z, x = KNum (PInt z)) ->
  setitem key (CDetector k nm) g = (g', None) -> (0 < n)%nat ->
  forall g'', run_steps n (assign_all l g') <> Ok g''.
Proof. exact open_block_blocks. Qed.
Print Assumptions C42_open_block_blocks.
(** An object acts exactly on the cells of its slices; in its last layer along
    an axis the component along that axis is taken from the end of the grid. *)
Theorem C42_object_acts_on_slices : forall ax bx ay by_ az bz nm eps cond g g' lo hi,
  setitem [int_slice ax bx; int_slice ay by_; int_slice az bz] (CObject nm eps cond) g = (g', None) ->
  slice_range (g_N g AX) ax bx (coord AX lo) (coord AX hi) ->
  slice_range (g_N g AY) ay by_ (coord AY lo) (coord AY hi) ->
  slice_range (g_N g AZ) az bz (coord AZ lo) (coord AZ hi) ->
  forall p c,
    (~ in_cells lo hi p -> g_ie g' p c = g_ie g p c /\ g_abs g' p c = g_abs g p c)
    /\ (in_cells lo hi p -> (S (coord c p) < coord c hi)%nat \/ (coord c hi <= S (coord c lo))%nat ->
        g_ie g' p c = 1 / eps)
    /\ (in_cells lo hi p -> S (coord c p) = coord c hi -> (S (coord c lo) < coord c hi)%nat ->
        g_ie g' p c = g_ie g (setc c (g_N g c - 1) p) c)
    /\ (in_cells lo hi p -> g_abs g' p c = match cond with
        | None => g_abs g p c
        | Some s => / 2 * g_courant g * g_ie g' p c * s * g_spacing g * ETA_0 end).
Proof. exact object_acts_on_slices. Qed.
Print Assumptions C42_object_acts_on_slices.
(** A number selects one layer, negative ones counting from the end. *)
Theorem C42_object_single_index : forall v nm eps g,
  (forall n, nm = Some n -> ~ In n (g_attrs g)) -> index_ok (g_N g AX) v -> v <> (-1)%Z ->
  exists g', setitem [KNum (PInt v); full_slice; full_slice] (CObject nm eps None) g = (g', None)
  /\ forall p c, in_grid (g_N g) p ->
     (Z.of_nat (coord AX p) <> (v mod Z.of_nat (g_N g AX))%Z -> g_ie g' p c = g_ie g p c)
     /\ (Z.of_nat (coord AX p) = (v mod Z.of_nat (g_N g AX))%Z ->
         c = AX \/ (S (coord c p) < g_N g c)%nat \/ g_N g c = 1%nat -> g_ie g' p c = 1 / eps).
Proof. exact object_single_index. Qed.
Print Assumptions C42_object_single_index.
(** Except for -1: that is refused, or on a line of cells accepted without any
    effect. *)
Theorem C42_object_last_index : forall nm eps g,
  (forall n, nm = Some n -> ~ In n (g_attrs g)) -> (1 <= g_N g AX)%nat ->
  exists g' r, setitem [KNum (PInt (-1)); full_slice; full_slice] (CObject nm eps None) g = (g', r)
  /\ same_physics g g' /\ (r = if (1 <? g_N g AY)%nat || (1 <? g_N g AZ)%nat then Some RuntimeError else None).
Proof. exact object_last_index. Qed.
Print Assumptions C42_object_last_index.
(** An absorbing object at one index absorbs in exactly that layer, with the
    inverse permittivity it leaves there. *)
Theorem C42_absorbing_single_index : forall v nm eps s g,
  (forall n, nm = Some n -> ~ In n (g_attrs g)) -> index_ok (g_N g AX) v -> v <> (-1)%Z ->
  exists g', setitem [KNum (PInt v); full_slice; full_slice] (CObject nm eps (Some s)) g = (g', None)
  /\ forall p c, in_grid (g_N g) p ->
     (Z.of_nat (coord AX p) <> (v mod Z.of_nat (g_N g AX))%Z -> g_abs g' p c = g_abs g p c)
     /\ (Z.of_nat (coord AX p) = (v mod Z.of_nat (g_N g AX))%Z ->
         g_abs g' p c = / 2 * g_courant g * g_ie g' p c * s * g_spacing g * ETA_0).
Proof. exact absorbing_single_index. Qed.
Print Assumptions C42_absorbing_single_index.
(** Objects refuse slices with a step other than 1, and nothing is changed. *)
Theorem C42_object_step_refused : forall x y z a b s nm eps cond g,
  In (KSlice a b (Some (PInt s))) [x; y; z] -> s <> 1%Z ->
  (forall n, nm = Some n -> ~ In n (g_attrs g)) ->
  exists g', setitem [x; y; z] (CObject nm eps cond) g = (g', Some IndexError) /\ same_physics g g'.
Proof. exact object_step_refused. Qed.
Print Assumptions C42_object_step_refused.
Example C42_object_step_case : forall g, exists g',
  setitem [full_slice; KSlice (Some (PInt 0)) (Some (PInt 4)) (Some (PInt 2)); full_slice] (CObject None 2 None) g = (g', Some IndexError)
  /\ same_physics g g'.
Proof. intros g. apply (object_step_refused _ _ _ (Some (PInt 0)) (Some (PInt 4)) 2); [cbn; auto|lia|discriminate]. Qed.
(** A PML needs a slice from the low end with a positive bound, or one to the
    high end with a negative bound; anything else is refused. *)
Theorem C42_pml_refused : forall x y z nm a g,
  (forall s, In s [x; y; z] -> match s with (lo, hi) =>
     ~ ((lo = None \/ lo = Some 0%Z) /\ exists b, hi = Some b /\ (0 < b)%Z)
     /\ ~ (hi = None /\ exists b, lo = Some b /\ (b < 0)%Z) end) ->
  (forall n, nm = Some n -> ~ In n (g_attrs g)) ->
  exists g', setitem [int_slice (fst x) (snd x); int_slice (fst y) (snd y); int_slice (fst z) (snd z)] (CPML nm a) g = (g', Some IndexError).
Proof. exact pml_refused. Qed.
Print Assumptions C42_pml_refused.
Example C42_pml_case : forall s, In s [(Some 0, Some 0); (Some 2, Some 5); (None, Some (-3))]%Z -> match s with (lo, hi) =>
     ~ ((lo = None \/ lo = Some 0%Z) /\ exists b, hi = Some b /\ (0 < b)%Z)
     /\ ~ (hi = None /\ exists b, lo = Some b /\ (b < 0)%Z) end.
Proof.
  intros s H. cbn in H. repeat (destruct H as [<-|H]; [split; [intros ([Q|Q] & b & E & L); inversion E; try discriminate; lia|intros (Q & _); discriminate]|]). contradiction.
Qed.
Example C42_distance_case : 0 < / 10 ^ 7 /\ - (/ 2) * / 10 ^ 7 <= 24 / 10 ^ 8.
Proof. assert (0 < / 10 ^ 7) by (apply Rinv_0_lt_compat, pow_lt; lra). split; [assumption|]. cbn. lra. Qed.
Example C42_block_case :
  block_cells (shape_of 8 3 1) (HSlice (Some 2%Z) (Some 3%Z) None) (HSlice (Some 0%Z) (Some 1%Z) None) (HSlice (Some 0%Z) (Some 0%Z) None)
  = Ok [(2,0,0); (2,1,0); (3,0,0); (3,1,0)]%Z.
Proof. reflexivity. Qed.
Example C42_single_case : index_ok (g_N demo_grid AX) (-3)%Z /\ ((-3) mod Z.of_nat (g_N demo_grid AX) = 5)%Z
  /\ ~ In "film"%string (g_attrs demo_grid).
Proof.
  split; [unfold index_ok; cbn; lia|]. split; [reflexivity|].
  cbn. intros H. repeat (destruct H as [H|H]; [discriminate|]). exact H.
Qed.
Example C42_line_case :
  line_cells 0 (shape_of 8 3 1) (HList [4%Z]) (HSlice None None None) (HList [0%Z]) = Ok [(4,0,0); (4,1,0); (4,2,0)]%Z
  /\ line_cells 0 (shape_of 8 3 1) (HList [4%Z]) (HSlice (Some (-1)%Z) None None) (HList [0%Z]) = Ok [(4,-1,0); (4,0,0); (4,1,0); (4,2,0)]%Z.
Proof. split; reflexivity. Qed.
Example C42_case :
  slice_range 8 (Some (-6)%Z) (Some 5%Z) 2 5 /\ slice_range 3 None None 0 3
  /\ (exists g, setitem [int_slice (Some (-6)%Z) (Some 5%Z); int_slice None None; int_slice None None] (CObject None 4 None) demo_grid = (g, None))
  /\ (exists g, setitem [full_slice; KNum (PInt 1); KNum (PInt 0)] (CDetector DBlock None) demo_grid = (g, None)).
Proof.
  split; [unfold slice_range; cbn; lia|]. split; [unfold slice_range; cbn; lia|]. split; eexists; reflexivity.
Qed.

(** C43: a continuous point source. *)
Theorem C43_continuous_point : forall nm s g t i j k,
  s_period s = PFloat t -> s_signal s = SContinuous ->
  (forall n, nm = Some n -> ~ In n (g_attrs g)) ->
  0 < g_time_step g -> g_time_step g / 2 < t ->
  (i < g_N g AX)%nat -> (j < g_N g AY)%nat -> (k < g_N g AZ)%nat ->
  exists g' src P,
    setitem [KNum (PInt (Z.of_nat i)); KNum (PInt (Z.of_nat j)); KNum (PInt (Z.of_nat k))] (CPoint nm s) g = (g', None)
    /\ g_sources g' = g_sources g ++ [src]
    /\ (0 < P)%Z /\ Rabs (IZR P * g_time_step g - t) <= g_time_step g / 2
    /\ forall q E, exists E', source_update_E (g_N g) q src E = Ok E'
      /\ E' (i, j, k) AZ = E (i, j, k) AZ + s_amplitude s * sin (2 * PI * INR q / IZR P + s_phase s)
      /\ forall p c, (p, c) <> ((i, j, k), AZ) -> E' p c = E p c.
Proof. exact point_continuous. Qed.
Print Assumptions C43_continuous_point.
Theorem C43_continuous_periodic : forall amp period phase q,
  period <> 0%Z ->
  point_value amp (Continuous period phase) (q + Z.abs_nat period) = point_value amp (Continuous period phase) q
  /\ line_factor (Continuous period phase) (q + Z.abs_nat period) = line_factor (Continuous period phase) q.
Proof. exact continuous_periodic. Qed.
Print Assumptions C43_continuous_periodic.
(** No signal exceeds the amplitude. *)
Theorem C43_signal_bounded : forall amp s q,
  bounded_by_amplitude amp (point_value amp s q)
  /\ bounded_by_amplitude 1 (line_factor s q).
Proof. exact signal_bounded. Qed.
Print Assumptions C43_signal_bounded.
(** A hanning pulse is over after one period of its envelope. *)
Theorem C43_hanning_over : forall amp f dt cy q,
  cy <> 0 -> f * dt / cy <> 0 -> (hanning_end f dt cy <= Z.of_nat q)%Z ->
  point_value amp (Hanning f dt cy) q = Ok 0 /\ line_factor (Hanning f dt cy) q = Ok 0.
Proof. exact hanning_over. Qed.
Print Assumptions C43_hanning_over.
Theorem C43_hanning_end : forall f dt cy,
  0 < f -> 0 < dt -> 0 < cy ->
  IZR (hanning_end f dt cy) * (f * dt / cy) <= 2 * PI < (IZR (hanning_end f dt cy) + 1) * (f * dt / cy).
Proof. exact hanning_end_spec. Qed.
Print Assumptions C43_hanning_end.
(** A ricker point source makes every simulation raise. *)
Theorem C43_ricker_point_raises : forall nm s g g' key l n,
  s_signal s = SRicker -> 0 < pynum_R (s_period s) -> 0 < g_spacing g ->
  INR (g_steps g) < 6 * (SPEED_OF_LIGHT * pynum_R (s_period s) / g_spacing g) ->
  setitem key (CPoint nm s) g = (g', None) -> (0 < n)%nat ->
  forall g'', run_steps n (assign_all l g') <> Ok g''.
Proof. exact ricker_point_raises. Qed.
Print Assumptions C43_ricker_point_raises.
(** The profile of a line source. *)
Theorem C43_profile_positive : forall amp cells,
  0 < amp -> cells <> [] -> Forall (fun v => 0 < v) (line_profile amp cells).
Proof. exact profile_positive. Qed.
Print Assumptions C43_profile_positive.
Theorem C43_profile_sum : forall amp cells,
  cells <> [] -> Rsum (line_profile amp cells) = amp.
Proof. exact profile_sum. Qed.
Print Assumptions C43_profile_sum.
Theorem C43_line_source_across : forall nm s g x z,
  (2 <= g_N g AY)%nat -> (forall n, nm = Some n -> ~ In n (g_attrs g)) ->
  exists g' profile, setitem [KNum (PInt x); full_slice; KNum (PInt z)] (CLine nm s) g = (g', None)
    /\ g_sources g' = g_sources g ++ [LineSource (y_line x z (g_N g AY)) profile (source_signal g s)]
    /\ profile = line_profile (s_amplitude s) (y_line x z (g_N g AY)).
Proof. exact line_source_across. Qed.
Print Assumptions C43_line_source_across.
Theorem C43_profile_symmetric : forall amp x z n k,
  (k <= n / 2)%nat -> (n / 2 + k < n)%nat ->
  nth (n / 2 + k) (line_profile amp (y_line x z n)) 0 = nth (n / 2 - k) (line_profile amp (y_line x z n)) 0.
Proof. exact profile_symmetric. Qed.
Print Assumptions C43_profile_symmetric.
Theorem C43_profile_decreases : forall amp x z n i j,
  0 < amp -> (2 <= n)%nat -> (i < n)%nat -> (j < n)%nat ->
  (dist1 i (n / 2) < dist1 j (n / 2))%nat ->
  nth j (line_profile amp (y_line x z n)) 0 < nth i (line_profile amp (y_line x z n)) 0.
Proof. exact profile_decreases. Qed.
Print Assumptions C43_profile_decreases.
Example C43_hanning_case : (1/2) * 1 / 1 <> 0 /\ (hanning_end (1/2) 1 1 <= Z.of_nat 16)%Z.
Proof.
  split; [lra|]. unfold hanning_end. rewrite <- (Rtrunc_IZR (Z.of_nat 16)). apply Rtrunc_le.
  pose proof PI_4. cbn. lra.
Qed.
Example C43_ricker_case : let s := mkSource (PFloat (10 * g_time_step demo_grid)) 1 0 5 None SRicker in
  0 < pynum_R (s_period s) /\ INR (g_steps demo_grid) < 6 * (SPEED_OF_LIGHT * pynum_R (s_period s) / g_spacing demo_grid).
Proof.
  pose proof demo_time_pos as T. pose proof demo_spacing_pos as S. cbn [s_period pynum_R].
  split; [lra|]. cbn [g_steps demo_grid]. change (INR 0) with 0.
  apply Rmult_lt_0_compat; [lra|]. apply Rdiv_lt_0_compat; [|exact S].
  apply Rmult_lt_0_compat; [unfold SPEED_OF_LIGHT; lra|lra].
Qed.
Example C43_case :
  0 < g_time_step demo_grid /\ g_time_step demo_grid / 2 < 10 * g_time_step demo_grid
  /\ (exists g, setitem [KNum (PInt 1); KNum (PInt 1); KNum (PInt 0)]
        (CPoint None (mkSource (PFloat (10 * g_time_step demo_grid)) 1 0 5 None SRicker)) demo_grid = (g, None))
  /\ (1 <= 7 / 2)%nat /\ (dist1 3 (7 / 2) < dist1 1 (7 / 2))%nat.
Proof.
  pose proof demo_time_pos. split; [assumption|]. split; [lra|]. split; [eexists; reflexivity|]. cbn. lia.
Qed.

(** C60: DomainBorderPML. *)
Theorem C60_domain_border : forall bc g,
  (1 <= bc)%nat -> (forall a, 2 * bc <= g_N g a)%nat ->
  (forall ax hi, ~ In (face_attr ax hi) (g_attrs g)) ->
  exists g' ps, domain_border_pml bc g = (g', None) /\ g_boundaries g' = g_boundaries g ++ ps /\ length ps = 6%nat
    /\ (forall ax hi, exists b, In b ps /\ is_pml_on ax hi bc b)
    /\ (forall ax hi, count_on ax hi ps = 1%nat)
    /\ g_sources g' = g_sources g /\ g_detectors g' = g_detectors g.
Proof. exact domain_border. Qed.
Print Assumptions C60_domain_border.
Example C60_case : (forall a, 2 * 4 <= shape_of 8 9 10 a)%nat /\ forall ax hi, ~ In (face_attr ax hi) builtin_attrs.
Proof.
  split; [intros [| |]; cbn; lia|].
  intros ax hi H. destruct ax, hi; cbn in H; repeat (destruct H as [H|H]; [discriminate|]); exact H.
Qed.
(** A grid too small for two borders is refused and left as it was. *)
Theorem C60_too_small : forall bc g,
  (exists a, g_N g a < 2 * bc)%nat -> domain_border_pml bc g = (g, Some IndexError).
Proof. exact domain_border_small. Qed.
Print Assumptions C60_too_small.
Example C60_small_case : exists a, (g_N demo_grid a < 2 * 4)%nat.
Proof. exists AY. cbn. lia. Qed.
(** A border of no cells is refused, and the grid cannot be run any more. *)
Theorem C60_zero_border : forall g,
  exists g', domain_border_pml 0 g = (g', Some IndexError) /\ forall n, (0 < n)%nat -> forall g'', run_steps n g' <> Ok g''.
Proof. exact domain_border_zero. Qed.
Print Assumptions C60_zero_border.
