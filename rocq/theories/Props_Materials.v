(** Property theorems C08-C11. *)
From Coq Require Import Reals ZArith String List Bool Lra Lia.
From Verif Require Import Base BaseLemmas Cplx CplxLemmas Model_Materials Spec_Materials Proof_Materials.
Import ListNotations.
Open Scope R_scope.

(** C08: the permittivity is (n+ik)^2 of the first row nearest to 1/f. *)
Theorem C08_nearest_row : forall table f e, eps_at table f = Ok e ->
  exists i r, nth_error table i = Some r
  /\ (forall j r', nth_error table j = Some r' ->
        Rabs (Wavelength r - / f) <= Rabs (Wavelength r' - / f))
  /\ (forall j r', (j < i)%nat -> nth_error table j = Some r' ->
        Rabs (Wavelength r - / f) < Rabs (Wavelength r' - / f))
  /\ e = Cmul (n_ r, k_ r) (n_ r, k_ r).
Proof. exact eps_at_spec. Qed.
Print Assumptions C08_nearest_row.
Theorem C08_total : forall table f, table <> [] -> exists e, eps_at table f = Ok e.
Proof. exact eps_at_ok. Qed.
Print Assumptions C08_total.
Theorem C08_modulus : forall table f e, eps_at table f = Ok e ->
  exists r, In r table /\ Cabs e = n_ r * n_ r + k_ r * k_ r.
Proof. exact eps_abs. Qed.
Print Assumptions C08_modulus.
(** The whole vector: one entry per target frequency, each the nearest row's. *)
Theorem C08_all_frequencies : forall table freqs es, load_material_data table freqs = Ok es ->
  length es = length freqs /\
  forall i f, nth_error freqs i = Some f -> exists e, nth_error es i = Some e /\ eps_at table f = Ok e.
Proof. exact load_data_spec. Qed.
Print Assumptions C08_all_frequencies.
Example C08_case : eps_at [{| Wavelength := 1; n_ := 2; k_ := 0 |}; {| Wavelength := 3; n_ := 1; k_ := 1 |}] (1/4)
  = Ok (0, 2).
Proof.
  unfold eps_at, argmin; simpl. rewrite (Rabs_left (1 - _)), (Rabs_left (3 - _)) by lra.
  destruct (Rlt_dec _ _); [|exfalso; lra]. simpl. do 2 f_equal; lra.
Qed.

(** C09 *)
Theorem C09_lookup : forall files freqs skip,
  (2 <= length freqs)%nat -> NoDup (map fst files) -> (forall f, In f files -> snd f <> []) ->
  (2 <= length (kept files skip))%nat ->
  exists mc, MaterialCollection files freqs skip = Ok mc /\
  forall name table, In (name, table) files -> ~ In name skip ->
    exists es, mc_getitem mc name = Ok (T1 es) /\ length es = length freqs /\
      forall i f, nth_error freqs i = Some f -> exists e, nth_error es i = Some e /\ eps_at table f = Ok e.
Proof. exact lookup_normal. Qed.
Print Assumptions C09_lookup.
Theorem C09_unknown_name : forall files freqs skip mc name, NoDup (map fst files) ->
  MaterialCollection files freqs skip = Ok mc ->
  (~ In name (map fst files) \/ In name skip) -> mc_getitem mc name = Err KeyError.
Proof. exact lookup_missing. Qed.
Print Assumptions C09_unknown_name.
(** Exactly one material: the lookup collapses to the first frequency's value. *)
Theorem C09_single_material : forall files freqs skip name table,
  (2 <= length freqs)%nat -> NoDup (map fst files) -> (forall f, In f files -> snd f <> []) ->
  kept files skip = [(name, table)] ->
  exists mc e, MaterialCollection files freqs skip = Ok mc /\ mc_getitem mc name = Ok (T0 e) /\
     eps_at table (nth 0 freqs 0) = Ok e.
Proof. exact lookup_one_material. Qed.
Print Assumptions C09_single_material.
(** Exactly one frequency: the matrix has no frequency axis any more. *)
Theorem C09_single_frequency : forall files f skip name table,
  NoDup (map fst files) -> (forall f, In f files -> snd f <> []) ->
  (2 <= length (kept files skip))%nat -> In (name, table) (kept files skip) ->
  exists mc e, MaterialCollection files [f] skip = Ok mc /\ mc_getitem mc name = Ok (T0 e) /\
     eps_at table f = Ok e /\ exists v, epsilon_matrix mc = T1 v /\ length v = length (kept files skip).
Proof. exact lookup_one_freq. Qed.
Print Assumptions C09_single_frequency.
(** One material and one frequency: every lookup of it raises IndexError. *)
Theorem C09_single_both : forall files f skip name table,
  NoDup (map fst files) -> (forall f, In f files -> snd f <> []) ->
  kept files skip = [(name, table)] ->
  exists mc, MaterialCollection files [f] skip = Ok mc /\ mc_getitem mc name = Err IndexError.
Proof. exact lookup_one_one. Qed.
Print Assumptions C09_single_both.
Theorem C09_all_skipped : forall files freqs skip, freqs <> [] ->
  (forall name table, In (name, table) files -> In name skip) ->
  MaterialCollection files freqs skip = Err RuntimeError.
Proof. exact collection_no_materials. Qed.
Print Assumptions C09_all_skipped.
Theorem C09_no_frequencies : forall files skip, MaterialCollection files [] skip = Err ValueError.
Proof. exact collection_empty_freqs. Qed.
Print Assumptions C09_no_frequencies.

Definition ex_files : list mfile :=
  [("gold"%string, [{| Wavelength := 1; n_ := 2; k_ := 0 |}]);
   ("tio2"%string, [{| Wavelength := 1; n_ := 3; k_ := 1 |}]);
   ("zno"%string, [{| Wavelength := 2; n_ := 1; k_ := 1 |}])].
Example C09_case : NoDup (map fst ex_files) /\ (forall f, In f ex_files -> snd f <> []) /\
  (2 <= length (kept ex_files ["zno"%string]))%nat /\
  kept ex_files ["gold"%string; "zno"%string] = [("tio2"%string, [{| Wavelength := 1; n_ := 3; k_ := 1 |}])].
Proof.
  split; [|split; [|split]].
  - simpl. repeat constructor; simpl; intuition discriminate.
  - simpl. intros f [<-|[<-|[<-|[]]]]; discriminate.
  - simpl. lia.
  - reflexivity.
Qed.

(** C10: [mats] are the loaded materials' permittivities, in loading order. *)
Theorem C10_minimiser : forall files freqs skip mc eps (mats : list (list C)),
  (2 <= length freqs)%nat -> NoDup (map fst files) -> (forall f, In f files -> snd f <> []) ->
  (2 <= length (kept files skip))%nat ->
  MaterialCollection files freqs skip = Ok mc -> length eps = length freqs ->
  length mats = length (kept files skip) ->
  (forall i name table, nth_error (kept files skip) i = Some (name, table) ->
     exists m, nth_error mats i = Some m /\ load_material_data table freqs = Ok m) ->
  exists d i, find_closest mc eps = Ok (d, i)
   /\ (i < length mats)%nat /\ d = dist eps (nth i mats [])
   /\ (forall j, (j < length mats)%nat -> d <= dist eps (nth j mats []))
   /\ (forall j, (j < i)%nat -> d < dist eps (nth j mats [])).
Proof. exact find_closest_spec. Qed.
Print Assumptions C10_minimiser.
Theorem C10_exact_match : forall files freqs skip mc eps (mats : list (list C)) i0,
  (2 <= length freqs)%nat -> NoDup (map fst files) -> (forall f, In f files -> snd f <> []) ->
  (2 <= length (kept files skip))%nat ->
  MaterialCollection files freqs skip = Ok mc -> length eps = length freqs ->
  length mats = length (kept files skip) ->
  (forall i name table, nth_error (kept files skip) i = Some (name, table) ->
     exists m, nth_error mats i = Some m /\ load_material_data table freqs = Ok m) ->
  nth_error mats i0 = Some eps ->
  exists i, find_closest mc eps = Ok (0, i) /\ nth_error mats i = Some eps.
Proof. exact find_closest_exact. Qed.
Print Assumptions C10_exact_match.
Theorem C10_distance_zero : forall eps mat, eps <> [] -> length mat = length eps ->
  (dist eps mat = 0 <-> eps = mat).
Proof. exact dist_zero_iff. Qed.
Print Assumptions C10_distance_zero.

Example C10_case : exists mc, MaterialCollection ex_files [1; 2] ["zno"%string] = Ok mc
  /\ (forall i name table, nth_error (kept ex_files ["zno"%string]) i = Some (name, table) ->
        exists m, nth_error [[(4, 0); (4, 0)]; [(8, 6); (8, 6)]] i = Some m /\ load_material_data table [1; 2] = Ok m)
  /\ nth_error [[(4, 0); (4, 0)]; [(8, 6); (8, 6)]] 1 = Some [(8, 6); (8, 6)].
Proof.
  destruct C09_case as (H1 & H2 & H3 & _).
  destruct (C09_lookup ex_files [1; 2] ["zno"%string] ltac:(simpl; lia) H1 H2 H3) as (mc & E & _).
  exists mc. split; [exact E|]. split.
  - intros i name table H. destruct i as [|[|i]]; cbn in H.
    + inversion H; subst. eexists. split; [reflexivity|]. cbn.
      unfold Cmul. cbn. repeat f_equal; ring.
    + inversion H; subst. eexists. split; [reflexivity|]. cbn.
      unfold Cmul. cbn. repeat f_equal; ring.
    + destruct i; discriminate.
  - reflexivity.
Qed.
(** C11 *)
Theorem C11_shape : forall Nx Ny g s a,
  length (build_squared_layer Nx Ny g s a) = Nx /\
  forall i, (i < Nx)%nat -> length (nth i (build_squared_layer Nx Ny g s a) []) = Ny.
Proof. exact squared_shape. Qed.
Print Assumptions C11_shape.
Theorem C11_uniform : forall Nx Ny m i j, (i < Nx)%nat -> (j < Ny)%nat ->
  cell (build_uniform_layer Nx Ny m) [] i j = m.
Proof. exact uniform_cell. Qed.
Print Assumptions C11_uniform.
Theorem C11_square : forall Nx Ny g s a i j, (i < Nx)%nat -> (j < Ny)%nat ->
  (a < coord Nx i < 1 - a /\ a < coord Ny j < 1 - a -> cell (build_squared_layer Nx Ny g s a) [] i j = s) /\
  (~ (a < coord Nx i < 1 - a /\ a < coord Ny j < 1 - a) -> cell (build_squared_layer Nx Ny g s a) [] i j = g).
Proof. exact squared_cell. Qed.
Print Assumptions C11_square.
Theorem C11_circle : forall Nx Ny g s r xc yc i j, (i < Nx)%nat -> (j < Ny)%nat ->
  ((coord Nx i - xc) ^ 2 + (coord Ny j - yc) ^ 2 < r ^ 2 -> cell (build_circle_layer Nx Ny g s r xc yc) [] i j = s) /\
  (~ (coord Nx i - xc) ^ 2 + (coord Ny j - yc) ^ 2 < r ^ 2 -> cell (build_circle_layer Nx Ny g s r xc yc) [] i j = g).
Proof. exact circle_cell. Qed.
Print Assumptions C11_circle.
Theorem C11_square_mirror_x : forall Nx Ny g s a i j, (2 <= Nx)%nat -> (i < Nx)%nat -> (j < Ny)%nat ->
  cell (build_squared_layer Nx Ny g s a) [] (Nx - 1 - i) j = cell (build_squared_layer Nx Ny g s a) [] i j.
Proof. exact squared_mirror_x. Qed.
Print Assumptions C11_square_mirror_x.
Theorem C11_square_mirror_y : forall Nx Ny g s a i j, (2 <= Ny)%nat -> (i < Nx)%nat -> (j < Ny)%nat ->
  cell (build_squared_layer Nx Ny g s a) [] i (Ny - 1 - j) = cell (build_squared_layer Nx Ny g s a) [] i j.
Proof. exact squared_mirror_y. Qed.
Print Assumptions C11_square_mirror_y.
Theorem C11_circle_mirror : forall Nx Ny g s r i j,
  (2 <= Nx)%nat -> (2 <= Ny)%nat -> (i < Nx)%nat -> (j < Ny)%nat ->
  cell (build_circle_layer Nx Ny g s r (1/2) (1/2)) [] (Nx - 1 - i) j = cell (build_circle_layer Nx Ny g s r (1/2) (1/2)) [] i j /\
  cell (build_circle_layer Nx Ny g s r (1/2) (1/2)) [] i (Ny - 1 - j) = cell (build_circle_layer Nx Ny g s r (1/2) (1/2)) [] i j.
Proof. exact circle_mirror. Qed.
Print Assumptions C11_circle_mirror.
(** The documented "size of the square hole" a is a margin: the hole for a larger a is
    contained in the hole for a smaller a. *)
Theorem C11_square_size_antitone : forall Nx Ny g s a a' i j, g <> s -> (i < Nx)%nat -> (j < Ny)%nat -> a <= a' ->
  cell (build_squared_layer Nx Ny g s a') [] i j = s -> cell (build_squared_layer Nx Ny g s a) [] i j = s.
Proof. exact squared_antitone. Qed.
Print Assumptions C11_square_size_antitone.
(** A layer with a single column never has a hole. *)
Theorem C11_square_single_column : forall Ny g s a j, 0 <= a -> (j < Ny)%nat ->
  cell (build_squared_layer 1 Ny g s a) [] 0 j = g.
Proof. exact squared_single_column. Qed.
Print Assumptions C11_square_single_column.
Example C11_case : cell (build_squared_layer 5 5 [C1] [C0] (1/5)) [] 2 2 = [C0] /\
                   cell (build_squared_layer 5 5 [C1] [C0] (1/5)) [] 0 2 = [C1].
Proof.
  split.
  - apply squared_cell; try lia. unfold coord; simpl. lra.
  - apply squared_cell; try lia. unfold coord; simpl. lra.
Qed.
