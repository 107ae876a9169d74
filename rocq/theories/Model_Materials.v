(** Materials: nidn/materials/{material_collection,find_closest_material,layer_builder}.py
    and nidn/trcwa/load_material_data.py. *)
From Coq Require Import Reals ZArith String List Bool.
From Verif Require Import Base Cplx.
Import ListNotations.
Open Scope R_scope.

(** One line of a material csv file: columns Wavelength, n, k. *)
Record row := { Wavelength : R; n_ : R; k_ : R }.

(** pandas [Series.idxmin] / [torch.min(dim)]: index of the first minimum of a
    non-empty list.  [best] is the minimum so far, found at [bi]; [i] is the
    index of the head of the list. *)
Fixpoint argmin_from (best : R) (bi i : nat) (l : list R) : nat :=
  match l with
  | [] => bi
  | x :: r => if Rlt_dec x best then argmin_from x i (S i) r
              else argmin_from best bi (S i) r
  end.
Definition argmin (l : list R) : option nat :=
  match l with [] => None | x :: r => Some (argmin_from x 0 1 r) end.

(** material_collection.py:101-107 and trcwa/load_material_data.py:18-24, one
    iteration of the loop.  An empty table makes idxmin raise ValueError. *)
Definition eps_at (table : list row) (freq : R) : res C :=
  let wl := 1 / freq in
  match argmin (map (fun r => Rabs (Wavelength r - wl)) table) with
  | None => Err ValueError
  | Some result_index =>
      match nth_error table result_index with
      | None => Err IndexError
      | Some entry =>
          Ok (n_ entry * n_ entry - k_ entry * k_ entry, 2 * n_ entry * k_ entry)
      end
  end.

(** material_collection.py:85-111 [_load_material_data]: the (N_freq,1) tensor,
    kept as the list of its N_freq entries. *)
Fixpoint load_material_data (table : list row) (freqs : list R) : res (list C) :=
  match freqs with
  | [] => Ok []
  | f :: r => let! e := eps_at table f in
              let! es := load_material_data table r in Ok (e :: es)
  end.

(** Tensors of rank 0, 1, 2 (what [squeeze] can leave of a (N,F,1) tensor). *)
Inductive tens := T0 (z : C) | T1 (v : list C) | T2 (m : list (list C)).

(** material_collection.py:82 [torch.stack(eps_list).squeeze()]; [torch.stack]
    of an empty list raises RuntimeError. *)
Definition stack_squeeze (eps_list : list (list C)) : res tens :=
  match eps_list with
  | [] => Err RuntimeError
  | [[z]] => Ok (T0 z)
  | [v] => Ok (T1 v)
  | v :: _ => if Nat.eqb (length v) 1
              then Ok (T1 (concat eps_list)) else Ok (T2 eps_list)
  end.

(** [t[i]] *)
Definition tens_index (t : tens) (i : nat) : res tens :=
  match t with
  | T0 _ => Err IndexError
  | T1 v => match nth_error v i with Some z => Ok (T0 z) | None => Err IndexError end
  | T2 m => match nth_error m i with Some v => Ok (T1 v) | None => Err IndexError end
  end.

(** A csv file in the data folder: material name (file name without ".csv",
    lines 66-67) and content.  Simplification: path handling is not modelled. *)
Definition mfile := (string * list row)%type.

Record collection := { material_names : list string; epsilon_matrix : tens }.

(** material_collection.py:65-78, the loop over the files. *)
Fixpoint load_files (files : list mfile) (freqs : list R) (to_skip : list string)
    : res (list (string * list C)) :=
  match files with
  | [] => Ok []
  | (name, table) :: r =>
      if existsb (String.eqb name) to_skip then load_files r freqs to_skip
      else let! e := load_material_data table freqs in
           let! es := load_files r freqs to_skip in
           Ok ((name, e) :: es)
  end.

(** material_collection.py:16-32 and 50-83.  [to_skip = None] is []. *)
Definition MaterialCollection (files : list mfile) (freqs : list R) (to_skip : list string)
    : res collection :=
  match freqs with
  | [] => Err ValueError
  | _ =>
      let! loaded := load_files files freqs to_skip in
      let! m := stack_squeeze (map snd loaded) in
      Ok {| material_names := map fst loaded; epsilon_matrix := m |}
  end.

(** [list.index] for a member of the list *)
Fixpoint str_index (k : string) (l : list string) : nat :=
  match l with
  | [] => 0
  | x :: r => if String.eqb k x then 0 else S (str_index k r)
  end.

(** material_collection.py:34-48 *)
Definition mc_getitem (mc : collection) (key : string) : res tens :=
  if existsb (String.eqb key) (material_names mc)
  then tens_index (epsilon_matrix mc) (str_index key (material_names mc))
  else Err KeyError.

(** [torch.abs(eps - material_eps)] for one cell (a vector over frequencies),
    find_closest_material.py:34, with broadcasting of a scalar.  A length
    mismatch is torch's RuntimeError (a broadcast length-1 vector cannot occur
    for N_freq > 1). *)
Definition abs_diff (eps : list C) (m : tens) : res (list R) :=
  match m with
  | T0 z => Ok (map (fun e => Cabs (e - z)%C) eps)
  | T1 v => if Nat.eqb (length v) (length eps)
            then Ok (map (fun p => Cabs (fst p - snd p)%C) (combine eps v))
            else Err RuntimeError
  | T2 _ => Err RuntimeError
  end.

(** [mean] *)
Definition Rmean (l : list R) : R := Rsum l / INR (length l).

(** find_closest_material.py:6-40 [_find_closest_material] for one grid cell:
    the averaged distances to all materials (lines 31-37)... *)
Fixpoint comparisons (mc : collection) (names : list string) (eps : list C) : res (list R) :=
  match names with
  | [] => Ok []
  | nm :: r =>
      let! m := mc_getitem mc nm in
      let! d := abs_diff eps m in
      let! ds := comparisons mc r eps in
      Ok (Rmean d :: ds)
  end.
(** ... and their minimum with its index (lines 38-40).  The code does this for
    all cells of the grid at once; cells do not interact. *)
Definition find_closest (mc : collection) (eps : list C) : res (R * nat) :=
  let! ds := comparisons mc (material_names mc) eps in
  match argmin ds with
  | None => Err IndexError
  | Some i => Ok (nth i ds 0, i)
  end.

(** * LayerBuilder *)
(** [torch.meshgrid(x0, y0)] and per-cell evaluation: cell (i,j) of the result
    is [f x0[i] y0[j]]. *)
Definition mesh_map {A} (f : R -> R -> A) (x0 y0 : list R) : list (list A) :=
  map (fun x => map (fun y => f x y) y0) x0.

(** layer_builder.py:33-46 (a layer is a Nx*Ny grid of vectors over frequency;
    materials are given by their epsilon vectors) *)
Definition build_uniform_layer (Nx Ny : nat) (grid_material : list C) : list (list (list C)) :=
  mesh_map (fun _ _ => grid_material) (linspace 0 1 Nx) (linspace 0 1 Ny).

(** layer_builder.py:48-71 *)
Definition build_squared_layer (Nx Ny : nat) (grid_material square_material : list C) (a : R)
    : list (list (list C)) :=
  mesh_map (fun x y =>
      let ind := (Rltb a x && Rltb x (1 - a)) && (Rltb a y && Rltb y (1 - a)) in
      if ind then square_material else grid_material)
    (linspace 0 1 Nx) (linspace 0 1 Ny).

(** layer_builder.py:73-97 *)
Definition build_circle_layer (Nx Ny : nat) (grid_material circle_material : list C)
    (radius x_center y_center : R) : list (list (list C)) :=
  mesh_map (fun x y =>
      let ind := Rltb ((x - x_center) ^ 2 + (y - y_center) ^ 2) (radius ^ 2) in
      if ind then circle_material else grid_material)
    (linspace 0 1 Nx) (linspace 0 1 Ny).
