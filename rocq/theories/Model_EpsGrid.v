(** From a network to a permittivity grid: nidn/training/model/model_to_eps_grid.py. *)
From Coq Require Import Reals ZArith String List Bool.
From Verif Require Import Base Cplx Model_Materials.
Import ListNotations.
Open Scope R_scope.

(** * torch helpers (tensors are nested lists) *)
Definition grid4 (A : Type) := list (list (list (list A))).
Definition map3 {A B} (f : list A -> list B) (g : grid4 A) : grid4 B :=
  map (map (map f)) g.
Fixpoint mapi_from {A B} (i : nat) (f : nat -> A -> B) (l : list A) : list B :=
  match l with [] => [] | x :: r => f i x :: mapi_from (S i) f r end.
Definition mapi {A B} (f : nat -> A -> B) (l : list A) : list B := mapi_from 0 f l.
Definition map4i {A B} (f : nat -> nat -> nat -> nat -> A -> B) (g : grid4 A) : grid4 B :=
  mapi (fun x => mapi (fun y => mapi (fun z => mapi (fun w => f x y z w)))) g.

(** [t.reshape(n1,n2,n3,n4)] of a tensor whose row-major entries are [l]. *)
Definition reshape4 {A} (d : A) (n1 n2 n3 n4 : nat) (l : list A) : res (grid4 A) :=
  if Nat.eqb (length l) (n1 * n2 * n3 * n4) then
    Ok (map (fun i => map (fun j => map (fun k => map (fun m =>
           nth (((i * n2 + j) * n3 + k) * n4 + m) l d)
         (seq 0 n4)) (seq 0 n3)) (seq 0 n2)) (seq 0 n1))
  else Err RuntimeError.

(** [torch.repeat_interleave(t, n, dim=0)]; along dim=1 it is mapped. *)
Definition repeat_interleave {A} (n : nat) (l : list A) : list A :=
  flat_map (fun x => repeat x n) l.

(** [t.clip(lo, hi)] *)
Definition clip (lo hi x : R) : R := Rmin (Rmax x lo) hi.

(** [torch.sign] *)
Definition sign (x : R) : R := if Rlt_dec 0 x then 1 else if Rlt_dec x 0 then -1 else 0.

(** [max] of a non-empty list *)
Definition Rmaximum (l : list R) : R :=
  match l with [] => 0 | x :: r => fold_left Rmax r x end.

(** [torch.cumsum] *)
Fixpoint cumsum_from (acc : R) (l : list R) : list R :=
  match l with [] => [] | x :: r => (acc + x) :: cumsum_from (acc + x) r end.
Definition cumsum (l : list R) : list R := cumsum_from 0 l.

(** * Lines 5-37 [_get_transformed_grid] *)
Definition get_transformed_grid (Nxu Nyu N_layers : nat) (thicknesses : list R)
    : list R * list R * list R :=
  let x := linspace (-1) 1 Nxu in
  let y := linspace (-1) 1 Nyu in
  let z :=
    if Nat.eqb (length thicknesses) 1 then linspace (-1) 1 N_layers
    else
      let total := Rsum thicknesses in
      let z := cumsum (map (fun t => t / total) thicknesses) in
      let z := map (fun v => v - nth 0 thicknesses 0 / total) z in
      let m := Rmaximum z in
      map (fun v => (v / m - 1 / 2) * 2) z in
  (x, y, z).

(** * Lines 40-56 [_avoid_zero_eps] on one real part *)
Definition avoid_zero1 (cutoff r : R) : R :=
  let r := if Reqb r 0 then cutoff else r in
  if Rltb r cutoff && Rltb (- cutoff) r then cutoff * sign r else r.
(** ... and on a tensor: only the real parts are touched. *)
Definition avoid_zero_eps (cutoff : R) (eps : grid4 C) : grid4 C :=
  map3 (map (fun e => (avoid_zero1 cutoff (Re e), Im e))) eps.
(** the default cutoff, line 40 *)
Definition CUTOFF : R := / 100.

(** The part of run_cfg that these functions read. *)
Record eps_cfg := {
  e_type : string; e_model_type : string;
  e_Nx : nat; e_Ny : nat; e_os : nat; e_N_layers : nat; e_N_freq : nat; e_N_materials : nat;
  e_target_frequencies : list R; e_freq_distribution : string; e_thickness : list R;
  e_rmin : R; e_rmax : R; e_imin : R; e_imax : R;
  e_avoid_zero : bool; e_add_noise : bool; e_noise_scale : R;
  e_epsilon_matrix : tens }.

(** The torch module: called with the Nx4 input (one output row per input row),
    or with no argument (voxel).  An oracle argument: nothing is assumed. *)
Record network := {
  net_rows : list (list R) -> list (list R);
  net_voxel : grid4 C }.

(** Lines 109-116: meshgrid of the four ticks, flattened row-major to rows
    [x; y; z; freq]. *)
Definition nn_inputs (xs ys zs fs : list R) : list (list R) :=
  flat_map (fun x => flat_map (fun y => flat_map (fun z =>
    map (fun f => [x; y; z; f]) fs) zs) ys) xs.

(** Lines 95-107 *)
Definition freq_ticks (dist : string) (target_frequencies : list R) : res (list R) :=
  if String.eqb dist "linear" then Ok (linspace (-32) 32 (length target_frequencies))
  else if String.eqb dist "log" then
    match target_frequencies with
    | [] => Err ValueError                       (* max() of an empty sequence *)
    | _ => let m := Rmaximum target_frequencies in
           Ok (map (fun f => (f / m - 1 / 2) * 2 * 32) target_frequencies)
    end
  else Err ValueError.

Inductive eval_out := Rows (rows : list (list R)) | Vox (g : grid4 C).

(** Lines 59-127 [_eval_model] *)
Definition eval_model (cfg : eps_cfg) (net : network) : res eval_out :=
  if String.eqb (e_model_type cfg) "nerf" || String.eqb (e_model_type cfg) "siren" then
    let '(x, y, z) := get_transformed_grid (e_Nx cfg / e_os cfg) (e_Ny cfg / e_os cfg)
                        (e_N_layers cfg) (e_thickness cfg) in
    let z := map (fun v => v * 1000) z in
    let! freq := freq_ticks (e_freq_distribution cfg) (e_target_frequencies cfg) in
    Ok (Rows (net_rows net (nn_inputs x y z freq)))
  else if String.eqb (e_model_type cfg) "voxel" then Ok (Vox (net_voxel net))
  else Err NotImplementedError.

(** Lines 183-194, one real part from one network output *)
Definition real_of (cfg : eps_cfg) (o : R) : R :=
  let r := clip (e_rmin cfg) (e_rmax cfg) (o * (e_rmax cfg - e_rmin cfg) + e_rmin cfg) in
  if e_avoid_zero cfg then avoid_zero1 CUTOFF r else r.
(** Lines 197-200, one imaginary part from one network output *)
Definition imag_of (cfg : eps_cfg) (o : R) : R :=
  clip (e_imin cfg) (e_imax cfg) (o * (e_imax cfg - e_imin cfg)).

(** Lines 202-217; [nre], [nim] are the draws of torch.randn_like. *)
Definition add_noise (cfg : eps_cfg) (nre nim : nat -> nat -> nat -> nat -> R) (eps : grid4 C) : grid4 C :=
  map4i (fun x y l f e =>
    (clip (e_rmin cfg) (e_rmax cfg)
       (Re e + (nre x y l f - 1 / 2) * 2 * e_noise_scale cfg * (e_rmax cfg - e_rmin cfg)),
     clip (e_imin cfg) (e_imax cfg)
       (Im e + (nim x y l f - 1 / 2) * 2 * e_noise_scale cfg * (e_imax cfg - e_imin cfg)))) eps.

(** Lines 130-219 [_regression_model_to_eps_grid].  The copy into the
    [Nx,Ny,N_layers,N_freq] tensor of line 183 raises RuntimeError when the
    oversampled shape differs. *)
Definition regression_grid (cfg : eps_cfg) (net : network)
    (nre nim : nat -> nat -> nat -> nat -> R) : res (grid4 C) :=
  let nxu := (e_Nx cfg / e_os cfg)%nat in
  let nyu := (e_Ny cfg / e_os cfg)%nat in
  let! out := eval_model cfg net in
  let! eps :=
    match out with
    | Vox g =>
        Ok (map3 (map (fun e => (clip (e_rmin cfg) (e_rmax cfg) (Re e),
                                 clip (e_imin cfg) (e_imax cfg) (Im e)))) g)
    | Rows rows =>
        let! out := reshape4 0 nxu nyu (e_N_layers cfg) (2 * e_N_freq cfg) (concat rows) in
        let out := repeat_interleave (e_os cfg) out in
        let out := map (repeat_interleave (e_os cfg)) out in
        if Nat.eqb (nxu * e_os cfg) (e_Nx cfg) && Nat.eqb (nyu * e_os cfg) (e_Ny cfg) then
          Ok (map3 (fun v => combine (map (real_of cfg) (firstn (e_N_freq cfg) v))
                                     (map (imag_of cfg) (skipn (e_N_freq cfg) v))) out)
        else Err RuntimeError
    end in
  Ok (if e_add_noise cfg then add_noise cfg nre nim eps else eps).

(** * Lines 222-284 [_classification_model_to_eps_grid] *)
(** Line 263: mean over the frequency axis of one cell's N_freq rows of
    N_materials outputs. *)
Definition mean_over_freq (N_materials : nat) (rows : list (list R)) : list R :=
  map (fun m => Rmean (map (fun row => nth m row 0) rows)) (seq 0 N_materials).

(** Lines 269-274: the material weights of one cell *)
Definition BETA : R := 16.
Definition softmax_weights (out : list R) : list R :=
  let ex := map (fun o => exp (BETA * o)) out in
  let s := Rsum ex in
  let p := map (fun e => e / s) ex in
  let s2 := Rsum p in
  map (fun q => q / s2) p.

(** Lines 277-279: [(material_id.unsqueeze(-1) * epsilon_matrix).sum(-2)] for one
    cell with weights [w], following torch's broadcasting for a matrix of rank
    2, 1 or 0. *)
Definition Csum (l : list C) : C := fold_right Cadd C0 l.
Definition mixture (w : list R) (m : tens) : res (list C) :=
  match m with
  | T2 rows =>
      if Nat.eqb (length rows) (length w) then
        Ok (map (fun f => Csum (map (fun p => Cscal (fst p) (nth f (snd p) C0)) (combine w rows)))
              (seq 0 (length (hd [] rows))))
      else Err RuntimeError
  | T1 v => Ok (map (fun e => Csum (map (fun p => Cscal p e) w)) v)
  | T0 z => Ok [Csum (map (fun p => Cscal p z) w)]
  end.

Fixpoint mmap {A B} (f : A -> res B) (l : list A) : res (list B) :=
  match l with
  | [] => Ok []
  | x :: r => let! y := f x in let! ys := mmap f r in Ok (y :: ys)
  end.

(** Returns (eps, material_id).  [noise x y l m] are the draws of line 267.
    The reshape to five axes (250-256) is a reshape to four axes whose last axis
    holds N_freq*N_materials entries, cut into N_freq rows. *)
Definition classification_grid (cfg : eps_cfg) (net : network)
    (noise : nat -> nat -> nat -> nat -> R) : res (grid4 C * grid4 R) :=
  let nxu := (e_Nx cfg / e_os cfg)%nat in
  let nyu := (e_Ny cfg / e_os cfg)%nat in
  let nf := e_N_freq cfg in
  let nm := e_N_materials cfg in
  let! out := eval_model cfg net in
  match out with
  | Vox _ => Err RuntimeError
  | Rows rows =>
      let! out := reshape4 0 nxu nyu (e_N_layers cfg) (nf * nm) (concat rows) in
      let out := repeat_interleave (e_os cfg) out in
      let out := map (repeat_interleave (e_os cfg)) out in
      let out := map3 (fun v => mean_over_freq nm
                   (map (fun f => map (fun m => nth (f * nm + m) v 0) (seq 0 nm)) (seq 0 nf))) out in
      let out := if e_add_noise cfg
                 then map4i (fun x y l m o => o + noise x y l m * e_noise_scale cfg) out else out in
      let material_id := map3 softmax_weights out in
      let! eps := mmap (mmap (mmap (fun w => mixture w (e_epsilon_matrix cfg)))) material_id in
      Ok (if e_avoid_zero cfg then avoid_zero_eps CUTOFF eps else eps, material_id)
  end.

(** Lines 287-301 [model_to_eps_grid]; an unknown type returns None. *)
Definition model_to_eps_grid (cfg : eps_cfg) (net : network)
    (nre nim noise : nat -> nat -> nat -> nat -> R)
    : res (option (grid4 C * option (grid4 R))) :=
  if String.eqb (e_type cfg) "classification" then
    let! r := classification_grid cfg net noise in Ok (Some (fst r, Some (snd r)))
  else if String.eqb (e_type cfg) "regression" then
    let! g := regression_grid cfg net nre nim in Ok (Some (g, None))
  else Ok None.
