(** The networks: nidn/training/utils/nerf.py ("nerf"), siren.py ("siren"),
    voxel.py ("voxel") and nidn/training/model/init_network.py ("init").

    Simplifications: exact real arithmetic; gradients, devices and log messages are
    dropped; a batch is the list of its rows, and a module acts on every row alike;
    the random draws are arguments, one tensor of numbers per parameter. *)
From Coq Require Import Reals ZArith String List Bool.
From Verif Require Import Base Cplx Model_EpsGrid.
Import ListNotations.
Open Scope R_scope.

(** The draws: entry (i, j) of the weights and entry i of the bias of linear
    layer [k], and the two parts of the voxel cells. *)
Record draws := mkDraws {
  d_weight : nat -> nat -> nat -> R; d_bias : nat -> nat -> R;
  d_re : nat -> nat -> nat -> nat -> R; d_im : nat -> nat -> nat -> nat -> R }.

(** [nn.Linear]: y_o = sum_i w_oi x_i + b_o *)
Record linear := mkLinear { l_in : nat; l_out : nat; l_w : nat -> nat -> R; l_b : nat -> R }.
Definition Rsum_n (n : nat) (f : nat -> R) : R := fold_right Rplus 0 (map f (seq 0 n)).
Definition apply_linear (l : linear) (row : list R) : res (list R) :=
  if Nat.eqb (length row) (l_in l)
  then Ok (map (fun o => Rsum_n (l_in l) (fun i => l_w l o i * nth i row 0) + l_b l o) (seq 0 (l_out l)))
  else Err RuntimeError.

(** [nn.Linear(n, m)]: negative sizes raise *)
Definition dim (z : Z) : res nat := if (z <? 0)%Z then Err RuntimeError else Ok (Z.to_nat z).
(** [t.uniform_(-b, b)]: raises unless -b <= b *)
Definition uniform_ (b : R) (u : nat -> nat -> R) : res (nat -> nat -> R) :=
  if Rlt_dec b 0 then Err RuntimeError else Ok (fun i j => - b + 2 * b * u i j).

Definition relu (x : R) : R := Rmax x 0.
Definition sigmoid (x : R) : R := / (1 + exp (- x)).

(** * NERF *)

(** nerf 8-12, 14-16 [NERFLayer.__init__] and [init_weights]: Xavier weights, zero bias.  Sizes are
    not both zero here, since the number of neurons is not. *)
Definition nerf_layer (d : draws) (k n m : nat) (act : R -> R) : res (linear * (R -> R)) :=
  if Nat.eqb (n + m) 0 then Err ZeroDivisionError else
  let! w := uniform_ (sqrt (6 / INR (n + m))) (d_weight d k) in
  Ok (mkLinear n m w (fun _ => 0), act).

(** nerf 18-19 *)
Definition apply_layer (l : linear * (R -> R)) (row : list R) : res (list R) :=
  let! out := apply_linear (fst l) row in Ok (map (snd l) out).

(** nerf 41-45: hidden layers i, i+1, ... *)
Fixpoint nerf_hidden (d : draws) (inf n : nat) (skip : list nat) (i count : nat)
    : res (list (linear * (R -> R))) :=
  match count with
  | O => Ok []
  | S c =>
      let! l := nerf_layer d (S i) (if existsb (Nat.eqb i) skip then n + inf else n) n relu in
      let! r := nerf_hidden d inf n skip (S i) c in
      Ok (l :: r)
  end.

(** nerf 25-47 [NERF.__init__]; [range] of a negative number is empty *)
Definition nerf_new (d : draws) (in_features out_features n_neurons hidden_layers : Z) (skip : list nat)
    : res (list (linear * (R -> R))) :=
  let! inf := dim in_features in
  let! n := dim n_neurons in
  let! first := nerf_layer d 0 inf n relu in
  let! hidden := nerf_hidden d inf n skip 0 (Z.to_nat hidden_layers) in
  let! out := dim out_features in
  let! last := nerf_layer d (S (Z.to_nat hidden_layers)) n out sigmoid in
  Ok (first :: hidden ++ [last]).

(** nerf 56-60: the layers from [layer_idx] on *)
Fixpoint nerf_loop (skip : list nat) (layer_idx : nat) (net : list (linear * (R -> R)))
    (identity out : list R) : res (list R) :=
  match net with
  | [] => Ok out
  | l :: r =>
      let! out := apply_layer l out in
      nerf_loop skip (S layer_idx) r identity
        (if existsb (Nat.eqb layer_idx) skip then out ++ identity else out)
  end.
(** nerf 49-62 [NERF.forward] on one row *)
Definition nerf_forward (skip : list nat) (net : list (linear * (R -> R))) (x : list R) : res (list R) :=
  match net with
  | [] => Err IndexError
  | l :: r => let! out := apply_layer l x in nerf_loop skip 1 r x out
  end.

(** * SIREN *)
Inductive sequential_module :=
| SineLayer (l : linear) (omega_0 : R)
| LinearLayer (l : linear)
| SigmoidLayer.

(** siren 24-43 [SineLayer.__init__], [init_weights]: only the weights are set, the
    bias keeps torch's default, uniform in +-1/sqrt(in).  numpy's division by a zero
    omega_0 gives an infinite range, which [uniform_] refuses. *)
Definition default_bias (n : nat) (u : nat -> R) (o : nat) : R :=
  if Nat.eqb n 0 then 0 else - / sqrt (INR n) + 2 * / sqrt (INR n) * u o.
Definition scaled_weights (n : nat) (omega_0 : R) (u : nat -> nat -> R) : res (nat -> nat -> R) :=
  if Nat.eqb n 0 then Err ZeroDivisionError
  else if Req_EM_T omega_0 0 then Err RuntimeError
  else uniform_ (sqrt (6 / INR n) / omega_0) u.
Definition sine_layer (d : draws) (k n m : nat) (is_first : bool) (omega_0 : R) : res sequential_module :=
  let! w := (if is_first
             then if Nat.eqb n 0 then Err ZeroDivisionError else uniform_ (1 / INR n) (d_weight d k)
             else scaled_weights n omega_0 (d_weight d k)) in
  Ok (SineLayer (mkLinear n m w (default_bias n (d_bias d k))) omega_0).

(** siren 77-85 *)
Fixpoint siren_hidden (d : draws) (n : nat) (omega_0 : R) (k count : nat) : res (list sequential_module) :=
  match count with
  | O => Ok []
  | S c =>
      let! l := sine_layer d k n n false omega_0 in
      let! r := siren_hidden d n omega_0 (S k) c in
      Ok (l :: r)
  end.

(** siren 57-110 [Siren.__init__] with outermost_linear=True and a final sigmoid,
    as init_network calls it *)
Definition siren_new (d : draws) (in_features hidden_features hidden_layers out_features : Z)
    (first_omega_0 hidden_omega_0 : R) : res (list sequential_module) :=
  let! inf := dim in_features in
  let! n := dim hidden_features in
  let! first := sine_layer d 0 inf n true first_omega_0 in
  let! hidden := siren_hidden d n hidden_omega_0 1 (Z.to_nat hidden_layers) in
  let! out := dim out_features in
  let k := S (Z.to_nat hidden_layers) in
  let! w := scaled_weights n hidden_omega_0 (d_weight d k) in
  Ok (first :: hidden ++ [LinearLayer (mkLinear n out w (default_bias n (d_bias d k))); SigmoidLayer]).

(** siren 45-46, torch's Linear and Sigmoid *)
Definition apply_module (m : sequential_module) (row : list R) : res (list R) :=
  match m with
  | SineLayer l omega_0 => let! out := apply_linear l row in Ok (map (fun v => sin (omega_0 * v)) out)
  | LinearLayer l => apply_linear l row
  | SigmoidLayer => Ok (map sigmoid row)
  end.
(** siren 112-117 [Siren.forward] on one row *)
Fixpoint siren_forward (net : list sequential_module) (row : list R) : res (list R) :=
  match net with
  | [] => Ok row
  | m :: r => let! out := apply_module m row in siren_forward r out
  end.

(** * Voxel *)

(** voxel 8-30 [Voxel.__init__]: random weights scaled to the allowed ranges *)
Definition voxel_new (d : draws) (type : string) (nx ny nl nf : nat) (rmin rmax imin imax : R) : res (grid4 C) :=
  if negb (String.eqb type "regression") then Err AssertionError else
  Ok (map (fun x => map (fun y => map (fun l => map (fun f =>
        (d_re d x y l f * (rmax - rmin) + rmin, d_im d x y l f * (imax - imin) + imin))
        (seq 0 nf)) (seq 0 nl)) (seq 0 ny)) (seq 0 nx)).

(** * init_network *)
Record net_cfg := mkNetCfg {
  c_model_type : string; c_type : string;
  c_encoding_dim : Z; c_out_features : Z; c_n_neurons : Z; c_hidden_layers : Z; c_siren_omega : R;
  c_Nx : nat; c_Ny : nat; c_N_layers : nat; c_N_freq : nat;
  c_rmin : R; c_rmax : R; c_imin : R; c_imax : R }.

Inductive model :=
| Nerf (net : list (linear * (R -> R)))
| Siren (net : list sequential_module)
| Voxel (w : grid4 C).

(** init 24 *)
Definition NERF_SKIP : list nat := [4%nat].

(** init 10-47 [init_network] *)
Definition init_network (d : draws) (c : net_cfg) : res model :=
  if String.eqb (c_model_type c) "nerf" then
    let! n := nerf_new d (c_encoding_dim c) (c_out_features c) (c_n_neurons c) (c_hidden_layers c) NERF_SKIP in
    Ok (Nerf n)
  else if String.eqb (c_model_type c) "siren" then
    let! n := siren_new d (c_encoding_dim c) (c_n_neurons c) (c_hidden_layers c) (c_out_features c)
                (c_siren_omega c) (c_siren_omega c) in
    Ok (Siren n)
  else if String.eqb (c_model_type c) "voxel" then
    let! w := voxel_new d (c_type c) (c_Nx c) (c_Ny c) (c_N_layers c) (c_N_freq c)
                (c_rmin c) (c_rmax c) (c_imin c) (c_imax c) in
    Ok (Voxel w)
  else Err NotImplementedError.

(** [model(rows)] for the two networks on coordinates; a voxel model takes no
    argument (TypeError) *)
Definition run_model (m : model) (rows : list (list R)) : res (list (list R)) :=
  match m with
  | Nerf n => mmap (nerf_forward NERF_SKIP n) rows
  | Siren n => mmap (siren_forward n) rows
  | Voxel _ => Err TypeError
  end.

(** model_to_eps_grid.py 118-123 with a given model: [model(nn_inputs)] or
    [model()], evaluated once.  (Model_EpsGrid's networks are total, so that the
    exceptions of the model are raised here.) *)
Definition with_model (cfg : eps_cfg) (m : model) : res network :=
  let! inputs := eval_model cfg {| net_rows := fun rows => rows; net_voxel := [] |} in
  match inputs, m with
  | Rows points, _ => let! rows := run_model m points in Ok {| net_rows := fun _ => rows; net_voxel := [] |}
  | Vox _, Voxel w => Ok {| net_rows := fun rows => rows; net_voxel := w |}
  | Vox _, _ => Err TypeError
  end.
