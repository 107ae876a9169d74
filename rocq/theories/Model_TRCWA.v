(** nidn/trcwa/trcwa.py ("trcwa" below), utils/fft_funs.py ("fft"), init_trcwa.py
    ("init") and compute_spectrum_trcwa.py ("spec"): the TRCWA object from its
    construction to the spectrum.

    Simplifications: exact complex arithmetic; a division by zero or the root of a
    negative real tensor, which torch turns into infinities or NaN, raises
    RuntimeError in the model, so that nothing is claimed of such runs; log
    messages are dropped; a grid tensor is its shape and its entries. *)
From Coq Require Import Reals ZArith String.
From mathcomp Require Import all_ssreflect all_algebra.
From Verif Require Import Base Cplx CplxLemmas CField Model_Lattice Model_Stack Model_Modes.
Import GRing.Theory.
Delimit Scope R_scope with coqR.
Delimit Scope Z_scope with coqZ.
Local Open Scope ring_scope.

(** A permittivity given to Add_LayerUniform: a real or a complex tensor. *)
Inductive eps_val := EReal (r : R) | ECplx (c : C).
Definition eps_C (e : eps_val) : C := match e with EReal r => RtoC r | ECplx c => c end.
(** [torch.sqrt] *)
Definition eps_sqrt (e : eps_val) : res C :=
  match e with
  | EReal r => if Rlt_dec r 0 then Err RuntimeError else Ok (RtoC (sqrt r))
  | ECplx c => Ok (Csqrt c)
  end.

(** trcwa 12-67: the attributes of a TRCWA object before Init_Setup; line 33:
    omega = 2 pi freq. *)
Record rcwa := mkRcwa {
  r_nG : order_arg; r_L1 : lattice_arg; r_L2 : lattice_arg; r_omega : C;
  r_theta : R; r_phi : R; r_stack : stack R eps_val unit }.
Definition TRCWA_new (nG : order_arg) (L1 L2 : lattice_arg) (freq : C) (theta phi : R) : rcwa :=
  mkRcwa nG L1 L2 (RtoC (2 * PI)%coqR * freq) theta phi empty_stack.

(** The object after Init_Setup; [size G] is the number of orders kept. *)
Record ready (G : seq (Z * Z)) := mkReady {
  s_omega : C; s_theta : R; s_phi : R;
  s_kx : 'rV[C]_(size G); s_ky : 'rV[C]_(size G);
  s_norm : C;
  s_ids : seq (seq nat); s_Nxy : seq (nat * nat);
  s_thick : seq R;
  s_modes : seq (option (mode (size G + size G))) }.
Arguments mkReady {G}. Arguments s_omega {G}. Arguments s_theta {G}. Arguments s_phi {G}.
Arguments s_kx {G}. Arguments s_ky {G}. Arguments s_norm {G}. Arguments s_ids {G}.
Arguments s_Nxy {G}. Arguments s_thick {G}. Arguments s_modes {G}.

Definition row_of {n} (l : seq C) : 'rV[C]_n := \row_j List.nth j l C0.

(** trcwa 139-144: kp, q and phi of a uniform layer *)
Definition uniform_layer {n} (omega : C) (kx ky : 'rV[C]_n) (ep : C) : res (mode (n + n)) :=
  if ep == 0 then Err RuntimeError
  else let r := Solve_uniform omega kx ky ep in
       Ok (mkMode (fst r) (snd r) (MakeKP_uniform omega (ep^-1) kx ky)).

(** trcwa 136-148: one pass of the loop over the layers *)
Definition setup_layer {n} (omega : C) (kx ky : 'rV[C]_n) (eps : seq eps_val) (id : seq nat)
    : res (option (mode (n + n))) :=
  match id with
  | 0%N :: _ :: k :: _ =>
      match List.nth_error eps k with
      | Some e => let! md := uniform_layer omega kx ky (eps_C e) in Ok (Some md)
      | None => Err IndexError
      end
  | _ => Ok None
  end.

Fixpoint map_layers {A B} (f : A -> res B) (l : seq A) : res (seq B) :=
  match l with
  | [::] => Ok [::]
  | x :: r => let! y := f x in let! ys := map_layers f r in Ok (y :: ys)
  end.

Section Argsort.
Variable argsort : seq R -> seq nat.

(** trcwa 97-148 [Init_Setup] *)
Definition Init_Setup (o : rcwa) (Pscale : R) (Gmethod : Z) : res {G : seq (Z * Z) & ready G} :=
  let! ep0 := match List.nth_error (Uniform_ep_list (r_stack o)) 0 with
              | Some e => Ok e | None => Err IndexError end in
  let! root := eps_sqrt ep0 in
  let kx0 := r_omega o * RtoC (sin (r_theta o)) * RtoC (cos (r_phi o)) * root in
  let ky0 := r_omega o * RtoC (sin (r_theta o)) * RtoC (sin (r_phi o)) * root in
  let! lk := Lattice_Reciprocate (r_L1 o) (r_L2 o) in
  let! g := Lattice_getG argsort (r_nG o) (fst lk) (snd lk) Gmethod in
  let G := fst g in
  if Req_EM_T Pscale 0 then Err RuntimeError else
  let lk1 := (Rdiv (fst (fst lk)) Pscale, Rdiv (snd (fst lk)) Pscale) in
  let lk2 := (Rdiv (fst (snd lk)) Pscale, Rdiv (snd (snd lk)) Pscale) in
  let ks := Lattice_SetKs G kx0 ky0 lk1 lk2 in
  let kx := row_of (n := size G) (fst ks) in
  let ky := row_of (n := size G) (snd ks) in
  if Req_EM_T (cos (r_theta o)) 0 then Err RuntimeError else
  let norm := root * RtoC (Rinv (cos (r_theta o))) in
  let! ms := map_layers (setup_layer (r_omega o) kx ky (Uniform_ep_list (r_stack o))) (id_list (r_stack o)) in
  Ok (existT _ G (mkReady (r_omega o) (r_theta o) (r_phi o) kx ky norm
                    (id_list (r_stack o)) (GridLayer_Nxy_list (r_stack o))
                    (thickness_list (r_stack o)) ms)).
End Argsort.

(** Python index of a tensor of length [n] *)
Definition py_index (n : nat) (i : Z) : res nat :=
  if (0 <=? i)%coqZ && (i <? Z.of_nat n)%coqZ then Ok (Z.to_nat i)
  else if (Z.opp (Z.of_nat n) <=? i)%coqZ && (i <? 0)%coqZ then Ok (Z.to_nat (i + Z.of_nat n))
  else Err IndexError.

(** [tmp[i] = 1.0] in a zero vector, times [c] *)
Definition spike {n} (i : nat) (c : C) : 'cV[C]_n := \col_j (if j == i :> nat then c else 0).

(** trcwa 150-206 [MakeExcitationPlanewave]: the pair (a0, bN) *)
Definition MakeExcitationPlanewave (n : nat) (theta phi : R) (p_amp : C) (p_phase : R)
    (s_amp : C) (s_phase : R) (order : Z) (direction : string) : res ('cV[C]_(n + n) * 'cV[C]_(n + n)) :=
  let es := Cexp (Ci * RtoC s_phase) in
  let ep := Cexp (Ci * RtoC p_phase) in
  let cx := - s_amp * RtoC (cos theta) * RtoC (cos phi) * es - p_amp * RtoC (sin phi) * ep in
  let cy := - s_amp * RtoC (cos theta) * RtoC (sin phi) * es + p_amp * RtoC (cos phi) * ep in
  let wave := let! i := py_index (n + n) order in
              let! j := py_index (n + n) (order + Z.of_nat n) in
              Ok (spike i cx + spike j cy) in
  if String.eqb direction "forward" then let! a := wave in Ok (a, 0)
  else if String.eqb direction "backward" then let! b := wave in Ok (0, b)
  else Ok (0, 0).

(** A permittivity tensor of one, two or three dimensions *)
Inductive tensor :=
| T1 (a : nat) (f : nat -> C)
| T2 (a b : nat) (f : nat -> nat -> C)
| T3 (a b c : nat) (f : nat -> nat -> nat -> C).

(** [squeeze(0)] (on a vector it is not used) *)
Definition squeeze0 (t : tensor) : tensor :=
  match t with
  | T3 1 b c f => T2 b c (f 0%N)
  | T2 1 b f => T1 b (f 0%N)
  | _ => t
  end.

(** A grid of permittivities, [Nx, Ny] *)
Record grid2 := mkGrid2 { g_nx : nat; g_ny : nat; g_at : nat -> nat -> C }.

(** [torch.reshape(v, [Nx, Ny])] of a vector of length [len] *)
Definition reshape (len : nat) (v : nat -> C) (Nx Ny : nat) : res grid2 :=
  if len == (Nx * Ny)%N then Ok (mkGrid2 Nx Ny (fun x y => v (x * Ny + y)%N)) else Err RuntimeError.

(** [t[ptr : ptr + n]] of a vector or a matrix, flattened row by row: its length
    and its entries *)
Definition slice_flat (t : tensor) (ptr n : nat) : nat * (nat -> C) :=
  match t with
  | T1 a f => ((minn (ptr + n) a - minn ptr a)%N, fun k => f (ptr + k)%N)
  | T2 a b f => (((minn (ptr + n) a - minn ptr a) * b)%N, fun k => f (ptr + k %/ b)%N (k %% b)%N)
  | T3 a b c f => (((minn (ptr + n) a - minn ptr a) * (b * c))%N,
                   fun k => f (ptr + k %/ (b * c))%N ((k %% (b * c)) %/ c)%N (k %% c)%N)
  end.

(** [ep_all[k]] *)
Definition sub_tensor (t : tensor) (k : nat) : option tensor :=
  match t with
  | T1 _ _ => None
  | T2 _ b f => Some (T1 b (f k))
  | T3 _ b c f => Some (T2 b c (f k))
  end.
Definition tensor_len (t : tensor) : nat := match t with T1 a _ | T2 a _ _ | T3 a _ _ _ => a end.

(** What Epsilon_fft is given: one grid or three *)
Inductive grid_arg := Iso (g : grid2) | Aniso (gx gy gz : grid2).

(** trcwa 218-238: the permittivity grid of layer [i], a grid layer of size
    [Nx, Ny].  (The last branch is reached only by vectors and matrices.) *)
Definition layer_grid (t : tensor) (i ptr Nx Ny : nat) : res grid_arg :=
  match (if tensor_len t == 3%N then (sub_tensor t 0, sub_tensor t 1, sub_tensor t 2)
         else (None, None, None)) with
  | (Some t0, Some t1, Some t2) =>
      let r (u : tensor) := let s := slice_flat u ptr (Nx * Ny) in reshape (fst s) (snd s) Nx Ny in
      let! g0 := r t0 in let! g1 := r t1 in let! g2 := r t2 in Ok (Aniso g0 g1 g2)
  | _ =>
      match t with
      | T3 a b c f =>
          let! k := py_index c (Z.of_nat i - 1)%coqZ in Ok (Iso (mkGrid2 a b (fun x y => f x y k)))
      | _ => let s := slice_flat t ptr (Nx * Ny) in
             let! g := reshape (fst s) (snd s) Nx Ny in Ok (Iso g)
      end
  end.

(** [torch.fft.fft2], entry (k, l): the two-dimensional discrete Fourier transform;
    an empty dimension raises RuntimeError *)
Definition fft2 (g : grid2) (k l : nat) : C :=
  \sum_(x < g_nx g) \sum_(y < g_ny g)
    g_at g x y * Cis (- (2 * PI * (INR k * INR x / INR (g_nx g) + INR l * INR y / INR (g_ny g))))%coqR.

(** fft 45-60 [get_conv] *)
Definition get_conv (dN : R) (g : grid2) (G : seq (Z * Z)) : res 'M[C]_(size G) :=
  if (g_nx g == 0%N) || (g_ny g == 0%N) then Err RuntimeError else
  let d (i j : nat) := (Z.sub (List.nth i G (0, 0)%coqZ).1 (List.nth j G (0, 0)%coqZ).1,
                        Z.sub (List.nth i G (0, 0)%coqZ).2 (List.nth j G (0, 0)%coqZ).2) in
  let at_ (i j : nat) := let! k := py_index (g_nx g) (d i j).1 in
                         let! l := py_index (g_ny g) (d i j).2 in
                         Ok (fft2 g k l * RtoC dN) in
  let inside i j := match at_ i j with Ok _ => true | Err _ => false end in
  if [forall i : 'I_(size G), forall j : 'I_(size G), inside i j]
  then Ok (\matrix_(i, j) match at_ i j with Ok z => z | Err _ => 0 end)
  else Err IndexError.

(** fft 34-38: entries whose real and imaginary parts are both below 1e-14 *)
Definition threshold (z : C) : C :=
  if Rlt_dec (Re z) (/ 10 ^ 14)%coqR then if Rlt_dec (Im z) (/ 10 ^ 14)%coqR then 0 else z else z.

(** fft 4-42 [Epsilon_fft] *)
Definition Epsilon_fft (dN : R) (g : grid_arg) (G : seq (Z * Z))
    : res ('M[C]_(size G) * 'M[C]_(size G + size G)) :=
  match g with
  | Aniso gx gy gz =>
      let! ex := get_conv dN gx G in
      let! ey := get_conv dN gy G in
      let! ez := get_conv dN gz G in
      let! ei := inverse ez in
      Ok (ei, map_mx threshold (block_mx ex 0 0 ey))
  | Iso g =>
      let! e := get_conv dN g G in
      let! ei := inverse e in
      Ok (ei, map_mx threshold (block_mx e 0 0 e))
  end.

(** [torch.linalg.eig]: eigenvalues and eigenvectors of a square matrix *)
Definition eig_oracle := forall m, 'M[C]_m -> res ('rV[C]_m * 'M[C]_m).

(** trcwa 208-254 [GridLayer_geteps]: the loop over the layers; [ptri] counts the
    grid layers met, [ptr] the cells consumed *)
Fixpoint geteps_loop {G} (eig : eig_oracle) (omega : C) (kx ky : 'rV[C]_(size G)) (Nxy : seq (nat * nat))
    (t : tensor) (ids : seq (seq nat)) (i ptri ptr : nat)
    (ms : seq (option (mode (size G + size G)))) : res (seq (option (mode (size G + size G)))) :=
  match ids with
  | [::] => Ok ms
  | id :: ids' =>
    match id with
    | 1%N :: no :: _ =>
        match List.nth_error Nxy ptri with
        | None => Err IndexError
        | Some (Nx, Ny) =>
            if (Nx == 0%N) || (Ny == 0%N) then Err ZeroDivisionError else
            let dN := (1 / INR Nx / INR Ny)%coqR in
            let! g := layer_grid t i ptr Nx Ny in
            let! e := Epsilon_fft dN g G in
            let kp := MakeKP_patterned omega (fst e) kx ky in
            let! qphi := Solve_patterned (eig _) kx ky kp (snd e) in
            geteps_loop eig omega kx ky Nxy t ids' i.+1 ptri.+1 (ptr + Nx * Ny)
              (set_nth None ms no (Some (mkMode (fst qphi) (snd qphi) kp)))
        end
    | _ => geteps_loop eig omega kx ky Nxy t ids' i.+1 ptri ptr ms
    end
  end.
Definition GridLayer_geteps {G} (eig : eig_oracle) (t : tensor) (o : ready G) : res (ready G) :=
  let! ms := geteps_loop eig (s_omega o) (s_kx o) (s_ky o) (s_Nxy o) t (s_ids o) 0 0 0 (s_modes o) in
  Ok (mkReady (s_omega o) (s_theta o) (s_phi o) (s_kx o) (s_ky o) (s_norm o) (s_ids o) (s_Nxy o) (s_thick o) ms).

(** An object with its excitation *)
Record excited := mkExcited {
  x_G : seq (Z * Z); x_ready : ready x_G;
  x_a0 : 'cV[C]_(size x_G + size x_G); x_bN : 'cV[C]_(size x_G + size x_G);
  x_direction : string }.

(** [kp_list[-1]] etc. *)
Definition last_mode {m} (ms : seq (option (mode m))) : res (mode m) := get_mode ms (size ms).-1.

(** trcwa 291-342 [RT_Solve] with byorder = 0: the numbers (R, T).  Another
    direction leaves R unbound. *)
Definition RT_Solve (normalize : bool) (x : excited) : res (C * C) :=
  let o := x_ready x in
  let! ab := SolveExterior (x_a0 x) (x_bN x) (s_modes o) (s_thick o) in
  let! m0 := get_mode (s_modes o) 0 in
  let! fb := GetZPoyntingFlux (x_a0 x) (snd ab) (s_omega o) m0 in
  let! mN := last_mode (s_modes o) in
  let! fe := GetZPoyntingFlux (fst ab) (x_bN x) (s_omega o) mN in
  let back := RtoC (- Re (snd fb))%coqR in
  let forth := RtoC (Re (fst fe)) in
  let! rt := (if String.eqb (x_direction x) "forward" then Ok (back, forth)
              else if String.eqb (x_direction x) "backward" then Ok (forth, back)
              else Err UnboundLocalError) in
  Ok (if normalize then (fst rt * s_norm o, snd rt * s_norm o) else rt).

(** The config entries TRCWA reads. *)
Record trcwa_cfg := mkTcfg {
  t_NG : order_arg; t_L1 : lattice_arg; t_L2 : lattice_arg;
  t_top : R; t_bottom : R; t_thick : seq R }.

(** init 56-62: thickness of a layer *)
Definition cfg_thickness (ts : seq R) (layer : nat) : res R :=
  match List.nth_error ts (if size ts == 1%N then 0%N else layer) with
  | Some t => Ok t | None => Err IndexError end.

(** init 54-69: the loop over the layers *)
Definition material_layers (c : trcwa_cfg) (t : tensor) (Nx Ny N : nat) : res (seq (layer_call R eps_val unit)) :=
  map_layers (fun layer =>
    let! th := cfg_thickness (t_thick c) layer in
    if (1 < Nx)%N || (1 < Ny)%N then Ok (Grid th Nx Ny)
    else match t with
         | T1 a f => if (layer < a)%N then Ok (Uniform th (ECplx (f layer))) else Err IndexError
         | _ => Err RuntimeError   (* only for an empty dimension *)
         end) (iota 0 N).

(** constants.py: TRCWA_Q_ABS, TRCWA_THETA, TRCWA_PHI, TRCWA_PLANEWAVE *)
Definition Q_ABS : R := (10 ^ 5)%coqR.

(** init 9-86 [_init_trcwa] for a grid of shape [Nx, Ny, N] *)
Definition init_trcwa (argsort : seq R -> seq nat) (eig : eig_oracle) (c : trcwa_cfg)
    (Nx Ny N : nat) (grid : nat -> nat -> nat -> C) (target_frequency : R) : res excited :=
  let t := squeeze0 (squeeze0 (T3 Nx Ny N grid)) in
  let freqcmp := RtoC target_frequency * (1 + Ci * RtoC (/ (2 * Q_ABS))%coqR) in
  let o := TRCWA_new (t_NG c) (t_L1 c) (t_L2 c) freqcmp 0%coqR 0%coqR in
  let! layers := material_layers c t Nx Ny N in
  let st := add_layers (Uniform 1%coqR (EReal (t_top c)) :: layers ++ [:: Uniform 1%coqR (EReal (t_bottom c))])
              (r_stack o) in
  let o := mkRcwa (r_nG o) (r_L1 o) (r_L2 o) (r_omega o) (r_theta o) (r_phi o) st in
  let! g := Init_Setup argsort o 1%coqR 0%coqZ in
  let! ab := MakeExcitationPlanewave (size (projT1 g)) 0%coqR 0%coqR 0 0%coqR 1 0%coqR 0%coqZ "forward" in
  let! r := (if (1 < Nx)%N || (1 < Ny)%N then GridLayer_geteps eig t (projT2 g) else Ok (projT2 g)) in
  Ok (mkExcited (projT1 g) r (fst ab) (snd ab) "forward").

(** A four-dimensional permittivity tensor; [None] is NaN. *)
Record eps4 := mkEps4 { e_nx : nat; e_ny : nat; e_nl : nat; e_nf : nat;
                        e_at : nat -> nat -> nat -> nat -> option C }.
Definition has_nan (e : eps4) : bool :=
  [exists x : 'I_(e_nx e), exists y : 'I_(e_ny e), exists l : 'I_(e_nl e), exists f : 'I_(e_nf e),
     if e_at e x y l f is None then true else false].
Definition slice4 (e : eps4) (k : nat) : nat -> nat -> nat -> C :=
  fun x y l => if e_at e x y l k is Some c then c else C0.

(** The entries [compute_spectrum_trcwa] compares shapes with;
    [target_frequencies] may be missing. *)
Record trcwa_run := mkTrun {
  u_Nx : Z; u_Ny : Z; u_Nl : Z; u_Nf : Z; u_freqs : option (seq R); u_cfg : trcwa_cfg }.

(** spec 9-54 [compute_spectrum_trcwa] *)
Definition compute_spectrum_trcwa (argsort : seq R -> seq nat) (eig : eig_oracle)
    (e : eps4) (u : trcwa_run) : res (seq C * seq C) :=
  if has_nan e then Err ValueError else
  let! freqs := match u_freqs u with Some l => Ok l | None => Err AssertionError end in
  let! _ := ensure (Z.of_nat (size freqs) =? u_Nf u)%coqZ AssertionError in
  let! _ := ensure (Z.of_nat (e_nx e) =? u_Nx u)%coqZ AssertionError in
  let! _ := ensure (Z.of_nat (e_ny e) =? u_Ny u)%coqZ AssertionError in
  let! _ := ensure (Z.of_nat (e_nl e) =? u_Nl u)%coqZ AssertionError in
  let! _ := ensure (Z.of_nat (e_nf e) =? u_Nf u)%coqZ AssertionError in
  let! rs := map_layers (fun p : nat * R =>
       let! x := init_trcwa argsort eig (u_cfg u) (e_nx e) (e_ny e) (e_nl e) (slice4 e p.1) p.2 in
       RT_Solve true x) (zip (iota 0 (size freqs)) freqs) in
  Ok (map fst rs, map snd rs).
