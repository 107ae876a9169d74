(** Property theorems C96: the tensor functions NIDN has written for torch.  The
    words used in the statements ([inside], [same], [matrix], [vector], [scalar],
    [total], [fits], [product_type], [denotes], [evenly]) are defined in
    Spec_Torch.v. *)
From Coq Require Import PrimFloat.
From Coq Require Import Reals ZArith List Bool Lra Lia.
From Flocq Require Zaux Generic_fmt FLX.
From Verif Require Import Base Cplx Model_FDTD Model_Register Model_Torch Spec_Torch Proof_Torch Proof_Torch2 Proof_Torch3.
Import ListNotations.
Open Scope R_scope.

(** Transposing works for every number of dimensions and turns all of them round. *)
Theorem C96_transpose : forall t, exists u, torch_transpose t = Ok u /\ t_dtype u = t_dtype t /\ t_shape u = rev (t_shape t)
  /\ forall i, inside i (t_shape t) -> t_at u (rev i) = t_at t i.
Proof. exact transposed. Qed.
Print Assumptions C96_transpose.

Theorem C96_transpose_twice : forall t u, torch_transpose t = Ok u -> exists t', torch_transpose u = Ok t' /\ same t' t.
Proof. exact transposed_twice. Qed.
Print Assumptions C96_transpose_twice.

(** The FDTD backend's function does the same, but a number cannot be transposed. *)
Theorem C96_backend_default : forall t, (t_shape t = [] -> backend_transpose t None = Err TypeError)
  /\ (t_shape t <> [] -> backend_transpose t None = torch_transpose t).
Proof. exact backend_default. Qed.
Print Assumptions C96_backend_default.

(** With axes: they must name every dimension once (negative ones from the end),
    and then dimension number i of the result is the one named in place i. *)
Theorem C96_backend_axes : forall t ds, t_shape t <> [] ->
  ((exists u, backend_transpose t (Some ds) = Ok u) <-> length ds = length (t_shape t) /\ exists ks, Forall2 (denotes (length (t_shape t))) ds ks /\ NoDup ks)
  /\ forall u ks, backend_transpose t (Some ds) = Ok u -> Forall2 (denotes (length (t_shape t))) ds ks ->
       t_dtype u = t_dtype t /\ t_shape u = map (fun k => nth k (t_shape t) 0%nat) ks
       /\ forall i, inside i (t_shape t) -> t_at u (map (fun k => nth k i 0%nat) ks) = t_at t i.
Proof. exact backend_axes. Qed.
Print Assumptions C96_backend_axes.
Example C96_axes_case : let t := mkTensor (Float Double) [2; 3; 4]%nat (fun i => match i with [a; b; c] => RtoC (INR (a + 10 * b + 100 * c)) | _ => C0 end) in
  exists u, backend_transpose t (Some [-1; 0; 1]%Z) = Ok u /\ t_shape u = [4; 2; 3]%nat /\ t_at u [3; 1; 2]%nat = RtoC (INR 321).
Proof. eexists. split; [reflexivity|]. split; reflexivity. Qed.

(** The product of two matrices, of a matrix and a vector, of two vectors *)
Theorem C96_matrix_matrix : forall a b d da db n m p A B, matrix a da n m A -> matrix b db m p B -> product_type da db d ->
  exists c, torch_dot a b = Ok c /\ matrix c d n p (fun i j => total m (fun k => Cmul (A i k) (B k j))).
Proof. exact matrix_matrix. Qed.
Print Assumptions C96_matrix_matrix.
Theorem C96_matrix_vector : forall a b d da db n m A v, matrix a da n m A -> vector b db m v -> product_type da db d ->
  exists c, torch_dot a b = Ok c /\ vector c d n (fun i => total m (fun k => Cmul (A i k) (v k))).
Proof. exact matrix_vector. Qed.
Print Assumptions C96_matrix_vector.
Theorem C96_vector_vector : forall a b d da db n v w, vector a da n v -> vector b db n w -> product_type da db d ->
  exists c, torch_dot a b = Ok c /\ scalar c d (total n (fun k => Cmul (v k) (w k))).
Proof. exact vector_vector. Qed.
Print Assumptions C96_vector_vector.

(** Nothing else is accepted: a vector before a matrix, more than two dimensions,
    sizes that differ and different real types raise RuntimeError. *)
Theorem C96_accepted : forall a b,
  ((exists c, torch_dot a b = Ok c) <-> fits (t_shape a) (t_shape b) /\ exists d, product_type (t_dtype a) (t_dtype b) d)
  /\ forall e, torch_dot a b = Err e -> e = RuntimeError.
Proof. exact (fun a b => conj (dot_ok a b) (dot_error a b)). Qed.
Print Assumptions C96_accepted.
Theorem C96_type : forall a b c, torch_dot a b = Ok c -> product_type (t_dtype a) (t_dtype b) (t_dtype c).
Proof. exact dot_type. Qed.
Print Assumptions C96_type.
(** A single precision factor in front takes the precision of a double one away. *)
Example C96_precision_lost : exists c,
  torch_dot (torch_eye Single 2 PyComplex) (torch_eye Double 2 PyComplex) = Ok c /\ t_dtype c = Complex Single.
Proof. eexists. split; reflexivity. Qed.
Example C96_float_refused : torch_dot (torch_eye Single 2 NoType) (torch_eye Double 2 NoType) = Err RuntimeError.
Proof. reflexivity. Qed.
Example C96_vector_first : forall n v, torch_dot (mkTensor (Float Double) [n] v) (torch_eye Double n NoType) = Err RuntimeError.
Proof. reflexivity. Qed.

(** New tensors: zeros and ones on the diagonal; Python's complex becomes complex
    numbers of the default precision. *)
Theorem C96_created : forall dd n shape,
  (t_dtype (torch_zeros dd shape PyComplex) = Complex dd /\ t_shape (torch_zeros dd shape PyComplex) = shape /\ forall i, t_at (torch_zeros dd shape PyComplex) i = C0)
  /\ matrix (torch_eye dd n PyComplex) (Complex dd) n n (fun i j => if Nat.eqb i j then C1 else C0)
  /\ matrix (torch_eye dd n NoType) (Float dd) n n (fun i j => if Nat.eqb i j then C1 else C0)
  /\ forall d, t_dtype (torch_zeros dd shape (Given d)) = d /\ (forall i, t_at (torch_zeros dd shape (Given d)) i = C0)
       /\ matrix (torch_eye dd n (Given d)) d n n (fun i j => if Nat.eqb i j then C1 else C0).
Proof. exact created. Qed.
Print Assumptions C96_created.

(** What the scattering matrices rely on: the unit matrix is neutral (real or
    complex), products associate, and the transposed of a product is the product of
    the transposed in reverse order. *)
Theorem C96_eye_neutral : forall dd arg p n m a A, matrix a (Complex p) n m A -> (arg = NoType \/ arg = PyComplex /\ p = dd) ->
  (exists c, torch_dot (torch_eye dd n arg) a = Ok c /\ matrix c (Complex p) n m A)
  /\ exists c, torch_dot a (torch_eye dd m arg) = Ok c /\ matrix c (Complex p) n m A.
Proof. exact eye_neutral. Qed.
Print Assumptions C96_eye_neutral.
Theorem C96_associative : forall a b c p n m k l A B D, matrix a (Complex p) n m A -> matrix b (Complex p) m k B -> matrix c (Complex p) k l D ->
  exists ab bc x y, torch_dot a b = Ok ab /\ torch_dot b c = Ok bc /\ torch_dot ab c = Ok x /\ torch_dot a bc = Ok y /\ same x y.
Proof. exact associative. Qed.
Print Assumptions C96_associative.
Theorem C96_transposed_product : forall a b p n m k A B, matrix a (Complex p) n m A -> matrix b (Complex p) m k B ->
  exists ab at_ bt x y, torch_dot a b = Ok ab /\ torch_transpose ab = Ok x /\ torch_transpose a = Ok at_ /\ torch_transpose b = Ok bt /\ torch_dot bt at_ = Ok y /\ same x y.
Proof. exact transposed_product. Qed.
Print Assumptions C96_transposed_product.
Example C96_matrices : matrix (mkTensor (Complex Double) [2; 3]%nat (fun i => match i with [a; b] => (INR a, INR b) | _ => C0 end)) (Complex Double) 2 3 (fun i j => (INR i, INR j))
  /\ matrix (torch_eye Double 3 PyComplex) (Complex Double) 3 3 (fun i j => if Nat.eqb i j then C1 else C0).
Proof. split; [split; [|split]; reflexivity|]. apply (C96_created Double 3 []). Qed.

(** Evenly spaced numbers, rising or falling: as many as asked for (a count of
    rounding errors aside), from the start; with the end point if wanted. *)
Theorem C96_linspace : forall a b n (e : bool), ((if e then 1 else 0) < n)%Z ->
  exists l, backend_linspace a b n e = Ok l /\ evenly l a ((b - a) / (IZR n - (if e then 1 else 0))) (Z.to_nat n).
Proof. exact linspace_value. Qed.
Print Assumptions C96_linspace.
(** One number with its end point, or none without, is a division by zero (numpy
    returns one number, and none); fewer are refused unless the bounds are equal. *)
Theorem C96_linspace_few : forall a b n (e : bool),
  backend_linspace a b (if e then 1 else 0) e = Err ZeroDivisionError
  /\ (a <> b -> (n < if e then 1 else 0)%Z -> backend_linspace a b n e = Err RuntimeError)
  /\ (n <> (if e then 1 else 0)%Z -> backend_linspace a a n e = Ok (repeat a (Z.to_nat n))).
Proof. exact (fun a b n e => conj (linspace_zero a b e) (conj (linspace_few a b n e) (linspace_constant a n e))). Qed.
Print Assumptions C96_linspace_few.
Example C96_falling : exists l, backend_linspace 3 0 3 false = Ok l /\ evenly l 3 (-1) 3.
Proof.
  destruct (C96_linspace 3 0 3 false) as (l & E & V); [lia|]. exists l. split; [exact E|].
  replace (-1) with ((0 - 3) / (3 - 0)) by field. exact V.
Qed.

(** The cells of line detectors and line sources (C42, C71) are these numbers cut
    off towards zero. *)
Theorem C96_line_cells : forall a b m, (1 <= m)%nat -> exists l, backend_linspace (IZR a) (IZR b) (Z.of_nat m) false = Ok l
  /\ array_int l = map (line_index a b m) (seq 0 m).
Proof. exact line_positions. Qed.
Print Assumptions C96_line_cells.
(** With floating point numbers (53 bits, every operation rounded; exponents taken to
    be unbounded), for lines of at most 2^24 cells: each cell is the exact one, or its
    neighbour towards zero — the latter only where the line passes exactly through a
    cell's corner. *)
Theorem C96_line_rounding : forall (rnd : R -> R) (a b : Z) (m i : nat), (forall x, Rabs (rnd x - x) <= / 2 ^ 53 * Rabs x) ->
  (i < m)%nat -> (Z.abs (b - a) <= Z.of_nat m)%Z -> (Z.of_nat m <= 2 ^ 24)%Z -> (Z.abs a <= 2 ^ 24)%Z ->
  let cell := Rtrunc (rnd (IZR a + rnd (INR i * rnd ((IZR b - IZR a) / INR m)))) in
  cell = line_index a b m i
  \/ (Z.divide (Z.of_nat m) (Z.of_nat i * (b - a)) /\ cell = (line_index a b m i - Z.sgn (line_index a b m i))%Z).
Proof. exact rounded_line. Qed.
Print Assumptions C96_line_rounding.
(** Rounding to the nearest is such a rounding. *)
Example C96_nearest : forall x, Rabs (Generic_fmt.round Zaux.radix2 (FLX.FLX_exp 53) (Generic_fmt.Znearest (fun z => negb (Z.even z))) x - x) <= / 2 ^ 53 * Rabs x.
Proof. exact nearest_error. Qed.
(** The second case occurs: in the middle of the line from (0, 0) to (98, 2) double
    precision gives 49 * (2 / 98) < 1, which is cut off to row 0 and not to row 1. *)
Example C96_corner_missed : PrimFloat.ltb (PrimFloat.mul 49%float (PrimFloat.div 2%float 98%float)) 1%float = true /\ line_index 0 2 98 49 = 1%Z.
Proof. split; reflexivity. Qed.
