(** Property theorems C48: the Fourier matrices of patterned layers. *)
From Coq Require Import Reals ZArith String Lra Lia.
From mathcomp Require Import all_ssreflect all_algebra.
From Verif Require Import Base Cplx CplxLemmas CField Model_Lattice Model_Stack Model_Modes Model_TRCWA Spec_TRCWA Proof_FFT.
Import GRing.Theory.
Delimit Scope R_scope with coqR.
Delimit Scope Z_scope with coqZ.
Local Open Scope ring_scope.

(** C48: the entry of orders i and j is the Fourier coefficient of the grid at the
    difference of the orders; *)
Theorem C48_entry : forall g G M,
  get_conv (1 / INR (g_nx g) / INR (g_ny g))%coqR g G = Ok M ->
  forall i j : 'I_(size G), M i j = fourier g (order_diff G i j).1 (order_diff G i j).2.
Proof. exact conv_entry. Qed.
Print Assumptions C48_entry.
(** it exists for all pairs exactly if the grid has more cells than any such
    difference; *)
Theorem C48_defined : forall g G,
  (0 < g_nx g)%N -> (0 < g_ny g)%N ->
  (resolves (g_nx g) (g_ny g) G -> exists M, get_conv (1 / INR (g_nx g) / INR (g_ny g))%coqR g G = Ok M)
  /\ (~ resolves (g_nx g) (g_ny g) G -> get_conv (1 / INR (g_nx g) / INR (g_ny g))%coqR g G = Err IndexError).
Proof. exact conv_defined. Qed.
Print Assumptions C48_defined.
(** it depends on the difference of the orders only. *)
Theorem C48_shift_invariant : forall g G M,
  get_conv (1 / INR (g_nx g) / INR (g_ny g))%coqR g G = Ok M ->
  forall i j i' j' : 'I_(size G), order_diff G i j = order_diff G i' j' -> M i j = M i' j'.
Proof. exact conv_shift_invariant. Qed.
Print Assumptions C48_shift_invariant.
(** The diagonal is the mean permittivity, *)
Theorem C48_diagonal : forall g G M,
  get_conv (1 / INR (g_nx g) / INR (g_ny g))%coqR g G = Ok M ->
  forall i : 'I_(size G),
    M i i = RtoC (/ (INR (g_nx g) * INR (g_ny g)))%coqR * \sum_(x < g_nx g) \sum_(y < g_ny g) g_at g x y.
Proof. exact conv_diagonal. Qed.
Print Assumptions C48_diagonal.
(** the matrix is linear in the grid, *)
Theorem C48_linear : forall c d f g G M N,
  g_nx g = g_nx f -> g_ny g = g_ny f ->
  let dN := (1 / INR (g_nx f) / INR (g_ny f))%coqR in
  get_conv dN f G = Ok M -> get_conv dN g G = Ok N ->
  get_conv dN (combine_grids c d f g) G = Ok (c *: M + d *: N).
Proof. exact conv_linear. Qed.
Print Assumptions C48_linear.
(** Hermitian for real grids, *)
Theorem C48_hermitian : forall g G M,
  real_grid g ->
  get_conv (1 / INR (g_nx g) / INR (g_ny g))%coqR g G = Ok M ->
  forall i j : 'I_(size G), M j i = Cconj (M i j).
Proof. exact conv_hermitian. Qed.
Print Assumptions C48_hermitian.
(** and a multiple of the identity for constant grids. *)
Theorem C48_constant : forall nx ny c G M,
  List.NoDup G ->
  get_conv (1 / INR nx / INR ny)%coqR (constant_grid nx ny c) G = Ok M -> M = c%:M.
Proof. exact conv_constant. Qed.
Print Assumptions C48_constant.
(** Epsilon_fft inverts it exactly and puts it twice on the diagonal of the second
    matrix, after zeroing the entries that are not [kept]. *)
Theorem C48_epsilon : forall dN g G ei e2,
  Epsilon_fft dN (Iso g) G = Ok (ei, e2) ->
  exists M, get_conv dN g G = Ok M /\ M *m ei = 1%:M
    /\ ursubmx e2 = 0 /\ dlsubmx e2 = 0
    /\ (forall i j, (kept (M i j) -> ulsubmx e2 i j = M i j /\ drsubmx e2 i j = M i j)
                 /\ (~ kept (M i j) -> ulsubmx e2 i j = 0 /\ drsubmx e2 i j = 0)).
Proof. exact eps_fft_iso. Qed.
Print Assumptions C48_epsilon.
(** For constant grids the second matrix is the permittivity, or zero. *)
Theorem C48_epsilon_constant : forall nx ny c G,
  List.NoDup G -> (0 < nx)%N -> (0 < ny)%N -> resolves nx ny G -> c <> C0 ->
  let r := Epsilon_fft (1 / INR nx / INR ny)%coqR (Iso (constant_grid nx ny c)) G in
  (kept c -> r = Ok (c^-1%:M, c%:M)) /\ (~ kept c -> r = Ok (c^-1%:M, 0)).
Proof. exact eps_fft_constant. Qed.
Print Assumptions C48_epsilon_constant.
(** The zeroing breaks the symmetry of a lossless pattern (permittivities 1 and 5). *)
Theorem C48_epsilon_not_hermitian : exists ei e2, Epsilon_fft (1 / INR 4 / INR 1)%coqR (Iso stripe) two_orders = Ok (ei, e2)
    /\ (forall x y, Im (g_at stripe x y) = 0 /\ 1 <= Re (g_at stripe x y))%coqR
    /\ exists i j, e2 j i <> Cconj (e2 i j).
Proof. exact eps_fft_not_hermitian. Qed.
Print Assumptions C48_epsilon_not_hermitian.
Example C48_case : resolves 4 1 two_orders /\ List.NoDup two_orders /\ real_grid stripe
  /\ kept (RtoC 2) /\ ~ kept (RtoC (-2)).
Proof.
  split; first by move=> [|[|i]] [|[|j]] //= _ _; rewrite /order_diff /=; lia.
  split; first by repeat constructor; cbn; intuition congruence.
  split; first by move=> x y; rewrite /stripe /=; case: x => [|[|[|[|x]]]].
  rewrite /kept /=. have P : (0 < / 10 ^ 14 < 2)%coqR.
    split; first by apply: Rinv_0_lt_compat; apply: pow_lt; lra.
    apply: (Rmult_lt_reg_l (10 ^ 14)%coqR); first by apply: pow_lt; lra.
    rewrite Rinv_r; [|apply: pow_nonzero; lra]. have : (1 <= 10 ^ 14)%coqR by apply: pow_R1_Rle; lra. lra.
  move: (/ 10 ^ 14)%coqR P => c P. split; [left|]; lra.
Qed.
