(** Property theorems C107: the rows of a simulated stack.  The words used in the statements
    are defined in Spec_Rows.v and Spec_Harmonic.v, those about the layout in Spec_Layout.v. *)
From Coq Require Import Reals ZArith String List Bool Lra Lia.
From Verif Require Import Base Cplx PyVal Spec_Config Model_Units Model_Coeffs Model_FDTD Model_Register Spec_FDTD Spec_Register Model_Layout Spec_Layout
  Spec_Harmonic Proof_Harmonic7 Spec_Rows Proof_Rows Proof_Rows2.
Import ListNotations.
Open Scope R_scope.

(** The simulations NIDN sets up have three rows, from behind the source to the right PML. *)
Theorem C107_simulation : forall c slice wl row layers g s0, proper c -> 1 <= f_scaling c * f_pml c -> known_kinds c -> 0 < wl ->
  f_thick c <> [] -> get slice 0 = Ok row -> get row 0 = Ok layers -> layers <> [] ->
  (forall e, In e layers -> 0 < fst e /\ 0 <= snd e) ->
  Rtrunc (f_src_x c * f_scaling c) = Z.of_nat s0 -> (pml_columns c <= S s0)%nat ->
  init_fdtd c (Some slice) wl = Ok g ->
  exists eps sig, three_rows g eps sig (S s0) (columns c - pml_columns c - 1)
    /\ stands_between eps sig (edge c 0) (edge c (length layers) - 1)
    /\ forall j x, (j < length layers)%nat -> (edge c j <= x < edge c (S j))%nat ->
        eps x = fst (nth j layers (0, 0))
        /\ sig x = / 2 * (99 / 100 / sqrt 2) * conductivity (nth j layers (0, 0)) wl * (UNIT_MAGNITUDE / f_scaling c) * ETA_0 / fst (nth j layers (0, 0)).
Proof. exact simulation_rows. Qed.
Print Assumptions C107_simulation.
Example C107_simulation_case : proper stack_cfg /\ known_kinds stack_cfg /\ 1 <= f_scaling stack_cfg * f_pml stack_cfg
  /\ Rtrunc (f_src_x stack_cfg * f_scaling stack_cfg) = Z.of_nat 15 /\ (pml_columns stack_cfg <= S 15)%nat
  /\ exists g, init_fdtd stack_cfg (Some stack_slice) (1 / 1000000) = Ok g.
Proof.
  destruct stack_facts as (A & B & _ & _ & P & _ & _ & S). destruct stack_base as (g & _ & _ & I & _).
  split; [exact A|]. split; [exact B|]. split; [cbn; lra|]. split; [exact S|]. split; [rewrite P; lia|]. exists g. exact I.
Qed.

(** After every step the first and the last row hold the same values. *)
Theorem C107_rows_agree : forall eps sig g g' lo hi, three_rows g eps sig lo hi -> step g = Ok g' ->
  three_rows g' eps sig lo hi /\ rows_agree g' lo hi.
Proof. exact agree_step. Qed.
Print Assumptions C107_rows_agree.
(** In every run, whatever the source, three consecutive electric fields obey the wave
    equation with the material of the column; row 2 is the only neighbour of row 1 and the
    other way round. *)
Theorem C107_wave_equation : forall eps sig g1 g2 g3 lo hi x j, three_rows g1 eps sig lo hi -> rows_agree g1 lo hi -> step g1 = Ok g2 -> step g2 = Ok g3 ->
  (lo < x < hi)%nat -> (1 <= j <= 2)%nat -> 1 + sig x <> 0 -> eps x <> 0 ->
  (1 + sig x) * ez g3 x j - 2 * ez g2 x j + (1 - sig x) * ez g1 x j
  = g_courant g1 ^ 2 / eps x * (ez g2 (S x) j + ez g2 (x - 1) j - 2 * ez g2 x j + 2 * (ez g2 x (3 - j) - ez g2 x j)).
Proof. exact wave_equation. Qed.
Print Assumptions C107_wave_equation.
(** In a simulation that has settled, the mean of the rows obeys the one-dimensional
    equation of C101, although the source is stronger in the middle row than in the others. *)
Theorem C107_mean_balanced : forall eps sig w A g g1 g2 g3 lo hi n, three_rows g eps sig lo hi -> rows_agree g lo hi ->
  step g = Ok g1 -> step g1 = Ok g2 -> step g2 = Ok g3 -> 0 < g_courant g -> sin w <> 0 ->
  (forall x, (lo <= x <= hi)%nat -> 0 < eps x /\ 0 <= sig x) -> rows_settled w A g n lo hi 3 ->
  forall x, (lo < x < hi)%nat -> balanced (g_courant g) w eps sig (mean_row A) x.
Proof. exact mean_balanced. Qed.
Print Assumptions C107_mean_balanced.
(** The difference of the rows dies out by a factor [q] per column on the way from either end. *)
Theorem C107_evens_out : forall eps sig w A g g1 g2 g3 lo hi n, three_rows g eps sig lo hi -> rows_agree g lo hi ->
  step g = Ok g1 -> step g1 = Ok g2 -> step g2 = Ok g3 -> 0 < g_courant g -> sin w <> 0 ->
  (forall x, (lo <= x <= hi)%nat -> 0 < eps x /\ 0 <= sig x) -> rows_settled w A g n lo hi 3 ->
  forall q M d x, 0 < q -> (forall x, (lo <= x <= hi)%nat -> 2 * q <= 6 - 4 * sin (w / 2) ^ 2 * eps x / g_courant g ^ 2) ->
  (forall x, (lo <= x <= hi)%nat -> Cabs (row_gap A x) <= M) -> (lo + d <= x)%nat -> (x + d <= hi)%nat ->
  Cabs (row_gap A x) <= M / q ^ d.
Proof. exact evens_out. Qed.
Print Assumptions C107_evens_out.
(** With wavelengths of ten columns or more in every layer, the factor is 5/2 at least. *)
Theorem C107_ten_columns : forall eps sig w A g g1 g2 g3 lo hi n M d x, three_rows g eps sig lo hi -> rows_agree g lo hi ->
  step g = Ok g1 -> step g1 = Ok g2 -> step g2 = Ok g3 -> 0 < g_courant g -> sin w <> 0 ->
  (forall x, (lo <= x <= hi)%nat -> 0 < eps x /\ 0 <= sig x) -> rows_settled w A g n lo hi 3 ->
  (forall x, (lo <= x <= hi)%nat -> eps x * sin (w / 2) ^ 2 <= (g_courant g * sin (PI / 10)) ^ 2) ->
  (forall x, (lo <= x <= hi)%nat -> Cabs (row_gap A x) <= M) -> (lo + d <= x)%nat -> (x + d <= hi)%nat ->
  Cabs (row_gap A x) <= M / (5 / 2) ^ d.
Proof. exact ten_columns. Qed.
Print Assumptions C107_ten_columns.
(** A detector records the mean of all three rows, in which one value counts twice: a sixth
    of the difference of the rows away from the mean above. *)
Theorem C107_recorded : forall w A g n lo hi m k gk x, rows_settled w A g n lo hi m -> run_steps k g = Ok gk -> (k <= m)%nat -> (lo <= x <= hi)%nat ->
  ez gk x 0 = ez gk x 2 ->
  column_mean gk x = Re ((mean_row A x - Cscal (/ 6) (row_gap A x)) * Cis (- (w * INR (n + k))))%C
  /\ Rabs (column_mean gk x - Re (mean_row A x * Cis (- (w * INR (n + k))))%C) <= Cabs (row_gap A x) / 6.
Proof. exact mean_recorded. Qed.
Print Assumptions C107_recorded.
(** A simulation that has settled with rows that differ: [gap_grid] is nine columns wide,
    its rows oscillate in opposite phase and fall by a factor 2 per column. *)
Example C107_case : exists g g1 g2 g3, three_rows g (fun _ => 1) (fun _ => 0) 3 5 /\ rows_agree g 3 5 /\ step g = Ok g1 /\ step g1 = Ok g2 /\ step g2 = Ok g3
  /\ 0 < g_courant g /\ sin (PI / 3) <> 0 /\ rows_settled (PI / 3) gap_amp g 0 3 5 3
  /\ (forall x, (3 <= x <= 5)%nat -> 2 * (5 / 4) <= 6 - 4 * sin (PI / 3 / 2) ^ 2 * 1 / g_courant g ^ 2)
  /\ (forall x, (3 <= x <= 5)%nat -> Cabs (row_gap gap_amp x) <= 1 / 4) /\ row_gap gap_amp 4 = RtoC (1 / 8).
Proof. exact gap_case. Qed.
