(** Property theorems C109: what the signals and the entries of a spectrum depend on.  The
    words used in the statements are defined in Spec_Cut.v and Spec_Layout.v. *)
From Coq Require Import Reals ZArith String List Bool Lra Lia.
From Verif Require Import Base PyVal Spec_Config Model_Units Model_Coeffs Model_FDTD Model_Register Spec_FDTD Spec_Register Model_Layout Spec_Layout
  Spec_Harmonic Spec_Cut Proof_Cut Proof_Cut2.
Import ListNotations.
Open Scope R_scope.

(** Two stacks that show the same permittivity in every column give the same signals, however
    they are divided into layers and whatever the slices hold besides their first cell. *)
Theorem C109_signals : forall c ts1 ts2 wl (s1 s2 : eps_slice) row1 row2 l1 l2 t1 r1 t2 r2, let c1 := with_thick c ts1 in let c2 := with_thick c ts2 in
  proper c1 -> proper c2 -> 1 <= f_scaling c * f_pml c -> known_kinds c -> 0 < wl -> same_box c1 c2 -> ts1 <> [] -> ts2 <> [] ->
  get s1 0 = Ok row1 -> get row1 0 = Ok l1 -> l1 <> [] -> get s2 0 = Ok row2 -> get row2 0 = Ok l2 -> l2 <> [] ->
  (forall x e, (x < columns c1)%nat -> shows c1 l1 x e -> shows c2 l2 x e) ->
  simulate c1 (Some s1) wl = Ok (t1, r1) -> simulate c2 (Some s2) wl = Ok (t2, r2) -> t1 = t2 /\ r1 = r2.
Proof. exact signals_columns. Qed.
Print Assumptions C109_signals.

(** So they give the same entry of the spectrum. *)
Theorem C109_entry : forall c ts1 ts2 wl (s1 s2 : eps_slice) row1 row2 l1 l2, let c1 := with_thick c ts1 in let c2 := with_thick c ts2 in
  proper c1 -> proper c2 -> 1 <= f_scaling c * f_pml c -> known_kinds c -> usable_source c1 -> UNIT_MAGNITUDE <= wl * f_scaling c ->
  same_box c1 c2 -> ts1 <> [] -> ts2 <> [] ->
  get s1 0 = Ok row1 -> get row1 0 = Ok l1 -> l1 <> [] -> get s2 0 = Ok row2 -> get row2 0 = Ok l2 -> l2 <> [] ->
  (length l1 <= length ts1)%nat -> (length l2 <= length ts2)%nat ->
  (exists d, In d (concat (concat s1)) /\ 0 <= fst d) -> (exists d, In d (concat (concat s2)) /\ 0 <= fst d) ->
  (forall x e, (x < columns c1)%nat -> shows c1 l1 x e -> shows c2 l2 x e) ->
  one_wavelength c1 wl s1 = one_wavelength c2 wl s2.
Proof. exact entry_columns. Qed.
Print Assumptions C109_entry.
(** A last layer of vacuum, given and not given; the second slice holds another cell. *)
Example C109_entry_case : one_wavelength stack_cfg (1 / 1000000) [[[(4, 0); (1, 0)]]] = one_wavelength stack_cfg (1 / 1000000) [[[(4, 0)]; [(9, 2)]]].
Proof. exact entry_case. Qed.

(** Cutting a layer in two parts of the same material changes nothing. *)
Theorem C109_cut : forall c ts1 ts2 a b wl es1 es2 e, let c1 := with_thick c (ts1 ++ (a + b) :: ts2) in let c2 := with_thick c (ts1 ++ a :: b :: ts2) in
  0 < a -> 0 < b -> proper c1 -> 1 <= f_scaling c * f_pml c -> known_kinds c -> usable_source c1 -> UNIT_MAGNITUDE <= wl * f_scaling c ->
  length es1 = length ts1 -> (length es2 <= length ts2)%nat -> (exists d, In d (es1 ++ e :: es2) /\ 0 <= fst d) ->
  one_wavelength c2 wl [[es1 ++ e :: e :: es2]] = one_wavelength c1 wl [[es1 ++ e :: es2]].
Proof. exact entry_cut. Qed.
Print Assumptions C109_cut.
(** The second layer of a stack as one layer and as two. *)
Example C109_cut_case : one_wavelength (with_thick stack_cfg [1; 3 / 10; 7 / 10]) (1 / 1000000) [[[(4, 0); (2, 1 / 10); (2, 1 / 10)]]] = one_wavelength stack_cfg (1 / 1000000) stack_slice.
Proof. exact cut_case. Qed.

(** The same for a whole spectrum, with a permittivity of its own at each wavelength: [stacks]
    holds, per wavelength, the layers before the one that is cut, that layer and those behind. *)
Theorem C109_spectrum : forall c ts1 ts2 a b wls (stacks : list (list (R * R) * (R * R) * list (R * R))), let c1 := with_thick c (ts1 ++ (a + b) :: ts2) in let c2 := with_thick c (ts1 ++ a :: b :: ts2) in
  0 < a -> 0 < b -> proper c1 -> 1 <= f_scaling c * f_pml c -> known_kinds c -> usable_source c1 ->
  (forall wl, In wl wls -> UNIT_MAGNITUDE <= wl * f_scaling c) ->
  (forall es1 e es2, In (es1, e, es2) stacks -> length es1 = length ts1 /\ (length es2 <= length ts2)%nat /\ exists d, In d (es1 ++ e :: es2) /\ 0 <= fst d) ->
  spectra c2 wls 0 (map (fun s => [[fst (fst s) ++ snd (fst s) :: snd (fst s) :: snd s]]) stacks)
  = spectra c1 wls 0 (map (fun s => [[fst (fst s) ++ snd (fst s) :: snd s]]) stacks).
Proof. exact spectra_cut. Qed.
Print Assumptions C109_spectrum.
(** Two wavelengths, each with its own permittivities. *)
Example C109_spectrum_case : spectra (with_thick stack_cfg [1; 3 / 10; 7 / 10]) [1 / 1000000; 2 / 1000000] 0 [[[[(4, 0); (2, 1 / 10); (2, 1 / 10)]]]; [[[(3, 0); (5, 0); (5, 0)]]]]
  = spectra stack_cfg [1 / 1000000; 2 / 1000000] 0 [stack_slice; [[[(3, 0); (5, 0)]]]].
Proof. exact spectrum_case. Qed.

(** Thicknesses that put every boundary in the same column give the same entry: a change
    of a thickness below the size of a cell has no effect. *)
Theorem C109_resolution : forall c ts1 ts2 wl (s : eps_slice) row l, let c1 := with_thick c ts1 in let c2 := with_thick c ts2 in
  proper c1 -> proper c2 -> 1 <= f_scaling c * f_pml c -> known_kinds c -> usable_source c1 -> UNIT_MAGNITUDE <= wl * f_scaling c ->
  ts1 <> [] -> get s 0 = Ok row -> get row 0 = Ok l -> l <> [] -> (length l <= length ts1)%nat -> (exists d, In d (concat (concat s)) /\ 0 <= fst d) ->
  length ts1 = length ts2 -> columns c1 = columns c2 -> (forall j, (j <= length ts1)%nat -> edge c1 j = edge c2 j) ->
  one_wavelength c1 wl s = one_wavelength c2 wl s.
Proof. exact entry_edges. Qed.
Print Assumptions C109_resolution.
(** The first layer thicker by a tenth of a cell. *)
Example C109_resolution_case : one_wavelength (with_thick stack_cfg [101 / 100; 1]) (1 / 1000000) stack_slice = one_wavelength stack_cfg (1 / 1000000) stack_slice.
Proof. exact moved_case. Qed.

(** More time steps only append samples. *)
Theorem C109_longer : forall c (obj : option eps_slice) wl n n' t r t' r', proper c -> 1 <= f_scaling c * f_pml c -> known_kinds c -> 0 < wl ->
  (obj = None \/ exists slice row layers, obj = Some slice /\ get slice 0 = Ok row /\ get row 0 = Ok layers) -> (0 <= n <= n')%Z ->
  simulate (with_niter c n) obj wl = Ok (t, r) -> simulate (with_niter c n') obj wl = Ok (t', r') ->
  t = firstn (Z.to_nat n) t' /\ r = firstn (Z.to_nat n) r'.
Proof. exact signals_longer. Qed.
Print Assumptions C109_longer.
(** A stack run for 300 and for 400 steps. *)
Example C109_longer_case : exists t r t' r', simulate (with_niter stack_cfg 300) (Some stack_slice) (1 / 1000000) = Ok (t, r) /\ simulate stack_cfg (Some stack_slice) (1 / 1000000) = Ok (t', r')
  /\ length t = 300%nat /\ length t' = 400%nat /\ t = firstn 300 t' /\ r = firstn 300 r'.
Proof. exact longer_case. Qed.
