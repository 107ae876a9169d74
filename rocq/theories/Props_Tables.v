(** Property theorems C94: the materials shipped with nidn, at every frequency. *)
From Coq Require Import Reals ZArith String List Bool Lra Lia Permutation.
From Verif Require Import Base BaseLemmas Cplx CplxLemmas Model_Units Model_Materials Model_Layout Spec_Materials Model_Tables Spec_Tables Proof_Tables Proof_Tables2.
Import ListNotations.
Open Scope R_scope.

(** In whatever order the files are found, every shipped material not skipped is
    found by its name, with one permittivity per target frequency, that of its file. *)
Theorem C94_collection : forall files freqs skip, Permutation files shipped ->
  (2 <= length freqs)%nat -> (2 <= length (kept files skip))%nat ->
  exists mc, MaterialCollection files freqs skip = Ok mc /\
  forall name table, In (name, table) shipped -> ~ In name skip ->
    exists es, mc_getitem mc name = Ok (T1 es) /\ length es = length freqs /\
      forall i f, nth_error freqs i = Some f -> exists e, nth_error es i = Some e /\ eps_at table f = Ok e.
Proof. exact shipped_collection. Qed.
Print Assumptions C94_collection.
Theorem C94_names : map fst shipped =
  ["aluminium_arsenide"; "aluminium_nitride"; "aluminium_oxide"; "gallium_arsenide"; "germanium";
   "indium_arsenide"; "silicon_nitride"; "tantalum_pentoxide"; "titanium_oxide"; "zinc_oxide"]%string.
Proof. exact shipped_names. Qed.
Print Assumptions C94_names.

(** The files are in order of wavelength, ... *)
Theorem C94_increasing : forall name t, In (name, t) shipped -> t <> [] /\ increasing t.
Proof. exact shipped_increasing. Qed.
Print Assumptions C94_increasing.
Theorem C94_rows : forall name t r, In (name, t) shipped -> In r t -> 0 < Wavelength r /\ 0 < n_ r.
Proof. exact shipped_rows. Qed.
Print Assumptions C94_rows.
(** ... and in such a file a row serves the wavelengths from the middle to its
    predecessor (not included) to the middle to its successor (included). *)
Theorem C94_row_serves : forall t f i r, increasing t -> nth_error t i = Some r ->
  (forall a, (0 < i)%nat -> nth_error t (i - 1) = Some a -> (Wavelength a + Wavelength r) / 2 < / f) ->
  (forall b, nth_error t (S i) = Some b -> / f <= (Wavelength r + Wavelength b) / 2) ->
  eps_at t f = Ok (index_squared r).
Proof. exact row_chosen. Qed.
Print Assumptions C94_row_serves.
(** Beyond its last or before its first wavelength a material is constant. *)
Theorem C94_beyond : forall name t f g r, In (name, t) shipped ->
  (nth_error t (length t - 1) = Some r /\ Wavelength r <= / f /\ Wavelength r <= / g) \/
  (nth_error t 0 = Some r /\ / f <= Wavelength r /\ / g <= Wavelength r) ->
  eps_at t f = eps_at t g.
Proof. exact shipped_beyond. Qed.
Print Assumptions C94_beyond.
(** The default range of wavelengths, 1 to 30 micrometres, is covered by four
    files only. *)
Theorem C94_default_range : forall name t, In (name, t) shipped ->
  ((exists a b, In a t /\ In b t /\ Wavelength a <= 1 /\ 30 <= Wavelength b) <->
   In name ["aluminium_oxide"; "tantalum_pentoxide"; "titanium_oxide"; "zinc_oxide"]%string).
Proof. exact shipped_cover. Qed.
Print Assumptions C94_default_range.

(** Bounds at every frequency: the real parts are within the default limits of the
    permittivity grid (-100 to 100). *)
Theorem C94_bounds : forall name t f e, In (name, t) shipped -> eps_at t f = Ok e ->
  - 73 < Re e < 89 /\ - (77 / 100) < Im e < 163.
Proof. exact shipped_bounds. Qed.
Print Assumptions C94_bounds.
Theorem C94_modulus : forall name t f e, In (name, t) shipped -> eps_at t f = Ok e ->
  13 / 100 < Cabs e < 178.
Proof. exact shipped_modulus. Qed.
Print Assumptions C94_modulus.
(** No shipped material is rounded to zero by TRCWA (which zeroes entries with both
    parts below 1e-14, C48). *)
Theorem C94_not_zeroed : forall name t f e, In (name, t) shipped -> eps_at t f = Ok e ->
  / 10 < Re e \/ / 10 < Im e.
Proof. exact shipped_not_zeroed. Qed.
Print Assumptions C94_not_zeroed.
(** All but aluminium oxide are passive at every frequency. *)
Theorem C94_passive : forall name t f e, In (name, t) shipped -> name <> "aluminium_oxide"%string ->
  eps_at t f = Ok e -> 0 <= Im e.
Proof. exact shipped_passive. Qed.
Print Assumptions C94_passive.
(** Aluminium oxide amplifies in two bands of wavelengths, ... *)
Theorem C94_passive_refuted : forall t f e, In ("aluminium_oxide"%string, t) shipped -> eps_at t f = Ok e ->
  (Im e < 0 <-> / f <= 285 / 1000 \/ 274024 / 10000 < / f <= 298574 / 10000).
Proof. exact alumina_gain. Qed.
Print Assumptions C94_passive_refuted.
(** ... so a config whose longest wavelength is in the second one uses an
    amplifying permittivity at its first target frequency. *)
Theorem C94_gain_in_configs : forall t lo hi n dist, In ("aluminium_oxide"%string, t) shipped ->
  0 < lo < hi -> dist = "linear"%string \/ dist = "log"%string -> (0 < n)%nat ->
  274024 / 10000 * / 1000000 < hi <= 298574 / 10000 * / 1000000 ->
  exists fs e, compute_target_frequencies lo hi n dist = Ok fs /\
    eps_at t (nth 0 fs 0) = Ok e /\ Im e < 0.
Proof. exact alumina_config. Qed.
Print Assumptions C94_gain_in_configs.
(** It absorbs more than the default limit of the permittivity grid (3) in three bands. *)
Theorem C94_default_limit_refuted : forall t f e, In ("aluminium_oxide"%string, t) shipped -> eps_at t f = Ok e ->
  (3 < Im e <-> 155048 / 10000 < / f <= 202041 / 10000 \/ 2150785 / 100000 < / f <= 2409985 / 100000
                \/ 253205 / 10000 < / f <= 266714 / 10000).
Proof. exact alumina_over_limit. Qed.
Print Assumptions C94_default_limit_refuted.
(** Where its permittivity has a negative real part, an FDTD spectrum of aluminium
    oxide cannot be computed. *)
Theorem C94_negative_bands : forall t f e, In ("aluminium_oxide"%string, t) shipped -> eps_at t f = Ok e ->
  (Re e < 0 <-> 1105005 / 100000 < / f <= 177005 / 10000 \/ 2062075 / 100000 < / f <= 2299155 / 100000).
Proof. exact alumina_metallic. Qed.
Print Assumptions C94_negative_bands.
Theorem C94_fdtd_raises : forall t f wl (slice : eps_slice), In ("aluminium_oxide"%string, t) shipped ->
  f_thick f <> [] -> concat (concat slice) <> [] ->
  1105005 / 100000 < wl / UNIT_MAGNITUDE <= 177005 / 10000 \/ 2062075 / 100000 < wl / UNIT_MAGNITUDE <= 2299155 / 100000 ->
  (forall e, In e (concat (concat slice)) -> eps_at t (UNIT_MAGNITUDE / wl) = Ok e) ->
  one_wavelength f wl slice = Err ValueError.
Proof. exact alumina_fdtd. Qed.
Print Assumptions C94_fdtd_raises.
(** Germanium and silicon nitride have positive real parts at every frequency. *)
Theorem C94_dielectric : forall name t f e, In (name, t) shipped ->
  name = "germanium"%string \/ name = "silicon_nitride"%string -> eps_at t f = Ok e -> 0 < Re e.
Proof. exact shipped_dielectric. Qed.
Print Assumptions C94_dielectric.
(** Germanium is lossless exactly beyond 1.935725 micrometres. *)
Theorem C94_germanium_lossless : forall t f e, In ("germanium"%string, t) shipped -> eps_at t f = Ok e ->
  (Im e = 0 <-> 1935725 / 1000000 < / f).
Proof. exact germanium_lossless. Qed.
Print Assumptions C94_germanium_lossless.

(** Aluminium oxide at 28 micrometres: the row of 27.7778 micrometres, and a collection
    of all files at two frequencies. *)
Example C94_case : exists t e, In ("aluminium_oxide"%string, t) shipped /\ eps_at t (/ 28) = Ok e /\ Im e < 0.
Proof.
  assert (I : In ("aluminium_oxide"%string, map row_of aluminium_oxide) shipped).
  { unfold shipped. apply in_map_iff. exists ("aluminium_oxide"%string, aluminium_oxide).
    split; [reflexivity|]. unfold shipped_lines. do 2 right. left. reflexivity. }
  exists (map row_of aluminium_oxide).
  destruct (Proof_Materials.eps_at_ok (map row_of aluminium_oxide) (/ 28)) as [e E].
  { exact (proj1 (shipped_increasing _ _ I)). }
  exists e. split; [exact I|split; [exact E|]]. apply (alumina_gain _ _ e I E). right. rewrite Rinv_inv. lra.
Qed.
Example C94_collection_case : Permutation shipped shipped /\ (2 <= length [1/10; 1/2])%nat /\
  (2 <= length (kept shipped ["germanium"%string]))%nat.
Proof.
  split; [apply Permutation_refl|split; [simpl; lia|]].
  assert (E : length (kept shipped ["germanium"%string]) = 9%nat); [|rewrite E; lia].
  unfold kept. vm_compute. reflexivity.
Qed.
