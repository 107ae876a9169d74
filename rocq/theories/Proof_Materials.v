From Coq Require Import Reals ZArith String List Bool Lra Lia Psatz.
From Verif Require Import Base BaseLemmas Cplx CplxLemmas Model_Materials Spec_Materials.
Import ListNotations.
Open Scope R_scope.

(** * argmin *)
Lemma argmin_from_spec : forall l pre best bi,
  (bi < length pre)%nat -> nth bi pre 0 = best ->
  (forall j, (j < length pre)%nat -> best <= nth j pre 0) ->
  (forall j, (j < bi)%nat -> best < nth j pre 0) ->
  let i := argmin_from best bi (length pre) l in
  let w := pre ++ l in
  (i < length w)%nat /\ (forall j, (j < length w)%nat -> nth i w 0 <= nth j w 0) /\
  (forall j, (j < i)%nat -> nth i w 0 < nth j w 0).
Proof.
  induction l as [|x l IH]; intros pre best bi Hbi Hb Hmin Hfirst; simpl.
  - rewrite app_nil_r. rewrite Hb. auto.
  - replace (pre ++ x :: l) with ((pre ++ [x]) ++ l) by (rewrite <- app_assoc; auto).
    replace (S (length pre)) with (length (pre ++ [x])) by (rewrite app_length; simpl; lia).
    destruct (Rlt_dec x best) as [Hlt|Hge].
    + apply IH.
      * rewrite app_length; simpl; lia.
      * rewrite app_nth2 by lia. rewrite Nat.sub_diag. reflexivity.
      * intros j Hj. rewrite app_length in Hj; simpl in Hj.
        destruct (Nat.eq_dec j (length pre)) as [->|Hne].
        -- rewrite app_nth2 by lia. rewrite Nat.sub_diag. simpl. lra.
        -- rewrite app_nth1 by lia. specialize (Hmin j ltac:(lia)). lra.
      * intros j Hj. rewrite app_nth1 by lia. specialize (Hmin j Hj). lra.
    + apply IH.
      * rewrite app_length; simpl; lia.
      * rewrite app_nth1 by lia. auto.
      * intros j Hj. rewrite app_length in Hj; simpl in Hj.
        destruct (Nat.eq_dec j (length pre)) as [->|Hne].
        -- rewrite app_nth2 by lia. rewrite Nat.sub_diag. simpl. lra.
        -- rewrite app_nth1 by lia. apply Hmin; lia.
      * intros j Hj. rewrite app_nth1 by lia. auto.
Qed.

Lemma argmin_spec l i : argmin l = Some i ->
  (i < length l)%nat /\ (forall j, (j < length l)%nat -> nth i l 0 <= nth j l 0) /\
  (forall j, (j < i)%nat -> nth i l 0 < nth j l 0).
Proof.
  destruct l as [|x l]; [discriminate|]. intros H. inversion H; subst.
  apply (argmin_from_spec l [x] x 0); simpl; auto; try lra; intros j Hj; try lia.
  destruct j; [lra|lia].
Qed.

Lemma argmin_some l : l <> [] -> exists i, argmin l = Some i.
Proof. destruct l; [congruence|]. simpl; eauto. Qed.

Lemma argmin_none l : argmin l = None -> l = [].
Proof. destruct l; [auto|discriminate]. Qed.

(** * eps_at *)
Lemma eps_at_spec table f e : eps_at table f = Ok e ->
  exists i r, nth_error table i = Some r
  /\ (forall j r', nth_error table j = Some r' ->
        Rabs (Wavelength r - / f) <= Rabs (Wavelength r' - / f))
  /\ (forall j r', (j < i)%nat -> nth_error table j = Some r' ->
        Rabs (Wavelength r - / f) < Rabs (Wavelength r' - / f))
  /\ e = Cmul (n_ r, k_ r) (n_ r, k_ r).
Proof.
  unfold eps_at. destruct (argmin _) as [i|] eqn:E; [|discriminate].
  destruct (nth_error table i) as [r|] eqn:N; [|discriminate]. intros H. inversion H; subst e.
  apply argmin_spec in E. rewrite map_length in E. destruct E as (Hi & Hmin & Hfst).
  assert (V : forall j r', nth_error table j = Some r' ->
     nth j (map (fun r => Rabs (Wavelength r - 1 / f)) table) 0 = Rabs (Wavelength r' - / f)).
  { intros j r' Hj. rewrite nth_map_in with (d := r') by (apply nth_error_Some; congruence).
    rewrite (nth_error_nth table j r' Hj). unfold Rdiv. rewrite Rmult_1_l. auto. }
  exists i, r. split; auto. split; [|split].
  - intros j r' Hj. rewrite <- (V i r N), <- (V j r' Hj). apply Hmin. apply nth_error_Some. congruence.
  - intros j r' Hj Hr'. rewrite <- (V i r N), <- (V j r' Hr'). apply Hfst; auto.
  - unfold Cmul; simpl. f_equal; ring.
Qed.

Lemma eps_at_ok table f : table <> [] -> exists e, eps_at table f = Ok e.
Proof.
  intros. unfold eps_at. set (ds := map _ table).
  destruct (argmin_some ds) as [i Hi]. { unfold ds. destruct table; [auto|discriminate]. }
  rewrite Hi. apply argmin_spec in Hi. destruct Hi as [Hi _]. unfold ds in Hi. rewrite map_length in Hi.
  destruct (nth_error table i) eqn:E; [eauto|]. apply nth_error_None in E. lia.
Qed.

Lemma eps_abs table f e : eps_at table f = Ok e -> exists r, In r table /\ Cabs e = n_ r * n_ r + k_ r * k_ r.
Proof.
  intros H. apply eps_at_spec in H. destruct H as (i & r & Hi & _ & _ & ->).
  exists r. split; [eapply nth_error_In; eauto|]. rewrite Cabs_mul, Cabs_sq. reflexivity.
Qed.

Lemma load_data_spec table freqs es : load_material_data table freqs = Ok es ->
  length es = length freqs /\
  forall i f, nth_error freqs i = Some f -> exists e, nth_error es i = Some e /\ eps_at table f = Ok e.
Proof.
  revert es. induction freqs as [|f fs IH]; simpl; intros es H.
  - inversion H; subst. split; auto. intros [|i] f; discriminate.
  - apply bind_ok in H. destruct H as (e & He & H). apply bind_ok in H. destruct H as (es' & Hes & H).
    inversion H; subst. destruct (IH _ Hes) as [L N]. split; [simpl; auto|].
    intros [|i] f' Hf; simpl in *; [inversion Hf; subst; eauto|auto].
Qed.

Lemma load_data_ok table freqs : table <> [] -> exists es, load_material_data table freqs = Ok es.
Proof.
  intros Ht. induction freqs as [|f fs [es IH]]; simpl; eauto.
  destruct (eps_at_ok table f Ht) as [e He]. rewrite He, IH. simpl. eauto.
Qed.

Lemma load_files_spec files freqs skip loaded : load_files files freqs skip = Ok loaded ->
  map fst loaded = map fst (kept files skip) /\
  forall i name table, nth_error (kept files skip) i = Some (name, table) ->
    exists es, nth_error loaded i = Some (name, es) /\ load_material_data table freqs = Ok es.
Proof.
  revert loaded. induction files as [|[name table] files IH]; simpl; intros loaded H.
  - inversion H; subst. split; auto. intros [|i] ? ?; discriminate.
  - destruct (existsb (String.eqb name) skip) eqn:E; simpl; auto.
    apply bind_ok in H. destruct H as (e & He & H). apply bind_ok in H. destruct H as (es & Hes & H).
    inversion H; subst. destruct (IH _ Hes) as [M N]. split; [simpl; congruence|].
    intros [|i] nm tb Hi; simpl in *; [inversion Hi; subst; eauto|eauto].
Qed.

Lemma load_files_ok files freqs skip : (forall f, In f files -> snd f <> []) ->
  exists loaded, load_files files freqs skip = Ok loaded.
Proof.
  induction files as [|[name table] files IH]; simpl; intros H; eauto.
  destruct IH as [l Hl]; [auto|]. destruct (existsb _ skip); eauto.
  destruct (load_data_ok table freqs) as [e He]; [apply (H (name, table)); auto|].
  rewrite He, Hl. simpl; eauto.
Qed.

Lemma str_index_nth l k i : NoDup l -> nth_error l i = Some k -> str_index k l = i.
Proof.
  revert i. induction l as [|x l IH]; intros [|i] ND H; simpl in *; try discriminate.
  - inversion H; subst. rewrite String.eqb_refl; auto.
  - inversion ND; subst. destruct (String.eqb_spec k x).
    + subst. exfalso. apply H2. eapply nth_error_In; eauto.
    + f_equal. auto.
Qed.

Lemma existsb_in k l : existsb (String.eqb k) l = true <-> In k l.
Proof.
  rewrite existsb_exists. split.
  - intros [x [H E]]. apply String.eqb_eq in E; subst; auto.
  - intros H; exists k; split; auto. apply String.eqb_refl.
Qed.

(** What indexing returns, for all sizes. *)
Definition expected (nmat nfreq : nat) (es : list C) : res tens :=
  if Nat.eqb nmat 1 then
    (if Nat.eqb nfreq 1 then Err IndexError else
     match es with e :: _ => Ok (T0 e) | [] => Err IndexError end)
  else if Nat.eqb nfreq 1 then match es with e :: _ => Ok (T0 e) | [] => Err IndexError end
  else Ok (T1 es).

Lemma concat_single_nth (ls : list (list C)) i v : (forall l, In l ls -> length l = 1%nat) ->
  nth_error ls i = Some v -> exists z, v = [z] /\ nth_error (concat ls) i = Some z.
Proof.
  revert i. induction ls as [|l ls IH]; intros [|i] H N; simpl in *; try discriminate.
  - inversion N; subst. assert (length v = 1%nat) by auto. destruct v as [|z [|]]; simpl in *; try discriminate. eauto.
  - assert (length l = 1%nat) by auto. destruct l as [|z [|]]; simpl in *; try discriminate.
    apply IH; auto.
Qed.

Lemma stack_index eps_list i es nf : (0 < nf)%nat ->
  (forall l, In l eps_list -> length l = nf) -> nth_error eps_list i = Some es ->
  exists m, stack_squeeze eps_list = Ok m /\ tens_index m i = expected (length eps_list) nf es.
Proof.
  intros Hnf HL N. unfold expected.
  destruct eps_list as [|v [|v2 rest]].
  - destruct i; discriminate.
  - assert (i = 0)%nat by (destruct i as [|[|]]; simpl in N; auto; discriminate). subst i.
    simpl in N. inversion N; subst es. assert (length v = nf) by (apply HL; simpl; auto).
    destruct v as [|z [|z2 v]]; simpl in *; subst nf; [lia| |].
    + exists (T0 z). split; auto.
    + exists (T1 (z :: z2 :: v)). split; auto.
  - assert (Hv : length v = nf) by (apply HL; simpl; auto).
    assert (E : stack_squeeze (v :: v2 :: rest) =
      if Nat.eqb (length v) 1 then Ok (T1 (concat (v :: v2 :: rest))) else Ok (T2 (v :: v2 :: rest))).
    { destruct v as [|z [|]]; reflexivity. }
    rewrite E, Hv. replace (Nat.eqb (length (v :: v2 :: rest)) 1) with false by reflexivity.
    destruct (Nat.eqb_spec nf 1) as [->|Hne].
    + exists (T1 (concat (v :: v2 :: rest))). split; auto.
      destruct (concat_single_nth (v :: v2 :: rest) i es HL N) as [z [-> Hz]].
      unfold tens_index. rewrite Hz. auto.
    + exists (T2 (v :: v2 :: rest)). split; auto. unfold tens_index. rewrite N. auto.
Qed.

Lemma collection_lookup files freqs skip : freqs <> [] ->
  NoDup (map fst files) -> (forall f, In f files -> snd f <> []) ->
  kept files skip <> [] ->
  exists mc, MaterialCollection files freqs skip = Ok mc
  /\ material_names mc = map fst (kept files skip)
  /\ (forall name table, In (name, table) (kept files skip) ->
       exists es, load_material_data table freqs = Ok es /\
         mc_getitem mc name = expected (length (kept files skip)) (length freqs) es)
  /\ (forall name, ~ In name (map fst (kept files skip)) -> mc_getitem mc name = Err KeyError).
Proof.
  intros HF ND HT HK. destruct (load_files_ok files freqs skip HT) as [loaded HL].
  pose proof (load_files_spec _ _ _ _ HL) as [HM HN].
  assert (LL : length loaded = length (kept files skip))
    by (rewrite <- (map_length fst loaded), HM, map_length; auto).
  assert (Hnf : (0 < length freqs)%nat) by (destruct freqs; [congruence|simpl; lia]).
  assert (Lens : forall l, In l (map snd loaded) -> length l = length freqs).
  { intros l Hl. apply in_map_iff in Hl. destruct Hl as [[nm es] [E Hin]]. simpl in E; subst es.
    apply In_nth_error in Hin. destruct Hin as [i Hi].
    destruct (nth_error (kept files skip) i) as [[nm' tb]|] eqn:Q.
    - destruct (HN _ _ _ Q) as [es [E1 E2]]. rewrite Hi in E1. inversion E1; subst.
      apply load_data_spec in E2. tauto.
    - apply nth_error_None in Q. assert (i < length loaded)%nat by (apply nth_error_Some; congruence). lia. }
  assert (EX : exists m, stack_squeeze (map snd loaded) = Ok m).
  { destruct loaded as [|[n0 e0] l].
    - simpl in LL. destruct (kept files skip); [congruence|discriminate].
    - destruct (stack_index (map snd ((n0, e0) :: l)) 0 e0 (length freqs) Hnf Lens eq_refl) as [m [Hm _]]. eauto. }
  destruct EX as [m Hm].
  exists {| material_names := map fst loaded; epsilon_matrix := m |}.
  split; [|split; [|split]].
  - unfold MaterialCollection. destruct freqs; [congruence|]. rewrite HL. unfold bind. rewrite Hm. auto.
  - simpl. auto.
  - intros name table Hin. apply In_nth_error in Hin. destruct Hin as [i Hi].
    destruct (HN _ _ _ Hi) as [es [E1 E2]]. exists es. split; auto.
    unfold mc_getitem. simpl.
    assert (In name (map fst loaded)) as Hin'.
    { apply in_map_iff. exists (name, es). split; auto. eapply nth_error_In; eauto. }
    apply existsb_in in Hin'. rewrite Hin'.
    assert (NDk : NoDup (map fst loaded)).
    { rewrite HM. unfold kept. clear - ND. induction files as [|f files IH]; simpl; [constructor|].
      simpl in ND. inversion ND; subst. destruct (negb _); auto. simpl. constructor; auto.
      intros Hin. apply H1. apply in_map_iff in Hin. destruct Hin as [x [E Hx]]. apply in_map_iff.
      exists x. split; auto. apply filter_In in Hx. tauto. }
    assert (NI : nth_error (map fst loaded) i = Some name) by (apply (map_nth_error fst) in E1; exact E1).
    rewrite (str_index_nth _ _ _ NDk NI).
    assert (NE : nth_error (map snd loaded) i = Some es) by (apply (map_nth_error snd) in E1; exact E1).
    destruct (stack_index _ _ _ _ Hnf Lens NE) as [m' [Hm' Hx]].
    rewrite Hm in Hm'; inversion Hm'; subst m'. rewrite map_length, LL in Hx. exact Hx.
  - intros name Hn. unfold mc_getitem. simpl. rewrite HM.
    destruct (existsb (String.eqb name) (map fst (kept files skip))) eqn:E; auto.
    apply existsb_in in E. contradiction.
Qed.

Lemma collection_empty_freqs files skip : MaterialCollection files [] skip = Err ValueError.
Proof. reflexivity. Qed.

Lemma in_kept files skip name table :
  In (name, table) (kept files skip) <-> In (name, table) files /\ ~ In name skip.
Proof.
  unfold kept. rewrite filter_In. simpl. rewrite negb_true_iff.
  rewrite <- (existsb_in name skip). destruct (existsb _ skip); intuition congruence.
Qed.

(** * closest material *)
Lemma comparisons_spec mc names eps (mats : list (list C)) :
  length mats = length names ->
  (forall i name, nth_error names i = Some name ->
     exists m, nth_error mats i = Some m /\ mc_getitem mc name = Ok (T1 m) /\ length m = length eps) ->
  comparisons mc names eps = Ok (map (dist eps) mats).
Proof.
  revert mats. induction names as [|nm names IH]; intros mats L H.
  - destruct mats; [reflexivity|discriminate].
  - destruct mats as [|m mats]; [discriminate|]. simpl.
    destruct (H 0%nat nm eq_refl) as (m' & E & G & Lm). simpl in E. inversion E; subst m'.
    rewrite G. unfold bind at 1. unfold abs_diff. rewrite Lm, Nat.eqb_refl. unfold bind at 1.
    rewrite (IH mats); [|simpl in L; lia|intros i name Hi; apply (H (S i)); auto].
    simpl. do 2 f_equal. unfold Rmean, dist. do 2 f_equal.
    rewrite map_length, combine_length, Lm. lia.
Qed.

Lemma dist_nonneg eps mat : 0 <= dist eps mat.
Proof.
  unfold dist. apply Rmult_le_pos.
  - apply Rsum_nonneg. intros x Hx. apply in_map_iff in Hx. destruct Hx as [p [<- _]]. apply Cabs_nonneg.
  - destruct (length eps); [simpl; rewrite Rinv_0; lra|].
    left. apply Rinv_0_lt_compat. apply lt_0_INR; lia.
Qed.

Lemma dist_zero_iff eps mat : eps <> [] -> length mat = length eps -> (dist eps mat = 0 <-> eps = mat).
Proof.
  intros Hne L. unfold dist.
  assert (Hp : 0 < / INR (length eps)).
  { apply Rinv_0_lt_compat. apply lt_0_INR. destruct eps; [congruence|simpl; lia]. }
  assert (Z : Rsum (map (fun p => Cabs (fst p - snd p)%C) (combine eps mat)) = 0 <-> eps = mat).
  { rewrite Rsum_zero_iff.
    2: { intros x Hx. apply in_map_iff in Hx. destruct Hx as [p [<- _]]. apply Cabs_nonneg. }
    clear Hne Hp. revert mat L. induction eps as [|e eps IH]; intros [|m mat] L; simpl in *; try discriminate.
    - split; auto. intros _ x [].
    - split.
      + intros H. assert (E : Cabs (e - m)%C = 0) by (apply H; auto). apply Cabs_zero in E. apply (proj1 (Csub_eq0 _ _)) in E.
        subst. f_equal. apply IH; [lia|]. intros; apply H; auto.
      + intros E. inversion E; subst. intros x [<-|Hx].
        * apply Cabs_zero. ring.
        * apply (proj2 (IH mat ltac:(lia)) eq_refl); auto. }
  split; intros H.
  - apply Z. unfold Rdiv in H. apply Rmult_integral in H. destruct H; [auto|lra].
  - apply Z in H. rewrite H. unfold Rdiv. ring.
Qed.

Lemma option_map_fst {A B} (o : option (A * B)) a :
  option_map fst o = Some a -> exists b, o = Some (a, b).
Proof. destruct o as [[x b]|]; simpl; intros H; inversion H; eauto. Qed.

(** Closest material in a collection with >= 2 materials and >= 2 frequencies. *)
Lemma find_closest_spec files freqs skip mc eps (mats : list (list C)) :
  (2 <= length freqs)%nat -> NoDup (map fst files) -> (forall f, In f files -> snd f <> []) ->
  (2 <= length (kept files skip))%nat ->
  MaterialCollection files freqs skip = Ok mc -> length eps = length freqs ->
  length mats = length (kept files skip) ->
  (forall i name table, nth_error (kept files skip) i = Some (name, table) ->
     exists m, nth_error mats i = Some m /\ load_material_data table freqs = Ok m) ->
  exists d i, find_closest mc eps = Ok (d, i)
   /\ (i < length mats)%nat /\ d = dist eps (nth i mats [])
   /\ (forall j, (j < length mats)%nat -> d <= dist eps (nth j mats []))
   /\ (forall j, (j < i)%nat -> d < dist eps (nth j mats [])).
Proof.
  intros Hf ND HT HK E Le Lm Hm.
  destruct (collection_lookup files freqs skip) as (mc' & E' & Names & Get & _); auto.
  { destruct freqs; simpl in Hf; [lia|discriminate]. }
  { destruct (kept files skip); simpl in HK; [lia|discriminate]. }
  rewrite E in E'. inversion E'; subst mc'. clear E'.
  unfold find_closest. rewrite (comparisons_spec mc (material_names mc) eps mats).
  - unfold bind. destruct (argmin (map (dist eps) mats)) as [i|] eqn:A.
    + apply argmin_spec in A. rewrite map_length in A. destruct A as (Hi & Hmin & Hfst).
      exists (nth i (map (dist eps) mats) 0), i. split; auto. split; auto.
      rewrite nth_map_in with (d := []) by auto. split; auto. split.
      * intros j Hj. specialize (Hmin j Hj). rewrite !nth_map_in with (d := []) in Hmin by auto. auto.
      * intros j Hj. specialize (Hfst j Hj). rewrite !nth_map_in with (d := []) in Hfst by lia. auto.
    + apply argmin_none in A. apply map_eq_nil in A. subst. simpl in Lm. lia.
  - rewrite Names, map_length. auto.
  - intros i name Hi. rewrite Names in Hi. rewrite nth_error_map in Hi.
    assert (Q : exists table, nth_error (kept files skip) i = Some (name, table)).
    { exact (option_map_fst _ _ Hi). }
    destruct Q as [table Q].
    destruct (Hm _ _ _ Q) as [m [M1 M2]]. exists m. split; auto.
    destruct (Get name table (nth_error_In _ _ Q)) as [es [L1 L2]].
    rewrite M2 in L1. inversion L1; subst es. rewrite L2. unfold expected.
    destruct (Nat.eqb_spec (length (kept files skip)) 1); [lia|].
    destruct (Nat.eqb_spec (length freqs) 1); [lia|]. split; auto.
    apply load_data_spec in M2. destruct M2; lia.
Qed.

Lemma mesh_cell {A} (f : R -> R -> A) x0 y0 i j d : (i < length x0)%nat -> (j < length y0)%nat ->
  cell (mesh_map f x0 y0) d i j = f (nth i x0 0) (nth j y0 0).
Proof.
  intros. unfold cell, mesh_map. rewrite nth_map_in with (d := 0) by auto.
  rewrite nth_map_in with (d := 0) by auto. auto.
Qed.

Lemma coord_linspace n i : (i < n)%nat -> nth i (linspace 0 1 n) 0 = coord n i.
Proof.
  intros. rewrite linspace_nth by auto. unfold coord.
  destruct (Nat.eqb_spec n 1).
  - assert (i = 0)%nat by lia. subst. simpl. lra.
  - unfold Rdiv. rewrite Rminus_0_r. ring.
Qed.

Lemma uniform_cell Nx Ny m i j : (i < Nx)%nat -> (j < Ny)%nat ->
  cell (build_uniform_layer Nx Ny m) [] i j = m.
Proof. intros. unfold build_uniform_layer. rewrite mesh_cell; rewrite ?linspace_length; auto. Qed.

Lemma squared_cell Nx Ny g s a i j : (i < Nx)%nat -> (j < Ny)%nat ->
  (a < coord Nx i < 1 - a /\ a < coord Ny j < 1 - a -> cell (build_squared_layer Nx Ny g s a) [] i j = s) /\
  (~ (a < coord Nx i < 1 - a /\ a < coord Ny j < 1 - a) -> cell (build_squared_layer Nx Ny g s a) [] i j = g).
Proof.
  intros Hi Hj. unfold build_squared_layer. rewrite mesh_cell; rewrite ?linspace_length; auto.
  rewrite !coord_linspace by auto.
  destruct ((Rltb a (coord Nx i) && Rltb (coord Nx i) (1 - a)) && (Rltb a (coord Ny j) && Rltb (coord Ny j) (1 - a))) eqn:E.
  - rewrite !andb_true_iff, !Rltb_true in E. split; auto. tauto.
  - split; auto. intros. exfalso.
    assert (X : (Rltb a (coord Nx i) && Rltb (coord Nx i) (1 - a) && (Rltb a (coord Ny j) && Rltb (coord Ny j) (1 - a))) = true).
    { rewrite !andb_true_iff, !Rltb_true. tauto. }
    congruence.
Qed.

Lemma circle_cell Nx Ny g s r xc yc i j : (i < Nx)%nat -> (j < Ny)%nat ->
  ((coord Nx i - xc) ^ 2 + (coord Ny j - yc) ^ 2 < r ^ 2 -> cell (build_circle_layer Nx Ny g s r xc yc) [] i j = s) /\
  (~ (coord Nx i - xc) ^ 2 + (coord Ny j - yc) ^ 2 < r ^ 2 -> cell (build_circle_layer Nx Ny g s r xc yc) [] i j = g).
Proof.
  intros Hi Hj. unfold build_circle_layer. rewrite mesh_cell; rewrite ?linspace_length; auto.
  rewrite !coord_linspace by auto.
  destruct (Rltb ((coord Nx i - xc) ^ 2 + (coord Ny j - yc) ^ 2) (r ^ 2)) eqn:E.
  - apply Rltb_true in E. split; auto. tauto.
  - apply Rltb_false in E. split; auto. intros; lra.
Qed.

Lemma coord_mirror n i : (2 <= n)%nat -> (i < n)%nat -> coord n (n - 1 - i) = 1 - coord n i.
Proof.
  intros. unfold coord. destruct (Nat.eqb_spec n 1); [lia|].
  assert (INR (n - 1) <> 0) by (apply not_0_INR; lia).
  rewrite (minus_INR (n - 1) i) by lia. field. auto.
Qed.

Lemma squared_mirror_x Nx Ny g s a i j : (2 <= Nx)%nat -> (i < Nx)%nat -> (j < Ny)%nat ->
  cell (build_squared_layer Nx Ny g s a) [] (Nx - 1 - i) j = cell (build_squared_layer Nx Ny g s a) [] i j.
Proof.
  intros. unfold build_squared_layer. rewrite !mesh_cell; rewrite ?linspace_length; auto; try lia.
  rewrite !coord_linspace by lia. rewrite coord_mirror by auto.
  replace (Rltb a (1 - coord Nx i)) with (Rltb (coord Nx i) (1 - a)).
  2: { unfold Rltb. destruct (Rlt_dec _ _), (Rlt_dec _ _); auto; lra. }
  replace (Rltb (1 - coord Nx i) (1 - a)) with (Rltb a (coord Nx i)).
  2: { unfold Rltb. destruct (Rlt_dec _ _), (Rlt_dec _ _); auto; lra. }
  rewrite (andb_comm (Rltb (coord Nx i) (1 - a))). auto.
Qed.
Lemma squared_mirror_y Nx Ny g s a i j : (2 <= Ny)%nat -> (i < Nx)%nat -> (j < Ny)%nat ->
  cell (build_squared_layer Nx Ny g s a) [] i (Ny - 1 - j) = cell (build_squared_layer Nx Ny g s a) [] i j.
Proof.
  intros. unfold build_squared_layer. rewrite !mesh_cell; rewrite ?linspace_length; auto; try lia.
  rewrite !coord_linspace by lia. rewrite coord_mirror by auto.
  replace (Rltb a (1 - coord Ny j)) with (Rltb (coord Ny j) (1 - a)).
  2: { unfold Rltb. destruct (Rlt_dec _ _), (Rlt_dec _ _); auto; lra. }
  replace (Rltb (1 - coord Ny j) (1 - a)) with (Rltb a (coord Ny j)).
  2: { unfold Rltb. destruct (Rlt_dec _ _), (Rlt_dec _ _); auto; lra. }
  rewrite (andb_comm (Rltb (coord Ny j) (1 - a))). auto.
Qed.
Lemma circle_mirror Nx Ny g s r i j : (2 <= Nx)%nat -> (2 <= Ny)%nat -> (i < Nx)%nat -> (j < Ny)%nat ->
  cell (build_circle_layer Nx Ny g s r (1/2) (1/2)) [] (Nx - 1 - i) j = cell (build_circle_layer Nx Ny g s r (1/2) (1/2)) [] i j /\
  cell (build_circle_layer Nx Ny g s r (1/2) (1/2)) [] i (Ny - 1 - j) = cell (build_circle_layer Nx Ny g s r (1/2) (1/2)) [] i j.
Proof.
  intros. unfold build_circle_layer. rewrite !mesh_cell; rewrite ?linspace_length; auto; try lia.
  rewrite !coord_linspace by lia. rewrite !coord_mirror by auto.
  replace ((1 - coord Nx i - 1/2)^2) with ((coord Nx i - 1/2)^2) by field.
  replace ((1 - coord Ny j - 1/2)^2) with ((coord Ny j - 1/2)^2) by field. auto.
Qed.

(** The documented "size" a is a margin: a larger a gives a smaller hole. *)
Lemma squared_antitone Nx Ny g s a a' i j : g <> s -> (i < Nx)%nat -> (j < Ny)%nat -> a <= a' ->
  cell (build_squared_layer Nx Ny g s a') [] i j = s -> cell (build_squared_layer Nx Ny g s a) [] i j = s.
Proof.
  intros Hne Hi Hj Ha H.
  destruct (squared_cell Nx Ny g s a i j Hi Hj) as [A _].
  destruct (squared_cell Nx Ny g s a' i j Hi Hj) as [_ B].
  apply A. destruct (Rlt_dec a' (coord Nx i)); [|exfalso; apply Hne; rewrite <- H; symmetry; apply B; lra].
  destruct (Rlt_dec (coord Nx i) (1 - a')); [|exfalso; apply Hne; rewrite <- H; symmetry; apply B; lra].
  destruct (Rlt_dec a' (coord Ny j)); [|exfalso; apply Hne; rewrite <- H; symmetry; apply B; lra].
  destruct (Rlt_dec (coord Ny j) (1 - a')); [|exfalso; apply Hne; rewrite <- H; symmetry; apply B; lra].
  lra.
Qed.

Lemma squared_single_column Ny g s a j : 0 <= a -> (j < Ny)%nat ->
  cell (build_squared_layer 1 Ny g s a) [] 0 j = g.
Proof.
  intros. destruct (squared_cell 1 Ny g s a 0 j) as [_ B]; auto. apply B.
  unfold coord at 1 2. simpl. lra.
Qed.

Lemma grid_shape {A} (f : R -> R -> A) x0 y0 : length (mesh_map f x0 y0) = length x0 /\
  forall i, (i < length x0)%nat -> length (nth i (mesh_map f x0 y0) []) = length y0.
Proof.
  unfold mesh_map. rewrite map_length. split; auto. intros. rewrite nth_map_in with (d := 0) by auto.
  rewrite map_length; auto.
Qed.

Lemma squared_shape Nx Ny g s a :
  length (build_squared_layer Nx Ny g s a) = Nx /\
  forall i, (i < Nx)%nat -> length (nth i (build_squared_layer Nx Ny g s a) []) = Ny.
Proof.
  unfold build_squared_layer.
  match goal with |- length (mesh_map ?f _ _) = _ /\ _ => destruct (grid_shape f (linspace 0 1 Nx) (linspace 0 1 Ny)) as [A B] end.
  rewrite !linspace_length in *. auto.
Qed.

(** Wrapped statements *)
Lemma lookup_normal files freqs skip :
  (2 <= length freqs)%nat -> NoDup (map fst files) -> (forall f, In f files -> snd f <> []) ->
  (2 <= length (kept files skip))%nat ->
  exists mc, MaterialCollection files freqs skip = Ok mc /\
  forall name table, In (name, table) files -> ~ In name skip ->
    exists es, mc_getitem mc name = Ok (T1 es) /\ length es = length freqs /\
      forall i f, nth_error freqs i = Some f -> exists e, nth_error es i = Some e /\ eps_at table f = Ok e.
Proof.
  intros Hf ND HT HK.
  destruct (collection_lookup files freqs skip) as (mc & E & Names & Get & _); auto.
  { destruct freqs; simpl in Hf; [lia|discriminate]. }
  { destruct (kept files skip); simpl in HK; [lia|discriminate]. }
  exists mc. split; auto. intros name table Hin Hs.
  destruct (Get name table) as [es [L G]]; [apply in_kept; auto|].
  exists es. rewrite G. unfold expected.
  destruct (Nat.eqb_spec (length (kept files skip)) 1); [lia|].
  destruct (Nat.eqb_spec (length freqs) 1); [lia|]. split; auto.
  apply load_data_spec in L. auto.
Qed.

Lemma lookup_missing files freqs skip mc name : NoDup (map fst files) ->
  MaterialCollection files freqs skip = Ok mc ->
  (~ In name (map fst files) \/ In name skip) -> mc_getitem mc name = Err KeyError.
Proof.
  intros ND E Hn. unfold MaterialCollection in E. destruct freqs as [|f0 fr]; [discriminate|].
  apply bind_ok in E. destruct E as (loaded & HL & E). apply bind_ok in E. destruct E as (m & Hm & E).
  inversion E; subst. apply load_files_spec in HL. destruct HL as [HM _].
  unfold mc_getitem. simpl. rewrite HM.
  destruct (existsb (String.eqb name) (map fst (kept files skip))) eqn:X; auto.
  apply existsb_in in X. apply in_map_iff in X. destruct X as [[nm tb] [<- Hin]]. simpl in Hn.
  apply in_kept in Hin. destruct Hin as [H1 H2]. destruct Hn as [Hn|Hn]; [|contradiction].
  exfalso. apply Hn. apply in_map_iff. exists (nm, tb); auto.
Qed.

Lemma lookup_one_material files freqs skip name table :
  (2 <= length freqs)%nat -> NoDup (map fst files) -> (forall f, In f files -> snd f <> []) ->
  kept files skip = [(name, table)] ->
  exists mc e, MaterialCollection files freqs skip = Ok mc /\ mc_getitem mc name = Ok (T0 e) /\
     eps_at table (nth 0 freqs 0) = Ok e.
Proof.
  intros Hf ND HT HK.
  destruct (collection_lookup files freqs skip) as (mc & E & Names & Get & _); auto.
  { destruct freqs; simpl in Hf; [lia|discriminate]. }
  { rewrite HK. discriminate. }
  destruct (Get name table) as [es [L G]]; [rewrite HK; simpl; auto|].
  apply load_data_spec in L. destruct L as [Ll Ln]. rewrite HK in G. unfold expected in G. simpl in G.
  destruct (Nat.eqb_spec (length freqs) 1); [lia|].
  destruct es as [|e es]; [simpl in Ll; lia|]. exists mc, e. split; auto. split; auto.
  destruct freqs as [|f fr]; simpl in Hf; [lia|]. destruct (Ln 0%nat f eq_refl) as [e' [X Y]].
  simpl in X. inversion X; subst. auto.
Qed.

Lemma lookup_one_freq files f skip name table :
  NoDup (map fst files) -> (forall f, In f files -> snd f <> []) ->
  (2 <= length (kept files skip))%nat -> In (name, table) (kept files skip) ->
  exists mc e, MaterialCollection files [f] skip = Ok mc /\ mc_getitem mc name = Ok (T0 e) /\
     eps_at table f = Ok e /\ exists v, epsilon_matrix mc = T1 v /\ length v = length (kept files skip).
Proof.
  intros ND HT HK Hin.
  destruct (collection_lookup files [f] skip) as (mc & E & Names & Get & _); auto; try discriminate.
  { destruct (kept files skip); simpl in HK; [lia|discriminate]. }
  destruct (Get name table Hin) as [es [L G]].
  pose proof (load_data_spec _ _ _ L) as [Ll Ln]. unfold expected in G. 
  destruct (Nat.eqb_spec (length (kept files skip)) 1); [lia|]. simpl in G, Ll.
  destruct es as [|e es]; [simpl in Ll; lia|]. exists mc, e. split; auto. split; auto.
  destruct (Ln 0%nat f eq_refl) as [e' [X Y]]. simpl in X. inversion X; subst. split; auto.
  unfold MaterialCollection in E. apply bind_ok in E. destruct E as (loaded & HL & E).
  apply bind_ok in E. destruct E as (m & Hm & E). inversion E; subst. simpl.
  apply load_files_spec in HL. destruct HL as [HM HN].
  assert (LL : length loaded = length (kept files skip))
    by (rewrite <- (map_length fst loaded), HM, map_length; auto).
  assert (Lens : forall l, In l (map snd loaded) -> length l = 1%nat).
  { intros l Hl. apply in_map_iff in Hl. destruct Hl as [[nm es'] [Q Hin']]. simpl in Q; subst es'.
    apply In_nth_error in Hin'. destruct Hin' as [i Hi].
    destruct (nth_error (kept files skip) i) as [[nm' tb]|] eqn:Q.
    - destruct (HN _ _ _ Q) as [es' [E1 E2]]. rewrite Hi in E1. inversion E1; subst.
      apply load_data_spec in E2. simpl in E2. tauto.
    - apply nth_error_None in Q. assert (i < length loaded)%nat by (apply nth_error_Some; congruence). lia. }
  assert (CL : forall ls : list (list C), (forall l, In l ls -> length l = 1%nat) -> length (concat ls) = length ls).
  { clear. induction ls as [|l ls IH]; simpl; intros; auto. rewrite app_length, IH, H; auto. }
  destruct (map snd loaded) as [|v [|v2 rest]] eqn:M.
  - apply (f_equal (@length _)) in M. rewrite map_length in M. simpl in M. lia.
  - apply (f_equal (@length _)) in M. rewrite map_length in M. simpl in M. lia.
  - exists (concat (v :: v2 :: rest)). split.
    + assert (length v = 1%nat) by (apply Lens; simpl; auto).
      destruct v as [|z [|]]; simpl in *; try discriminate. congruence.
    + rewrite CL by auto. rewrite <- M, map_length. auto.
Qed.

Lemma lookup_one_one files f skip name table :
  NoDup (map fst files) -> (forall f, In f files -> snd f <> []) ->
  kept files skip = [(name, table)] ->
  exists mc, MaterialCollection files [f] skip = Ok mc /\ mc_getitem mc name = Err IndexError.
Proof.
  intros ND HT HK.
  destruct (collection_lookup files [f] skip) as (mc & E & Names & Get & _); auto; try discriminate.
  { rewrite HK. discriminate. }
  destruct (Get name table) as [es [L G]]; [rewrite HK; simpl; auto|].
  exists mc. rewrite HK in G. unfold expected in G. simpl in G. auto.
Qed.

Lemma collection_no_materials files freqs skip : freqs <> [] ->
  (forall name table, In (name, table) files -> In name skip) ->
  MaterialCollection files freqs skip = Err RuntimeError.
Proof.
  intros Hf H. unfold MaterialCollection. destruct freqs; [congruence|].
  assert (E : load_files files (r :: freqs) skip = Ok []).
  { induction files as [|[nm tb] files IH]; simpl; auto.
    assert (X : existsb (String.eqb nm) skip = true) by (apply existsb_in; apply (H nm tb); simpl; auto).
    rewrite X. apply IH. intros; apply (H name table); simpl; auto. }
  rewrite E. reflexivity.
Qed.

Lemma find_closest_exact files freqs skip mc eps (mats : list (list C)) i0 :
  (2 <= length freqs)%nat -> NoDup (map fst files) -> (forall f, In f files -> snd f <> []) ->
  (2 <= length (kept files skip))%nat ->
  MaterialCollection files freqs skip = Ok mc -> length eps = length freqs ->
  length mats = length (kept files skip) ->
  (forall i name table, nth_error (kept files skip) i = Some (name, table) ->
     exists m, nth_error mats i = Some m /\ load_material_data table freqs = Ok m) ->
  nth_error mats i0 = Some eps ->
  exists i, find_closest mc eps = Ok (0, i) /\ nth_error mats i = Some eps.
Proof.
  intros Hf ND HT HK E Le Lm Hm H0.
  destruct (find_closest_spec files freqs skip mc eps mats) as (d & i & Hfc & Hi & Hd & Hmin & _); auto.
  assert (He : eps <> []) by (destruct eps; simpl in Le; [lia|discriminate]).
  assert (L0 : (i0 < length mats)%nat) by (apply nth_error_Some; congruence).
  assert (D0 : d = 0).
  { assert (d <= 0).
    { specialize (Hmin i0 L0). rewrite (nth_error_nth _ _ [] H0) in Hmin.
      rewrite (proj2 (dist_zero_iff eps eps He eq_refl) eq_refl) in Hmin. auto. }
    pose proof (dist_nonneg eps (nth i mats [])). lra. }
  subst d. exists i. rewrite D0 in Hfc. split; auto.
  rewrite (nth_error_nth' mats [] Hi). f_equal. symmetry. apply dist_zero_iff; auto.
  assert (i < length (kept files skip))%nat by lia.
  destruct (nth_error (kept files skip) i) as [[nm tb]|] eqn:Q; [|apply nth_error_None in Q; lia].
  destruct (Hm _ _ _ Q) as [m [M1 M2]]. rewrite (nth_error_nth _ _ [] M1).
  apply load_data_spec in M2. destruct M2. lia.
Qed.
