(** Proofs for C94. *)
From Coq Require Import Reals ZArith QArith Qreals String List Bool Lra Lia Permutation.
From Verif Require Import Base BaseLemmas Cplx CplxLemmas Model_Units Model_Materials Spec_Materials Proof_Materials Model_Tables Spec_Tables.
Import ListNotations.
Open Scope R_scope.

(** * Rows of increasing tables *)
Lemma increasing_lt : forall t, increasing t -> forall d i a b,
  nth_error t i = Some a -> nth_error t (i + S d) = Some b -> Wavelength a < Wavelength b.
Proof.
  intros t I. induction d as [|d IH]; intros i a b A B.
  - rewrite Nat.add_1_r in B. exact (I _ _ _ A B).
  - destruct (nth_error t (i + S d)) as [c|] eqn:E.
    + apply Rlt_trans with (Wavelength c); [exact (IH _ _ _ A E)|].
      apply (I (i + S d)%nat); [exact E|]. rewrite <- B. f_equal; lia.
    + apply nth_error_None in E. assert (X : nth_error t (i + S (S d)) <> None) by congruence.
      apply nth_error_Some in X. lia.
Qed.
Lemma increasing_le : forall t, increasing t -> forall i j a b, (i <= j)%nat ->
  nth_error t i = Some a -> nth_error t j = Some b -> Wavelength a <= Wavelength b.
Proof.
  intros t I i j a b L A B. destruct (Nat.eq_dec i j) as [->|N].
  - rewrite A in B. injection B as ->. lra.
  - left. apply (increasing_lt t I (j - i - 1) i); [exact A|]. rewrite <- B. f_equal; lia.
Qed.
Lemma selected : forall t f e, increasing t -> eps_at t f = Ok e ->
  exists i r, nth_error t i = Some r /\ e = index_squared r /\
  forall j a b, nth_error t j = Some a -> nth_error t (S j) = Some b ->
    (/ f <= (Wavelength a + Wavelength b) / 2 -> (i <= j)%nat) /\
    ((Wavelength a + Wavelength b) / 2 < / f -> (j < i)%nat).
Proof.
  intros t f e I H. destruct (eps_at_spec _ _ _ H) as [i [r [E [M [F X]]]]].
  exists i, r. split; [exact E|split; [exact X|]]. intros j a b A B.
  pose proof (I _ _ _ A B) as L. split; intro W.
  - destruct (Nat.le_gt_cases i j) as [Q|Q]; [exact Q|exfalso].
    pose proof (F j a Q A) as F1.
    pose proof (increasing_le t I (S j) i b r Q B E) as L2.
    revert F1. unfold Rabs. destruct (Rcase_abs _), (Rcase_abs _); lra.
  - destruct (Nat.le_gt_cases i j) as [Q|Q]; [exfalso|exact Q].
    pose proof (M (S j) b B) as M1.
    pose proof (increasing_le t I i j r a Q E A) as L2.
    revert M1. unfold Rabs. destruct (Rcase_abs _), (Rcase_abs _); lra.
Qed.
Lemma row_chosen : forall t f i r, increasing t -> nth_error t i = Some r ->
  (forall a, (0 < i)%nat -> nth_error t (i - 1) = Some a -> (Wavelength a + Wavelength r) / 2 < / f) ->
  (forall b, nth_error t (S i) = Some b -> / f <= (Wavelength r + Wavelength b) / 2) ->
  eps_at t f = Ok (index_squared r).
Proof.
  intros t f i r I E A B. destruct (eps_at_ok t f) as [e H].
  { intros ->. destruct i; discriminate E. }
  destruct (selected t f e I H) as [j [r' [E' [-> S']]]]. rewrite H.
  assert (j = i) as ->; [|congruence].
  assert (LO : (i <= j)%nat).
  { destruct i as [|i]; [lia|]. destruct (nth_error t i) as [a|] eqn:EA.
    - apply (S' i a r EA E). apply A; [lia|]. rewrite <- EA. f_equal; lia.
    - apply nth_error_None in EA. assert (X : nth_error t (S i) <> None) by congruence.
      apply nth_error_Some in X. lia. }
  assert (HI : (j <= i)%nat); [|lia].
  destruct (nth_error t (S i)) as [b|] eqn:EB.
  - exact (proj1 (S' i r b E EB) (B b eq_refl)).
  - apply nth_error_None in EB. assert (X : nth_error t j <> None) by congruence.
    apply nth_error_Some in X. lia.
Qed.

(** * Checking tables by computation *)
Definition qlt (a b : Q) : bool := negb (Qle_bool b a).
Lemma qlt_R : forall a b, qlt a b = true -> Q2R a < Q2R b.
Proof.
  intros a b H. apply Qlt_Rlt. apply Qnot_le_lt. intro L. apply Qle_bool_iff in L.
  unfold qlt in H. rewrite L in H. discriminate.
Qed.
Lemma qle_R : forall a b, Qle_bool a b = true -> Q2R a <= Q2R b.
Proof. intros a b H. apply Qle_Rle. apply Qle_bool_iff. exact H. Qed.
Lemma qlt_false : forall a b, qlt a b = false -> Q2R b <= Q2R a.
Proof. intros a b H. unfold qlt in H. apply negb_false_iff in H. apply qle_R. exact H. Qed.
Definition l_w (l : line) : Q := decimal (fst (fst l)).
Definition l_n (l : line) : Q := decimal (snd (fst l)).
Definition l_k (l : line) : Q := decimal (snd l).
Definition l_re (l : line) : Q := (l_n l * l_n l - l_k l * l_k l)%Q.
Definition l_im (l : line) : Q := (2 * (l_n l * l_k l))%Q.
Lemma row_parts : forall l, Wavelength (row_of l) = Q2R (l_w l) /\ n_ (row_of l) = Q2R (l_n l) /\ k_ (row_of l) = Q2R (l_k l).
Proof. intros [[w n] k]. repeat split. Qed.
Lemma row_square : forall l, index_squared (row_of l) = (Q2R (l_re l), Q2R (l_im l)).
Proof.
  intro l. destruct (row_parts l) as [_ [N K]]. unfold index_squared, Cmul, l_re, l_im. simpl fst; simpl snd.
  unfold Re, Im; simpl. rewrite N, K, Q2R_minus, !Q2R_mult. f_equal.
  replace (Q2R 2) with 2 by (unfold Q2R; simpl; lra). ring.
Qed.
Lemma shipped_split : forall name t, In (name, t) shipped ->
  exists ls, In (name, ls) shipped_lines /\ t = map row_of ls.
Proof.
  intros name t H. unfold shipped in H. apply in_map_iff in H. destruct H as [[n ls] [E I]].
  simpl in E. injection E as -> <-. exists ls. split; [exact I|reflexivity].
Qed.
Lemma all_lines : forall (P : line -> bool), forallb (fun f => forallb P (snd f)) shipped_lines = true ->
  forall name t r, In (name, t) shipped -> In r t -> exists l, r = row_of l /\ P l = true.
Proof.
  intros P C name t r H R. destruct (shipped_split _ _ H) as [ls [I ->]].
  rewrite forallb_forall in C. specialize (C _ I). simpl in C. rewrite forallb_forall in C.
  apply in_map_iff in R. destruct R as [l [<- J]]. exists l. split; [reflexivity|exact (C _ J)].
Qed.
Fixpoint rising (ls : list line) : bool :=
  match ls with
  | a :: ((b :: _) as r) => qlt (l_w a) (l_w b) && rising r
  | _ => true
  end.
Lemma rising_ok : forall ls, rising ls = true -> increasing (map row_of ls).
Proof.
  induction ls as [|a ls IH]; intros H i x y A B; [destruct i; discriminate A|].
  destruct ls as [|b r]; [destruct i; [discriminate B|destruct i; discriminate B]|].
  simpl in H. apply andb_true_iff in H. destruct H as [H1 H2].
  destruct i as [|i].
  - simpl in A, B. injection A as <-. injection B as <-.
    rewrite (proj1 (row_parts a)), (proj1 (row_parts b)). apply qlt_R. exact H1.
  - apply (IH H2 i); [exact A|exact B].
Qed.
Lemma shipped_increasing : forall name t, In (name, t) shipped -> t <> [] /\ increasing t.
Proof.
  intros name t H. destruct (shipped_split _ _ H) as [ls [I ->]].
  assert (C : forallb (fun f => negb (Nat.eqb (length (snd f)) 0) && rising (snd f)) shipped_lines = true)
    by (vm_compute; reflexivity).
  rewrite forallb_forall in C. specialize (C _ I). apply andb_true_iff in C. simpl in C. destruct C as [C1 C2].
  split; [|apply rising_ok; exact C2]. destruct ls; [discriminate C1|discriminate].
Qed.
Lemma shipped_rows : forall name t r, In (name, t) shipped -> In r t ->
  0 < Wavelength r /\ 0 < n_ r.
Proof.
  intros name t r H R.
  destruct (all_lines (fun l => qlt 0 (l_w l) && qlt 0 (l_n l)) ltac:(vm_compute; reflexivity) _ _ _ H R) as [l [-> C]].
  apply andb_true_iff in C. destruct C as [C1 C2]. destruct (row_parts l) as [-> [-> _]].
  apply qlt_R in C1. apply qlt_R in C2. rewrite RMicromega.Q2R_0 in C1, C2. split; assumption.
Qed.
Lemma chosen_in : forall t f e, eps_at t f = Ok e -> exists r, In r t /\ e = index_squared r.
Proof.
  intros t f e H. destruct (eps_at_spec _ _ _ H) as [i [r [E [_ [_ X]]]]].
  exists r. split; [exact (nth_error_In _ _ E)|exact X].
Qed.
Lemma shipped_check : forall (P : line -> bool), forallb (fun f => forallb P (snd f)) shipped_lines = true ->
  forall name t f e, In (name, t) shipped -> eps_at t f = Ok e ->
  exists l, P l = true /\ e = (Q2R (l_re l), Q2R (l_im l)).
Proof.
  intros P C name t f e H E. destruct (chosen_in _ _ _ E) as [r [I ->]].
  destruct (all_lines P C _ _ _ H I) as [l [-> Q]]. exists l. split; [exact Q|apply row_square].
Qed.
Lemma shipped_names : map fst shipped =
  ["aluminium_arsenide"; "aluminium_nitride"; "aluminium_oxide"; "gallium_arsenide"; "germanium";
   "indium_arsenide"; "silicon_nitride"; "tantalum_pentoxide"; "titanium_oxide"; "zinc_oxide"]%string.
Proof. unfold shipped. rewrite map_map. reflexivity. Qed.
Lemma shipped_nodup : NoDup (map fst shipped).
Proof. rewrite shipped_names. repeat constructor; simpl; intuition discriminate. Qed.

(** * Bounds for all frequencies *)
Ltac q2r := unfold Q2R in *; simpl in *.
Lemma shipped_bounds : forall name t f e, In (name, t) shipped -> eps_at t f = Ok e ->
  - 73 < Re e < 89 /\ - (77 / 100) < Im e < 163.
Proof.
  intros name t f e H E.
  destruct (shipped_check (fun l => qlt (-73 # 1) (l_re l) && qlt (l_re l) (89 # 1) && qlt (-77 # 100) (l_im l) && qlt (l_im l) (163 # 1))
    ltac:(vm_compute; reflexivity) _ _ _ _ H E) as [l [C ->]].
  rewrite !andb_true_iff in C. destruct C as [[[C1 C2] C3] C4].
  apply qlt_R in C1. apply qlt_R in C2. apply qlt_R in C3. apply qlt_R in C4. unfold Re, Im; simpl.
  assert (E1 : Q2R (-73 # 1) = -73) by (unfold Q2R; simpl; lra).
  assert (E2 : Q2R (89 # 1) = 89) by (unfold Q2R; simpl; lra).
  assert (E3 : Q2R (-77 # 100) = - (77 / 100)) by (unfold Q2R; simpl; lra).
  assert (E4 : Q2R (163 # 1) = 163) by (unfold Q2R; simpl; lra).
  lra.
Qed.
Lemma shipped_modulus : forall name t f e, In (name, t) shipped -> eps_at t f = Ok e ->
  13 / 100 < Cabs e < 178.
Proof.
  intros name t f e H E. destruct (eps_abs _ _ _ E) as [r [I ->]].
  destruct (all_lines (fun l => qlt (13 # 100) (l_n l * l_n l + l_k l * l_k l) && qlt (l_n l * l_n l + l_k l * l_k l) (178 # 1))
    ltac:(vm_compute; reflexivity) _ _ _ H I) as [l [-> C]].
  apply andb_true_iff in C. destruct C as [C1 C2]. apply qlt_R in C1. apply qlt_R in C2.
  destruct (row_parts l) as [_ [-> ->]]. rewrite Q2R_plus, !Q2R_mult in C1, C2.
  assert (E1 : Q2R (13 # 100) = 13 / 100) by (unfold Q2R; simpl; lra).
  assert (E2 : Q2R (178 # 1) = 178) by (unfold Q2R; simpl; lra).
  lra.
Qed.
Lemma shipped_not_zeroed : forall name t f e, In (name, t) shipped -> eps_at t f = Ok e ->
  / 10 < Re e \/ / 10 < Im e.
Proof.
  intros name t f e H E.
  destruct (shipped_check (fun l => qlt (1 # 10) (l_re l) || qlt (1 # 10) (l_im l))
    ltac:(vm_compute; reflexivity) _ _ _ _ H E) as [l [C ->]].
  assert (E1 : Q2R (1 # 10) = / 10) by (unfold Q2R; simpl; lra).
  apply orb_true_iff in C. unfold Re, Im; simpl.
  destruct C as [C|C]; apply qlt_R in C; [left|right]; lra.
Qed.
Lemma shipped_passive : forall name t f e, In (name, t) shipped -> name <> "aluminium_oxide"%string ->
  eps_at t f = Ok e -> 0 <= Im e.
Proof.
  intros name t f e H N E. destruct (shipped_split _ _ H) as [ls [I ->]].
  assert (C : forallb (fun f => String.eqb (fst f) "aluminium_oxide" || forallb (fun l => Qle_bool 0 (l_im l)) (snd f)) shipped_lines = true)
    by (vm_compute; reflexivity).
  rewrite forallb_forall in C. specialize (C _ I). simpl in C. apply orb_true_iff in C.
  destruct C as [C|C]; [apply String.eqb_eq in C; contradiction|].
  destruct (chosen_in _ _ _ E) as [r [J ->]]. apply in_map_iff in J. destruct J as [l [<- J]].
  rewrite forallb_forall in C. specialize (C _ J). apply qle_R in C. rewrite RMicromega.Q2R_0 in C.
  rewrite row_square. exact C.
Qed.

(** * Bands of wavelengths *)
Lemma by_index : forall (P : nat -> line -> bool) ls,
  forallb (fun p => P (fst p) (snd p)) (combine (seq 0 (length ls)) ls) = true ->
  forall i r, nth_error (map row_of ls) i = Some r -> exists l, r = row_of l /\ P i l = true.
Proof.
  intros P ls C i r H. rewrite nth_error_map in H. destruct (nth_error ls i) as [l|] eqn:E; [|discriminate].
  simpl in H. injection H as <-. exists l. split; [reflexivity|].
  rewrite forallb_forall in C. apply (C (i, l)).
  apply (nth_error_In _ i).
  assert (G : forall (k : nat) (m : list line) j x, nth_error m j = Some x ->
              nth_error (combine (seq k (length m)) m) j = Some ((k + j)%nat, x)).
  { intros k m; revert k; induction m as [|y m IH]; intros k [|j] x F; simpl in *; try discriminate.
    - injection F as ->. rewrite Nat.add_0_r. reflexivity.
    - rewrite (IH (S k) j x F). do 2 f_equal. lia. }
  exact (G 0%nat ls i l E).
Qed.
Lemma shipped_unique : forall name t t', In (name, t) shipped -> In (name, t') shipped -> t = t'.
Proof.
  intros name t t'. generalize shipped_nodup. generalize shipped. induction l as [|[n u] l IH]; [intros _ []|].
  simpl. intro ND. inversion ND as [|x y Nin ND']; subst. intros [A|A] [B|B].
  - congruence.
  - injection A as -> ->. exfalso. apply Nin. apply in_map_iff. exists (name, t'). split; [reflexivity|exact B].
  - injection B as -> ->. exfalso. apply Nin. apply in_map_iff. exists (name, t). split; [reflexivity|exact A].
  - exact (IH ND' A B).
Qed.
(** A wavelength against the middle between lines j and j + 1. *)
Definition middle (ls : list line) (j : nat) : Q :=
  match nth_error ls j, nth_error ls (S j) with
  | Some a, Some b => ((l_w a + l_w b) / (2 # 1))%Q
  | _, _ => 0%Q
  end.
Lemma at_middle : forall ls j x, (S j < length ls)%nat -> Qeq_bool (middle ls j) x = true ->
  exists a b, nth_error (map row_of ls) j = Some a /\ nth_error (map row_of ls) (S j) = Some b /\
    (Wavelength a + Wavelength b) / 2 = Q2R x.
Proof.
  intros ls j x L H. unfold middle in H. rewrite !nth_error_map.
  destruct (nth_error ls j) as [a|] eqn:A; [|apply nth_error_None in A; lia].
  destruct (nth_error ls (S j)) as [b|] eqn:B; [|apply nth_error_None in B; lia].
  exists (row_of a), (row_of b). split; [reflexivity|split; [reflexivity|]].
  apply Qeq_bool_eq in H. rewrite (proj1 (row_parts a)), (proj1 (row_parts b)).
  rewrite <- (Qeq_eqR _ _ H). unfold Qdiv. rewrite Q2R_mult, Q2R_plus.
  replace (Q2R (/ (2 # 1))) with (/ 2) by (unfold Q2R; simpl; lra). reflexivity.
Qed.
Lemma compare_index : forall ls f e, increasing (map row_of ls) -> eps_at (map row_of ls) f = Ok e ->
  exists i r, nth_error (map row_of ls) i = Some r /\ e = index_squared r /\
  forall j x, (S j < length ls)%nat -> Qeq_bool (middle ls j) x = true ->
    (/ f <= Q2R x <-> (i <= j)%nat).
Proof.
  intros ls f e I H. destruct (selected _ _ _ I H) as [i [r [E [-> S']]]].
  exists i, r. split; [exact E|split; [reflexivity|]]. intros j x L M.
  destruct (at_middle ls j x L M) as [a [b [A [B <-]]]]. destruct (S' j a b A B) as [U V].
  split; [exact U|]. intro Q. destruct (Rle_or_lt (/ f) ((Wavelength a + Wavelength b) / 2)) as [K|K]; [exact K|].
  specialize (V K). lia.
Qed.
Lemma alumina_lines : forall t, In ("aluminium_oxide"%string, t) shipped -> t = map row_of aluminium_oxide.
Proof.
  intros t H. apply (shipped_unique "aluminium_oxide"%string); [exact H|].
  unfold shipped. apply in_map_iff. exists ("aluminium_oxide"%string, aluminium_oxide).
  split; [reflexivity|]. unfold shipped_lines. do 2 right. left. reflexivity.
Qed.
Lemma germanium_lines : forall t, In ("germanium"%string, t) shipped -> t = map row_of germanium.
Proof.
  intros t H. apply (shipped_unique "germanium"%string); [exact H|].
  unfold shipped. apply in_map_iff. exists ("germanium"%string, germanium).
  split; [reflexivity|]. unfold shipped_lines. do 4 right. left. reflexivity.
Qed.
Lemma Q2R_num : forall a b, Q2R (a # b) = IZR a / IZR (Zpos b).
Proof. reflexivity. Qed.
(** Band membership as a boolean on line numbers. *)
Definition inside (lo hi i : nat) : bool := Nat.leb lo i && Nat.leb i hi.

Lemma alumina_gain : forall t f e, In ("aluminium_oxide"%string, t) shipped -> eps_at t f = Ok e ->
  (Im e < 0 <-> / f <= 285 / 1000 \/ 274024 / 10000 < / f <= 298574 / 10000).
Proof.
  intros t f e H E. pose proof (proj2 (shipped_increasing _ _ H)) as I. rewrite (alumina_lines t H) in *.
  destruct (compare_index _ _ _ I E) as [i [r [N [-> M]]]].
  pose proof (M 7%nat (285 # 1000) ltac:(apply Nat.ltb_lt; vm_compute; reflexivity) ltac:(vm_compute; reflexivity)) as M1.
  pose proof (M 592%nat (274024 # 10000) ltac:(apply Nat.ltb_lt; vm_compute; reflexivity) ltac:(vm_compute; reflexivity)) as M2.
  pose proof (M 595%nat (298574 # 10000) ltac:(apply Nat.ltb_lt; vm_compute; reflexivity) ltac:(vm_compute; reflexivity)) as M3.
  rewrite Q2R_num in M1, M2, M3.
  destruct (by_index (fun i l => Bool.eqb (qlt (l_im l) 0) (inside 0 7 i || inside 593 595 i)) aluminium_oxide
     ltac:(vm_compute; reflexivity) i r N) as [l [-> C]].
  apply eqb_prop in C. rewrite row_square. unfold Im; simpl snd.
  assert (X : Q2R (l_im l) < 0 <-> (i <= 7 \/ 593 <= i <= 595)%nat).
  { destruct (qlt (l_im l) 0) eqn:Q.
    - apply qlt_R in Q. rewrite RMicromega.Q2R_0 in Q. split; [|intro; exact Q]. intros _.
      symmetry in C. apply orb_true_iff in C. unfold inside in C. rewrite !andb_true_iff, !Nat.leb_le in C. lia.
    - apply qlt_false in Q. rewrite RMicromega.Q2R_0 in Q. split; [intro; lra|]. intro W. exfalso.
      symmetry in C. apply orb_false_iff in C. unfold inside in C. rewrite !andb_false_iff, !Nat.leb_gt in C. lia. }
  rewrite X. clear - M1 M2 M3. split.
  - intros [L|[L1 L2]]; [left; apply M1; exact L|right].
    split; [apply Rnot_le_lt; intro K; apply M2 in K; lia|apply M3; exact L2].
  - intros [L|[L1 L2]]; [left; apply M1; exact L|right].
    split; [|apply M3; exact L2]. destruct (Nat.le_gt_cases i 592) as [K|K]; [|exact K].
    apply M2 in K. lra.
Qed.
Lemma alumina_metallic : forall t f e, In ("aluminium_oxide"%string, t) shipped -> eps_at t f = Ok e ->
  (Re e < 0 <-> 1105005 / 100000 < / f <= 177005 / 10000 \/ 2062075 / 100000 < / f <= 2299155 / 100000).
Proof.
  intros t f e H E. pose proof (proj2 (shipped_increasing _ _ H)) as I. rewrite (alumina_lines t H) in *.
  destruct (compare_index _ _ _ I E) as [i [r [N [-> M]]]].
  pose proof (M 538%nat (1105005 # 100000) ltac:(apply Nat.ltb_lt; vm_compute; reflexivity) ltac:(vm_compute; reflexivity)) as M1.
  pose proof (M 572%nat (177005 # 10000) ltac:(apply Nat.ltb_lt; vm_compute; reflexivity) ltac:(vm_compute; reflexivity)) as M2.
  pose proof (M 580%nat (2062075 # 100000) ltac:(apply Nat.ltb_lt; vm_compute; reflexivity) ltac:(vm_compute; reflexivity)) as M3.
  pose proof (M 585%nat (2299155 # 100000) ltac:(apply Nat.ltb_lt; vm_compute; reflexivity) ltac:(vm_compute; reflexivity)) as M4.
  rewrite Q2R_num in M1, M2, M3, M4.
  destruct (by_index (fun i l => Bool.eqb (qlt (l_re l) 0) (inside 539 572 i || inside 581 585 i)) aluminium_oxide
     ltac:(vm_compute; reflexivity) i r N) as [l [-> C]].
  apply eqb_prop in C. rewrite row_square. unfold Re; simpl fst.
  assert (X : Q2R (l_re l) < 0 <-> (539 <= i <= 572 \/ 581 <= i <= 585)%nat).
  { destruct (qlt (l_re l) 0) eqn:Q.
    - apply qlt_R in Q. rewrite RMicromega.Q2R_0 in Q. split; [|intro; exact Q]. intros _.
      symmetry in C. apply orb_true_iff in C. unfold inside in C. rewrite !andb_true_iff, !Nat.leb_le in C. lia.
    - apply qlt_false in Q. rewrite RMicromega.Q2R_0 in Q. split; [intro; lra|]. intro W. exfalso.
      symmetry in C. apply orb_false_iff in C. unfold inside in C. rewrite !andb_false_iff, !Nat.leb_gt in C. lia. }
  rewrite X. clear - M1 M2 M3 M4.
  assert (G : forall j x, (/ f <= x <-> (i <= j)%nat) -> (x < / f <-> (S j <= i)%nat)).
  { intros j x K. split; intro Y.
    - destruct (Nat.le_gt_cases i j) as [Z|Z]; [apply K in Z; lra|exact Z].
    - apply Rnot_le_lt. intro Z. apply K in Z. lia. }
  pose proof (G _ _ M1) as G1. pose proof (G _ _ M3) as G3.
  rewrite G1, M2, G3, M4. reflexivity.
Qed.
Lemma alumina_over_limit : forall t f e, In ("aluminium_oxide"%string, t) shipped -> eps_at t f = Ok e ->
  (3 < Im e <-> 155048 / 10000 < / f <= 202041 / 10000 \/ 2150785 / 100000 < / f <= 2409985 / 100000
                \/ 253205 / 10000 < / f <= 266714 / 10000).
Proof.
  intros t f e H E. pose proof (proj2 (shipped_increasing _ _ H)) as I. rewrite (alumina_lines t H) in *.
  destruct (compare_index _ _ _ I E) as [i [r [N [-> M]]]].
  pose proof (M 564%nat (155048 # 10000) ltac:(apply Nat.ltb_lt; vm_compute; reflexivity) ltac:(vm_compute; reflexivity)) as M1.
  pose proof (M 579%nat (202041 # 10000) ltac:(apply Nat.ltb_lt; vm_compute; reflexivity) ltac:(vm_compute; reflexivity)) as M2.
  pose proof (M 582%nat (2150785 # 100000) ltac:(apply Nat.ltb_lt; vm_compute; reflexivity) ltac:(vm_compute; reflexivity)) as M3.
  pose proof (M 587%nat (2409985 # 100000) ltac:(apply Nat.ltb_lt; vm_compute; reflexivity) ltac:(vm_compute; reflexivity)) as M4.
  pose proof (M 589%nat (253205 # 10000) ltac:(apply Nat.ltb_lt; vm_compute; reflexivity) ltac:(vm_compute; reflexivity)) as M5.
  pose proof (M 591%nat (266714 # 10000) ltac:(apply Nat.ltb_lt; vm_compute; reflexivity) ltac:(vm_compute; reflexivity)) as M6.
  rewrite Q2R_num in M1, M2, M3, M4, M5, M6.
  destruct (by_index (fun i l => Bool.eqb (qlt (3 # 1) (l_im l)) (inside 565 579 i || inside 583 587 i || inside 590 591 i)) aluminium_oxide
     ltac:(vm_compute; reflexivity) i r N) as [l [-> C]].
  apply eqb_prop in C. rewrite row_square. unfold Im; simpl snd.
  assert (E3 : Q2R (3 # 1) = 3) by (rewrite Q2R_num; lra).
  assert (X : 3 < Q2R (l_im l) <-> (565 <= i <= 579 \/ 583 <= i <= 587 \/ 590 <= i <= 591)%nat).
  { destruct (qlt (3 # 1) (l_im l)) eqn:Q.
    - apply qlt_R in Q. rewrite E3 in Q. split; [|intro; exact Q]. intros _.
      symmetry in C. rewrite !orb_true_iff in C. unfold inside in C. rewrite !andb_true_iff, !Nat.leb_le in C. lia.
    - apply qlt_false in Q. rewrite E3 in Q. split; [intro; lra|]. intro W. exfalso.
      symmetry in C. rewrite !orb_false_iff in C. unfold inside in C. rewrite !andb_false_iff, !Nat.leb_gt in C. lia. }
  rewrite X. clear - M1 M2 M3 M4 M5 M6.
  assert (G : forall j x, (/ f <= x <-> (i <= j)%nat) -> (x < / f <-> (S j <= i)%nat)).
  { intros j x K. split; intro Y.
    - destruct (Nat.le_gt_cases i j) as [Z|Z]; [apply K in Z; lra|exact Z].
    - apply Rnot_le_lt. intro Z. apply K in Z. lia. }
  rewrite (G _ _ M1), M2, (G _ _ M3), M4, (G _ _ M5), M6. reflexivity.
Qed.
Lemma germanium_lossless : forall t f e, In ("germanium"%string, t) shipped -> eps_at t f = Ok e ->
  (Im e = 0 <-> 1935725 / 1000000 < / f).
Proof.
  intros t f e H E. pose proof (proj2 (shipped_increasing _ _ H)) as I. rewrite (germanium_lines t H) in *.
  destruct (compare_index _ _ _ I E) as [i [r [N [-> M]]]].
  pose proof (M 163%nat (1935725 # 1000000) ltac:(apply Nat.ltb_lt; vm_compute; reflexivity) ltac:(vm_compute; reflexivity)) as M1.
  rewrite Q2R_num in M1.
  destruct (by_index (fun i l => Bool.eqb (Qle_bool (l_im l) 0) (Nat.leb 164 i) && Qle_bool 0 (l_im l)) germanium
     ltac:(vm_compute; reflexivity) i r N) as [l [-> C]].
  apply andb_true_iff in C. destruct C as [C P]. apply eqb_prop in C.
  apply qle_R in P. rewrite RMicromega.Q2R_0 in P. rewrite row_square. unfold Im; simpl snd.
  assert (X : Q2R (l_im l) = 0 <-> (164 <= i)%nat).
  { destruct (Qle_bool (l_im l) 0) eqn:Q.
    - apply qle_R in Q. rewrite RMicromega.Q2R_0 in Q. symmetry in C. apply Nat.leb_le in C. split; [intro; exact C|intro; lra].
    - assert (K : qlt 0 (l_im l) = true) by (unfold qlt; rewrite Q; reflexivity).
      apply qlt_R in K. rewrite RMicromega.Q2R_0 in K. symmetry in C. apply Nat.leb_gt in C. split; [lra|lia]. }
  rewrite X. split; intro Y.
  - apply Rnot_le_lt. intro Z. apply M1 in Z. lia.
  - destruct (Nat.le_gt_cases i 163) as [Z|Z]; [apply M1 in Z; lra|exact Z].
Qed.

(** * Beyond the tables *)
Lemma longer_wavelengths : forall t f g r, increasing t -> nth_error t (length t - 1) = Some r ->
  Wavelength r <= / f -> Wavelength r <= / g -> eps_at t f = eps_at t g.
Proof.
  assert (K : forall t f r, increasing t -> nth_error t (length t - 1) = Some r ->
              Wavelength r <= / f -> eps_at t f = Ok (index_squared r)).
  { intros t f r I E L. apply (row_chosen t f (length t - 1) r I E).
    - intros a P A. assert (Wavelength a < Wavelength r); [|lra].
      apply (I (length t - 1 - 1)%nat); [exact A|]. rewrite <- E. f_equal; lia.
    - intros b B. assert (X : nth_error t (S (length t - 1)) <> None) by congruence.
      apply nth_error_Some in X. lia. }
  intros t f g r I E A B. rewrite (K t f r I E A), (K t g r I E B). reflexivity.
Qed.
Lemma shorter_wavelengths : forall t f g r, increasing t -> nth_error t 0 = Some r ->
  / f <= Wavelength r -> / g <= Wavelength r -> eps_at t f = eps_at t g.
Proof.
  assert (K : forall t f r, increasing t -> nth_error t 0 = Some r ->
              / f <= Wavelength r -> eps_at t f = Ok (index_squared r)).
  { intros t f r I E L. apply (row_chosen t f 0 r I E).
    - intros a P. lia.
    - intros b B. pose proof (I 0%nat r b E B). lra. }
  intros t f g r I E A B. rewrite (K t f r I E A), (K t g r I E B). reflexivity.
Qed.
Lemma shipped_beyond : forall name t f g r, In (name, t) shipped ->
  (nth_error t (length t - 1) = Some r /\ Wavelength r <= / f /\ Wavelength r <= / g) \/
  (nth_error t 0 = Some r /\ / f <= Wavelength r /\ / g <= Wavelength r) ->
  eps_at t f = eps_at t g.
Proof.
  intros name t f g r H [[E [A B]]|[E [A B]]]; pose proof (proj2 (shipped_increasing _ _ H)) as I.
  - exact (longer_wavelengths t f g r I E A B).
  - exact (shorter_wavelengths t f g r I E A B).
Qed.
Definition covers (ls : list line) : bool :=
  existsb (fun l => Qle_bool (l_w l) (1 # 1)) ls && existsb (fun l => Qle_bool (30 # 1) (l_w l)) ls.
Lemma shipped_cover : forall name t, In (name, t) shipped ->
  ((exists a b, In a t /\ In b t /\ Wavelength a <= 1 /\ 30 <= Wavelength b) <->
   In name ["aluminium_oxide"; "tantalum_pentoxide"; "titanium_oxide"; "zinc_oxide"]%string).
Proof.
  intros name t H. destruct (shipped_split _ _ H) as [ls [I ->]].
  assert (C : forallb (fun f => Bool.eqb (covers (snd f))
     (existsb (String.eqb (fst f)) ["aluminium_oxide"; "tantalum_pentoxide"; "titanium_oxide"; "zinc_oxide"]%string)) shipped_lines = true)
    by (vm_compute; reflexivity).
  rewrite forallb_forall in C. specialize (C _ I). apply eqb_prop in C. cbn [fst snd] in C.
  assert (E1 : Q2R (1 # 1) = 1) by (rewrite Q2R_num; lra).
  assert (E30 : Q2R (30 # 1) = 30) by (rewrite Q2R_num; lra).
  assert (X : covers ls = true <-> exists a b, In a (map row_of ls) /\ In b (map row_of ls) /\ Wavelength a <= 1 /\ 30 <= Wavelength b).
  { unfold covers. rewrite andb_true_iff, !existsb_exists. split.
    - intros [[a [A A']] [b [B B']]]. exists (row_of a), (row_of b).
      split; [apply in_map; exact A|split; [apply in_map; exact B|]].
      rewrite (proj1 (row_parts a)), (proj1 (row_parts b)). apply qle_R in A'. apply qle_R in B'. lra.
    - intros [a [b [A [B [A' B']]]]]. apply in_map_iff in A. apply in_map_iff in B.
      destruct A as [x [<- A]]. destruct B as [y [<- B]].
      rewrite (proj1 (row_parts x)) in A'. rewrite (proj1 (row_parts y)) in B'.
      split; [exists x|exists y]; (split; [assumption|]); apply Qle_bool_iff; apply Rle_Qle; lra. }
  rewrite <- X, C, existsb_exists. split.
  - intros [x [J K]]. apply String.eqb_eq in K. subst x. exact J.
  - intro J. exists name. split; [exact J|apply String.eqb_refl].
Qed.
Lemma shipped_dielectric : forall name t f e, In (name, t) shipped ->
  name = "germanium"%string \/ name = "silicon_nitride"%string -> eps_at t f = Ok e -> 0 < Re e.
Proof.
  intros name t f e H N E. destruct (shipped_split _ _ H) as [ls [I ->]].
  assert (C : forallb (fun f => negb (String.eqb (fst f) "germanium" || String.eqb (fst f) "silicon_nitride")
                || forallb (fun l => qlt 0 (l_re l)) (snd f)) shipped_lines = true)
    by (vm_compute; reflexivity).
  rewrite forallb_forall in C. specialize (C _ I). cbn [fst snd] in C. apply orb_true_iff in C.
  destruct C as [C|C].
  { exfalso. destruct N as [-> | ->]; discriminate C. }
  destruct (chosen_in _ _ _ E) as [r [J ->]]. apply in_map_iff in J. destruct J as [l [<- J]].
  rewrite forallb_forall in C. specialize (C _ J). apply qlt_R in C. rewrite RMicromega.Q2R_0 in C.
  rewrite row_square. exact C.
Qed.

(** * The collection and the solvers *)
Lemma shipped_collection : forall files freqs skip, Permutation files shipped ->
  (2 <= length freqs)%nat -> (2 <= length (kept files skip))%nat ->
  exists mc, MaterialCollection files freqs skip = Ok mc /\
  forall name table, In (name, table) shipped -> ~ In name skip ->
    exists es, mc_getitem mc name = Ok (T1 es) /\ length es = length freqs /\
      forall i f, nth_error freqs i = Some f -> exists e, nth_error es i = Some e /\ eps_at table f = Ok e.
Proof.
  intros files freqs skip P F K.
  destruct (lookup_normal files freqs skip F) as [mc [M L]].
  - apply (Permutation_NoDup (l := map fst shipped)); [|exact shipped_nodup].
    apply Permutation_map. apply Permutation_sym. exact P.
  - intros [n t] I. apply (Permutation_in _ P) in I. exact (proj1 (shipped_increasing _ _ I)).
  - exact K.
  - exists mc. split; [exact M|]. intros name table I. apply L. apply (Permutation_in _ (Permutation_sym P)). exact I.
Qed.
