(** Proofs about the folders of saved simulations and about videos. *)
From Coq Require Import DecimalString DecimalNat DecimalFacts Decimal.
From Coq Require Import Reals String Ascii List Bool Arith Lia ZArith.
From Verif Require Import Base BaseLemmas Model_Units Model_FDTD Model_Register Model_Runs Model_Output Spec_FDTD Spec_Register Spec_Runs Spec_Output
  Proof_Reset Proof_Runs Proof_Register Proof_Register2 Proof_PML Proof_Output.
Import ListNotations.
Open Scope nat_scope.
Open Scope string_scope.

(** * Decimal numbers *)
Lemma dec_inj n m : dec n = dec m -> n = m.
Proof.
  assert (K : forall d, exists d', NilZero.uint_of_string (NilZero.string_of_uint d) = Some d' /\ Nat.of_uint d' = Nat.of_uint d).
  { intros d. destruct d; [exists Decimal.zero; split; reflexivity|..]; (eexists; split; [apply NilZero.usu; discriminate|reflexivity]). }
  unfold dec. intros H. destruct (K (Nat.to_uint n)) as (a & A & A'), (K (Nat.to_uint m)) as (b & B & B').
  rewrite H, B in A. inversion A; subst. rewrite DecimalNat.Unsigned.of_to in A', B'. congruence.
Qed.
Definition is_digit (c : ascii) : bool := existsb (Ascii.eqb c) ["0"; "1"; "2"; "3"; "4"; "5"; "6"; "7"; "8"; "9"]%char.
Fixpoint digits (s : string) : bool := match s with "" => true | String c r => is_digit c && digits r end.
Lemma dec_digits n : digits (dec n) = true.
Proof.
  unfold dec. generalize (Nat.to_uint n) as d.
  assert (K : forall d, digits (NilEmpty.string_of_uint d) = true) by (induction d; cbn [NilEmpty.string_of_uint digits]; rewrite ?IHd; reflexivity).
  intros d. destruct d; [reflexivity|..]; apply K.
Qed.
Definition no_digit_first (s : string) : bool := match s with "" => true | String c _ => negb (is_digit c) end.
Lemma digits_split a : forall b x y, digits a = true -> digits b = true -> no_digit_first x = true -> no_digit_first y = true ->
  a ++ x = b ++ y -> a = b /\ x = y.
Proof.
  induction a as [|c a IH]; intros [|d b] x y Ha Hb Hx Hy E; cbn in *.
  - auto.
  - subst x. cbn in Hx. apply andb_prop in Hb as [Hb _]. rewrite Hb in Hx. discriminate.
  - subst y. cbn in Hy. apply andb_prop in Ha as [Ha _]. rewrite Ha in Hy. discriminate.
  - injection E as -> E. apply andb_prop in Ha as [_ Ha], Hb as [_ Hb]. destruct (IH b x y Ha Hb Hx Hy E) as [-> ->]. auto.
Qed.
Lemma dec_split n m x y : no_digit_first x = true -> no_digit_first y = true -> dec n ++ x = dec m ++ y -> n = m /\ x = y.
Proof. intros Hx Hy E. apply digits_split in E as [E F]; auto using dec_digits. split; [apply dec_inj, E|exact F]. Qed.
Lemma dec_slash n : slashless (dec n).
Proof.
  pose proof (dec_digits n) as H. revert H. generalize (dec n) as s. induction s as [|c s IH]; intros H; [apply slashless_empty|].
  cbn in H. apply andb_prop in H as [H1 H2]. apply slashless_cons. split; [intros ->; discriminate H1|apply IH, H2].
Qed.

(** * Folders *)
Definition suffix_of (n : option string) : string := match n with None => "" | Some n => " (" ++ n ++ ")" end.
Lemma full_steady n now t : steady now t -> "fdtd_output_" ++ full_name n now = hd "" (run_place [] n t).
Proof.
  intros H. unfold full_name, stamp, run_place. rewrite !H by lia. cbn [hd]. destruct n as [n|]; rewrite ?string_app_assoc, ?string_app_nil; reflexivity.
Qed.
Lemma suffix_first n : no_digit_first (suffix_of n) = true.
Proof. destruct n; reflexivity. Qed.
Lemma suffix_inj n m : suffix_of n = suffix_of m -> n = m.
Proof.
  destruct n as [n|], m as [m|]; cbn; try discriminate; [|reflexivity]. intros E. injection E as E. apply string_app_inj in E as [-> _]; reflexivity.
Qed.
Lemma place_inj cwd cwd' n n' t t' : run_place cwd n t = run_place cwd' n' t' <-> cwd = cwd' /\ t = t' /\ n = n'.
Proof.
  split; [|intros (-> & -> & ->); reflexivity]. unfold run_place. intros E. injection E as E Ec. split; [exact Ec|].
  fold (suffix_of n) (suffix_of n') in E. cbn [append] in E.
  apply dec_split in E as [E1 E]; [|reflexivity..]. injection E as E. apply dec_split in E as [E2 E]; [|reflexivity..]. injection E as E.
  apply dec_split in E as [E3 E]; [|reflexivity..]. injection E as E. apply dec_split in E as [E4 E]; [|reflexivity..]. injection E as E.
  apply dec_split in E as [E5 E]; [|reflexivity..]. injection E as E. apply dec_split in E as [E6 E]; [|apply suffix_first..].
  apply suffix_inj in E. split; [|exact E]. destruct t, t'; cbn in *; congruence.
Qed.
Ltac sl := repeat (apply slashless_cons; split; [discriminate|]); apply slashless_empty.
Lemma stamp_slash now : slashless (stamp now).
Proof. unfold stamp. repeat (apply slashless_app; [first [apply dec_slash | sl]|]). apply dec_slash. Qed.
Lemma full_slash n now : slashless_name n -> slashless (full_name n now).
Proof.
  intros H. unfold full_name. destruct n as [n|]; [|apply stamp_slash]. apply slashless_app; [apply stamp_slash|].
  apply slashless_app; [sl|]. apply slashless_app; [exact (H n eq_refl)|sl].
Qed.
Lemma folder_of cwd full : slashless full -> sim_folder cwd full = ("fdtd_output_" ++ full) :: "fdtd_output" :: cwd.
Proof.
  intros H. unfold sim_folder. change ("fdtd_output/" ++ "fdtd_output_" ++ full) with ("fdtd_output" ++ "/" ++ ("fdtd_output_" ++ full)).
  rewrite parts_app, (parts_slashless ("fdtd_output_" ++ full)); [reflexivity|]. apply slashless_app; [sl|exact H].
Qed.
Lemma folder_steady cwd n now t : slashless_name n -> steady now t -> sim_folder cwd (full_name n now) = run_place cwd n t.
Proof. intros H S. rewrite folder_of by (apply full_slash, H). rewrite (full_steady n now t S). reflexivity. Qed.

(** [makedirs] along folders that exist *)
Lemma is_dot_proper c : c <> "" -> c <> "." -> is_dot c = false.
Proof. intros A B. unfold is_dot. destruct (String.eqb_spec c ""); [contradiction|]. destruct (String.eqb_spec c "."); [contradiction|reflexivity]. Qed.
Lemma proper_tests c : c <> "" /\ c <> "." /\ c <> ".." -> is_dot c = false /\ String.eqb c ".." = false.
Proof. intros (A & B & C). split; [apply is_dot_proper; assumption|]. destruct (String.eqb_spec c ".."); [contradiction|reflexivity]. Qed.
Lemma mkdirs_through cs : forall (fs : files stored) pos rest, named_place cs -> (forall a b, cs = (a ++ b)%list -> a <> [] -> fs (rev a ++ pos)%list = Some Dir) ->
  mkdirs fs pos (cs ++ rest)%list = mkdirs fs (rev cs ++ pos)%list rest.
Proof.
  induction cs as [|c cs IH]; intros fs pos rest NP FE; [reflexivity|].
  cbn [app mkdirs rev]. destruct (proper_tests c (NP c (or_introl eq_refl))) as [-> ->].
  pose proof (FE [c] cs eq_refl ltac:(discriminate)) as D. cbn in D. rewrite D.
  rewrite IH; [rewrite <- app_assoc; reflexivity|intros d Hd; apply NP; right; exact Hd|].
  intros a b E NA. pose proof (FE (c :: a) b) as F. cbn [rev app] in F. rewrite <- app_assoc in F. cbn [app] in F. apply F; [rewrite E; reflexivity|discriminate].
Qed.
Lemma folders_rev fs p : folders_exist fs p -> forall a b, rev p = (a ++ b)%list -> a <> [] -> fs (rev a ++ [])%list = Some Dir.
Proof.
  intros F a b E NA. rewrite List.app_nil_r. apply (F (rev b)).
  - rewrite <- (rev_involutive p), E, rev_app_distr. reflexivity.
  - intros H. apply NA. rewrite <- (rev_involutive a), H. reflexivity.
Qed.
Lemma named_rev p : named_place p -> named_place (rev p).
Proof. intros H c Hc. apply H. apply in_rev. exact Hc. Qed.

(** [save_simulation] *)
Lemma simulation_saved n now s : slashless_name n -> named_place (ss_cwd s) -> folders_exist (ss_files s) (ss_cwd s) ->
  let folder := ("fdtd_output_" ++ full_name n now) :: "fdtd_output" :: ss_cwd s in
  let s' := fst (save_simulation n now s) in
  (snd (save_simulation n now s) = None <-> ~ a_file (ss_files s) ("fdtd_output" :: ss_cwd s) /\ ~ a_file (ss_files s) folder)
  /\ (snd (save_simulation n now s) <> None -> snd (save_simulation n now s) = Some FileError)
  /\ (snd (save_simulation n now s) = None -> ss_folder s' = Some folder /\ ss_files s' folder = Some Dir /\ ss_files s' ("fdtd_output" :: ss_cwd s) = Some Dir
      /\ forall p, p <> folder -> p <> "fdtd_output" :: ss_cwd s -> ss_files s' p = ss_files s p)
  /\ (forall p, ss_files s p <> None -> ss_files s' p = ss_files s p)
  /\ ss_cwd s' = ss_cwd s /\ ss_dets s' = ss_dets s /\ g_detectors (ss_grid s') = g_detectors (ss_grid s).
Proof.
  intros HN NP FE folder s'. subst s'. unfold save_simulation. rewrite (folder_of _ _ (full_slash n now HN)). fold folder.
  set (out := "fdtd_output" :: ss_cwd s) in *. cbn [mkdirs is_dot]. change (is_dot "fdtd_output") with false. change (String.eqb "fdtd_output" "..") with false. cbv iota. fold out.
  assert (OD : forall p q : place, p = out -> q = folder -> p <> q).
  { intros p q -> -> E. apply (f_equal (@length string)) in E. cbn in E. lia. }
  assert (TH : forall fs : files stored, (forall p, ss_files s p = Some Dir -> fs p = Some Dir) -> fs out = Some Dir ->
    mkdirs fs [] (rev folder) = match fs folder with Some Dir => (fs, true) | Some (File _) => (fs, false) | None => (put folder Dir fs, true) end).
  { intros fs K O. unfold folder. cbn [rev]. rewrite mkdirs_through.
    - rewrite rev_involutive, List.app_nil_r. cbn [mkdirs]. fold folder.
      assert (PT : is_dot ("fdtd_output_" ++ full_name n now) = false /\ String.eqb ("fdtd_output_" ++ full_name n now) ".." = false).
      { apply proper_tests. repeat split; discriminate. }
      destruct PT as [-> ->]. destruct (fs folder) as [[|v]|]; reflexivity.
    - apply named_rev. intros c [<-|Hc]; [repeat split; discriminate|apply NP, Hc].
    - intros a b E NA. apply (folders_rev fs out) with (b := b); [|exact E|exact NA].
      intros a' b' E' NB. unfold out in E'. destruct a' as [|x a']; [cbn in E'; rewrite <- E'; exact O|]. injection E' as _ E'. apply K. apply (FE a'); assumption. }
  destruct (ss_files s out) as [[|v]|] eqn:O; cbn [negb].
  - rewrite (TH (ss_files s)) by auto. destruct (ss_files s folder) as [[|v]|] eqn:F; cbn.
    + split; [split; [intros _; unfold a_file; rewrite O, F; split; intros [v H]; discriminate|auto]|]. split; [congruence|].
      split; [intros _; rewrite F, O; auto|]. auto.
    + split; [split; [discriminate|intros [_ H]; exfalso; apply H; exists v; exact F]|]. split; [auto|]. split; [discriminate|]. auto.
    + split; [split; [intros _; unfold a_file; rewrite O, F; split; intros [v H]; discriminate|auto]|]. split; [congruence|].
      split; [intros _; unfold put; split; [reflexivity|]; destruct (place_eqb_spec folder folder); [|contradiction]; split; [reflexivity|];
        destruct (place_eqb_spec out folder) as [E|]; [exfalso; exact (OD _ _ eq_refl eq_refl E)|]; split; [exact O|];
        intros p P1 P2; destruct (place_eqb_spec p folder); [contradiction|reflexivity]|].
      split; [|auto]. intros p HP. unfold put. destruct (place_eqb_spec p folder) as [->|]; [congruence|reflexivity].
  - cbn. split; [split; [discriminate|intros [H _]; exfalso; apply H; exists v; exact O]|]. split; [auto|]. split; [discriminate|]. auto.
  - rewrite (TH (put out Dir (ss_files s))).
    + assert (PF : put out Dir (ss_files s) folder = ss_files s folder).
      { unfold put. destruct (place_eqb_spec folder out) as [E|]; [exfalso; exact (OD _ _ eq_refl eq_refl (eq_sym E))|reflexivity]. }
      rewrite PF. assert (PO : put out Dir (ss_files s) out = Some Dir) by (unfold put; destruct (place_eqb_spec out out); congruence).
      destruct (ss_files s folder) as [[|v]|] eqn:F; cbn [fst snd ss_folder ss_files ss_cwd ss_dets ss_grid set_attr g_detectors].
      * split; [split; [intros _; unfold a_file; rewrite O, F; split; intros [v H]; discriminate|auto]|]. split; [congruence|].
        split; [intros _; rewrite PF, PO; repeat split; auto; intros p P1 P2; unfold put; destruct (place_eqb_spec p out); [contradiction|reflexivity]|].
        split; [|auto]. intros p HP. unfold put. destruct (place_eqb_spec p out) as [->|]; [congruence|reflexivity].
      * split; [split; [discriminate|intros [_ H]; exfalso; apply H; exists v; exact F]|]. split; [auto|]. split; [discriminate|].
        split; [|auto]. intros p HP. unfold put. destruct (place_eqb_spec p out) as [->|]; [congruence|reflexivity].
      * split; [split; [intros _; unfold a_file; rewrite O, F; split; intros [v H]; discriminate|auto]|]. split; [congruence|].
        split; [intros _; split; [reflexivity|]; unfold put at 1; destruct (place_eqb_spec folder folder); [|contradiction]; split; [reflexivity|];
          unfold put at 1; destruct (place_eqb_spec out folder) as [E|]; [exfalso; exact (OD _ _ eq_refl eq_refl E)|]; split; [exact PO|];
          intros p P1 P2; unfold put; destruct (place_eqb_spec p folder); [contradiction|]; destruct (place_eqb_spec p out); [contradiction|reflexivity]|].
        split; [|auto]. intros p HP. unfold put. destruct (place_eqb_spec p folder) as [->|]; [congruence|]. destruct (place_eqb_spec p out) as [->|]; [congruence|reflexivity].
    + intros p HP. unfold put. destruct (place_eqb_spec p out); [reflexivity|exact HP].
    + unfold put. destruct (place_eqb_spec out out); [reflexivity|contradiction].
Qed.

(** * Failures of [save_data] *)
Lemma no_folder s : ss_folder s = None -> save_data s = (s, Some (Raised PlainException)) /\ forall d how, generate_video d how s = (s, Some (Raised PlainException)).
Proof. intros H. unfold save_data, generate_video. rewrite H. auto. Qed.
Lemma combine_split {A B} (l : list A) : forall (m : list B) a x b, length l = length m -> combine l m = (a ++ x :: b)%list ->
  exists a' b', l = (a' ++ fst x :: b')%list /\ map fst a = a'.
Proof.
  intros m a x b L E. exists (map fst a), (map fst b). split; [|reflexivity]. rewrite <- (combine_fst l m L), E, map_app. reflexivity.
Qed.
Lemma data_refused s e folder : length (ss_dets s) = length (g_detectors (ss_grid s)) -> ss_folder s = Some folder ->
  (snd (save_data s) = Some (Raised e) <-> exists a x b, ss_dets s = (a ++ x :: b)%list /\ Forall storable a /\ stumbles x e)
  /\ (snd (save_data s) <> None -> fst (save_data s) = s).
Proof.
  intros L FO. unfold save_data. rewrite FO. set (l := combine (ss_dets s) (g_detectors (ss_grid s))).
  assert (CF : map fst l = ss_dets s) by (apply combine_fst, L).
  assert (K : forall e, collect l [] = Err e <-> exists a x b, ss_dets s = (a ++ x :: b)%list /\ Forall storable a /\ stumbles x e).
  { intros e'. rewrite collect_fails. split.
    - intros (a & x & b & E & F & S). exists (map fst a), (fst x), (map fst b). split; [rewrite <- CF, E, map_app; reflexivity|]. split; [|exact S].
      apply Forall_map, F.
    - intros (a & x & b & E & F & S). rewrite <- CF in E. apply map_eq_app in E as (l1 & l2 & E & M1 & M2). destruct l2 as [|y l2]; [discriminate|].
      cbn in M2. inversion M2; subst. exists l1, y, l2. split; [exact E|]. split; [exact (proj1 (Forall_map _ _ _) F)|exact S]. }
  destruct (collect l []) as [dic|e'] eqn:C.
  - split.
    + rewrite <- K. split; [|discriminate]. destruct (ss_files s folder) as [[|]|]; [destruct (ss_files s _) as [[|]|]|..]; discriminate.
    + destruct (ss_files s folder) as [[|]|]; [destruct (ss_files s _) as [[|]|]|..]; cbn; congruence.
  - cbn. split; [|auto]. rewrite <- (K e). split; congruence.
Qed.

(** * A rejected detector *)
Lemma collect_snoc l n k d : forall dic dic', collect l dic = Ok dic' -> k <> DCurrent ->
  collect (l ++ [((Some n, k), d)]) dic = Ok (dict_set (n ++ " (H)") (records_H d) (dict_set (n ++ " (E)") (records_E d) dic')).
Proof.
  induction l as [|[[nm k'] d'] l IH]; intros dic dic' H NC; cbn [app collect] in *.
  - inversion H; subst. destruct k; try contradiction; reflexivity.
  - destruct k'; [destruct nm as [m|]; [|discriminate]..|destruct nm; discriminate]; apply IH; assumption.
Qed.
Lemma twin_erases s key k n s' e folder : length (ss_dets s) = length (g_detectors (ss_grid s)) -> Forall storable (ss_dets s) ->
  k <> DCurrent -> perform (Assign key (CDetector k (Some n))) s = Some (s', Some (Raised e)) -> (exists x, pad_key key = Ok x) ->
  ss_folder s = Some folder -> ss_files s folder = Some Dir -> ss_files s ("detector_readings.npz" :: folder) <> Some Dir ->
  exists s'' r, save_data s' = (s'', None) /\ ss_files s'' ("detector_readings.npz" :: folder) = Some (File (Some (Readings r)))
    /\ array r (n ++ " (E)") = Some [] /\ array r (n ++ " (H)") = Some [].
Proof.
  intros L F KC P [[[x y] z] PK] FO D1 D2. cbn [perform] in P. unfold setitem, appended in P. rewrite PK in P. cbn [register] in P.
  assert (U : exists g', register_detector k (Some n) (handle_key (g_spacing (ss_grid s)) x) (handle_key (g_spacing (ss_grid s)) y) (handle_key (g_spacing (ss_grid s)) z) (ss_grid s) = (g', Some e)
    /\ g_detectors g' = (g_detectors (ss_grid s) ++ [UnplacedDetector])%list /\ s' = with_grid g' (ss_dets s ++ [(Some n, k)])%list s).
  { destruct (register_detector k (Some n) _ _ _ (ss_grid s)) as [g' r] eqn:E. inversion P as [[H0 H1]]. clear P. destruct r as [e'|]; [|discriminate]. cbn in H1. inversion H1; subst e'. clear H1.
    exists g'. split; [reflexivity|]. split; [|reflexivity]. unfold register_detector in E. destruct (claim_name (Some n) (ss_grid s)) as [g1|] eqn:C.
    - apply claim_detectors in C. destruct (match k with DLine => _ | _ => _ end) in E; inversion E; subst. cbn. rewrite C. reflexivity.
    - inversion E; subst. reflexivity. }
  destruct U as (g' & _ & DG & ->). clear P.
  assert (CC : exists dic, collect (combine (ss_dets s) (g_detectors (ss_grid s))) [] = Ok dic).
  { destruct (collect (combine (ss_dets s) (g_detectors (ss_grid s))) []) as [dic|e'] eqn:C; [eauto|]. exfalso.
    apply collect_fails in C as (a & w & b & E & _ & S). apply (Forall_combine storable _ (g_detectors (ss_grid s))) in F. rewrite E in F.
    apply Forall_app in F as [_ F]. inversion F as [|? ? [F1 F2] _]; subst. destruct S as [[S _]|(_ & S & _)]; contradiction. }
  destruct CC as [dic CC]. unfold save_data. cbn [with_grid ss_folder ss_dets ss_grid ss_files ss_sim ss_cwd]. rewrite FO, DG.
  assert (CA : combine (ss_dets s ++ [(Some n, k)]) (g_detectors (ss_grid s) ++ [UnplacedDetector]) = (combine (ss_dets s) (g_detectors (ss_grid s)) ++ [((Some n, k), UnplacedDetector)])%list).
  { revert L. generalize (ss_dets s) (g_detectors (ss_grid s)). clear. induction l as [|a l IH]; intros [|b m] L; cbn in *; try discriminate; [reflexivity|]. rewrite IH by lia. reflexivity. }
  rewrite CA, (collect_snoc _ n k UnplacedDetector [] dic CC KC). rewrite D1. cbn [records_E records_H].
  eexists. exists (dict_set (n ++ " (H)") [] (dict_set (n ++ " (E)") [] dic)).
  split; [destruct (ss_files s ("detector_readings.npz" :: folder)) as [[|]|]; try contradiction; reflexivity|].
  cbn [ss_files]. unfold put. destruct (place_eqb_spec ("detector_readings.npz" :: folder) ("detector_readings.npz" :: folder)); [|contradiction].
  split; [reflexivity|]. split; [|apply dict_set_same]. rewrite dict_set_other by apply suffix_EH. apply dict_set_same.
Qed.

(** * Readings of the clock *)
Lemma rollover : exists now now' : nat -> time,
  (forall i j, i <= j < 6 -> moment (now i) <= moment (now j) <= moment (now i) + 1) /\
  (forall i j, i <= j < 6 -> moment (now' i) <= moment (now' j) <= moment (now' i) + 1) /\
  moment (now 5) + 3000 <= moment (now' 0) /\ forall cwd n, sim_folder cwd (full_name n now) = sim_folder cwd (full_name n now').
Proof.
  set (a := mkTime 2022 11 2 10 0 0). set (b := mkTime 2022 11 2 10 59 59). set (c := mkTime 2022 11 2 11 0 0).
  exists (fun _ => a), (fun i => if (i <? 4)%nat then b else c). split; [intros; lia|]. split.
  - intros i j H. assert (B : moment b + 1 = moment c) by (unfold moment, b, c; cbn [second minute hour day month year]; lia). destruct (Nat.ltb_spec i 4), (Nat.ltb_spec j 4); lia.
  - split; [change (0 <? 4)%nat with true; cbv iota beta; unfold moment, a, b; cbn [second minute hour day month year]; lia|]. intros cwd n. assert (E : stamp (fun _ => a) = stamp (fun i => if (i <? 4)%nat then b else c)) by reflexivity.
    unfold full_name. rewrite E. reflexivity.
Qed.

(** * Videos *)
Lemma ends_png_spec c : ends_png c = true <-> exists a, c = a ++ ".png".
Proof.
  unfold ends_png. split.
  - intros H. apply andb_prop in H as [L H]. apply Nat.leb_le in L. apply String.eqb_eq in H. exists (substring 0 (String.length c - 4) c).
    rewrite <- H. remember (String.length c - 4) as m. assert (LM : String.length c = m + 4) by lia. clear - LM. revert c LM.
    induction m as [|m IH]; intros c LM; [cbn [substring append]; destruct c as [|c1 [|c2 [|c3 [|c4 [|]]]]]; cbn in LM; try lia; reflexivity|].
    destruct c as [|c0 c]; [discriminate|]. cbn in LM. cbn [substring append]. f_equal. apply IH. lia.
  - intros [a ->]. rewrite string_app_length. cbn [String.length]. apply andb_true_intro. split; [apply Nat.leb_le; lia|].
    replace (String.length a + 4 - 4) with (String.length a) by lia. apply String.eqb_eq. induction a as [|x a IH]; [reflexivity|exact IH].
Qed.
Lemma prefix_dot c : String.prefix "." c = true <-> exists b, c = "." ++ b.
Proof.
  split.
  - destruct c as [|x c]; [discriminate|]. cbn [String.prefix]. destruct (ascii_dec "." x) as [<-|]; [intros _; exists c; reflexivity|discriminate].
  - intros [b ->]. destruct b; reflexivity.
Qed.
Lemma frame_spec folder p : is_frame folder p = true <-> image_in folder p.
Proof.
  unfold is_frame, image_in. split.
  - destruct p as [|c q]; [discriminate|]. intros H. apply andb_prop in H as [H H3]. apply andb_prop in H as [H1 H2].
    destruct (place_eqb_spec q folder) as [Q|]; [rewrite Q|discriminate]. apply ends_png_spec in H2 as [a ->]. exists a. split; [reflexivity|].
    intros b E. assert (X : String.prefix "." (a ++ ".png") = true) by (apply prefix_dot; eauto). rewrite X in H3. discriminate.
  - intros (a & -> & N). destruct (place_eqb_spec folder folder); [|contradiction]. rewrite (proj2 (ends_png_spec (a ++ ".png"))) by eauto.
    destruct (String.prefix "." (a ++ ".png")) eqn:P; [|reflexivity]. apply prefix_dot in P as [b P]. exfalso. exact (N b P).
Qed.
Lemma video_made s folder d n now : ss_folder s = Some folder -> ss_files s folder = Some Dir -> slashless_name n -> ss_sim s = full_name n now ->
  let video := ("fdtd_sim_video_" ++ full_name n now ++ ".mp4") :: folder in
  exists s', generate_video d Writes s = (s', None) /\ ss_cwd s' = ss_cwd s /\ ss_folder s' = ss_folder s /\ ss_grid s' = ss_grid s /\ ss_dets s' = ss_dets s
  /\ ss_files s' video = Some (File (Some Video))
  /\ forall p, p <> video -> (image_in folder p /\ d = true -> ss_files s' p = None) /\ (~ (image_in folder p /\ d = true) -> ss_files s' p = ss_files s p).
Proof.
  intros FO D HN SN video. unfold generate_video. rewrite FO, D. eexists. split; [reflexivity|]. cbn [ss_cwd ss_folder ss_grid ss_dets ss_files].
  repeat (split; [reflexivity|]).
  assert (V : absolute folder (parts ("fdtd_sim_video_" ++ ss_sim s ++ ".mp4")) = video).
  { rewrite SN, parts_slashless; [reflexivity|]. apply slashless_app; [sl|]. apply slashless_app; [apply full_slash, HN|sl]. }
  rewrite V.
  assert (NV : is_frame folder video = false).
  { destruct (is_frame folder video) eqn:E; [|reflexivity]. apply frame_spec in E as (a & E & _).
    assert (X : ("fdtd_sim_video_" ++ full_name n now) ++ ".mp4" = a ++ ".png") by (rewrite string_app_assoc; exact (f_equal (hd "") E)). apply string_app_inj in X as [_ X]; [discriminate|reflexivity]. }
  destruct d; cbv iota beta.
  - rewrite NV. split; [unfold put; destruct (place_eqb_spec video video); congruence|]. intros p NP. split.
    + intros [I _]. apply frame_spec in I. rewrite I. reflexivity.
    + intros I. destruct (is_frame folder p) eqn:E; [exfalso; apply I; split; [apply frame_spec, E|reflexivity]|].
      unfold put. destruct (place_eqb_spec p video); [contradiction|reflexivity].
  - split; [unfold put; destruct (place_eqb_spec video video); congruence|]. intros p NP. split; [intros [_ I]; discriminate|]. intros _.
    unfold put. destruct (place_eqb_spec p video); [contradiction|reflexivity].
Qed.
Lemma video_fails s folder d how : ss_folder s = Some folder -> ss_files s folder = Some Dir -> how <> Writes ->
  exists s', generate_video d how s = (s', Some (Raised TypeError)) /\ ss_cwd s' = folder /\ ss_files s' = ss_files s /\ ss_folder s' = ss_folder s
  /\ forall n now s2, slashless_name n -> save_simulation n now s' = (s2, None) ->
     ss_folder s2 = Some (("fdtd_output_" ++ full_name n now) :: "fdtd_output" :: folder).
Proof.
  intros FO D NW. unfold generate_video. rewrite FO, D. eexists. split; [destruct how; try contradiction; reflexivity|].
  cbn [ss_cwd ss_files ss_folder]. repeat (split; [reflexivity || exact FO|]).
  intros n now s2 HN. unfold save_simulation. cbn [ss_cwd ss_files].
  destruct (mkdirs (ss_files s) folder ["fdtd_output"]) as [fs1 [|]]; cbn [negb]; [|discriminate].
  rewrite (folder_of _ _ (full_slash n now HN)). destruct (mkdirs fs1 [] _) as [fs2 [|]]; intros H; inversion H. reflexivity.
Qed.

(** * Readings survive *)
Lemma absolute_last cs : forall pos c, is_dot c = false -> String.eqb c ".." = false -> absolute pos (cs ++ [c]) = c :: absolute pos cs.
Proof.
  induction cs as [|a cs IH]; intros pos c D1 D2; cbn [app absolute]; [rewrite D1, D2; reflexivity|].
  destruct (is_dot a); [apply IH; assumption|]. destruct (String.eqb a ".."); apply IH; assumption.
Qed.
Lemma video_place folder x : exists b q, absolute folder (parts ("fdtd_sim_video_" ++ x ++ ".mp4")) = (b ++ ".mp4") :: q.
Proof.
  destruct (last_part ("fdtd_sim_video_" ++ x) ".mp4") as [b B]; [sl|]. rewrite string_app_assoc in B.
  exists b. set (y := "fdtd_sim_video_" ++ x ++ ".mp4") in *. rewrite (app_removelast_last "" (parts_nonempty y)), B.
  assert (LB : 4 <= String.length (b ++ ".mp4")) by (rewrite string_app_length; cbn; lia).
  eexists. apply absolute_last.
  - unfold is_dot. destruct (String.eqb_spec (b ++ ".mp4") ""); [rewrite e in LB; cbn in LB; lia|]. destruct (String.eqb_spec (b ++ ".mp4") "."); [rewrite e in LB; cbn in LB; lia|reflexivity].
  - destruct (String.eqb_spec (b ++ ".mp4") ".."); [rewrite e in LB; cbn in LB; lia|reflexivity].
Qed.
Lemma readings_survive l : forall s s' folder v, ~ In SaveData l -> play l s = Some s' ->
  ss_files s ("detector_readings.npz" :: folder) = Some (File v) -> ss_files s' ("detector_readings.npz" :: folder) = Some (File v).
Proof.
  induction l as [|o l IH]; intros s s' folder v NI P H; cbn [play] in P; [inversion P; subst; exact H|].
  destruct (perform o s) as [[s1 e]|] eqn:PO; [|discriminate]. apply (IH s1 s' folder v); [intros X; apply NI; right; exact X|exact P|].
  destruct o as [key c|n| |nm now| |d how]; cbn [perform] in PO.
  - destruct (setitem key c (ss_grid s)). inversion PO; subst. exact H.
  - destruct (run_steps n (ss_grid s)); inversion PO; subst. exact H.
  - inversion PO; subst. exact H.
  - inversion PO as [H0]. unfold save_simulation in H0.
    pose proof (mkdirs_kept stored ["fdtd_output"] (ss_files s) (ss_cwd s) _ _ H) as K1.
    destruct (mkdirs (ss_files s) (ss_cwd s) ["fdtd_output"]) as [fs1 made]. cbn [fst] in K1. destruct (negb made); [inversion H0; subst; exact K1|].
    pose proof (mkdirs_kept stored (rev (sim_folder (ss_cwd s) (full_name nm now))) fs1 [] _ _ K1) as K2.
    destruct (mkdirs fs1 [] _) as [fs2 made2]. inversion H0; subst. exact K2.
  - exfalso. apply NI. left. reflexivity.
  - inversion PO as [H0]. unfold generate_video in H0. destruct (ss_folder s) as [fo|]; [|inversion H0; subst; exact H].
    destruct (ss_files s fo) as [[|w]|]; [|inversion H0; subst; exact H..].
    destruct how; [inversion H0; subst; exact H..|]. apply (f_equal fst) in H0. cbn [fst] in H0. rewrite <- H0. cbn [ss_files].
    destruct (video_place fo (ss_sim s)) as (b & q & ->).
    assert (NV : "detector_readings.npz" :: folder <> (b ++ ".mp4") :: q).
    { intros E. assert (X : "detector_readings" ++ ".npz" = b ++ ".mp4") by exact (f_equal (hd "") E). apply string_app_inj in X as [_ X]; [discriminate|reflexivity]. }
    assert (NF : is_frame fo ("detector_readings.npz" :: folder) = false).
    { destruct (is_frame fo ("detector_readings.npz" :: folder)) eqn:E; [|reflexivity]. apply frame_spec in E as (a & E & _).
      assert (X : "detector_readings" ++ ".npz" = a ++ ".png") by exact (f_equal (hd "") E). apply string_app_inj in X as [_ X]; [discriminate|reflexivity]. }
    destruct d; [rewrite NF|]; unfold put; destruct (place_eqb_spec ("detector_readings.npz" :: folder) ((b ++ ".mp4") :: q)); try contradiction; exact H.
Qed.

(** A name that leaves the folder of the simulations. *)
Lemma name_escapes cwd m now : slashless m -> sim_folder cwd (full_name (Some ("/../../" ++ m)) now) = (m ++ ")") :: cwd.
Proof.
  intros Sl. unfold sim_folder, full_name.
  replace ("fdtd_output/" ++ "fdtd_output_" ++ stamp now ++ " (" ++ ("/../../" ++ m) ++ ")")
    with ("fdtd_output" ++ "/" ++ ("fdtd_output_" ++ stamp now ++ " (") ++ "/" ++ ".." ++ "/" ++ ".." ++ "/" ++ (m ++ ")"))
    by (rewrite !string_app_assoc; reflexivity).
  rewrite !parts_app. rewrite (parts_slashless ("fdtd_output_" ++ stamp now ++ " (")) by (apply slashless_app; [sl|apply slashless_app; [apply stamp_slash|sl]]).
  rewrite (parts_slashless (m ++ ")")) by (apply slashless_app; [exact Sl|sl]).
  change (parts "fdtd_output") with ["fdtd_output"]. change (parts "..") with [".."]. cbn [app absolute].
  assert (Ld : forall s, s ++ ")" <> "" /\ s ++ ")" <> "." /\ s ++ ")" <> "..").
  { intros s. repeat split; destruct s as [|a [|b [|c s]]]; cbn; discriminate. }
  destruct (Ld m) as (L0 & L1 & L2).
  assert (E : is_dot (m ++ ")") = false) by (unfold is_dot; destruct (String.eqb_spec (m ++ ")") ""); [contradiction|]; destruct (String.eqb_spec (m ++ ")") "."); [contradiction|reflexivity]).
  assert (E2 : String.eqb (m ++ ")") ".." = false) by (destruct (String.eqb_spec (m ++ ")") ".."); [contradiction|reflexivity]).
  rewrite E, E2. change (is_dot "fdtd_output") with false. change (String.eqb "fdtd_output" "..") with false. cbv iota.
  change (is_dot ("fdtd_output_" ++ stamp now ++ " (")) with false. change (String.eqb ("fdtd_output_" ++ stamp now ++ " (") "..") with false. cbv iota.
  change (is_dot "..") with false. change (String.eqb ".." "..") with true. cbv iota. reflexivity.
Qed.
