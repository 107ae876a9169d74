(** Proofs about run files (C56). *)
From Coq Require Import String Ascii List Bool Arith Lia.
From Verif Require Import Base Model_Runs Spec_Runs.
Import ListNotations.
Open Scope string_scope.

Lemma string_app_assoc a b c : (a ++ b) ++ c = a ++ (b ++ c).
Proof. induction a as [|x a IH]; cbn; [reflexivity|]. rewrite IH. reflexivity. Qed.
Lemma string_app_nil a : a ++ "" = a.
Proof. induction a as [|x a IH]; cbn; [reflexivity|]. rewrite IH. reflexivity. Qed.
Lemma string_app_length a b : String.length (a ++ b) = (String.length a + String.length b)%nat.
Proof. induction a; cbn; [reflexivity|]. rewrite IHa. reflexivity. Qed.
Lemma string_app_inj a b e f : String.length e = String.length f -> a ++ e = b ++ f -> a = b /\ e = f.
Proof.
  revert b. induction a as [|x a IH]; intros [|y b] L E; cbn in E.
  - auto.
  - apply (f_equal String.length) in E. cbn in E. rewrite string_app_length in E. lia.
  - apply (f_equal String.length) in E. cbn in E. rewrite string_app_length in E. lia.
  - injection E as -> E. destruct (IH b L E) as [-> ->]. auto.
Qed.
Lemma string_app_inj_l a e f : a ++ e = a ++ f -> e = f.
Proof. induction a as [|x a IH]; cbn; [auto|]. intros H. injection H as H. auto. Qed.

(** * Parts of paths *)
Lemma parts_nonempty s : parts s <> [].
Proof. destruct s as [|c s]; cbn; [discriminate|]. destruct (Ascii.eqb c "/"); [discriminate|]. destruct (parts s); discriminate. Qed.
Lemma parts_app a b : parts (a ++ "/" ++ b) = (parts a ++ parts b)%list.
Proof.
  induction a as [|c a IH]; [reflexivity|]. cbn [append parts]. destruct (Ascii.eqb c "/").
  - cbn [append] in IH. rewrite IH. reflexivity.
  - cbn [append] in IH. rewrite IH. pose proof (parts_nonempty a). destruct (parts a) as [|w ws]; [congruence|reflexivity].
Qed.
Lemma slashless_cons c s : slashless (String c s) <-> c <> "/"%char /\ slashless s.
Proof.
  split.
  - intros H. split; [intros ->; apply H; exists "", s; reflexivity|]. intros [a [b ->]]. apply H. exists (String c a), b. reflexivity.
  - intros [N H] [a [b E]]. destruct a as [|x a]; cbn in E; [injection E as E _; congruence|]. injection E as -> E. apply H. exists a, b. exact E.
Qed.
Lemma slashless_empty : slashless "".
Proof. intros [a [b E]]. destruct a; discriminate. Qed.
Lemma slashless_app a b : slashless a -> slashless b -> slashless (a ++ b).
Proof.
  intros Ha Hb. induction a as [|c a IH]; [exact Hb|]. apply slashless_cons in Ha. destruct Ha as [N Ha].
  cbn [append]. apply slashless_cons. auto.
Qed.
Lemma parts_slashless s : slashless s -> parts s = [s].
Proof.
  induction s as [|c s IH]; [reflexivity|]. intros H. apply slashless_cons in H. destruct H as [N H]. cbn [parts].
  destruct (Ascii.eqb_spec c "/"); [contradiction|]. rewrite (IH H). reflexivity.
Qed.
Lemma last_part a e : slashless e -> exists b, last (parts (a ++ e)) "" = b ++ e.
Proof.
  intros He. induction a as [|c a IH].
  - cbn [append]. rewrite parts_slashless by exact He. exists "". reflexivity.
  - cbn [append parts]. destruct IH as [b IH]. pose proof (parts_nonempty (a ++ e)).
    destruct (parts (a ++ e)) as [|w ws] eqn:E; [congruence|]. destruct (Ascii.eqb c "/").
    + exists b. rewrite <- IH. reflexivity.
    + destruct ws as [|w' ws]; [cbn in *; exists (String c b); rewrite IH; reflexivity|].
      exists b. rewrite <- IH. reflexivity.
Qed.

Ltac sl := repeat (apply slashless_cons; split; [discriminate|]); apply slashless_empty.
Lemma slashless_run : slashless "_run.pk". Proof. sl. Qed.

Lemma run_not_dot c : ends_with c "_run.pk" -> is_dot c = false /\ String.eqb c ".." = false.
Proof.
  intros [a ->]. assert (L : (7 <= String.length (a ++ "_run.pk"))%nat) by (rewrite string_app_length; cbn; lia).
  unfold is_dot. repeat match goal with |- context [String.eqb ?x ?y] => destruct (String.eqb_spec x y) as [E|] end;
  try (rewrite E in L; cbn in L; lia); auto.
Qed.

Lemma file_name_last sub n t : ends_with (last (parts (file_name sub n t)) "") "_run.pk".
Proof.
  unfold file_name. rewrite <- !string_app_assoc. apply last_part, slashless_run.
Qed.

Lemma lead_app pos a b : lead pos (a ++ b) = lead (lead pos a) b.
Proof. revert pos. induction a as [|c a IH]; intros pos; cbn; [reflexivity|]. destruct (is_dot c), (String.eqb c ".."); apply IH. Qed.

Lemma target_split cwd sub n t :
  target cwd sub n t = last (parts (file_name sub n t)) "" :: lead cwd (removelast (parts (file_name sub n t))).
Proof.
  unfold target. rewrite (app_removelast_last "" (parts_nonempty (file_name sub n t))) at 1.
  rewrite lead_app. cbn [lead]. destruct (run_not_dot _ (file_name_last sub n t)) as [-> ->]. reflexivity.
Qed.

(** * Directories *)
Section fs.
Variable V : Type.
Implicit Types fs : files V.

Lemma place_eqb_spec p q : reflect (p = q) (place_eqb p q).
Proof. unfold place_eqb. destruct (list_eq_dec string_dec p q); constructor; auto. Qed.

Definition dirs_kept fs fs' : Prop := forall p, fs p = Some Dir -> fs' p = Some Dir.
Definition all_kept fs fs' : Prop := forall p n, fs p = Some n -> fs' p = Some n.
Lemma all_dirs fs fs' : all_kept fs fs' -> dirs_kept fs fs'.
Proof. intros H p. apply H. Qed.

Lemma walk_lead fs cs : forall pos q, walk fs pos cs = Some q -> q = lead pos cs.
Proof.
  induction cs as [|c cs IH]; intros pos q; cbn [walk lead]; [intros [= <-]; reflexivity|].
  destruct (is_dot c); [apply IH|]. destruct (String.eqb c ".."); [apply IH|].
  destruct (fs (c :: pos)) as [[|]|]; try discriminate. apply IH.
Qed.
Lemma walk_kept fs fs' cs : dirs_kept fs fs' -> forall pos q, walk fs pos cs = Some q -> walk fs' pos cs = Some q.
Proof.
  intros K. induction cs as [|c cs IH]; intros pos q; cbn [walk]; [auto|].
  destruct (is_dot c); [apply IH|]. destruct (String.eqb c ".."); [apply IH|].
  destruct (fs (c :: pos)) as [[|]|] eqn:E; try discriminate. rewrite (K _ E). apply IH.
Qed.
Lemma walk_app fs a b : forall pos q, walk fs pos (a ++ b) = Some q -> exists m, walk fs pos a = Some m /\ walk fs m b = Some q.
Proof.
  induction a as [|c a IH]; intros pos q; cbn [walk app]; [eauto|].
  destruct (is_dot c); [apply IH|]. destruct (String.eqb c ".."); [apply IH|].
  destruct (fs (c :: pos)) as [[|]|]; try discriminate. apply IH.
Qed.

Lemma mkdirs_kept cs : forall fs pos, all_kept fs (fst (mkdirs fs pos cs)).
Proof.
  induction cs as [|c cs IH]; intros fs pos p n H; cbn [mkdirs]; [exact H|].
  destruct (is_dot c); [apply IH; exact H|]. destruct (String.eqb c ".."); [apply IH; exact H|].
  destruct (fs (c :: pos)) as [[|v]|] eqn:E; [apply IH; exact H|exact H|].
  apply IH. unfold put. destruct (place_eqb_spec p (c :: pos)) as [->|]; [congruence|exact H].
Qed.
Lemma mkdirs_walk cs : forall fs pos fs', mkdirs fs pos cs = (fs', true) -> walk fs' pos cs = Some (lead pos cs).
Proof.
  induction cs as [|c cs IH]; intros fs pos fs'; cbn [mkdirs walk lead]; [reflexivity|].
  destruct (is_dot c); [apply IH|]. destruct (String.eqb c ".."); [apply IH|].
  destruct (fs (c :: pos)) as [[|v]|] eqn:E; intros H; [|discriminate|].
  - pose proof (mkdirs_kept cs fs (c :: pos) _ _ E) as K. rewrite H in K. cbn [fst] in K. rewrite K. exact (IH _ _ _ H).
  - pose proof (mkdirs_kept cs (put (c :: pos) Dir fs) (c :: pos) (c :: pos) Dir) as K. rewrite H in K. cbn [fst] in K.
    rewrite K; [exact (IH _ _ _ H)|]. unfold put. destruct (place_eqb_spec (c :: pos) (c :: pos)); congruence.
Qed.

Variable name_of : V -> string.
Variable cwd : place.

Lemma locate_target fs sub n t p : locate fs cwd (file_name sub n t) = Some p -> p = target cwd sub n t.
Proof.
  unfold locate. destruct (walk _ _ _) as [pos|] eqn:W; [|discriminate]. apply walk_lead in W. subst pos.
  destruct (_ || _); [discriminate|]. intros [= <-]. symmetry. apply target_split.
Qed.
Lemma locate_kept fs fs' path p : dirs_kept fs fs' -> locate fs cwd path = Some p -> locate fs' cwd path = Some p.
Proof.
  intros K. unfold locate. destruct (walk fs _ _) as [pos|] eqn:W; [|discriminate]. rewrite (walk_kept _ _ _ K _ _ W). auto.
Qed.

(** What a save does to the files. *)
Lemma save_kept fs cfg sub t how p n : fs p = Some n -> (n = Dir \/ p <> target cwd sub (name_of cfg) t) ->
  fst (save_run V name_of cwd cfg sub t how fs) p = Some n.
Proof.
  intros H D. unfold save_run. pose proof (mkdirs_kept (parts (folder_name sub)) fs cwd p n H) as K.
  destruct (mkdirs fs cwd (parts (folder_name sub))) as [fs1 [|]]; cbn [fst negb] in *; [|exact K].
  destruct how; [| exact K |];
  (destruct (locate fs1 cwd _) as [q|] eqn:L; [|exact K]; apply locate_target in L; subst q;
   match goal with |- context [fs1 ?q] => destruct (fs1 q) as [[|v]|] eqn:E end; cbn [fst]; try exact K;
   unfold put; match goal with |- context [place_eqb ?a ?b] => destruct (place_eqb_spec a b) as [->|] end;
   first [exact K | rewrite K in E; destruct D; subst; congruence]).
Qed.

Lemma save_ok fs cfg sub t how fs' : save_run V name_of cwd cfg sub t how fs = (fs', None) ->
  locate fs' cwd (file_name sub (name_of cfg) t) = Some (target cwd sub (name_of cfg) t)
  /\ fs' (target cwd sub (name_of cfg) t) = Some (File (Some cfg)).
Proof.
  unfold save_run. destruct (mkdirs fs cwd (parts (folder_name sub))) as [fs1 [|]]; cbn [negb]; [|discriminate].
  destruct how; [| discriminate |]; (destruct (locate fs1 cwd _) as [q|] eqn:L; [|discriminate]; pose proof (locate_target _ _ _ _ _ L); subst q;
  match goal with |- context [fs1 ?q] => destruct (fs1 q) as [[|v]|] eqn:E end; try discriminate); intros [= <-];
  (split; [refine (locate_kept fs1 _ _ _ _ L); intros p Hp; unfold put;
           match goal with |- context [place_eqb ?a ?b] => destruct (place_eqb_spec a b) as [->|] end; congruence
          |unfold put; match goal with |- context [place_eqb ?a ?b] => destruct (place_eqb_spec a b) end; congruence]).
Qed.
Lemma save_cut fs cfg sub t how fs' : save_run V name_of cwd cfg sub t how fs = (fs', Some PickleError) ->
  fs' (target cwd sub (name_of cfg) t) = Some (File None).
Proof.
  unfold save_run. destruct (mkdirs fs cwd (parts (folder_name sub))) as [fs1 [|]]; cbn [negb]; [|discriminate].
  destruct how; [| discriminate |]; (destruct (locate fs1 cwd _) as [q|] eqn:L; [|discriminate]; pose proof (locate_target _ _ _ _ _ L); subst q;
  match goal with |- context [fs1 ?q] => destruct (fs1 q) as [[|v]|] eqn:E end; try discriminate); intros [= <-];
  unfold put; match goal with |- context [place_eqb ?a ?b] => destruct (place_eqb_spec a b) end; congruence.
Qed.

Lemma savings_kept h : forall fs p n, fs p = Some n ->
  (n = Dir \/ forall s, In s h -> target_of name_of cwd s <> p) -> do_savings V name_of cwd fs h p = Some n.
Proof.
  unfold do_savings. induction h as [|s h IH]; intros fs p n H D; cbn [fold_left]; [exact H|].
  apply IH.
  - unfold do_saving. apply save_kept; [exact H|]. destruct D as [D|D]; [auto|]. right. intros E. exact (D s (or_introl eq_refl) (eq_sym E)).
  - destruct D as [D|D]; [auto|]. right. intros s' Hs. apply D. cbn. auto.
Qed.

Lemma kept_loads fs cfg sub t how h fs' : save_run V name_of cwd cfg sub t how fs = (fs', None) ->
  (forall s, In s h -> target_of name_of cwd s <> target cwd sub (name_of cfg) t) ->
  load_run V cwd (file_name sub (name_of cfg) t) (do_savings V name_of cwd fs' h) = inl cfg.
Proof.
  intros E H. destruct (save_ok _ _ _ _ _ _ E) as [L F]. unfold load_run.
  rewrite (locate_kept _ (do_savings V name_of cwd fs' h) _ _ (fun p Hp => savings_kept h fs' p Dir Hp (or_introl eq_refl)) L).
  rewrite (savings_kept h fs' _ _ F (or_intror H)). reflexivity.
Qed.

(** A later save to the same file: its config, or nothing, is loaded. *)
Lemma later_loads fs cfg sub t how fs1 h s : save_run V name_of cwd cfg sub t how fs = (fs1, None) ->
  target_of name_of cwd s = target cwd sub (name_of cfg) t ->
  let fs2 := do_savings V name_of cwd fs1 h in
  let r := save_run V name_of cwd (s_cfg V s) (s_sub V s) (s_time V s) (s_how V s) fs2 in
  (snd r = None -> load_run V cwd (file_name sub (name_of cfg) t) (fst r) = inl (s_cfg V s))
  /\ (snd r = Some PickleError -> load_run V cwd (file_name sub (name_of cfg) t) (fst r) = inr PickleError).
Proof.
  intros E T fs2 r. destruct (save_ok _ _ _ _ _ _ E) as [L _].
  assert (L2 : locate (fst r) cwd (file_name sub (name_of cfg) t) = Some (target cwd sub (name_of cfg) t)).
  { refine (locate_kept fs1 _ _ _ _ L). intros p Hp. apply save_kept; [|auto].
    exact (savings_kept h fs1 p Dir Hp (or_introl eq_refl)). }
  split; intros R; unfold load_run; rewrite L2; rewrite <- T; unfold target_of; destruct r as [fs' e] eqn:Er; cbn [fst snd] in *; subst e.
  - destruct (save_ok _ _ _ _ _ _ Er) as [_ ->]. reflexivity.
  - rewrite (save_cut _ _ _ _ _ _ Er). reflexivity.
Qed.
End fs.

(** * Names *)
Lemma digit_value n : nat_of_ascii (digit n) = (48 + n mod 10)%nat.
Proof. unfold digit. apply nat_ascii_embedding. pose proof (Nat.mod_upper_bound n 10). lia. Qed.
Lemma digit_inj n m : digit n = digit m -> (n mod 10 = m mod 10)%nat.
Proof. intros H. apply (f_equal nat_of_ascii) in H. rewrite !digit_value in H. lia. Qed.
Lemma cons_inj a b s t : String a s = String b t -> a = b /\ s = t.
Proof. intros [= -> ->]. auto. Qed.
Lemma lcons_inj {A} (a b : A) s t : a :: s = b :: t -> a = b /\ s = t.
Proof. intros [= -> ->]. auto. Qed.
Lemma two_inj n m : (n < 100)%nat -> (m < 100)%nat -> two n = two m -> n = m.
Proof.
  intros Hn Hm H. unfold two in H. apply cons_inj in H. destruct H as [H1 H]. apply cons_inj in H. destruct H as [H2 _]. apply digit_inj in H1, H2.
  pose proof (Nat.div_mod n 10). pose proof (Nat.div_mod m 10).
  assert (n / 10 < 10)%nat by (apply Nat.div_lt_upper_bound; lia).
  assert (m / 10 < 10)%nat by (apply Nat.div_lt_upper_bound; lia).
  rewrite !(Nat.mod_small (_ / 10)) in H1 by assumption. lia.
Qed.
Lemma two_mod n : two n = two (n mod 100).
Proof.
  unfold two, digit.
  assert (E1 : ((n mod 100) mod 10 = n mod 10)%nat).
  { change 100%nat with (10 * 10)%nat. rewrite Nat.mod_mul_r by lia. rewrite (Nat.mul_comm 10), Nat.mod_add, Nat.mod_mod by lia. reflexivity. }
  assert (E2 : ((n mod 100) / 10 = (n / 10) mod 10)%nat).
  { change 100%nat with (10 * 10)%nat. rewrite Nat.mod_mul_r by lia. rewrite (Nat.mul_comm 10 (_ mod 10)), Nat.div_add by lia.
    rewrite (Nat.div_small (n mod 10)) by (apply Nat.mod_upper_bound; lia). reflexivity. }
  rewrite E1, E2, Nat.mod_mod by lia. reflexivity.
Qed.
Lemma four_inj n m : (n < 10 * 1000)%nat -> (m < 10 * 1000)%nat -> four n = four m -> n = m.
Proof.
  intros Hn Hm H. unfold four in H. apply string_app_inj in H; [|reflexivity]. destruct H as [H1 H2].
  apply two_inj in H1; [|apply Nat.div_lt_upper_bound; [discriminate|exact Hn]|apply Nat.div_lt_upper_bound; [discriminate|exact Hm]].
  rewrite (two_mod n), (two_mod m) in H2. apply two_inj in H2; [|apply Nat.mod_upper_bound; discriminate..].
  pose proof (Nat.div_mod n 100). pose proof (Nat.div_mod m 100). lia.
Qed.

Lemma dt_inj t t' : valid_time t -> valid_time t' -> dt_string t = dt_string t' -> t = t'.
Proof.
  intros (V1 & V2 & V3 & V4 & V5 & V6) (W1 & W2 & W3 & W4 & W5 & W6) H. unfold dt_string in H.
  apply string_app_inj in H; [|reflexivity]. destruct H as [H1 H]. apply string_app_inj_l in H.
  apply string_app_inj in H; [|reflexivity]. destruct H as [H2 H]. apply string_app_inj_l in H.
  apply string_app_inj in H; [|reflexivity]. destruct H as [H3 H]. apply string_app_inj_l in H.
  apply string_app_inj in H; [|reflexivity]. destruct H as [H4 H]. apply string_app_inj_l in H.
  apply string_app_inj in H; [|reflexivity]. destruct H as [H5 H]. apply string_app_inj_l in H.
  apply two_inj in H1, H2, H4, H5, H; try lia. apply four_inj in H3; try lia.
  destruct t, t'. cbn in *. congruence.
Qed.
Lemma dt_length t : String.length (dt_string t) = 19%nat.
Proof. reflexivity. Qed.

Lemma digit_slash n : digit n <> "/"%char.
Proof. intros H. apply (f_equal nat_of_ascii) in H. rewrite digit_value in H. cbn in H. lia. Qed.
Lemma slashless_two n : slashless (two n).
Proof. unfold two. apply slashless_cons; split; [apply digit_slash|]. apply slashless_cons; split; [apply digit_slash|]. apply slashless_empty. Qed.
Lemma slashless_dt t : slashless (dt_string t).
Proof.
  unfold dt_string, four. repeat (apply slashless_app; [first [apply slashless_two | apply slashless_app; apply slashless_two | sl]|]).
  apply slashless_two.
Qed.

Lemma file_parts sub n t : slashless n ->
  parts (file_name sub n t) = (parts ("../results/" ++ sub)%string ++ [(n ++ "_" ++ dt_string t ++ "_run.pk")%string])%list.
Proof.
  intros H. unfold file_name. rewrite <- (string_app_assoc "../results/" sub). rewrite parts_app. f_equal. apply parts_slashless.
  apply slashless_app; [exact H|]. apply slashless_app; [sl|]. apply slashless_app; [apply slashless_dt|apply slashless_run].
Qed.
Lemma folder_parts sub : parts (folder_name sub) = (parts ("../results/" ++ sub)%string ++ [""])%list.
Proof. unfold folder_name. rewrite <- (string_app_assoc "../results/" sub). change "/" with ("/" ++ ""). rewrite parts_app. reflexivity. Qed.
Lemma results_parts sub : parts ("../results/" ++ sub) = ".." :: "results" :: parts sub.
Proof. change ("../results/" ++ sub) with (".." ++ "/" ++ ("results" ++ "/" ++ sub)). rewrite !parts_app. reflexivity. Qed.

Lemma target_name cwd sub n t : slashless n ->
  target cwd sub n t = (n ++ "_" ++ dt_string t ++ "_run.pk") :: lead cwd (parts (folder_name sub)).
Proof.
  intros H. rewrite target_split, file_parts, folder_parts by exact H. rewrite last_last, removelast_last, lead_app. reflexivity.
Qed.

(** Two saves use one file exactly for one folder, one name and one second. *)
Lemma same_target cwd sub n t sub' n' t' : slashless n -> slashless n' -> valid_time t -> valid_time t' ->
  (target cwd sub n t = target cwd sub' n' t' <->
   lead cwd (parts (folder_name sub)) = lead cwd (parts (folder_name sub')) /\ n = n' /\ t = t').
Proof.
  intros H H' T T'. rewrite !target_name by assumption. split.
  - intros E. apply lcons_inj in E. destruct E as [E1 E2]. apply string_app_inj in E1; [|reflexivity].
    destruct E1 as [-> E1]. apply string_app_inj_l in E1. apply string_app_inj in E1; [|reflexivity]. destruct E1 as [E1 _].
    apply dt_inj in E1; auto.
  - intros [-> [-> ->]]. reflexivity.
Qed.
(** The file names are different for other names or seconds, whatever the slashes. *)
Lemma file_name_inj sub n t n' t' : valid_time t -> valid_time t' ->
  file_name sub n t = file_name sub n' t' -> n = n' /\ t = t'.
Proof.
  intros T T' E. unfold file_name in E. do 3 apply string_app_inj_l in E.
  apply string_app_inj in E; [|reflexivity].
  destruct E as [-> E]. apply string_app_inj_l in E. apply string_app_inj in E; [|reflexivity]. destruct E as [E _].
  apply dt_inj in E; auto.
Qed.
Lemma same_target_refuted : exists cwd sub n sub' n', n <> n' /\ sub <> sub' /\
  forall t, target cwd sub n t = target cwd sub' n' t.
Proof.
  exists ["home"], "a", "b/c", "a/b", "c". split; [discriminate|split; [discriminate|]]. intros t.
  assert (P : parts (file_name "a" "b/c" t) = parts (file_name "a/b" "c" t)).
  { unfold file_name. f_equal. }
  unfold target. rewrite P. reflexivity.
Qed.

(** * Saves that cannot fail *)
Section tidy.
Variable V : Type.
Variable name_of : V -> string.
Variable cwd : place.
Local Notation root := ("results" :: tl cwd).

Lemma tidy_dir (fs : files V) c p : tidy fs cwd -> ~ ends_with c "_run.pk" -> tidy (put (c :: p ++ root)%list Dir fs) cwd.
Proof.
  intros H N q n. unfold put. destruct (place_eqb_spec (q ++ root)%list (c :: p ++ root)%list) as [E|]; [|apply H].
  intros [= <-]. change (c :: p ++ root)%list with ((c :: p) ++ root)%list in E. apply app_inv_tail in E. subst q.
  intros c' q' [= <- <-]. exact N.
Qed.

Lemma tidy_mkdirs cs : forall (fs : files V) p, tidy fs cwd -> (forall c, In c cs -> c <> ".." /\ ~ ends_with c "_run.pk") ->
  exists fs' q, mkdirs fs (p ++ root)%list cs = (fs', true) /\ tidy fs' cwd /\ lead (p ++ root)%list cs = (q ++ root)%list.
Proof.
  induction cs as [|c cs IH]; intros fs p T H; cbn [mkdirs lead]; [exists fs, p; auto|].
  destruct (is_dot c); [apply IH; [exact T|intros; apply H; cbn; auto]|].
  destruct (H c (or_introl eq_refl)) as [Hd Hr]. destruct (String.eqb_spec c ".."); [contradiction|].
  change (c :: p ++ root)%list with ((c :: p) ++ root)%list.
  destruct (fs ((c :: p) ++ root)%list) as [[|v]|] eqn:E.
  - apply IH; [exact T|intros; apply H; cbn; auto].
  - exfalso. specialize (T _ _ E). cbn in T. destruct T as [c' [q [Ec Hc]]]. injection Ec as -> ->. contradiction.
  - apply IH; [apply (tidy_dir fs c p T Hr)|intros; apply H; cbn; auto].
Qed.

Lemma tidy_folder (fs : files V) sub : tidy fs cwd -> plain_subfolder sub ->
  exists fs' q, mkdirs fs cwd (parts (folder_name sub)) = (fs', true) /\ tidy fs' cwd
    /\ lead cwd (parts (folder_name sub)) = (q ++ root)%list.
Proof.
  intros T H. rewrite folder_parts, results_parts. cbn [app mkdirs lead is_dot String.eqb Ascii.eqb Bool.eqb orb].
  assert (H' : forall c, In c (parts sub ++ [""])%list -> c <> ".." /\ ~ ends_with c "_run.pk").
  { intros c Hc. apply in_app_or in Hc. destruct Hc as [Hc|[<-|[]]]; [exact (H c Hc)|]. split; [discriminate|].
    intros [a E]. destruct a; discriminate. }
  destruct (fs root) as [[|v]|] eqn:E.
  - exact (tidy_mkdirs _ fs [] T H').
  - exfalso. destruct (T [] _ E) as [c [q [Ec _]]]. discriminate.
  - refine (tidy_mkdirs _ (put root Dir fs) [] _ H').
    intros q n. unfold put. destruct (place_eqb_spec (q ++ root)%list root) as [Eq|]; [|apply T].
    intros [= <-]. change root with ([] ++ root)%list in Eq at 2. apply app_inv_tail in Eq. subst q. discriminate.
Qed.

Lemma tidy_save (fs : files V) cfg sub t how : tidy fs cwd -> plain_subfolder sub -> slashless (name_of cfg) ->
  tidy (fst (save_run V name_of cwd cfg sub t how fs)) cwd
  /\ (how = Completes -> snd (save_run V name_of cwd cfg sub t how fs) = None).
Proof.
  intros T H Hn. destruct (tidy_folder fs sub T H) as [fs1 [q [E1 [T1 L1]]]]. unfold save_run. rewrite E1. cbn [negb].
  assert (L : locate fs1 cwd (file_name sub (name_of cfg) t) = Some (target cwd sub (name_of cfg) t)).
  { pose proof (mkdirs_walk _ _ _ _ _ E1) as W. rewrite folder_parts in W. apply walk_app in W. destruct W as [m [W1 W2]].
    unfold locate. destruct (run_not_dot _ (file_name_last sub (name_of cfg) t)) as [D1 D2]. rewrite D1, D2.
    rewrite target_split. rewrite file_parts by exact Hn. rewrite removelast_last, W1.
    rewrite (walk_lead _ _ _ _ _ W1). reflexivity. }
  rewrite L. rewrite target_name by exact Hn. rewrite L1.
  assert (E : ends_with (name_of cfg ++ "_" ++ dt_string t ++ "_run.pk") "_run.pk").
  { exists (name_of cfg ++ "_" ++ dt_string t). rewrite !string_app_assoc. reflexivity. }
  set (c := name_of cfg ++ "_" ++ dt_string t ++ "_run.pk") in *.
  change (c :: (q ++ root)%list) with ((c :: q) ++ root)%list.
  assert (P : forall v, tidy (put ((c :: q) ++ root)%list (File v) fs1) cwd).
  { intros v p n. unfold put. destruct (place_eqb_spec (p ++ root)%list ((c :: q) ++ root)%list) as [Ep|]; [|apply T1].
    intros [= <-]. apply app_inv_tail in Ep. subst p. eauto. }
  destruct how.
  - destruct (fs1 ((c :: q) ++ root)%list) as [[|v]|] eqn:F; cbn [fst snd]; auto.
    exfalso. exact (T1 _ _ F c q eq_refl E).
  - split; [exact T1|discriminate].
  - destruct (fs1 ((c :: q) ++ root)%list) as [[|v]|] eqn:F; cbn [fst snd]; (split; [auto|discriminate]).
Qed.

(** In every history of such saves each completed one succeeds, ... *)
Lemma tidy_savings h (fs : files V) : tidy fs cwd ->
  (forall s, In s h -> plain_subfolder (s_sub V s) /\ slashless (name_of (s_cfg V s))) ->
  tidy (do_savings V name_of cwd fs h) cwd.
Proof.
  unfold do_savings. revert fs. induction h as [|s h IH]; intros fs T H; cbn [fold_left]; [exact T|].
  apply IH; [|intros; apply H; cbn; auto]. destruct (H s (or_introl eq_refl)) as [H1 H2].
  exact (proj1 (tidy_save fs (s_cfg V s) (s_sub V s) (s_time V s) (s_how V s) T H1 H2)).
Qed.

(** ... and is loaded again if none of the later ones has its folder, name and
    second. *)
Lemma run_round_trip (fs : files V) h1 s h2 : tidy fs cwd ->
  (forall s', In s' (h1 ++ s :: h2)%list -> plain_subfolder (s_sub V s') /\ slashless (name_of (s_cfg V s')) /\ valid_time (s_time V s')) ->
  s_how V s = Completes ->
  (forall s', In s' h2 -> name_of (s_cfg V s') <> name_of (s_cfg V s) \/ s_time V s' <> s_time V s
     \/ lead cwd (parts (folder_name (s_sub V s'))) <> lead cwd (parts (folder_name (s_sub V s)))) ->
  load_run V cwd (file_name (s_sub V s) (name_of (s_cfg V s)) (s_time V s))
    (do_savings V name_of cwd fs (h1 ++ s :: h2)%list) = inl (s_cfg V s).
Proof.
  intros T H Hs D. unfold do_savings. rewrite fold_left_app. cbn [fold_left].
  assert (T1 : tidy (fold_left (do_saving V name_of cwd) h1 fs) cwd).
  { apply (tidy_savings h1 fs T). intros s' Hs'. destruct (H s') as [A [B _]]; [apply in_or_app; auto|auto]. }
  destruct (H s) as [A [B C]]; [apply in_or_app; cbn; auto|].
  destruct (tidy_save _ (s_cfg V s) (s_sub V s) (s_time V s) (s_how V s) T1 A B) as [_ S]. specialize (S Hs).
  unfold do_saving at 2.
  destruct (save_run V name_of cwd (s_cfg V s) (s_sub V s) (s_time V s) (s_how V s) _) as [fs' e] eqn:E.
  cbn [fst snd] in *. subst e. apply (kept_loads _ _ _ _ _ _ _ _ _ _ E).
  intros s' Hs'. destruct (H s') as [_ [B' C']]; [apply in_or_app; cbn; auto|].
  unfold target_of. intros X. apply same_target in X; auto. destruct X as [X1 [X2 X3]].
  destruct (D s' Hs') as [D'|[D'|D']]; contradiction.
Qed.
End tidy.
