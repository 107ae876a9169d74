(** Batches of runs. *)
From Coq Require Import String Ascii List Bool Arith Lia.
From Verif Require Import Base Model_Runs Spec_Runs Proof_Runs Model_Batch Spec_Batch.
Import ListNotations.
Open Scope string_scope.

Lemma long_not_dot s : (3 <= String.length s)%nat -> is_dot s = false /\ String.eqb s ".." = false.
Proof.
  intros L. unfold is_dot. repeat match goal with |- context [String.eqb ?x ?y] => destruct (String.eqb_spec x y) as [E|] end;
  try (rewrite E in L; cbn in L; lia); auto.
Qed.
Lemma plot_slashless f : In f plot_files -> slashless f.
Proof. intros [<-|[<-|[<-|[<-|[<-|[<-|[]]]]]]]; sl. Qed.
Lemma plot_not_dot f : In f plot_files -> is_dot f = false /\ String.eqb f ".." = false.
Proof. intros [<-|[<-|[<-|[<-|[<-|[<-|[]]]]]]]; split; reflexivity. Qed.
Lemma plot_not_run f n : In f plot_files -> f <> n ++ "_run.pk".
Proof.
  intros H E. assert (X : exists a, f = a ++ ".png").
  { destruct H as [<-|[<-|[<-|[<-|[<-|[<-|[]]]]]]];
      [exists "spectra_comparison"|exists "losses"|exists "model_grid"|exists "model_grid_per_freq"|exists "material_grid"|exists "eps_per_pointsNone"]; reflexivity. }
  destruct X as [a ->]. change "_run.pk" with ("_ru" ++ "n.pk") in E. rewrite <- string_app_assoc in E.
  apply string_app_inj in E; [|reflexivity]. destruct E as [_ E]. discriminate.
Qed.

Section batch.
Variable V : Type.
Variable name_of : V -> string.
Variable cwd : place.
Variable t0 : time.
Implicit Types fs : files V.
Local Notation RP := (results_place cwd).
Local Notation B := (batch_place cwd t0).
Local Notation at2 x y := ([x; y] ++ B)%list.
Local Notation rf := (dt_string t0 ++ "_results").
Definition sub_name (cfg : V) : string := name_of cfg ++ "_" ++ dt_string t0.
Definition run_name (cfg : V) (t : time) : string := name_of cfg ++ "_" ++ dt_string t ++ "_run.pk".

Definition inv fs : Prop :=
  (forall p n, fs (p ++ B)%list = Some n ->
     match p with [] => n = Dir | [_] => n = Dir | [_; _] => exists c, n = File c | _ => False end)
  /\ forall c, fs RP <> Some (File c).
Lemma fresh_inv fs : fresh cwd t0 fs -> inv fs.
Proof. intros [H1 H2]. split; [|exact H2]. intros p n H. rewrite H1 in H. discriminate. Qed.

Definition ensure_dir (p : place) fs : files V := match fs p with None => put p Dir fs | _ => fs end.
Lemma ensure_kept p fs : all_kept V fs (ensure_dir p fs).
Proof.
  intros q n H. unfold ensure_dir. destruct (fs p) as [|] eqn:E; [exact H|]. unfold put.
  destruct (place_eqb_spec q p) as [->|]; [congruence|exact H].
Qed.
Lemma ensure_other p q fs : q <> p -> ensure_dir p fs q = fs q.
Proof. intros N. unfold ensure_dir. destruct (fs p); [reflexivity|]. unfold put. destruct (place_eqb_spec q p); [contradiction|reflexivity]. Qed.
Lemma ensure_there p fs : (forall c, fs p <> Some (File c)) -> ensure_dir p fs p = Some Dir.
Proof.
  intros N. unfold ensure_dir. destruct (fs p) as [[|c]|] eqn:E; [exact E|destruct (N c eq_refl)|].
  unfold put. destruct (place_eqb_spec p p); [reflexivity|congruence].
Qed.
Lemma app_eq_len {A} (p q r : list A) : (p ++ r = q ++ r -> p = q)%list.
Proof. apply app_inv_tail. Qed.
Lemma rp_not_below p : (p ++ B)%list <> RP.
Proof. intros E. apply (f_equal (@List.length string)) in E. rewrite app_length in E. unfold batch_place in E. cbn in E. lia. Qed.

Lemma inv_put_below p n fs : inv fs ->
  match p with [] => n = Dir | [_] => n = Dir | [_; _] => exists c, n = File c | _ => False end ->
  inv (put (p ++ B)%list n fs).
Proof.
  intros [I1 I2] H. split.
  - intros q m E. unfold put in E. destruct (place_eqb_spec (q ++ B)%list (p ++ B)%list) as [Eq|]; [|apply I1; exact E].
    apply app_eq_len in Eq. subst q. injection E as <-. exact H.
  - intros c. unfold put. destruct (place_eqb_spec RP (p ++ B)%list) as [E|]; [destruct (rp_not_below p (eq_sym E))|apply I2].
Qed.
Lemma inv_ensure_below p fs : inv fs -> (p = [] \/ exists c, p = [c]) -> inv (ensure_dir (p ++ B)%list fs).
Proof.
  intros I H. unfold ensure_dir. destruct (fs (p ++ B)%list); [exact I|]. apply inv_put_below; [exact I|].
  destruct H as [->|[c ->]]; reflexivity.
Qed.
Lemma inv_ensure_results fs : inv fs -> inv (ensure_dir RP fs).
Proof.
  intros [I1 I2]. split.
  - intros p n E. rewrite ensure_other in E by apply rp_not_below. apply I1. exact E.
  - intros c. rewrite ensure_there by exact I2. discriminate.
Qed.

Definition made (c : string) fs : files V := ensure_dir (c :: B) (ensure_dir B (ensure_dir RP fs)).
Lemma mkdirs_one (c : string) fs pos r : is_dot c = false -> String.eqb c ".." = false -> (forall x, fs (c :: pos) <> Some (File x)) ->
  mkdirs fs pos (c :: r) = mkdirs (ensure_dir (c :: pos) fs) (c :: pos) r.
Proof.
  intros H1 H2 H3. cbn [mkdirs]. rewrite H1, H2. unfold ensure_dir.
  destruct (fs (c :: pos)) as [[|x]|] eqn:E; [reflexivity|destruct (H3 x eq_refl)|reflexivity].
Qed.
Lemma mkdirs_blank fs pos r : (forall c, In c r -> c = "") -> mkdirs fs pos r = (fs, true).
Proof. revert fs. induction r as [|c r IH]; intros fs H; [reflexivity|]. rewrite (H c) by (left; reflexivity). cbn. apply IH. intros x Hx. apply H. right. exact Hx. Qed.
Lemma walk_blank fs pos r : (forall c, In c r -> c = "") -> walk fs pos r = Some pos.
Proof. induction r as [|c r IH]; intros H; [reflexivity|]. rewrite (H c) by (left; reflexivity). cbn. apply IH. intros x Hx. apply H. right. exact Hx. Qed.
Lemma rf_long : is_dot rf = false /\ String.eqb rf ".." = false.
Proof. apply long_not_dot. rewrite string_app_length, dt_length. lia. Qed.
Lemma sub_long cfg : is_dot (sub_name cfg) = false /\ String.eqb (sub_name cfg) ".." = false.
Proof. apply long_not_dot. unfold sub_name. rewrite !string_app_length, dt_length. lia. Qed.

Lemma mkdirs_made fs (c : string) blanks : inv fs -> is_dot c = false -> String.eqb c ".." = false -> (forall x, In x blanks -> x = "") ->
  mkdirs fs cwd (".." :: "results" :: rf :: c :: blanks) = (made c fs, true).
Proof.
  intros I Hc1 Hc2 Hb. destruct rf_long as [R1 R2].
  change (mkdirs fs cwd (".." :: ?r)) with (mkdirs fs (tl cwd) r).
  rewrite mkdirs_one; [|reflexivity|reflexivity|apply I].
  pose proof (inv_ensure_results fs I) as I'.
  rewrite mkdirs_one; [|exact R1|exact R2|intros x E; pose proof (proj1 I' [] _ E); discriminate].
  pose proof (inv_ensure_below [] _ I' (or_introl eq_refl)) as I''.
  rewrite mkdirs_one; [|exact Hc1|exact Hc2|intros x E; pose proof (proj1 I'' [c] _ E); discriminate].
  rewrite mkdirs_blank by exact Hb. reflexivity.
Qed.
Lemma made_inv fs c : inv fs -> inv (made c fs).
Proof.
  intros I. unfold made. apply (inv_ensure_below [c]); [|right; eauto]. apply (inv_ensure_below []); [|left; reflexivity].
  apply inv_ensure_results. exact I.
Qed.
Lemma made_kept fs c : all_kept V fs (made c fs).
Proof. intros p n H. unfold made. do 3 apply ensure_kept. exact H. Qed.
Lemma made_other fs c p : p <> RP -> (forall q, p <> (q ++ B)%list) -> made c fs p = fs p.
Proof. intros N1 N2. unfold made. rewrite !ensure_other; [reflexivity|exact N1|exact (N2 [])|exact (N2 [c])]. Qed.
Definition dirs fs (c : string) : Prop := fs RP = Some Dir /\ fs B = Some Dir /\ fs (c :: B) = Some Dir.
Lemma made_dirs fs c : inv fs -> dirs (made c fs) c.
Proof.
  intros I. unfold made. pose proof (inv_ensure_results fs I) as I'. pose proof (inv_ensure_below [] _ I' (or_introl eq_refl)) as I''.
  split; [|split].
  - do 2 apply ensure_kept. apply ensure_there. apply I.
  - apply ensure_kept. apply ensure_there. intros x E. pose proof (proj1 I' [] _ E). discriminate.
  - apply ensure_there. intros x E. pose proof (proj1 I'' [c] _ E). discriminate.
Qed.
Lemma dirs_kept_ fs fs' c : all_kept V fs fs' -> dirs fs c -> dirs fs' c.
Proof. intros K (A & A' & A''). repeat split; apply K; assumption. Qed.
Lemma walk_dirs fs (c : string) blanks : dirs fs c -> is_dot c = false -> String.eqb c ".." = false -> (forall x, In x blanks -> x = "") ->
  walk fs cwd (".." :: "results" :: rf :: c :: blanks) = Some (c :: B).
Proof.
  intros (D1 & D2 & D3) H1 H2 Hb. destruct rf_long as [R1 R2].
  assert (One : forall (x : string) pos r, is_dot x = false -> String.eqb x ".." = false -> fs (x :: pos) = Some Dir ->
    walk fs pos (x :: r) = walk fs (x :: pos) r).
  { intros x pos r A1 A2 A3. cbn [walk]. rewrite A1, A2, A3. reflexivity. }
  change (walk fs cwd (".." :: ?r)) with (walk fs (tl cwd) r).
  rewrite One by (reflexivity || exact D1). rewrite One by (exact R1 || exact R2 || exact D2).
  rewrite One by (exact H1 || exact H2 || exact D3). apply walk_blank. exact Hb.
Qed.

(** Paths *)
Lemma slashless_rf : slashless rf.
Proof. apply slashless_app; [apply slashless_dt|sl]. Qed.
Lemma slashless_sub cfg : slashless (name_of cfg) -> slashless (sub_name cfg).
Proof. intros H. apply slashless_app; [exact H|]. apply slashless_app; [sl|apply slashless_dt]. Qed.
Lemma sub_parts cfg : slashless (name_of cfg) -> parts (subfolder V name_of t0 cfg) = [rf; sub_name cfg; ""].
Proof.
  intros H. unfold subfolder, result_folder. change (name_of cfg ++ "_" ++ dt_string t0) with (sub_name cfg).
  rewrite parts_app. change "/" with ("/" ++ ""). rewrite parts_app, (parts_slashless rf), (parts_slashless (sub_name cfg)); [reflexivity|apply slashless_sub; exact H|apply slashless_rf].
Qed.
Lemma save_folder_parts cfg : slashless (name_of cfg) ->
  parts (folder_name (subfolder V name_of t0 cfg)) = [".."; "results"; rf; sub_name cfg; ""; ""].
Proof. intros H. rewrite folder_parts, results_parts, sub_parts by exact H. reflexivity. Qed.
Lemma plot_folder_parts cfg : slashless (name_of cfg) -> parts (plot_folder V name_of t0 cfg) = [".."; "results"; rf; sub_name cfg; ""].
Proof. intros H. unfold plot_folder. rewrite results_parts, sub_parts by exact H. reflexivity. Qed.
Lemma run_file_parts cfg t : slashless (name_of cfg) ->
  parts (file_name (subfolder V name_of t0 cfg) (name_of cfg) t) = [".."; "results"; rf; sub_name cfg; ""; run_name cfg t].
Proof. intros H. rewrite file_parts, results_parts, sub_parts by exact H. reflexivity. Qed.
Lemma run_target cfg t : slashless (name_of cfg) ->
  target cwd (subfolder V name_of t0 cfg) (name_of cfg) t = (at2 (run_name cfg t) (sub_name cfg)).
Proof.
  intros H. unfold target. rewrite run_file_parts by exact H. destruct rf_long as [R1 R2]. destruct (sub_long cfg) as [S1 S2].
  destruct (run_not_dot (run_name cfg t)) as [N1 N2]. { exists (name_of cfg ++ "_" ++ dt_string t). unfold run_name. rewrite !string_app_assoc. reflexivity. }
  cbn [lead]. change (is_dot "..") with false. change (String.eqb ".." "..") with true. change (is_dot "results") with false.
  change (String.eqb "results" "..") with false. change (is_dot "") with true. cbv iota. rewrite R1, R2, S1, S2. cbn [lead].
  change (is_dot "") with true. cbv iota. rewrite N1, N2. reflexivity.
Qed.
Lemma locate_run fs cfg t : slashless (name_of cfg) -> dirs fs (sub_name cfg) ->
  locate fs cwd (file_name (subfolder V name_of t0 cfg) (name_of cfg) t) = Some ((at2 (run_name cfg t) (sub_name cfg))).
Proof.
  intros H D. unfold locate. rewrite run_file_parts by exact H. cbn [removelast last]. destruct (sub_long cfg) as [S1 S2].
  rewrite (walk_dirs fs (sub_name cfg) [""] D S1 S2) by (intros x [<-|[]]; reflexivity).
  destruct (run_not_dot (run_name cfg t)) as [N1 N2]. { exists (name_of cfg ++ "_" ++ dt_string t). unfold run_name. rewrite !string_app_assoc. reflexivity. }
  rewrite N1, N2. reflexivity.
Qed.
Lemma locate_plot fs cfg f : slashless (name_of cfg) -> dirs fs (sub_name cfg) -> In f plot_files ->
  locate fs cwd (plot_folder V name_of t0 cfg ++ "/" ++ f) = Some ((at2 (f) (sub_name cfg))).
Proof.
  intros H D Hf. unfold locate. rewrite parts_app, plot_folder_parts, (parts_slashless f) by (exact H || apply plot_slashless; exact Hf).
  cbn [app removelast last]. destruct (sub_long cfg) as [S1 S2].
  rewrite (walk_dirs fs (sub_name cfg) [""] D S1 S2) by (intros x [<-|[]]; reflexivity).
  destruct (plot_not_dot f Hf) as [N1 N2]. rewrite N1, N2. reflexivity.
Qed.

(** The plots *)
Lemma plots_written cfg plots : forall fs, slashless (name_of cfg) -> inv fs -> dirs fs (sub_name cfg) -> incl plots plot_files ->
  exists fs', write_plots V cwd (plot_folder V name_of t0 cfg) plots fs = (fs', true)
    /\ inv fs' /\ dirs fs' (sub_name cfg)
    /\ (forall p, (forall f, In f plots -> p <> (at2 (f) (sub_name cfg))) -> fs' p = fs p)
    /\ (forall f, In f plots -> fs' ((at2 (f) (sub_name cfg))) = Some (File None)).
Proof.
  induction plots as [|f r IH]; intros fs Hs I D Hp.
  - exists fs. split; [reflexivity|]. split; [exact I|]. split; [exact D|]. split; [auto|]. intros f [].
  - assert (Hf : In f plot_files) by (apply Hp; left; reflexivity).
    cbn [write_plots]. rewrite (locate_plot fs cfg f Hs D Hf).
    set (q := (at2 (f) (sub_name cfg))).
    assert (Hq : fs q <> Some Dir). { intros E. destruct (proj1 I [f; sub_name cfg] _ E) as [c Hc]. discriminate. }
    assert (I' : inv (put q (File None) fs)) by (apply inv_put_below; [exact I|eauto]).
    assert (Kd : forall p, p <> q -> put q (File None) fs p = fs p).
    { intros p N. unfold put. destruct (place_eqb_spec p q); [contradiction|reflexivity]. }
    assert (Ln : forall p : place, List.length p <> List.length q -> p <> q) by (intros p N ->; apply N; reflexivity).
    assert (D' : dirs (put q (File None) fs) (sub_name cfg)).
    { destruct D as (D1 & D2 & D3). repeat split; rewrite Kd; auto; apply Ln; unfold q, batch_place; cbn; lia. }
    destruct (IH _ Hs I' D' (fun x Hx => Hp x (or_intror Hx))) as (fs' & E & I'' & D'' & K & P).
    exists fs'. split. { destruct (fs q) as [[|c]|]; [destruct (Hq eq_refl)|exact E|exact E]. }
    split; [exact I''|]. split; [exact D''|]. split.
    + intros p N. rewrite K by (intros g Hg; apply N; right; exact Hg). apply Kd. apply N. left. reflexivity.
    + intros g [<-|Hg]; [|apply P; exact Hg]. destruct (in_dec string_dec f r) as [Hr|Hr]; [apply P; exact Hr|].
      fold q. rewrite K.
      * unfold put. destruct (place_eqb_spec q q); [reflexivity|congruence].
      * intros g Hg E'. apply Hr. unfold q in E'. injection E' as ->. exact Hg.
Qed.

(** One config *)
Definition mine (j : job V) (p : place) : Prop :=
  exists cfg, j_trained V j = Some cfg
    /\ (p = (at2 (run_name cfg (j_time V j)) (sub_name cfg)) \/ exists f, In f (j_plots V j) /\ p = (at2 (f) (sub_name cfg))).
Lemma job_effect j fs : inv fs -> fine name_of j ->
  let r := run_job V name_of cwd t0 j fs in
  snd r = stops j /\ inv (fst r)
  /\ (forall p n, fs p = Some n -> n = Dir \/ ~ mine j p -> fst r p = Some n)
  /\ (forall p, p <> RP -> (forall q, p <> (q ++ B)%list) -> fst r p = fs p)
  /\ (forall cfg, j_loads V j = true -> j_trained V j = Some cfg -> j_how V j = Completes ->
        dirs (fst r) (sub_name cfg)
        /\ fst r ((at2 (run_name cfg (j_time V j)) (sub_name cfg))) = Some (File (Some cfg))
        /\ forall f, In f (j_plots V j) -> fst r ((at2 (f) (sub_name cfg))) = Some (File None)).
Proof.
  intros I [Hn Hp] r. unfold r, run_job, stops. destruct (j_loads V j); cbn [negb].
  2: { cbn. split; [reflexivity|]. split; [exact I|]. split; [auto|]. split; [auto|]. intros cfg H; discriminate. }
  destruct (j_trained V j) as [cfg|] eqn:Et.
  2: { cbn. split; [reflexivity|]. split; [exact I|]. split; [auto|]. split; [auto|]. intros cfg _ H; discriminate. }
  specialize (Hn cfg eq_refl). unfold save_run. rewrite save_folder_parts by exact Hn.
  destruct (sub_long cfg) as [S1 S2].
  rewrite (mkdirs_made fs (sub_name cfg) [""; ""] I S1 S2) by (intros x [<-|[<-|[]]]; reflexivity). cbn [negb].
  set (fs1 := made (sub_name cfg) fs). pose proof (made_inv fs (sub_name cfg) I) as I1. pose proof (made_dirs fs (sub_name cfg) I) as D1.
  fold fs1 in I1, D1. pose proof (made_kept fs (sub_name cfg)) as K1. fold fs1 in K1.
  assert (O1 : forall p, p <> RP -> (forall q, p <> (q ++ B)%list) -> fs1 p = fs p) by (intros; apply made_other; assumption).
  assert (Loc := locate_run fs1 cfg (j_time V j) Hn D1). set (q := (at2 (run_name cfg (j_time V j)) (sub_name cfg))) in *.
  assert (Hq : fs1 q <> Some Dir). { intros E. destruct (proj1 I1 [run_name cfg (j_time V j); sub_name cfg] _ E) as [c Hc]. discriminate. }
  assert (Mq : forall p, ~ mine j p -> p <> q). { intros p N ->. apply N. exists cfg. split; [exact Et|left; reflexivity]. }
  assert (Ln : forall p : place, List.length p <> List.length q -> p <> q) by (intros p N ->; apply N; reflexivity).
  assert (Kput : forall c p, p <> q -> put q (File c) fs1 p = fs1 p).
  { intros c p N. unfold put. destruct (place_eqb_spec p q); [contradiction|reflexivity]. }
  assert (Pp : forall c p n, fs p = Some n -> n = Dir \/ ~ mine j p -> put q (File c) fs1 p = Some n).
  { intros c p n E [->|N].
    - rewrite Kput; [apply K1; exact E|]. intros ->. apply Hq. apply K1. exact E.
    - rewrite Kput; [apply K1; exact E|]. apply Mq. exact N. }
  assert (Ip : forall c, inv (put q (File c) fs1)) by (intros c; apply inv_put_below; [exact I1|eauto]).
  assert (Op : forall c p, p <> RP -> (forall x, p <> (x ++ B)%list) -> put q (File c) fs1 p = fs p).
  { intros c p N1 N2. rewrite Kput by (apply N2). apply O1; assumption. }
  destruct (j_how V j) eqn:Eh.
  - rewrite Loc. 
    assert (Es : match fs1 q with
        | Some Dir => (fs1, Some OSError)
        | _ => (put q (File (Some cfg)) fs1, None) end = (put q (File (Some cfg)) fs1, None)).
    { destruct (fs1 q) as [[|c]|]; [destruct (Hq eq_refl)|reflexivity|reflexivity]. }
    replace (match fs1 q with Some Dir => (fs1, Some OSError) | _ => (put q (File (Some cfg)) fs1, None) end) with (put q (File (Some cfg)) fs1, @None run_exn).
    unfold save_plots_of. rewrite plot_folder_parts by exact Hn.
    set (fs2 := put q (File (Some cfg)) fs1). specialize (Ip (Some cfg)). fold fs2 in Ip.
    rewrite (mkdirs_made fs2 (sub_name cfg) [""] Ip S1 S2) by (intros x [<-|[]]; reflexivity). cbn [negb].
    destruct (plots_written cfg (j_plots V j) (made (sub_name cfg) fs2) Hn (made_inv _ _ Ip) (made_dirs _ _ Ip) Hp) as (fs3 & Ew & I3 & D3 & K3 & P3).
    rewrite Ew. cbn [andb fst snd]. pose proof (made_kept fs2 (sub_name cfg)) as K2.
    split; [reflexivity|]. split; [exact I3|]. split; [|split].
    + intros p n E N. assert (X : made (sub_name cfg) fs2 p = Some n) by (apply K2; apply Pp; assumption). rewrite K3; [exact X|].
      intros f Hf ->. destruct N as [->|N].
      * destruct (proj1 (made_inv _ _ Ip) [f; sub_name cfg] _ X) as [c Hc]. discriminate.
      * apply N. exists cfg. split; [exact Et|]. right. exists f. auto.
    + intros p N1 N2. rewrite K3 by (intros; apply N2). rewrite made_other by assumption. apply Op; assumption.
    + intros cfg' _ E _. injection E as <-. split; [exact D3|]. split; [|exact P3]. rewrite K3.
      * apply K2. change (fs2 q = Some (File (Some cfg))). unfold fs2, put. destruct (place_eqb_spec q q); [reflexivity|congruence].
      * intros f Hf E. unfold q in E. injection E as E. symmetry in E. unfold run_name in E. rewrite <- !string_app_assoc in E.
        apply (plot_not_run f _ (Hp f Hf) E).
  - cbn [fst snd]. split; [reflexivity|]. split; [exact I1|]. split; [intros; apply K1; assumption|]. split; [exact O1|]. intros; discriminate.
  - rewrite Loc.
    replace (match fs1 q with Some Dir => (fs1, Some OSError) | _ => (put q (File None) fs1, Some PickleError) end) with (put q (File None) fs1, Some PickleError)
      by (destruct (fs1 q) as [[|c]|]; [destruct (Hq eq_refl)|reflexivity|reflexivity]).
    cbn [fst snd]. split; [reflexivity|]. split; [apply Ip|]. split; [apply Pp|]. split; [apply Op|]. intros; discriminate.
Qed.

(** Nothing disappears. *)
Lemma put_there q n fs p : fs p <> None -> put q n fs p <> None.
Proof. intros H. unfold put. destruct (place_eqb p q); [discriminate|exact H]. Qed.
Lemma mkdirs_there cs fs pos p : fs p <> None -> fst (mkdirs fs pos cs) p <> None.
Proof. intros H. destruct (fs p) as [n|] eqn:E; [|congruence]. rewrite (mkdirs_kept V cs fs pos p n E). discriminate. Qed.
Lemma write_there folder plots p : forall fs, fs p <> None -> fst (write_plots V cwd folder plots fs) p <> None.
Proof.
  induction plots as [|f r IH]; intros fs H; cbn [write_plots]; [exact H|].
  destruct (locate fs cwd _) as [q|]; [|exact H]. destruct (fs q) as [[|c]|]; [exact H| |]; apply IH, put_there, H.
Qed.
Lemma job_there j fs p : fs p <> None -> fst (run_job V name_of cwd t0 j fs) p <> None.
Proof.
  intros H. unfold run_job. destruct (negb (j_loads V j)); [exact H|]. destruct (j_trained V j) as [cfg|]; [|exact H].
  assert (S : fst (save_run V name_of cwd cfg (subfolder V name_of t0 cfg) (j_time V j) (j_how V j) fs) p <> None).
  { unfold save_run. pose proof (mkdirs_there (parts (folder_name (subfolder V name_of t0 cfg))) fs cwd p H) as M.
    destruct (mkdirs fs cwd _) as [fs1 [|]]; cbn [fst negb] in *; [|exact M].
    destruct (j_how V j); [|exact M|]; (destruct (locate fs1 cwd _) as [q|]; [|exact M]; destruct (fs1 q) as [[|c]|]; [exact M| |]; apply put_there, M). }
  destruct (save_run _ _ _ _ _ _ _ fs) as [fs1 [e|]]; cbn [fst] in *; [exact S|]. unfold save_plots_of.
  pose proof (mkdirs_there (parts (plot_folder V name_of t0 cfg)) fs1 cwd p S) as M.
  destruct (mkdirs fs1 cwd _) as [fs2 [|]]; cbn [fst negb] in *; [|exact M].
  pose proof (write_there (plot_folder V name_of t0 cfg) (j_plots V j) p fs2 M) as W.
  destruct (write_plots V cwd _ _ fs2) as [fs3 w]; cbn [fst] in *. destruct (w && j_plots_end V j); exact W.
Qed.

(** The batch *)
Lemma batch_result jobs : forall n fs, inv fs -> Forall (fine name_of) jobs ->
  inv (fst (run_batch V name_of cwd t0 n jobs fs))
  /\ (forall p k, fs p = Some k -> k = Dir \/ (forall j, In j jobs -> ~ mine j p) -> fst (run_batch V name_of cwd t0 n jobs fs) p = Some k)
  /\ (forall p, p <> RP -> (forall q, p <> (q ++ B)%list) -> fst (run_batch V name_of cwd t0 n jobs fs) p = fs p).
Proof.
  induction jobs as [|j jobs IH]; intros n fs I F; cbn [run_batch].
  - cbn. auto.
  - inversion F as [|? ? Fj Fr]; subst. destruct (job_effect j fs I Fj) as (_ & I' & K & O & _).
    destruct (run_job V name_of cwd t0 j fs) as [fs1 [s|]]; cbn [fst snd] in *.
    + split; [exact I'|]. split; [|exact O]. intros p k E [H|H]; (apply K; [exact E|]); [left; exact H|right; apply H; left; reflexivity].
    + destruct (IH (S n) fs1 I' Fr) as (I2 & K2 & O2). split; [exact I2|]. split.
      * intros p k E H. apply K2; [apply K; [exact E|]|].
        -- destruct H as [H|H]; [left; exact H|right; apply H; left; reflexivity].
        -- destruct H as [H|H]; [left; exact H|right; intros j' Hj'; apply H; right; exact Hj'].
      * intros p N1 N2. rewrite O2, O by assumption. reflexivity.
Qed.
Lemma batch_app a b : forall n fs, inv fs -> Forall (fine name_of) a -> (forall j, In j a -> stops j = None) ->
  exists fs', inv fs' /\ run_batch V name_of cwd t0 n (a ++ b) fs = run_batch V name_of cwd t0 (n + List.length a) b fs'
    /\ fs' = fst (run_batch V name_of cwd t0 n a fs) /\ snd (run_batch V name_of cwd t0 n a fs) = None.
Proof.
  induction a as [|j a IH]; intros n fs I F H.
  - exists fs. cbn. rewrite Nat.add_0_r. auto.
  - inversion F as [|? ? Fj Fr]; subst. destruct (job_effect j fs I Fj) as (S & I' & _). rewrite (H j) in S by (left; reflexivity).
    cbn [run_batch app]. destruct (run_job V name_of cwd t0 j fs) as [fs1 e]; cbn [fst snd] in *. subst e.
    destruct (IH (Datatypes.S n) fs1 I' Fr (fun x Hx => H x (or_intror Hx))) as (fs' & A1 & A2 & A3 & A4).
    exists fs'. split; [exact A1|]. split; [rewrite A2; f_equal; cbn; lia|]. split; assumption.
Qed.
Lemma batch_stops a j b s fs : fresh cwd t0 fs -> Forall (fine name_of) (a ++ j :: b) -> (forall x, In x a -> stops x = None) -> stops j = Some s ->
  snd (run_cfgs V name_of cwd t0 (a ++ j :: b) fs) = Some (List.length a, s)
  /\ run_cfgs V name_of cwd t0 (a ++ j :: b) fs = run_cfgs V name_of cwd t0 (a ++ [j]) fs.
Proof.
  intros Fr F H Hs. apply fresh_inv in Fr. apply Forall_app in F as [Fa Fb]. inversion Fb as [|? ? Fj _]; subst.
  unfold run_cfgs. destruct (batch_app a (j :: b) 0 fs Fr Fa H) as (fs' & I & E & E1 & _).
  destruct (batch_app a [j] 0 fs Fr Fa H) as (fs'' & _ & E' & E1' & _). subst fs' fs''. rewrite E, E'. cbn [run_batch].
  destruct (job_effect j _ I Fj) as (S & _). destruct (run_job V name_of cwd t0 j _) as [fs1 e]; cbn [fst snd] in *. rewrite S, Hs. auto.
Qed.
Lemma batch_ends jobs fs : fresh cwd t0 fs -> Forall (fine name_of) jobs ->
  (snd (run_cfgs V name_of cwd t0 jobs fs) = None <-> forall j, In j jobs -> stops j = None).
Proof.
  intros Fr F. split.
  - intros E.
    assert (D : (forall j, In j jobs -> stops j = None) \/ exists a j b s, jobs = (a ++ j :: b)%list /\ (forall x, In x a -> stops x = None) /\ stops j = Some s).
    { clear. induction jobs as [|j jobs IH]; [left; intros j []|]. destruct (stops j) as [s|] eqn:Ej.
      - right. exists [], j, jobs, s. split; [reflexivity|]. split; [intros x []|exact Ej].
      - destruct IH as [IH|(a & j' & b & s & -> & H1 & H2)].
        + left. intros x [<-|Hx]; auto.
        + right. exists (j :: a), j', b, s. split; [reflexivity|]. split; [intros x [<-|Hx]; auto|exact H2]. }
    destruct D as [D|(a & j & b & s & -> & H1 & H2)]; [exact D|]. exfalso.
    destruct (batch_stops a j b s fs Fr F H1 H2) as [X _]. rewrite X in E. discriminate.
  - intros H. destruct (batch_app jobs [] 0 fs (fresh_inv fs Fr) F H) as (fs' & _ & _ & _ & X). exact X.
Qed.
Lemma mine_run (j : job V) (cfg : V) t : valid_time t -> valid_time (j_time V j) -> fine name_of j -> slashless (name_of cfg) ->
  mine j (at2 (run_name cfg t) (sub_name cfg)) -> exists cfg', j_trained V j = Some cfg' /\ name_of cfg' = name_of cfg /\ j_time V j = t.
Proof.
  intros Vt Vj [_ Hp] Hs (cfg' & E & [Q|(f & Hf & Q)]); exists cfg'.
  - injection Q as Q1 Q2. unfold run_name in Q1. change "_run.pk" with ("_run.pk" ++ "")%string in Q1. 
    split; [exact E|]. rewrite <- !string_app_assoc in Q1. apply string_app_inj in Q1; [|reflexivity]. destruct Q1 as [Q1 _].
    apply string_app_inj in Q1; [|reflexivity]. destruct Q1 as [Q1 _]. apply string_app_inj in Q1; [|rewrite !dt_length; reflexivity].
    destruct Q1 as [Q1 Q3]. apply string_app_inj in Q1; [|reflexivity]. destruct Q1 as [Q1 _].
    split; [symmetry; exact Q1|]. apply dt_inj; [assumption|assumption|]. symmetry. exact Q3.
  - exfalso. injection Q as Q _. symmetry in Q. unfold run_name in Q. rewrite <- !string_app_assoc in Q. apply (plot_not_run f _ (Hp f Hf) Q).
Qed.
Lemma batch_saved a j b cfg fs : fresh cwd t0 fs -> Forall (fine name_of) (a ++ j :: b) ->
  (forall x, In x (j :: b) -> valid_time (j_time V x)) ->
  (forall x, In x a -> stops x = None) ->
  j_loads V j = true -> j_trained V j = Some cfg -> j_how V j = Completes ->
  (forall x cfg', In x b -> j_trained V x = Some cfg' -> name_of cfg' <> name_of cfg \/ j_time V x <> j_time V j) ->
  load_run V cwd (run_file t0 (name_of cfg) (j_time V j)) (fst (run_cfgs V name_of cwd t0 (a ++ j :: b) fs)) = inl cfg.
Proof.
  intros Fr F Vt Ha L T H D. apply fresh_inv in Fr. apply Forall_app in F as [Fa Fb]. inversion Fb as [|? ? Fj Fr']; subst.
  unfold run_cfgs. destruct (batch_app a (j :: b) 0 fs Fr Fa Ha) as (fs' & I & E & _ & _). rewrite E. cbn [run_batch].
  destruct (job_effect j fs' I Fj) as (_ & I1 & _ & _ & X). destruct (X cfg L T H) as (Dj & Rj & _).
  destruct (run_job V name_of cwd t0 j fs') as [fs1 e]; cbn [fst snd] in *.
  assert (Hs : slashless (name_of cfg)) by (apply Fj; exact T).
  assert (Fin : forall g : files V, dirs g (sub_name cfg) -> g (at2 (run_name cfg (j_time V j)) (sub_name cfg)) = Some (File (Some cfg)) ->
     load_run V cwd (run_file t0 (name_of cfg) (j_time V j)) g = inl cfg).
  { intros g Dg Rg. unfold load_run. change (run_file t0 (name_of cfg) (j_time V j)) with (file_name (subfolder V name_of t0 cfg) (name_of cfg) (j_time V j)).
    rewrite locate_run by assumption. rewrite Rg. reflexivity. }
  destruct e as [s|]; [apply Fin; assumption|].
  destruct (batch_result b (S (0 + List.length a)) fs1 I1 Fr') as (_ & K & _). cbn [fst]. apply Fin.
  - destruct Dj as (D1 & D2 & D3). repeat split; apply K; auto.
  - apply K; [exact Rj|]. right. intros x Hx M.
    destruct (mine_run x cfg (j_time V j)) as (cfg' & Q1 & Q2 & Q3); auto.
    { apply Vt. left. reflexivity. } { apply Vt. right. exact Hx. } { rewrite Forall_forall in Fr'. apply Fr'. exact Hx. }
    destruct (D x cfg' Hx Q1); congruence.
Qed.
Lemma batch_plots a j b cfg f fs : fresh cwd t0 fs -> Forall (fine name_of) (a ++ j :: b) ->
  (forall x, In x a -> stops x = None) ->
  j_loads V j = true -> j_trained V j = Some cfg -> j_how V j = Completes -> In f (j_plots V j) ->
  exists c, fst (run_cfgs V name_of cwd t0 (a ++ j :: b) fs) (plot_place cwd t0 (name_of cfg) f) = Some (File c).
Proof.
  intros Fr F Ha L T H Hf. apply fresh_inv in Fr. apply Forall_app in F as [Fa Fb]. inversion Fb as [|? ? Fj Fr']; subst.
  unfold run_cfgs. destruct (batch_app a (j :: b) 0 fs Fr Fa Ha) as (fs' & I & E & _ & _). rewrite E. cbn [run_batch].
  destruct (job_effect j fs' I Fj) as (_ & I1 & _ & _ & X). destruct (X cfg L T H) as (_ & _ & Pj). specialize (Pj f Hf).
  destruct (run_job V name_of cwd t0 j fs') as [fs1 e]; cbn [fst snd] in *.
  change (plot_place cwd t0 (name_of cfg) f) with (at2 f (sub_name cfg)).
  destruct e as [s|]; [eauto|]. generalize (S (0 + List.length a)). intros n.
  assert (G : forall b n (g : files V), Forall (fine name_of) b -> inv g -> (exists c, g (at2 f (sub_name cfg)) = Some (File c)) ->
     exists c, fst (run_batch V name_of cwd t0 n b g) (at2 f (sub_name cfg)) = Some (File c)).
  { clear. intros b. induction b as [|x b IH]; intros n g Fb Ig Hg; cbn [run_batch]; [exact Hg|].
    inversion Fb as [|? ? Fx Fb']; subst. destruct (job_effect x g Ig Fx) as (_ & I' & K & _ & X).
    assert (Y : exists c, fst (run_job V name_of cwd t0 x g) (at2 f (sub_name cfg)) = Some (File c)).
    { destruct Hg as [c Hc]. assert (Z := job_there x g (at2 f (sub_name cfg)) ltac:(congruence)).
      destruct (fst (run_job V name_of cwd t0 x g) (at2 f (sub_name cfg))) as [m|] eqn:Em; [|congruence].
      destruct (proj1 I' [f; sub_name cfg] _ Em) as [c' ->]. eauto. }
    destruct (run_job V name_of cwd t0 x g) as [g1 [s|]]; cbn [fst] in *; [exact Y|]. apply IH; assumption. }
  apply G; auto. eauto.
Qed.
Lemma batch_elsewhere jobs fs p : fresh cwd t0 fs -> Forall (fine name_of) jobs ->
  p <> RP -> (forall q, p <> (q ++ B)%list) -> fst (run_cfgs V name_of cwd t0 jobs fs) p = fs p.
Proof. intros Fr F. apply batch_result; [apply fresh_inv; exact Fr|exact F]. Qed.
End batch.

From Verif Require Import Cplx Model_Materials Model_EpsGrid Model_Plots Spec_Plots Proof_Plots.
Lemma few_frequencies (V : Type) (name_of : V -> string) cwd t0 a (j : job V) b cfg fs
    pc mats eval spectrum eps pR pT :
  fresh cwd t0 fs -> Forall (fine name_of) (a ++ j :: b)%list ->
  (forall x, In x (a ++ j :: b)%list -> valid_time (j_time V x)) -> (forall x, In x a -> stops x = None) ->
  j_loads V j = true -> j_trained V j = Some cfg -> j_how V j = Completes ->
  (forall n, eval n = Ok (eps n) /\ fits pc (eps n)) -> some_cell pc -> good_files mats ->
  spectrum (eps 0%nat) = Ok (pR, pT) -> p_freqs pc <> [] ->
  List.length pR = List.length (p_freqs pc) -> List.length pT = List.length (p_freqs pc) ->
  List.length (p_target_R pc) = List.length (p_freqs pc) -> List.length (p_target_T pc) = List.length (p_freqs pc) ->
  (List.length (p_freqs pc) < 4)%nat ->
  (j_plots V j, j_plots_end V j) =
    (let r := save_all_plots pc mats eval spectrum (Ok tt) in (fst r, match snd r with None => true | Some _ => false end)) ->
  snd (run_cfgs V name_of cwd t0 (a ++ j :: b)%list fs) = Some (List.length a, Plotting)
  /\ run_cfgs V name_of cwd t0 (a ++ j :: b)%list fs = run_cfgs V name_of cwd t0 (a ++ [j])%list fs
  /\ load_run V cwd (run_file t0 (name_of cfg) (j_time V j)) (fst (run_cfgs V name_of cwd t0 (a ++ j :: b)%list fs)) = inl cfg
  /\ forall f, In f ["spectra_comparison.png"; "losses.png"; "model_grid.png"] ->
       exists c, fst (run_cfgs V name_of cwd t0 (a ++ j :: b)%list fs) (plot_place cwd t0 (name_of cfg) f) = Some (File c).
Proof.
  intros Fr F2 Vt Ha L T H Ev Sc Gf Hs Ne L1 L2 L3 L4 L5 P.
  rewrite (all_plots pc mats eval spectrum eps pR pT Ev Sc Gf Hs Ne L1 L2 L3 L4) in P.
  assert (Q : (4 <=? List.length (p_freqs pc))%nat = false) by (apply Nat.leb_gt; exact L5). rewrite Q in P. cbn in P.
  injection P as P1 P2.
  assert (F1 : Forall (fine name_of) (a ++ [j])%list).
  { apply Forall_app in F2 as [Fa Fb]. apply Forall_app. split; [exact Fa|]. inversion Fb; subst. auto. }
  assert (St : stops j = Some Plotting) by (unfold stops; rewrite L, T, H, P2; reflexivity).
  destruct (batch_stops V name_of cwd t0 a j b Plotting fs Fr F2 Ha St) as [E1 E2].
  split; [exact E1|]. split; [exact E2|]. split.
  - rewrite E2. apply (batch_saved V name_of cwd t0 a j [] cfg fs Fr F1); auto.
    + intros x [<-|[]]. apply Vt. apply in_or_app. right. left. reflexivity.
  - intros f Hf. apply (batch_plots V name_of cwd t0 a j b cfg f fs Fr F2 Ha L T H). rewrite P1. exact Hf.
Qed.
