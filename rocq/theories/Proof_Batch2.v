(** What a batch that came to its end has written, whatever was there before. *)
From Coq Require Import Reals String Ascii List Bool Arith Lia.
From Verif Require Import Base Model_Runs Spec_Runs Proof_Runs Model_Batch Spec_Batch Proof_Batch.
Import ListNotations.
Open Scope string_scope.

Section ended.
Variable V : Type.
Variable name_of : V -> string.
Variable cwd : place.
Variable t0 : time.
Implicit Types fs : files V.
Definition is_file fs p : Prop := exists c, fs p = Some (File c).

Lemma file_put q c fs p : is_file fs p -> is_file (put q (File c) fs) p.
Proof. intros H. unfold is_file, put. destruct (place_eqb p q); [eauto|exact H]. Qed.
Lemma file_mkdirs cs fs pos p : is_file fs p -> is_file (fst (mkdirs fs pos cs)) p.
Proof. intros [c H]. exists c. apply (mkdirs_kept V cs fs pos p _ H). Qed.
Lemma file_save cfg sub t how fs p : is_file fs p -> is_file (fst (save_run V name_of cwd cfg sub t how fs)) p.
Proof.
  intros H. unfold save_run. pose proof (file_mkdirs (parts (folder_name sub)) fs cwd p H) as M.
  destruct (mkdirs fs cwd (parts (folder_name sub))) as [fs1 [|]]; cbn [fst negb] in *; [|exact M].
  destruct how; [|exact M|].
  all: destruct (locate fs1 cwd _) as [q|]; [|exact M]; destruct (fs1 q) as [[|]|]; cbn [fst]; try exact M; apply file_put, M.
Qed.
Lemma file_write folder plots p : forall fs, is_file fs p -> is_file (fst (write_plots V cwd folder plots fs)) p.
Proof.
  induction plots as [|f r IH]; intros fs H; cbn [write_plots]; [exact H|].
  destruct (locate fs cwd _) as [q|]; [|exact H]. destruct (fs q) as [[|c]|]; [exact H| |]; apply IH, file_put, H.
Qed.
Lemma file_job j fs p : is_file fs p -> is_file (fst (run_job V name_of cwd t0 j fs)) p.
Proof.
  intros H. unfold run_job. destruct (negb (j_loads V j)); [exact H|]. destruct (j_trained V j) as [cfg|]; [|exact H].
  pose proof (file_save cfg (subfolder V name_of t0 cfg) (j_time V j) (j_how V j) fs p H) as S.
  destruct (save_run V name_of cwd cfg _ _ _ fs) as [fs1 [|]]; cbn [fst] in *; [exact S|].
  unfold save_plots_of. pose proof (file_mkdirs (parts (plot_folder V name_of t0 cfg)) fs1 cwd p S) as M.
  destruct (mkdirs fs1 cwd _) as [fs2 [|]]; cbn [fst negb] in *; [|exact M].
  pose proof (file_write (plot_folder V name_of t0 cfg) (j_plots V j) p fs2 M) as W. destruct (write_plots V cwd _ _ fs2) as [fs3 ok]. exact W.
Qed.
Lemma file_batch jobs : forall n fs p, is_file fs p -> is_file (fst (run_batch V name_of cwd t0 n jobs fs)) p.
Proof.
  induction jobs as [|j r IH]; intros n fs p H; cbn [run_batch]; [exact H|]. pose proof (file_job j fs p H) as J.
  destruct (run_job V name_of cwd t0 j fs) as [fs1 [|]]; cbn [fst] in *; [exact J|apply IH, J].
Qed.

Lemma lead_last cs : forall pos c, is_dot c = false -> String.eqb c ".." = false -> lead pos (cs ++ [c]) = c :: lead pos cs.
Proof.
  induction cs as [|a cs IH]; intros pos c D1 D2; cbn [app lead]; [rewrite D1, D2; reflexivity|].
  destruct (is_dot a); [apply IH; assumption|]. destruct (String.eqb a ".."); apply IH; assumption.
Qed.
Lemma locate_lead fs path p : locate fs cwd path = Some p -> p = lead cwd (parts path).
Proof.
  unfold locate. destruct (walk _ _ _) as [pos|] eqn:W; [|discriminate]. apply walk_lead in W. subst pos.
  destruct (is_dot (last (parts path) "")) eqn:D1; [discriminate|]. destruct (String.eqb (last (parts path) "") "..") eqn:D2; [discriminate|].
  cbn [orb]. intros [= <-]. rewrite (app_removelast_last "" (parts_nonempty path)) at 3. symmetry. apply lead_last; assumption.
Qed.
Lemma written_plots folder plots : forall fs fs', write_plots V cwd folder plots fs = (fs', true) ->
  forall f, In f plots -> is_file fs' (lead cwd (parts (folder ++ "/" ++ f))).
Proof.
  induction plots as [|f r IH]; intros fs fs' H g Hg; [destruct Hg|]. cbn [write_plots] in H.
  destruct (locate fs cwd (folder ++ "/" ++ f)) as [q|] eqn:L; [|discriminate].
  assert (W : write_plots V cwd folder r (put q (File None) fs) = (fs', true)) by (destruct (fs q) as [[|c]|]; [discriminate|exact H..]).
  destruct Hg as [->|Hg]; [|exact (IH _ _ W g Hg)].
  apply locate_lead in L. subst q. pose proof (file_write folder r (lead cwd (parts (folder ++ "/" ++ g))) (put (lead cwd (parts (folder ++ "/" ++ g))) (File None) fs)) as K.
  rewrite W in K. apply K. exists None. unfold put. destruct (place_eqb_spec (lead cwd (parts (folder ++ "/" ++ g))) (lead cwd (parts (folder ++ "/" ++ g)))); congruence.
Qed.
Lemma plot_lead cfg f : slashless (name_of cfg) -> In f plot_files ->
  lead cwd (parts (plot_folder V name_of t0 cfg ++ "/" ++ f)) = plot_place cwd t0 (name_of cfg) f.
Proof.
  intros H Hf. rewrite parts_app, plot_folder_parts, (parts_slashless f) by (exact H || apply plot_slashless; exact Hf).
  destruct (rf_long t0) as [R1 R2]. destruct (sub_long V name_of t0 cfg) as [S1 S2]. destruct (plot_not_dot f Hf) as [N1 N2]. cbn [app lead].
  change (is_dot "..") with false. change (String.eqb ".." "..") with true. change (is_dot "results") with false.
  change (String.eqb "results" "..") with false. cbv iota. rewrite R1, R2. cbv iota. rewrite S1, S2. cbv iota.
  change (is_dot "") with true. cbv iota. rewrite N1, N2. reflexivity.
Qed.

Lemma job_ended j fs : fine name_of j -> snd (run_job V name_of cwd t0 j fs) = None ->
  exists cfg, j_loads V j = true /\ j_trained V j = Some cfg /\ j_plots_end V j = true /\ (exists fs', save_run V name_of cwd cfg (subfolder V name_of t0 cfg) (j_time V j) (j_how V j) fs = (fs', None))
  /\ forall f, In f (j_plots V j) -> is_file (fst (run_job V name_of cwd t0 j fs)) (plot_place cwd t0 (name_of cfg) f).
Proof.
  intros [F1 F2]. unfold run_job. destruct (j_loads V j); cbn [negb]; [|discriminate]. destruct (j_trained V j) as [cfg|]; [|discriminate].
  destruct (save_run V name_of cwd cfg _ _ _ fs) as [fs1 [|]] eqn:S; [discriminate|].
  unfold save_plots_of. destruct (mkdirs fs1 cwd _) as [fs2 [|]]; cbn [fst snd negb]; [|discriminate].
  destruct (write_plots V cwd (plot_folder V name_of t0 cfg) (j_plots V j) fs2) as [fs3 w] eqn:W. destruct w, (j_plots_end V j); cbn [andb snd fst]; try discriminate.
  intros _. exists cfg. repeat (split; [reflexivity || eauto|]). intros f Hf. rewrite <- plot_lead; [|apply F1; reflexivity|apply F2, Hf].
  exact (written_plots _ _ _ _ W f Hf).
Qed.
Lemma batch_complete jobs : forall n fs, Forall (fine name_of) jobs -> snd (run_batch V name_of cwd t0 n jobs fs) = None ->
  forall j, In j jobs -> exists cfg, j_loads V j = true /\ j_trained V j = Some cfg /\ j_how V j = Completes /\ j_plots_end V j = true
  /\ forall f, In f (j_plots V j) -> is_file (fst (run_batch V name_of cwd t0 n jobs fs)) (plot_place cwd t0 (name_of cfg) f).
Proof.
  induction jobs as [|j r IH]; intros n fs F H x Hx; [destruct Hx|]. inversion F as [|? ? Fj Fr]; subst. cbn [run_batch] in *.
  pose proof (job_ended j fs Fj) as J. destruct (run_job V name_of cwd t0 j fs) as [fs1 [|]]; cbn [fst snd] in *; [discriminate|].
  destruct Hx as [<-|Hx]; [|exact (IH _ _ Fr H x Hx)].
  destruct (J eq_refl) as (cfg & A & B & C & (fs' & S) & K). exists cfg. split; [exact A|]. split; [exact B|]. split; [|split; [exact C|]].
  - unfold save_run in S. destruct (mkdirs fs cwd _) as [fs2 [|]]; cbn [negb] in S; [|discriminate]. destruct (j_how V j); [reflexivity|discriminate|].
    destruct (locate fs2 cwd _) as [q|]; [|discriminate]. destruct (fs2 q) as [[|]|]; discriminate.
  - intros f Hf. apply file_batch, K, Hf.
Qed.
End ended.
Lemma ended_complete V (name_of : V -> string) cwd t0 jobs fs : Forall (fine name_of) jobs -> snd (run_cfgs V name_of cwd t0 jobs fs) = None ->
  forall j, In j jobs -> exists cfg, j_loads V j = true /\ j_trained V j = Some cfg /\ j_how V j = Completes /\ j_plots_end V j = true
  /\ forall f, In f (j_plots V j) -> exists c, fst (run_cfgs V name_of cwd t0 jobs fs) (plot_place cwd t0 (name_of cfg) f) = Some (File c).
Proof. exact (batch_complete V name_of cwd t0 jobs 0 fs). Qed.
