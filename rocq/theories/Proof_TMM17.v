(** Depths. *)
From Coq Require Import Reals ZArith String List Bool Lra Lia Psatz.
From Verif Require Import Base PyVal Cplx CplxLemmas Model_TMM Spec_TMM Model_TMM2 Spec_TMM2 Proof_TMM Proof_TMM12 Proof_TMM16.
Import ListNotations.
Open Scope R_scope.

Lemma flt_fin a b : flt (Fin a) (Fin b) = true <-> a < b.
Proof. unfold flt. apply Rltb_true. Qed.
Lemma removelast_snoc {A} (l : list A) x : removelast (l ++ [x]) = l.
Proof. apply removelast_last. Qed.

Lemma sum_fin ds a : fold_left fadd (map Fin ds) (Fin a) = Fin (a + total ds).
Proof.
  revert a. induction ds as [|d ds IH]; intros a; cbn [map fold_left total fold_right]; [f_equal; ring|].
  cbn [fadd]. rewrite IH. unfold total. f_equal. ring.
Qed.

Lemma find_loop_fin ds k x : Forall (fun d => 0 <= d) ds -> 0 <= x ->
  exists i z, find_loop (map Fin ds) k (Fin x) = ((k + Z.of_nat i)%Z, Fin z) /\ at_depth ds x i z.
Proof.
  revert k x. induction ds as [|d ds IH]; intros k x H Hx; cbn [map find_loop].
  - exists 0%nat, x. split; [f_equal; lia|]. unfold at_depth. cbn. repeat split; try lia; lra.
  - inversion H as [|? ? Hd Hr]; subst. destruct (fle (Fin d) (Fin x)) eqn:E.
    + apply fle_fin in E. cbn [fneg fadd]. destruct (IH (k + 1)%Z (x + - d) Hr ltac:(lra)) as (i & z & F & G).
      exists (S i), z. rewrite F. split; [f_equal; lia|]. destruct G as (G1 & G2 & G3 & G4). unfold at_depth.
      cbn [firstn total fold_right length nth]. unfold total in *. repeat split; try lia; try lra. intros Q. apply G4. lia.
    + assert (x < d). { destruct (Rlt_le_dec x d); [assumption|]. apply fle_fin in r. congruence. }
      exists 0%nat, x. split; [f_equal; lia|]. unfold at_depth. cbn. repeat split; try lia; lra.
Qed.

Lemma total_app l m : total (l ++ m) = total l + total m.
Proof. unfold total. induction l as [|x l IH]; cbn; [ring|]. rewrite IH. ring. Qed.
Lemma total_nonneg l : Forall (fun d => 0 <= d) l -> 0 <= total l.
Proof. unfold total. induction 1; cbn; [lra|]. lra. Qed.
Lemma firstn_total_step ds i : (i < length ds)%nat -> total (firstn (S i) ds) = total (firstn i ds) + nth i ds 0.
Proof.
  revert i. induction ds as [|d ds IH]; intros i H; cbn [length] in H; [lia|].
  destruct i as [|i]; [cbn; ring|]. change (firstn (S (S i)) (d :: ds)) with (d :: firstn (S i) ds).
  change (firstn (S i) (d :: ds)) with (d :: firstn i ds). cbn [nth]. specialize (IH i ltac:(lia)). unfold total in *. cbn [fold_right]. lra.
Qed.
Lemma firstn_total_mono ds i j : Forall (fun d => 0 <= d) ds -> (i <= j)%nat -> (j <= length ds)%nat -> total (firstn i ds) <= total (firstn j ds).
Proof.
  intros H Hij Hj. induction j as [|j IH]; [replace i with 0%nat by lia; lra|].
  destruct (Nat.eq_dec i (S j)) as [->|]; [lra|]. specialize (IH ltac:(lia) ltac:(lia)). rewrite firstn_total_step by lia.
  assert (0 <= nth j ds 0). { rewrite Forall_forall in H. apply H, nth_In. lia. } lra.
Qed.
Lemma at_depth_unique ds x i z j y : Forall (fun d => 0 <= d) ds -> at_depth ds x i z -> at_depth ds x j y -> i = j /\ z = y.
Proof.
  intros H (A1 & A2 & A3 & A4) (B1 & B2 & B3 & B4).
  enough (i = j) as -> by (split; [reflexivity|lra]).
  destruct (lt_eq_lt_dec i j) as [[L|E]|L]; [exfalso|exact E|exfalso].
  - pose proof (firstn_total_mono ds (S i) j H ltac:(lia) B1) as M. rewrite firstn_total_step in M by lia. specialize (A4 ltac:(lia)). lra.
  - pose proof (firstn_total_mono ds (S j) i H ltac:(lia) A1) as M. rewrite firstn_total_step in M by lia. specialize (B4 ltac:(lia)). lra.
Qed.

Lemma find_fin ds x : Forall (fun d => 0 <= d) ds -> 0 <= x ->
  exists i z, find_in_structure (map Fin ds) (Fin x) = Ok (Z.of_nat i, Fin z) /\ at_depth ds x i z.
Proof.
  intros H Hx. unfold find_in_structure. rewrite sum_fin. cbn [feq].
  destruct (flt (Fin x) (Fin 0)) eqn:E; [apply flt_fin in E; lra|].
  destruct (find_loop_fin ds 0 x H Hx) as (i & z & F & G). rewrite F. exists i, z. auto.
Qed.

Lemma found : forall ds x layer z, Forall (fun d => 0 <= d) ds -> 0 <= x ->
  (find_in_structure (map Fin ds) (Fin x) = Ok (layer, Fin z) <-> exists i, layer = Z.of_nat i /\ at_depth ds x i z).
Proof.
  intros ds x layer z H Hx. destruct (find_fin ds x H Hx) as (i & y & F & G). rewrite F. split.
  - intros Q. assert (Q1 : Z.of_nat i = layer) by congruence. assert (Q2 : y = z) by congruence. subst. eauto.
  - intros (j & -> & J). destruct (at_depth_unique _ _ _ _ _ _ H G J) as [-> ->]. reflexivity.
Qed.
Lemma found_before : forall ds x, x < 0 -> find_in_structure (map Fin ds) (Fin x) = Ok ((-1)%Z, Fin x).
Proof. intros ds x H. unfold find_in_structure. rewrite sum_fin. cbn [feq]. apply flt_fin in H. rewrite H. reflexivity. Qed.

Lemma inner_stack ds : removelast (tl (stack_of ds)) = map Fin ds.
Proof. unfold stack_of. cbn [tl]. apply removelast_snoc. Qed.

Lemma found_exists : forall ds x, Forall (fun d => 0 <= d) ds ->
  exists i z, find_in_structure_with_inf (stack_of ds) (Fin x) = Ok (Z.of_nat i, Fin z) /\ in_stack ds x i z.
Proof.
  intros ds x H. unfold find_in_structure_with_inf. destruct (flt (Fin x) (Fin 0)) eqn:E.
  - apply flt_fin in E. exists 0%nat, x. split; [reflexivity|]. left. auto.
  - assert (0 <= x). { destruct (Rlt_le_dec x 0) as [L|L]; [apply flt_fin in L; congruence|exact L]. }
    rewrite inner_stack. destruct (find_fin ds x H H0) as (i & z & F & G). rewrite F. cbn [bind fst snd].
    exists (S i), z. split; [do 2 f_equal; lia|]. right. split; [lia|]. replace (S i - 1)%nat with i by lia. exact G.
Qed.
Lemma in_stack_unique ds x i z j y : Forall (fun d => 0 <= d) ds -> in_stack ds x i z -> in_stack ds x j y -> i = j /\ z = y.
Proof.
  intros H [(-> & A & ->)|(A & B)] [(-> & A' & ->)|(A' & B')].
  - auto.
  - exfalso. destruct B' as (B1 & B2 & B3 & _). pose proof (total_nonneg (firstn (j - 1) ds)) as T.
    assert (Forall (fun d => 0 <= d) (firstn (j - 1) ds)) by (apply Forall_forall; intros d I; rewrite Forall_forall in H; apply H; rewrite <- (firstn_skipn (j-1) ds); apply in_or_app; auto).
    specialize (T H0). lra.
  - exfalso. destruct B as (B1 & B2 & B3 & _). pose proof (total_nonneg (firstn (i - 1) ds)) as T.
    assert (Forall (fun d => 0 <= d) (firstn (i - 1) ds)) by (apply Forall_forall; intros d I; rewrite Forall_forall in H; apply H; rewrite <- (firstn_skipn (i-1) ds); apply in_or_app; auto).
    specialize (T H0). lra.
  - destruct (at_depth_unique _ _ _ _ _ _ H B B') as [E ->]. split; [lia|reflexivity].
Qed.
Lemma found_in_stack : forall ds x layer z, Forall (fun d => 0 <= d) ds ->
  (find_in_structure_with_inf (stack_of ds) (Fin x) = Ok (layer, Fin z) <-> exists i, layer = Z.of_nat i /\ in_stack ds x i z).
Proof.
  intros ds x layer z H. destruct (found_exists ds x H) as (i & y & F & G). rewrite F. split.
  - intros Q. assert (Q1 : Z.of_nat i = layer) by congruence. assert (Q2 : y = z) by congruence. subst. eauto.
  - intros (j & -> & J). destruct (in_stack_unique _ _ _ _ _ _ H G J) as [-> ->]. reflexivity.
Qed.

Lemma starts_fin ds a : starts_from (Fin a) (map Fin ds) = map (fun i => Fin (a + total (firstn i ds))) (seq 1 (length ds)).
Proof.
  revert a. induction ds as [|d ds IH]; intros a; cbn [map starts_from length seq]; [reflexivity|].
  cbn [fadd map]. f_equal; [cbn; f_equal; ring|]. rewrite IH, <- (seq_shift (length ds) 1), map_map. apply map_ext. intros i.
  rewrite !firstn_cons. unfold total. cbn [fold_right]. f_equal. ring.
Qed.
Lemma starts_are : forall ds, layer_starts (stack_of ds) = Ok (NInf :: map (fun i => Fin (total (firstn i ds))) (seq 0 (S (length ds)))).
Proof.
  intros ds. unfold layer_starts. destruct (Nat.ltb_spec (length (stack_of ds)) 2) as [L|L].
  { unfold stack_of in L. cbn [length] in L. rewrite app_length in L. cbn in L. lia. }
  rewrite inner_stack, starts_fin. cbn [seq map firstn total fold_right]. do 3 f_equal. apply map_ext. intros i. f_equal. ring.
Qed.
Lemma starts_refused : forall d_list, (length d_list < 2)%nat -> layer_starts d_list = Err IndexError.
Proof. intros l H. unfold layer_starts. destruct (Nat.ltb_spec (length l) 2); [reflexivity|lia]. Qed.

(** An infinite layer among them *)
Lemma sum_inf ds a : (forall d, In d ds -> d = PInf \/ exists x, d = Fin x) -> a = PInf \/ (exists x, a = Fin x) /\ In PInf ds ->
  fold_left fadd ds a = PInf.
Proof.
  revert a. induction ds as [|d ds IH]; intros a H Ha.
  - destruct Ha as [->|[_ []]]. reflexivity.
  - cbn [fold_left]. apply IH; [intros d' I; apply H; right; exact I|].
    destruct (H d (or_introl eq_refl)) as [->|[y ->]]; destruct Ha as [->|[[x ->] [Q|Q]]]; cbn [fadd]; try discriminate; auto; right; split; eauto.
Qed.
Lemma infinite_refused : forall ds x, (forall d, In d ds -> d = PInf \/ exists y, d = Fin y) -> In PInf ds ->
  find_in_structure ds x = Err ValueError.
Proof. intros ds x H I. unfold find_in_structure. rewrite sum_inf; [reflexivity|exact H|right; eauto]. Qed.
