(** What the grouping means. *)
From Coq Require Import Reals ZArith String List Bool Lia Sorted.
From Verif Require Import Base PyVal Cplx Model_TMM Model_TMM2 Model_TMM3 Spec_TMM3 Proof_TMM22.
Import ListNotations.
Open Scope list_scope.
Open Scope nat_scope.

Lemma decompose l : (forall c, In c l -> c = "i"%string \/ c = "c"%string) -> l = [] \/ last l EmptyString = "i"%string ->
  exists ks, l = flat_map (fun k => repeat "c"%string k ++ ["i"%string]) ks.
Proof.
  induction l as [|x r IH]; intros H E; [exists []; reflexivity|].
  assert (E' : r = [] \/ last r EmptyString = "i"%string).
  { destruct r; [left; reflexivity|right]. destruct E as [E|E]; [discriminate|exact E]. }
  destruct (IH (fun c Hc => H c (or_intror Hc)) E') as (ks & ->). destruct (H x (or_introl eq_refl)) as [->| ->].
  - exists (0 :: ks). reflexivity.
  - destruct ks as [|k ks]; [destruct E as [E|E]; discriminate|]. exists (S k :: ks). reflexivity.
Qed.

Lemma feq_PInf x : feq x PInf = true <-> x = PInf.
Proof. destruct x; cbn; split; congruence. Qed.

Lemma group_loop_entries ns ds cs s s' layers : group_loop ns ds cs s layers = Ok s' ->
  forall i, In i layers -> nth i cs EmptyString = "i"%string \/ nth i cs EmptyString = "c"%string.
Proof.
  revert s. induction layers as [|a l IH]; intros s H i Hi; [destruct Hi|]. cbn in H. destruct (group_step ns ds cs s a) eqn:E; [|discriminate].
  destruct Hi as [<-|Hi]; [|eapply IH; eauto]. unfold group_step in E. destruct (String.eqb_spec (nth a cs EmptyString) "c"); [auto|].
  destruct (String.eqb_spec (nth a cs EmptyString) "i"); [auto|discriminate].
Qed.
Lemma group_loop_error ns ds cs s e layers : group_loop ns ds cs s layers = Err e -> e = ValueError.
Proof.
  revert s. induction layers as [|a l IH]; intros s H; [discriminate|]. cbn in H. destruct (group_step ns ds cs s a) eqn:E; [eapply IH; eauto|].
  cbn in H. injection H as <-. unfold group_step in E. destruct (String.eqb _ "c"); [destruct (negb _); discriminate|].
  destruct (String.eqb _ "i"); [destruct (negb _); discriminate|]. congruence.
Qed.

Lemma last_nth {A} (l : list A) d : last l d = nth (length l - 1) l d.
Proof.
  induction l as [|x l IH]; [reflexivity|]. destruct l as [|y l]; [reflexivity|]. change (last (x :: y :: l) d) with (last (y :: l) d). rewrite IH.
  replace (length (x :: y :: l) - 1) with (S (length (y :: l) - 1)) by (cbn; lia). reflexivity.
Qed.

Lemma well_formed_ks ns ds cs : well_formed ns ds cs -> exists ks, cs = coherency ks.
Proof.
  intros (H0 & H1 & H2 & H3 & H4 & H5 & H6 & H7). destruct cs as [|c cs]; [destruct ns; [congruence|discriminate]|].
  cbn in H5. subst c. destruct (decompose cs) as (ks & ->).
  - intros c Hc. apply H7. right. exact Hc.
  - destruct cs as [|x cs]; [left; reflexivity|right]. rewrite last_nth. replace (length ("i"%string :: x :: cs) - 1) with (S (length (x :: cs) - 1)) in H6 by (cbn; lia). exact H6.
  - exists ks. reflexivity.
Qed.

Lemma group_ok ns ds ks : well_formed ns ds (coherency ks) -> inc_group_layers ns ds (coherency ks) = Ok (group_of ns ds ks).
Proof.
  intros (H0 & H1 & H2 & H3 & H4 & H5 & H6 & H7). unfold inc_group_layers.
  assert (length ns <> 0) by (destruct ns; [congruence|discriminate]).
  rewrite H3, H4, H5, H6. destruct (Nat.eqb_spec (length ds) 0); [lia|]. destruct (Nat.eqb_spec (length (coherency ks)) 0); [lia|]. cbn [negb ensure bind feq String.eqb Ascii.eqb Bool.eqb andb].
  rewrite H1, H2. rewrite Nat.eqb_refl. cbn [negb ensure bind andb].
  destruct (group_loop_ks ns ds ks []) as (ld & ln & lw & E). rewrite app_nil_r in E.
  rewrite <- H2, coherency_length, E. reflexivity.
Qed.

Lemma group_accepts ns ds cs g : inc_group_layers ns ds cs = Ok g -> well_formed ns ds cs.
Proof.
  unfold inc_group_layers. destruct (Nat.eqb_spec (length ds) 0); [discriminate|]. cbn [negb ensure bind].
  destruct (feq (nth 0 ds NaN) PInf) eqn:E1; [|discriminate]. destruct (feq (nth (length ds - 1) ds NaN) PInf) eqn:E2; [|discriminate]. cbn [andb ensure bind].
  destruct (Nat.eqb_spec (length cs) 0); [discriminate|]. cbn [negb ensure bind].
  destruct (String.eqb_spec (nth 0 cs EmptyString) "i"); [|discriminate]. destruct (String.eqb_spec (nth (length cs - 1) cs EmptyString) "i"); [|discriminate]. cbn [andb ensure bind].
  destruct (Nat.eqb_spec (length ns) (length ds)); [|discriminate]. destruct (Nat.eqb_spec (length ds) (length cs)); [|discriminate]. cbn [andb ensure bind].
  destruct (group_loop ns ds cs loop_start (seq 0 (length ns))) eqn:E; [|discriminate]. intros _.
  apply feq_PInf in E1. apply feq_PInf in E2. repeat split; auto; try congruence.
  - intros ->. cbn in *. lia.
  - intros c Hc. apply (In_nth _ _ EmptyString) in Hc. destruct Hc as (i & Hi & <-). eapply group_loop_entries; [exact E|]. apply in_seq. lia.
Qed.

Lemma group_accepts_iff ns ds cs : (exists g, inc_group_layers ns ds cs = Ok g) <-> well_formed ns ds cs.
Proof.
  split; [intros (g & H); eapply group_accepts; eauto|]. intros H. destruct (well_formed_ks _ _ _ H) as (ks & ->). eexists. apply group_ok. exact H.
Qed.
Lemma group_refuses ns ds cs : ds <> [] -> cs <> [] -> ~ well_formed ns ds cs -> inc_group_layers ns ds cs = Err ValueError.
Proof.
  intros D Cc H. destruct (inc_group_layers ns ds cs) as [g|e] eqn:E; [exfalso; apply H; eapply group_accepts; eauto|]. f_equal.
  revert E. unfold inc_group_layers. destruct ds as [|d0 ds0]; [congruence|]. destruct cs as [|c0 cs0]; [congruence|]. set (ds := d0 :: ds0). set (cs := c0 :: cs0).
  cbn [length Nat.eqb negb ensure bind ds cs]. fold ds. fold cs.
  destruct (_ && _); cbn [ensure bind]; [|congruence]. destruct (_ && _); cbn [ensure bind]; [|congruence]. destruct (_ && _); cbn [ensure bind]; [|congruence].
  destruct (group_loop ns ds cs loop_start (seq 0 (length ns))) eqn:E; cbn [bind]; [discriminate|]. intros Q. injection Q as <-. eapply group_loop_error; eauto.
Qed.

Lemma group_ks ns ds cs g : inc_group_layers ns ds cs = Ok g -> exists ks, cs = coherency ks /\ g = group_of ns ds ks /\ well_formed ns ds cs /\ length ns = S (pos ks (length ks)).
Proof.
  intros H. assert (W := group_accepts _ _ _ _ H). destruct (well_formed_ks _ _ _ W) as (ks & ->). exists ks. split; [reflexivity|].
  rewrite (group_ok _ _ _ W) in H. split; [congruence|]. split; [exact W|]. destruct W as (_ & _ & L & _). rewrite coherency_length in L. lia.
Qed.

(** ** Positions *)
Lemma pos_S ks j : j < length ks -> pos ks (S j) = pos ks j + S (nth j ks 0).
Proof.
  intros H. unfold pos. revert ks H. induction j as [|j IH]; intros [|k ks] H; cbn [length] in H; try lia.
  - cbn. lia.
  - specialize (IH ks ltac:(lia)). change (firstn (S (S j)) (k :: ks)) with (k :: firstn (S j) ks). change (firstn (S j) (k :: ks)) with (k :: firstn j ks).
    change (nth (S j) (k :: ks) 0) with (nth j ks 0). cbn [list_sum fold_right] in *. unfold list_sum in *. cbn [fold_right]. lia.
Qed.
Lemma pos_0 ks : pos ks 0 = 0.
Proof. reflexivity. Qed.
Lemma pos_mono ks i j : i < j -> j <= length ks -> pos ks i < pos ks j.
Proof.
  intros H. induction H as [|j H IH]; intros L; rewrite pos_S by lia; [lia|]. specialize (IH ltac:(lia)). lia.
Qed.
Lemma pos_inj ks i j : i <= length ks -> j <= length ks -> pos ks i = pos ks j -> i = j.
Proof. intros H1 H2 E. destruct (Nat.lt_trichotomy i j) as [Q|[Q|Q]]; [|exact Q|]; apply (pos_mono ks) in Q; lia. Qed.

Lemma locate ks i : i <= pos ks (length ks) -> i = 0 \/ exists j x, j < length ks /\ x <= nth j ks 0 /\ i = S (pos ks j) + x.
Proof.
  intros H. assert (G : forall m, m <= length ks -> i <= pos ks m -> i = 0 \/ exists j x, j < length ks /\ x <= nth j ks 0 /\ i = S (pos ks j) + x).
  { induction m as [|m IH]; intros L Hi; [rewrite pos_0 in Hi; left; lia|].
    destruct (Nat.le_gt_cases i (pos ks m)) as [Q|Q]; [apply IH; lia|]. right. exists m, (i - S (pos ks m)). rewrite pos_S in Hi by lia. lia. }
  exact (G _ (le_n _) H).
Qed.

Lemma nth_flat {A} (f : nat -> list A) ks a d :
  (forall j, j < length ks -> length (f j) = S (nth j ks 0)) ->
  forall j x, j < length ks -> x <= nth j ks 0 -> nth (S (pos ks j) + x) (a :: flat_map f (seq 0 (length ks))) d = nth x (f j) d.
Proof.
  intros Hf. assert (L : forall m, m <= length ks -> length (flat_map f (seq 0 m)) = pos ks m).
  { induction m as [|m IH]; intros Hm; [reflexivity|]. rewrite seq_snoc, flat_map_snoc, app_length, IH by lia. cbn [Nat.add]. rewrite Hf, pos_S by lia. reflexivity. }
  intros j x Hj Hx. cbn [Nat.add nth].
  replace (length ks) with (j + S (length ks - S j)) by lia. rewrite seq_app, flat_map_app, app_nth2; rewrite L by lia; [|lia].
  replace (pos ks j + x - pos ks j) with x by lia. cbn [seq flat_map Nat.add]. rewrite app_nth1; [reflexivity|]. rewrite Hf by lia. lia.
Qed.
Lemma length_flat {A} (f : nat -> list A) ks a :
  (forall j, j < length ks -> length (f j) = S (nth j ks 0)) -> length (a :: flat_map f (seq 0 (length ks))) = S (pos ks (length ks)).
Proof.
  intros Hf. cbn. f_equal. assert (L : forall m, m <= length ks -> length (flat_map f (seq 0 m)) = pos ks m); [|apply L; lia].
  induction m as [|m IH]; intros Hm; [reflexivity|]. rewrite seq_snoc, flat_map_snoc, app_length, IH by lia. cbn [Nat.add]. rewrite Hf, pos_S by lia. reflexivity.
Qed.
Lemma coherency_flat ks : coherency ks = "i"%string :: flat_map (fun j => repeat "c"%string (nth j ks 0) ++ ["i"%string]) (seq 0 (length ks)).
Proof.
  unfold coherency. f_equal. induction ks as [|k ks IH] using rev_ind; [reflexivity|]. rewrite flat_map_snoc, app_length. cbn [length].
  replace (length ks + 1) with (S (length ks)) by lia. rewrite seq_snoc, flat_map_snoc. cbn [Nat.add]. rewrite nth_middle. f_equal. rewrite IH.
  apply flat_map_ext_in. intros j Hj. apply in_seq in Hj. rewrite nth_snoc by lia. reflexivity.
Qed.
Lemma nth_repeat_lt {A} (a d : A) m x : x < m -> nth x (repeat a m) d = a.
Proof. revert x. induction m as [|m IH]; intros x Hx; [lia|]. destruct x; [reflexivity|]. cbn. apply IH. lia. Qed.

(** The letter at a position *)
Lemma letter_c ks j x : j < length ks -> x < nth j ks 0 -> nth (S (pos ks j) + x) (coherency ks) EmptyString = "c"%string.
Proof.
  intros Hj Hx. rewrite coherency_flat, nth_flat by (auto; try lia; intros; rewrite app_length, repeat_length; cbn; lia).
  rewrite app_nth1 by (rewrite repeat_length; lia). apply nth_repeat_lt. exact Hx.
Qed.
Lemma letter_i ks j : j <= length ks -> nth (pos ks j) (coherency ks) EmptyString = "i"%string.
Proof.
  intros Hj. destruct j as [|j]; [reflexivity|]. rewrite pos_S by lia. replace (pos ks j + S (nth j ks 0)) with (S (pos ks j) + nth j ks 0) by lia.
  rewrite coherency_flat, nth_flat by (auto; try lia; intros; rewrite app_length, repeat_length; cbn; lia).
  rewrite app_nth2 by (rewrite repeat_length; lia). rewrite repeat_length, Nat.sub_diag. reflexivity.
Qed.

(** ** Stacks *)
Lemma nonempty_at ks j : j < length ks -> nth j ks 0 <> 0 -> nth_error (nonempty ks) (cnt ks j) = Some j.
Proof.
  induction ks as [|k ks IH] using rev_ind; intros Hj Hk; [cbn in Hj; lia|]. rewrite app_length in Hj. cbn in Hj. rewrite nonempty_snoc.
  rewrite cnt_snoc by lia. destruct (Nat.eq_dec j (length ks)) as [->|Q].
  - rewrite nth_middle in Hk. destruct (Nat.eqb_spec k 0); [lia|]. rewrite cnt_last, nth_error_app2, Nat.sub_diag by lia. reflexivity.
  - rewrite nth_snoc in Hk by lia. specialize (IH ltac:(lia) Hk). rewrite nth_error_app1; [exact IH|]. apply nth_error_Some. congruence.
Qed.
Lemma nonempty_NoDup ks : NoDup (nonempty ks).
Proof. apply NoDup_filter, seq_NoDup. Qed.
Lemma nonempty_cnt ks s j : nth_error (nonempty ks) s = Some j -> cnt ks j = s /\ j < length ks /\ nth j ks 0 <> 0.
Proof.
  intros H. assert (Q := nth_error_In _ _ H). apply in_nonempty in Q as (Q1 & Q2). split; [|auto].
  eapply (proj1 (NoDup_nth_error _) (nonempty_NoDup ks)); [|].
  - apply nth_error_Some. rewrite nonempty_at by auto. discriminate.
  - rewrite nonempty_at, H by auto. reflexivity.
Qed.
Lemma cnt_mono ks i j : i <= j -> cnt ks i <= cnt ks j.
Proof.
  intros H. unfold cnt. replace (firstn i ks) with (firstn i (firstn j ks)) by (rewrite firstn_firstn; f_equal; lia).
  rewrite <- (firstn_skipn i (firstn j ks)) at 2. rewrite filter_app, app_length. lia.
Qed.

Section G.
Variables (ns : list C) (ds : list pyfloat) (cs : list string) (g : group).
Hypothesis H : inc_group_layers ns ds cs = Ok g.

Ltac open := destruct (group_ks _ _ _ _ H) as (ks & Ecs & -> & WF & LN); unfold group_of;
  cbn [g_stack_d g_stack_n g_all_from_inc g_inc_from_all g_all_from_stack g_stack_from_all g_inc_from_stack g_stack_from_inc].

Lemma filter_letters ks m : m <= length ks ->
  filter (fun i => String.eqb (nth i (coherency ks) EmptyString) "i") (seq 0 (S (pos ks m))) = map (pos ks) (seq 0 (S m)).
Proof.
  induction m as [|m IH]; intros L; [reflexivity|]. rewrite (seq_snoc 0 (S m)), map_app, <- IH by lia. rewrite pos_S by lia.
  replace (S (pos ks m + S (nth m ks 0))) with (S (pos ks m) + (nth m ks 0 + 1)) by lia. rewrite seq_app, filter_app. f_equal.
  rewrite seq_app, filter_app. cbn [seq filter map Nat.add].
  rewrite (proj2 (String.eqb_eq _ _)).
  - replace (filter _ (seq (S (pos ks m)) (nth m ks 0))) with (@nil nat).
    + cbn [app]. rewrite pos_S by lia. f_equal. lia.
    + symmetry. assert (A : forall l, (forall i, In i l -> nth i (coherency ks) EmptyString = "c"%string) -> filter (fun i => String.eqb (nth i (coherency ks) EmptyString) "i") l = []).
      { induction l as [|x l IHl]; intros Hl; [reflexivity|]. cbn [filter]. rewrite (Hl x (or_introl eq_refl)). cbn. apply IHl. intros; apply Hl; right; auto. }
      apply A. intros i Hi. apply in_seq in Hi. replace i with (S (pos ks m) + (i - S (pos ks m))) by lia. apply letter_c; lia.
  - replace (S (pos ks m + nth m ks 0)) with (pos ks (S m)) by (rewrite pos_S by lia; lia). apply letter_i. lia.
Qed.

Lemma inc_positions : g_all_from_inc g = filter (fun i => String.eqb (nth i cs EmptyString) "i") (seq 0 (length cs)).
Proof. open. rewrite Ecs. rewrite coherency_length, filter_letters by lia. reflexivity. Qed.

Lemma nth_error_pos ks j i : nth_error (map (pos ks) (seq 0 (S (length ks)))) j = Some i <-> j <= length ks /\ i = pos ks j.
Proof.
  split.
  - intros E. assert (L : j < length (map (pos ks) (seq 0 (S (length ks))))) by (apply nth_error_Some; congruence). rewrite map_length, seq_length in L.
    split; [lia|]. apply (nth_error_nth _ _ (pos ks 0)) in E. rewrite map_nth, seq_nth in E by lia. subst. reflexivity.
  - intros [L ->]. rewrite (nth_error_nth' _ (pos ks 0)) by (rewrite map_length, seq_length; lia). rewrite map_nth, seq_nth by lia. reflexivity.
Qed.

Lemma inc_inverse : length (g_inc_from_all g) = length ns /\
  forall i j, (nth i (g_inc_from_all g) None = Some j <-> nth_error (g_all_from_inc g) j = Some i).
Proof.
  open. rewrite LN.
  set (f := fun j => repeat None (nth j ks 0) ++ [Some (S j)]).
  assert (Hf : forall j, j < length ks -> length (f j) = S (nth j ks 0)) by (intros; unfold f; rewrite app_length, repeat_length; cbn; lia).
  split; [apply (length_flat f); exact Hf|]. intros i j. rewrite nth_error_pos.
  destruct (Nat.le_gt_cases i (pos ks (length ks))) as [L|L].
  - destruct (locate ks i L) as [->|(m & x & Hm & Hx & ->)].
    + cbn. split; [intros Q; injection Q as <-; split; [lia|reflexivity]|]. intros [Lj E]. f_equal. apply (pos_inj ks); [lia|lia|]. rewrite pos_0. exact E.
    + rewrite (nth_flat f) by auto. unfold f. destruct (Nat.eq_dec x (nth m ks 0)) as [->|Nx].
      * rewrite app_nth2, repeat_length, Nat.sub_diag by (rewrite repeat_length; lia). cbn [nth].
        split.
        -- intros Q. injection Q as <-. split; [lia|]. rewrite pos_S by lia. lia.
        -- intros [Lj E]. f_equal. apply (pos_inj ks); [lia|lia|]. rewrite pos_S by lia. lia.
      * rewrite app_nth1, nth_repeat_lt by (rewrite ?repeat_length; lia). split; [discriminate|]. intros [Lj E]. exfalso.
        assert (m < j) by (apply Nat.nle_gt; intros Q; destruct (Nat.eq_dec j m) as [->|]; [lia|pose proof (pos_mono ks j m); lia]).
        destruct (Nat.eq_dec j (S m)) as [->|]; [rewrite pos_S in E; lia|]. pose proof (pos_mono ks (S m) j). rewrite pos_S in *; lia.
  - rewrite nth_overflow by (rewrite (length_flat f) by exact Hf; lia). split; [discriminate|]. intros [Lj E]. exfalso.
    destruct (Nat.eq_dec j (length ks)) as [->|]; [lia|]. pose proof (pos_mono ks j (length ks)). lia.
Qed.

Lemma stacks_are run : In run (g_all_from_stack g) <-> exists a m, is_stack cs a m /\ run = seq a (m + 2).
Proof.
  open. rewrite Ecs. rewrite in_map_iff. split.
  - intros (j & <- & Hj). apply in_nonempty in Hj as (Hj & Hk). exists (pos ks j), (nth j ks 0). split; [|reflexivity].
    repeat split.
    + lia.
    + rewrite coherency_length. assert (pos ks (S j) <= pos ks (length ks)) by (destruct (Nat.eq_dec (S j) (length ks)) as [->|]; [lia|apply Nat.lt_le_incl, pos_mono; lia]). rewrite pos_S in *; lia.
    + apply letter_i. lia.
    + replace (pos ks j + nth j ks 0 + 1) with (pos ks (S j)) by (rewrite pos_S; lia). apply letter_i. lia.
    + intros i Hi. replace i with (S (pos ks j) + (i - S (pos ks j))) by lia. apply letter_c; lia.
  - intros (a & m & (Hm & Hl & Ha & He & Hc) & ->).
    assert (exists j, j <= length ks /\ a = pos ks j) as (j & Hj & ->).
    { rewrite coherency_length in Hl. destruct (locate ks a ltac:(lia)) as [->|(j & x & Hj & Hx & ->)]; [exists 0; split; [lia|reflexivity]|].
      destruct (Nat.eq_dec x (nth j ks 0)) as [->|]; [exists (S j); split; [lia|rewrite pos_S; lia]|]. rewrite letter_c in Ha by lia. discriminate. }
    assert (Lj : j < length ks) by (rewrite coherency_length in Hl; destruct (Nat.eq_dec j (length ks)); [subst; lia|lia]).
    assert (nth j ks 0 = m) as <-.
    { destruct (Nat.lt_trichotomy (nth j ks 0) m) as [Q|[Q|Q]]; [|exact Q|]; exfalso.
      - specialize (Hc (pos ks (S j))). rewrite letter_i in Hc by lia. rewrite pos_S in Hc by lia. specialize (Hc ltac:(lia)). discriminate.
      - replace (pos ks j + m + 1) with (S (pos ks j) + m) in He by lia. rewrite letter_c in He by lia. discriminate. }
    exists j. split; [reflexivity|]. apply in_nonempty. lia.
Qed.

Lemma nth_error_map' {A B} (f : A -> B) l n : nth_error (map f l) n = option_map f (nth_error l n).
Proof. revert n. induction l as [|x l IH]; intros [|n]; cbn; auto. Qed.

Lemma stacks_in_order s s' run run' : s < s' -> nth_error (g_all_from_stack g) s = Some run -> nth_error (g_all_from_stack g) s' = Some run' ->
  last run 0 <= nth 0 run' 0.
Proof.
  open. rewrite !nth_error_map'. intros L. destruct (nth_error (nonempty ks) s) as [j|] eqn:E; [|discriminate]. destruct (nth_error (nonempty ks) s') as [j'|] eqn:E'; [|discriminate].
  cbn [option_map]. intros Q Q'. injection Q as <-. injection Q' as <-. apply nonempty_cnt in E as (E1 & E2 & E3). apply nonempty_cnt in E' as (E4 & E5 & E6).
  rewrite last_nth, seq_length, !seq_nth by lia.
  assert (j < j') by (apply Nat.nle_gt; intros Q; apply (cnt_mono ks) in Q; lia).
  assert (pos ks (S j) <= pos ks j') by (destruct (Nat.eq_dec (S j) j') as [->|]; [lia|apply Nat.lt_le_incl, pos_mono; lia]). rewrite pos_S in *; lia.
Qed.

Lemma stack_layers : g_stack_n g = map (map (fun i => nth i ns C0)) (g_all_from_stack g) /\
  g_stack_d g = map (fun run => PInf :: map (fun i => nth i ds NaN) (removelast (tl run)) ++ [PInf]) (g_all_from_stack g).
Proof.
  open. rewrite !map_map. split; [reflexivity|]. apply map_ext. intros j. replace (nth j ks 0 + 2) with (S (S (nth j ks 0))) by lia.
  rewrite seq_snoc. cbn [seq app tl]. rewrite removelast_last. reflexivity.
Qed.

Lemma seq_error a n w i : nth_error (seq a n) w = Some i <-> w < n /\ i = a + w.
Proof.
  split.
  - intros E. assert (L : w < length (seq a n)) by (apply nth_error_Some; congruence). rewrite seq_length in L. split; [exact L|].
    apply (nth_error_nth _ _ 0) in E. rewrite seq_nth in E by lia. auto.
  - intros [L ->]. rewrite (nth_error_nth' _ 0) by (rewrite seq_length; lia). rewrite seq_nth by lia. reflexivity.
Qed.

Lemma stack_inverse : length (g_stack_from_all g) = length ns /\
  forall i s w, (nth i (g_stack_from_all g) None = Some (s, w) <->
    exists run, nth_error (g_all_from_stack g) s = Some run /\ nth_error run w = Some i /\ 0 < w /\ S w < length run).
Proof.
  open. rewrite LN.
  set (f := fun j => map (fun w => Some (cnt ks j, S w)) (seq 0 (nth j ks 0)) ++ [None]).
  assert (Hf : forall j, j < length ks -> length (f j) = S (nth j ks 0)) by (intros; unfold f; rewrite app_length, map_length, seq_length; cbn; lia).
  split; [apply (length_flat f); exact Hf|]. intros i s w.
  assert (Back : (exists run, nth_error (map (fun j => seq (pos ks j) (nth j ks 0 + 2)) (nonempty ks)) s = Some run /\ nth_error run w = Some i /\ 0 < w /\ S w < length run) ->
     exists j, j < length ks /\ s = cnt ks j /\ 0 < w <= nth j ks 0 /\ i = S (pos ks j) + (w - 1)).
  { intros (run & E1 & E2 & E3 & E4). rewrite nth_error_map' in E1. destruct (nth_error (nonempty ks) s) as [j|] eqn:E; [|discriminate].
    cbn in E1. injection E1 as <-. apply nonempty_cnt in E as (Q1 & Q2 & Q3). apply seq_error in E2 as (Q4 & Q5). rewrite seq_length in E4. exists j. repeat split; lia. }
  split.
  - intros E. assert (L : i <= pos ks (length ks)).
    { apply Nat.nlt_ge. intros Q. rewrite nth_overflow in E; [discriminate|]. rewrite (length_flat f) by exact Hf. lia. }
    destruct (locate ks i L) as [->|(m & x & Hm & Hx & ->)]; [discriminate|]. rewrite (nth_flat f) in E by auto. unfold f in E.
    destruct (Nat.eq_dec x (nth m ks 0)) as [->|Nx].
    + rewrite app_nth2, map_length, seq_length, Nat.sub_diag in E by (rewrite map_length, seq_length; lia). discriminate.
    + rewrite app_nth1 in E by (rewrite map_length, seq_length; lia). rewrite (nth_indep _ _ (Some (cnt ks m, S 0))) in E by (rewrite map_length, seq_length; lia).
      rewrite (map_nth (fun w => Some (cnt ks m, S w))) in E. rewrite seq_nth in E by lia. injection E as <- <-.
      exists (seq (pos ks m) (nth m ks 0 + 2)). rewrite nth_error_map', nonempty_at by lia. split; [reflexivity|]. rewrite seq_error, seq_length. lia.
  - intros Q. apply Back in Q as (j & Hj & -> & Hw & ->). rewrite (nth_flat f) by (auto; lia). unfold f.
    rewrite app_nth1 by (rewrite map_length, seq_length; lia). rewrite (nth_indep _ _ (Some (cnt ks j, S 0))) by (rewrite map_length, seq_length; lia).
    rewrite (map_nth (fun w => Some (cnt ks j, S w))), seq_nth by lia. f_equal. f_equal. lia.
Qed.

Lemma around_stack : length (g_inc_from_stack g) = length (g_all_from_stack g) /\
  forall s run j, nth_error (g_all_from_stack g) s = Some run -> nth_error (g_inc_from_stack g) s = Some j ->
    nth_error (g_all_from_inc g) j = Some (nth 0 run 0) /\ nth_error (g_all_from_inc g) (S j) = Some (last run 0).
Proof.
  open. rewrite map_length. split; [reflexivity|]. intros s run j E1 E2. rewrite nth_error_map', E2 in E1. cbn in E1. injection E1 as <-.
  apply nonempty_cnt in E2 as (Q1 & Q2 & Q3). rewrite !nth_error_pos, last_nth, seq_length, !seq_nth by lia. rewrite pos_S by lia. lia.
Qed.

Lemma stack_before : length (g_stack_from_inc g) = length (g_all_from_inc g) /\
  forall j s, (nth j (g_stack_from_inc g) None = Some s <->
    exists run, nth_error (g_all_from_stack g) s = Some run /\ nth_error (g_all_from_inc g) j = Some (last run 0)).
Proof.
  open. split; [cbn [length]; rewrite !map_length, !seq_length; reflexivity|]. intros j s.
  assert (Last : forall m, m < length ks -> last (seq (pos ks m) (nth m ks 0 + 2)) 0 = pos ks (S m)).
  { intros m Hm. rewrite last_nth, seq_length, seq_nth, pos_S by lia. lia. }
  split.
  - destruct j as [|j]; [discriminate|]. cbn [nth]. intros E. assert (L : j < length ks).
    { apply Nat.nle_gt. intros Q. rewrite nth_overflow in E; [discriminate|]. rewrite map_length, seq_length. exact Q. }
    rewrite (nth_indep _ _ ((fun j => if Nat.eqb (nth j ks 0) 0 then None else Some (cnt ks j)) 0)) in E by (rewrite map_length, seq_length; lia).
    rewrite (map_nth (fun j => if Nat.eqb (nth j ks 0) 0 then None else Some (cnt ks j))), seq_nth in E by lia. cbn [Nat.add] in E.
    destruct (Nat.eqb_spec (nth j ks 0) 0); [discriminate|]. injection E as <-. exists (seq (pos ks j) (nth j ks 0 + 2)).
    rewrite nth_error_map', nonempty_at by lia. split; [reflexivity|]. rewrite nth_error_pos, Last by lia. split; [lia|reflexivity].
  - intros (run & E1 & E2). rewrite nth_error_map' in E1. destruct (nth_error (nonempty ks) s) as [m|] eqn:E; [|discriminate]. cbn in E1. injection E1 as <-.
    apply nonempty_cnt in E as (Q1 & Q2 & Q3). apply nth_error_pos in E2 as (Q4 & Q5). rewrite Last in Q5 by lia. apply pos_inj in Q5; [|lia|lia]. subst j. cbn [nth].
    rewrite (nth_indep _ _ ((fun j => if Nat.eqb (nth j ks 0) 0 then None else Some (cnt ks j)) 0)) by (rewrite map_length, seq_length; lia).
    rewrite (map_nth (fun j => if Nat.eqb (nth j ks 0) 0 then None else Some (cnt ks j))), seq_nth by lia. cbn [Nat.add].
    destruct (Nat.eqb_spec (nth m ks 0) 0); [lia|]. congruence.
Qed.
End G.
