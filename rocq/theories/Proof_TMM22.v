(** The grouping of layers, as formulas in the lengths of the coherent runs. *)
From Coq Require Import Reals ZArith String List Bool Lia.
From Verif Require Import Base PyVal Cplx Model_TMM Model_TMM2 Model_TMM3.
Import ListNotations.
Open Scope list_scope.
Open Scope nat_scope.

Definition coherency (ks : list nat) : list string :=
  "i"%string :: flat_map (fun k => repeat "c"%string k ++ ["i"%string]) ks.
Definition pos (ks : list nat) (j : nat) : nat := list_sum (firstn j ks) + j.
Definition cnt (ks : list nat) (j : nat) : nat := length (filter (fun k => negb (Nat.eqb k 0)) (firstn j ks)).
Definition nonempty (ks : list nat) : list nat := filter (fun j => negb (Nat.eqb (nth j ks 0) 0)) (seq 0 (length ks)).

Section G.
Variables (ns : list C) (ds : list pyfloat).
Definition group_of (ks : list nat) : group :=
  mkGroup
    (map (fun j => PInf :: map (fun i => nth i ds NaN) (seq (S (pos ks j)) (nth j ks 0)) ++ [PInf]) (nonempty ks))
    (map (fun j => map (fun i => nth i ns C0) (seq (pos ks j) (nth j ks 0 + 2))) (nonempty ks))
    (map (pos ks) (seq 0 (S (length ks))))
    (Some 0 :: flat_map (fun j => repeat None (nth j ks 0) ++ [Some (S j)]) (seq 0 (length ks)))
    (map (fun j => seq (pos ks j) (nth j ks 0 + 2)) (nonempty ks))
    (None :: flat_map (fun j => map (fun w => Some (cnt ks j, S w)) (seq 0 (nth j ks 0)) ++ [None]) (seq 0 (length ks)))
    (nonempty ks)
    (None :: map (fun j => if Nat.eqb (nth j ks 0) 0 then None else Some (cnt ks j)) (seq 0 (length ks))).

Lemma group_loop_app cs s a b : group_loop ns ds cs s (a ++ b) = (let! s' := group_loop ns ds cs s a in group_loop ns ds cs s' b).
Proof. revert s. induction a as [|i a IH]; intros s; cbn; [reflexivity|]. destruct (group_step ns ds cs s i); cbn; auto. Qed.

Lemma seq_snoc a n : seq a (S n) = seq a n ++ [a + n].
Proof. rewrite <- Nat.add_1_r, seq_app. reflexivity. Qed.
Lemma append_last_app l x y : append_to_last (l ++ [x]) y = l ++ [x ++ [y]].
Proof. unfold append_to_last. rewrite removelast_last, last_last. reflexivity. Qed.

Variable cs : list string.
Notation nn := (fun i => nth i ns C0).
Notation dd := (fun i => nth i ds NaN).

(** A run of coherent layers *)
Lemma run_c inc st sd sn afi ifa afs sfa ifs sfi ld ln lw p m : 1 <= p ->
  (forall i, p <= i < p + S m -> nth i cs EmptyString = "c"%string) ->
  group_loop ns ds cs (mkLoop inc st (mkGroup sd sn afi ifa afs sfa ifs sfi) false ld ln lw) (seq p (S m)) =
  Ok (mkLoop inc st (mkGroup sd sn afi (ifa ++ repeat None (S m)) (afs ++ [seq (p - 1) (m + 2)])
        (sfa ++ map (fun w => Some (st, S w)) (seq 0 (S m))) (ifs ++ [inc - 1]) sfi) true
        (PInf :: map dd (seq p (S m))) (map nn (seq (p - 1) (m + 2))) (S m)).
Proof.
  intros Hp. induction m as [|m IH]; intros H.
  - cbn [seq group_loop]. unfold group_step. rewrite (H p) by lia. cbn. replace (S (p - 1)) with p by lia. reflexivity.
  - rewrite (seq_snoc p (S m)), group_loop_app, IH by (intros; apply H; lia). cbn [bind group_loop]. unfold group_step.
    rewrite (H (p + S m)) by lia. cbn [l_group l_on l_inc l_stack l_d l_n l_within negb String.eqb Ascii.eqb Bool.eqb bind
       g_stack_d g_stack_n g_all_from_inc g_inc_from_all g_all_from_stack g_stack_from_all g_inc_from_stack g_stack_from_inc].
    rewrite append_last_app. replace (S m + 2) with (S (m + 2)) by lia. rewrite (seq_snoc (p - 1) (m + 2)), (seq_snoc 0 (S m)), !map_app.
    replace (p - 1 + (m + 2)) with (p + S m) by lia. cbn [map]. rewrite <- !app_assoc.
    replace (repeat None (S (S m))) with (repeat (@None nat) (S m) ++ [None]) by (rewrite <- repeat_cons; reflexivity).
    cbn [Nat.add]. rewrite <- app_comm_cons. reflexivity.
Qed.

(** A run, perhaps empty, and the incoherent layer behind it *)
Lemma run_gap inc st sd sn afi ifa afs sfa ifs sfi ld ln lw p k : 1 <= p ->
  (forall i, p <= i < p + k -> nth i cs EmptyString = "c"%string) -> nth (p + k) cs EmptyString = "i"%string ->
  exists ld' ln' lw',
  group_loop ns ds cs (mkLoop inc st (mkGroup sd sn afi ifa afs sfa ifs sfi) false ld ln lw) (seq p (S k)) =
  Ok (mkLoop (S inc) (if Nat.eqb k 0 then st else S st)
    (mkGroup (sd ++ if Nat.eqb k 0 then [] else [PInf :: map dd (seq p k) ++ [PInf]])
             (sn ++ if Nat.eqb k 0 then [] else [map nn (seq (p - 1) (k + 2))])
             (afi ++ [p + k]) (ifa ++ repeat None k ++ [Some inc])
             (afs ++ if Nat.eqb k 0 then [] else [seq (p - 1) (k + 2)])
             (sfa ++ map (fun w => Some (st, S w)) (seq 0 k) ++ [None])
             (ifs ++ if Nat.eqb k 0 then [] else [inc - 1])
             (sfi ++ [if Nat.eqb k 0 then None else Some st]))
    false ld' ln' lw').
Proof.
  intros Hp H1 H2. destruct k as [|m].
  - do 3 eexists. cbn [seq group_loop]. unfold group_step. rewrite Nat.add_0_r in *. rewrite H2. cbn. rewrite !app_nil_r. reflexivity.
  - do 3 eexists. rewrite (seq_snoc p (S m)), group_loop_app, run_c by (auto; intros; apply H1; lia). cbn [bind group_loop]. unfold group_step.
    rewrite H2. cbn [l_group l_on l_inc l_stack l_d l_n l_within negb String.eqb Ascii.eqb Bool.eqb bind Nat.eqb
       g_stack_d g_stack_n g_all_from_inc g_inc_from_all g_all_from_stack g_stack_from_all g_inc_from_stack g_stack_from_inc].
    rewrite append_last_app. replace (S m + 2) with (S (m + 2)) by lia. rewrite (seq_snoc (p - 1) (m + 2)), !map_app.
    replace (p - 1 + (m + 2)) with (p + S m) by lia. rewrite <- !app_assoc. cbn [map]. rewrite <- app_comm_cons. reflexivity.
Qed.

Lemma pos_snoc ks k j : j <= length ks -> pos (ks ++ [k]) j = pos ks j.
Proof. intros H. unfold pos. rewrite firstn_app. replace (j - length ks) with 0 by lia. cbn [firstn]. rewrite app_nil_r. reflexivity. Qed.
Lemma cnt_snoc ks k j : j <= length ks -> cnt (ks ++ [k]) j = cnt ks j.
Proof. intros H. unfold cnt. rewrite firstn_app. replace (j - length ks) with 0 by lia. cbn [firstn]. rewrite app_nil_r. reflexivity. Qed.
Lemma nth_snoc ks k j : j < length ks -> nth j (ks ++ [k]) 0 = nth j ks 0.
Proof. intros H. apply app_nth1. exact H. Qed.
Lemma pos_last ks k : pos (ks ++ [k]) (S (length ks)) = pos ks (length ks) + S k.
Proof.
  unfold pos. rewrite firstn_all2 by (rewrite app_length; cbn; lia). rewrite firstn_all, list_sum_app. cbn. lia.
Qed.
Lemma cnt_last ks : cnt ks (length ks) = length (nonempty ks).
Proof.
  unfold cnt, nonempty. rewrite firstn_all. induction ks as [|k ks IH] using rev_ind; [reflexivity|].
  rewrite filter_app, app_length, IH, app_length. cbn [length]. replace (length ks + 1) with (S (length ks)) by lia.
  rewrite seq_snoc, filter_app, app_length. f_equal.
  - f_equal. apply filter_ext_in. intros j Hj. apply in_seq in Hj. rewrite nth_snoc by lia. reflexivity.
  - cbn [Nat.add filter]. rewrite nth_middle. destruct (Nat.eqb k 0); reflexivity.
Qed.
Lemma nonempty_snoc ks k : nonempty (ks ++ [k]) = nonempty ks ++ (if Nat.eqb k 0 then [] else [length ks]).
Proof.
  unfold nonempty. rewrite app_length. cbn [length]. replace (length ks + 1) with (S (length ks)) by lia.
  rewrite seq_snoc, filter_app. f_equal.
  - apply filter_ext_in. intros j Hj. apply in_seq in Hj. rewrite nth_snoc by lia. reflexivity.
  - cbn [Nat.add filter]. rewrite nth_middle. destruct (Nat.eqb k 0); reflexivity.
Qed.
Lemma in_nonempty ks j : In j (nonempty ks) <-> j < length ks /\ nth j ks 0 <> 0.
Proof. unfold nonempty. rewrite filter_In, in_seq, negb_true_iff, Nat.eqb_neq. intuition lia. Qed.

Lemma flat_map_snoc {A B} (f : A -> list B) l x : flat_map f (l ++ [x]) = flat_map f l ++ f x.
Proof. rewrite !flat_map_concat_map, map_app, concat_app. cbn. rewrite app_nil_r. reflexivity. Qed.
Lemma flat_map_ext_in {A B} (f g : A -> list B) l : (forall x, In x l -> f x = g x) -> flat_map f l = flat_map g l.
Proof. intros H. rewrite !flat_map_concat_map. f_equal. apply map_ext_in. exact H. Qed.

Lemma group_of_snoc ks k : let p := S (pos ks (length ks)) in let g := group_of ks in
  group_of (ks ++ [k]) =
  mkGroup (g_stack_d g ++ if Nat.eqb k 0 then [] else [PInf :: map dd (seq p k) ++ [PInf]])
             (g_stack_n g ++ if Nat.eqb k 0 then [] else [map nn (seq (p - 1) (k + 2))])
             (g_all_from_inc g ++ [p + k]) (g_inc_from_all g ++ repeat None k ++ [Some (S (length ks))])
             (g_all_from_stack g ++ if Nat.eqb k 0 then [] else [seq (p - 1) (k + 2)])
             (g_stack_from_all g ++ map (fun w => Some (cnt ks (length ks), S w)) (seq 0 k) ++ [None])
             (g_inc_from_stack g ++ if Nat.eqb k 0 then [] else [length ks])
             (g_stack_from_inc g ++ [if Nat.eqb k 0 then None else Some (cnt ks (length ks))]).
Proof.
  intros p g. unfold group_of. rewrite nonempty_snoc, app_length. cbn [length]. replace (length ks + 1) with (S (length ks)) by lia.
  unfold g. cbn [group_of g_stack_d g_stack_n g_all_from_inc g_inc_from_all g_all_from_stack g_stack_from_all g_inc_from_stack g_stack_from_inc].
  assert (Q : forall j, In j (nonempty ks) -> j < length ks) by (intros j Hj; apply in_nonempty in Hj; tauto).
  assert (Z : Nat.sub p 1 = pos ks (length ks)) by (unfold p; lia).
  f_equal.
  - rewrite map_app. f_equal.
    + apply map_ext_in. intros j Hj. specialize (Q j Hj). rewrite nth_snoc, pos_snoc by lia. reflexivity.
    + destruct (Nat.eqb k 0); [reflexivity|]. cbn [map]. rewrite nth_middle, pos_snoc by lia. reflexivity.
  - rewrite map_app. f_equal.
    + apply map_ext_in. intros j Hj. specialize (Q j Hj). rewrite nth_snoc, pos_snoc by lia. reflexivity.
    + destruct (Nat.eqb k 0); [reflexivity|]. cbn [map]. rewrite nth_middle, pos_snoc, Z by lia. reflexivity.
  - rewrite (seq_snoc 0 (S (length ks))), map_app. f_equal.
    + apply map_ext_in. intros j Hj. apply in_seq in Hj. apply pos_snoc. lia.
    + cbn [map Nat.add]. rewrite pos_last. unfold p. f_equal. lia.
  - rewrite (seq_snoc 0 (length ks)), flat_map_snoc, <- app_comm_cons. cbn [Nat.add]. rewrite nth_middle. f_equal. f_equal.
    apply flat_map_ext_in. intros j Hj. apply in_seq in Hj. rewrite nth_snoc by lia. reflexivity.
  - rewrite map_app. f_equal.
    + apply map_ext_in. intros j Hj. specialize (Q j Hj). rewrite nth_snoc, pos_snoc by lia. reflexivity.
    + destruct (Nat.eqb k 0); [reflexivity|]. cbn [map]. rewrite nth_middle, pos_snoc, Z by lia. reflexivity.
  - rewrite (seq_snoc 0 (length ks)), flat_map_snoc, <- app_comm_cons. cbn [Nat.add]. rewrite nth_middle, cnt_snoc by lia. f_equal. f_equal.
    apply flat_map_ext_in. intros j Hj. apply in_seq in Hj. rewrite nth_snoc, cnt_snoc by lia. reflexivity.
  - rewrite (seq_snoc 0 (length ks)), map_app, <- app_comm_cons. cbn [Nat.add map]. rewrite nth_middle, cnt_snoc by lia. f_equal. f_equal.
    apply map_ext_in. intros j Hj. apply in_seq in Hj. rewrite nth_snoc, cnt_snoc by lia. reflexivity.
Qed.
End G.

Lemma coherency_snoc ks k : coherency (ks ++ [k]) = coherency ks ++ repeat "c"%string k ++ ["i"%string].
Proof. unfold coherency. rewrite flat_map_snoc. reflexivity. Qed.
Lemma coherency_length ks : length (coherency ks) = S (pos ks (length ks)).
Proof.
  induction ks as [|k ks IH] using rev_ind; [reflexivity|]. rewrite coherency_snoc, !app_length, IH, repeat_length. cbn [length].
  replace (length ks + 1) with (S (length ks)) by lia. rewrite pos_last. lia.
Qed.

Lemma group_loop_ks ns ds ks rest : exists ld ln lw,
  group_loop ns ds (coherency ks ++ rest) loop_start (seq 0 (S (pos ks (length ks)))) =
  Ok (mkLoop (S (length ks)) (cnt ks (length ks)) (group_of ns ds ks) false ld ln lw).
Proof.
  revert rest. induction ks as [|k ks IH] using rev_ind; intros rest.
  - do 3 eexists. reflexivity.
  - destruct (IH ((repeat "c"%string k ++ ["i"%string]) ++ rest)) as (ld & ln & lw & E).
    rewrite coherency_snoc. rewrite <- app_assoc. rewrite app_length. cbn [length]. replace (length ks + 1) with (S (length ks)) by lia.
    rewrite pos_last. set (p := pos ks (length ks)) in *.
    replace (S (p + S k)) with (S p + S k) by lia. rewrite seq_app, group_loop_app, E. cbn [bind Nat.add].
    pose proof (group_of_snoc ns ds ks k) as G. cbn zeta in G. fold p in G.
    destruct (group_of ns ds ks) as [sd sn afi ifa afs sfa ifs sfi] eqn:Eg.
    destruct (run_gap ns ds (coherency ks ++ (repeat "c"%string k ++ ["i"%string]) ++ rest) (S (length ks)) (cnt ks (length ks)) sd sn afi ifa afs sfa ifs sfi ld ln lw (S p) k)
      as (ld' & ln' & lw' & E'); [lia| | |].
    + intros i Hi. rewrite app_nth2 by (rewrite coherency_length; fold p; lia). rewrite coherency_length. fold p.
      rewrite <- app_assoc, app_nth1 by (rewrite repeat_length; lia).
      assert (A : forall m x, x < m -> nth x (repeat "c"%string m) EmptyString = "c"%string).
      { induction m as [|m IHm]; intros x Hx; [lia|]. destruct x; [reflexivity|]. cbn. apply IHm. lia. }
      apply A. lia.
    + rewrite app_nth2 by (rewrite coherency_length; fold p; lia). rewrite coherency_length. fold p.
      rewrite <- app_assoc, app_nth2 by (rewrite repeat_length; lia). rewrite repeat_length. replace (S p + k - S p - k) with 0 by lia. reflexivity.
    + exists ld', ln', lw'. rewrite E', G. cbn [g_stack_d g_stack_n g_all_from_inc g_inc_from_all g_all_from_stack g_stack_from_all g_inc_from_stack g_stack_from_inc].
      f_equal. replace (S (length ks) - 1) with (length ks) by lia.
      replace (cnt (ks ++ [k]) (S (length ks))) with (if Nat.eqb k 0 then cnt ks (length ks) else S (cnt ks (length ks))); [reflexivity|].
      unfold cnt. rewrite (firstn_all2 (ks ++ [k])) by (rewrite app_length; cbn; lia). rewrite firstn_all, filter_app, app_length. cbn [filter].
      destruct (Nat.eqb k 0); cbn; lia.
Qed.
