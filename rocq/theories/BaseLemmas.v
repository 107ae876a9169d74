(** Facts about the helpers of Base.v. *)
From Coq Require Import Reals ZArith String List Bool Lra Lia Psatz Permutation Sorted.
From Verif Require Import Base.
Import ListNotations.
Open Scope R_scope.

Lemma Rltb_true a b : Rltb a b = true <-> a < b.
Proof. unfold Rltb; destruct (Rlt_dec a b); split; intros; auto; discriminate. Qed.
Lemma Rltb_false a b : Rltb a b = false <-> b <= a.
Proof. unfold Rltb; destruct (Rlt_dec a b); split; intros; auto; try discriminate; lra. Qed.
Lemma Rleb_true a b : Rleb a b = true <-> a <= b.
Proof. unfold Rleb; destruct (Rle_dec a b); split; intros; auto; discriminate. Qed.
Lemma Rleb_false a b : Rleb a b = false <-> b < a.
Proof. unfold Rleb; destruct (Rle_dec a b); split; intros; auto; try discriminate; lra. Qed.
Lemma Reqb_true a b : Reqb a b = true <-> a = b.
Proof. unfold Reqb; destruct (Req_EM_T a b); split; intros; auto; discriminate. Qed.
Lemma Reqb_false a b : Reqb a b = false <-> a <> b.
Proof. unfold Reqb; destruct (Req_EM_T a b); split; intros; auto; try discriminate; contradiction. Qed.

Lemma for_each_ok {A} (l : list A) body :
  for_each l body = Ok tt <-> (forall x, In x l -> body x = Ok tt).
Proof.
  induction l as [|a l IH]; simpl.
  - split; auto. intros _ x [].
  - unfold bind. destruct (body a) as [[]|e] eqn:E.
    + rewrite IH. split; intros H.
      * intros x [->|Hx]; auto.
      * intros x Hx; auto.
    + split; [discriminate|]. intros H. specialize (H a (or_introl eq_refl)). congruence.
Qed.

Lemma for_each_err {A} (l : list A) body e :
  for_each l body = Err e -> exists x, In x l /\ body x = Err e.
Proof.
  induction l as [|a l IH]; simpl; [discriminate|].
  unfold bind. destruct (body a) as [u|e'] eqn:E; intros H.
  - destruct (IH H) as [x [? ?]]. exists x; auto.
  - inversion H; subst. exists a; auto.
Qed.

Lemma ensure_ok b e : ensure b e = Ok tt <-> b = true.
Proof. destruct b; simpl; split; intros; auto; discriminate. Qed.

Lemma bind_ok {A B} (x : res A) (f : A -> res B) b :
  bind x f = Ok b <-> exists a, x = Ok a /\ f a = Ok b.
Proof.
  destruct x; simpl; split; intros H.
  - exists a; auto.
  - destruct H as [a' [H1 H2]]. inversion H1; subst; auto.
  - discriminate.
  - destruct H as [a' [H1 _]]; discriminate.
Qed.

Lemma bind_tt_ok {B} (x : res unit) (f : unit -> res B) b :
  bind x f = Ok b <-> x = Ok tt /\ f tt = Ok b.
Proof.
  rewrite bind_ok. split.
  - intros [[] [? ?]]; auto.
  - intros [? ?]; exists tt; auto.
Qed.

(** * floor / truncation *)
Lemma Rfloor_spec r : IZR (Rfloor r) <= r < IZR (Rfloor r) + 1.
Proof. unfold Rfloor. destruct (base_Int_part r). split; lra. Qed.

Lemma Rfloor_unique r z : IZR z <= r < IZR z + 1 -> Rfloor r = z.
Proof.
  intros [H1 H2]. destruct (Rfloor_spec r) as [H3 H4].
  assert (IZR (Rfloor r) < IZR (z + 1)) by (rewrite plus_IZR; lra).
  assert (IZR z < IZR (Rfloor r + 1)) by (rewrite plus_IZR; lra).
  apply lt_IZR in H. apply lt_IZR in H0. lia.
Qed.

Lemma Rfloor_IZR z : Rfloor (IZR z) = z.
Proof. apply Rfloor_unique. lra. Qed.

Lemma Rfloor_le a b : a <= b -> (Rfloor a <= Rfloor b)%Z.
Proof.
  intros H. destruct (Rfloor_spec a), (Rfloor_spec b).
  assert (IZR (Rfloor a) < IZR (Rfloor b + 1)) by (rewrite plus_IZR; lra).
  apply lt_IZR in H4. lia.
Qed.

Lemma Rfloor_plus_IZR r z : Rfloor (r + IZR z) = (Rfloor r + z)%Z.
Proof.
  apply Rfloor_unique. rewrite plus_IZR. destruct (Rfloor_spec r). lra.
Qed.

Lemma Rtrunc_nonneg r : 0 <= r -> Rtrunc r = Rfloor r.
Proof. unfold Rtrunc, Rfloor. destruct (Rle_dec 0 r); [auto|contradiction]. Qed.

Lemma Rtrunc_neg r : r < 0 -> Rtrunc r = (- Rfloor (- r))%Z.
Proof. unfold Rtrunc, Rfloor. destruct (Rle_dec 0 r); [lra|auto]. Qed.

Lemma Rfloor_nonneg r : 0 <= r -> (0 <= Rfloor r)%Z.
Proof. intros. rewrite <- (Rfloor_IZR 0). apply Rfloor_le. exact H. Qed.

Lemma Rtrunc_nonneg_Z r : 0 <= r -> (0 <= Rtrunc r)%Z.
Proof. intros. rewrite Rtrunc_nonneg by auto. apply Rfloor_nonneg; auto. Qed.

Lemma Rtrunc_IZR z : Rtrunc (IZR z) = z.
Proof.
  destruct (Rle_dec 0 (IZR z)).
  - rewrite Rtrunc_nonneg by auto. apply Rfloor_IZR.
  - rewrite Rtrunc_neg by lra. rewrite <- opp_IZR, Rfloor_IZR. lia.
Qed.

Lemma Rtrunc_le a b : a <= b -> (Rtrunc a <= Rtrunc b)%Z.
Proof.
  intros H. destruct (Rle_dec 0 a).
  - rewrite !Rtrunc_nonneg by lra. apply Rfloor_le; auto.
  - rewrite (Rtrunc_neg a) by lra.
    assert (0 <= Rfloor (- a))%Z by (apply Rfloor_nonneg; lra).
    destruct (Rle_dec 0 b).
    + rewrite Rtrunc_nonneg by lra. assert (0 <= Rfloor b)%Z by (apply Rfloor_nonneg; lra). lia.
    + rewrite Rtrunc_neg by lra.
      assert (Rfloor (-b) <= Rfloor (-a))%Z by (apply Rfloor_le; lra). lia.
Qed.

Lemma Rtrunc_abs_le r : Rabs (IZR (Rtrunc r)) <= Rabs r.
Proof.
  destruct (Rle_dec 0 r).
  - rewrite Rtrunc_nonneg by auto. destruct (Rfloor_spec r).
    rewrite (Rabs_pos_eq r) by auto.
    assert (0 <= IZR (Rfloor r)) by (apply IZR_le, Rfloor_nonneg; auto).
    rewrite Rabs_pos_eq by auto. lra.
  - rewrite Rtrunc_neg by lra. rewrite opp_IZR, Rabs_Ropp.
    destruct (Rfloor_spec (-r)).
    assert (0 <= IZR (Rfloor (-r))) by (apply IZR_le, Rfloor_nonneg; lra).
    rewrite Rabs_pos_eq by auto. rewrite Rabs_left by lra. lra.
Qed.

(** * sums *)
Lemma Rsum_app l1 l2 : Rsum (l1 ++ l2) = Rsum l1 + Rsum l2.
Proof. unfold Rsum. induction l1; simpl; lra. Qed.

Lemma Rsum_nonneg l : (forall x, In x l -> 0 <= x) -> 0 <= Rsum l.
Proof.
  induction l; simpl; intros H; [lra|].
  assert (0 <= a) by auto. assert (0 <= Rsum l) by (apply IHl; auto).
  unfold Rsum in *; lra.
Qed.

Lemma Rsum_pos l : l <> [] -> (forall x, In x l -> 0 < x) -> 0 < Rsum l.
Proof.
  destruct l as [|a l]; [congruence|]. intros _ H.
  simpl. assert (0 < a) by (apply H; simpl; auto).
  assert (0 <= Rsum l) by (apply Rsum_nonneg; intros x Hx; left; apply H; simpl; auto).
  unfold Rsum in *; lra.
Qed.

Lemma Rsum_zero_iff l : (forall x, In x l -> 0 <= x) ->
  (Rsum l = 0 <-> forall x, In x l -> x = 0).
Proof.
  induction l; simpl; intros H; [split; intros; [contradiction|auto]|].
  assert (0 <= a) by auto.
  assert (0 <= Rsum l) by (apply Rsum_nonneg; auto).
  unfold Rsum in *. split.
  - intros E x [->|Hx]; [lra|]. apply IHl; auto. lra.
  - intros E. rewrite (E a), Rplus_0_l by auto. apply IHl; auto.
Qed.

Lemma Rsum_map_mult c l : Rsum (map (fun x => c * x) l) = c * Rsum l.
Proof. unfold Rsum; induction l; simpl; lra. Qed.

Lemma Rsum_map_plus {A} (f g : A -> R) l :
  Rsum (map (fun x => f x + g x) l) = Rsum (map f l) + Rsum (map g l).
Proof. unfold Rsum; induction l; simpl; lra. Qed.

Lemma Rsum_map_div c l : Rsum (map (fun x => x / c) l) = Rsum l / c.
Proof. unfold Rsum, Rdiv; induction l; simpl; lra. Qed.

Lemma Rsum_le {A} (f g : A -> R) l : (forall x, In x l -> f x <= g x) ->
  Rsum (map f l) <= Rsum (map g l).
Proof.
  unfold Rsum; induction l; simpl; intros H; [lra|].
  assert (f a <= g a) by auto.
  assert (fold_right Rplus 0 (map f l) <= fold_right Rplus 0 (map g l)) by auto. lra.
Qed.

Lemma Rsum_const {A} c (l : list A) : Rsum (map (fun _ => c) l) = INR (length l) * c.
Proof.
  induction l; [simpl; lra|].
  change (length (a :: l)) with (S (length l)). rewrite S_INR.
  simpl map. unfold Rsum in *. simpl fold_right. rewrite IHl. lra.
Qed.

Lemma Rsum_repeat c n : Rsum (repeat c n) = INR n * c.
Proof. induction n; [simpl; lra|]. rewrite S_INR. unfold Rsum in *. simpl repeat. simpl fold_right. rewrite IHn; lra. Qed.

(** * linspace *)
Lemma linspace_length a b n : length (linspace a b n) = n.
Proof. unfold linspace. rewrite map_length, seq_length; auto. Qed.

Lemma linspace_nth a b n i d : (i < n)%nat ->
  nth i (linspace a b n) d = a + INR i * ((b - a) / INR (n - 1)).
Proof.
  intros H. unfold linspace.
  rewrite nth_indep with (d' := (fun i => a + INR i * ((b - a) / INR (n - 1))) 0%nat)
    by (rewrite map_length, seq_length; auto).
  rewrite map_nth with (d := 0%nat). rewrite seq_nth by auto. reflexivity.
Qed.

Lemma linspace_first a b n d : (0 < n)%nat -> nth 0 (linspace a b n) d = a.
Proof. intros. rewrite linspace_nth by auto. simpl. lra. Qed.

Lemma linspace_last a b n d : (1 < n)%nat -> nth (n - 1) (linspace a b n) d = b.
Proof.
  intros. rewrite linspace_nth by lia.
  assert (INR (n - 1) <> 0) by (apply not_0_INR; lia). field; auto.
Qed.

Lemma linspace_strict a b n i j d : a < b -> (i < j < n)%nat ->
  nth i (linspace a b n) d < nth j (linspace a b n) d.
Proof.
  intros Hab [Hij Hj]. rewrite !linspace_nth by lia.
  assert (0 < INR (n - 1)) by (apply lt_0_INR; lia).
  assert (0 < (b - a) / INR (n - 1)) by (apply Rdiv_lt_0_compat; lra).
  assert (INR i < INR j) by (apply lt_INR; auto). nra.
Qed.

Lemma linspace_range a b n i d : a <= b -> (i < n)%nat ->
  a <= nth i (linspace a b n) d <= b.
Proof.
  intros Hab Hi. rewrite linspace_nth by auto.
  destruct (Nat.eq_dec n 1) as [->|Hn].
  - assert (i = 0)%nat by lia. subst. simpl. lra.
  - assert (Hp : 0 < INR (n - 1)) by (apply lt_0_INR; lia).
    assert (0 <= INR i) by apply pos_INR.
    assert (INR i <= INR (n - 1)) by (apply le_INR; lia).
    assert (0 <= (b - a) / INR (n - 1)) by (apply Rmult_le_pos; [lra|left; apply Rinv_0_lt_compat; auto]).
    assert (E : INR (n - 1) * ((b - a) / INR (n - 1)) = b - a) by (field; lra).
    split; nra.
Qed.

Lemma nth_map_in {A B} (f : A -> B) l i d d' : (i < length l)%nat ->
  nth i (map f l) d' = f (nth i l d).
Proof.
  intros. rewrite nth_indep with (d' := f d) by (rewrite map_length; auto).
  apply map_nth.
Qed.

(** * sorting *)
Lemma Rinsert_perm x l : Permutation (x :: l) (Rinsert x l).
Proof.
  induction l; simpl; auto. destruct (Rle_dec x a); auto.
  etransitivity; [apply perm_swap|]. constructor; auto.
Qed.
Lemma Rsort_perm l : Permutation l (Rsort l).
Proof.
  induction l; simpl; auto. etransitivity; [|apply Rinsert_perm]. constructor; auto.
Qed.
Lemma Rinsert_sorted x l : StronglySorted Rle l -> StronglySorted Rle (Rinsert x l).
Proof.
  induction l; simpl; intros H.
  - repeat constructor.
  - inversion H; subst. destruct (Rle_dec x a).
    + constructor; auto. constructor; auto.
      rewrite Forall_forall in *. intros y Hy. specialize (H3 y Hy). lra.
    + constructor; auto.
      rewrite Forall_forall in *. intros y Hy.
      apply (Permutation_in _ (Permutation_sym (Rinsert_perm x l))) in Hy.
      destruct Hy as [->|Hy]; [lra|auto].
Qed.
Lemma Rsort_sorted l : StronglySorted Rle (Rsort l).
Proof. induction l; simpl; [constructor|apply Rinsert_sorted; auto]. Qed.
Lemma Rsort_id l : StronglySorted Rle l -> Rsort l = l.
Proof.
  induction 1; simpl; auto. rewrite IHStronglySorted.
  destruct l; simpl; auto. inversion H0; subst. destruct (Rle_dec a r); [auto|contradiction].
Qed.

Lemma nth_sorted_StronglySorted l :
  (forall i j, (i < j < length l)%nat -> nth i l 0 <= nth j l 0) -> StronglySorted Rle l.
Proof.
  induction l; intros H; [constructor|]. constructor.
  - apply IHl. intros i j Hij. apply (H (S i) (S j)). simpl; lia.
  - rewrite Forall_forall. intros y Hy. apply In_nth with (d := 0) in Hy.
    destruct Hy as [k [Hk <-]]. apply (H 0%nat (S k)). simpl; lia.
Qed.
