From Coq Require Import Reals ZArith String List Bool Lra Lia Psatz.
From Verif Require Import Base BaseLemmas PyVal Model_Config Spec_Config.
Import ListNotations.
Open Scope string_scope.
Open Scope R_scope.

Lemma in_strings_iff k l : in_strings k l = true <-> In k l.
Proof.
  unfold in_strings. rewrite existsb_exists. split.
  - intros [x [H E]]. apply String.eqb_eq in E; subst; auto.
  - intros. exists k. split; auto. apply String.eqb_refl.
Qed.

Lemma has_key_iff c k : has_key c k = true <-> exists v, entry c k v.
Proof.
  unfold has_key, entry. destruct (lookup c k).
  - split; eauto.
  - split; [discriminate|]. intros [v H]; discriminate.
Qed.

Lemma getitem_entry c k v : getitem c k = Ok v <-> entry c k v.
Proof.
  unfold getitem, entry. destruct (lookup c k); split; intros H; inversion H; subst; auto.
Qed.

(** Decision of list inclusion between closed string lists. *)
Ltac in_list := simpl; repeat first [left; reflexivity | right]; try tauto.

Lemma required_default : forall k, In k required_keys <-> exists kd, In (k, kd) default_config_entries.
Proof.
  intros k. transitivity (In k (map fst default_config_entries)).
  - assert (forallb (fun k => in_strings k (map fst default_config_entries)) required_keys = true) as H1
      by reflexivity.
    assert (forallb (fun k => in_strings k required_keys) (map fst default_config_entries) = true) as H2
      by reflexivity.
    rewrite forallb_forall in H1, H2. split; intros.
    + apply in_strings_iff. auto.
    + apply in_strings_iff. auto.
  - rewrite in_map_iff. split.
    + intros [[k' kd] [<- ?]]. exists kd; auto.
    + intros [kd ?]. exists (k, kd); auto.
Qed.

Lemma optional_runtime : forall k, In k optional_keys <-> In k runtime_keys.
Proof.
  intros k.
  assert (forallb (fun k => in_strings k runtime_keys) optional_keys = true) as H1 by reflexivity.
  assert (forallb (fun k => in_strings k optional_keys) runtime_keys = true) as H2 by reflexivity.
  rewrite forallb_forall in H1, H2. split; intros; apply in_strings_iff; auto.
Qed.

Lemma ensure_cases b e : (ensure b e = Ok tt /\ b = true) \/ (ensure b e = Err e /\ b = false).
Proof. destruct b; simpl; auto. Qed.

Lemma check_keys_ok c : check_for_keys c = Ok tt <-> keys_complete c /\ keys_known c.
Proof.
  unfold check_for_keys. rewrite bind_tt_ok, !for_each_ok.
  unfold keys_complete, keys_known. split.
  - intros [H1 H2]. split.
    + intros k kd Hk. apply has_key_iff. apply (ensure_ok _ KeyError). apply H1.
      apply required_default; eauto.
    + intros k v Hkv. specialize (H2 k (in_map fst _ _ Hkv)). 
      rewrite <- required_default, <- optional_runtime. rewrite <- !in_strings_iff.
      destruct (in_strings k required_keys), (in_strings k optional_keys); simpl in H2; auto. discriminate.
  - intros [H1 H2]. split.
    + intros k Hk. apply ensure_ok. apply has_key_iff. apply required_default in Hk.
      destruct Hk as [kd Hk]. eauto.
    + intros k Hk. apply in_map_iff in Hk. destruct Hk as [[k' v] [E Hkv]]. simpl in E; subst k'.
      specialize (H2 k v Hkv). rewrite <- required_default, <- optional_runtime in H2.
      rewrite <- !in_strings_iff in H2.
      destruct (in_strings k required_keys), (in_strings k optional_keys); simpl; auto.
      destruct H2; discriminate.
Qed.

Lemma check_keys_total c : check_for_keys c = Ok tt \/ check_for_keys c = Err KeyError.
Proof.
  destruct (check_for_keys c) as [[]|e] eqn:E; auto. right.
  unfold check_for_keys in E. destruct (for_each required_keys _) as [[]|e'] eqn:E1.
  - simpl in E. apply for_each_err in E. destruct E as [x [_ Hx]].
    destruct (_ && _) in Hx; inversion Hx; auto.
  - simpl in E. inversion E; subst. apply for_each_err in E1. destruct E1 as [x [_ Hx]].
    destruct (ensure_cases (has_key c x) KeyError) as [[H _]|[H _]]; rewrite H in Hx; inversion Hx; auto.
Qed.

(** * types *)
Lemma check_type_ok c p k : check_type c p k = Ok tt <-> exists v, entry c k v /\ p v = true.
Proof.
  unfold check_type. rewrite bind_ok. split.
  - intros [v [H1 H2]]. apply getitem_entry in H1. apply ensure_ok in H2. eauto.
  - intros [v [H1 H2]]. exists v. split; [apply getitem_entry; auto|apply ensure_ok; auto].
Qed.

Definition kind_test (kd : kind) : pyval -> bool :=
  match kd with KInt => is_int | KFloat => is_float | KBool => is_bool | KStr => is_str
  | KList => is_list | KAny => fun _ => true end.
Lemma kind_test_ok kd v : kind_test kd v = true <-> has_kind v kd.
Proof.
  destruct kd, v; simpl; split; intros H; eauto; try discriminate;
  repeat match goal with H : _ \/ _ |- _ => destruct H | H : exists _, _ |- _ => destruct H end;
  try discriminate; auto.
Qed.

Definition keys_of_kind (kd : kind) : list string :=
  match kd with KInt => integer_keys | KFloat => float_keys | KBool => boolean_keys | KStr => string_keys
  | KList => list_keys | KAny => ["iterations";"learning_rate";"absorption_loss";"hidden_layers"] end.

Definition kind_eqb (a b : kind) : bool :=
  match a, b with KInt,KInt|KFloat,KFloat|KBool,KBool|KStr,KStr|KList,KList|KAny,KAny => true | _,_ => false end.
Lemma kind_eqb_eq a b : kind_eqb a b = true <-> a = b.
Proof. destruct a, b; simpl; split; intros; congruence. Qed.

Lemma keys_of_kind_spec k kd : In (k, kd) default_config_entries <-> In k (keys_of_kind kd).
Proof.
  assert (forallb (fun p => in_strings (fst p) (keys_of_kind (snd p))) default_config_entries = true) as H1
    by reflexivity.
  assert (forall kd, forallb (fun k => existsb (fun p => String.eqb k (fst p) && kind_eqb kd (snd p)) default_config_entries)
            (keys_of_kind kd) = true) as H2 by (intros []; reflexivity).
  rewrite forallb_forall in H1. split; intros H.
  - specialize (H1 _ H). apply in_strings_iff in H1. auto.
  - specialize (H2 kd). rewrite forallb_forall in H2. specialize (H2 k H).
    apply existsb_exists in H2. destruct H2 as [[k' kd'] [Hin E]]. simpl in E.
    apply andb_prop in E. destruct E as [E1 E2]. apply String.eqb_eq in E1. apply kind_eqb_eq in E2.
    subst; auto.
Qed.

Lemma types_ok_iff c : keys_complete c -> (check_entry_types c = Ok tt <-> well_typed c).
Proof.
  intros HC. unfold check_entry_types. rewrite !bind_tt_ok, !for_each_ok. split.
  - intros (H1 & H2 & H3 & H4 & H5) k kd Hk.
    pose proof Hk as Hk'. apply keys_of_kind_spec in Hk.
    destruct kd; simpl in Hk.
    1: specialize (H1 k Hk). 2: specialize (H2 k Hk). 3: specialize (H3 k Hk).
    4: specialize (H4 k Hk). 5: specialize (H5 k Hk).
    6: { destruct (HC _ _ Hk') as [v Hv]. exists v; simpl; auto. }
    all: repeat match goal with H : check_type _ _ _ = Ok tt |- _ => apply check_type_ok in H end;
      match goal with H : exists v, _ |- _ => destruct H as [v [He Hp]] end;
      exists v; split; auto; apply kind_test_ok; auto.
  - intros W.
    assert (G : forall kd k, In k (keys_of_kind kd) -> check_type c (kind_test kd) k = Ok tt).
    { intros kd k Hk. apply check_type_ok. apply keys_of_kind_spec in Hk.
      destruct (W _ _ Hk) as [v [Hv Hkd]]. exists v. split; auto. apply kind_test_ok; auto. }
    repeat split; intros k Hk.
    + apply (G KInt); auto.
    + apply (G KFloat); auto.
    + apply (G KBool); auto.
    + apply (G KStr); auto.
    + apply (G KList); auto.
Qed.

Lemma check_type_total c p k : keys_complete c -> In k required_keys ->
  check_type c p k = Ok tt \/ check_type c p k = Err TypeError.
Proof.
  intros HC Hk. apply required_default in Hk. destruct Hk as [kd Hk].
  destruct (HC _ _ Hk) as [v Hv]. unfold check_type. apply getitem_entry in Hv. rewrite Hv. simpl.
  destruct (p v); simpl; auto.
Qed.

Lemma for_each_total {A} (l : list A) body e :
  (forall x, In x l -> body x = Ok tt \/ body x = Err e) ->
  for_each l body = Ok tt \/ for_each l body = Err e.
Proof.
  intros H. destruct (for_each l body) as [[]|e'] eqn:E; auto. right.
  apply for_each_err in E. destruct E as [x [Hx E]]. destruct (H x Hx); congruence.
Qed.

Lemma check_types_total c : keys_complete c ->
  check_entry_types c = Ok tt \/ check_entry_types c = Err TypeError.
Proof.
  intros HC.
  assert (G : forall kd, kd <> KAny -> for_each (keys_of_kind kd) (check_type c (kind_test kd)) = Ok tt \/
     for_each (keys_of_kind kd) (check_type c (kind_test kd)) = Err TypeError).
  { intros kd _. apply for_each_total. intros k Hk. apply check_type_total; auto.
    apply required_default. exists kd. apply keys_of_kind_spec; auto. }
  unfold check_entry_types.
  destruct (G KInt) as [H|H]; [discriminate| |]; cbn [keys_of_kind kind_test] in H; rewrite H; unfold bind; auto.
  destruct (G KFloat) as [H1|H1]; [discriminate| |]; cbn [keys_of_kind kind_test] in H1; rewrite H1; unfold bind; auto.
  destruct (G KBool) as [H2|H2]; [discriminate| |]; cbn [keys_of_kind kind_test] in H2; rewrite H2; unfold bind; auto.
  destruct (G KStr) as [H3|H3]; [discriminate| |]; cbn [keys_of_kind kind_test] in H3; rewrite H3; unfold bind; auto.
  destruct (G KList) as [H4|H4]; [discriminate| |]; cbn [keys_of_kind kind_test] in H4; rewrite H4; unfold bind; auto.
Qed.

(** * ranges *)
Lemma flt_iff a b : flt a b = true <-> f_lt a b.
Proof.
  destruct a, b; simpl; split; intros H; try discriminate; try constructor;
  try (inversion H; fail); try (apply Rltb_true; auto; fail); try reflexivity.
  inversion H; subst. apply Rltb_true; auto.
Qed.
Lemma feq_iff a b : feq a b = true <-> a = b /\ a <> NaN.
Proof.
  destruct a, b; simpl; split; intros H; try discriminate;
  try (destruct H; congruence); try (split; congruence).
  - apply Reqb_true in H; subst; split; congruence.
  - destruct H as [H _]; inversion H. apply Reqb_true; auto.
Qed.
Lemma fle_iff a b : fle a b = true <-> f_le a b.
Proof. unfold fle, f_le. rewrite orb_true_iff, flt_iff, feq_iff. tauto. Qed.

Lemma entry_fun c k v w : entry c k v -> entry c k w -> v = w.
Proof. unfold entry. congruence. Qed.

Ltac ent H := apply getitem_entry in H.
Ltac binds := repeat match goal with
  | H : bind _ _ = Ok _ |- _ => apply bind_ok in H; destruct H as [? [? H]]
  | H : getitem _ _ = Ok _ |- _ => apply getitem_entry in H
  | H : ensure _ _ = Ok _ |- _ => apply ensure_ok in H
  end.
Ltac sameent := repeat match goal with
  | H1 : entry ?c ?k ?v, H2 : entry ?c ?k ?w |- _ =>
    first [ constr_eq v w; fail 1 | pose proof (entry_fun _ _ _ _ H1 H2); subst; clear H2 | 
     let E := fresh in pose proof (entry_fun _ _ _ _ H1 H2) as E; inversion E; subst; clear H2 ]
  end.

(** Typed access. *)
Lemma wt c k kd : well_typed c -> In (k, kd) default_config_entries -> exists v, entry c k v /\ has_kind v kd.
Proof. intros W H. exact (W k kd H). Qed.

Lemma wt_float c k : well_typed c -> In k float_keys -> exists f, entry c k (VFloat f).
Proof.
  intros W H. destruct (W k KFloat) as [v [Hv [f ->]]]; [apply keys_of_kind_spec; auto|]. eauto.
Qed.
Lemma wt_list c k : well_typed c -> In k list_keys -> exists f, entry c k (VList f).
Proof.
  intros W H. destruct (W k KList) as [v [Hv [f ->]]]; [apply keys_of_kind_spec; auto|]. eauto.
Qed.
Lemma wt_str c k : well_typed c -> In k string_keys -> exists f, entry c k (VStr f).
Proof.
  intros W H. destruct (W k KStr) as [v [Hv [f ->]]]; [apply keys_of_kind_spec; auto|]. eauto.
Qed.
Lemma wt_int c k : well_typed c -> In k integer_keys ->
  exists v z, entry c k v /\ int_of v = Ok z /\ num_of v = Some (Fin (IZR z)).
Proof.
  intros W H. destruct (W k KInt) as [v [Hv Hk]]; [apply keys_of_kind_spec; auto|].
  destruct Hk as [[z ->]|[b ->]].
  - exists (VInt z), z; auto.
  - exists (VBool b), (if b then 1 else 0)%Z. destruct b; auto.
Qed.

Lemma min_max_iff c k1 k2 : In k1 float_keys -> In k2 float_keys -> well_typed c ->
  (check_min_max c k1 k2 = Ok tt <->
   exists a b, entry c k1 (VFloat a) /\ entry c k2 (VFloat b) /\ f_le a b).
Proof.
  intros I1 I2 W. destruct (wt_float c k1 W I1) as [a Ha]. destruct (wt_float c k2 W I2) as [b Hb].
  unfold check_min_max. apply getitem_entry in Ha as Ha'. apply getitem_entry in Hb as Hb'.
  rewrite Ha', Hb'. simpl. rewrite ensure_ok, fle_iff. split.
  - intros; exists a, b; auto.
  - intros (a' & b' & E1 & E2 & H).
    pose proof (entry_fun _ _ _ _ E1 Ha) as Q1. pose proof (entry_fun _ _ _ _ E2 Hb) as Q2.
    inversion Q1; inversion Q2; subst; auto.
Qed.

Lemma py_lt_num a b x : num_of a = Some x ->
  (py_lt a b = Ok true <-> exists y, num_of b = Some y /\ f_lt x y).
Proof.
  intros Ha.
  assert (py_lt a b = match num_of a, num_of b with Some x, Some y => Ok (flt x y) | _, _ => Err TypeError end)
    as -> by (destruct a; try discriminate; destruct b; reflexivity).
  rewrite Ha. destruct (num_of b) as [y|].
  - split.
    + intros H; inversion H. exists y. split; auto. apply flt_iff; auto.
    + intros [y' [E H]]. inversion E; subst. apply flt_iff in H. rewrite H; auto.
  - split; [discriminate|]. intros [y [E _]]; discriminate.
Qed.

Lemma py_lt_val a b x y : num_of a = Some x -> num_of b = Some y -> py_lt a b = Ok (flt x y).
Proof.
  intros Ha Hb.
  destruct a; simpl in Ha; try discriminate; inversion Ha; subst;
  destruct b; simpl in Hb; try discriminate; inversion Hb; subst; reflexivity.
Qed.

Lemma py_lt_num_r a b y : num_of b = Some y ->
  (py_lt a b = Ok true <-> exists x, num_of a = Some x /\ f_lt x y).
Proof.
  intros Hb.
  assert (py_lt a b = match num_of a, num_of b with Some x, Some y => Ok (flt x y) | _, _ => Err TypeError end)
    as -> by (destruct b; try discriminate; destruct a; reflexivity).
  rewrite Hb. destruct (num_of a) as [x|].
  - split.
    + intros H; inversion H. exists x. split; auto. apply flt_iff; auto.
    + intros [x' [E H]]. inversion E; subst. apply flt_iff in H. rewrite H; auto.
  - split; [discriminate|]. intros [x [E _]]; discriminate.
Qed.

Lemma positive_iff c k : (check_positive c k = Ok tt <->
  exists v x, entry c k v /\ num_of v = Some x /\ f_lt (Fin 0) x).
Proof.
  unfold check_positive. split.
  - intros H. apply bind_ok in H. destruct H as (v & Hv & H). apply getitem_entry in Hv.
    apply bind_ok in H. destruct H as (r & Hr & H). apply ensure_ok in H. subst r.
    apply (py_lt_num (VInt 0) v (Fin 0)) in Hr; auto.
    destruct Hr as [y [? ?]]. eauto.
  - intros (v & x & H1 & H2 & H3). apply getitem_entry in H1. rewrite H1. unfold bind.
    assert (py_lt (VInt 0) v = Ok true) as ->; [|reflexivity].
    apply (py_lt_num (VInt 0) v (Fin 0)); eauto.
Qed.

Lemma positive_keys_iff k : In k positive_value_keys <-> In k positive_keys.
Proof.
  assert (forallb (fun k => in_strings k positive_keys) positive_value_keys = true) as H1 by reflexivity.
  assert (forallb (fun k => in_strings k positive_value_keys) positive_keys = true) as H2 by reflexivity.
  rewrite forallb_forall in H1, H2. split; intros; apply in_strings_iff; auto.
Qed.

Lemma positives_iff c : for_each positive_value_keys (check_positive c) = Ok tt <->
  forall k, In k positive_keys -> exists v x, entry c k v /\ num_of v = Some x /\ f_lt (Fin 0) x.
Proof.
  rewrite for_each_ok. split; intros H k Hk.
  - apply positive_iff. apply H. apply positive_keys_iff; auto.
  - apply positive_iff. apply H. apply positive_keys_iff; auto.
Qed.

Lemma num_int v z : num_of v = Some (Fin (IZR z)) -> is_int v = true -> int_of v = Ok z.
Proof.
  destruct v as [y|[]| | | | ]; simpl; try discriminate; intros H _; inversion H as [E].
  - apply eq_IZR in E; subst; auto.
  - apply eq_IZR in E; subst; auto.
  - apply eq_IZR in E; subst; auto.
Qed.

Lemma multiple_iff c k : well_typed c -> In k integer_keys ->
  (exists v x, entry c "eps_oversampling" v /\ num_of v = Some x /\ f_lt (Fin 0) x) ->
  (check_multiple c k = Ok tt <->
   exists vn vo n o q, entry c k vn /\ entry c "eps_oversampling" vo /\
      num_of vn = Some (Fin (IZR n)) /\ num_of vo = Some (Fin (IZR o)) /\ (n = q * o)%Z).
Proof.
  intros W Ik (v & x & Hv & Hx & Hpos).
  destruct (wt_int c k W Ik) as (vn & n & En & In1 & Nn).
  destruct (wt_int c "eps_oversampling" W) as (vo & o & Eo & Io & No); [in_list|].
  pose proof (entry_fun _ _ _ _ Eo Hv); subst v.
  rewrite No in Hx. inversion Hx; subst x. inversion Hpos as [? ? Ho| | |]; subst.
  assert (Ho' : (0 < o)%Z) by (apply lt_IZR; auto).
  unfold check_multiple.
  apply getitem_entry in En as En'. apply getitem_entry in Eo as Eo'. rewrite En', Eo'. simpl. rewrite In1, Io. simpl.
  destruct (Z.eqb_spec o 0); [lia|]. simpl. rewrite ensure_ok, Z.eqb_eq. split.
  - intros Hm. exists vn, vo, n, o, (n / o)%Z. repeat split; auto.
    rewrite (Z_div_mod_eq_full n o) at 1. lia.
  - intros (vn' & vo' & n' & o' & q & E1 & E2 & N1 & N2 & Eq).
    pose proof (entry_fun _ _ _ _ E1 En); subst vn'. pose proof (entry_fun _ _ _ _ E2 Eo); subst vo'.
    rewrite Nn in N1; inversion N1 as [E3]; apply eq_IZR in E3; subst n'.
    rewrite No in N2; inversion N2 as [E4]; apply eq_IZR in E4; subst o'.
    subst n. apply Z.mod_mul; auto.
Qed.

Lemma choice_iff c k ch : check_choice c k ch = Ok tt <-> one_of c k ch.
Proof.
  unfold check_choice, one_of. split.
  - intros H. binds. apply existsb_exists in H. destruct H as [s [Hs E]].
    assert (x = VStr s) as ->.
    { destruct x; simpl in E; try discriminate. apply String.eqb_eq in E; subst; auto. }
    eauto.
  - intros [s [H1 H2]]. apply getitem_entry in H1. rewrite H1. unfold bind. apply ensure_ok.
    apply existsb_exists. exists s. split; auto. simpl. apply String.eqb_refl.
Qed.

Lemma py_index_list l i v : py_index (VList l) i = Ok v <-> nth_error l i = Some v.
Proof. simpl. destruct (nth_error l i); split; intros H; inversion H; auto. Qed.

Lemma two_elems {A} (l : list A) a b : nth_error l 0 = Some a -> nth_error l 1 = Some b ->
  exists r, l = a :: b :: r.
Proof.
  destruct l as [|x [|y r]]; simpl; intros H1 H2; try discriminate. inversion H1; inversion H2; subst; eauto.
Qed.

Lemma lattice_iff c : well_typed c -> (check_lattice c = Ok tt <->
  exists r0 r1 rest a0 a1 b0 b1,
      entry c "TRCWA_L_grid" (VList (r0 :: r1 :: rest)) /\
      py_index r0 0 = Ok a0 /\ py_index r0 1 = Ok a1 /\ py_lt a1 a0 = Ok true /\
      py_index r1 0 = Ok b0 /\ py_index r1 1 = Ok b1 /\ py_lt b0 b1 = Ok true).
Proof.
  intros W. destruct (wt_list c "TRCWA_L_grid" W) as [l Hl]; [in_list|].
  unfold check_lattice. apply getitem_entry in Hl as Hl'. rewrite Hl'. unfold bind at 1. split.
  - intros H. apply bind_ok in H. destruct H as (r1 & H1 & H).
    apply bind_ok in H. destruct H as (b0 & H2 & H). apply bind_ok in H. destruct H as (b1 & H3 & H).
    apply bind_ok in H. destruct H as (ok1 & H4 & H). apply bind_tt_ok in H. destruct H as (H5 & H).
    apply bind_ok in H. destruct H as (r0 & H6 & H). apply bind_ok in H. destruct H as (a0 & H7 & H).
    apply bind_ok in H. destruct H as (a1 & H8 & H). apply bind_ok in H. destruct H as (ok0 & H9 & H).
    apply ensure_ok in H5. apply ensure_ok in H. subst.
    apply py_index_list in H1. apply py_index_list in H6.
    destruct (two_elems _ _ _ H6 H1) as [r ->].
    exists r0, r1, r, a0, a1, b0, b1. repeat split; auto.
  - intros (r0 & r1 & rest & a0 & a1 & b0 & b1 & E & A0 & A1 & AL & B0 & B1 & BL).
    pose proof (entry_fun _ _ _ _ Hl E) as Q; inversion Q; subst l.
    change (py_index (VList (r0 :: r1 :: rest)) 1) with (Ok r1).
    change (py_index (VList (r0 :: r1 :: rest)) 0) with (Ok r0).
    unfold bind. rewrite B0, B1, BL. unfold ensure at 1. rewrite A0, A1, AL. reflexivity.
Qed.

Lemma all_positive_iff c k : check_all_positive c k = Ok tt <-> no_falsy c k.
Proof.
  unfold check_all_positive, no_falsy. destruct (has_key c k) eqn:E.
  - apply has_key_iff in E. destruct E as [v Hv]. apply getitem_entry in Hv as Hv'. rewrite Hv'. unfold bind at 1.
    split.
    + intros H w Hw. pose proof (entry_fun _ _ _ _ Hv Hw); subst w.
      apply bind_ok in H. destruct H as [b [Hb H]]. simpl in H. apply ensure_ok in H.
      apply Rltb_true in H. destruct b; [|lra].
      destruct v; simpl in Hb; try discriminate; [left; eauto|].
      right. exists l; split; auto.
      assert (Hf : forallb truthy l = true) by congruence. rewrite forallb_forall in Hf. auto.
    + intros H. destruct (H v Hv) as [[s ->]|[l [-> Hl]]]; simpl.
      * apply ensure_ok. apply Rltb_true; lra.
      * assert (forallb truthy l = true) as -> by (apply forallb_forall; auto).
        apply ensure_ok. apply Rltb_true; lra.
  - split; auto. intros _ v Hv. assert (has_key c k = true) by (apply has_key_iff; eauto). congruence.
Qed.

Lemma all_nonneg_ok c k : well_typed c -> In k list_keys -> check_all_nonneg c k = Ok tt.
Proof.
  intros W I. destruct (wt_list c k W I) as [l Hl]. unfold check_all_nonneg.
  apply getitem_entry in Hl. rewrite Hl. simpl. apply ensure_ok. apply fle_iff.
  destruct (forallb truthy l); [left; constructor; lra| right; split; congruence].
Qed.

Lemma thickness_len_iff c : well_typed c -> (check_thickness_len c = Ok tt <->
  exists l vn n, entry c "PER_LAYER_THICKNESS" (VList l) /\
      entry c "N_layers" vn /\ num_of vn = Some (Fin (IZR n)) /\
      (Z.of_nat (length l) = n \/ length l = 1%nat)).
Proof.
  intros W. destruct (wt_list c "PER_LAYER_THICKNESS" W) as [l Hl]; [in_list|].
  destruct (wt_int c "N_layers" W) as (vn & n & En & In1 & Nn); [in_list|].
  unfold check_thickness_len. apply getitem_entry in Hl as Hl'. apply getitem_entry in En as En'.
  rewrite Hl', En'. simpl bind. rewrite ensure_ok, orb_true_iff, Nat.eqb_eq.
  assert (py_eqb (VInt (Z.of_nat (length l))) vn = true <-> Z.of_nat (length l) = n) as ->.
  { assert (py_eqb (VInt (Z.of_nat (length l))) vn = feq (Fin (IZR (Z.of_nat (length l)))) (Fin (IZR n))) as ->.
    { destruct vn; simpl in *; inversion Nn; auto. }
    rewrite feq_iff. split; [intros [E _]; inversion E; apply eq_IZR; auto|intros ->; split; congruence]. }
  split.
  - intros. exists l, vn, n; auto.
  - intros (l' & vn' & n' & E1 & E2 & N & H).
    pose proof (entry_fun _ _ _ _ E1 Hl) as Q; inversion Q; subst l'.
    pose proof (entry_fun _ _ _ _ E2 En); subst vn'.
    rewrite Nn in N; inversion N as [E3]. apply eq_IZR in E3; subst; auto.
Qed.

Lemma source_len_iff c : well_typed c -> (check_source_len c = Ok tt <->
  exists l, entry c "FDTD_source_position" (VList l) /\ (length l = 2 \/ length l = 3)%nat).
Proof.
  intros W. destruct (wt_list c "FDTD_source_position" W) as [l Hl]; [in_list|].
  unfold check_source_len. apply getitem_entry in Hl as Hl'. rewrite Hl'. simpl bind.
  rewrite ensure_ok, orb_true_iff, !Nat.eqb_eq. split.
  - intros; exists l; auto.
  - intros [l' [E H]]. pose proof (entry_fun _ _ _ _ E Hl) as Q; inversion Q; subst; auto.
Qed.

Lemma Rfloor_ge x g : (g <= Rfloor x)%Z <-> IZR g <= x.
Proof.
  destruct (Rfloor_spec x). split; intros H1.
  - apply IZR_le in H1. lra.
  - assert (IZR g < IZR (Rfloor x + 1)) by (rewrite plus_IZR; lra). apply lt_IZR in H2. lia.
Qed.

(** The two wavelength checks together (they share the scaling). *)
Lemma scaling_value c v0 v1 rest x0 x1 vm m :
  entry c "physical_wavelength_range" (VList (v0 :: v1 :: rest)) ->
  num_of v0 = Some x0 -> num_of v1 = Some x1 -> f_lt x0 x1 -> x0 <> Fin 0 ->
  entry c "FDTD_min_gridpoints_per_unit_magnitude" vm -> num_of vm = Some (Fin m) ->
  fdtd_scaling c = Ok (Fin (gridpoints_per_um x0 m)).
Proof.
  intros E N0 N1 L Z Em Nm. unfold fdtd_scaling.
  apply getitem_entry in E. apply getitem_entry in Em. rewrite E, Em.
  unfold bind at 1. change (py_index (VList (v0 :: v1 :: rest)) 0) with (Ok v0).
  unfold bind at 1. unfold to_num at 1. rewrite N0. unfold bind at 1.
  assert (PM : forall a b, py_max (Fin a) (Fin b) = Fin (Rmax a b)).
  { intros. unfold py_max. simpl. unfold Rltb, Rmax. destruct (Rlt_dec a b), (Rle_dec a b); auto; try lra.
    assert (a = b) by lra; subst; auto. }
  destruct x0 as [w| | |]; try (inversion L; fail).
  - simpl fmul. unfold fdiv. destruct (Req_EM_T (w * (1/10)) 0) as [e|e].
    + exfalso. apply Z. f_equal. lra.
    + simpl. unfold to_num. rewrite Nm. simpl. rewrite PM. f_equal. f_equal.
      unfold gridpoints_per_um. f_equal. unfold Rdiv. rewrite Rmult_1_l. reflexivity.
  - simpl fmul. destruct (Req_EM_T (1/10) 0); [lra|]. destruct (Rlt_dec 0 (1/10)); [|lra].
    simpl. unfold to_num. rewrite Nm. simpl. rewrite PM. reflexivity.
Qed.

Definition wl_spec c := exists v0 v1 rest x0 x1 vm m d vg g,
      entry c "physical_wavelength_range" (VList (v0 :: v1 :: rest)) /\
      num_of v0 = Some x0 /\ num_of v1 = Some x1 /\ f_lt x0 x1 /\ x0 <> Fin 0 /\
      entry c "FDTD_min_gridpoints_per_unit_magnitude" vm /\ num_of vm = Some (Fin m) /\
      entry c "FDTD_free_space_distance" (VFloat (Fin d)) /\
      entry c "FDTD_gridpoints_from_material_to_detector" vg /\ num_of vg = Some (Fin (IZR g)) /\
      IZR g <= gridpoints_per_um x0 m * d.

Lemma gp_nonneg x0 m : 0 < m -> 0 < gridpoints_per_um x0 m.
Proof.
  intros. unfold gridpoints_per_um. destruct x0; try (pose proof (Rmax_r 0 m); lra).
  pose proof (Rmax_r (/ 1000000 / (r / 10)) m). lra.
Qed.

Lemma wl_iff c : well_typed c ->
  (forall k, In k positive_keys -> exists v x, entry c k v /\ num_of v = Some x /\ f_lt (Fin 0) x) ->
  (check_wl_order c = Ok tt /\ check_detector c = Ok tt <-> wl_spec c).
Proof.
  intros W HP.
  destruct (wt_int c "FDTD_min_gridpoints_per_unit_magnitude" W) as (vm & m & Em & Im & Nm); [in_list|].
  destruct (wt_int c "FDTD_gridpoints_from_material_to_detector" W) as (vg & g & Eg & Ig & Ng); [in_list|].
  destruct (wt_float c "FDTD_free_space_distance" W) as [fd Ed]; [in_list|].
  assert (Pm : 0 < IZR m).
  { destruct (HP "FDTD_min_gridpoints_per_unit_magnitude") as (v & x & E & N & L); [in_list|].
    pose proof (entry_fun _ _ _ _ E Em); subst. rewrite Nm in N; inversion N; subst. inversion L; auto. }
  assert (Pd : forall d, fd = Fin d -> 0 < d).
  { intros d ->. destruct (HP "FDTD_free_space_distance") as (v & x & E & N & L); [in_list|].
    pose proof (entry_fun _ _ _ _ E Ed); subst. simpl in N; inversion N; subst. inversion L; auto. }
  split.
  - intros [H1 H2]. unfold check_wl_order in H1.
    apply bind_ok in H1. destruct H1 as (w & Ew & H1). apply getitem_entry in Ew.
    apply bind_ok in H1. destruct H1 as (v0 & Hv0 & H1).
    apply bind_ok in H1. destruct H1 as (v1 & Hv1 & H1).
    apply bind_ok in H1. destruct H1 as (r & Hlt & H1). apply ensure_ok in H1. subst r.
    destruct (wt_list c "physical_wavelength_range" W) as [l Hl]; [in_list|].
    pose proof (entry_fun _ _ _ _ Ew Hl); subst w.
    apply py_index_list in Hv0. apply py_index_list in Hv1.
    destruct (two_elems _ _ _ Hv0 Hv1) as [rest ->].
    unfold check_detector in H2. apply bind_ok in H2. destruct H2 as (s & Hs & H2).
    (* v0 is a number that is not zero *)
    assert (exists x0, num_of v0 = Some x0 /\ x0 <> Fin 0) as [x0 [N0 Z0]].
    { unfold fdtd_scaling in Hs. apply getitem_entry in Hl as Hl'. rewrite Hl' in Hs.
      unfold bind at 1 in Hs. change (py_index (VList (v0 :: v1 :: rest)) 0) with (Ok v0) in Hs.
      unfold bind at 1 in Hs. unfold to_num at 1 in Hs. destruct (num_of v0) as [x0|] eqn:N0; [|discriminate].
      exists x0; split; auto. intros ->. simpl in Hs. destruct (Req_EM_T (0 * (1/10)) 0); [discriminate|lra]. }
    apply (proj1 (py_lt_num v0 v1 x0 N0)) in Hlt. destruct Hlt as [x1 [N1 L]].
    rewrite (scaling_value c v0 v1 rest x0 x1 vm (IZR m) Hl N0 N1 L Z0 Em Nm) in Hs.
    inversion Hs; subst s; clear Hs.
    apply bind_ok in H2. destruct H2 as (d' & Hd' & H2). apply getitem_entry in Hd'.
    pose proof (entry_fun _ _ _ _ Hd' Ed); subst d'.
    change (to_num (VFloat fd)) with (Ok fd) in H2. unfold bind at 1 in H2.
    apply bind_ok in H2. destruct H2 as (n & Hn & H2).
    apply bind_ok in H2. destruct H2 as (vg' & Hg' & H2). apply getitem_entry in Hg'.
    pose proof (entry_fun _ _ _ _ Hg' Eg); subst vg'.
    apply bind_ok in H2. destruct H2 as (less & Hless & H2). apply ensure_ok in H2.
    apply negb_true_iff in H2. subst less.
    pose proof (gp_nonneg x0 (IZR m) Pm) as Pg.
    destruct fd as [d| | |].
    2,3: exfalso; simpl in Hn; destruct (Req_EM_T _ 0); [|destruct (Rlt_dec 0 _)]; simpl in Hn; discriminate.
    2: { exfalso; simpl in Hn; discriminate. }
    exists v0, v1, rest, x0, x1, vm, (IZR m), d, vg, g. repeat split; auto.
    simpl in Hn. inversion Hn; subst n. specialize (Pd d eq_refl).
    rewrite Rtrunc_nonneg in Hless by nra. 
    apply Rfloor_ge.
    rewrite (py_lt_val (VInt _) vg _ _ eq_refl Ng) in Hless. simpl in Hless.
    assert (Hless' : Rltb (IZR (Rfloor (gridpoints_per_um x0 (IZR m) * d))) (IZR g) = false) by congruence. apply Rltb_false in Hless'. apply le_IZR in Hless'. lia.
  - intros (v0 & v1 & rest & x0 & x1 & vm' & m' & d & vg' & g' & El & N0 & N1 & L & Z0 & Em' & Nm' & Ed' & Eg' & Ng' & Hg).
    pose proof (entry_fun _ _ _ _ Em' Em); subst vm'. pose proof (entry_fun _ _ _ _ Eg' Eg); subst vg'.
    pose proof (entry_fun _ _ _ _ Ed' Ed) as Q; inversion Q; subst fd.
    rewrite Nm in Nm'; inversion Nm'; subst m'. rewrite Ng in Ng'; inversion Ng' as [E]; apply eq_IZR in E; subst g'.
    specialize (Pd d eq_refl). pose proof (gp_nonneg x0 (IZR m) Pm) as Pg.
    split.
    + unfold check_wl_order. apply getitem_entry in El. rewrite El. unfold bind at 1.
      change (py_index (VList (v0 :: v1 :: rest)) 0) with (Ok v0).
      change (py_index (VList (v0 :: v1 :: rest)) 1) with (Ok v1). unfold bind at 1 2.
      assert (py_lt v0 v1 = Ok true) as -> by (apply (py_lt_num _ _ _ N0); eauto). reflexivity.
    + unfold check_detector.
      rewrite (scaling_value c v0 v1 rest x0 x1 vm (IZR m) El N0 N1 L Z0 Em Nm). unfold bind at 1.
      apply getitem_entry in Ed'. rewrite Ed'. simpl fmul. unfold bind at 1. unfold to_num, num_of. unfold bind at 1.
      simpl fmul. unfold fint. unfold bind at 1. apply getitem_entry in Eg'. rewrite Eg'. unfold bind at 1.
      rewrite Rtrunc_nonneg by nra.
      assert (py_lt (VInt (Rfloor (gridpoints_per_um x0 (IZR m) * d))) vg =
              Ok (flt (Fin (IZR (Rfloor (gridpoints_per_um x0 (IZR m) * d)))) (Fin (IZR g)))) as ->.
      { apply py_lt_val; auto. }
      simpl. assert (Rltb (IZR (Rfloor (gridpoints_per_um x0 (IZR m) * d))) (IZR g) = false) as ->; auto.
      apply Rltb_false. apply IZR_le. apply Rfloor_ge in Hg. auto.
Qed.

Lemma ranges_iff c : well_typed c -> (check_value_ranges c = Ok tt <-> ranges_ok c).
Proof.
  intros W. unfold check_value_ranges. rewrite !bind_tt_ok. split.
  - intros (H1 & H2 & H3 & H4 & H5 & H6 & H7 & H8 & H9 & H10 & H11 & H12 & H13 & H14 & H15 & H16).
    pose proof (proj1 (positives_iff c) H5) as HP.
    assert (OV : exists v x, entry c "eps_oversampling" v /\ num_of v = Some x /\ f_lt (Fin 0) x)
      by (apply HP; in_list).
    constructor.
    + apply min_max_iff in H1; auto; in_list.
    + apply min_max_iff in H2; auto; in_list.
    + apply wl_iff; auto.
    + auto.
    + apply multiple_iff in H6; auto; in_list.
    + apply multiple_iff in H7; auto; in_list.
    + apply choice_iff; auto.
    + apply lattice_iff in H9; auto.
    + intros k Hk. apply all_positive_iff. rewrite for_each_ok in H10. apply H10. exact Hk.
    + apply thickness_len_iff; auto.
    + apply choice_iff; auto.
    + apply source_len_iff; auto.
    + apply choice_iff; auto.
    + apply choice_iff; auto.
  - intros [R1 R2 R3 R4 R5 R6 R7 R8 R9 R10 R11 R12 R13 R14].
    assert (OV : exists v x, entry c "eps_oversampling" v /\ num_of v = Some x /\ f_lt (Fin 0) x)
      by (apply R4; in_list).
    pose proof (proj2 (wl_iff c W R4) R3) as [HW HD].
    repeat split; auto.
    + apply min_max_iff; auto; in_list.
    + apply min_max_iff; auto; in_list.
    + apply positives_iff; auto.
    + apply multiple_iff; auto; in_list.
    + apply multiple_iff; auto; in_list.
    + apply choice_iff; auto.
    + apply lattice_iff; auto.
    + apply for_each_ok. intros k Hk. apply all_positive_iff. apply R9. exact Hk.
    + apply for_each_ok. intros k Hk. apply all_nonneg_ok; auto.
      destruct Hk as [<-|[<-|[]]]; in_list.
    + apply thickness_len_iff; auto.
    + apply choice_iff; auto.
    + apply source_len_iff; auto.
    + apply choice_iff; auto.
    + apply choice_iff; auto.
Qed.

(** * the whole validator *)
Definition valid (c : config) : Prop := keys_complete c /\ keys_known c /\ well_typed c /\ ranges_ok c.

Lemma validate_sound c w : validate_config c = Ok w -> valid c.
Proof.
  unfold validate_config. rewrite !bind_tt_ok. intros (H1 & H2 & H3 & _).
  apply check_keys_ok in H1. destruct H1 as [HC HK]. apply types_ok_iff in H2; auto.
  apply ranges_iff in H3; auto. unfold valid; auto.
Qed.

Lemma validate_complete c : valid c -> ~ entry c "solver" (VStr "FDTD") -> validate_config c = Ok [].
Proof.
  intros (HC & HK & W & RO) NF. unfold validate_config. rewrite !bind_tt_ok.
  split; [apply check_keys_ok; auto|]. split; [apply types_ok_iff; auto|].
  split; [apply ranges_iff; auto|].
  destruct (wt_str c "solver" W) as [s Hs]; [in_list|].
  apply getitem_entry in Hs as Hs'. rewrite Hs'. unfold bind.
  assert (py_eqb (VStr s) (VStr "FDTD") = false) as ->; auto.
  simpl. apply String.eqb_neq. intros ->; auto.
Qed.

(** With the FDTD solver the only additional requirement is that all
    thicknesses are finite numbers. *)
Lemma map_res_ok {A B} (f : A -> res B) l :
  (forall x, In x l -> exists y, f x = Ok y) -> exists ys, map_res f l = Ok ys.
Proof.
  induction l; simpl; intros H; eauto.
  destruct (H a) as [y Hy]; auto. rewrite Hy. unfold bind at 1.
  destruct IHl as [ys Hys]; auto. rewrite Hys. simpl; eauto.
Qed.

Lemma ranges_fdtd_data c : well_typed c -> ranges_ok c -> exists s d x0 m,
  fdtd_scaling c = Ok (Fin s) /\ 0 < s /\ entry c "FDTD_free_space_distance" (VFloat (Fin d)) /\ 0 < d /\
  s = gridpoints_per_um x0 m.
Proof.
  intros W RO. pose proof (ro_wl c RO) as Q. pose proof (ro_pos c RO) as HP.
  destruct Q as (v0 & v1 & rest & x0 & x1 & vm & m & d & vg & g & El & N0 & N1 & L & Z0 & Em & Nm & Ed & Eg & Ng & Hg).
  exists (gridpoints_per_um x0 m), d, x0, m. split; [apply (scaling_value c v0 v1 rest x0 x1 vm); auto|].
  split.
  - apply gp_nonneg. destruct (HP "FDTD_min_gridpoints_per_unit_magnitude") as (v & x & E & N & Lx); [in_list|].
    pose proof (entry_fun _ _ _ _ E Em); subst. rewrite Nm in N; inversion N; subst. inversion Lx; auto.
  - split; auto. split; auto. destruct (HP "FDTD_free_space_distance") as (v & x & E & N & Lx); [in_list|].
    pose proof (entry_fun _ _ _ _ E Ed); subst. simpl in N; inversion N; subst. inversion Lx; auto.
Qed.

Lemma grid_scale_ok c : well_typed c -> ranges_ok c ->
  (exists p, entry c "FDTD_pml_thickness" (VFloat (Fin p))) ->
  (forall l t, entry c "PER_LAYER_THICKNESS" (VList l) -> In t l -> exists r, num_of t = Some (Fin r)) ->
  exists w, check_grid_scale c = Ok w.
Proof.
  intros W RO [p Hp] HT. destruct (ranges_fdtd_data c W RO) as (s & d & x0 & m & Hs & Ps & Hd & Pd & _).
  destruct (wt_list c "PER_LAYER_THICKNESS" W) as [l Hl]; [in_list|].
  unfold check_grid_scale. rewrite Hs. unfold bind at 1.
  apply getitem_entry in Hl as Hl'. rewrite Hl'. apply getitem_entry in Hp as Hp'. rewrite Hp'.
  apply getitem_entry in Hd as Hd'. rewrite Hd'. unfold bind, to_num, num_of.
  apply map_res_ok. intros t Ht. destruct (HT l t Hl Ht) as [r Hr].
  unfold grid_scale_layer, to_num. rewrite Hr. simpl.
  destruct (Req_EM_T s 0); [lra|]. simpl. eauto.
Qed.

Lemma validate_complete_fdtd c : valid c ->
  (exists p, entry c "FDTD_pml_thickness" (VFloat (Fin p))) ->
  (forall l t, entry c "PER_LAYER_THICKNESS" (VList l) -> In t l -> exists r, num_of t = Some (Fin r)) ->
  exists w, validate_config c = Ok w.
Proof.
  intros V HP HT. pose proof V as (HC & HK & W & RO).
  destruct (wt_str c "solver" W) as [s Hs]; [in_list|].
  destruct (String.string_dec s "FDTD") as [->|N].
  - destruct (grid_scale_ok c W RO HP HT) as [w Hw]. exists w.
    unfold validate_config. rewrite !bind_tt_ok.
    split; [apply check_keys_ok; auto|]. split; [apply types_ok_iff; auto|].
    split; [apply ranges_iff; auto|].
    apply getitem_entry in Hs as Hs'. rewrite Hs'. exact Hw.
  - exists []. apply validate_complete; auto. intros Q.
    pose proof (entry_fun _ _ _ _ Q Hs) as E. inversion E; auto.
Qed.

Lemma validate_keyerror c : ~ (keys_complete c /\ keys_known c) -> validate_config c = Err KeyError.
Proof.
  intros H. unfold validate_config. destruct (check_keys_total c) as [E|E]; rewrite E; auto.
  apply check_keys_ok in E. contradiction.
Qed.

Lemma validate_typeerror c : keys_complete c -> keys_known c -> ~ well_typed c ->
  validate_config c = Err TypeError.
Proof.
  intros HC HK NW. unfold validate_config.
  rewrite (proj2 (check_keys_ok c)) by auto. unfold bind at 1.
  destruct (check_types_total c HC) as [E|E]; rewrite E; auto.
  apply types_ok_iff in E; auto. contradiction.
Qed.

(** * replacing values *)
Lemma lookup_replace c k v k' : lookup (replace c k v) k' =
  if String.eqb k k' then (match lookup c k' with Some _ => Some v | None => None end) else lookup c k'.
Proof.
  induction c as [|[k0 v0] c IH]; simpl.
  - destruct (String.eqb k k'); auto.
  - destruct (String.eqb_spec k k0); simpl.
    + subst k0. destruct (String.eqb_spec k' k).
      * subst k'. rewrite String.eqb_refl. auto.
      * rewrite IH. destruct (String.eqb_spec k k'); auto; congruence.
    + destruct (String.eqb_spec k' k0).
      * subst k0. destruct (String.eqb_spec k k'); auto; congruence.
      * rewrite IH; auto.
Qed.

Lemma entry_replace_other c k v k' w : k <> k' -> (entry (replace c k v) k' w <-> entry c k' w).
Proof. intros. unfold entry. rewrite lookup_replace. apply String.eqb_neq in H. rewrite H. tauto. Qed.
Lemma entry_replace_same c k v w0 : entry c k w0 -> entry (replace c k v) k v.
Proof. intros. unfold entry in *. rewrite lookup_replace, String.eqb_refl, H. auto. Qed.
Lemma entry_replace_inv c k v w : entry (replace c k v) k w -> w = v.
Proof.
  unfold entry. rewrite lookup_replace, String.eqb_refl. destruct (lookup c k); congruence.
Qed.

Lemma replace_keys c k v : map fst (replace c k v) = map fst c.
Proof.
  unfold replace. rewrite map_map. apply map_ext. intros [k' v']. simpl. destruct (String.eqb k k'); auto.
Qed.

Lemma replace_complete c k v : keys_complete c -> keys_complete (replace c k v).
Proof.
  intros H k' kd Hk. destruct (H k' kd Hk) as [w Hw].
  destruct (String.string_dec k k') as [->|N].
  - exists v. eapply entry_replace_same; eauto.
  - exists w. apply entry_replace_other; auto.
Qed.
Lemma replace_known c k v : keys_known c -> keys_known (replace c k v).
Proof.
  intros H k' v' Hin. assert (In k' (map fst (replace c k v))) by (apply in_map with (f := fst) in Hin; auto).
  rewrite replace_keys in H0. apply in_map_iff in H0. destruct H0 as [[k0 v0] [E Hin']]. simpl in E; subst.
  eapply H; eauto.
Qed.
Lemma replace_list_typed c k l : In k list_keys -> well_typed c -> well_typed (replace c k (VList l)).
Proof.
  intros I W k' kd Hk. destruct (W k' kd Hk) as [w [Hw Hkd]].
  destruct (String.string_dec k k') as [->|N].
  - exists (VList l). split; [eapply entry_replace_same; eauto|].
    assert (In (k', KList) default_config_entries) by (apply keys_of_kind_spec; auto).
    assert (kd = KList) as ->; [|simpl; eauto].
    clear - Hk H. 
    assert (ND : forallb (fun p => forallb (fun q => negb (String.eqb (fst p) (fst q)) || kind_eqb (snd p) (snd q))
       default_config_entries) default_config_entries = true) by reflexivity.
    rewrite forallb_forall in ND. specialize (ND _ Hk). rewrite forallb_forall in ND. specialize (ND _ H).
    simpl in ND. rewrite String.eqb_refl in ND. simpl in ND. apply kind_eqb_eq in ND; auto.
  - exists w. split; auto. apply entry_replace_other; auto.
Qed.

Ltac repl := first [ apply entry_replace_other; [discriminate | assumption] | eassumption ].
Ltac repl_goal :=
  repeat match goal with
  | H : exists x, _ |- _ => let y := fresh in destruct H as [y H]
  | H : _ /\ _ |- _ => destruct H
  end.

(** Any same-length list of non-zero numbers keeps the config valid: the sign
    of a thickness is never looked at. *)
Lemma thickness_sign_blind c l l' : valid c ->
  entry c "PER_LAYER_THICKNESS" (VList l) -> length l' = length l ->
  (forall x, In x l' -> truthy x = true) ->
  valid (replace c "PER_LAYER_THICKNESS" (VList l')).
Proof.
  intros (HC & HK & W & RO) El Len Tr.
  split; [apply replace_complete; auto|]. split; [apply replace_known; auto|].
  split; [apply replace_list_typed; auto; in_list|].
  assert (EO : forall k w, k <> "PER_LAYER_THICKNESS" ->
     (entry (replace c "PER_LAYER_THICKNESS" (VList l')) k w <-> entry c k w))
    by (intros; apply entry_replace_other; auto).
  destruct RO as [R1 R2 R3 R4 R5 R6 R7 R8 R9 R10 R11 R12 R13 R14].
  constructor.
  - destruct R1 as (a & b & ? & ? & ?). exists a, b. rewrite !EO by discriminate. auto.
  - destruct R2 as (a & b & ? & ? & ?). exists a, b. rewrite !EO by discriminate. auto.
  - destruct R3 as (v0 & v1 & rest & x0 & x1 & vm & m & d & vg & g & Q).
    exists v0, v1, rest, x0, x1, vm, m, d, vg, g. rewrite !EO by discriminate. exact Q.
  - intros k Hk. destruct (R4 k Hk) as (v & x & E & Q). exists v, x. rewrite EO; auto.
    intros ->. simpl in Hk. repeat (destruct Hk as [Hk|Hk]; [discriminate|]). contradiction.
  - destruct R5 as (vn & vo & n & o & q & Q). exists vn, vo, n, o, q. rewrite !EO by discriminate. exact Q.
  - destruct R6 as (vn & vo & n & o & q & Q). exists vn, vo, n, o, q. rewrite !EO by discriminate. exact Q.
  - destruct R7 as (s & ? & ?). exists s. rewrite !EO by discriminate. auto.
  - destruct R8 as (r0 & r1 & rest & a0 & a1 & b0 & b1 & Q). exists r0, r1, rest, a0, a1, b0, b1.
    rewrite !EO by discriminate. exact Q.
  - intros k Hk v Hv. destruct (String.string_dec k "PER_LAYER_THICKNESS") as [->|N].
    + apply entry_replace_inv in Hv. subst v. right. exists l'. auto.
    + rewrite EO in Hv by auto. exact (R9 k Hk v Hv).
  - destruct R10 as (l0 & vn & n & E & En & Nn & Q). exists l', vn, n.
    split; [eapply entry_replace_same; eauto|]. rewrite EO by discriminate. split; auto. split; auto.
    pose proof (entry_fun _ _ _ _ El E) as QE. inversion QE; subst l0. rewrite Len. auto.
  - destruct R11 as (s & ? & ?). exists s. rewrite !EO by discriminate. auto.
  - destruct R12 as (s & ? & ?). exists s. rewrite !EO by discriminate. auto.
  - destruct R13 as (s & ? & ?). exists s. rewrite !EO by discriminate. auto.
  - destruct R14 as (s & ? & ?). exists s. rewrite !EO by discriminate. auto.
Qed.

(** The target spectra may be any lists whatsoever. *)
Lemma spectrum_unchecked c k l : valid c ->
  k = "target_reflectance_spectrum" \/ k = "target_transmittance_spectrum" ->
  valid (replace c k (VList l)).
Proof.
  intros (HC & HK & W & RO) Hk.
  split; [apply replace_complete; auto|]. split; [apply replace_known; auto|].
  split; [apply replace_list_typed; auto; destruct Hk; subst; in_list|].
  assert (EO : forall k' w, k' <> "target_reflectance_spectrum" -> k' <> "target_transmittance_spectrum" ->
     (entry (replace c k (VList l)) k' w <-> entry c k' w))
    by (intros; apply entry_replace_other; destruct Hk; congruence).
  destruct RO as [R1 R2 R3 R4 R5 R6 R7 R8 R9 R10 R11 R12 R13 R14].
  constructor.
  - destruct R1 as (a & b & ? & ? & ?). exists a, b. rewrite !EO by discriminate. auto.
  - destruct R2 as (a & b & ? & ? & ?). exists a, b. rewrite !EO by discriminate. auto.
  - destruct R3 as (v0 & v1 & rest & x0 & x1 & vm & m & d & vg & g & Q).
    exists v0, v1, rest, x0, x1, vm, m, d, vg, g. rewrite !EO by discriminate. exact Q.
  - intros k' Hk'. destruct (R4 k' Hk') as (v & x & E & Q). exists v, x. rewrite EO; auto;
    intros ->; simpl in Hk'; repeat (destruct Hk' as [Hk'|Hk']; [discriminate|]); contradiction.
  - destruct R5 as (vn & vo & n & o & q & Q). exists vn, vo, n, o, q. rewrite !EO by discriminate. exact Q.
  - destruct R6 as (vn & vo & n & o & q & Q). exists vn, vo, n, o, q. rewrite !EO by discriminate. exact Q.
  - destruct R7 as (s & ? & ?). exists s. rewrite !EO by discriminate. auto.
  - destruct R8 as (r0 & r1 & rest & a0 & a1 & b0 & b1 & Q). exists r0, r1, rest, a0, a1, b0, b1.
    rewrite !EO by discriminate. exact Q.
  - intros k' Hk' v Hv. rewrite EO in Hv; [exact (R9 k' Hk' v Hv)| |];
    intros ->; simpl in Hk'; repeat (destruct Hk' as [Hk'|Hk']; [discriminate|]); contradiction.
  - destruct R10 as (l0 & vn & n & Q). exists l0, vn, n. rewrite !EO by discriminate. exact Q.
  - destruct R11 as (s & ? & ?). exists s. rewrite !EO by discriminate. auto.
  - destruct R12 as (s & ? & ?). exists s. rewrite !EO by discriminate. auto.
  - destruct R13 as (s & ? & ?). exists s. rewrite !EO by discriminate. auto.
  - destruct R14 as (s & ? & ?). exists s. rewrite !EO by discriminate. auto.
Qed.

(** * the default config *)
Lemma default_typed : well_typed default_config.
Proof.
  intros k kd H. simpl in H.
  repeat (destruct H as [H|H]; [inversion H; subst; eexists; split; [reflexivity|unfold fl; simpl; eauto]|]).
  contradiction.
Qed.

Lemma default_complete : keys_complete default_config.
Proof. intros k kd H. destruct (default_typed k kd H) as [v [? _]]; eauto. Qed.
Lemma default_known : keys_known default_config.
Proof.
  intros k v H. left. 
  assert (E : map fst default_config = map fst default_config_entries) by reflexivity.
  assert (I : In k (map fst default_config)) by (apply in_map with (f := fst) in H; exact H).
  rewrite E in I. apply in_map_iff in I. destruct I as [[k' kd] [Q I]]. simpl in Q; subst. eauto.
Qed.

Lemma truthy_fl r : r <> 0 -> truthy (fl r) = true.
Proof. intros. simpl. apply Reqb_false in H. rewrite H; auto. Qed.

Lemma default_ranges : ranges_ok default_config.
Proof.
  constructor.
  - exists (Fin (-100)), (Fin 100). repeat split. left; constructor; lra.
  - exists (Fin 0), (Fin 3). repeat split. left; constructor; lra.
  - exists (fl (1/1000000)), (fl (30/1000000)), [], (Fin (1/1000000)), (Fin (30/1000000)), (VInt 10), 10, 1, (VInt 2), 2%Z.
    repeat split.
    + constructor; lra.
    + intros E; inversion E; lra.
    + unfold gridpoints_per_um. pose proof (Rmax_r (/ 1000000 / (1 / 1000000 / 10)) 10). lra.
  - intros k Hk. simpl in Hk.
    repeat (destruct Hk as [<-|Hk]; [eexists; eexists; split; [reflexivity|split; [reflexivity|constructor; lra]]|]).
    contradiction.
  - exists (VInt 1), (VInt 1), 1%Z, 1%Z, 1%Z. repeat split.
  - exists (VInt 1), (VInt 1), 1%Z, 1%Z, 1%Z. repeat split.
  - eexists; split; [reflexivity|in_list].
  - exists (VList [fl (1/10); fl 0]), (VList [fl 0; fl (1/10)]), [], (fl (1/10)), (fl 0), (fl 0), (fl (1/10)).
    repeat split; simpl; (assert (Rltb 0 (1/10) = true) as -> by (apply Rltb_true; lra)); auto.
  - intros k Hk. simpl in Hk. destruct Hk as [<-|[<-|[<-|[<-|[]]]]]; intros v Hv; inversion Hv; subst; right;
      (eexists; split; [reflexivity|]); intros x Hx; simpl in Hx.
    + destruct Hx as [<-|[<-|[]]]; reflexivity.
    + destruct Hx as [<-|[]]. apply truthy_fl; lra.
    + destruct Hx as [<-|[<-|[]]]; apply truthy_fl; lra.
  - exists [fl 1], (VInt 8), 8%Z. repeat split. auto.
  - eexists; split; [reflexivity|in_list].
  - eexists; split; [reflexivity|]. auto.
  - eexists; split; [reflexivity|in_list].
  - eexists; split; [reflexivity|in_list].
Qed.

Lemma default_valid : valid default_config.
Proof. split; [apply default_complete|split; [apply default_known|split; [apply default_typed|apply default_ranges]]]. Qed.

Lemma default_accepted : validate_config default_config = Ok [].
Proof. apply validate_complete; [apply default_valid|]. intros H; inversion H. Qed.

Lemma negative_thickness_accepted : exists c w,
  validate_config c = Ok w /\ entry c "PER_LAYER_THICKNESS" (VList [fl (-1)]).
Proof.
  exists (replace default_config "PER_LAYER_THICKNESS" (VList [fl (-1)])), [].
  split; [|reflexivity].
  apply validate_complete.
  - eapply thickness_sign_blind; [apply default_valid|reflexivity|reflexivity|].
    intros x [<-|[]]. apply truthy_fl; lra.
  - intros H; inversion H.
Qed.

Lemma negative_spectrum_accepted : exists c w,
  validate_config c = Ok w /\ entry c "target_reflectance_spectrum" (VList (repeat (fl (-1)) 20)).
Proof.
  exists (replace default_config "target_reflectance_spectrum" (VList (repeat (fl (-1)) 20))), [].
  split; [|reflexivity].
  apply validate_complete; [apply spectrum_unchecked; [apply default_valid|auto]|].
  intros H; inversion H.
Qed.

Lemma zero_rejected c w k l x : validate_config c = Ok w ->
  k = "PER_LAYER_THICKNESS" \/ k = "FDTD_source_position" ->
  entry c k (VList l) -> In x l -> num_of x <> Some (Fin 0).
Proof.
  intros H Hk E Hx N. apply validate_sound in H. destruct H as (_ & _ & _ & RO).
  assert (In k ["TRCWA_L_grid";"PER_LAYER_THICKNESS";"FDTD_grid";"FDTD_source_position"])
    by (destruct Hk; subst; in_list).
  destruct (ro_lists c RO k H _ E) as [[s Q]|[l0 [Q T]]]; [discriminate|]. inversion Q; subst l0.
  specialize (T x Hx).
  destruct x as [z|[]|[r| | |]| | | ]; simpl in N; inversion N as [E0]; simpl in T; try discriminate.
  - apply (eq_IZR z 0) in E0. subst. discriminate.
  - lra.
  - subst r. destruct (Reqb 0 0) eqn:Q0; [discriminate|]. apply Reqb_false in Q0. lra.
Qed.

Lemma negative_wavelength_accepted : exists c w,
  validate_config c = Ok w /\ entry c "physical_wavelength_range" (VList [fl (-1); fl (-1/2)]).
Proof.
  exists (replace default_config "physical_wavelength_range" (VList [fl (-1); fl (-1/2)])), [].
  split; [|reflexivity].
  apply validate_complete.
  - pose proof default_valid as (HC & HK & W & RO).
    split; [apply replace_complete; auto|]. split; [apply replace_known; auto|].
    split; [apply replace_list_typed; auto; in_list|].
    assert (EO : forall k w, k <> "physical_wavelength_range" ->
      (entry (replace default_config "physical_wavelength_range" (VList [fl (-1); fl (-1/2)])) k w
        <-> entry default_config k w)) by (intros; apply entry_replace_other; auto).
    destruct RO as [R1 R2 R3 R4 R5 R6 R7 R8 R9 R10 R11 R12 R13 R14].
    constructor.
    + destruct R1 as (a & b & Q). exists a, b. rewrite !EO by discriminate. exact Q.
    + destruct R2 as (a & b & Q). exists a, b. rewrite !EO by discriminate. exact Q.
    + exists (fl (-1)), (fl (-1/2)), [], (Fin (-1)), (Fin (-1/2)), (VInt 10), 10, 1, (VInt 2), 2%Z.
      repeat split.
      * constructor; lra.
      * intros E; inversion E; lra.
      * unfold gridpoints_per_um. pose proof (Rmax_r (/ 1000000 / (-1 / 10)) 10). lra.
    + intros k Hk. destruct (R4 k Hk) as (v & x & E & Q). exists v, x. rewrite EO; [split; assumption|].
      intros ->; simpl in Hk; repeat (destruct Hk as [Hk|Hk]; [discriminate|]); contradiction.
    + destruct R5 as (vn & vo & n & o & q & Q). exists vn, vo, n, o, q. rewrite !EO by discriminate. exact Q.
    + destruct R6 as (vn & vo & n & o & q & Q). exists vn, vo, n, o, q. rewrite !EO by discriminate. exact Q.
    + destruct R7 as (s & Q). exists s. rewrite !EO by discriminate. exact Q.
    + destruct R8 as (r0 & r1 & rest & a0 & a1 & b0 & b1 & Q). exists r0, r1, rest, a0, a1, b0, b1.
      rewrite !EO by discriminate. exact Q.
    + intros k Hk v Hv. rewrite EO in Hv; [exact (R9 k Hk v Hv)|].
      intros ->; simpl in Hk; repeat (destruct Hk as [Hk|Hk]; [discriminate|]); contradiction.
    + destruct R10 as (l0 & vn & n & Q). exists l0, vn, n. rewrite !EO by discriminate. exact Q.
    + destruct R11 as (s & Q). exists s. rewrite !EO by discriminate. exact Q.
    + destruct R12 as (s & Q). exists s. rewrite !EO by discriminate. exact Q.
    + destruct R13 as (s & Q). exists s. rewrite !EO by discriminate. exact Q.
    + destruct R14 as (s & Q). exists s. rewrite !EO by discriminate. exact Q.
  - intros H; inversion H.
Qed.
