(** Proofs about the listing of a config. *)
From Coq Require Import String Ascii List Bool Arith Lia.
From Verif Require Import Base PyVal Model_Print Spec_Print.
Import ListNotations.
Open Scope string_scope.

Lemma app_assoc_s (a b c : string) : (a ++ b) ++ c = a ++ (b ++ c).
Proof. induction a; cbn; [reflexivity|]. now rewrite IHa. Qed.
Lemma app_nil_s (a : string) : a ++ "" = a.
Proof. induction a; cbn; [reflexivity|]. now rewrite IHa. Qed.

Lemma length_app_s (a b : string) : String.length (a ++ b) = String.length a + String.length b.
Proof. induction a; cbn; [reflexivity|]. now rewrite IHa. Qed.
Lemma spaces_length n : String.length (spaces n) = n.
Proof. induction n; cbn; congruence. Qed.
Lemma spaces_blank n : forall i c, String.get i (spaces n) = Some c -> c = " "%char.
Proof. induction n as [|n IH]; intros [|i] c H; cbn in H; try discriminate; [congruence|]. exact (IH _ _ H). Qed.
Lemma pad_aligned n s : left_aligned n s (pad n s).
Proof.
  exists (spaces (n - String.length s)). split; [reflexivity|]. split; [apply spaces_blank|].
  unfold pad. rewrite length_app_s, spaces_length. lia.
Qed.

Definition flatten (l : list string) : string := fold_right append "" l.

Section P.
Variable show : pyval -> string.

Lemma items_text cfg : forall idx out e, print_items show idx cfg = (out, e) ->
  match e with
  | None => exists texts, Forall2 (item_text show) cfg texts /\ out = flatten texts /\ Forall (fun ke => ~ unprintable (snd ke)) cfg
  | Some x => x = TypeError /\ exists pre k t post texts, cfg = (pre ++ (k, Plain (VObj t)) :: post)%list
      /\ Forall2 (item_text show) pre texts /\ out = flatten texts
  end.
Proof.
  assert (Cons : forall i txt r o e, item_text show i txt -> ~ unprintable (snd i) ->
    match e with
    | None => exists texts, Forall2 (item_text show) r texts /\ o = flatten texts /\ Forall (fun ke => ~ unprintable (snd ke)) r
    | Some x => x = TypeError /\ exists pre k t post texts, r = (pre ++ (k, Plain (VObj t)) :: post)%list
        /\ Forall2 (item_text show) pre texts /\ o = flatten texts
    end ->
    match e with
    | None => exists texts, Forall2 (item_text show) (i :: r) texts /\ txt ++ o = flatten texts /\ Forall (fun ke => ~ unprintable (snd ke)) (i :: r)
    | Some x => x = TypeError /\ exists pre k t post texts, i :: r = (pre ++ (k, Plain (VObj t)) :: post)%list
        /\ Forall2 (item_text show) pre texts /\ txt ++ o = flatten texts
    end).
  { intros i txt r o [x|] T U; cbn.
    - intros (-> & pre & k & t & post & texts & -> & F & ->). split; [reflexivity|].
      exists (i :: pre), k, t, post, (txt :: texts). split; [reflexivity|]. split; [constructor; assumption|reflexivity].
    - intros (texts & F & -> & N). exists (txt :: texts). split; [constructor; assumption|]. split; [reflexivity|]. constructor; assumption. }
  induction cfg as [|[key value] r IH]; intros idx out e H; cbn [print_items] in H.
  - inversion H; subst. exists []. repeat constructor.
  - assert (V : forall v text, value = Plain v -> (forall l, v <> VList l) -> format15 show v = Ok text ->
       (let (o, e) := print_items show (S idx) r in
        (pad 23 key ++ ": " ++ text ++ "|" ++ (if (idx mod 3 =? 2)%nat then newline else "") ++ o, e)) = (out, e) -> 
       match e with
       | None => exists texts, Forall2 (item_text show) ((key, value) :: r) texts /\ out = flatten texts /\ Forall (fun ke => ~ unprintable (snd ke)) ((key, value) :: r)
       | Some x => x = TypeError /\ exists pre k t post texts, ((key, value) :: r) = (pre ++ (k, Plain (VObj t)) :: post)%list
           /\ Forall2 (item_text show) pre texts /\ out = flatten texts
       end).
    { intros v text -> NL F H'. destruct (print_items show (S idx) r) as [o e'] eqn:E. apply IH in E. inversion H'; subst out e'. clear H'.
      assert (NO : forall t, v <> VObj t) by (intros t ->; discriminate).
      assert (text = pad 15 (shown show v)) as ->.
      { destruct v as [| [|] | | | |]; cbn in F; try (inversion F; reflexivity); try discriminate; exfalso; eapply NL; reflexivity. }
      pose proof (Cons (key, Plain v) (pad 23 key ++ ": " ++ pad 15 (shown show v) ++ "|" ++ (if (idx mod 3 =? 2)%nat then newline else "")) r o e) as K.
      rewrite !app_assoc_s in K. apply K; [|cbn; intros [t U]; inversion U; subst; eapply NO; reflexivity|exact E].
      apply text_value; [exact NL|exact NO| |apply pad_aligned|apply pad_aligned]. destruct (idx mod 3 =? 2)%nat; tauto. }
    assert (L : forall text, item_text show (key, value) (newline ++ key ++ ": " ++ text ++ newline) -> ~ unprintable value ->
       (let (o, e) := print_items show 1 r in (newline ++ key ++ ": " ++ text ++ newline ++ o, e)) = (out, e) ->
       match e with
       | None => exists texts, Forall2 (item_text show) ((key, value) :: r) texts /\ out = flatten texts /\ Forall (fun ke => ~ unprintable (snd ke)) ((key, value) :: r)
       | Some x => x = TypeError /\ exists pre k t post texts, ((key, value) :: r) = (pre ++ (k, Plain (VObj t)) :: post)%list
           /\ Forall2 (item_text show) pre texts /\ out = flatten texts
       end).
    { intros text T U H'. destruct (print_items show 1 r) as [o e'] eqn:E. apply IH in E. inversion H'; subst out e'.
      pose proof (Cons (key, value) (newline ++ key ++ ": " ++ text ++ newline) r o e) as K. rewrite !app_assoc_s in K. apply K; assumption. }
    destruct value as [v|text|].
    + destruct v as [z|b|f|s|l|t]; cbn [format15] in H;
        try (eapply V; [reflexivity|discriminate|reflexivity|exact H]).
      * apply L with (text := show (VList l)); [constructor|intros [t U]; discriminate|exact H].
      * inversion H; subst. split; [reflexivity|]. exists [], key, t, r, []. repeat constructor.
    + apply L with (text := text); [constructor|intros [t U]; discriminate|exact H].
    + destruct (print_items show (S idx) r) as [o e'] eqn:E. apply IH in E. inversion H; subst out e'.
      apply (Cons (key, Collection) newline r o e); [constructor|intros [t U]; discriminate|exact E].
Qed.

Lemma print_complete cfg out : print_cfg show cfg = (out, None) ->
  exists texts, Forall2 (item_text show) cfg texts /\ out = fold_right append newline texts.
Proof.
  unfold print_cfg. destruct (print_items show 0 cfg) as [o [x|]] eqn:E; intros H; inversion H; subst. apply items_text in E.
  destruct E as (texts & F & -> & _). exists texts. split; [exact F|]. clear. induction texts as [|a t IH]; cbn; [reflexivity|].
  rewrite app_assoc_s. f_equal. exact IH.
Qed.
Lemma print_outcome cfg : (snd (print_cfg show cfg) = None <-> Forall (fun ke => ~ unprintable (snd ke)) cfg)
  /\ (snd (print_cfg show cfg) = Some TypeError <-> Exists (fun ke => unprintable (snd ke)) cfg)
  /\ (snd (print_cfg show cfg) = None \/ snd (print_cfg show cfg) = Some TypeError).
Proof.
  unfold print_cfg. destruct (print_items show 0 cfg) as [o [x|]] eqn:E; apply items_text in E; cbn [snd].
  - destruct E as (-> & pre & k & t & post & texts & -> & _ & _).
    assert (X : Exists (fun ke => unprintable (snd ke)) (pre ++ (k, Plain (VObj t)) :: post)).
    { apply Exists_app. right. constructor. exists t. reflexivity. }
    split; [split; [discriminate|]|split; [tauto|tauto]].
    intros F. exfalso. apply Exists_exists in X as (ke & I & U). rewrite Forall_forall in F. exact (F ke I U).
  - destruct E as (_ & _ & _ & F). split; [tauto|]. split; [|tauto]. split; [discriminate|].
    intros X. exfalso. apply Exists_exists in X as (ke & I & U). rewrite Forall_forall in F. exact (F ke I U).
Qed.
Lemma print_partial_output cfg out e : print_cfg show cfg = (out, Some e) ->
  exists pre k t post texts, cfg = (pre ++ (k, Plain (VObj t)) :: post)%list
  /\ Forall2 (item_text show) pre texts /\ out = fold_right append "" texts.
Proof.
  unfold print_cfg. destruct (print_items show 0 cfg) as [o [x|]] eqn:E; intros H; inversion H; subst. apply items_text in E.
  destruct E as (_ & E). exact E.
Qed.

(** * Lines *)

Lemma bars_mono m s : forall n n', (n' <= n)%nat -> bars_ok m n s = true -> bars_ok m n' s = true.
Proof.
  induction s as [|c s IH]; intros n n' L H; cbn [bars_ok] in *; [reflexivity|].
  destruct (Ascii.eqb c "010"%char); [exact H|]. destruct (Ascii.eqb c "|"%char); [|eauto].
  apply andb_prop in H as [H1 H2]. apply Nat.leb_le in H1. apply andb_true_intro. split; [apply Nat.leb_le; lia|]. eapply IH; [|exact H2]. lia.
Qed.
Lemma bars_skip m t : forall n r, no_bars t = true -> bars_ok m n r = true -> bars_ok m n (t ++ r) = true.
Proof.
  induction t as [|c t IH]; intros n r N H; cbn [bars_ok append no_bars] in *; [exact H|]. apply andb_prop in N as [N1 N2].
  apply negb_true_iff in N1. destruct (Ascii.eqb c "010"%char).
  - apply IH; [exact N2|]. eapply bars_mono; [|exact H]. lia.
  - rewrite N1. apply IH; assumption.
Qed.
Lemma bars_newline m n r : bars_ok m 0 r = true -> bars_ok m n (newline ++ r) = true.
Proof. intros H. exact H. Qed.
Lemma no_bars_app a b : no_bars (a ++ b) = no_bars a && no_bars b.
Proof. induction a; cbn; [reflexivity|]. rewrite IHa, andb_assoc. reflexivity. Qed.
Lemma no_bars_spaces n : no_bars (spaces n) = true.
Proof. induction n; cbn; auto. Qed.
Lemma no_bars_pad n s : no_bars s = true -> no_bars (pad n s) = true.
Proof. intros H. unfold pad. rewrite no_bars_app, H, no_bars_spaces. reflexivity. Qed.
Lemma bars_bar m n r : (S n <= m)%nat -> bars_ok m (S n) r = true -> bars_ok m n ("|" ++ r) = true.
Proof. intros L H. cbn [append bars_ok]. apply andb_true_intro. split; [apply Nat.leb_le; exact L|exact H]. Qed.

Lemma items_lines cfg : barless show cfg -> forall idx n, (n <= idx mod 3)%nat ->
  bars_ok 3 n (fst (print_items show idx cfg) ++ newline) = true.
Proof.
  induction cfg as [|[key value] r IH]; intros B idx n L; cbn [print_items fst]; [reflexivity|].
  assert (Br : barless show r) by (intros k e I; apply B; right; exact I).
  destruct (B key value (or_introl eq_refl)) as [Bk Bv].
  assert (M : forall idx, (S idx mod 3 = if (idx mod 3 =? 2) then 0 else S (idx mod 3))%nat).
  { intros i. pose proof (Nat.div_mod i 3) as D. pose proof (Nat.mod_upper_bound i 3). destruct (i mod 3 =? 2)%nat eqn:E.
    - apply Nat.eqb_eq in E. symmetry. apply (Nat.mod_unique _ _ (S (i / 3))); lia.
    - apply Nat.eqb_neq in E. symmetry. apply (Nat.mod_unique _ _ (i / 3)); lia. }
  assert (LL : forall text, no_bars text = true ->
    bars_ok 3 n (fst (let (out, e) := print_items show 1 r in (newline ++ key ++ ": " ++ text ++ newline ++ out, e)) ++ newline) = true).
  { intros text N. specialize (IH Br 1%nat 0%nat). destruct (print_items show 1 r) as [o e]. cbn [fst] in *.
    rewrite !app_assoc_s. apply bars_newline. apply bars_skip; [exact Bk|]. apply bars_skip; [reflexivity|]. apply bars_skip; [exact N|].
    apply bars_newline. apply IH. cbn. lia. }
  assert (VV : forall text, no_bars text = true ->
    bars_ok 3 n (fst (let (out, e) := print_items show (S idx) r in
       (pad 23 key ++ ": " ++ text ++ "|" ++ (if (idx mod 3 =? 2)%nat then newline else "") ++ out, e)) ++ newline) = true).
  { intros text N. pose proof (Nat.mod_upper_bound idx 3) as Ub. specialize (M idx).
    destruct (idx mod 3 =? 2)%nat eqn:Q.
    - specialize (IH Br (S idx) 0%nat). destruct (print_items show (S idx) r) as [o e]. cbn [fst] in *. rewrite !app_assoc_s.
      apply bars_skip; [now apply no_bars_pad|]. apply bars_skip; [reflexivity|]. apply bars_skip; [exact N|]. apply bars_bar; [lia|].
      apply bars_newline. apply IH. lia.
    - specialize (IH Br (S idx) (S n)). destruct (print_items show (S idx) r) as [o e]. cbn [fst] in *. rewrite !app_assoc_s.
      apply Nat.eqb_neq in Q.
      apply bars_skip; [now apply no_bars_pad|]. apply bars_skip; [reflexivity|]. apply bars_skip; [exact N|]. apply bars_bar; [lia|].
      cbn [append]. apply IH. lia. }
  destruct value as [v|text|].
  - destruct v as [z|b|f|s|l|t]; cbn [format15]; try (apply VV, no_bars_pad; exact Bv).
    + apply LL. exact Bv.
    + reflexivity.
  - apply LL. exact Bv.
  - specialize (IH Br (S idx) 0%nat). destruct (print_items show (S idx) r) as [o e]. cbn [fst] in *. rewrite app_assoc_s. apply bars_newline. apply IH. lia.
Qed.

Lemma bars_prefix m a : forall n b, bars_ok m n (a ++ b) = true -> bars_ok m n a = true.
Proof.
  induction a as [|c a IH]; intros n b H; cbn [bars_ok append] in *; [reflexivity|]. destruct (Ascii.eqb c "010"%char); [eauto|].
  destruct (Ascii.eqb c "|"%char); [|eauto]. apply andb_prop in H as [H1 H2]. rewrite H1. cbn. eauto.
Qed.
Lemma print_lines cfg : barless show cfg -> at_most_per_line 3 (fst (print_cfg show cfg)).
Proof.
  intros B. pose proof (items_lines cfg B 0%nat 0%nat (Nat.le_0_l _)) as H. unfold at_most_per_line, print_cfg.
  destruct (print_items show 0 cfg) as [o [x|]]; cbn [fst] in *; [|exact H]. eapply bars_prefix. exact H.
Qed.
End P.

From Verif Require Import Spec_Config.
Lemma print_default show : snd (print_cfg show (map (fun kv => (fst kv, Plain (snd kv))) default_config)) = None.
Proof.
  apply print_outcome. apply Forall_forall. intros ke I [t U]. apply in_map_iff in I as ([k v] & <- & I). cbn in U. inversion U; subst. clear U.
  assert (N : forallb (fun kv => match snd kv with VObj _ => false | _ => true end) default_config = true) by reflexivity.
  rewrite forallb_forall in N. specialize (N _ I). discriminate N.
Qed.
Lemma print_results : exists cfg, forall show,
  snd (print_cfg show (map (fun kv => (fst kv, Plain (snd kv))) cfg)) = None
  /\ snd (print_cfg show (map (fun kv => (fst kv, Plain (snd kv))) (cfg ++ [("results", VObj true)])%list)) = Some TypeError.
Proof.
  exists default_config. intros show. split; [apply print_default|]. apply print_outcome. rewrite map_app. apply Exists_app. right. constructor.
  exists true. reflexivity.
Qed.
