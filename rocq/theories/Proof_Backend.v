(** Proofs about set_backend (C58). *)
From Coq Require Import String Ascii List Bool Arith Lia.
From Verif Require Import Base Model_Backend Spec_Backend.
Import ListNotations.
Open Scope string_scope.

Lemma prefix_spec p s : prefix p s = true <-> begins_with p s.
Proof.
  unfold begins_with. revert s. induction p as [|c p IH]; intros s.
  - split; intros; [exists s; reflexivity|destruct s; reflexivity].
  - destruct s as [|c' s]; [split; [discriminate|intros [r H]; discriminate]|].
    cbn. destruct (ascii_dec c c') as [->|N].
    + rewrite IH. split; intros [r H]; exists r; [rewrite H; reflexivity|injection H as ->; reflexivity].
    + split; [discriminate|]. intros [r H]. injection H as H _. congruence.
Qed.

Lemma sapp_assoc a b c : (a ++ b) ++ c = a ++ (b ++ c).
Proof. induction a as [|x a IH]; cbn; [reflexivity|]. rewrite IH. reflexivity. Qed.

Lemma dotless_cons c s : dotless (String c s) -> c <> "."%char /\ dotless s.
Proof.
  intros H. split.
  - intros ->. apply H. exists "", s. reflexivity.
  - intros [a [b ->]]. apply H. exists (String c a), b. reflexivity.
Qed.
Lemma cons_dotless c s : c <> "."%char -> dotless s -> dotless (String c s).
Proof.
  intros N H [a [b E]]. destruct a as [|x a]; cbn in E; [injection E as E _; congruence|].
  injection E as -> E. apply H. exists a, b. exact E.
Qed.
Lemma dotless_empty : dotless "".
Proof. intros [a [b E]]. destruct a; discriminate. Qed.

Lemma split_dotless s : dotless s -> count_dots s = 0 /\ split_dots s = [s].
Proof.
  induction s as [|c s IH]; intros H; [auto|]. apply dotless_cons in H. destruct H as [N H].
  cbn [count_dots split_dots]. destruct (Ascii.eqb_spec c "."); [contradiction|]. destruct (IH H) as [-> ->]. auto.
Qed.
Lemma split_app a s : dotless a -> count_dots (a ++ "." ++ s) = S (count_dots s) /\ split_dots (a ++ "." ++ s) = a :: split_dots s.
Proof.
  induction a as [|c a IH]; intros H; [cbn; auto|]. apply dotless_cons in H. destruct H as [N H].
  cbn [append count_dots split_dots]. destruct (Ascii.eqb_spec c "."); [contradiction|].
  destruct (IH H) as [E1 E2]. cbn [append] in E1, E2. rewrite E1, E2. auto.
Qed.

Lemma no_dots s : count_dots s = 0 -> dotless s.
Proof.
  induction s as [|c s IH]; intros H; [apply dotless_empty|]. cbn [count_dots] in H.
  destruct (Ascii.eqb_spec c "."); [discriminate|]. apply cons_dotless; auto.
Qed.
Lemma some_dots s n : count_dots s = S n -> exists a r, s = a ++ "." ++ r /\ dotless a /\ count_dots r = n.
Proof.
  induction s as [|c s IH]; cbn [count_dots]; intros H; [discriminate|].
  destruct (Ascii.eqb_spec c ".") as [->|N].
  - exists "", s. split; [reflexivity|]. split; [apply dotless_empty|]. lia.
  - destruct (IH H) as [a [r [-> [Ha Hr]]]]. exists (String c a), r. split; [reflexivity|]. split; [apply cons_dotless; auto|exact Hr].
Qed.

Ltac dl := repeat (apply cons_dotless; [discriminate|]); apply dotless_empty.
Lemma dl_torch : dotless "torch". Proof. dl. Qed.
Lemma dl_cpu : dotless "cpu". Proof. dl. Qed.
Lemma dl_cuda : dotless "cuda". Proof. dl. Qed.

Lemma named name c dtype : names_backend name c dtype ->
  parse_backend name = Some ("torch", dtype, match c with TorchBackend => "cpu" | TorchCudaBackend => "cuda" end).
Proof.
  intros H. unfold parse_backend. destruct H as [| |d H N|d H|d H].
  - reflexivity.
  - reflexivity.
  - change ("torch." ++ d) with ("torch" ++ "." ++ d). destruct (split_app "torch" d dl_torch) as [-> ->].
    destruct (split_dotless d H) as [-> ->]. destruct (String.eqb_spec d "cuda"); [contradiction|reflexivity].
  - change ("torch.cpu." ++ d) with ("torch" ++ "." ++ ("cpu" ++ "." ++ d)). destruct (split_app "torch" ("cpu" ++ "." ++ d) dl_torch) as [-> ->].
    destruct (split_app "cpu" d dl_cpu) as [-> ->]. destruct (split_dotless d H) as [-> ->]. reflexivity.
  - change ("torch.cuda." ++ d) with ("torch" ++ "." ++ ("cuda" ++ "." ++ d)). destruct (split_app "torch" ("cuda" ++ "." ++ d) dl_torch) as [-> ->].
    destruct (split_app "cuda" d dl_cuda) as [-> ->]. destruct (split_dotless d H) as [-> ->]. reflexivity.
Qed.

Lemma parsed name dtype device : parse_backend name = Some ("torch", dtype, device) ->
  (device = "cpu" -> names_backend name TorchBackend dtype) /\ (device = "cuda" -> names_backend name TorchCudaBackend dtype).
Proof.
  unfold parse_backend. destruct (count_dots name) as [|[|[|n]]] eqn:E; [| | |discriminate].
  - intros [= -> <- <-]. split; [constructor|discriminate].
  - destruct (some_dots _ _ E) as [a [r [-> [Ha Hr]]]]. destruct (split_app a r Ha) as [_ ->].
    apply no_dots in Hr. destruct (split_dotless r Hr) as [_ ->].
    destruct (String.eqb_spec r "cuda") as [->|N]; intros [= -> <- <-]; (split; [|discriminate || idtac]); try discriminate; intros _.
    + exact nb_cuda.
    + exact (nb_torch_type r Hr N).
  - destruct (some_dots _ _ E) as [a [r [-> [Ha Hr]]]]. destruct (split_app a r Ha) as [_ ->].
    destruct (some_dots _ _ Hr) as [b [d [-> [Hb Hd]]]]. destruct (split_app b d Hb) as [_ ->].
    apply no_dots in Hd. destruct (split_dotless d Hd) as [_ ->]. intros [= -> <- <-].
    split; intros ->; [exact (nb_cpu_type d Hd)|exact (nb_cuda_type d Hd)].
Qed.

Lemma cuda_prefix name dtype : names_backend name TorchCudaBackend dtype -> begins_with "torch.cuda" name.
Proof.
  intros H. inversion H; subst; [exists ""; reflexivity|]. eexists (String "." _). reflexivity.
Qed.

(** Success: exactly the names above with a known type, cuda names with a GPU; and
    then the class and the type are those named. *)
Lemma backend_accepts cuda has name b b' :
  set_backend cuda has name b = (b', None) <->
  exists c d, names_backend name c d /\ has d = true /\ (begins_with "torch.cuda" name -> cuda = true)
    /\ b' = mkBackend c (Some d).
Proof.
  unfold set_backend. split.
  - destruct (prefix "torch.cuda" name) eqn:P, cuda eqn:Ec; cbn [andb negb]; try discriminate;
    (destruct (parse_backend name) as [[[n d] dev]|] eqn:E; [|discriminate]);
    (destruct (String.eqb_spec n "torch") as [->|]; [|discriminate]);
    destruct (parsed _ _ _ E) as [H1 H2];
    (destruct (String.eqb_spec dev "cpu") as [Hd|]; [|destruct (String.eqb_spec dev "cuda") as [Hd|]; [|discriminate]]);
    try discriminate; unfold set_float; destruct (has d) eqn:Hh; try discriminate; intros [= <-];
    try (exists TorchBackend, d; repeat split; auto; intros Q; apply prefix_spec in Q; congruence);
    exists TorchCudaBackend, d; repeat split; auto; intros Q; apply prefix_spec in Q; congruence.
  - intros [c [d [H [Hh [Hc ->]]]]]. rewrite (named _ _ _ H).
    assert (P : prefix "torch.cuda" name && negb cuda = false).
    { destruct (prefix "torch.cuda" name) eqn:P; [|reflexivity]. apply prefix_spec in P. rewrite (Hc P). reflexivity. }
    rewrite P. change (String.eqb "torch" "torch") with true. cbn iota. unfold set_float.
    destruct c; cbn.
    + rewrite Hh. reflexivity.
    + rewrite (Hc (cuda_prefix _ _ H)), Hh. reflexivity.
Qed.

(** Which exception. *)
Lemma backend_no_gpu cuda has name b : 
  snd (set_backend cuda has name b) = Some BRuntimeError <-> begins_with "torch.cuda" name /\ cuda = false.
Proof.
  unfold set_backend. rewrite <- prefix_spec. destruct (prefix "torch.cuda" name), cuda; cbn [andb negb];
  try (split; [intros; split; reflexivity|reflexivity]);
  (split; [|intros [? ?]; discriminate]);
  destruct (parse_backend name) as [[[n d] dev]|]; try discriminate;
  destruct (String.eqb n "torch"); try discriminate; destruct (String.eqb dev "cpu"), (String.eqb dev "cuda"); try discriminate;
  unfold set_float; destruct (has d); discriminate.
Qed.

Lemma backend_unknown_type cuda has name b :
  snd (set_backend cuda has name b) = Some BAttributeError <->
  exists c d, names_backend name c d /\ has d = false /\ (begins_with "torch.cuda" name -> cuda = true).
Proof.
  unfold set_backend. split.
  - destruct (prefix "torch.cuda" name) eqn:P, cuda eqn:Ec; cbn [andb negb]; try discriminate;
    (destruct (parse_backend name) as [[[n d] dev]|] eqn:E; [|discriminate]);
    (destruct (String.eqb_spec n "torch") as [->|]; [|discriminate]);
    destruct (parsed _ _ _ E) as [H1 H2];
    (destruct (String.eqb_spec dev "cpu") as [Hd|]; [|destruct (String.eqb_spec dev "cuda") as [Hd|]; [|discriminate]]);
    try discriminate; unfold set_float; destruct (has d) eqn:Hh; try discriminate; intros _;
    try (exists TorchBackend, d; repeat split; auto; intros Q; apply prefix_spec in Q; congruence);
    exists TorchCudaBackend, d; repeat split; auto; intros Q; apply prefix_spec in Q; congruence.
  - intros [c [d [H [Hh Hc]]]]. rewrite (named _ _ _ H).
    assert (P : prefix "torch.cuda" name && negb cuda = false).
    { destruct (prefix "torch.cuda" name) eqn:P; [|reflexivity]. apply prefix_spec in P. rewrite (Hc P). reflexivity. }
    rewrite P. change (String.eqb "torch" "torch") with true. cbn iota. unfold set_float.
    destruct c; cbn.
    + rewrite Hh. reflexivity.
    + rewrite (Hc (cuda_prefix _ _ H)), Hh. reflexivity.
Qed.

Lemma backend_no_nameerror cuda has name b : snd (set_backend cuda has name b) <> Some BNameError.
Proof.
  unfold set_backend. destruct (prefix "torch.cuda" name) eqn:P, cuda eqn:Ec; cbn [andb negb]; try discriminate;
  (destruct (parse_backend name) as [[[n d] dev]|] eqn:E; [|discriminate]);
  (destruct (String.eqb_spec n "torch") as [->|]; [|discriminate]);
  destruct (parsed _ _ _ E) as [H1 H2];
  (destruct (String.eqb_spec dev "cpu") as [Hd|]; [unfold set_float; destruct (has d); discriminate|destruct (String.eqb_spec dev "cuda") as [Hd|]; [|discriminate]]);
  try (unfold set_float; destruct (has d); discriminate).
  exfalso. pose proof (proj2 (prefix_spec _ _) (cuda_prefix _ _ (H2 Hd))). congruence.
Qed.

(** A failed call changes nothing, except that an unknown type is noticed after
    the class has been replaced. *)
Lemma backend_unchanged cuda has name b b' e :
  set_backend cuda has name b = (b', Some e) -> e <> BAttributeError -> b' = b.
Proof.
  unfold set_backend. destruct (prefix "torch.cuda" name && negb cuda); [intros [= <- <-]; reflexivity|].
  destruct (parse_backend name) as [[[n d] dev]|]; [|intros [= <- <-]; reflexivity].
  destruct (String.eqb n "torch"); [|intros [= <- <-]; reflexivity].
  unfold set_float. destruct (String.eqb dev "cpu"); [destruct (has d); intros [= <- <-]; congruence|].
  destruct (String.eqb dev "cuda"); [|intros [= <- <-]; reflexivity].
  destruct cuda; [destruct (has d); intros [= <- <-]; congruence|intros [= <- <-]; reflexivity].
Qed.
Lemma backend_half_changed cuda has name b b' c d :
  set_backend cuda has name b = (b', Some BAttributeError) -> names_backend name c d -> b' = mkBackend c (b_float b).
Proof.
  unfold set_backend. intros E H. rewrite (named _ _ _ H) in E. destruct (prefix "torch.cuda" name && negb cuda); [discriminate|].
  change (String.eqb "torch" "torch") with true in E. cbn iota in E. unfold set_float in E.
  destruct c; cbn in E; [|destruct cuda]; try discriminate; destruct (has d); try discriminate; injection E as <-; reflexivity.
Qed.
Lemma backend_unchanged_refuted : exists has name b b' e,
  set_backend true has name b = (b', Some e) /\ b' <> b.
Proof.
  exists (fun _ => false), "torch.cuda.floot32", (mkBackend TorchBackend (Some "float32")). eexists. eexists.
  split; [reflexivity|discriminate].
Qed.

(** Sessions: a successful call makes the past irrelevant. *)
Lemma backend_last cuda has names name c d b :
  names_backend name c d -> has d = true -> (begins_with "torch.cuda" name -> cuda = true) ->
  set_backends cuda has (names ++ [name]) b = mkBackend c (Some d).
Proof.
  intros H Hh Hc. unfold set_backends. rewrite fold_left_app. cbn [fold_left].
  assert (E : forall b0, set_backend cuda has name b0 = (mkBackend c (Some d), None)).
  { intros b0. apply backend_accepts. eauto 10. }
  rewrite E. reflexivity.
Qed.

(** Without a GPU the class never changes. *)
Lemma backend_cpu has names b : b_class b = TorchBackend -> b_class (set_backends false has names b) = TorchBackend.
Proof.
  unfold set_backends. revert b. induction names as [|name names IH]; intros b H; [exact H|]. cbn [fold_left]. apply IH.
  destruct (set_backend false has name b) as [b' [e|]] eqn:E; cbn [fst].
  - destruct (match e with BAttributeError => true | _ => false end) eqn:Ee.
    + destruct e; try discriminate.
      assert (E' : snd (set_backend false has name b) = Some BAttributeError) by (rewrite E; reflexivity).
      apply backend_unknown_type in E'. destruct E' as [c [d [Hn [_ Hc]]]].
      rewrite (backend_half_changed _ _ _ _ _ _ _ E Hn). cbn. destruct c; [reflexivity|].
      discriminate (Hc (cuda_prefix _ _ Hn)).
    + rewrite (backend_unchanged _ _ _ _ _ _ E); [exact H|]. intros ->. discriminate.
  - apply backend_accepts in E. destruct E as [c [d [Hn [_ [Hc ->]]]]]. cbn. destruct c; [reflexivity|].
    discriminate (Hc (cuda_prefix _ _ Hn)).
Qed.

(** The documented names; and the names of other things in torch are taken too. *)
Lemma backend_documented cuda has d b : has "float16" = true -> has "float32" = true -> has "float64" = true ->
  In d ["float16"; "float32"; "float64"] ->
  set_backend cuda has "torch" b = (mkBackend TorchBackend (Some "float64"), None)
  /\ set_backend cuda has ("torch." ++ d) b = (mkBackend TorchBackend (Some d), None)
  /\ (cuda = true -> set_backend cuda has "torch.cuda" b = (mkBackend TorchCudaBackend (Some "float64"), None)
        /\ set_backend cuda has ("torch.cuda." ++ d) b = (mkBackend TorchCudaBackend (Some d), None)).
Proof.
  intros H1 H2 H3 H. destruct H as [<-|[<-|[<-|[]]]]; cbn; unfold set_float; rewrite ?H1, ?H2, ?H3;
  (split; [reflexivity|split; [reflexivity|]]); intros ->; cbn; unfold set_float; rewrite ?H1, ?H2, ?H3; auto.
Qed.
Lemma backend_any_attribute cuda has d b : has d = true -> dotless d -> ~ begins_with "cuda" d ->
  set_backend cuda has ("torch." ++ d) b = (mkBackend TorchBackend (Some d), None).
Proof.
  intros H1 H2 H3. apply backend_accepts. exists TorchBackend, d. split; [constructor; [exact H2|intros ->; apply H3; exists ""; reflexivity]|].
  split; [exact H1|]. split; [|reflexivity]. intros [r E]. exfalso. apply H3. exists r. cbn in E. repeat (injection E as E). exact E.
Qed.
