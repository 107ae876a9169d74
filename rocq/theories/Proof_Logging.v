From Coq Require Import String Ascii List Bool Arith Lia.
From Verif Require Import Base Model_Logging Spec_Logging.
Import ListNotations.
Open Scope string_scope.

Lemma level_no_spec s n : level_no (upper s) = Some n <-> level_named s n.
Proof.
  unfold level_no, level_named. generalize (upper s). intros u. unfold levels.
  cbn [find fst snd]. split.
  - repeat (match goal with |- context [String.eqb ?a u] => destruct (String.eqb_spec a u) as [<-|?] end; [intros [= <-]; cbn; tauto|]). discriminate.
  - cbn [In]. intros H. repeat (destruct H as [H|H]; [injection H as <- <-; reflexivity|]). destruct H.
Qed.

Lemma prefix_eq p s : substring 0 (String.length p) s = p <-> exists r, s = p ++ r.
Proof.
  revert s. induction p as [|c p IH]; intros s; cbn [String.length].
  - split; [intros _; exists s; reflexivity|]. destruct s; reflexivity.
  - destruct s as [|d s]; cbn [substring append].
    + split; [discriminate|intros [r H]; discriminate].
    + split.
      * intros H. injection H as -> H. apply IH in H as [r ->]. exists r. reflexivity.
      * intros [r H]. injection H as -> ->. f_equal. apply IH. exists r. reflexivity.
Qed.

Lemma app_dot a r : a ++ "." = "nidn." ++ r -> of_nidn a.
Proof.
  intros H. unfold of_nidn.
  destruct a as [|c1 [|c2 [|c3 [|c4 a]]]]; cbn in H; try (injection H; intros; discriminate).
  injection H as -> -> -> -> H. destruct a as [|c5 a]; [left; reflexivity|]. injection H as -> H. right. exists a. reflexivity.
Qed.

Lemma accepted h n m : h = mkHandler n (Some "nidn") -> (accepts h m = true <-> n <= m_level m /\ of_nidn (m_module m)).
Proof.
  intros ->. unfold accepts. cbn [h_level h_filter]. rewrite andb_true_iff, Nat.leb_le, String.eqb_eq, (prefix_eq ("nidn" ++ ".")). split.
  - intros [H1 [r H2]]. split; [exact H1|]. exact (app_dot _ _ H2).
  - intros [H1 [->|[r ->]]]; (split; [exact H1|]); [exists ""; reflexivity|]. exists (r ++ "."). reflexivity.
Qed.

Lemma fold_sends ms : forall hs out, fold_left event_step (map Send ms) (hs, out) = (hs, (out ++ flat_map (send hs) ms)%list).
Proof.
  induction ms as [|m ms IH]; intros hs out; cbn; [rewrite app_nil_r; reflexivity|]. rewrite IH, app_assoc. reflexivity.
Qed.

Lemma session_app hs es es' : session hs (es ++ es') = fold_left event_step es' (session hs es).
Proof. apply fold_left_app. Qed.

Lemma send_one n m : (n <= m_level m /\ of_nidn (m_module m) -> send [mkHandler n (Some "nidn")] m = [m_text m])
  /\ (~ (n <= m_level m /\ of_nidn (m_module m)) -> send [mkHandler n (Some "nidn")] m = []).
Proof.
  unfold send. cbn [filter]. split; intros H.
  - rewrite (proj2 (accepted _ n m eq_refl) H). reflexivity.
  - destruct (accepts _ m) eqn:E; [|reflexivity]. apply (accepted _ n m eq_refl) in E. contradiction.
Qed.

Lemma shown hs es s n ms : level_named s n -> exists before,
  snd (session hs es) = before
  /\ exists during, (n <= 10 -> during = ["Setting LogLevel to " ++ upper s]) /\ (10 < n -> during = [])
  /\ exists after, snd (session hs (es ++ SetLevel (LStr s) :: map Send ms)) = (before ++ during ++ concat after)%list
    /\ Forall2 (fun m o => (n <= m_level m /\ of_nidn (m_module m) -> o = [m_text m]) /\ (~ (n <= m_level m /\ of_nidn (m_module m)) -> o = [])) ms after.
Proof.
  intros L. apply level_no_spec in L. eexists. split; [reflexivity|].
  exists (send [mkHandler n (Some "nidn")] (mkMessage "nidn.utils.set_log_level" 10 ("Setting LogLevel to " ++ upper s))).
  assert (N : of_nidn "nidn.utils.set_log_level") by (right; eexists; reflexivity).
  pose proof (send_one n (mkMessage "nidn.utils.set_log_level" 10 ("Setting LogLevel to " ++ upper s))) as [S1 S2].
  cbn [m_level m_module m_text] in S1, S2.
  split; [intros H; apply S1; auto|]. split; [intros H; apply S2; intros [H1 _]; lia|].
  exists (map (send [mkHandler n (Some "nidn")]) ms). split.
  - rewrite session_app. cbn [fold_left]. destruct (session hs es) as [h0 o0]. cbn [event_step]. unfold set_log_level. rewrite L.
    rewrite fold_sends. cbn [snd]. rewrite <- app_assoc, flat_map_concat_map. reflexivity.
  - induction ms as [|m ms IH]; [constructor|]. cbn [map]. constructor; [apply send_one|exact IH].
Qed.

Lemma refused hs es a ms : (forall s n, a = LStr s -> ~ level_named s n) ->
  snd (set_log_level (fst (session hs es)) a) = Some (match a with LStr _ => ValueError | LOther => AttributeError end)
  /\ snd (session hs (es ++ SetLevel a :: map Send ms)) = snd (session hs es).
Proof.
  intros H. assert (E : set_log_level (fst (session hs es)) a = ([], [], Some (match a with LStr _ => ValueError | LOther => AttributeError end))).
  { unfold set_log_level. destruct a as [s|]; [|reflexivity]. destruct (level_no (upper s)) as [n|] eqn:L; [|reflexivity].
    apply level_no_spec in L. destruct (H s n eq_refl L). }
  split; [rewrite E; reflexivity|]. rewrite session_app. cbn [fold_left]. destruct (session hs es) as [h0 o0]. cbn [event_step fst] in *. rewrite E.
  rewrite fold_sends. cbn [snd]. rewrite app_nil_r. replace (flat_map (send []) ms) with (@nil string); [apply app_nil_r|].
  induction ms as [|m ms IH]; [reflexivity|]. exact IH.
Qed.

Lemma imported hs d : session hs (import_events d)
  = ([mkHandler 30 (Some "nidn")],
     ["Initialized NIDN for " ++ match d with Some x => x | None => "cpu" end; "Using double precision"; "Switching log level to warning."]).
Proof. destruct d; reflexivity. Qed.

Lemma only_last hs es a es' : exists o, session hs (es ++ SetLevel a :: es') = (fst (session [] (SetLevel a :: es')), (snd (session hs es) ++ o)%list)
  /\ o = snd (session [] (SetLevel a :: es')).
Proof.
  assert (G : forall es h o, fold_left event_step es (h, o) = (fst (fold_left event_step es (h, [])), (o ++ snd (fold_left event_step es (h, [])))%list)).
  { induction es0 as [|e r IH]; intros h o; cbn [fold_left fst snd]; [rewrite app_nil_r; reflexivity|].
    assert (X : exists h' p, forall o, event_step (h, o) e = (h', (o ++ p)%list)).
    { destruct e as [b|g| |m]; cbn [event_step].
      - destruct (set_log_level h b) as [[h' p] x]. exists h', p. reflexivity.
      - exists (h ++ [g])%list, []. intros o'. rewrite app_nil_r. reflexivity.
      - exists [], []. intros o'. rewrite app_nil_r. reflexivity.
      - exists h, (send h m). reflexivity. }
    destruct X as (h' & p & X). rewrite !X, (IH h' (o ++ p)%list), (IH h' ([] ++ p)%list). cbn [app fst snd]. rewrite app_assoc. reflexivity. }
  eexists. split; [|reflexivity]. rewrite session_app. destruct (session hs es) as [h0 o0]. unfold session. cbn [fold_left event_step snd].
  assert (Q : set_log_level h0 a = set_log_level [] a) by (unfold set_log_level; destruct a; reflexivity). rewrite Q.
  destruct (set_log_level [] a) as [[h1 p1] x1]. rewrite (G es' h1 (o0 ++ p1)%list), (G es' h1 ([] ++ p1)%list). cbn [fst snd app]. rewrite app_assoc. reflexivity.
Qed.
