(** Proofs about saved detector readings. *)
From Coq Require Import DecimalString DecimalNat DecimalFacts Decimal.
From Coq Require Import Reals String Ascii List Bool Arith Lia ZArith.
From Verif Require Import Base BaseLemmas Model_Units Model_FDTD Model_Register Model_Runs Model_Output Spec_FDTD Spec_Register Spec_Runs Spec_Output
  Proof_Reset Proof_Runs Proof_Register Proof_Register2 Proof_PML.
Import ListNotations.
Open Scope nat_scope.
Open Scope string_scope.

(** * Strings *)
Lemma suffix_E a b : a ++ " (E)" = b ++ " (E)" -> a = b.
Proof. intros H. apply string_app_inj in H as [H _]; auto. Qed.
Lemma suffix_H a b : a ++ " (H)" = b ++ " (H)" -> a = b.
Proof. intros H. apply string_app_inj in H as [H _]; auto. Qed.
Lemma suffix_EH a b : a ++ " (E)" <> b ++ " (H)".
Proof. intros H. apply string_app_inj in H as [_ H]; [discriminate|reflexivity]. Qed.

(** * Arrays *)
Lemma dict_set_same k v d : array (dict_set k v d) k = Some v.
Proof. induction d as [|[k' v'] d IH]; cbn; [rewrite String.eqb_refl; reflexivity|]. destruct (String.eqb k k') eqn:E; cbn; rewrite E; auto. Qed.
Lemma dict_set_other k v d k' : k' <> k -> array (dict_set k v d) k' = array d k'.
Proof.
  intros N. induction d as [|[a b] d IH]; cbn; [destruct (String.eqb_spec k' k); [contradiction|reflexivity]|].
  destruct (String.eqb_spec k a) as [->|]; cbn; [destruct (String.eqb_spec k' a); [contradiction|reflexivity]|].
  destruct (String.eqb k' a); auto.
Qed.
Lemma dict_set_new k v d : ~ In k (map fst d) -> dict_set k v d = (d ++ [(k, v)])%list.
Proof.
  induction d as [|[a b] d IH]; cbn; intros N; [reflexivity|].
  destruct (String.eqb_spec k a) as [->|]; [exfalso; apply N; auto|]. rewrite IH by tauto. reflexivity.
Qed.

Definition detnames (l : list ((option string * det_kind) * detector)) : list string := map (fun x => name_of_det (fst x)) l.
Definition arrays_of (l : list ((option string * det_kind) * detector)) : readings :=
  flat_map (fun x => [(name_of_det (fst x) ++ " (E)", records_E (snd x)); (name_of_det (fst x) ++ " (H)", records_H (snd x))]) l.

Lemma arrays_keys l k : In k (map fst (arrays_of l)) <-> exists n, In n (detnames l) /\ (k = n ++ " (E)" \/ k = n ++ " (H)").
Proof.
  induction l as [|x l IH]; cbn; [split; [contradiction|intros (n & [] & _)]|].
  unfold arrays_of in IH. rewrite IH. split.
  - intros [<-|[<-|(n & A & B)]]; [eexists; split; [left; reflexivity|auto]|eexists; split; [left; reflexivity|auto]|exists n; auto].
  - intros (n & [<-|A] & [-> | ->]); auto; right; right; exists n; auto.
Qed.

Lemma collect_storable l : forall dic, Forall (fun x => storable (fst x)) l -> NoDup (detnames l) ->
  (forall n, In n (detnames l) -> ~ In (n ++ " (E)") (map fst dic) /\ ~ In (n ++ " (H)") (map fst dic)) ->
  collect l dic = Ok (dic ++ arrays_of l)%list.
Proof.
  induction l as [|[[nm k] d] l IH]; intros dic F ND FR; cbn [collect arrays_of flat_map]; [rewrite app_nil_r; reflexivity|].
  inversion F as [|? ? [F1 F2] F3]; subst. cbn [fst snd] in F1, F2. destruct nm as [n|]; [|contradiction]. clear F2.
  inversion ND as [|? ? N1 N2]; subst. cbn [detnames map fst name_of_det] in *.
  destruct (FR n (or_introl eq_refl)) as [A B].
  rewrite (dict_set_new (n ++ " (E)")) by exact A.
  rewrite dict_set_new.
  2:{ rewrite map_app, in_app_iff. cbn. intros [Q|[Q|[]]]; [exact (B Q)|exact (suffix_EH _ _ Q)]. }
  destruct k; try contradiction; rewrite IH; auto; try (rewrite <- !app_assoc; reflexivity).
  all: intros m Hm; destruct (FR m (or_intror Hm)) as [C D]; rewrite !map_app, !in_app_iff; cbn; split.
  all: intros [[Q|[Q|[]]]|[Q|[]]]; auto;
    first [apply suffix_E in Q; subst; contradiction | apply suffix_H in Q; subst; contradiction | exact (suffix_EH _ _ Q) | exact (suffix_EH _ _ (eq_sym Q))].
Qed.
Lemma arrays_lookup l n k d : NoDup (detnames l) -> In ((Some n, k), d) l ->
  array (arrays_of l) (n ++ " (E)") = Some (records_E d) /\ array (arrays_of l) (n ++ " (H)") = Some (records_H d).
Proof.
  induction l as [|[[nm k'] d'] l IH]; intros ND HI; [destruct HI|].
  cbn [detnames map fst name_of_det] in ND. inversion ND as [|? ? N1 N2]; subst. cbn [arrays_of flat_map fst snd app array].
  destruct HI as [E|HI].
  - inversion E; subst. cbn [name_of_det fst]. rewrite String.eqb_refl. split; [reflexivity|].
    destruct (String.eqb_spec (n ++ " (H)") (n ++ " (E)")) as [Q|_]; [exfalso; exact (suffix_EH _ _ (eq_sym Q))|].
    rewrite String.eqb_refl. reflexivity.
  - assert (NE : n <> name_of_det (nm, k')).
    { intros Q. apply N1. rewrite <- Q. change n with ((fun x => name_of_det (fst x)) (Some n, k, d)). apply in_map. exact HI. }
    destruct (IH N2 HI) as [A B]. fold (arrays_of l).
    destruct (String.eqb_spec (n ++ " (E)") (name_of_det (nm, k') ++ " (E)")) as [Q|_]; [apply suffix_E in Q; contradiction|].
    destruct (String.eqb_spec (n ++ " (E)") (name_of_det (nm, k') ++ " (H)")) as [Q|_]; [exfalso; exact (suffix_EH _ _ Q)|].
    destruct (String.eqb_spec (n ++ " (H)") (name_of_det (nm, k') ++ " (E)")) as [Q|_]; [exfalso; exact (suffix_EH _ _ (eq_sym Q))|].
    destruct (String.eqb_spec (n ++ " (H)") (name_of_det (nm, k') ++ " (H)")) as [Q|_]; [apply suffix_H in Q; contradiction|].
    auto.
Qed.
Lemma collect_fails l : forall dic e, collect l dic = Err e <->
  exists a x b, l = (a ++ x :: b)%list /\ Forall (fun y => storable (fst y)) a /\ stumbles (fst x) e.
Proof.
  induction l as [|[[nm k] d] l IH]; intros dic e; cbn [collect].
  - split; [discriminate|]. intros (a & x & b & E & _). destruct a; discriminate.
  - split.
    + intros H. destruct k; [destruct nm as [n|]|destruct nm as [n|]|].
      * apply IH in H as (a & x & b & -> & F & S). exists ((Some n, DLine, d) :: a), x, b. split; [reflexivity|]. split; [|exact S]. constructor; [split; discriminate|exact F].
      * inversion H; subst. exists [], (None, DLine, d), l. split; [reflexivity|]. split; [constructor|right; cbn; repeat split; discriminate].
      * apply IH in H as (a & x & b & -> & F & S). exists ((Some n, DBlock, d) :: a), x, b. split; [reflexivity|]. split; [|exact S]. constructor; [split; discriminate|exact F].
      * inversion H; subst. exists [], (None, DBlock, d), l. split; [reflexivity|]. split; [constructor|right; cbn; repeat split; discriminate].
      * assert (e = KeyError) by (destruct nm; congruence). subst. exists [], (nm, DCurrent, d), l. split; [reflexivity|]. split; [constructor|left; auto].
    + intros (a & x & b & E & F & S). destruct a as [|y a]; cbn in E; inversion E; subst.
      * destruct S as [[S1 S2]|(S1 & S2 & S3)]; cbn [fst snd] in *; subst; [destruct nm; reflexivity|]. destruct k; try contradiction; reflexivity.
      * inversion F as [|? ? [F1 F2] F3]; subst. cbn [fst snd] in F1, F2. destruct nm as [n|]; [|contradiction].
        destruct k; try contradiction; apply IH; eauto 10.
Qed.

(** * Registration *)
Lemma claim_detectors nm g g1 : claim_name nm g = Ok g1 -> g_detectors g1 = g_detectors g.
Proof. intros H. apply claim_name_inv in H as [E _]. symmetry. apply E. Qed.
Lemma periodic_detectors ax g : g_detectors (fst (place_periodic ax g)) = g_detectors g.
Proof. unfold place_periodic. destruct (_ || _); reflexivity. Qed.
Lemma pml_detectors ax hi t a g : g_detectors (fst (place_pml ax hi t a g)) = g_detectors g.
Proof. unfold place_pml. destruct (has_attr _ _); reflexivity. Qed.
Lemma assign_detectors key c g : exists ds, g_detectors (fst (setitem key c g)) = (g_detectors g ++ ds)%list /\ length ds = length (appended key c).
Proof.
  unfold setitem, appended. destruct (pad_key key) as [[[x y] z]|]; [|exists []; rewrite app_nil_r; auto].
  destruct c; cbn [register].
  all: try (exists []; rewrite app_nil_r; split; [|reflexivity]).
  - unfold register_periodic.
    destruct (boundary_slice _); cbn [bind fst]; [|reflexivity]. destruct (boundary_slice _); cbn [bind fst]; [|reflexivity].
    destruct (boundary_slice _); cbn [bind fst]; [|reflexivity]. destruct (claim_name name g) as [g1|] eqn:E; cbn [bind fst]; [|reflexivity].
    apply claim_detectors in E. rewrite <- E. destruct (at_border _); [apply periodic_detectors|]. destruct (at_border _); [apply periodic_detectors|].
    destruct (at_border _); [apply periodic_detectors|]. reflexivity.
  - unfold register_pml.
    destruct (pml_slice _); cbn [bind fst]; [|reflexivity]. destruct (pml_slice _); cbn [bind fst]; [|reflexivity].
    destruct (pml_slice _); cbn [bind fst]; [|reflexivity]. destruct (claim_name name g) as [g1|] eqn:E; cbn [bind fst]; [|reflexivity].
    apply claim_detectors in E. rewrite <- E.
    destruct (low_slice _); [apply pml_detectors|]. destruct (high_slice _); [apply pml_detectors|].
    destruct (low_slice _); [apply pml_detectors|]. destruct (high_slice _); [apply pml_detectors|].
    destruct (low_slice _); [apply pml_detectors|]. destruct (high_slice _); [apply pml_detectors|]. reflexivity.
  - unfold register_object. destruct (claim_name name (add_object_ g)) as [g1|] eqn:E; [|reflexivity]. apply claim_detectors in E. cbn in E.
    repeat match goal with |- context [match ?t with _ => _ end] => destruct t eqn:?; cbn [fst] end; cbn; exact E.
  - reflexivity.
  - unfold register_detector. destruct (claim_name name g) as [g1|] eqn:E; cbn [fst].
    + apply claim_detectors in E. destruct (match k with DLine => _ | _ => _ end); cbn; rewrite E; eexists; split; reflexivity.
    + eexists. split; reflexivity.
  - unfold register_point. destruct (claim_name name g) as [g1|] eqn:E; [|reflexivity]. apply claim_detectors in E.
    repeat match goal with |- context [match ?t with _ => _ end] => destruct t eqn:?; cbn [fst] end; cbn; exact E.
  - unfold register_line. destruct (claim_name name g) as [g1|] eqn:E; [|reflexivity]. apply claim_detectors in E.
    repeat match goal with |- context [match ?t with _ => _ end] => destruct t eqn:?; cbn [fst] end; cbn; exact E.
  - unfold register_plane. destruct (claim_name name g) as [g1|] eqn:E; [|reflexivity]. apply claim_detectors in E.
    repeat match goal with |- context [match ?t with _ => _ end] => destruct t eqn:?; cbn [fst] end; cbn; exact E.
Qed.

(** * Histories *)
Lemma set_attr_grid n g : g_N (set_attr n g) = g_N g /\ g_detectors (set_attr n g) = g_detectors g /\ (forall m, In m (g_attrs g) -> In m (g_attrs (set_attr n g))).
Proof. unfold set_attr; cbn. repeat split. intros m H. destruct (has_attr g n); [exact H|right; exact H]. Qed.
Lemma step_attrs g g' : step g = Ok g' -> g_attrs g' = g_attrs g /\ g_N g' = g_N g.
Proof.
  intros H. unfold step in H. apply bind_ok in H as (g1 & H1 & H). apply bind_ok in H as (g2 & H2 & H).
  unfold update_E in H1. apply bind_ok in H1 as (bs & _ & H1). apply bind_ok in H1 as (E3 & _ & H1). apply bind_ok in H1 as (ds & _ & H1).
  unfold update_H in H2. apply bind_ok in H2 as (bs2 & _ & H2). apply bind_ok in H2 as (H3 & _ & H2). apply bind_ok in H2 as (ds2 & _ & H2).
  inversion H1; subst; clear H1. inversion H2; subst; clear H2. inversion H; subst; clear H. split; reflexivity.
Qed.
Lemma run_attrs n : forall g g', run_steps n g = Ok g' -> g_attrs g' = g_attrs g /\ g_N g' = g_N g.
Proof.
  induction n as [|n IH]; intros g g' H; cbn [run_steps] in H; [inversion H; auto|].
  apply bind_ok in H as (g1 & H1 & H). apply step_attrs in H1 as [A B]. apply IH in H as [C D]. rewrite C, D. auto.
Qed.
Lemma map_res_length {A B} (f : A -> res B) l : forall l', map_res f l = Ok l' -> length l' = length l.
Proof.
  induction l as [|x l IH]; intros l' H; cbn in H; [inversion H; reflexivity|].
  apply bind_ok in H as (y & _ & H). apply bind_ok in H as (r & Hr & H). inversion H; subst. cbn. rewrite (IH _ Hr). reflexivity.
Qed.
Lemma detect_length n g g' : run_steps n g = Ok g' -> length (g_detectors g') = length (g_detectors g).
Proof.
  revert g. induction n as [|n IH]; intros g H; cbn [run_steps] in H; [inversion H; auto|].
  apply bind_ok in H as (g1 & H1 & H). rewrite (IH _ H). clear IH H.
  unfold step in H1. apply bind_ok in H1 as (h1 & H1 & H). apply bind_ok in H as (h2 & H2 & H).
  unfold update_E in H1. apply bind_ok in H1 as (bs & _ & H1). apply bind_ok in H1 as (E3 & _ & H1). apply bind_ok in H1 as (ds & D1 & H1).
  unfold update_H in H2. apply bind_ok in H2 as (bs2 & _ & H2). apply bind_ok in H2 as (H3 & _ & H2). apply bind_ok in H2 as (ds2 & D2 & H2).
  inversion H1; subst; clear H1. inversion H2; subst; clear H2. inversion H; subst; clear H. cbn in *.
  apply map_res_length in D1, D2. congruence.
Qed.
Lemma save_data_same s : ss_grid (fst (save_data s)) = ss_grid s /\ ss_dets (fst (save_data s)) = ss_dets s.
Proof.
  unfold save_data. destruct (ss_folder s); [|auto]. destruct (collect _ _); [|auto].
  destruct (ss_files s _) as [[|]|]; auto. destruct (ss_files s _) as [[|]|]; auto.
Qed.
Lemma video_same d how s : ss_grid (fst (generate_video d how s)) = ss_grid s /\ ss_dets (fst (generate_video d how s)) = ss_dets s.
Proof. unfold generate_video. destruct (ss_folder s); [|auto]. destruct (ss_files s _) as [[|]|]; auto. destruct how; auto. Qed.
Lemma save_sim_same nm now s : ss_dets (fst (save_simulation nm now s)) = ss_dets s
  /\ (ss_grid (fst (save_simulation nm now s)) = ss_grid s \/ ss_grid (fst (save_simulation nm now s)) = set_attr "full_sim_name" (ss_grid s)).
Proof. unfold save_simulation. destruct (mkdirs _ _ _) as [f [|]]; cbn [negb]; [|auto]. destruct (mkdirs _ _ _). cbn. auto. Qed.

(** What every operation keeps. *)
Definition keeps (s s' : session) : Prop :=
  g_N (ss_grid s') = g_N (ss_grid s)
  /\ (forall m, In m (g_attrs (ss_grid s)) -> In m (g_attrs (ss_grid s')))
  /\ (exists ds, ss_dets s' = (ss_dets s ++ ds)%list)
  /\ (length (ss_dets s) = length (g_detectors (ss_grid s)) -> length (ss_dets s') = length (g_detectors (ss_grid s'))).
Lemma perform_keeps o s s' e : perform o s = Some (s', e) -> keeps s s'.
Proof.
  destruct o as [key c|n| |nm now| |d how]; cbn [perform].
  - destruct (setitem key c (ss_grid s)) as [g' r] eqn:E. intros H; inversion H; subst; clear H. unfold keeps, with_grid. cbn.
    pose proof (setitem_extends key c (ss_grid s)) as X. rewrite E in X. cbn [fst] in X. destruct X as (X1 & _ & _ & _ & _ & _ & _ & _ & _ & _ & _ & l & X).
    destruct (assign_detectors key c (ss_grid s)) as (ds & D1 & D2). rewrite E in D1. cbn [fst] in D1.
    split; [exact X1|]. split; [intros m Hm; rewrite X; apply in_or_app; auto|]. split; [eauto|].
    intros L. rewrite D1, !app_length, L, D2. reflexivity.
  - destruct (run_steps n (ss_grid s)) as [g'|] eqn:E; [|discriminate]. intros H; inversion H; subst; clear H. unfold keeps, with_grid. cbn.
    pose proof (run_attrs _ _ _ E) as [A B]. rewrite A, B. split; [reflexivity|]. split; [auto|]. split; [exists []; rewrite app_nil_r; reflexivity|].
    rewrite (detect_length _ _ _ E). auto.
  - intros H; inversion H; subst; clear H. unfold keeps. cbn. split; [reflexivity|]. split; [auto|]. split; [exists []; rewrite app_nil_r; reflexivity|]. auto.
  - intros H; inversion H as [H0]; clear H. pose proof (save_sim_same nm now s) as [A B]. rewrite H0 in A, B. cbn [fst] in A, B.
    unfold keeps. rewrite A. destruct B as [-> | ->]; [|pose proof (set_attr_grid "full_sim_name" (ss_grid s)) as (C1 & C2 & C3); rewrite C1, C2].
    all: split; [reflexivity|]; split; [auto|]; split; [exists []; rewrite app_nil_r; reflexivity|]; auto.
  - intros H; inversion H as [H0]; clear H. pose proof (save_data_same s) as [A B]. rewrite H0 in A, B. cbn [fst] in A, B.
    unfold keeps. rewrite A, B. split; [reflexivity|]. split; [auto|]. split; [exists []; rewrite app_nil_r; reflexivity|]. auto.
  - intros H; inversion H as [H0]; clear H. pose proof (video_same d how s) as [A B]. rewrite H0 in A, B. cbn [fst] in A, B.
    unfold keeps. rewrite A, B. split; [reflexivity|]. split; [auto|]. split; [exists []; rewrite app_nil_r; reflexivity|]. auto.
Qed.
Lemma keeps_refl s : keeps s s.
Proof. unfold keeps. split; [reflexivity|]. split; [auto|]. split; [exists []; rewrite app_nil_r; reflexivity|]. auto. Qed.
Lemma keeps_trans a b c : keeps a b -> keeps b c -> keeps a c.
Proof.
  intros (A1 & A2 & [l A3] & A4) (B1 & B2 & [m B3] & B4). split; [congruence|]. split; [auto|].
  split; [exists (l ++ m)%list; rewrite B3, A3, app_assoc; reflexivity|]. auto.
Qed.
Lemma play_keeps l : forall s s', play l s = Some s' -> keeps s s'.
Proof.
  induction l as [|o l IH]; intros s s' H; cbn [play] in H; [inversion H; apply keeps_refl|].
  destruct (perform o s) as [[s1 e]|] eqn:E; [|discriminate]. eapply keeps_trans; [eapply perform_keeps; eassumption|apply IH; exact H].
Qed.
Lemma clean_play l : forall s s', play_clean l s = Some s' -> play l s = Some s'.
Proof.
  induction l as [|o l IH]; intros s s' H; cbn [play play_clean] in *; [exact H|].
  destruct (perform o s) as [[s1 [e|]]|]; try discriminate. apply IH, H.
Qed.
Lemma play_app a b s : play (a ++ b) s = match play a s with Some s1 => play b s1 | None => None end.
Proof. revert s. induction a as [|o a IH]; intros s; cbn; [reflexivity|]. destruct (perform o s) as [[s1 e]|]; [apply IH|reflexivity]. Qed.
Lemma clean_app a b s : play_clean (a ++ b) s = match play_clean a s with Some s1 => play_clean b s1 | None => None end.
Proof. revert s. induction a as [|o a IH]; intros s; cbn; [reflexivity|]. destruct (perform o s) as [[s1 [e|]]|]; [reflexivity|apply IH|reflexivity]. Qed.

(** Without exceptions the detectors' names are different. *)
Definition named_dets (ds : list (option string * det_kind)) : list string :=
  flat_map (fun d => match fst d with Some n => [n] | None => [] end) ds.
Lemma clean_names l : forall s s', NoDup (named_dets (ss_dets s)) -> (forall n, In n (named_dets (ss_dets s)) -> In n (g_attrs (ss_grid s))) ->
  play_clean l s = Some s' ->
  NoDup (named_dets (ss_dets s')) /\ (forall n, In n (named_dets (ss_dets s')) -> In n (g_attrs (ss_grid s'))).
Proof.
  induction l as [|o l IH]; intros s s' ND IN H; cbn [play_clean] in H; [inversion H; subst; auto|].
  destruct (perform o s) as [[s1 [e|]]|] eqn:P; try discriminate.
  pose proof (perform_keeps _ _ _ _ P) as (_ & K & _ & _).
  apply (IH s1 s'); [| |exact H]; clear IH H.
  - destruct o as [key c|n| |nm now| |d how]; cbn [perform] in P.
    + destruct (setitem key c (ss_grid s)) as [g' r] eqn:E. inversion P; subst; clear P. destruct r; [discriminate|]. cbn.
      unfold named_dets. rewrite flat_map_app. fold (named_dets (ss_dets s)). fold (named_dets (appended key c)).
      unfold appended. unfold setitem in E. destruct (pad_key key) as [[[x y] z]|]; [|discriminate].
      destruct c; cbn [named_dets flat_map fst app]; rewrite ?List.app_nil_r; try exact ND.
      destruct name as [n|]; cbn [app]; rewrite ?List.app_nil_r; [|exact ND]. cbn [register] in E. unfold register_detector in E.
      destruct (claim_name (Some n) (ss_grid s)) as [g1|] eqn:C; [|discriminate]. apply claim_name_inv in C as [_ [_ [C _]]].
      apply NoDup_rev in ND. rewrite <- (rev_involutive (named_dets (ss_dets s) ++ [n])), rev_app_distr. apply NoDup_rev. cbn. constructor; [|exact ND].
      rewrite <- in_rev. intros Q. apply C, IN, Q.
    + destruct (run_steps n (ss_grid s)); [|discriminate]. inversion P; subst. exact ND.
    + inversion P; subst. exact ND.
    + inversion P as [H0]. pose proof (save_sim_same nm now s) as [A _]. rewrite H0 in A. cbn [fst] in A. rewrite A. exact ND.
    + inversion P as [H0]. pose proof (save_data_same s) as [_ A]. rewrite H0 in A. cbn [fst] in A. rewrite A. exact ND.
    + inversion P as [H0]. pose proof (video_same d how s) as [_ A]. rewrite H0 in A. cbn [fst] in A. rewrite A. exact ND.
  - intros m Hm. assert (O : In m (named_dets (ss_dets s)) \/ exists key k, o = Assign key (CDetector k (Some m))).
    { destruct o as [key c|n| |nm now| |d how]; cbn [perform] in P.
      - destruct (setitem key c (ss_grid s)) as [g' r]. inversion P; subst; clear P. cbn in Hm.
        unfold named_dets in Hm. rewrite flat_map_app in Hm. apply in_app_iff in Hm as [Hm|Hm]; [left; exact Hm|right].
        unfold appended in Hm. destruct (pad_key key); [|destruct Hm]. destruct c; cbn in Hm; try contradiction.
        destruct name; cbn in Hm; [|contradiction]. destruct Hm as [->|[]]. eauto.
      - destruct (run_steps n (ss_grid s)); [|discriminate]. inversion P; subst. auto.
      - inversion P; subst. auto.
      - inversion P as [H0]. pose proof (save_sim_same nm now s) as [A _]. rewrite H0 in A. cbn [fst] in A. rewrite A in Hm. auto.
      - inversion P as [H0]. pose proof (save_data_same s) as [_ A]. rewrite H0 in A. cbn [fst] in A. rewrite A in Hm. auto.
      - inversion P as [H0]. pose proof (video_same d how s) as [_ A]. rewrite H0 in A. cbn [fst] in A. rewrite A in Hm. auto. }
    destruct O as [O|(key & k & ->)]; [apply K, IN, O|]. cbn [perform] in P.
    destruct (setitem key (CDetector k (Some m)) (ss_grid s)) as [g' r] eqn:E. inversion P; subst; clear P. destruct r; [discriminate|]. cbn.
    unfold setitem in E. destruct (pad_key key) as [[[x y] z]|]; [|discriminate]. cbn [register] in E. unfold register_detector in E.
    destruct (claim_name (Some m) (ss_grid s)) as [g1|] eqn:C; [|discriminate]. apply claim_name_inv in C as [_ [_ [_ C]]].
    destruct (match k with DLine => _ | _ => _ end); inversion E; subst. cbn. rewrite C. left. reflexivity.
Qed.

(** * Samples *)
Definition holds (s : session) (i : nat) (cells : list zpos) (Es Hs : list (list vec)) : Prop :=
  nth_error (g_detectors (ss_grid s)) i = Some (FieldDetector cells Es Hs).
Lemma nth_error_prefix {A} (l m : list A) i x : nth_error l i = Some x -> nth_error (l ++ m) i = Some x.
Proof. intros H. rewrite nth_error_app1; [exact H|]. apply nth_error_Some. congruence. Qed.
Lemma other_holds o s s' e i cells Es Hs : perform o s = Some (s', e) -> (forall n, o <> Run n) -> holds s i cells Es Hs -> holds s' i cells Es Hs.
Proof.
  unfold holds. intros P NR H. destruct o as [key c|n| |nm now| |d how]; cbn [perform] in P.
  - destruct (setitem key c (ss_grid s)) as [g' r] eqn:E. inversion P; subst. cbn.
    destruct (assign_detectors key c (ss_grid s)) as (ds & D & _). rewrite E in D. cbn [fst] in D. rewrite D. apply nth_error_prefix, H.
  - exfalso. exact (NR n eq_refl).
  - inversion P; subst. exact H.
  - inversion P as [H0]. pose proof (save_sim_same nm now s) as [_ A]. rewrite H0 in A. cbn [fst] in A. destruct A as [-> | ->]; exact H.
  - inversion P as [H0]. pose proof (save_data_same s) as [A _]. rewrite H0 in A. cbn [fst] in A. rewrite A. exact H.
  - inversion P as [H0]. pose proof (video_same d how s) as [A _]. rewrite H0 in A. cbn [fst] in A. rewrite A. exact H.
Qed.
Lemma steps_in_app a b : steps_in (a ++ b) = steps_in a + steps_in b.
Proof. induction a as [|o a IH]; cbn; [reflexivity|]. destruct o; rewrite ?IH; lia. Qed.

Lemma samples l : forall s s' i cells Es Hs, play l s = Some s' -> holds s i cells Es Hs ->
  exists nE nH, holds s' i cells (Es ++ nE) (Hs ++ nH) /\ length nE = steps_in l /\ length nH = steps_in l
  /\ forall a m b sa j gk, l = (a ++ Run m :: b)%list -> play a s = Some sa -> j < m -> run_steps (S j) (ss_grid sa) = Ok gk ->
     exists e h, nth_error nE (steps_in a + j) = Some e /\ nth_error nH (steps_in a + j) = Some h
       /\ reads (g_N (ss_grid s)) (g_E gk) cells e /\ reads (g_N (ss_grid s)) (g_H gk) cells h.
Proof.
  induction l as [|o l IH]; intros s s' i cells Es Hs P H; cbn [play] in P.
  - inversion P; subst. exists [], []. rewrite !List.app_nil_r. split; [exact H|]. split; [reflexivity|]. split; [reflexivity|].
    intros a m b sa j gk E. destruct a; discriminate.
  - destruct (perform o s) as [[s1 e]|] eqn:PO; [|discriminate].
    pose proof (perform_keeps _ _ _ _ PO) as (KN & _).
    assert (D : (exists n, o = Run n) \/ forall n, o <> Run n) by (destruct o; [right; discriminate|left; eauto|right; discriminate..]).
    destruct D as [[n ->]|NR].
    + cbn [perform] in PO. destruct (run_steps n (ss_grid s)) as [g1|] eqn:R; [|discriminate]. inversion PO; subst; clear PO.
      destruct (records_run n (ss_grid s) g1 i cells Es Hs R H) as (aE & aH & H1 & La & Lb & K1).
      destruct (IH _ _ i cells _ _ P H1) as (bE & bH & H2 & L3 & L4 & K2).
      exists (aE ++ bE)%list, (aH ++ bH)%list. rewrite !app_assoc, !app_length. split; [exact H2|]. cbn [steps_in].
      split; [lia|]. split; [lia|].
      intros a m b sa j gk E PA Hj HR. destruct a as [|o a]; cbn in E; inversion E; subst.
      * cbn in PA. inversion PA; subst. cbn [steps_in Nat.add]. destruct (K1 j gk Hj HR) as (e' & h' & A & B & C).
        exists e', h'. split; [apply nth_error_prefix, A|]. split; [apply nth_error_prefix, B|]. exact C.
      * cbn [play perform] in PA. rewrite R in PA. destruct (K2 a m b sa j gk eq_refl PA Hj HR) as (e' & h' & A & B & C & D).
        exists e', h'. cbn [steps_in]. rewrite !nth_error_app2 by lia. rewrite Lb.
        replace (length aE + steps_in a + j - length aE) with (steps_in a + j) by lia. cbn in C, D.
        pose proof (run_attrs _ _ _ R) as [_ RN]. rewrite RN in C, D. auto.
    + destruct (IH _ _ i cells Es Hs P (other_holds _ _ _ _ _ _ _ _ PO NR H)) as (nE & nH & H2 & L3 & L4 & K2).
      exists nE, nH. split; [exact H2|]. assert (ST : steps_in (o :: l) = steps_in l) by (destruct o; [reflexivity|exfalso; eapply NR; reflexivity|reflexivity..]).
      rewrite ST. split; [exact L3|]. split; [exact L4|].
      intros a m b sa j gk E PA Hj HR. destruct a as [|o' a]; cbn in E; inversion E; subst; [exfalso; eapply NR; reflexivity|].
      cbn [play] in PA. rewrite PO in PA. destruct (K2 a m b sa j gk eq_refl PA Hj HR) as (e' & h' & A & B & C & D).
      assert (ST' : steps_in (o' :: a) = steps_in a) by (destruct o'; [reflexivity|exfalso; eapply NR; reflexivity|reflexivity..]).
      rewrite ST', <- KN. eauto 10.
Qed.

(** * Saving *)
Lemma combine_nth {A B} (l : list A) (m : list B) i x y : nth_error l i = Some x -> nth_error m i = Some y -> In (x, y) (combine l m).
Proof.
  revert m i. induction l as [|a l IH]; intros [|b m] [|i]; cbn; try discriminate.
  - intros H1 H2; inversion H1; inversion H2; subst. auto.
  - intros H1 H2. right. eapply IH; eassumption.
Qed.
Lemma combine_fst {A B} (l : list A) (m : list B) : length l = length m -> map fst (combine l m) = l.
Proof. revert m. induction l as [|a l IH]; intros [|b m] H; cbn in *; try discriminate; [reflexivity|]. rewrite IH by lia. reflexivity. Qed.
Lemma storable_names ds : Forall storable ds -> named_dets ds = map name_of_det ds.
Proof.
  induction ds as [|[nm k] ds IH]; intros F; [reflexivity|]. inversion F as [|? ? [_ F2] F3]; subst.
  cbn [fst] in F2. destruct nm; [|contradiction]. cbn [named_dets flat_map map name_of_det fst app]. fold (named_dets ds). rewrite IH by exact F3. reflexivity.
Qed.
Lemma Forall_combine {A B} (P : A -> Prop) (l : list A) (m : list B) : Forall P l -> Forall (fun x => P (fst x)) (combine l m).
Proof. revert m. induction l as [|a l IH]; intros [|b m] F; cbn; try constructor; inversion F; subst; auto. Qed.

(** What [save_data] stores. *)
Lemma data_stored s folder : length (ss_dets s) = length (g_detectors (ss_grid s)) ->
  Forall storable (ss_dets s) -> NoDup (map name_of_det (ss_dets s)) ->
  ss_folder s = Some folder -> ss_files s folder = Some Dir -> ss_files s ("detector_readings.npz" :: folder) <> Some Dir ->
  exists s' r, save_data s = (s', None) /\ ss_files s' ("detector_readings.npz" :: folder) = Some (File (Some (Readings r)))
  /\ map fst r = flat_map (fun d => [name_of_det d ++ " (E)"; name_of_det d ++ " (H)"]) (ss_dets s)
  /\ (forall i n k d, nth_error (ss_dets s) i = Some (Some n, k) -> nth_error (g_detectors (ss_grid s)) i = Some d ->
        array r (n ++ " (E)") = Some (records_E d) /\ array r (n ++ " (H)") = Some (records_H d))
  /\ (forall p, p <> "detector_readings.npz" :: folder -> ss_files s' p = ss_files s p).
Proof.
  intros L F ND FO D1 D2. unfold save_data. rewrite FO.
  set (l := combine (ss_dets s) (g_detectors (ss_grid s))).
  assert (DN : detnames l = map name_of_det (ss_dets s)).
  { unfold detnames. pose proof (combine_fst (ss_dets s) (g_detectors (ss_grid s)) L) as CF. fold l in CF. rewrite <- CF, map_map. reflexivity. }
  rewrite (collect_storable l []); [|apply Forall_combine, F|rewrite DN; exact ND|intros; cbn; auto].
  rewrite D1. exists (mkSession (ss_grid s) (ss_dets s) (Some folder) (ss_sim s) (ss_cwd s)
     (put ("detector_readings.npz" :: folder) (File (Some (Readings (arrays_of l)))) (ss_files s))), (arrays_of l).
  split; [destruct (ss_files s ("detector_readings.npz" :: folder)) as [[|]|]; try reflexivity; contradiction|].
  cbn [ss_files]. unfold put. split; [destruct (place_eqb_spec ("detector_readings.npz" :: folder) ("detector_readings.npz" :: folder)); congruence|].
  split.
  - pose proof (combine_fst (ss_dets s) (g_detectors (ss_grid s)) L) as CF. fold l in CF. rewrite <- CF. unfold arrays_of. clear.
    induction l as [|x l IH]; cbn; [reflexivity|]. rewrite IH. reflexivity.
  - split.
    + intros i n k d H1 H2. apply (arrays_lookup l n k d); [rewrite DN; exact ND|]. eapply combine_nth; eassumption.
    + intros p Hp. destruct (place_eqb_spec p ("detector_readings.npz" :: folder)); congruence.
Qed.

Lemma play_spacing : forall l a b, play l a = Some b -> g_spacing (ss_grid b) = g_spacing (ss_grid a).
Proof.
  induction l as [|o l IH]; intros a b H; cbn [play] in H; [inversion H; reflexivity|].
      destruct (perform o a) as [[a1 e]|] eqn:E; [|discriminate]. rewrite (IH _ _ H). clear IH H b l.
      destruct o as [key c|n| |nm now| |d how]; cbn [perform] in E.
      - pose proof (setitem_extends key c (ss_grid a)) as X. destruct (setitem key c (ss_grid a)). inversion E; subst. apply X.
      - destruct (run_steps n (ss_grid a)) as [g'|] eqn:R; [|discriminate]. inversion E; subst. cbn. clear E.
        generalize dependent g'. generalize (ss_grid a). clear. induction n as [|n IH]; intros g g' H; cbn [run_steps] in H; [inversion H; reflexivity|].
        apply bind_ok in H as (g1 & H1 & H). rewrite (IH _ _ H). clear - H1.
        unfold step in H1. apply bind_ok in H1 as (h1 & H1 & H). apply bind_ok in H as (h2 & H2 & H).
        unfold update_E in H1. apply bind_ok in H1 as (? & _ & H1). apply bind_ok in H1 as (? & _ & H1). apply bind_ok in H1 as (? & _ & H1).
        unfold update_H in H2. apply bind_ok in H2 as (? & _ & H2). apply bind_ok in H2 as (? & _ & H2). apply bind_ok in H2 as (? & _ & H2).
        inversion H1; subst; clear H1. inversion H2; subst; clear H2. inversion H; subst; clear H. reflexivity.
      - inversion E; subst. reflexivity.
      - inversion E as [H0]. pose proof (save_sim_same nm now a) as [_ A]. rewrite H0 in A. cbn [fst] in A. destruct A as [-> | ->]; reflexivity.
      - inversion E as [H0]. pose proof (save_data_same a) as [A _]. rewrite H0 in A. cbn [fst] in A. rewrite A. reflexivity.
      - inversion E as [H0]. pose proof (video_same d how a) as [A _]. rewrite H0 in A. cbn [fst] in A. rewrite A. reflexivity. 
Qed.

(** The readings of a detector that was on the grid from some moment of a history
    in which nothing raised. *)
Lemma readings_saved g cwd fs l1 key k n l2 s folder x y z : g_detectors g = [] -> k <> DCurrent -> pad_key key = Ok (x, y, z) ->
  play_clean (l1 ++ Assign key (CDetector k (Some n)) :: l2) (start g cwd fs) = Some s ->
  Forall storable (ss_dets s) ->
  ss_folder s = Some folder -> ss_files s folder = Some Dir -> ss_files s ("detector_readings.npz" :: folder) <> Some Dir ->
  exists s' r E H cells s1, save_data s = (s', None) /\ ss_files s' ("detector_readings.npz" :: folder) = Some (File (Some (Readings r)))
  /\ array r (n ++ " (E)") = Some E /\ array r (n ++ " (H)") = Some H
  /\ length E = steps_in l2 /\ length H = steps_in l2
  /\ play_clean (l1 ++ [Assign key (CDetector k (Some n))]) (start g cwd fs) = Some s1
  /\ (let c m := handle_key (g_spacing g) m in
      match k with DLine => line_cells 0 (g_N g) (c x) (c y) (c z) | _ => block_cells (g_N g) (c x) (c y) (c z) end = Ok cells)
  /\ forall a m b sa j gk, l2 = (a ++ Run m :: b)%list -> play a s1 = Some sa -> j < m -> run_steps (S j) (ss_grid sa) = Ok gk ->
     exists e h, nth_error E (steps_in a + j) = Some e /\ nth_error H (steps_in a + j) = Some h
       /\ reads (g_N g) (g_E gk) cells e /\ reads (g_N g) (g_H gk) cells h.
Proof.
  intros GD KC HK P F FO D1 D2.
  rewrite clean_app in P. destruct (play_clean l1 (start g cwd fs)) as [s0|] eqn:P1; [|discriminate].
  destruct (clean_names l1 (start g cwd fs) s0) as [ND0 IN0]; [cbn; constructor|cbn; contradiction|exact P1|].
  destruct (clean_names _ s0 s ND0 IN0 P) as [ND _].
  pose proof (clean_play _ _ _ P1) as Q1. pose proof (play_keeps _ _ _ Q1) as (N0 & _ & _ & L0). cbn [start ss_grid ss_dets] in N0, L0.
  specialize (L0 ltac:(rewrite GD; reflexivity)).
  pose proof (play_keeps _ _ _ (clean_play _ _ _ P)) as (_ & _ & [ds DS] & LS). specialize (LS L0).
  cbn [play_clean] in P. destruct (perform (Assign key (CDetector k (Some n))) s0) as [[s1 [e|]]|] eqn:PA; try discriminate.
  pose proof (clean_play _ _ _ P) as Q2.
  assert (SP : g_spacing (ss_grid s0) = g_spacing g).
  { apply (play_spacing _ _ _ Q1). }
  assert (exists cells, holds s1 (length (ss_dets s0)) cells [] []
    /\ (let c m := handle_key (g_spacing g) m in
      match k with DLine => line_cells 0 (g_N g) (c x) (c y) (c z) | _ => block_cells (g_N g) (c x) (c y) (c z) end = Ok cells)
    /\ ss_dets s1 = (ss_dets s0 ++ [(Some n, k)])%list) as (cells & H1 & HC & SD).
  { cbn [perform] in PA. destruct (setitem key (CDetector k (Some n)) (ss_grid s0)) as [g' r] eqn:E. inversion PA; subst; clear PA.
    destruct r; [discriminate|]. unfold appended. rewrite HK. unfold setitem in E. rewrite HK in E. cbn [register] in E. unfold register_detector in E.
    destruct (claim_name (Some n) (ss_grid s0)) as [g1|] eqn:C; [|discriminate]. apply claim_detectors in C.
    rewrite N0, SP in E.
    destruct (match k with DLine => _ | _ => _ end) as [cells|] eqn:CE in E; [|discriminate]. exists cells. inversion E; subst. unfold holds. cbn.
    rewrite C, L0, nth_error_app2, Nat.sub_diag by lia. split; [destruct k; try contradiction; reflexivity|]. split; [exact CE|reflexivity]. }
  destruct (samples l2 s1 s _ cells [] [] Q2 H1) as (nE & nH & HS & LE & LH & K). cbn [app] in HS.
  destruct (data_stored s folder LS F) as (s' & r & SV & FI & _ & AR & _); [rewrite <- storable_names by exact F; exact ND|exact FO|exact D1|exact D2|].
  assert (ID : nth_error (ss_dets s) (length (ss_dets s0)) = Some (Some n, k)).
  { pose proof (play_keeps _ _ _ Q2) as (_ & _ & [ds' DS'] & _). rewrite DS', SD. apply nth_error_prefix. rewrite nth_error_app2, Nat.sub_diag by lia. reflexivity. }
  destruct (AR _ _ _ _ ID HS) as [A1 A2]. cbn [records_E records_H] in A1, A2.
  pose proof (play_keeps _ _ _ Q1) as (NN & _). cbn [start ss_grid] in NN.
  pose proof (perform_keeps _ _ _ _ PA) as (NN1 & _).
  exists s', r, nE, nH, cells, s1. split; [exact SV|]. split; [exact FI|]. split; [exact A1|]. split; [exact A2|]. split; [exact LE|]. split; [exact LH|].
  split; [rewrite clean_app, P1; cbn [play_clean]; rewrite PA; reflexivity|]. split; [exact HC|].
  intros a m b sa j gk EL PL Hj HR. destruct (K a m b sa j gk EL PL Hj HR) as (e & h & B1 & B2 & B3 & B4).
  rewrite NN1, NN in B3, B4. eauto 10.
Qed.
