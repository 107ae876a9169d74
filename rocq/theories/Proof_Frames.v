(** Proofs for C77: the frames of a film. *)
From Coq Require Import Reals ZArith NArith Nnat String Ascii List Bool Arith Lra Lia DecimalString DecimalNat DecimalFacts.
From Verif Require Import Base BaseLemmas Model_Units Model_FDTD Model_Register Model_Runs Model_Output Model_Visualize Spec_FDTD Spec_Register Spec_Output Spec_Visualize
  Proof_FDTD Proof_Runs Proof_Output Proof_Output2 Proof_Visualize Proof_Visualize2 Proof_Visualize3.
Import ListNotations.
Open Scope nat_scope.
Open Scope string_scope.

(** ** Digits *)
Definition dig (c : ascii) : nat := nat_of_ascii c - 48.
Fixpoint val (acc : nat) (s : string) : nat := match s with "" => acc | String c r => val (10 * acc + dig c) r end.
Lemma val_dec_acc d : forall acc, val acc (NilEmpty.string_of_uint d) = Nat.of_uint_acc d acc.
Proof.
  induction d as [|d IH|d IH|d IH|d IH|d IH|d IH|d IH|d IH|d IH|d IH]; intros acc; cbn [NilEmpty.string_of_uint val Nat.of_uint_acc]; [reflexivity|..];
    rewrite IH; f_equal; rewrite Nat.tail_mul_spec; cbn; lia.
Qed.
Lemma val_dec n : val 0 (dec n) = n.
Proof.
  unfold dec. pose proof (Unsigned.of_to n) as H. unfold Nat.of_uint in H. rewrite <- val_dec_acc in H.
  destruct (Nat.to_uint n) eqn:E; exact H.
Qed.
Lemma val_zeros k s : val 0 (zeros k ++ s) = val 0 s.
Proof. induction k as [|k IH]; [reflexivity|]. cbn [zeros append val]. exact IH. Qed.
Lemma val_frame k n : val 0 (zfill k (dec n)) = n.
Proof. unfold zfill. rewrite val_zeros. apply val_dec. Qed.

Lemma is_digit_range c : is_digit c = true <-> 48 <= nat_of_ascii c <= 57.
Proof.
  destruct c as [[] [] [] [] [] [] [] []]; unfold is_digit; cbn; split; intros H; try discriminate; try reflexivity; try lia.
Qed.
Lemma val_lt s : digits s = true -> forall a, val a s < (a + 1) * 10 ^ String.length s.
Proof.
  induction s as [|c s IH]; intros D a; cbn [val String.length Nat.pow]; [lia|].
  cbn [digits] in D. apply andb_prop in D as [D1 D2]. apply is_digit_range in D1. specialize (IH D2 (10 * a + dig c)).
  assert (dig c <= 9) by (unfold dig; lia). eapply Nat.lt_le_trans; [exact IH|]. rewrite Nat.mul_assoc. apply Nat.mul_le_mono_r. lia.
Qed.
Lemma val_ge s : forall a, a * 10 ^ String.length s <= val a s.
Proof.
  induction s as [|c s IH]; intros a; cbn [val String.length Nat.pow]; [lia|].
  eapply Nat.le_trans; [|apply IH]. rewrite Nat.mul_assoc. apply Nat.mul_le_mono_r. lia.
Qed.
Lemma ascii_compare_nat c d : Ascii.compare c d = Nat.compare (nat_of_ascii c) (nat_of_ascii d).
Proof. unfold Ascii.compare, nat_of_ascii. rewrite N2Nat.inj_compare. reflexivity. Qed.
Lemma compare_val s : forall t a, String.length s = String.length t -> digits s = true -> digits t = true ->
  String.compare s t = Nat.compare (val a s) (val a t).
Proof.
  induction s as [|c s IH]; intros [|d t] a L Ds Dt; cbn in L; try discriminate; [cbn; rewrite Nat.compare_refl; reflexivity|].
  cbn [digits] in Ds, Dt. apply andb_prop in Ds as [Dc Ds]. apply andb_prop in Dt as [Dd Dt]. injection L as L.
  cbn [String.compare]. rewrite ascii_compare_nat. apply is_digit_range in Dc. apply is_digit_range in Dd. cbn [val].
  assert (B : forall u v x y, String.length u = String.length v -> digits u = true -> x < y -> val x u < val y v).
  { intros u v x y Le Du Lt. pose proof (val_lt u Du x). pose proof (val_ge v y). rewrite Le in H.
    eapply Nat.lt_le_trans; [exact H|]. eapply Nat.le_trans; [|exact H0]. apply Nat.mul_le_mono_r. lia. }
  destruct (Nat.compare_spec (nat_of_ascii c) (nat_of_ascii d)) as [E|E|E].
  - unfold dig. rewrite E. apply IH; assumption.
  - symmetry. apply Nat.compare_lt_iff. apply B; auto. unfold dig. lia.
  - symmetry. apply Nat.compare_gt_iff. apply B; auto. unfold dig. lia.
Qed.
Lemma digits_app s t : digits (s ++ t) = digits s && digits t.
Proof. induction s as [|c s IH]; [reflexivity|]. cbn [append digits]. rewrite IH. apply andb_assoc. Qed.
Lemma digits_zeros k : digits (zeros k) = true. Proof. induction k; [reflexivity|assumption]. Qed.
Lemma frame_digits k n : digits (zfill k (dec n)) = true.
Proof. unfold zfill. rewrite digits_app, digits_zeros, dec_digits. reflexivity. Qed.
Lemma zeros_length k : String.length (zeros k) = k. Proof. induction k; cbn; congruence. Qed.

Lemma dec_length n k : 0 < k -> n < 10 ^ k -> String.length (dec n) <= k.
Proof.
  intros K Hn. assert (C : Nat.to_uint n = Decimal.unorm (Nat.to_uint n)) by (rewrite <- Unsigned.to_of, Unsigned.of_to; reflexivity).
  destruct (Nat.eq_dec n 0) as [-> |Nz]; [cbn; lia|].
  apply Nat.nlt_ge. intros L. 
  assert (F : exists c r, dec n = String c r /\ 1 <= dig c).
  { unfold dec. rewrite C. unfold Decimal.unorm. pose proof (nzhead_nonzero (Nat.to_uint n)) as NZ.
    destruct (Decimal.nzhead (Nat.to_uint n)) eqn:E.
    - exfalso. assert (Q : Nat.to_uint n = Decimal.zero) by (rewrite C; unfold Decimal.unorm; rewrite E; reflexivity).
      apply Nz. rewrite <- (Unsigned.of_to n), Q. reflexivity.
    - exfalso. eapply NZ. reflexivity.
    - do 2 eexists; split; [reflexivity|cbn; lia].
    - do 2 eexists; split; [reflexivity|cbn; lia].
    - do 2 eexists; split; [reflexivity|cbn; lia].
    - do 2 eexists; split; [reflexivity|cbn; lia].
    - do 2 eexists; split; [reflexivity|cbn; lia].
    - do 2 eexists; split; [reflexivity|cbn; lia].
    - do 2 eexists; split; [reflexivity|cbn; lia].
    - do 2 eexists; split; [reflexivity|cbn; lia].
    - do 2 eexists; split; [reflexivity|cbn; lia]. }
  destruct F as (c & r & F & G). pose proof (val_dec n) as V. rewrite F in V, L. cbn [val String.length] in V, L. rewrite Nat.mul_0_r in V. cbn [Nat.add] in V.
  pose proof (val_ge r (dig c)) as W. rewrite V in W. assert (10 ^ k <= 10 ^ String.length r) by (apply Nat.pow_le_mono_r; lia). nia.
Qed.
Lemma zfill_length n k : 0 < k -> n < 10 ^ k -> String.length (zfill k (dec n)) = k.
Proof. intros K H. pose proof (dec_length n k K H). unfold zfill. rewrite string_app_length, zeros_length. lia. Qed.
Lemma val_inj s t : String.length s = String.length t -> digits s = true -> digits t = true -> val 0 s = val 0 t -> s = t.
Proof.
  intros L Ds Dt V. pose proof (compare_val s t 0 L Ds Dt) as H. rewrite V, Nat.compare_refl in H.
  apply String.compare_eq_iff in H. exact H.
Qed.
Lemma digit_nat n : n < 10 -> nat_of_ascii (digit n) = 48 + n.
Proof. intros H. unfold digit. apply nat_ascii_embedding. lia. Qed.
Lemma four n : n < 10 ^ 4 -> zfill 4 (dec n) = four_digits n.
Proof.
  intros H. apply val_inj.
  - rewrite zfill_length; [reflexivity|lia|exact H].
  - apply frame_digits.
  - unfold four_digits. cbn [digits]. rewrite !(proj2 (is_digit_range _)); [reflexivity|..]; rewrite digit_nat by (apply Nat.mod_upper_bound; lia);
      pose proof (Nat.mod_upper_bound (n / 1000) 10); pose proof (Nat.mod_upper_bound (n / 100) 10); pose proof (Nat.mod_upper_bound (n / 10) 10); pose proof (Nat.mod_upper_bound n 10); lia.
  - rewrite val_frame. unfold four_digits. cbn [val]. unfold dig. rewrite !digit_nat by (apply Nat.mod_upper_bound; lia).
    pose proof (Nat.div_mod n 10). pose proof (Nat.div_mod (n / 10) 10). pose proof (Nat.div_mod (n / 100) 10). pose proof (Nat.div_mod (n / 1000) 10).
    rewrite !Nat.div_div in * by lia. change (10 * 10) with 100 in *. change (100 * 10) with 1000 in *. change (1000 * 10) with (10 ^ 4) in *.
    assert (n / 10 ^ 4 = 0) by (apply Nat.div_small; exact H). lia.
Qed.

(** ** Names *)
Lemma frame_inj_name i j : frame_name (Some i) = frame_name (Some j) -> i = j.
Proof.
  unfold frame_name. intros H. apply string_app_inj_l in H. apply string_app_inj in H as [H _]; [|reflexivity].
  rewrite <- (val_frame 4 i), H. apply val_frame.
Qed.
Lemma frame_not_none i : frame_name (Some i) <> frame_name None.
Proof.
  unfold frame_name. intros H. apply string_app_inj_l in H. apply string_app_inj in H as [H _]; [|reflexivity].
  pose proof (frame_digits 4 i) as D. rewrite H in D. discriminate D.
Qed.
Lemma frame_four i : i < 10 ^ 4 -> frame_name (Some i) = "file" ++ four_digits i ++ ".png".
Proof. intros H. unfold frame_name. rewrite four by exact H. reflexivity. Qed.
Lemma compare_prefix p s t : String.compare (p ++ s) (p ++ t) = String.compare s t.
Proof. induction p as [|c p IH]; [reflexivity|]. cbn [append String.compare]. rewrite ascii_compare_nat, Nat.compare_refl. exact IH. Qed.
Lemma compare_lt_app s : forall t x, String.length s = String.length t -> String.compare s t = Lt -> String.compare (s ++ x) (t ++ x) = Lt.
Proof.
  induction s as [|c s IH]; intros [|d t] x L H; try discriminate. cbn [append String.compare] in *. injection L as L.
  destruct (Ascii.compare c d); auto.
Qed.
Lemma frame_order i j : i < j -> j < 10 ^ 4 -> String.compare (frame_name (Some i)) (frame_name (Some j)) = Lt.
Proof.
  intros Hij Hj. unfold frame_name. rewrite compare_prefix. apply compare_lt_app.
  - rewrite !zfill_length; lia.
  - rewrite (compare_val _ _ 0), !val_frame; [apply Nat.compare_lt_iff; exact Hij|rewrite !zfill_length; lia|apply frame_digits|apply frame_digits].
Qed.
Lemma frame_order_refuted : exists i j, i < j /\ String.compare (frame_name (Some j)) (frame_name (Some i)) = Lt.
Proof. exists 2000, (10 * 1000). split; [lia|]. vm_compute. reflexivity. Qed.
Lemma frame_image f i : image_in f (frame f i).
Proof.
  exists ("file" ++ zfill 4 (dec i)). split; [unfold frame, frame_name; cbn [append]; reflexivity|]. intros b H. discriminate H.
Qed.
Lemma frame_place_inj f i j : frame f i = frame f j -> i = j.
Proof. intros H. apply (f_equal (hd "")) in H. apply frame_inj_name. exact H. Qed.

(** ** One frame *)
Lemma put_same {V} p (n : node V) fs : put p n fs p = Some n.
Proof. unfold put. destruct (place_eqb_spec p p); [reflexivity|contradiction]. Qed.
Lemma put_other {V} p q (n : node V) fs : q <> p -> put p n fs q = fs q.
Proof. intros H. unfold put. destruct (place_eqb_spec q p); [contradiction|reflexivity]. Qed.
Lemma frame_saved x y z norm grad f index st : (exists pic, visualize x y z norm grad st = Ok pic) ->
  ss_files (st_session st) f = Some Dir -> ss_files (st_session st) (frame_name index :: f) <> Some Dir ->
  exists st', save_frame x y z norm grad (Some f) index st = (st', None) /\ only_files st st'
  /\ ss_files (st_session st') (frame_name index :: f) = Some (File (Some Frame))
  /\ forall p, p <> frame_name index :: f -> ss_files (st_session st') p = ss_files (st_session st) p.
Proof.
  intros [pic E] D N. unfold save_frame. rewrite E, D.
  assert (G : exists st', (mkStudio (mkSession (ss_grid (st_session st)) (ss_dets (st_session st)) (ss_folder (st_session st)) (ss_sim (st_session st)) (ss_cwd (st_session st))
                               (put (frame_name index :: f) (File (Some Frame)) (ss_files (st_session st)))) (st_objs st), @None failure) = (st', None)
    /\ only_files st st' /\ ss_files (st_session st') (frame_name index :: f) = Some (File (Some Frame))
    /\ forall p, p <> frame_name index :: f -> ss_files (st_session st') p = ss_files (st_session st) p).
  { eexists. split; [reflexivity|]. split; [repeat split|]. cbn [st_session ss_files]. split; [apply put_same|]. intros p H. apply put_other. exact H. }
  destruct (ss_files (st_session st) (frame_name index :: f)) as [[|v]|]; [contradiction|exact G|exact G].
Qed.
Lemma frame_refused x y z norm grad folder index st st' e : save_frame x y z norm grad folder index st = (st', Some e) -> st' = st.
Proof.
  unfold save_frame. destruct (visualize _ _ _ _ _ _); [|congruence]. destruct folder; [|congruence].
  destruct (ss_files _ _) as [[|v]|]; try congruence. destruct (ss_files _ _) as [[|w]|]; congruence.
Qed.
Lemma frame_no_folder x y z norm grad index st : (exists pic, visualize x y z norm grad st = Ok pic) ->
  save_frame x y z norm grad None index st = (st, Some (Raised TypeError)).
Proof. intros [pic E]. unfold save_frame. rewrite E. reflexivity. Qed.

(** ** Films *)
Lemma picture_carries x y z norm st st' : st_objs st' = st_objs st -> ss_dets (st_session st') = ss_dets (st_session st) ->
  g_N (st_grid st') = g_N (st_grid st) -> same_placed (st_grid st) (st_grid st') ->
  (exists pic, visualize x y z norm false st = Ok pic) -> exists pic, visualize x y z norm false st' = Ok pic.
Proof.
  intros O D N [S C] H. apply picture_iff in H as (K & G & a & k & Ha & B & I & Fs & Fd & Fo). apply picture_iff.
  split; [exact K|]. split; [exact G|]. exists a, k. rewrite N, S, O, D. repeat (split; [assumption|]). split; [|exact Fo].
  apply Forall_forall. intros [nk d] I2. 
  assert (X : forall (l : list (option string * det_kind)) m m', map cells_read m' = map cells_read m ->
     Forall (fun d => detector_drawable (snd d)) (combine l m) -> Forall (fun d => detector_drawable (snd d)) (combine l m')).
  { clear. induction l as [|u l IH]; intros m m' E F; [constructor|]. destruct m' as [|d' m']; [constructor|]. destruct m as [|d m]; [discriminate|].
    cbn [map] in E. injection E as E1 E2. cbn [combine] in *. inversion F; subst. constructor; [|eapply IH; eassumption].
    cbn [snd] in *. unfold detector_drawable in *. rewrite E1. assumption. }
  specialize (X _ _ _ C Fd). rewrite Forall_forall in X. exact (X _ I2).
Qed.
Lemma film_made n : forall x y z norm i0 st f g', ss_folder (st_session st) = Some f -> ss_files (st_session st) f = Some Dir ->
  (forall i, i0 <= i < i0 + n -> ss_files (st_session st) (frame f i) <> Some Dir) ->
  (exists pic, visualize x y z norm false st = Ok pic) -> run_steps n (st_grid st) = Ok g' ->
  exists st', film x y z norm i0 n st = Some (st', None) /\ st_grid st' = g' /\ st_objs st' = st_objs st /\ ss_dets (st_session st') = ss_dets (st_session st)
  /\ ss_folder (st_session st') = Some f /\ ss_sim (st_session st') = ss_sim (st_session st) /\ ss_cwd (st_session st') = ss_cwd (st_session st)
  /\ (forall i, i0 <= i < i0 + n -> ss_files (st_session st') (frame f i) = Some (File (Some Frame)))
  /\ forall p, (forall i, i0 <= i < i0 + n -> p <> frame f i) -> ss_files (st_session st') p = ss_files (st_session st) p.
Proof.
  induction n as [|n IH]; intros x y z norm i0 st f g' FO D ND V E.
  - cbn [run_steps] in E. inversion E; subst. exists st. cbn [film]. repeat (split; [reflexivity || assumption|]). split; [lia|reflexivity].
  - cbn [run_steps] in E. apply bind_inv in E as (g1 & E1 & E). cbn [film].
    assert (R1 : run_steps 1 (st_grid st) = Ok g1) by (cbn [run_steps]; rewrite E1; reflexivity).
    unfold perform_in. cbn [perform]. unfold st_grid in R1. rewrite R1, List.app_nil_r.
    set (st1 := mkStudio (with_grid g1 (ss_dets (st_session st)) (st_session st)) (st_objs st)).
    assert (V1 : exists pic, visualize x y z norm false st1 = Ok pic).
    { apply (picture_carries x y z norm st st1); [reflexivity|reflexivity|exact (proj2 (run_attrs _ _ _ R1))|exact (run_placed _ _ _ R1)|exact V]. }
    change (ss_folder (st_session st1)) with (ss_folder (st_session st)). rewrite FO.
    destruct (frame_saved x y z norm false f (Some i0) st1 V1 D) as (st2 & S2 & (G2 & O2 & D2 & F2 & M2 & C2) & A2 & B2).
    { apply (ND i0). lia. }
    rewrite S2. assert (V2 : exists pic, visualize x y z norm false st2 = Ok pic).
    { apply (picture_carries x y z norm st1 st2); [exact O2|exact D2|rewrite G2; reflexivity|rewrite G2; split; reflexivity|exact V1]. }
    assert (NF : f <> frame f i0) by (intros Q; apply (f_equal (@length string)) in Q; cbn in Q; lia).
    destruct (IH x y z norm (S i0) st2 f g') as (st' & Fl & Gr & Ob & De & Fo & Si & Cw & Yes & No).
    + rewrite F2. exact FO.
    + rewrite B2; [exact D|exact NF].
    + intros i Hi. rewrite B2; [apply ND; lia|]. intros Q. apply (frame_place_inj f i i0) in Q. lia.
    + exact V2.
    + rewrite G2. exact E.
    + exists st'. rewrite Fl. split; [reflexivity|]. split; [exact Gr|]. split; [rewrite Ob; exact O2|]. split; [rewrite De; exact D2|]. split; [exact Fo|].
      split; [rewrite Si; exact M2|]. split; [rewrite Cw; exact C2|]. split.
      * intros i Hi. destruct (Nat.eq_dec i i0) as [-> |Ne]; [|apply Yes; lia]. rewrite No; [exact A2|]. intros j Hj Q. apply frame_place_inj in Q. lia.
      * intros p Hp. rewrite No by (intros i Hi; apply Hp; lia). apply B2. apply (Hp i0). lia.
Qed.
(** A film made into a video: nothing else is left of the frames. *)
Lemma film_video x y z norm i0 n st f g' nm now :
  ss_folder (st_session st) = Some f -> ss_files (st_session st) f = Some Dir -> ss_sim (st_session st) = full_name nm now -> slashless_name nm ->
  (forall p, image_in f p -> ss_files (st_session st) p = None) ->
  (exists pic, visualize x y z norm false st = Ok pic) -> run_steps n (st_grid st) = Ok g' ->
  exists st' st'', film x y z norm i0 n st = Some (st', None) /\ perform_in (GenerateVideo true Writes) st' = Some (st'', None) /\ st_grid st'' = g'
  /\ (forall i, i0 <= i < i0 + n -> ss_files (st_session st') (frame f i) = Some (File (Some Frame)))
  /\ forall p, p <> ("fdtd_sim_video_" ++ full_name nm now ++ ".mp4") :: f -> ss_files (st_session st'') p = ss_files (st_session st) p.
Proof.
  intros FO D SN HN NI V E.
  destruct (film_made n x y z norm i0 st f g' FO D) as (st' & Fl & Gr & Ob & De & Fo & Si & Cw & Yes & No); [|exact V|exact E|].
  { intros i _ Q. rewrite NI in Q by apply frame_image. discriminate. }
  assert (D' : ss_files (st_session st') f = Some Dir).
  { rewrite No; [exact D|]. intros i _ Q. apply (f_equal (@length string)) in Q. cbn in Q. lia. }
  rewrite <- Si in SN.
  destruct (video_made (st_session st') f true nm now Fo D' HN SN) as (s' & Vs & C1 & C2 & C3 & C4 & _ & W).
  exists st'. eexists. split; [exact Fl|]. split; [unfold perform_in; cbn [perform]; rewrite Vs; reflexivity|].
  unfold st_grid in *. cbn [st_session]. split; [congruence|]. split; [exact Yes|].
  intros p Hp. destruct (W p Hp) as [W1 W2].
  assert (Dec : image_in f p \/ ~ image_in f p).
  { rewrite <- frame_spec. destruct (is_frame f p); [left; reflexivity|right; discriminate]. }
  destruct Dec as [Dec|Dec]; [rewrite W1, NI; auto|]. rewrite W2 by tauto. apply No. intros i _ ->. apply Dec. apply frame_image.
Qed.
