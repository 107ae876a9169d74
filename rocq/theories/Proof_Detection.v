(** Proofs for C78: the decibel map of a block detector. *)
From Coq Require Import Reals ZArith String Ascii List Bool Arith Lra Lia.
From Verif Require Import Base BaseLemmas Model_Units Model_FDTD Model_Visualize Model_Detection Spec_Detection Proof_FDTD Proof_Visualize2.
Import ListNotations.
Open Scope list_scope.
Open Scope R_scope.

Lemma fold_rmin l : forall a, (fold_left Rmin l a = a \/ In (fold_left Rmin l a) l) /\ fold_left Rmin l a <= a /\ forall y, In y l -> fold_left Rmin l a <= y.
Proof.
  induction l as [|x l IH]; intros a; cbn [fold_left]; [split; [auto|]; split; [lra|intros y []]|].
  destruct (IH (Rmin a x)) as (H1 & H2 & H3). pose proof (Rmin_l a x). pose proof (Rmin_r a x).
  split; [|split; [lra|]].
  - destruct H1 as [H1|H1]; [|right; right; exact H1]. rewrite H1. unfold Rmin. destruct (Rle_dec a x); [auto|right; left; reflexivity].
  - intros y [<- |I]; [lra|auto].
Qed.
Lemma least_spec l x : In x l -> In (least l) l /\ forall y, In y l -> least l <= y.
Proof.
  destruct l as [|a l]; [intros []|]. intros _. cbn [least]. destruct (fold_rmin l a) as (H1 & H2 & H3). split.
  - destruct H1 as [-> |H1]; [left; reflexivity|right; exact H1].
  - intros y [<- |I]; auto.
Qed.
Lemma Reqb_true x y : Reqb x y = true <-> x = y.
Proof. unfold Reqb. destruct (Req_EM_T x y); split; intros; congruence. Qed.
Lemma Reqb_false x y : Reqb x y = false <-> x <> y.
Proof. unfold Reqb. destruct (Req_EM_T x y); split; intros; congruence. Qed.

Lemma swing_is b c i j : (0 < b_T b)%nat -> swings_by b c i j (swing b c i j).
Proof.
  intros T. unfold swing, swings_by, reading. set (temp := map _ _).
  assert (I : forall v, In v temp <-> exists t, (t < b_T b)%nat /\ v = b_at b t i j 0%nat c).
  { intros v. unfold temp. rewrite in_map_iff. split; [intros (t & <- & H); apply in_seq in H; exists t; split; [lia|reflexivity]|].
    intros (t & H & ->). exists t. split; [reflexivity|]. apply in_seq. lia. }
  assert (X : In (b_at b 0%nat i j 0%nat c) temp) by (apply I; exists 0%nat; auto).
  destruct (greatest_spec _ _ X) as [G1 G2]. destruct (least_spec _ _ X) as [L1 L2]. split.
  - apply I in G1 as (t & Ht & ->). apply I in L1 as (u & Hu & ->). exists t, u. auto.
  - intros t u Ht Hu. assert (b_at b t i j 0%nat c <= greatest temp) by (apply G2, I; eauto). assert (least temp <= b_at b u i j 0%nat c) by (apply L2, I; eauto). lra.
Qed.
Lemma swings_fun b c i j d d' : swings_by b c i j d -> swings_by b c i j d' -> d = d'.
Proof.
  intros [(t & u & Ht & Hu & E) H] [(t' & u' & Ht' & Hu' & E') H']. specialize (H t' u' Ht' Hu'). specialize (H' t u Ht Hu). lra.
Qed.
Lemma swing_nonneg b c i j d : (0 < b_T b)%nat -> swings_by b c i j d -> 0 <= d.
Proof. intros T [_ H]. specialize (H 0%nat 0%nat T T). lra. Qed.

Lemma resolve_component z c : names_component z (component_of c) /\ (c < 3)%nat <-> resolve 3 z = Ok c.
Proof.
  unfold resolve. change (Z.of_nat 3) with 3%Z.
  destruct (Z.leb_spec 0 z), (Z.ltb_spec z 3), (Z.leb_spec (- (3)) z), (Z.ltb_spec z 0); cbn [andb]; try lia.
  all: destruct c as [|[|[|c]]]; cbn; split; try (intros [? ?]; f_equal; lia); try discriminate; try (intros E; injection E as E; lia); try (intros E; injection E as E; split; lia).
Qed.
Lemma component_some z : (exists c, resolve 3 z = Ok c) <-> (-3 <= z < 3)%Z.
Proof.
  unfold resolve. change (Z.of_nat 3) with 3%Z. destruct (Z.leb_spec 0 z), (Z.ltb_spec z 3), (Z.leb_spec (- (3)) z), (Z.ltb_spec z 0); cbn [andb]; split; try lia; try (intros (c & E); try discriminate; lia); eauto.
Qed.

(** ** What is shown *)
Lemma map_outcome arg z : (exists out, dB_map_2D arg z = Ok out) <-> exists b, arg = Block b /\ some_readings b /\ (-3 <= z < 3)%Z.
Proof.
  unfold some_readings. split.
  - intros (out & E). unfold dB_map_2D in E. destruct arg as [| |b]; try discriminate. exists b. split; [reflexivity|].
    apply bind_inv in E as ([] & T & E). unfold ensure in T. destruct (Nat.ltb_spec 0 (b_T b)); [|discriminate].
    destruct (Nat.eqb_spec (b_rows b) 0); [discriminate|]. destruct (Nat.eqb_spec (b_cols b) 0); [discriminate|]. cbn [orb] in E.
    apply bind_inv in E as ([] & Hh & E). unfold ensure in Hh. destruct (Nat.ltb_spec 0 (b_height b)); [|discriminate].
    apply bind_inv in E as (c & C & E). split; [lia|]. apply component_some. eauto.
  - intros (b & -> & (T & Ro & Co & He) & Z). apply component_some in Z as [c C]. unfold dB_map_2D, ensure.
    destruct (Nat.ltb_spec 0 (b_T b)); [|lia]. cbn [bind]. destruct (Nat.eqb_spec (b_rows b) 0); [lia|]. destruct (Nat.eqb_spec (b_cols b) 0); [lia|]. cbn [orb].
    destruct (Nat.ltb_spec 0 (b_height b)); [|lia]. cbn [bind]. rewrite C. cbn [bind]. eauto.
Qed.
Lemma map_value_error arg z : dB_map_2D arg z = Err ValueError <-> forall b, arg = Block b -> (0 < b_T b)%nat /\ (b_rows b = 0 \/ b_cols b = 0)%nat.
Proof.
  destruct arg as [| |b]; cbn [dB_map_2D].
  - split; [intros _ b H; discriminate|reflexivity].
  - split; [intros _ b H; discriminate|reflexivity].
  - unfold ensure. split.
    + intros E b' H. injection H as <-. destruct (Nat.ltb_spec 0 (b_T b)); [|discriminate]. cbn [bind] in E. split; [assumption|].
      destruct (Nat.eqb_spec (b_rows b) 0); [auto|]. destruct (Nat.eqb_spec (b_cols b) 0); [auto|]. cbn [orb] in E.
      destruct (0 <? b_height b)%nat; [|discriminate]. cbn [bind] in E. unfold resolve in E. destruct (_ && _); [discriminate|]. destruct (_ && _); discriminate.
    + intros H. destruct (H b eq_refl) as [T O]. destruct (Nat.ltb_spec 0 (b_T b)); [|lia]. cbn [bind].
      destruct O as [-> | ->]; [reflexivity|]. rewrite orb_true_r. reflexivity.
Qed.

Lemma nth_error_map_seq {A} (f : nat -> A) n i : (i < n)%nat -> nth_error (map f (seq 0 n)) i = Some (f i).
Proof.
  intros H. rewrite nth_error_map. rewrite (nth_error_nth' _ 0%nat) by (rewrite seq_length; exact H). rewrite seq_nth by exact H. reflexivity.
Qed.
Lemma in_swings b c r : In r (swings b c) <-> exists i, (i < b_rows b)%nat /\ r = map (swing b c i) (seq 0 (b_cols b)).
Proof.
  unfold swings. rewrite in_map_iff. split; [intros (i & <- & I); apply in_seq in I; exists i; split; [lia|reflexivity]|].
  intros (i & I & ->). exists i. split; [reflexivity|]. apply in_seq. lia.
Qed.
Lemma in_row b c i y : In y (map (swing b c i) (seq 0 (b_cols b))) <-> exists j, (j < b_cols b)%nat /\ y = swing b c i j.
Proof. rewrite in_map_iff. split; [intros (j & <- & I); apply in_seq in I; exists j; split; [lia|reflexivity]|]. intros (j & I & ->). exists j. split; [reflexivity|]. apply in_seq. lia. Qed.
Lemma extreme_of (pick : list R -> R) (le : R -> R -> Prop) b c : some_readings b ->
  (forall x y z, le x y -> le y z -> le x z) ->
  (forall l x, In x l -> In (pick l) l /\ forall y, In y l -> le (pick l) y) ->
  (exists i j, (i < b_rows b)%nat /\ (j < b_cols b)%nat /\ pick (map pick (swings b c)) = swing b c i j)
  /\ forall i j, (i < b_rows b)%nat -> (j < b_cols b)%nat -> le (pick (map pick (swings b c))) (swing b c i j).
Proof.
  intros (T & Ro & Co & _) Tr P.
  assert (X : In (pick (map (swing b c 0) (seq 0 (b_cols b)))) (map pick (swings b c))) by (apply in_map; apply in_swings; exists 0%nat; auto).
  destruct (P _ _ X) as [P1 P2]. split.
  - apply in_map_iff in P1 as (r & E & I). apply in_swings in I as (i & Hi & ->).
    assert (Y : In (swing b c i 0) (map (swing b c i) (seq 0 (b_cols b)))) by (apply in_row; exists 0%nat; auto).
    destruct (P _ _ Y) as [Q _]. rewrite E in Q. apply in_row in Q as (j & Hj & Q). exists i, j. auto.
  - intros i j Hi Hj. assert (Y : In (swing b c i j) (map (swing b c i) (seq 0 (b_cols b)))) by (apply in_row; eauto).
    destruct (P _ _ Y) as [_ Q]. eapply Tr; [apply P2|apply Q, Y]. apply in_map. apply in_swings. eauto.
Qed.
Lemma map_inv b z pk m : dB_map_2D (Block b) z = Ok (pk, m) ->
  some_readings b /\ exists c, names_component z c /\ pk = peaks (greatest (map greatest (swings b c))) (swings b c) /\ m = map (map (decibel (least (map least (swings b c))))) (swings b c).
Proof.
  intros E. assert (S : some_readings b). { assert (Q : exists out, dB_map_2D (Block b) z = Ok out) by eauto. apply map_outcome in Q as (b' & B & S & _). injection B as <-. exact S. }
  split; [exact S|]. cbn [dB_map_2D] in E. apply bind_inv in E as (_ & _ & E). destruct (_ || _); [discriminate|].
  apply bind_inv in E as (_ & _ & E). apply bind_inv in E as (c & C & E). apply resolve_component in C as [C _]. injection E as <- <-. eauto.
Qed.
Lemma component_fun z c c' : names_component z c -> names_component z c' -> c = c'.
Proof. destruct c, c'; cbn; intros H K; try reflexivity; lia. Qed.
Lemma low_spec b c : some_readings b -> exists i0 j0, (i0 < b_rows b)%nat /\ (j0 < b_cols b)%nat /\ least (map least (swings b c)) = swing b c i0 j0
  /\ forall i j, (i < b_rows b)%nat -> (j < b_cols b)%nat -> swing b c i0 j0 <= swing b c i j.
Proof.
  intros S. destruct (extreme_of least Rle b c S) as [(i & j & Hi & Hj & E) H]; [intros; lra|apply least_spec|].
  exists i, j. rewrite E in H. auto.
Qed.
(** The picture: decibels over the least swing. *)
Lemma map_shows b z pk m c i0 j0 low : dB_map_2D (Block b) z = Ok (pk, m) -> names_component z c ->
  (i0 < b_rows b)%nat -> (j0 < b_cols b)%nat -> swings_by b c i0 j0 low ->
  (forall i j d, (i < b_rows b)%nat -> (j < b_cols b)%nat -> swings_by b c i j d -> low <= d) ->
  length m = b_rows b /\ Forall (fun row => length row = b_cols b) m
  /\ forall i j d, (i < b_rows b)%nat -> (j < b_cols b)%nat -> swings_by b c i j d ->
     (0 < low -> pixel m i j (Level (10 * log10 (d / low))))
     /\ (low = 0 -> 0 < d -> pixel m i j Infinite) /\ (low = 0 -> d = 0 -> pixel m i j NotANumber).
Proof.
  intros E C Hi0 Hj0 L Lo. apply map_inv in E as (S & c' & C' & _ & ->). rewrite <- (component_fun _ _ _ C C'). clear C' c'.
  destruct S as (T & Ro & Co & He).
  destruct (low_spec b c (conj T (conj Ro (conj Co He)))) as (i1 & j1 & Hi1 & Hj1 & El & Hl).
  assert (low = least (map least (swings b c))) as <-.
  { rewrite El. apply Rle_antisym; [apply (Lo i1 j1); [assumption|assumption|apply swing_is, T]|].
    rewrite (swings_fun _ _ _ _ _ _ L (swing_is b c i0 j0 T)). apply Hl; assumption. }
  split; [rewrite map_length; unfold swings; rewrite map_length, seq_length; reflexivity|]. split.
  - apply Forall_forall. intros row I. apply in_map_iff in I as (r & <- & I). apply in_swings in I as (i & _ & ->). rewrite !map_length, seq_length. reflexivity.
  - intros i j d Hi Hj D. assert (P : pixel (map (map (decibel low)) (swings b c)) i j (decibel low d)).
    { exists (map (decibel low) (map (swing b c i) (seq 0 (b_cols b)))). split.
      - unfold swings. rewrite map_map. exact (nth_error_map_seq (fun i => map (decibel low) (map (swing b c i) (seq 0 (b_cols b)))) _ _ Hi).
      - rewrite map_map. rewrite (nth_error_map_seq (fun j => decibel low (swing b c i j)) _ _ Hj). rewrite (swings_fun _ _ _ _ _ _ D (swing_is b c i j T)). reflexivity. }
    set (M := map (map (decibel low)) (swings b c)) in *. clearbody M. unfold decibel in P. split; [|split].
    + intros L0. destruct (Reqb low 0) eqn:Q; [apply Reqb_true in Q; lra|exact P].
    + intros L0 D0. destruct (Reqb low 0) eqn:Q; [|apply Reqb_false in Q; lra]. destruct (Reqb d 0) eqn:Q2; [apply Reqb_true in Q2; lra|exact P].
    + intros L0 D0. destruct (Reqb low 0) eqn:Q; [|apply Reqb_false in Q; lra]. destruct (Reqb d 0) eqn:Q2; [exact P|apply Reqb_false in Q2; lra].
Qed.
Lemma log10_le x y : 0 < x -> 0 < y -> (log10 x <= log10 y <-> x <= y).
Proof.
  intros Hx Hy. unfold log10. assert (L : 0 < ln 10) by (rewrite <- ln_1; apply ln_increasing; lra). split; intros H.
  - apply Rnot_lt_le. intros K. apply ln_increasing in K; [|exact Hy]. apply (Rmult_le_compat_r (ln 10)) in H; [|lra]. unfold Rdiv in H. rewrite !Rmult_assoc, Rinv_l in H by lra. lra.
  - unfold Rdiv. apply Rmult_le_compat_r; [left; apply Rinv_0_lt_compat, L|]. destruct H as [H| ->]; [left; apply ln_increasing; assumption|right; reflexivity].
Qed.
(** Higher pixels are those of larger swings; the lowest show 0 dB. *)
Lemma map_order low d d' : 0 < low -> low <= d -> low <= d' ->
  0 <= 10 * log10 (d / low) /\ (10 * log10 (d / low) <= 10 * log10 (d' / low) <-> d <= d') /\ 10 * log10 (low / low) = 0.
Proof.
  intros L H K. assert (P : forall x, low <= x -> 0 < x / low) by (intros x Hx; apply Rdiv_lt_0_compat; lra).
  assert (Z : log10 1 = 0) by (unfold log10; rewrite ln_1; unfold Rdiv; ring).
  split; [|split].
  - assert (log10 1 <= log10 (d / low)); [|lra]. apply log10_le; [lra|auto|]. apply (Rmult_le_reg_r low); [exact L|]. unfold Rdiv. rewrite Rmult_assoc, Rinv_l by lra. lra.
  - assert (Q : log10 (d / low) <= log10 (d' / low) <-> d <= d').
    { rewrite log10_le by auto. split; intros Q; [apply (Rmult_le_compat_r low) in Q; [|lra]; unfold Rdiv in Q; rewrite !Rmult_assoc, Rinv_l in Q by lra; lra|].
      unfold Rdiv. apply Rmult_le_compat_r; [left; apply Rinv_0_lt_compat, L|exact Q]. }
    rewrite <- Q. split; lra.
  - replace (low / low) with 1 by (field; lra). lra.
Qed.

Lemma map_pixels b z pk m c i0 j0 low : dB_map_2D (Block b) z = Ok (pk, m) -> names_component z c ->
  (i0 < b_rows b)%nat -> (j0 < b_cols b)%nat -> swings_by b c i0 j0 low -> 0 < low ->
  (forall i j d, (i < b_rows b)%nat -> (j < b_cols b)%nat -> swings_by b c i j d -> low <= d) ->
  pixel m i0 j0 (Level 0)
  /\ forall i j d i' j' d', (i < b_rows b)%nat -> (j < b_cols b)%nat -> swings_by b c i j d -> (i' < b_rows b)%nat -> (j' < b_cols b)%nat -> swings_by b c i' j' d' ->
     exists x x', pixel m i j (Level x) /\ pixel m i' j' (Level x') /\ 0 <= x /\ (x <= x' <-> d <= d').
Proof.
  intros E C Hi0 Hj0 L P Lo. destruct (map_shows b z pk m c i0 j0 low E C Hi0 Hj0 L Lo) as (_ & _ & M). split.
  - destruct (M i0 j0 low Hi0 Hj0 L) as [M0 _]. specialize (M0 P). destruct (map_order low low low P (Rle_refl _) (Rle_refl _)) as (_ & _ & Z). rewrite Z in M0. exact M0.
  - intros i j d i' j' d' Hi Hj D Hi' Hj' D'. exists (10 * log10 (d / low)), (10 * log10 (d' / low)). destruct (M i j d Hi Hj D) as [M1 _]. destruct (M i' j' d' Hi' Hj' D') as [M2 _].
    destruct (map_order low d d' P (Lo _ _ _ Hi Hj D) (Lo _ _ _ Hi' Hj' D')) as (O1 & O2 & _). auto.
Qed.

(** The peaks that are printed. *)
Lemma in_combine_seq {A} (l : list A) k i x : In (i, x) (combine (seq k (length l)) l) <-> (k <= i)%nat /\ nth_error l (i - k) = Some x.
Proof.
  revert k. induction l as [|a l IH]; intros k; cbn [length seq combine].
  - split; [intros []|]. intros [_ H]. destruct (i - k)%nat; discriminate.
  - cbn [In]. rewrite IH. split.
    + intros [E|[H1 H2]]; [injection E as -> ->; rewrite Nat.sub_diag; auto|]. split; [lia|]. replace (i - k)%nat with (S (i - S k)) by lia. exact H2.
    + intros [H1 H2]. destruct (Nat.eq_dec i k) as [-> |Ne]; [left; rewrite Nat.sub_diag in H2; injection H2 as ->; reflexivity|].
      right. split; [lia|]. replace (i - k)%nat with (S (i - S k)) in H2 by lia. exact H2.
Qed.
Lemma map_peaks b z pk m c : dB_map_2D (Block b) z = Ok (pk, m) -> names_component z c ->
  forall i j, In (i, j) (List.concat pk) <-> (i < b_rows b)%nat /\ (j < b_cols b)%nat /\ exists d, swings_by b c i j d
    /\ forall i' j' d', (i' < b_rows b)%nat -> (j' < b_cols b)%nat -> swings_by b c i' j' d' -> d' <= d.
Proof.
  intros E C i j. apply map_inv in E as (S & c' & C' & -> & _). rewrite <- (component_fun _ _ _ C C'). clear C' c'.
  destruct (extreme_of greatest (fun x y => y <= x) b c S) as [(i1 & j1 & Hi1 & Hj1 & Eg) Hg]; [intros; lra|apply greatest_spec|].
  assert (T : (0 < b_T b)%nat) by apply S. set (peak := greatest (map greatest (swings b c))) in *.
  assert (NS : forall i r, nth_error (swings b c) i = Some r <-> (i < b_rows b)%nat /\ r = map (swing b c i) (seq 0 (b_cols b))).
  { intros k r. destruct (Nat.lt_ge_cases k (b_rows b)) as [L|L].
    - unfold swings. rewrite (nth_error_map_seq (fun i => map (swing b c i) (seq 0 (b_cols b))) _ _ L). split; [intros H; injection H as <-; auto|intros [_ ->]; reflexivity].
    - rewrite (proj2 (nth_error_None _ _)); [split; [discriminate|lia]|]. unfold swings. rewrite map_length, seq_length. exact L. }
  assert (NR : forall i j y, nth_error (map (swing b c i) (seq 0 (b_cols b))) j = Some y <-> (j < b_cols b)%nat /\ y = swing b c i j).
  { intros k l y. destruct (Nat.lt_ge_cases l (b_cols b)) as [L|L].
    - rewrite (nth_error_map_seq (swing b c k) _ _ L). split; [intros H; injection H as <-; auto|intros [_ ->]; reflexivity].
    - rewrite (proj2 (nth_error_None _ _)); [split; [discriminate|lia]|]. rewrite map_length, seq_length. exact L. }
  assert (P : In (i, j) (List.concat (peaks peak (swings b c))) <-> (i < b_rows b)%nat /\ (j < b_cols b)%nat /\ swing b c i j = peak).
  { rewrite in_concat. split.
    - intros (l & Il & I). unfold peaks in Il. apply in_flat_map in Il as ([i' r] & Ir & Il). apply in_combine_seq in Ir as [_ Ir]. rewrite Nat.sub_0_r in Ir. apply NS in Ir as [Hi ->].
      cbn [fst snd] in Il. destruct (existsb _ _); [|destruct Il]. destruct Il as [<- |[]]. apply in_map_iff in I as ([j' y] & Eq & I). injection Eq as <- <-.
      apply filter_In in I as [I Q]. cbn [snd] in Q. apply Reqb_true in Q. apply in_combine_seq in I as [_ I]. rewrite Nat.sub_0_r in I. apply NR in I as [Hj Ey].
      cbn [fst]. repeat split; [exact Hi|exact Hj|congruence].
    - intros (Hi & Hj & Es). set (r := map (swing b c i) (seq 0 (b_cols b))).
      exists (map (fun jy => (i, fst jy)) (filter (fun jy => Reqb (snd jy) peak) (combine (seq 0 (length r)) r))). split.
      + unfold peaks. apply in_flat_map. exists (i, r). split; [apply in_combine_seq; rewrite Nat.sub_0_r; split; [lia|]; apply NS; auto|]. cbn [fst snd].
        rewrite (proj2 (existsb_exists _ _)); [left; reflexivity|]. exists peak. split; [|apply Reqb_true; reflexivity]. rewrite <- Es. apply in_row. eauto.
      + apply in_map_iff. exists (j, swing b c i j). split; [reflexivity|]. apply filter_In. split; [|apply Reqb_true; exact Es].
        apply in_combine_seq. rewrite Nat.sub_0_r. split; [lia|]. apply NR. auto. }
  rewrite P. split; intros (Hi & Hj & H); (split; [exact Hi|]); (split; [exact Hj|]).
  - exists (swing b c i j). split; [apply swing_is, T|]. intros i' j' d' Hi' Hj' D. rewrite (swings_fun _ _ _ _ _ _ D (swing_is b c i' j' T)), H. apply Hg; assumption.
  - destruct H as (d & D & H). pose proof (swings_fun _ _ _ _ _ _ D (swing_is b c i j T)) as ->.
    apply Rle_antisym; [apply Hg; assumption|]. rewrite Eg. apply (H i1 j1); [assumption|assumption|apply swing_is, T].
Qed.

(** ** What does not matter *)
Lemma map_by_swings b b' z k : same_size b b' -> k <> 0 ->
  (forall c i j, names_component z c -> (i < b_rows b)%nat -> (j < b_cols b)%nat -> (0 < b_T b)%nat -> swing b' c i j = Rabs k * swing b c i j) ->
  dB_map_2D (Block b') z = dB_map_2D (Block b) z.
Proof.
  intros (ET & ER & EC & EH0) K Sw.
  assert (EH : ((0 <? b_height b') = (0 <? b_height b))%nat) by (destruct (Nat.ltb_spec 0 (b_height b')), (Nat.ltb_spec 0 (b_height b)); try reflexivity; lia).
  cbn [dB_map_2D]. rewrite ET, ER, EC, EH. unfold ensure. destruct (Nat.ltb_spec 0 (b_T b)) as [T|]; [|reflexivity]. cbn [bind].
  destruct (Nat.eqb_spec (b_rows b) 0) as [|Ro]; [reflexivity|]. destruct (Nat.eqb_spec (b_cols b) 0) as [|Co]; [reflexivity|]. cbn [orb].
  destruct (Nat.ltb_spec 0 (b_height b)) as [He|]; [|reflexivity]. cbn [bind]. destruct (resolve 3 z) as [c0|] eqn:C0; [|reflexivity]. cbn [bind].
  apply resolve_component in C0 as [C _]. set (c := component_of c0) in *. clearbody c. clear c0.
  assert (S : some_readings b) by (repeat split; lia).
  assert (Ka : 0 < Rabs k) by (apply Rabs_pos_lt, K).
  assert (Es : swings b' c = map (map (Rmult (Rabs k))) (swings b c)).
  { unfold swings. rewrite ER, EC, map_map. apply map_ext_in. intros i Hi. rewrite map_map. apply map_ext_in. intros j Hj. apply in_seq in Hi. apply in_seq in Hj. apply Sw; auto; lia. }
  rewrite Es. set (a := swings b c).
  assert (Gm : forall l, greatest (map (Rmult (Rabs k)) l) = Rabs k * greatest l).
  { intros [|x l]; cbn [map greatest]; [ring|]. revert x. induction l as [|y l IH]; intros x; cbn [map fold_left]; [reflexivity|].
    rewrite <- IH. f_equal. rewrite RmaxRmult by lra. reflexivity. }
  assert (Lm : forall l, least (map (Rmult (Rabs k)) l) = Rabs k * least l).
  { intros [|x l]; cbn [map least]; [ring|]. revert x. induction l as [|y l IH]; intros x; cbn [map fold_left]; [reflexivity|].
    rewrite <- IH. f_equal. unfold Rmin. destruct (Rle_dec (Rabs k * x) (Rabs k * y)), (Rle_dec x y); try reflexivity; exfalso; nra. }
  assert (Gg : greatest (map greatest (map (map (Rmult (Rabs k))) a)) = Rabs k * greatest (map greatest a)).
  { rewrite <- Gm, !map_map. f_equal. apply map_ext. exact Gm. }
  assert (Ll : least (map least (map (map (Rmult (Rabs k))) a)) = Rabs k * least (map least a)).
  { rewrite <- Lm, !map_map. f_equal. apply map_ext. exact Lm. }
  rewrite Gg, Ll. set (pk := greatest (map greatest a)). set (lo := least (map least a)).
  assert (Q : forall y u, Reqb (Rabs k * y) (Rabs k * u) = Reqb y u).
  { intros y u. destruct (Reqb y u) eqn:Q; [apply Reqb_true in Q; subst; apply Reqb_true; reflexivity|]. apply Reqb_false in Q. apply Reqb_false. intros X. apply Q. apply Rmult_eq_reg_l in X; [exact X|lra]. }
  assert (Q0 : forall y, Reqb (Rabs k * y) 0 = Reqb y 0) by (intros y; rewrite <- (Rmult_0_r (Rabs k)) at 1; apply Q).
  clearbody pk lo. clearbody a. clear Gg Ll Es. f_equal. f_equal.
  - unfold peaks. rewrite map_length. generalize (seq 0 (length a)). intros idx. revert idx. induction a as [|r a IH]; intros [|n idx]; try reflexivity. cbn [combine map flat_map fst snd].
    f_equal; [|apply IH]. rewrite map_length.
    assert (X : existsb (fun y => Reqb y (Rabs k * pk)) (map (Rmult (Rabs k)) r) = existsb (fun y => Reqb y pk) r) by (clear - Q; induction r; cbn; [reflexivity|rewrite IHr, Q; reflexivity]).
    rewrite X. destruct (existsb _ r); [|reflexivity]. f_equal. generalize (seq 0 (length r)). clear X. induction r as [|y r IHr]; intros [|n' idx']; try reflexivity. cbn [combine map filter fst snd]. rewrite Q. destruct (Reqb y pk); cbn [map fst]; rewrite IHr; reflexivity.
  - rewrite map_map. apply map_ext. intros r. rewrite map_map. apply map_ext. intros y. unfold decibel. rewrite !Q0. destruct (Reqb lo 0) eqn:Z0; [reflexivity|]. apply Reqb_false in Z0.
    do 3 f_equal. field. split; [exact Z0|lra].
Qed.

(** A block whose readings in the lowest layer are those of another, scaled and with
    an offset per place. *)
Lemma map_scaled b b' z k off : same_size b b' -> k <> 0 ->
  (forall c t i j, names_component z c -> (t < b_T b)%nat -> (i < b_rows b)%nat -> (j < b_cols b)%nat -> reading b' c i j t = k * reading b c i j t + off i j) ->
  dB_map_2D (Block b') z = dB_map_2D (Block b) z.
Proof.
  intros Sb K H. apply (map_by_swings b b' z k Sb K). intros c i j C Hi Hj T. destruct Sb as (ET & _). 
  apply (swings_fun b' c i j); [apply swing_is; rewrite ET; exact T|]. destruct (swing_is b c i j T) as [(t & u & Ht & Hu & E) M]. unfold swings_by. rewrite ET. split.
  - destruct (Rle_dec 0 k) as [P|P].
    + exists t, u. rewrite !H by assumption. rewrite Rabs_pos_eq by exact P. rewrite E. repeat split; [assumption|assumption|]. unfold reading. ring.
    + exists u, t. rewrite !H by assumption. rewrite Rabs_left by lra. rewrite E. repeat split; [assumption|assumption|]. unfold reading. ring.
  - intros t' u' Ht' Hu'. rewrite !H by assumption. pose proof (M t' u' Ht' Hu') as M1. pose proof (M u' t' Hu' Ht') as M2. 
    set (d := swing b c i j) in *. set (x := reading b c i j t') in *. set (y := reading b c i j u') in *. clearbody x y d.
    destruct (Rle_dec 0 k) as [P|P].
    + rewrite Rabs_pos_eq by exact P. nra.
    + rewrite Rabs_left by lra. nra.
Qed.
