From Coq Require Import Reals ZArith String List Bool Lra Lia Psatz Sorted.
From Verif Require Import Base BaseLemmas PyVal Model_Materials Model_EpsGrid Proof_EpsGrid Model_Coeffs Spec_Coeffs.
Import ListNotations.
Open Scope R_scope.

(** * C24 *)
Lemma flt_Fin a b : flt (Fin a) (Fin b) = true <-> a < b.
Proof. simpl. apply Rltb_true. Qed.
Lemma flt_Fin_f a b : flt (Fin a) (Fin b) = false <-> b <= a.
Proof. simpl. apply Rltb_false. Qed.
Lemma tdiv_Fin a b : b <> 0 -> tdiv (Fin a) (Fin b) = Fin (a / b).
Proof. intros. simpl. destruct (Req_EM_T b 0); [contradiction|auto]. Qed.

Lemma normalize_cases t r :
  (t + r <= 1 \/ 105/100 <= t + r -> check_and_normalize (Fin t) (Fin r) = (Fin t, Fin r)) /\
  (1 < t + r < 105/100 -> check_and_normalize (Fin t) (Fin r) = (Fin (t / (t + r)), Fin (r / (t + r)))).
Proof.
  unfold check_and_normalize. cbn [fadd]. split; intros H.
  - destruct (flt (Fin 1) (Fin (t + r))) eqn:E1; cbn [andb]; auto. apply flt_Fin in E1.
    assert (E2 : flt (Fin (t + r)) (Fin (101/100)) = false) by (apply flt_Fin_f; lra).
    assert (E3 : flt (Fin (t + r)) (Fin (105/100)) = false) by (apply flt_Fin_f; lra).
    rewrite E2, E3. auto.
  - assert (E1 : flt (Fin 1) (Fin (t + r)) = true) by (apply flt_Fin; lra).
    assert (E3 : flt (Fin (t + r)) (Fin (105/100)) = true) by (apply flt_Fin; lra).
    rewrite E1, E3. cbn [andb]. rewrite !tdiv_Fin by lra. destruct (flt (Fin (t + r)) (Fin (101 / 100))); auto.
Qed.
Lemma normalize_spec t r :
  exists t' r', check_and_normalize (Fin t) (Fin r) = (Fin t', Fin r') /\
    (t + r <= 1 \/ 105/100 <= t + r -> t' = t /\ r' = r) /\
    (1 < t + r < 105/100 -> t' + r' = 1 /\ t' * r = t * r' /\ (0 <= t -> 0 <= r -> 0 <= t' <= t /\ 0 <= r' <= r)) /\
    (0 <= t -> 0 <= r -> t + r < 105/100 -> 0 <= t' /\ 0 <= r' /\ t' + r' <= 1).
Proof.
  destruct (normalize_cases t r) as [A B].
  destruct (Rle_dec (t + r) 1) as [H|H]; [|destruct (Rle_dec (105/100) (t + r)) as [H'|H']].
  - exists t, r. rewrite A by auto. repeat split; auto; lra.
  - exists t, r. rewrite A by auto. repeat split; auto; lra.
  - exists (t / (t + r)), (r / (t + r)). rewrite B by lra. split; auto.
    assert (Hp : 0 < t + r) by lra.
    assert (S1 : t / (t + r) + r / (t + r) = 1) by (field; lra).
    assert (P : forall x, 0 <= x -> 0 <= x / (t + r) <= x).
    { intros x Hx. assert (0 <= x / (t + r)) by (apply Rmult_le_pos; auto; left; apply Rinv_0_lt_compat; auto).
      split; auto. assert (x / (t + r) * (t + r) = x) by (field; lra). nra. }
    split; [intros; lra|]. split.
    + intros _. split; auto. split; [field; lra|]. auto.
    + intros Ht Hr _. destruct (P t Ht), (P r Hr). lra.
Qed.
Lemma normalize_nan t r : (t = NaN \/ r = NaN) -> check_and_normalize t r = (t, r).
Proof. intros [-> | ->]; [destruct r|destruct t]; reflexivity. Qed.
(** above 5 percent an unphysical pair is returned as it is *)
Lemma normalize_unphysical_refuted : exists t r, 0 <= t /\ 0 <= r /\ 1 < t + r /\ check_and_normalize (Fin t) (Fin r) = (Fin t, Fin r).
Proof.
  exists (55/100), (50/100). split; [lra|]. split; [lra|]. split; [lra|].
  apply (proj1 (normalize_cases (55/100) (50/100))). lra.
Qed.

(** * C25 *)
Lemma first_over_spec l i : match first_over l i with
  | Some k => exists p x r, l = p ++ x :: r /\ k = (i + length p)%nat /\ / 10 ^ 8 < Rabs x /\ forall y, In y p -> Rabs y <= / 10 ^ 8
  | None => forall x, In x l -> Rabs x <= / 10 ^ 8 end.
Proof.
  revert i. induction l as [|x l IH]; intros i; cbn [first_over].
  - intros x [].
  - destruct (Rlt_dec (/ 10 ^ 8) (Rabs x)).
    + exists [], x, l. repeat split; auto; try (simpl; lia); intros y [].
    + specialize (IH (S i)). destruct (first_over l (S i)).
      * destruct IH as (p & y & r & -> & -> & H & H'). exists (x :: p), y, r. repeat split; auto; [simpl; lia|].
        intros z [<-|Hz]; auto. lra.
      * intros z [<-|Hz]; auto. lra.
Qed.
Lemma strip_spec s : stripped s (skipn (first_non_zero_index s) s).
Proof.
  unfold first_non_zero_index. pose proof (first_over_spec s 0). destruct (first_over s 0).
  - destruct H as (p & x & r & -> & -> & H1 & H2). right. exists p, x, r. split; auto.
    rewrite skipn_app. simpl. rewrite skipn_all, Nat.sub_diag. simpl. auto.
  - left. simpl. auto.
Qed.
Lemma stripped_det s a b : stripped s a -> stripped s b -> a = b.
Proof.
  assert (N : forall p x r, (/ 10 ^ 8 < Rabs x) -> (forall y, In y (p ++ x :: r) -> Rabs y <= / 10 ^ 8) -> False).
  { intros p x r H H'. specialize (H' x ltac:(apply in_or_app; simpl; auto)). lra. }
  intros [[-> Ha]|(p & x & r & E & -> & H1 & H2)] [[-> Hb]|(p' & x' & r' & E' & -> & H1' & H2')]; auto.
  - exfalso. eapply N; eauto. rewrite <- E'. auto.
  - exfalso. eapply N; eauto. rewrite <- E. auto.
  - revert p' E' H2'. rewrite E. clear E. induction p as [|y p IH]; intros [|y' p'] E' H2'; simpl in E'; inversion E'; subst; auto.
    + specialize (H2' y' ltac:(simpl; auto)). lra.
    + specialize (H2 x' ltac:(simpl; auto)). lra.
    + apply (IH ltac:(intros; apply H2; simpl; auto) p'); auto. intros; apply H2'; simpl; auto.
Qed.
Lemma stripped_suffix s s' : stripped s s' -> suffix s' s.
Proof. intros [[-> _]|(p & x & r & -> & -> & _)]; [exists []; auto|exists p; auto]. Qed.
Lemma skipn_suffix {A} n (l : list A) : suffix (skipn n l) l.
Proof. exists (firstn n l). symmetry. apply firstn_skipn. Qed.
Lemma suffix_trans {A} (a b c : list A) : suffix a b -> suffix b c -> suffix a c.
Proof. intros [p ->] [q ->]. exists (q ++ p). apply app_assoc. Qed.

Lemma skipn_skipn' {A} a b (l : list A) : skipn a (skipn b l) = skipn (b + a) l.
Proof. revert l; induction b; intros l; simpl; auto. destruct l; simpl; auto. apply skipn_nil. Qed.

(** splitting *)
Lemma split_fuel_count w : (0 < w)%nat -> forall fuel l, (length l <= fuel)%nat -> l <> [] ->
  let n := length (split_fuel fuel w l) in ((n - 1) * w < length l <= n * w)%nat /\ (0 < n)%nat.
Proof.
  intros Hw. induction fuel; intros l Hl Hne; [destruct l; simpl in Hl; [congruence|lia]|].
  destruct l as [|x l]; [congruence|]. cbn [split_fuel]. set (r := skipn w (x :: l)).
  assert (Lr : length r = (S (length l) - w)%nat) by (unfold r; rewrite skipn_length; auto).
  destruct r as [|y r'] eqn:Er.
  - assert (E : split_fuel fuel w [] = []) by (destruct fuel; auto). rewrite E. clear IHfuel. cbn [length] in *. simpl Nat.sub at 1. lia.
  - assert (y :: r' <> []) by discriminate. rewrite <- Er in *. simpl in Hl.
    specialize (IHfuel r ltac:(lia) H). cbv zeta in *. cbn [length].
    set (n := length (split_fuel fuel w r)) in *. destruct IHfuel as [I1 I2].
    replace (S n - 1)%nat with n by lia. assert (Hn : exists n', n = S n') by (exists (n - 1)%nat; lia).
    destruct Hn as (n' & ->). simpl in I1 |- *. rewrite Nat.sub_0_r in I1.
    assert (Hr : (0 < length r)%nat) by (rewrite Er; simpl; lia). lia.
Qed.
Lemma split_fuel_nth w : (0 < w)%nat -> forall fuel l k, (length l <= fuel)%nat ->
  (k < length (split_fuel fuel w l))%nat -> nth k (split_fuel fuel w l) [] = firstn w (skipn (k * w) l).
Proof.
  intros Hw. induction fuel; intros l k Hl Hk; [simpl in Hk; lia|].
  destruct l as [|x l]; [simpl in Hk; lia|]. cbn [split_fuel] in *.
  destruct k; [reflexivity|]. cbn [length nth] in *. rewrite IHfuel; try lia.
  - rewrite skipn_skipn'. f_equal. 
  - rewrite skipn_length. cbn [length]. lia.
Qed.

Lemma tsplit_spec w l : (0 < w)%nat -> l <> [] ->
  exists n, length (tsplit w l) = S n /\ (n * w < length l <= S n * w)%nat /\
    forall k, (k <= n)%nat -> nth k (tsplit w l) [] = firstn w (skipn (k * w) l).
Proof.
  intros Hw Hne. unfold tsplit. destruct (split_fuel_count w Hw (length l) l ltac:(lia) Hne) as [H1 H2].
  exists (length (split_fuel (length l) w l) - 1)%nat. split; [lia|]. split.
  - replace (S (length (split_fuel (length l) w l) - 1)) with (length (split_fuel (length l) w l)) by lia. auto.
  - intros k Hk. apply split_fuel_nth; auto; lia.
Qed.

Lemma split_two {A} (l : list A) n : length l = S (S n) -> exists r a b, l = r ++ [a; b] /\ length r = n.
Proof.
  intros H. destruct (rev l) as [|b [|a r]] eqn:E.
  - apply (f_equal (@length A)) in E. rewrite rev_length in E. simpl in E. lia.
  - apply (f_equal (@length A)) in E. rewrite rev_length in E. simpl in E. lia.
  - exists (rev r), a, b. split.
    + rewrite <- (rev_involutive l), E. simpl. rewrite <- app_assoc. auto.
    + apply (f_equal (@length A)) in E. rewrite !rev_length in *. simpl in E. lia.
Qed.

Lemma skipn_nonempty {A} k (l : list A) : (k < length l)%nat -> skipn k l <> [].
Proof. intros H E. apply (f_equal (@length A)) in E. rewrite skipn_length in E. simpl in E. lia. Qed.

(** the merged chunks are the windows, up to order in the last one *)
Lemma merged_spec w s m : (0 < w)%nat -> (0 < m)%nat -> (m * w < length s <= S m * w)%nat ->
  exists cs, merge_last (tsplit w s) = Ok cs /\ length cs = m /\
    forall k, (k < m)%nat -> window w m s k <> [] /\ forall x, In x (nth k cs []) <-> In x (window w m s k).
Proof.
  intros Hw Hm Hlen. assert (Hne : s <> []) by (intros ->; simpl in Hlen; lia).
  destruct (tsplit_spec w s Hw Hne) as (n & Ln & Hn & Hnth).
  assert (n = m) by nia. subst n. destruct m as [|m']; [lia|].
  destruct (split_two (tsplit w s) m' Ln) as (r & a & b & E & Lr).
  unfold merge_last. rewrite E, rev_app_distr. simpl. rewrite rev_involutive. eexists. split; [reflexivity|].
  split; [rewrite app_length; simpl; lia|]. intros k Hk.
  assert (HW : window w (S m') s k <> []).
  { unfold window. destruct (Nat.ltb_spec (k + 1) (S m')).
    - intros E'. apply (f_equal (@length R)) in E'. rewrite firstn_length, skipn_length in E'. simpl in E'. nia.
    - apply skipn_nonempty. nia. }
  split; auto. intros x. unfold window in *. destruct (Nat.ltb_spec (k + 1) (S m')).
  - rewrite app_nth1 by lia. specialize (Hnth k ltac:(lia)). rewrite E, app_nth1 in Hnth by lia. rewrite Hnth. tauto.
  - assert (k = m') by lia. subst k. rewrite app_nth2 by lia. rewrite Lr, Nat.sub_diag. cbn [nth].
    pose proof (Hnth m' ltac:(lia)) as Ha. rewrite E, app_nth2, Lr, Nat.sub_diag in Ha by lia. cbn [nth] in Ha.
    pose proof (Hnth (S m') ltac:(lia)) as Hb. rewrite E, app_nth2, Lr in Hb by lia.
    replace (S m' - m')%nat with 1%nat in Hb by lia. cbn [nth] in Hb. subst a b.
    assert (E2 : skipn (m' * w) s = firstn w (skipn (m' * w) s) ++ firstn w (skipn (S m' * w) s)).
    { rewrite <- (firstn_skipn w (skipn (m' * w) s)) at 1. f_equal. rewrite skipn_skipn'.
      replace (m' * w + w)%nat with (S m' * w)%nat by (simpl; lia). symmetry. apply firstn_all2. rewrite skipn_length. simpl in *. lia. }
    rewrite in_app_iff. split; intros HH.
    + rewrite E2. apply in_or_app. tauto.
    + rewrite E2 in HH. apply in_app_or in HH. tauto.
Qed.

Lemma Rminimum_spec l : l <> [] -> In (Rminimum l) l /\ forall x, In x l -> Rminimum l <= x.
Proof.
  destruct l as [|a l]; [congruence|]. intros _. unfold Rminimum.
  revert a. induction l as [|b l IH]; intros a; simpl.
  - split; auto. intros x [->|[]]; lra.
  - destruct (IH (Rmin a b)) as [H1 H2]. split.
    + destruct H1 as [H1|H1]; auto. rewrite <- H1. unfold Rmin. destruct (Rle_dec a b); auto.
    + intros x [->|[->|Hx]].
      * eapply Rle_trans; [apply (H2 (Rmin x b)); simpl; auto|apply Rmin_l].
      * eapply Rle_trans; [apply (H2 (Rmin a x)); simpl; auto|apply Rmin_r].
      * apply H2; simpl; auto.
Qed.
Lemma range_is_range l l' : l' <> [] -> (forall x, In x l <-> In x l') -> is_range l' (Rmaximum l - Rminimum l).
Proof.
  intros Hne H. assert (l <> []). { destruct l' as [|x l']; [congruence|]. intros ->. apply (proj2 (H x)); simpl; auto. }
  destruct (Rmaximum_spec l H0) as [A B]. destruct (Rminimum_spec l H0) as [C D].
  exists (Rmaximum l), (Rminimum l). split; [apply H; auto|]. split; [apply H; auto|]. split; auto.
  intros x Hx. split; [apply D|apply B]; apply H; auto.
Qed.
Lemma is_range_det l a b : is_range l a -> is_range l b -> a = b.
Proof.
  intros (x & y & H1 & H2 & H3 & ->) (x' & y' & H1' & H2' & H3' & ->).
  pose proof (H3 x' H1'). pose proof (H3 y' H2'). pose proof (H3' x H1). pose proof (H3' y H2). lra.
Qed.

Lemma changes_nth rs i : (S i < length rs)%nat -> nth i (changes rs) 0 = Rabs (nth i rs 0 - nth (S i) rs 0).
Proof.
  revert i. induction rs as [|a rs IH]; intros i Hi; [simpl in Hi; lia|].
  destruct rs as [|b rs]; [simpl in Hi; lia|]. unfold changes in *. cbn [removelast tl combine map].
  destruct i; [reflexivity|]. specialize (IH i ltac:(simpl in *; lia)). cbn [nth] in *. rewrite <- IH. reflexivity.
Qed.
Lemma changes_length rs : length (changes rs) = (length rs - 1)%nat.
Proof.
  unfold changes. rewrite map_length, combine_length. destruct rs as [|a rs]; auto.
  cbn [tl length]. assert (forall (x : R) l, length (removelast (x :: l)) = length l).
  { intros x l; revert x; induction l; intros x; auto. cbn [removelast length] in *. rewrite IHl. auto. }
  rewrite H. lia.
Qed.

Lemma scan_back_spec below i : match scan_back below i with
  | Some k => (k <= i)%nat /\ below k = false /\ forall j, (k < j <= i)%nat -> below j = true
  | None => forall j, (j <= i)%nat -> below j = true end.
Proof.
  induction i; simpl.
  - destruct (below 0%nat) eqn:E; [intros j Hj; replace j with 0%nat by lia; auto|]. repeat split; auto. intros; lia.
  - destruct (below (S i)) eqn:E.
    + destruct (scan_back below i).
      * destruct IHi as (A & B & C). repeat split; auto. intros j Hj. destruct (Nat.eq_dec j (S i)) as [->|]; auto. apply C; lia.
      * intros j Hj. destruct (Nat.eq_dec j (S i)) as [->|]; auto. apply IHi; lia.
    + repeat split; auto. intros; lia.
Qed.

Definition thresh (b : bool) : R := if b then 5/10 else 1/10.

Lemma eliminate_short w fs s s' : stripped s s' -> (length s' < 2 * w)%nat -> eliminate_transient w fs s = Ok s'.
Proof.
  intros H Hl. unfold eliminate_transient. rewrite (stripped_det _ _ _ H (strip_spec s)) in *.
  destruct (Nat.ltb_spec (length (skipn (first_non_zero_index s) s)) (2 * w)); auto. lia.
Qed.

Lemma eliminate_cut w (fs : bool) s s' m : (0 < w)%nat -> stripped s s' -> (2 <= m)%nat -> (m * w < length s' <= S m * w)%nat ->
  exists (ch : nat -> R) (mx : R) (i : nat),
    (forall k, (k < m - 1)%nat -> exists ra rb, is_range (window w m s' k) ra /\ is_range (window w m s' (S k)) rb /\ ch k = Rabs (ra - rb)) /\
    ((exists k, (k < m - 1)%nat /\ mx = ch k) /\ forall k, (k < m - 1)%nat -> ch k <= mx) /\
    (i < m - 1)%nat /\
    ((mx = 0 /\ S (S i) = m) \/
     (0 < mx /\ (if fs then 5/10 else 1/10) * mx <= ch i /\ forall j, (i < j < m - 1)%nat -> ch j < (if fs then 5/10 else 1/10) * mx)) /\
    eliminate_transient w fs s = Ok (skipn (S i * w) s').
Proof.
  intros Hw Hs Hm Hlen. pose proof (stripped_det _ _ _ Hs (strip_spec s)) as Es.
  unfold eliminate_transient. rewrite <- Es.
  destruct (Nat.ltb_spec (length s') (2 * w)); [nia|]. destruct (Nat.eqb_spec w 0); [lia|].
  destruct (merged_spec w s' m Hw ltac:(lia) Hlen) as (cs & -> & Lc & Hc). cbn [bind].
  set (ch := changes (ranges cs)).
  assert (Lr : length (ranges cs) = m) by (unfold ranges; rewrite map_length; auto).
  assert (Lch : length ch = (m - 1)%nat) by (unfold ch; rewrite changes_length, Lr; auto).
  assert (Hne : ch <> []) by (intros E; rewrite E in Lch; simpl in Lch; lia).
  assert (CH : forall k, (k < m - 1)%nat -> exists ra rb, is_range (window w m s' k) ra /\ is_range (window w m s' (S k)) rb /\ nth k ch 0 = Rabs (ra - rb)).
  { intros k Hk. exists (nth k (ranges cs) 0), (nth (S k) (ranges cs) 0).
    assert (RR : forall q, (q < m)%nat -> is_range (window w m s' q) (nth q (ranges cs) 0)).
    { intros q Hq. destruct (Hc q Hq) as [A B]. unfold ranges.
      rewrite (nth_indep _ 0 ((fun c => Rmaximum c - Rminimum c) [])) by (rewrite map_length; lia).
      rewrite (map_nth (fun c => Rmaximum c - Rminimum c)). apply range_is_range; auto. }
    split; [apply RR; lia|]. split; [apply RR; lia|]. apply changes_nth. lia. }
  destruct (Rmaximum_spec ch Hne) as [M1 M2]. set (mx := Rmaximum ch) in *.
  assert (MX : (exists k, (k < m - 1)%nat /\ mx = nth k ch 0) /\ forall k, (k < m - 1)%nat -> nth k ch 0 <= mx).
  { split. - apply (In_nth _ _ 0) in M1. destruct M1 as (k & Hk & E). exists k. split; auto; lia.
    - intros k Hk. apply M2. apply nth_In. lia. }
  set (thr := if fs then 5/10 else 1/10). assert (Hthr : 0 < thr <= 5/10) by (unfold thr; destruct fs; lra).
  set (below := fun i => flt (tdiv (Fin (nth i ch 0)) (Fin mx)) (Fin thr)).
  assert (Hmx : 0 <= mx).
  { destruct MX as [(k & Hk & ->) _]. destruct (CH k Hk) as (ra & rb & _ & _ & ->). apply Rabs_pos. }
  exists (fun k => nth k ch 0), mx.
  pose proof (scan_back_spec below (length ch - 1)) as SB.
  destruct (Req_EM_T mx 0) as [E0|E0].
  - assert (Bf : forall k, (k < m - 1)%nat -> below k = false).
    { intros k Hk. unfold below. destruct MX as [_ MX]. specialize (MX k Hk).
      destruct (CH k Hk) as (ra & rb & _ & _ & E). assert (nth k ch 0 = 0) by (pose proof (Rabs_pos (ra - rb)); lra).
      rewrite H0, E0. simpl. destruct (Req_EM_T 0 0); auto. lra. }
    exists (m - 2)%nat. split; auto. split; auto. split; [lia|]. split; [left; split; auto; lia|].
    destruct ch as [|c0 ch'] eqn:Ec; [congruence|]. rewrite <- Ec in *.
    destruct (scan_back below (length ch - 1)) as [i|].
    + destruct SB as (A & B & C). assert (i = m - 2)%nat.
      { destruct (Nat.eq_dec i (m - 2)); auto. specialize (C (m - 2)%nat ltac:(lia)). rewrite Bf in C by lia. discriminate. }
      subst i. f_equal. f_equal. rewrite Nat.add_1_r. reflexivity.
    + specialize (SB 0%nat ltac:(lia)). rewrite Bf in SB by lia. discriminate.
  - assert (Hmp : 0 < mx) by lra.
    assert (Bt : forall k, below k = true <-> nth k ch 0 < thr * mx).
    { intros k. unfold below. rewrite tdiv_Fin by auto. rewrite flt_Fin. split; intros H0.
      - apply (Rmult_lt_compat_r mx) in H0; auto. unfold Rdiv in H0. rewrite Rmult_assoc, Rinv_l in H0 by auto. lra.
      - apply (Rmult_lt_reg_r mx); auto. unfold Rdiv. rewrite Rmult_assoc, Rinv_l by auto. lra. }
    destruct ch as [|c0 ch'] eqn:Ec; [congruence|]. rewrite <- Ec in *.
    destruct (scan_back below (length ch - 1)) as [i|].
    + destruct SB as (A & B & C). exists i. split; auto. split; auto. split; [lia|]. split.
      * right. split; auto. split.
        -- apply Rnot_lt_le. intros X. apply Bt in X. congruence.
        -- intros j Hj. apply Bt. apply C. lia.
      * f_equal. f_equal. rewrite Nat.add_1_r. reflexivity.
    + exfalso. destruct MX as [(k & Hk & Ek) _]. specialize (SB k ltac:(lia)). apply Bt in SB. nra.
Qed.

Lemma windows_exist w n : (0 < w)%nat -> (2 * w <= n)%nat -> exists m, (m * w < n <= S m * w)%nat /\ (1 <= m)%nat /\ (m = 1%nat <-> n = (2 * w)%nat).
Proof.
  intros Hw Hn. exists ((n - 1) / w)%nat.
  assert (E := Nat.div_mod (n - 1) w ltac:(lia)). assert (U := Nat.mod_upper_bound (n - 1) w ltac:(lia)).
  set (q := ((n - 1) / w)%nat) in *. set (rr := ((n - 1) mod w)%nat) in *.
  assert (1 <= q)%nat. { destruct q; [|lia]. rewrite Nat.mul_0_r in E. lia. }
  repeat split; try nia.
Qed.

(** exactly two windows: max of no value *)
Lemma eliminate_two_windows w fs s s' : (0 < w)%nat -> stripped s s' -> length s' = (2 * w)%nat ->
  eliminate_transient w fs s = Err RuntimeError.
Proof.
  intros Hw Hs Hl. pose proof (stripped_det _ _ _ Hs (strip_spec s)) as Es.
  unfold eliminate_transient. rewrite <- Es.
  destruct (Nat.ltb_spec (length s') (2 * w)); [lia|]. destruct (Nat.eqb_spec w 0); [lia|].
  destruct (merged_spec w s' 1 Hw ltac:(lia) ltac:(lia)) as (cs & -> & Lc & _). cbn [bind].
  destruct cs as [|c [|]]; simpl in Lc; try lia. reflexivity.
Qed.
Lemma eliminate_window0 fs s : eliminate_transient 0 fs s = Err RuntimeError.
Proof. reflexivity. Qed.

(** complete case analysis: what can come out *)
Lemma eliminate_total w fs s s' : (0 < w)%nat -> stripped s s' ->
  (length s' = (2 * w)%nat /\ eliminate_transient w fs s = Err RuntimeError) \/
  (length s' <> (2 * w)%nat /\ exists o, eliminate_transient w fs s = Ok o /\ suffix o s' /\ suffix o s /\
     ((length s' < 2 * w)%nat -> o = s') /\ ((2 * w < length s')%nat -> (w < length o)%nat)).
Proof.
  intros Hw Hs. destruct (lt_dec (length s') (2 * w)) as [Hl|Hl].
  - right. split; [lia|]. exists s'. rewrite (eliminate_short _ _ _ _ Hs Hl). split; auto.
    split; [exists []; auto|]. split; [apply stripped_suffix; auto|]. split; auto. lia.
  - destruct (windows_exist w (length s') Hw ltac:(lia)) as (m & H1 & H2 & H3).
    destruct (Nat.eq_dec m 1) as [->|Hm].
    + left. assert (length s' = (2 * w)%nat) by (apply H3; auto). split; auto. eapply eliminate_two_windows; eauto.
    + right. split; [intros E; apply H3 in E; lia|].
      destruct (eliminate_cut w fs s s' m Hw Hs ltac:(lia) H1) as (ch & mx & i & _ & _ & Hi & _ & ->).
      eexists. split; [reflexivity|]. split; [apply skipn_suffix|]. split; [eapply suffix_trans; [apply skipn_suffix|apply stripped_suffix; auto]|].
      split; [lia|]. intros _. rewrite skipn_length. nia.
Qed.

(** the "did not reach a steady state" branch is never taken *)
Lemma steady_state_error_unreachable w fs s : eliminate_transient w fs s <> Err TypeError.
Proof.
  destruct w as [|w]; [discriminate|].
  destruct (eliminate_total (S w) fs s _ ltac:(lia) (strip_spec s)) as [[_ ->]|(_ & o & -> & _)]; discriminate.
Qed.

(** * C26 *)
Lemma nonzero_from_in l i k : In k (nonzero_from i l) <-> (i <= k < i + length l)%nat /\ nth (k - i) l 0 <> 0.
Proof.
  revert i. induction l as [|x l IH]; intros i; cbn [nonzero_from length].
  - simpl. lia.
  - assert (K : In k (nonzero_from (S i) l) <-> (i < k < i + S (length l))%nat /\ nth (k - i) (x :: l) 0 <> 0).
    { rewrite IH. split; intros [A B].
      - split; [lia|]. replace (k - i)%nat with (S (k - S i)) by lia. auto.
      - split; [lia|]. replace (k - i)%nat with (S (k - S i)) in B by lia. auto. }
    destruct (Req_EM_T x 0) as [E|E].
    + rewrite K. split; intros [A B]; (split; [|auto]); [lia|].
      destruct (Nat.eq_dec k i) as [->|]; [|lia]. rewrite Nat.sub_diag in B. simpl in B. congruence.
    + simpl In. rewrite K. split.
      * intros [<-|[A B]]; [split; [lia|rewrite Nat.sub_diag; auto]|split; [lia|auto]].
      * intros [A B]. destruct (Nat.eq_dec i k); auto. right. split; [lia|auto].
Qed.
Lemma nonzero_from_sorted l i : StronglySorted lt (nonzero_from i l).
Proof.
  revert i. induction l as [|x l IH]; intros i; cbn [nonzero_from]; [constructor|].
  destruct (Req_EM_T x 0); auto. constructor; auto. apply Forall_forall. intros k Hk. apply nonzero_from_in in Hk. lia.
Qed.
Lemma removelast_len {A} (l : list A) : length (removelast l) = (length l - 1)%nat.
Proof. induction l as [|a l IH]; auto. destruct l; auto. cbn [removelast length] in *. rewrite IH. lia. Qed.
Lemma removelast_nth {A} (l : list A) i d : (S i < length l)%nat -> nth i (removelast l) d = nth i l d.
Proof.
  revert i. induction l as [|a l IH]; intros i Hi; [simpl in Hi; lia|]. destruct l as [|b l]; [simpl in Hi; lia|].
  cbn [removelast]. destruct i; auto. cbn [nth]. apply IH. simpl in *. lia.
Qed.
Lemma tl_nth {A} (l : list A) i d : nth i (tl l) d = nth (S i) l d.
Proof. destruct l; auto. destruct i; auto. Qed.
Lemma tl_len {A} (l : list A) : length (tl l) = (length l - 1)%nat.
Proof. destruct l; simpl; lia. Qed.
Lemma map2_len f a b : length (map2 f a b) = Nat.min (length a) (length b).
Proof. unfold map2. rewrite map_length. apply combine_length. Qed.
Lemma map2_nth f a b i : (i < length a)%nat -> (i < length b)%nat -> nth i (map2 f a b) 0 = f (nth i a 0) (nth i b 0).
Proof.
  revert b i. induction a as [|x a IH]; intros [|y b] i Ha Hb; simpl in Ha, Hb; try lia.
  unfold map2 in *. simpl. destruct i; auto. apply IH; lia.
Qed.
Lemma map_nth_R (f : R -> R) l i : (i < length l)%nat -> nth i (map f l) 0 = f (nth i l 0).
Proof. intros. rewrite (nth_indep _ 0 (f 0)) by (rewrite map_length; auto). apply map_nth. Qed.

Lemma find_peaks_spec s : StronglySorted lt (find_peaks s) /\ forall i, In i (find_peaks s) <-> is_peak s i.
Proof.
  unfold find_peaks. set (mid := tl (removelast s)). set (t1 := map2 Rminus mid (removelast (removelast s))).
  set (t2 := map2 Rminus mid (tl (tl s))). set (out1 := map _ t1). set (out2 := map2 _ t2 out1).
  assert (Lm : length mid = (length s - 2)%nat) by (unfold mid; rewrite tl_len, removelast_len; lia).
  assert (Lr : length (removelast (removelast s)) = (length s - 2)%nat) by (rewrite !removelast_len; lia).
  assert (Lt : length (tl (tl s)) = (length s - 2)%nat) by (rewrite !tl_len; lia).
  assert (L1 : length t1 = (length s - 2)%nat) by (unfold t1; rewrite map2_len; lia).
  assert (L2 : length t2 = (length s - 2)%nat) by (unfold t2; rewrite map2_len; lia).
  assert (Lo1 : length out1 = (length s - 2)%nat) by (unfold out1; rewrite map_length; auto).
  assert (Lo2 : length out2 = (length s - 2)%nat) by (unfold out2; rewrite map2_len; lia).
  assert (V : forall k, (k < length s - 2)%nat -> (nth k out2 0 <> 0 <-> nth k s 0 < nth (S k) s 0 /\ nth (S (S k)) s 0 < nth (S k) s 0)).
  { intros k Hk. unfold out2. rewrite map2_nth by lia. unfold out1. rewrite map_nth_R by lia.
    unfold t1, t2. rewrite !map2_nth by lia.
    assert (Em : nth k mid 0 = nth (S k) s 0) by (unfold mid; rewrite tl_nth, removelast_nth by lia; auto).
    rewrite Em, !tl_nth. rewrite !removelast_nth by (rewrite ?removelast_len; lia).
    destruct (Rlt_dec 0 (nth (S k) s 0 - nth (S (S k)) s 0)), (Rlt_dec 0 (nth (S k) s 0 - nth k s 0));
      rewrite ?Rmult_0_r; split; intros; try split; lra. }
  split.
  - assert (G : forall l, StronglySorted lt l -> StronglySorted lt (map (fun i => (i + 1)%nat) l)).
    { induction 1; simpl; constructor; auto. apply Forall_forall. intros y Hy. apply in_map_iff in Hy.
      destruct Hy as (z & <- & Hz). rewrite Forall_forall in H0. specialize (H0 z Hz). lia. }
    apply G. apply nonzero_from_sorted.
  - intros i. rewrite in_map_iff. unfold is_peak. split.
    + intros (k & <- & Hk). apply nonzero_from_in in Hk. rewrite Nat.sub_0_r in Hk. destruct Hk as [Hk Hv].
      rewrite V in Hv by lia. replace (k + 1 - 1)%nat with k by lia. replace (k + 1)%nat with (S k) by lia.
      replace (S k + 1)%nat with (S (S k)) by lia. repeat split; try tauto; lia.
    + intros (H1 & H2 & H3 & H4). exists (i - 1)%nat. split; [lia|]. apply nonzero_from_in. rewrite Nat.sub_0_r.
      split; [lia|]. apply V; [lia|]. replace (S (i - 1)) with i by lia. replace (S i) with (i + 1)%nat by lia. auto.
Qed.

(** * C27 *)
Lemma scale_nth c s i : nth i (scale c s) 0 = c * nth i s 0.
Proof.
  unfold scale. destruct (lt_dec i (length s)).
  - rewrite map_nth_R; auto.
  - rewrite !nth_overflow; rewrite ?map_length; try lia. ring.
Qed.
Lemma sorted_ext (a b : list nat) : StronglySorted lt a -> StronglySorted lt b -> (forall x, In x a <-> In x b) -> a = b.
Proof.
  revert b. induction a as [|x a IH]; intros [|y b] Ha Hb H; auto.
  - exfalso. apply (proj2 (H y)); simpl; auto.
  - exfalso. apply (proj1 (H x)); simpl; auto.
  - inversion Ha as [|? ? Ha1 Ha2]; inversion Hb as [|? ? Hb1 Hb2]; subst. rewrite Forall_forall in Ha2, Hb2.
    assert (x = y).
    { destruct (proj1 (H x) (or_introl eq_refl)) as [|Hx]; auto. destruct (proj2 (H y) (or_introl eq_refl)) as [|Hy]; auto.
      specialize (Ha2 _ Hy). specialize (Hb2 _ Hx). lia. }
    subst y. f_equal. apply IH; auto. intros z. split; intros Hz.
    + destruct (proj1 (H z) (or_intror Hz)) as [<-|]; auto. specialize (Ha2 _ Hz). lia.
    + destruct (proj2 (H z) (or_intror Hz)) as [<-|]; auto. specialize (Hb2 _ Hz). lia.
Qed.
Lemma find_peaks_scale c s : 0 < c -> find_peaks (scale c s) = find_peaks s.
Proof.
  intros Hc. destruct (find_peaks_spec s) as [A1 A2]. destruct (find_peaks_spec (scale c s)) as [B1 B2].
  apply sorted_ext; auto. intros i. rewrite A2, B2. unfold is_peak. rewrite !scale_nth.
  unfold scale. rewrite map_length.
  split; intros (H1 & H2 & H3 & H4); repeat split; auto; try nra; apply (Rmult_lt_reg_l c); lra.
Qed.
Lemma mean_square_scale c s : mean_square (scale c s) = c * c * mean_square s.
Proof.
  unfold mean_square, scale. rewrite map_length, map_map. unfold Rdiv. rewrite <- Rmult_assoc. f_equal.
  induction s as [|x s IH]; simpl; unfold Rsum in *; simpl; [ring|]. rewrite IH. ring.
Qed.
Lemma Rmaximum_scale c s : 0 < c -> s <> [] -> Rmaximum (scale c s) = c * Rmaximum s.
Proof.
  intros Hc Hne. destruct (Rmaximum_spec s Hne) as [A1 A2].
  assert (Hs : scale c s <> []) by (destruct s; [congruence|discriminate]).
  destruct (Rmaximum_spec _ Hs) as [B1 B2]. apply Rle_antisym.
  - apply in_map_iff in B1. destruct B1 as (x & <- & Hx). specialize (A2 x Hx). nra.
  - apply B2. apply in_map_iff. eauto.
Qed.
Lemma signal_power_scale c s p : 0 < c -> signal_power s = Ok p -> signal_power (scale c s) = Ok (c * c * p).
Proof.
  intros Hc. unfold signal_power. rewrite find_peaks_scale by auto. destruct (find_peaks s) as [|p0 [|p1 r]].
  - destruct s as [|x s]; [discriminate|]. intros E. assert (Ep : p = Rmaximum (x :: s) ^ 2 / 2) by congruence. rewrite Ep.
    change (match scale c (x :: s) with [] => Err ValueError | _ :: _ => Ok (Rmaximum (scale c (x :: s)) ^ 2 / 2) end) with
      (Ok (Rmaximum (scale c (x :: s)) ^ 2 / 2)). rewrite Rmaximum_scale by (auto; discriminate). generalize (Rmaximum (x :: s)). intros q. replace ((c * q) ^ 2 / 2) with (c * c * (q ^ 2 / 2)) by field. reflexivity.
  - destruct s as [|x s]; [discriminate|]. intros E. assert (Ep : p = Rmaximum (x :: s) ^ 2 / 2) by congruence. rewrite Ep.
    change (match scale c (x :: s) with [] => Err ValueError | _ :: _ => Ok (Rmaximum (scale c (x :: s)) ^ 2 / 2) end) with
      (Ok (Rmaximum (scale c (x :: s)) ^ 2 / 2)). rewrite Rmaximum_scale by (auto; discriminate). generalize (Rmaximum (x :: s)). intros q. replace ((c * q) ^ 2 / 2) with (c * c * (q ^ 2 / 2)) by field. reflexivity.
  - intros E. injection E as <-. f_equal.
    assert (Es : forall a b, firstn a (skipn b (scale c s)) = scale c (firstn a (skipn b s))).
    { intros. unfold scale. rewrite skipn_map, firstn_map. auto. }
    rewrite Es, mean_square_scale. auto.
Qed.

Lemma mean_square_nonneg s : 0 <= mean_square s.
Proof.
  unfold mean_square. apply Rmult_le_pos.
  - apply Rsum_nonneg. intros x Hx. apply in_map_iff in Hx. destruct Hx as (y & <- & _). nra.
  - destruct s; [simpl; rewrite Rinv_0; lra|]. left. apply Rinv_0_lt_compat. apply lt_0_INR. simpl; lia.
Qed.
Lemma signal_power_ok s : s <> [] -> exists p, signal_power s = Ok p /\ 0 <= p.
Proof.
  intros Hne. unfold signal_power. destruct (find_peaks s) as [|p0 [|p1 r]].
  3: { eexists; split; [reflexivity|apply mean_square_nonneg]. }
  all: destruct s as [|x s]; [congruence|]; eexists; split; [reflexivity|].
  all: pose proof (pow2_ge_0 (Rmaximum (x :: s))); lra.
Qed.
Lemma sorted_last (a b : nat) r : StronglySorted lt (a :: b :: r) -> (a < last (b :: r) 0)%nat /\ In (last (b :: r) 0%nat) (b :: r).
Proof.
  intros H. assert (I : In (last (b :: r) 0%nat) (b :: r)).
  { destruct (@exists_last _ (b :: r)) as (l' & x & E); [discriminate|]. rewrite E, last_last. apply in_or_app; simpl; auto. }
  split; auto. inversion H as [|? ? _ H2]; subst. rewrite Forall_forall in H2. apply H2; auto.
Qed.
Lemma mean_square_pos l x : In x l -> x <> 0 -> 0 < mean_square l.
Proof.
  intros Hx Hn. destruct (mean_square_nonneg l) as [|E]; auto. exfalso.
  unfold mean_square in E. symmetry in E. assert (Hl : 0 < INR (length l)).
  { apply lt_0_INR. destruct l; [contradiction|simpl; lia]. }
  unfold Rdiv in E. apply Rmult_integral in E. destruct E as [E|E].
  - rewrite Rsum_zero_iff in E. + specialize (E (x * x) ltac:(apply in_map_iff; eauto)). nra.
    + intros y Hy. apply in_map_iff in Hy. destruct Hy as (z & <- & _). nra.
  - apply Rinv_neq_0_compat in E; auto. lra.
Qed.

(** With at least two peaks, the power is the mean square over the samples from
    the first peak (included) to the last peak (excluded), a non-empty interval. *)
Lemma power_peaks s a b : is_peak s a -> is_peak s b -> (a < b)%nat ->
  (forall i, is_peak s i -> (a <= i <= b)%nat) ->
  signal_power s = Ok (mean_square (firstn (b - a) (skipn a s))) /\ length (firstn (b - a) (skipn a s)) = (b - a)%nat.
Proof.
  intros Pa Pb Hab Hall. destruct (find_peaks_spec s) as [S1 S2]. unfold signal_power.
  pose proof (proj2 (S2 a) Pa) as Ia. pose proof (proj2 (S2 b) Pb) as Ib.
  destruct (find_peaks s) as [|p0 [|p1 r]].
  - destruct Ia.
  - simpl in Ia, Ib. lia.
  - destruct (sorted_last p0 p1 r S1) as [H1 H2].
    assert (p0 = a).
    { pose proof (Hall p0 (proj1 (S2 p0) (or_introl eq_refl))). destruct Ia as [|Ia]; auto.
      inversion S1 as [|? ? _ F]; subst. rewrite Forall_forall in F. specialize (F a Ia). lia. }
    assert (last (p1 :: r) 0%nat = b).
    { pose proof (Hall _ (proj1 (S2 _) (or_intror H2))) as Hq. destruct Ib as [Ib|Ib]; [lia|].
      assert (S1' : StronglySorted lt (p1 :: r)) by (inversion S1; auto). clear - Ib S1' Hq.
      assert (G : forall l x d, StronglySorted lt l -> In x l -> (x <= last l d)%nat).
      { induction l as [|y l IH]; intros x d HS Hx; [contradiction|]. inversion HS as [|? ? HS' HF]; subst.
        destruct l as [|z l]; [simpl in *; lia|]. change (last (y :: z :: l) d) with (last (z :: l) d).
        destruct Hx as [<-|Hx]; [|apply IH; auto]. rewrite Forall_forall in HF.
        specialize (IH z d HS' (or_introl eq_refl)). specialize (HF z (or_introl eq_refl)). lia. }
      specialize (G _ _ 0%nat S1' Ib). lia. }
    rewrite H, H0. split; auto. rewrite firstn_length, skipn_length. destruct Pb as (_ & Pb & _). lia.
Qed.
(** fewer than two peaks: half the squared maximum *)
Lemma power_few_peaks s : s <> [] -> (forall a b, is_peak s a -> is_peak s b -> a = b) ->
  signal_power s = Ok ((Rmaximum s) ^ 2 / 2).
Proof.
  intros Hne H. destruct (find_peaks_spec s) as [S1 S2]. unfold signal_power.
  destruct (find_peaks s) as [|p0 [|p1 r]]; [destruct s; [congruence|auto]|destruct s; [congruence|auto]|].
  exfalso. assert (p0 = p1) by (apply H; apply S2; simpl; auto).
  inversion S1 as [|? ? _ F]; subst. rewrite Forall_forall in F. specialize (F p1 (or_introl eq_refl)). lia.
Qed.

Definition nonneg_or_special (f : pyfloat) := match f with Fin x => 0 <= x | NInf => False | _ => True end.
Lemma peak_based_nonneg tf tm rf tr : tf <> [] -> tm <> [] -> rf <> [] -> tr <> [] ->
  exists r t, peak_based tf tm rf tr = Ok (r, t) /\
    match r with Fin x => 0 <= x | NInf => False | _ => True end /\
    match t with Fin x => 0 <= x | NInf => False | _ => True end.
Proof.
  intros H1 H2 H3 H4. unfold peak_based.
  destruct (signal_power_ok tf H1) as (a & -> & Ha), (signal_power_ok tm H2) as (b & -> & Hb),
    (signal_power_ok rf H3) as (c & -> & Hc), (signal_power_ok tr H4) as (d & -> & Hd). cbn [bind].
  eexists; eexists. split; [reflexivity|].
  assert (G : forall x y, 0 <= x -> 0 <= y -> match tdiv (Fin x) (Fin y) with Fin x => 0 <= x | NInf => False | _ => True end).
  { intros x y Hx Hy. simpl. destruct (Req_EM_T y 0).
    - destruct (Req_EM_T x 0); auto. destruct (Rlt_dec 0 x); auto; lra.
    - apply Rmult_le_pos; auto. left; apply Rinv_0_lt_compat; lra. }
  split; apply G; auto.
Qed.
Lemma peak_based_scale c tf tm rf tr rt : 0 < c -> peak_based tf tm rf tr = Ok rt ->
  peak_based (scale c tf) (scale c tm) (scale c rf) (scale c tr) = Ok rt.
Proof.
  intros Hc. unfold peak_based. intros H.
  repeat (apply bind_ok in H; let x := fresh "x" in let E := fresh "E" in destruct H as (x & E & H); rewrite (signal_power_scale c _ _ Hc E); clear E).
  cbn [bind]. rewrite <- H. f_equal.
  assert (G : forall a b, tdiv (Fin (c * c * a)) (Fin (c * c * b)) = tdiv (Fin a) (Fin b)).
  { assert (Hcc : 0 < c * c) by nra.
    intros a b. simpl. destruct (Req_EM_T (c * c * b) 0) as [E|E], (Req_EM_T b 0) as [E'|E'].
    - destruct (Req_EM_T (c * c * a) 0) as [F|F], (Req_EM_T a 0) as [F'|F']; auto; try nra.
      destruct (Rlt_dec 0 (c * c * a)) as [K|K], (Rlt_dec 0 a) as [K'|K']; auto; exfalso; try nra.
    - exfalso. apply Rmult_integral in E. destruct E; lra.
    - exfalso. apply E. rewrite E'. ring.
    - f_equal. field. split; [auto|lra]. }
  rewrite !G. auto.
Qed.
(** k-fold material amplitude: k^2-fold transmission *)
Lemma peak_based_square k tf tm rf tr r t t0 : 0 < k -> peak_based tf tm rf tr = Ok (r, Fin t) ->
  peak_based tf (scale k tm) rf tr = Ok t0 -> t0 = (r, Fin (k ^ 2 * t)).
Proof.
  intros Hk. unfold peak_based. intros H H0.
  repeat (apply bind_ok in H; let x := fresh "x" in let E := fresh "E" in destruct H as (x & E & H)).
  rewrite (signal_power_scale k _ _ Hk E), E0, E1, E2 in H0. simpl in H0, H.
  injection H0 as <-. injection H as <- Ht. apply f_equal. revert Ht.
  destruct (Req_EM_T x0 0).
  - destruct (Req_EM_T x 0); [discriminate|]. destruct (Rlt_dec 0 x); discriminate.
  - intros Ht. assert (Et : t = x / x0) by congruence. rewrite Et. apply f_equal. field. auto.
Qed.
Lemma peak_based_identity s rf tr r t p : signal_power s = Ok p -> p <> 0 ->
  peak_based s s rf tr = Ok (r, t) -> t = Fin 1.
Proof.
  intros Hp Hn. unfold peak_based. rewrite Hp. simpl. destruct (signal_power tr); [|discriminate]. simpl.
  destruct (signal_power rf); [|discriminate]. simpl. destruct (Req_EM_T p 0); [contradiction|]. intros H. inversion H. f_equal. field. auto.
Qed.

(** the zero check *)
Lemma dark_freespace w tf tm rf rm : length rm = length rf ->
  (mean_square tf <= / 10 ^ 15 \/ mean_square rf <= / 10 ^ 15) ->
  calculate_coefficients w tf tm rf rm = Err ValueError.
Proof.
  intros HL H. unfold calculate_coefficients. rewrite HL, Nat.eqb_refl. cbn [negb]. unfold check_all_zero.
  destruct (Rle_dec (mean_square tf) (/ 10 ^ 15)); auto. cbn [bind].
  destruct (Rle_dec (mean_square rf) (/ 10 ^ 15)); auto. destruct H; contradiction.
Qed.

(** the result, in terms of the powers of the cut signals *)
Lemma calculate_value w tf tm rf rm tf' tm' rf' tr' a b c d : length rm = length rf ->
  / 10 ^ 15 < mean_square tf -> / 10 ^ 15 < mean_square rf ->
  eliminate_transient w true tf = Ok tf' -> eliminate_transient w false tm = Ok tm' ->
  eliminate_transient w true rf = Ok rf' -> eliminate_transient w false (map2 Rminus rm rf) = Ok tr' ->
  signal_power tf' = Ok a -> signal_power tm' = Ok b -> signal_power rf' = Ok c -> signal_power tr' = Ok d ->
  calculate_coefficients w tf tm rf rm = Ok (check_and_normalize (tdiv (Fin b) (Fin a)) (tdiv (Fin d) (Fin c))).
Proof.
  intros HL H1 H2 E1 E2 E3 E4 P1 P2 P3 P4. unfold calculate_coefficients. rewrite HL, Nat.eqb_refl. cbn [negb].
  unfold check_all_zero. destruct (Rle_dec (mean_square tf) _); [lra|]. destruct (Rle_dec (mean_square rf) _); [lra|].
  cbn [bind]. rewrite E1. cbn [bind]. rewrite E2. cbn [bind]. rewrite E3. cbn [bind]. rewrite E4. cbn [bind].
  unfold peak_based. rewrite P1, P2, P3, P4. reflexivity.
Qed.

(** identical free-space and material signals need not give transmission 1: the
    two are cut with different thresholds *)
Definition wsig : list R := [10; 20; 5; 5; 1; 3; 1; 1].
Lemma wsig_stripped : stripped wsig wsig.
Proof.
  right. exists [], 10, [20; 5; 5; 1; 3; 1; 1]. split; auto. split; auto. split; [|intros y []].
  rewrite Rabs_right by lra. lra.
Qed.
Lemma wsig_ranges : is_range (window 2 3 wsig 0) 10 /\ is_range (window 2 3 wsig 1) 0 /\ is_range (window 2 3 wsig 2) 2.
Proof.
  unfold window, wsig. simpl. split; [|split].
  - exists 20, 10. simpl. repeat split; auto; try lra; intuition lra.
  - exists 5, 5. simpl. repeat split; auto; try lra; intuition lra.
  - exists 3, 1. simpl. repeat split; auto; try lra; intuition lra.
Qed.
Lemma wsig_cut fs : eliminate_transient 2 fs wsig = Ok (if fs then [5; 5; 1; 3; 1; 1] else [1; 3; 1; 1]).
Proof.
  destruct (eliminate_cut 2 fs wsig wsig 3 ltac:(lia) wsig_stripped ltac:(lia) ltac:(simpl; lia))
    as (ch & mx & i & HC & [(k & Hk & Em) HM] & Hi & HX & ->).
  destruct wsig_ranges as (R0 & R1 & R2).
  assert (C0 : ch 0%nat = 10).
  { destruct (HC 0%nat ltac:(lia)) as (ra & rb & A & B & ->). rewrite (is_range_det _ _ _ A R0), (is_range_det _ _ _ B R1).
    rewrite Rabs_right; lra. }
  assert (C1 : ch 1%nat = 2).
  { destruct (HC 1%nat ltac:(lia)) as (ra & rb & A & B & ->). rewrite (is_range_det _ _ _ A R1), (is_range_det _ _ _ B R2).
    rewrite Rabs_left; lra. }
  assert (M : mx = 10).
  { pose proof (HM 0%nat ltac:(lia)). pose proof (HM 1%nat ltac:(lia)). assert (k = 0 \/ k = 1)%nat as [->| ->] by lia; lra. }
  subst mx. destruct HX as [[HX _]|(_ & HX & HY)]; [lra|].
  assert (Hi' : (i = 0 \/ i = 1)%nat) by lia.
  destruct fs; destruct Hi' as [->| ->]; try reflexivity; exfalso.
  - rewrite C1 in HX. lra.
  - specialize (HY 1%nat ltac:(lia)). rewrite C1 in HY. lra.
Qed.
Lemma power_w6 : signal_power [5; 5; 1; 3; 1; 1] = Ok (25 / 2).
Proof.
  rewrite power_few_peaks; [|discriminate|].
  - unfold Rmaximum. simpl fold_left. repeat (first [rewrite (Rmax_left 5 5) by lra | rewrite (Rmax_left 5 1) by lra | rewrite (Rmax_left 5 3) by lra]). apply f_equal. field.
  - assert (G : forall i, is_peak [5; 5; 1; 3; 1; 1] i -> i = 3%nat).
    { intros i (H1 & H2 & H3 & H4). simpl in H2. destruct i as [|[|[|[|[|i]]]]]; try lia; simpl in H3, H4; try lra; lia. }
    intros a b Ha Hb. rewrite (G a Ha), (G b Hb). auto.
Qed.
Lemma power_w4 : signal_power [1; 3; 1; 1] = Ok (9 / 2).
Proof.
  rewrite power_few_peaks; [|discriminate|].
  - unfold Rmaximum. simpl fold_left. rewrite (Rmax_right 1 3) by lra. repeat (rewrite (Rmax_left 3 1) by lra). apply f_equal. field.
  - assert (G : forall i, is_peak [1; 3; 1; 1] i -> i = 1%nat).
    { intros i (H1 & H2 & H3 & H4). simpl in H2. destruct i as [|[|[|[|i]]]]; try lia; simpl in H3, H4; try lra; lia. }
    intros a b Ha Hb. rewrite (G a Ha), (G b Hb). auto.
Qed.
Lemma power_zero s : s <> [] -> (forall x, In x s -> x = 0) -> signal_power s = Ok 0.
Proof.
  intros Hne H. assert (N : forall i, nth i s 0 = 0).
  { intros i. destruct (lt_dec i (length s)); [apply H; apply nth_In; auto|apply nth_overflow; lia]. }
  rewrite power_few_peaks; auto.
  - destruct (Rmaximum_spec s Hne) as [A _]. rewrite (H _ A). apply f_equal. field.
  - intros a b (_ & _ & Ha & _). rewrite !N in Ha. lra.
Qed.
Lemma identical_not_one : exists w s, (0 < w)%nat /\
  calculate_coefficients w s s s s = Ok (Fin (9 / 25), Fin 0).
Proof.
  exists 2%nat, wsig. split; [lia|].
  assert (MS : / 10 ^ 15 < mean_square wsig). { unfold mean_square, wsig. simpl. unfold Rsum; simpl. lra. }
  assert (Z : forall x, In x (map2 Rminus wsig wsig) -> x = 0).
  { unfold map2, wsig. simpl. intuition lra. }
  assert (SZ : stripped (map2 Rminus wsig wsig) (map2 Rminus wsig wsig)).
  { left. split; auto. intros x Hx. rewrite (Z x Hx), Rabs_R0. lra. }
  destruct (eliminate_total 2 false _ _ ltac:(lia) SZ) as [[L _]|(_ & o & Eo & Su & _ & _ & Lo)].
  { simpl in L. lia. }
  specialize (Lo ltac:(simpl; lia)).
  assert (Po : signal_power o = Ok 0).
  { apply power_zero; [destruct o; [simpl in Lo; lia|discriminate]|]. intros x Hx. apply Z. destruct Su as [p ->]. apply in_or_app; auto. }
  rewrite (calculate_value 2 wsig wsig wsig wsig _ _ _ _ _ _ _ _ eq_refl MS MS (wsig_cut true) (wsig_cut false) (wsig_cut true) Eo
             power_w6 power_w4 power_w6 Po).
  rewrite !tdiv_Fin by lra. replace (9 / 2 / (25 / 2)) with (9 / 25) by field. replace (0 / (25 / 2)) with 0 by field.
  apply f_equal. apply (proj1 (normalize_cases (9/25) 0)). lra.
Qed.

(** * C55 *)
Lemma average_fold (n : R) cells : forall a b c,
  fold_left (fun s p : vec3 => let '(s0, s1, s2) := s in let '(p0, p1, p2) := p in (s0 + p0 / n, s1 + p1 / n, s2 + p2 / n)) cells (a, b, c)
  = (a + Rsum (map (fun v => fst (fst v)) cells) / n, b + Rsum (map (fun v => snd (fst v)) cells) / n, c + Rsum (map (fun v => snd v) cells) / n).
Proof.
  induction cells as [|[[x y] z] cells IH]; intros a b c; simpl; unfold Rsum in *; simpl.
  - unfold Rdiv; rewrite !Rmult_0_l, !Rplus_0_r; auto.
  - rewrite IH. unfold Rdiv. f_equal; [f_equal|]; ring.
Qed.
Lemma detector_signal_spec rec : length (detector_signal rec) = length rec /\
  forall i, (i < length rec)%nat -> nth i (detector_signal rec) 0 =
     Rsum (map (fun v : vec3 => snd v) (nth i rec [])) / INR (length (nth i rec [])).
Proof.
  unfold detector_signal, average_along_detector. rewrite !map_length. split; auto. intros i Hi.
  rewrite map_map. rewrite (nth_indep _ 0 ((fun cells : list vec3 => snd (fold_left (fun s p : vec3 => let '(s0, s1, s2) := s in let '(p0, p1, p2) := p in
    (s0 + p0 / INR (length cells), s1 + p1 / INR (length cells), s2 + p2 / INR (length cells))) cells (0, 0, 0))) [])) by (rewrite map_length; auto).
  rewrite (map_nth (fun cells : list vec3 => snd (fold_left (fun s p : vec3 => let '(s0, s1, s2) := s in let '(p0, p1, p2) := p in
    (s0 + p0 / INR (length cells), s1 + p1 / INR (length cells), s2 + p2 / INR (length cells))) cells (0, 0, 0)))).
  rewrite average_fold. cbn [snd]. apply Rplus_0_l.
Qed.
Lemma detector_signal_between rec i lo hi : (i < length rec)%nat -> nth i rec [] <> [] ->
  (forall v : vec3, In v (nth i rec []) -> lo <= snd v <= hi) -> lo <= nth i (detector_signal rec) 0 <= hi.
Proof.
  intros Hi Hne H. rewrite (proj2 (detector_signal_spec rec) i Hi). set (c := nth i rec []) in *.
  assert (Hn : 0 < INR (length c)) by (apply lt_0_INR; destruct c; [congruence|simpl; lia]).
  assert (S1 : Rsum (map (fun _ : vec3 => lo) c) <= Rsum (map (fun v : vec3 => snd v) c)) by (apply Rsum_le; intros; apply H; auto).
  assert (S2 : Rsum (map (fun v : vec3 => snd v) c) <= Rsum (map (fun _ : vec3 => hi) c)) by (apply Rsum_le; intros; apply H; auto).
  rewrite Rsum_const in S1, S2.
  split; apply (Rmult_le_reg_r (INR (length c))); auto; unfold Rdiv; rewrite Rmult_assoc, Rinv_l, Rmult_1_r by lra; lra.
Qed.
Definition vadd (u v : vec3) : vec3 := (fst (fst u) + fst (fst v), snd (fst u) + snd (fst v), snd u + snd v).
Definition vscale (c : R) (u : vec3) : vec3 := (c * fst (fst u), c * snd (fst u), c * snd u).
(** linearity: a record whose cells are c*a + b *)
Lemma detector_signal_linear c (ra rb rc : list (list vec3)) : length ra = length rc -> length rb = length rc ->
  (forall i, (i < length rc)%nat -> length (nth i ra []) = length (nth i rc []) /\ length (nth i rb []) = length (nth i rc []) /\
     forall j, snd (nth j (nth i rc []) (0,0,0)) = c * snd (nth j (nth i ra []) (0,0,0)) + snd (nth j (nth i rb []) (0,0,0))) ->
  forall i, (i < length rc)%nat -> nth i (detector_signal rc) 0 = c * nth i (detector_signal ra) 0 + nth i (detector_signal rb) 0.
Proof.
  intros La Lb H i Hi. assert (Hia : (i < length ra)%nat) by lia. assert (Hib : (i < length rb)%nat) by lia.
  rewrite (proj2 (detector_signal_spec rc) i Hi), (proj2 (detector_signal_spec ra) i Hia), (proj2 (detector_signal_spec rb) i Hib).
  destruct (H i Hi) as (L1 & L2 & HJ). rewrite L1, L2.
  set (a := nth i ra []) in *. set (b := nth i rb []) in *. set (d := nth i rc []) in *.
  assert (E : Rsum (map (fun v : vec3 => snd v) d) = c * Rsum (map (fun v : vec3 => snd v) a) + Rsum (map (fun v : vec3 => snd v) b)).
  { clearbody a b d. clear - L1 L2 HJ. revert a b L1 L2 HJ. induction d as [|x d IH]; intros [|y a] [|z b] L1 L2 HJ; simpl in *; try lia.
    - unfold Rsum; simpl; ring.
    - pose proof (HJ 0%nat) as H0. simpl in H0. specialize (IH a b ltac:(lia) ltac:(lia) (fun j => HJ (S j))).
      unfold Rsum in *. simpl. rewrite IH, H0. ring. }
  rewrite E. unfold Rdiv. ring.
Qed.
