From Coq Require Import Reals ZArith List Bool Lra Lia Permutation.
From Verif Require Import Base BaseLemmas Model_Units Model_Coeffs Model_FDTD Model_Register Model_Layout Spec_Layout Model_Rounding Spec_Rounding Proof_Torch3.
Import ListNotations.
Open Scope R_scope.

Lemma Rsum_cons x l : Rsum (x :: l) = x + Rsum l.
Proof. reflexivity. Qed.

Lemma Rabs_le_between x y : Rabs x <= y -> - y <= x <= y.
Proof. unfold Rabs. destruct (Rcase_abs x); lra. Qed.

(** * Any arithmetic *)

(** the running sums of the code *)
Fixpoint walk (add : R -> R -> R) (x : R) (T : list R) (k : nat) {struct k} : R :=
  match k with 0%nat => x | S j => match T with [] => x | t :: r => walk add (add x t) r j end end.

Lemma get_ok {A} (l : list A) i x : get l i = Ok x <-> nth_error l i = Some x.
Proof. unfold get. destruct (nth_error l i); split; intros H; congruence. Qed.

Lemma skipn_get {A} (l : list A) i x : get l i = Ok x -> skipn i l = x :: skipn (S i) l.
Proof.
  rewrite get_ok. revert i. induction l as [|a l IH]; intros [|i] H; cbn in *; try discriminate.
  - injection H as ->. reflexivity.
  - exact (IH i H).
Qed.

Lemma layer_columns_walk add mul s T n : forall i xs xe es, layer_columns add mul s T n i xs xe = Ok es ->
  (forall ti, get T i = Ok ti -> xe = add xs ti) ->
  ((n <= 1)%nat -> (i < length T)%nat) ->
  length es = n /\ forall k, (k < n)%nat -> nth_error es k = Some (Rtrunc (mul s (walk add xs (skipn i T) k)), Rtrunc (mul s (walk add xs (skipn i T) (S k)))).
Proof.
  induction n as [|n IH]; intros i xs xe es H Hx Hi; cbn [layer_columns] in H.
  { injection H as <-. split; [reflexivity|lia]. }
  destruct n as [|n].
  - injection H as <-. split; [reflexivity|]. intros k Hk. replace k with 0%nat by lia. cbn [nth_error walk].
    assert (L : (i < length T)%nat) by (apply Hi; lia). destruct (nth_error T i) as [t|] eqn:E; [|apply nth_error_None in E; lia].
    assert (G : get T i = Ok t) by (apply get_ok, E). rewrite (skipn_get T i t G). cbn [walk]. rewrite (Hx t G). reflexivity.
  - destruct (get T i) as [ti|] eqn:Gi; [|discriminate]. destruct (get T (S i)) as [tn|] eqn:Gn; [|discriminate]. cbn [bind] in H.
    destruct (layer_columns add mul s T (S n) (S i) (add xs ti) (add xe tn)) as [r|] eqn:R; [|discriminate]. cbn [bind] in H. injection H as <-.
    assert (L : (S i < length T)%nat) by (apply nth_error_Some; apply get_ok in Gn; congruence).
    destruct (IH _ _ _ _ R) as [L1 V1]. { intros t E. rewrite Gn in E. injection E as <-. f_equal. apply Hx. reflexivity. } { intros _. exact L. }
    split; [cbn; lia|]. intros [|k] Hk.
    + cbn [nth_error]. rewrite (skipn_get T i ti Gi). cbn [walk]. rewrite (Hx ti eq_refl). reflexivity.
    + cbn [nth_error]. rewrite (V1 k ltac:(lia)). rewrite (skipn_get T i ti Gi). reflexivity.
Qed.

Lemma layer_columns_ok add mul s T n : forall i xs xe, ((i + n)%nat <= length T)%nat -> exists es, layer_columns add mul s T n i xs xe = Ok es.
Proof.
  induction n as [|n IH]; intros i xs xe H; cbn [layer_columns]; [exists []; reflexivity|].
  destruct n as [|n]; [eexists; reflexivity|].
  destruct (nth_error T i) as [t|] eqn:E; [|apply nth_error_None in E; lia].
  destruct (nth_error T (S i)) as [t'|] eqn:E'; [|apply nth_error_None in E'; lia].
  apply get_ok in E, E'. rewrite E, E'. cbn [bind]. destruct (IH (S i) (add xs t) (add xe t') ltac:(lia)) as [r ->]. cbn [bind]. eexists. reflexivity.
Qed.

Definition start_at (add : R -> R -> R) (c : fdtd_cfg) (k : nat) : R := walk add (add (f_pml c) (f_free c)) (f_thick c) k.

Lemma object_columns_walk add mul c n es : object_columns add mul c n = Ok es ->
  length es = n /\ forall k, (k < n)%nat -> nth_error es k = Some (Rtrunc (mul (f_scaling c) (start_at add c k)), Rtrunc (mul (f_scaling c) (start_at add c (S k)))).
Proof.
  unfold object_columns. intros H. destruct (get (f_thick c) 0) as [t0|] eqn:E; [|discriminate]. cbn [bind] in H.
  apply layer_columns_walk in H; [exact H| |].
  - intros ti G. congruence.
  - intros _. apply nth_error_Some. apply get_ok in E. congruence.
Qed.

Lemma object_columns_ok add mul c n : (n <= length (f_thick c))%nat -> f_thick c <> [] -> exists es, object_columns add mul c n = Ok es.
Proof.
  intros H N. unfold object_columns. destruct (f_thick c) as [|t T] eqn:E; [contradiction|]. cbn [get nth_error bind].
  apply layer_columns_ok. cbn [length] in *. lia.
Qed.

Lemma adjacent add mul c n es k a b a' b' : object_columns add mul c n = Ok es ->
  nth_error es k = Some (a, b) -> nth_error es (S k) = Some (a', b') -> a' = b.
Proof.
  intros H E E'. destruct (object_columns_walk add mul c n es H) as [L V].
  assert (S k < n)%nat by (rewrite <- L; apply nth_error_Some; congruence).
  rewrite (V k) in E by lia. rewrite (V (S k)) in E' by lia. congruence.
Qed.

(** * The exact arithmetic is the model's *)

Lemma add_layers_place s T freq eps : forall i xs xe es g, layer_columns Rplus Rmult s T (length eps) i xs xe = Ok es ->
  add_layers s T freq i xs xe eps g = place freq es eps g.
Proof.
  induction eps as [|e r IH]; intros i xs xe es g H; cbn [length layer_columns] in H.
  { injection H as <-. reflexivity. }
  destruct r as [|e' r]; cbn [length] in *.
  - injection H as <-. cbn [add_layers place]. destruct (add_object _ _ e freq g); reflexivity.
  - destruct (get T i) as [ti|] eqn:Gi; [|discriminate]. destruct (get T (S i)) as [tn|] eqn:Gn; [|discriminate]. cbn [bind] in H.
    destruct (layer_columns Rplus Rmult s T (S (length r)) (S i) (xs + ti) (xe + tn)) as [q|] eqn:R; [|discriminate]. cbn [bind] in H. injection H as <-.
    change (add_layers s T freq i xs xe (e :: e' :: r) g) with
      (let! g := add_object (Rtrunc (s * xs)) (Rtrunc (s * xe)) e freq g in let! ti := get T i in let! tn := get T (S i) in add_layers s T freq (S i) (xs + ti) (xe + tn) (e' :: r) g).
    change (place freq ((Rtrunc (s * xs), Rtrunc (s * xe)) :: q) (e :: e' :: r) g) with
      (let! g := add_object (Rtrunc (s * xs)) (Rtrunc (s * xe)) e freq g in place freq q (e' :: r) g).
    destruct (add_object _ _ e freq g) as [g'|]; [|reflexivity]. cbn [bind]. rewrite Gi, Gn. exact (IH _ _ _ _ g' R).
Qed.

Lemma exact_columns c slice row layers wl es : get slice 0 = Ok row -> get row 0 = Ok layers ->
  object_columns Rplus Rmult c (length layers) = Ok es ->
  init_fdtd c (Some slice) wl = let! g := init_fdtd c None wl in place (SPEED_OF_LIGHT / wl) es layers g.
Proof.
  intros H1 H2 H. unfold object_columns in H. destruct (get (f_thick c) 0) as [t0|] eqn:E; [|discriminate]. cbn [bind] in H.
  unfold init_fdtd. destruct (make_grid _ _ _ _ _); [|reflexivity]. cbn [bind]. destruct (add_boundaries _ _); [|reflexivity]. cbn [bind].
  destruct (add_detectors _ _ _); [|reflexivity]. cbn [bind]. destruct (add_source _ _ _ _ _ _) as [g4|]; [|reflexivity]. cbn [bind].
  rewrite E, H1. cbn [bind]. rewrite H2. cbn [bind]. exact (add_layers_place _ _ _ _ _ _ _ _ g4 H).
Qed.

(** * Accumulated errors *)
Section Errors.
  Variables (add mul : R -> R -> R) (e : R).
  Hypothesis E0 : 0 <= e.
  Hypothesis E1 : e <= 1.
  Hypothesis A : accurate add mul e.

  Definition approx (n : nat) (v x : R) : Prop := x * (1 - e) ^ n <= v <= x * (1 + e) ^ n.

  Lemma approx_refl x : approx 0 x x.
  Proof. split; cbn; lra. Qed.

  Lemma pow_low n : 0 <= (1 - e) ^ n.
  Proof. apply pow_le. lra. Qed.
  Lemma pow_high n : 1 <= (1 + e) ^ n.
  Proof. apply pow_R1_Rle. lra. Qed.

  Lemma approx_weaken n m v x : 0 <= x -> (n <= m)%nat -> approx n v x -> approx m v x.
  Proof.
    intros X H [L U]. replace m with (n + (m - n))%nat by lia. split; rewrite pow_add.
    - eapply Rle_trans; [|exact L]. apply Rmult_le_compat_l; [exact X|]. rewrite <- (Rmult_1_r ((1 - e) ^ n)) at 2.
      apply Rmult_le_compat_l; [apply pow_low|]. eapply Rle_trans; [apply (pow_incr (1 - e) 1); lra|rewrite pow1; lra].
    - eapply Rle_trans; [exact U|]. apply Rmult_le_compat_l; [exact X|]. rewrite <- (Rmult_1_r ((1 + e) ^ n)) at 1.
      apply Rmult_le_compat_l; [pose proof (pow_high n); lra|apply pow_high].
  Qed.

  Lemma approx_pos n v x : 0 <= x -> approx n v x -> 0 <= v.
  Proof. intros X [L _]. eapply Rle_trans; [|exact L]. apply Rmult_le_pos; [exact X|apply pow_low]. Qed.

  Lemma one_more n v w x : 0 <= v -> approx n v x -> Rabs (w - v) <= e * Rabs v -> 0 <= x -> approx (S n) w x.
  Proof.
    intros V [L U] H X. rewrite (Rabs_right v) in H by lra. apply Rabs_le_between in H.
    assert (v * (1 - e) <= w <= v * (1 + e)) by lra. split; cbn [pow].
    - apply Rle_trans with (v * (1 - e)); [|lra]. replace (x * ((1 - e) * (1 - e) ^ n)) with (x * (1 - e) ^ n * (1 - e)) by ring. apply Rmult_le_compat_r; lra.
    - apply Rle_trans with (v * (1 + e)); [lra|]. replace (x * ((1 + e) * (1 + e) ^ n)) with (x * (1 + e) ^ n * (1 + e)) by ring. apply Rmult_le_compat_r; lra.
  Qed.

  Lemma approx_add n a b x y : 0 <= x -> 0 <= y -> approx n a x -> approx n b y -> approx (S n) (add a b) (x + y).
  Proof.
    intros X Y Ha Hb. pose proof (approx_pos _ _ _ X Ha). pose proof (approx_pos _ _ _ Y Hb).
    apply (one_more n (a + b)); [lra| |apply (proj1 A)|lra]. destruct Ha, Hb. split; lra.
  Qed.

  Lemma approx_mul n s a x : 0 <= s -> 0 <= x -> approx n a x -> approx (S n) (mul s a) (s * x) /\ approx (S n) (mul a s) (s * x).
  Proof.
    intros Hs X Ha. pose proof (approx_pos _ _ _ X Ha) as P.
    assert (Q : approx n (s * a) (s * x)) by (destruct Ha; split; rewrite Rmult_assoc; apply Rmult_le_compat_l; lra).
    assert (P' : 0 <= s * a) by (apply Rmult_le_pos; lra). assert (X' : 0 <= s * x) by (apply Rmult_le_pos; lra).
    split; apply (one_more n (s * a)); try assumption; [|rewrite Rmult_comm]; apply (proj2 A).
  Qed.

  Lemma approx_walk T : Forall (fun t => 0 < t) T -> forall k n x X, 0 <= X -> approx n x X -> (k <= length T)%nat ->
    approx (n + k) (walk add x T k) (X + Rsum (firstn k T)).
  Proof.
    induction 1 as [|t T Ht _ IH]; intros [|k] n x X HX Hx Hk; cbn [walk firstn length] in *; try lia.
    - unfold Rsum. cbn. rewrite Rplus_0_r, Nat.add_0_r. exact Hx.
    - unfold Rsum. cbn. rewrite Rplus_0_r, Nat.add_0_r. exact Hx.
    - replace (n + S k)%nat with (S n + k)%nat by lia.
      replace (X + Rsum (t :: firstn k T)) with (X + t + Rsum (firstn k T)).
      + apply IH; [lra| |lia]. apply approx_add; try lra; [exact Hx|]. apply (approx_weaken 0); [lra|lia|apply approx_refl].
      + rewrite Rsum_cons. ring.
  Qed.

  Lemma summed_pos l v : Forall (fun t => 0 < t) l -> summed add l v -> approx (length l) v (Rsum l).
  Proof.
    intros F H. induction H as [|x|l l' a b N N' H1 IH1 H2 IH2|l l' a P H IH].
    - unfold Rsum. cbn. split; cbn; lra.
    - inversion F; subst. apply (approx_weaken 0); [unfold Rsum; cbn; lra|lia|]. unfold Rsum. cbn. rewrite Rplus_0_r. apply approx_refl.
    - apply Forall_app in F as [F1 F2]. rewrite Rsum_app, app_length.
      assert (Pos : forall m, Forall (fun t => 0 < t) m -> 0 <= Rsum m).
      { intros m Fm. induction Fm as [|t m Ht _ IHm]; [unfold Rsum; cbn; lra|]. rewrite Rsum_cons. lra. }
      destruct l as [|x l]; [contradiction|]. destruct l' as [|y l']; [contradiction|]. cbn [length] in *.
      replace (S (length l) + S (length l'))%nat with (S (S (length l + length l'))) by lia.
      apply approx_add; [apply Pos, F1|apply Pos, F2| |].
      + apply (approx_weaken (S (length l))); [apply Pos, F1|lia|apply IH1, F1].
      + apply (approx_weaken (S (length l'))); [apply Pos, F2|lia|apply IH2, F2].
    - assert (F' : Forall (fun t => 0 < t) l) by (eapply Permutation_Forall; [apply Permutation_sym, P|exact F]).
      rewrite <- (Permutation_length P). replace (Rsum l') with (Rsum l); [exact (IH F')|]. clear - P.
      induction P; rewrite ?Rsum_cons; try lra.
  Qed.

  (** from relative to absolute errors *)
  Lemma bernoulli n : 1 - INR n * e <= (1 - e) ^ n.
  Proof.
    induction n as [|n IH]; [cbn; lra|]. rewrite S_INR. cbn [pow].
    apply Rle_trans with ((1 - e) * (1 - INR n * e)); [|apply Rmult_le_compat_l; lra].
    assert (0 <= INR n * (e * e)) by (apply Rmult_le_pos; [apply pos_INR|apply Rmult_le_pos; lra]). lra.
  Qed.
  Lemma growth n : 2 * INR n * e <= 1 -> (1 + e) ^ n <= 1 + 2 * INR n * e.
  Proof.
    induction n as [|n IH]; intros H; [cbn; lra|]. rewrite S_INR in *. cbn [pow].
    assert (H' : 2 * INR n * e <= 1) by lra. specialize (IH H').
    apply Rle_trans with ((1 + e) * (1 + 2 * INR n * e)); [apply Rmult_le_compat_l; lra|].
    assert (2 * INR n * e * e <= 1 * e) by (apply Rmult_le_compat_r; lra). lra.
  Qed.

  Lemma approx_abs n v x : 0 <= x -> 2 * INR n * e <= 1 -> approx n v x -> Rabs (v - x) <= 2 * INR n * e * x.
  Proof.
    intros X H [L U]. pose proof (bernoulli n) as B. pose proof (growth n H) as G. apply Rabs_le.
    assert (x * (1 - INR n * e) <= x * (1 - e) ^ n) by (apply Rmult_le_compat_l; lra).
    assert (x * (1 + e) ^ n <= x * (1 + 2 * INR n * e)) by (apply Rmult_le_compat_l; lra).
    assert (0 <= x * (INR n * e)) by (apply Rmult_le_pos; [lra|apply Rmult_le_pos; [apply pos_INR|lra]]). split; lra.
  Qed.
End Errors.
