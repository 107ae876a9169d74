(** Frequency analysis of records. *)
From Coq Require Import Reals ZArith List Bool Lra Lia Psatz.
From Verif Require Import Base BaseLemmas Model_Fourier Spec_Fourier.
Import ListNotations.
Open Scope R_scope.

Lemma Rceil_spec x : IZR (Rceil x) - 1 < x <= IZR (Rceil x).
Proof.
  unfold Rceil, Rfloor. rewrite opp_IZR. destruct (base_Int_part (- x)) as [A B].
  lra.
Qed.
Lemma Rceil_IZR z : Rceil (IZR z) = z.
Proof.
  destruct (Rceil_spec (IZR z)) as [A B]. apply le_IZR in B.
  assert (C : (Rceil (IZR z) - 1 < z)%Z) by (apply lt_IZR; rewrite minus_IZR; lra). lia.
Qed.
Lemma fdiv_ok a b : b <> 0 -> fdiv a b = Ok (a / b).
Proof. intros H. unfold fdiv. destruct (Req_EM_T b 0); [contradiction|reflexivity]. Qed.

(** The record is padded to twice its length unless something is asked for. *)
Lemma padding_default L dt : (0 < L)%nat -> 0 < dt ->
  compute_padding L dt None None None = Ok (Z.of_nat L, INR L * dt).
Proof.
  intros HL Hd. assert (P : 0 < INR L) by (apply lt_0_INR; lia). unfold compute_padding.
  rewrite (fdiv_ok (INR L / 2)) by nra. cbn [bind fst snd].
  rewrite !fdiv_ok; cbn [bind]; rewrite ?fdiv_ok; cbn [bind]; try (apply Rgt_not_eq; nra); try nra; try lra.
  - replace (INR L / ((INR L / 2 / (dt * INR L) - 0) * dt)) with (IZR (2 * Z.of_nat L)).
    + rewrite Rceil_IZR. do 2 f_equal. lia.
    + rewrite mult_IZR, <- INR_IZR_INZ. field. lra.
  - apply Rgt_not_eq. replace ((INR L / 2 / (dt * INR L) - 0) * dt) with (1 / 2) by (field; lra). lra.
Qed.

(** With a band and a number of bins: the least length for which they fit. *)
Lemma padding_window L dt b e n resolution : (0 < L)%nat -> 0 < dt -> b < e -> 0 < n ->
  exists p, compute_padding L dt (Some (b, e)) (Some n) resolution = Ok (p, INR L * dt)
    /\ let P := (Z.of_nat L + p)%Z in
       (0 < P)%Z /\ bins_fit n P dt (e - b) /\ forall P', (0 < P')%Z -> bins_fit n P' dt (e - b) -> (P <= P')%Z.
Proof.
  intros HL Hd Hbe Hn. assert (P : 0 < INR L) by (apply lt_0_INR; lia). unfold compute_padding. cbn [bind fst snd].
  replace (truthy (Some n) || truthy resolution) with true.
  2:{ cbn. unfold Reqb. destruct (Req_EM_T n 0); [lra|reflexivity]. }
  assert (W : 0 < (e - b) * dt) by nra.
  rewrite !fdiv_ok; cbn [bind]; rewrite ?fdiv_ok; cbn [bind]; try (apply Rgt_not_eq; nra); try lra; try nra.
  eexists. split; [reflexivity|]. cbn zeta. set (q := n / ((e - b) * dt)).
  replace (Z.of_nat L + (Rceil q - Z.of_nat L))%Z with (Rceil q) by lia.
  destruct (Rceil_spec q) as [A B]. assert (Q : 0 < q) by (apply Rdiv_lt_0_compat; lra).
  assert (F : forall P', (0 < P')%Z -> (bins_fit n P' dt (e - b) <-> q <= IZR P')).
  { intros P' HP. apply IZR_lt in HP. unfold bins_fit.
    replace (n * (1 / (IZR P' * dt))) with (q * (e - b) / IZR P') by (unfold q; field; lra).
    split; intros H.
    - apply Rmult_le_reg_r with ((e - b) / IZR P'); [apply Rdiv_lt_0_compat; lra|].
      replace (IZR P' * ((e - b) / IZR P')) with (e - b) by (field; lra).
      replace (q * ((e - b) / IZR P')) with (q * (e - b) / IZR P') by (field; lra). exact H.
    - apply Rmult_le_reg_r with (IZR P'); [lra|]. replace (q * (e - b) / IZR P' * IZR P') with (q * (e - b)) by (field; lra). nra. }
  assert (Z0 : (0 < Rceil q)%Z) by (apply lt_IZR; lra).
  split; [exact Z0|]. split; [apply F; auto|]. intros P' HP H. apply F in H; auto.
  assert (C : IZR (Rceil q) - 1 < IZR P') by lra. rewrite <- minus_IZR in C. apply lt_IZR in C. lia.
Qed.

(** Asking for a resolution gives a negative length. *)
Lemma padding_resolution L dt window r : (0 < L)%nat -> 0 < dt -> 0 < r ->
  (forall b e, window = Some (b, e) -> b < e) ->
  exists p, compute_padding L dt window None (Some r) = Ok (p, INR L * dt) /\ (Z.of_nat L + p <= 0)%Z.
Proof.
  intros HL Hd Hr Hw. assert (P : 0 < INR L) by (apply lt_0_INR; lia).
  assert (G : forall b e, b < e ->
    exists p, (let! bins := fdiv (b - e) r in let! _ := fdiv 1 (INR L * dt) in let! rate := fdiv 1 dt in
               let! _ := fdiv rate bins in let! q := fdiv bins ((e - b) * dt) in
               Ok ((Rceil q - Z.of_nat L)%Z, INR L * dt)) = Ok (p, INR L * dt) /\ (Z.of_nat L + p <= 0)%Z).
  { intros b e Hbe. assert (N : (b - e) / r < 0).
    { replace ((b - e) / r) with (- ((e - b) / r)) by (field; lra). assert (0 < (e - b) / r) by (apply Rdiv_lt_0_compat; lra). lra. }
    rewrite !fdiv_ok; cbn [bind]; rewrite ?fdiv_ok; cbn [bind]; rewrite ?fdiv_ok; cbn [bind];
      try (apply Rgt_not_eq; nra); try lra; try nra.
    eexists. split; [reflexivity|]. set (q := _ / _ / _).
    assert (Q : q < 0).
    { unfold q. replace ((b - e) / r / ((e - b) * dt)) with (- (1 / (r * dt))) by (field; lra).
      assert (0 < 1 / (r * dt)) by (apply Rdiv_lt_0_compat; nra). lra. }
    destruct (Rceil_spec q) as [A B]. assert (C : IZR (Rceil q) < 1) by lra. apply lt_IZR in C. lia. }
  unfold compute_padding. destruct window as [[b e]|].
  - cbn [bind fst snd]. apply G. auto.
  - rewrite (fdiv_ok (INR L / 2)) by nra. cbn [bind fst snd]. apply G.
    replace (INR L / 2 / (dt * INR L)) with (1 / (2 * dt)) by (field; lra). apply Rdiv_lt_0_compat; lra.
Qed.

(** The frequencies of the bins *)
Lemma fftfreq_ok n d : (0 < n)%nat -> 0 < d ->
  exists fs, fftfreq n d = Ok fs /\ length fs = n
    /\ forall k, (k < n)%nat ->
         nth k fs 0 = (if (2 * k <? n)%nat then INR k else INR k - INR n) / (INR n * d)
         /\ - (1 / (2 * d)) <= nth k fs 0 < 1 / (2 * d).
Proof.
  intros Hn Hd. assert (P : 0 < INR n) by (apply lt_0_INR; lia). unfold fftfreq. rewrite fdiv_ok by nra. cbn [bind].
  set (half := ((n - 1) / 2 + 1)%nat). eexists. split; [reflexivity|].
  assert (Hh : (2 * half = n \/ 2 * half = n + 1)%nat).
  { unfold half. pose proof (Nat.div_mod (n - 1) 2 ltac:(lia)). pose proof (Nat.mod_upper_bound (n - 1) 2 ltac:(lia)). lia. }
  split. { rewrite app_length, !map_length, !seq_length. lia. }
  intros k Hk.
  assert (V : nth k (map (fun k => INR k * (1 / (INR n * d))) (seq 0 half) ++
      map (fun k => - INR (n - k) * (1 / (INR n * d))) (seq half (n - half))) 0
      = (if (2 * k <? n)%nat then INR k else INR k - INR n) / (INR n * d)).
  { destruct (Nat.ltb_spec (2 * k) n) as [H|H].
    - rewrite app_nth1 by (rewrite map_length, seq_length; lia).
      rewrite nth_indep with (d' := (fun k => INR k * (1 / (INR n * d))) 0%nat) by (rewrite map_length, seq_length; lia).
      rewrite (map_nth (fun k => INR k * (1 / (INR n * d)))), seq_nth by lia. cbn [Nat.add]. field. lra.
    - rewrite app_nth2 by (rewrite map_length, seq_length; lia). rewrite map_length, seq_length.
      rewrite nth_indep with (d' := (fun k => - INR (n - k) * (1 / (INR n * d))) 0%nat) by (rewrite map_length, seq_length; lia).
      rewrite (map_nth (fun k => - INR (n - k) * (1 / (INR n * d)))), seq_nth by lia.
      replace (half + (k - half))%nat with k by lia. rewrite minus_INR by lia. field. lra. }
  split; [exact V|]. rewrite V.
  replace (1 / (2 * d)) with (INR n / 2 / (INR n * d)) by (field; lra).
  replace (- (INR n / 2 / (INR n * d))) with (- (INR n / 2) / (INR n * d)) by (field; lra).
  assert (D : 0 < / (INR n * d)) by (apply Rinv_0_lt_compat; nra). unfold Rdiv.
  destruct (Nat.ltb_spec (2 * k) n) as [H|H].
  - assert (2 * INR k < INR n) by (apply lt_INR in H; rewrite mult_INR in H; cbn in H; lra).
    pose proof (pos_INR k). split; [apply Rmult_le_compat_r; lra|apply Rmult_lt_compat_r; lra].
  - assert (INR n <= 2 * INR k) by (apply le_INR in H; rewrite mult_INR in H; cbn in H; lra).
    assert (INR k < INR n) by (apply lt_INR; lia). split; [apply Rmult_le_compat_r; lra|apply Rmult_lt_compat_r; lra].
Qed.

Lemma frequencies_ok n d : (0 < n)%nat -> 0 < d ->
  (exists fs, fftfreq n d = Ok fs /\ compute_frequencies n d None = Ok (fs, 0%Z, (-1)%Z))
  /\ forall w, compute_frequencies n d (Some w) = Err NotImplementedError.
Proof.
  intros Hn Hd. destruct (fftfreq_ok n d Hn Hd) as [fs [E _]]. unfold compute_frequencies. rewrite E. cbn. eauto.
Qed.
(** The range holds negative frequencies. *)
Lemma frequencies_negative n d : (4 <= n)%nat -> 0 < d ->
  exists fs, fftfreq n d = Ok fs /\ exists f, In f (but_last fs) /\ f < 0.
Proof.
  intros Hn Hd. destruct (fftfreq_ok n d ltac:(lia) Hd) as [fs [E [Ln H]]]. exists fs. split; [exact E|].
  exists (nth (n - 2) fs 0).
  assert (K : forall l, (2 <= length l)%nat -> In (nth (length l - 2) l 0) (but_last l)).
  { intros l Hl. unfold but_last. destruct (exists_last (l := l)) as [l' [z ->]]; [destruct l; cbn in *; try lia; discriminate|].
    rewrite removelast_last, app_length in *. cbn in *. rewrite app_nth1 by lia. apply nth_In. lia. }
  split; [rewrite <- Ln; apply K; lia|]. destruct (H (n - 2)%nat ltac:(lia)) as [V _]. rewrite V.
  destruct (Nat.ltb_spec (2 * (n - 2)) n); [lia|]. rewrite minus_INR by lia. cbn [INR].
  replace ((INR n - (1 + 1) - INR n) / (INR n * d)) with (- (2 / (INR n * d))) by (field; split; [lra|apply not_0_INR; lia]).
  assert (P : 0 < INR n) by (apply lt_0_INR; lia). assert (0 < 2 / (INR n * d)) by (apply Rdiv_lt_0_compat; nra). lra.
Qed.

Lemma fft_raises steps record dt window num_bins resolution :
  (steps = 0%nat -> FFT steps record dt window num_bins resolution = Ok ([], []))
  /\ (steps <> 0%nat -> exists e, FFT steps record dt window num_bins resolution = Err e).
Proof.
  unfold FFT. split; [intros ->; reflexivity|]. intros H. apply Nat.eqb_neq in H. rewrite H. unfold bind.
  destruct record; [|eauto]. destruct (compute_padding _ _ _ _ _); eauto.
Qed.

(** When a padding can be computed. *)
Lemma fdiv_0 a : fdiv a 0 = Err ZeroDivisionError.
Proof. unfold fdiv. destruct (Req_EM_T 0 0); [reflexivity|lra]. Qed.
Lemma padding_raises L dt window nb r :
  let fails := L = 0%nat \/ dt = 0 \/ (exists b, window = Some (b, b)) \/ (nb = None /\ r = Some 0)
               \/ (nb = Some 0 /\ exists x, r = Some x /\ x <> 0) in
  (fails -> compute_padding L dt window nb r = Err ZeroDivisionError) /\
  (~ fails -> exists p, compute_padding L dt window nb r = Ok (p, INR L * dt)).
Proof.
  intros fails. unfold compute_padding.
  destruct (Nat.eq_dec L 0) as [HL|HL].
  { split; [|intros N; exfalso; apply N; left; exact HL]. intros _. subst L. cbn [INR]. unfold fdiv, truthy.
    destruct window as [[b e]|]; cbn [bind fst snd]; rewrite ?Rmult_0_r, ?Rmult_0_l;
      repeat first [progress cbn [bind] | reflexivity | match goal with |- context [Req_EM_T ?x ?y] => destruct (Req_EM_T x y) end
                   | match goal with |- context [match ?x with Some _ => _ | None => _ end] => destruct x end
                   | match goal with |- context [if ?x then _ else _] => destruct x end | lra]. }
  assert (PL : 0 < INR L) by (apply lt_0_INR; lia).
  destruct (Req_dec dt 0) as [Hd|Hd].
  { split; [|intros N; exfalso; apply N; right; left; exact Hd]. intros _. subst dt. unfold fdiv, truthy.
    destruct window as [[b e]|]; cbn [bind fst snd]; rewrite ?Rmult_0_r, ?Rmult_0_l;
      repeat first [progress cbn [bind] | reflexivity | match goal with |- context [Req_EM_T ?x ?y] => destruct (Req_EM_T x y) end
                   | match goal with |- context [match ?x with Some _ => _ | None => _ end] => destruct x end
                   | match goal with |- context [if ?x then _ else _] => destruct x end | lra]. }
  assert (Hp : dt * INR L <> 0) by nra. assert (Hq : INR L * dt <> 0) by nra.
  set (be := match window with None => (0, INR L / 2 / (dt * INR L)) | Some w => w end).
  replace (match window with None => bind (fdiv (INR L / 2) (dt * INR L)) (fun e => Ok (0, e)) | Some w => Ok w end) with (@Ok (R * R) be)
    by (unfold be; destruct window; [reflexivity|]; rewrite fdiv_ok by exact Hp; reflexivity).
  cbn [bind].
  assert (Hbe : fst be = snd be <-> exists b, window = Some (b, b)).
  { unfold be. destruct window as [[b e]|]; cbn [fst snd].
    - split; [intros ->; eauto|intros [x [= -> ->]]; reflexivity].
    - split; [|intros [x [=]]]. intros E. exfalso. replace (INR L / 2 / (dt * INR L)) with (/ (2 * dt)) in E by (field; lra).
      assert (2 * dt <> 0) by lra. apply Rinv_neq_0_compat in H. congruence. }
  clearbody be. destruct be as [b e]. cbn [fst snd] in *. rewrite (fdiv_ok 1 (INR L * dt)) by exact Hq. rewrite (fdiv_ok 1 dt) by exact Hd. cbn [bind].
  assert (Hi : 1 / dt <> 0) by (unfold Rdiv; rewrite Rmult_1_l; apply Rinv_neq_0_compat; exact Hd).
  assert (FIN : forall bins, bins <> 0 -> b <> e ->
     exists p, (let! _ := fdiv (1 / dt) bins in let! q := fdiv bins ((e - b) * dt) in Ok ((Rceil q - Z.of_nat L)%Z, INR L * dt)) = Ok (p, INR L * dt)).
  { intros bins N1 N2. rewrite fdiv_ok by exact N1. cbn [bind]. rewrite fdiv_ok by (intros E; apply Rmult_integral in E; lra). eexists. reflexivity. }
  assert (BAD : forall bins, b = e -> (let! _ := fdiv (1 / dt) bins in let! q := fdiv bins ((e - b) * dt) in Ok ((Rceil q - Z.of_nat L)%Z, INR L * dt)) = Err ZeroDivisionError).
  { intros bins ->. replace ((e - e) * dt) with 0 by ring. rewrite !fdiv_0. unfold fdiv. destruct (Req_EM_T bins 0); reflexivity. }
  destruct nb as [n|], r as [x|]; unfold truthy; cbn [orb].
  - destruct (Req_dec n 0) as [N|N].
    + subst n. replace (Reqb 0 0) with true by (symmetry; apply Reqb_true; reflexivity). cbn [negb orb].
      destruct (Req_dec x 0) as [X|X].
      * subst x. replace (Reqb 0 0) with true by (symmetry; apply Reqb_true; reflexivity). cbn [negb bind]. split.
        -- intros [F|[F|[F|[[F _]|[_ (y & [= <-] & Y)]]]]]; try lra; try discriminate; try contradiction. apply BAD. tauto.
        -- intros F. apply FIN; [lra|]. intros E. apply F. right; right; left. tauto.
      * replace (Reqb x 0) with false by (symmetry; apply Reqb_false; exact X). cbn [negb bind]. rewrite fdiv_0. cbn [bind]. split; [reflexivity|].
        intros F. exfalso. apply F. right; right; right; right. eauto.
    + replace (Reqb n 0) with false by (symmetry; apply Reqb_false; exact N). cbn [negb orb bind]. split.
      * intros [F|[F|[F|[[F _]|[[= F] _]]]]]; try lra; try discriminate; try contradiction. apply BAD. tauto.
      * intros F. apply FIN; [exact N|]. intros E. apply F. right; right; left. tauto.
  - destruct (Req_dec n 0) as [N|N].
    + subst n. replace (Reqb 0 0) with true by (symmetry; apply Reqb_true; reflexivity). cbn [negb orb bind]. split.
      * intros [F|[F|[F|[[F _]|[_ (y & [=] & Y)]]]]]; try lra; try discriminate; try contradiction. apply BAD. tauto.
      * intros F. apply FIN; [lra|]. intros E. apply F. right; right; left. tauto.
    + replace (Reqb n 0) with false by (symmetry; apply Reqb_false; exact N). cbn [negb orb bind]. split.
      * intros [F|[F|[F|[[F _]|[[= F] _]]]]]; try lra; try discriminate; try contradiction. apply BAD. tauto.
      * intros F. apply FIN; [exact N|]. intros E. apply F. right; right; left. tauto.
  - destruct (Req_dec x 0) as [X|X].
    + subst x. rewrite fdiv_0. cbn [bind]. split; [reflexivity|]. intros F. exfalso. apply F. right; right; right; left. auto.
    + rewrite fdiv_ok by exact X. cbn [bind]. split.
      * intros [F|[F|[F|[[_ [= F]]|[[=] _]]]]]; try lra; try contradiction. apply BAD. tauto.
      * intros F. assert (b <> e) by (intros E; apply F; right; right; left; tauto). apply FIN; [|assumption].
        intros E. apply Rmult_integral in E. destruct E as [E|E]; [lra|]. apply Rinv_neq_0_compat in E; assumption.
  - cbn [bind]. split.
    + intros [F|[F|[F|[[_ [=]]|[[=] _]]]]]; try lra; try contradiction. apply BAD. tauto.
    + intros F. apply FIN; [lra|]. intros E. apply F. right; right; left. tauto.
Qed.
Lemma padding_no_bins L dt window r : r = None \/ r = Some 0 ->
  compute_padding L dt window (Some 0) r = compute_padding L dt window None None.
Proof.
  intros H. unfold compute_padding, truthy. replace (Reqb 0 0) with true by (symmetry; apply Reqb_true; reflexivity).
  destruct H as [-> | ->]; cbn [negb orb]; [reflexivity|]. replace (Reqb 0 0) with true by (symmetry; apply Reqb_true; reflexivity). reflexivity.
Qed.
