From Coq Require Import Reals ZArith String List Bool Lra Lia Psatz.
From Verif Require Import Base BaseLemmas Cplx CplxLemmas Model_Materials Proof_Materials Model_EpsGrid Spec_EpsGrid.
Import ListNotations.
Open Scope R_scope.

(** * lists *)
Lemma mapi_from_length {A B} (f : nat -> A -> B) l i : length (mapi_from i f l) = length l.
Proof. revert i; induction l; simpl; auto. Qed.
Lemma mapi_length {A B} (f : nat -> A -> B) l : length (mapi f l) = length l.
Proof. apply mapi_from_length. Qed.
Lemma mapi_from_nth {A B} (f : nat -> A -> B) l i k d d' : (k < length l)%nat ->
  nth k (mapi_from i f l) d' = f (i + k)%nat (nth k l d).
Proof.
  revert i k. induction l; intros i k H; simpl in *; [lia|].
  destruct k; simpl; [f_equal; lia|]. rewrite IHl by lia. f_equal. lia.
Qed.
Lemma mapi_nth {A B} (f : nat -> A -> B) l k d d' : (k < length l)%nat ->
  nth k (mapi f l) d' = f k (nth k l d).
Proof. apply (mapi_from_nth f l 0). Qed.
Lemma mapi_in {A B} (f : nat -> A -> B) l b : In b (mapi f l) -> exists i a, In a l /\ b = f i a.
Proof.
  unfold mapi. generalize 0%nat. induction l; simpl; intros n H; [tauto|].
  destruct H as [<-|H]; [eauto|]. destruct (IHl _ H) as (i & x & ? & ?); eauto.
Qed.

Lemma flat_map_length_k {A B} (f : A -> list B) k l : (forall x, In x l -> length (f x) = k) ->
  length (flat_map f l) = (length l * k)%nat.
Proof.
  induction l; simpl; intros H; auto. rewrite app_length, IHl, H; auto.
Qed.
Lemma flat_map_nth {A B} (f : A -> list B) k l i j d dx : (forall x, In x l -> length (f x) = k) ->
  (i < length l)%nat -> (j < k)%nat -> nth (i * k + j) (flat_map f l) d = nth j (f (nth i l dx)) d.
Proof.
  revert i. induction l as [|a l IH]; simpl; intros i H Hi Hj; [lia|].
  destruct i.
  - simpl. rewrite app_nth1; auto. rewrite H; auto.
  - rewrite app_nth2; rewrite (H a) by auto; [|simpl; lia].
    replace (S i * k + j - k)%nat with (i * k + j)%nat by (simpl; lia). apply IH; auto. lia.
Qed.
Lemma concat_flat_map {A} (l : list (list A)) : concat l = flat_map (fun x => x) l.
Proof. induction l; simpl; congruence. Qed.
Lemma concat_nth {A} (l : list (list A)) k i j d : (forall x, In x l -> length x = k) ->
  (i < length l)%nat -> (j < k)%nat -> nth (i * k + j) (concat l) d = nth j (nth i l []) d.
Proof. intros. rewrite concat_flat_map. rewrite flat_map_nth with (dx := []) ; auto. Qed.
Lemma concat_length_k {A} (l : list (list A)) k : (forall x, In x l -> length x = k) ->
  length (concat l) = (length l * k)%nat.
Proof. intros. rewrite concat_flat_map. apply flat_map_length_k; auto. Qed.

Lemma repeat_interleave_length {A} n (l : list A) : length (repeat_interleave n l) = (length l * n)%nat.
Proof. unfold repeat_interleave. apply flat_map_length_k. intros. apply repeat_length. Qed.
Lemma nth_repeat_lt {A} (a : A) n i d : (i < n)%nat -> nth i (repeat a n) d = a.
Proof. revert i; induction n; intros [|i] H; simpl; auto; try lia. apply IHn; lia. Qed.
Lemma repeat_interleave_nth {A} n (l : list A) i d : (i < length l * n)%nat ->
  nth i (repeat_interleave n l) d = nth (i / n) l d.
Proof.
  intros H. assert (n <> 0)%nat by nia.
  rewrite (Nat.div_mod i n) at 1 by auto. rewrite Nat.mul_comm.
  unfold repeat_interleave.
  assert (i / n < length l)%nat by (apply Nat.div_lt_upper_bound; lia).
  pose proof (Nat.mod_upper_bound i n ltac:(auto)).
  rewrite flat_map_nth with (dx := d); auto.
  - apply nth_repeat_lt; auto.
  - intros; apply repeat_length.
Qed.
Lemma repeat_interleave_in {A} n (l : list A) a : In a (repeat_interleave n l) -> In a l.
Proof.
  unfold repeat_interleave. rewrite in_flat_map. intros (x & Hx & H). apply repeat_spec in H. congruence.
Qed.

Lemma nth_map_seq {A} (f : nat -> A) n i d : (i < n)%nat -> nth i (map f (seq 0 n)) d = f i.
Proof.
  intros. rewrite nth_map_in with (d := 0%nat) by (rewrite seq_length; auto). rewrite seq_nth; auto.
Qed.

(** * tensors *)
Lemma shape4_nth {A} (g : grid4 A) a b c d x y l : shape4 g a b c d ->
  (x < a)%nat -> (y < b)%nat -> (l < c)%nat ->
  length g = a /\ length (nth x g []) = b /\ length (nth y (nth x g []) []) = c
  /\ length (nth l (nth y (nth x g []) []) []) = d.
Proof.
  intros [H0 H] Hx Hy Hl. split; auto.
  destruct (H (nth x g [])) as [H1 H']; [apply nth_In; lia|]. split; auto.
  destruct (H' (nth y (nth x g []) [])) as [H2 H'']; [apply nth_In; lia|]. split; auto.
  apply H''. apply nth_In; lia.
Qed.

Lemma at4_map3 {A B} (f : list A -> list B) (g : grid4 A) a b c d dB x y l w :
  shape4 g a b c d -> (x < a)%nat -> (y < b)%nat -> (l < c)%nat ->
  at4 (map3 f g) dB x y l w = nth w (f (nth l (nth y (nth x g []) []) [])) dB.
Proof.
  intros H Hx Hy Hl. destruct (shape4_nth g a b c d x y l H Hx Hy Hl) as (L1 & L2 & L3 & L4).
  unfold at4, map3.
  rewrite (nth_map_in _ g x []) by lia. rewrite (nth_map_in _ _ y []) by lia.
  rewrite (nth_map_in _ _ l []) by lia. auto.
Qed.

Lemma shape4_map3 {A B} (f : list A -> list B) (g : grid4 A) a b c d d' :
  shape4 g a b c d -> (forall v, length v = d -> length (f v) = d') -> shape4 (map3 f g) a b c d'.
Proof.
  intros [H0 H] Hf. unfold map3. split; [rewrite map_length; auto|].
  intros p Hp. apply in_map_iff in Hp. destruct Hp as (p0 & <- & Hp). destruct (H _ Hp) as [H1 H'].
  split; [rewrite map_length; auto|].
  intros q Hq. apply in_map_iff in Hq. destruct Hq as (q0 & <- & Hq). destruct (H' _ Hq) as [H2 H''].
  split; [rewrite map_length; auto|].
  intros r Hr. apply in_map_iff in Hr. destruct Hr as (r0 & <- & Hr). auto.
Qed.

Lemma at4_map4i {A B} (f : nat -> nat -> nat -> nat -> A -> B) (g : grid4 A) a b c d dA dB x y l w :
  shape4 g a b c d -> (x < a)%nat -> (y < b)%nat -> (l < c)%nat -> (w < d)%nat ->
  at4 (map4i f g) dB x y l w = f x y l w (at4 g dA x y l w).
Proof.
  intros H Hx Hy Hl Hw. destruct (shape4_nth g a b c d x y l H Hx Hy Hl) as (L1 & L2 & L3 & L4).
  unfold at4, map4i.
  rewrite (mapi_nth _ g x []) by lia. rewrite (mapi_nth _ _ y []) by lia.
  rewrite (mapi_nth _ _ l []) by lia. rewrite (mapi_nth _ _ w dA) by lia. auto.
Qed.
Lemma shape4_map4i {A B} (f : nat -> nat -> nat -> nat -> A -> B) (g : grid4 A) a b c d :
  shape4 g a b c d -> shape4 (map4i f g) a b c d.
Proof.
  intros [H0 H]. unfold map4i. split; [rewrite mapi_length; auto|].
  intros p Hp. apply mapi_in in Hp. destruct Hp as (i & p0 & Hp & ->). destruct (H _ Hp) as [H1 H'].
  split; [rewrite mapi_length; auto|].
  intros q Hq. apply mapi_in in Hq. destruct Hq as (j & q0 & Hq & ->). destruct (H' _ Hq) as [H2 H''].
  split; [rewrite mapi_length; auto|].
  intros r Hr. apply mapi_in in Hr. destruct Hr as (k & r0 & Hr & ->). rewrite mapi_length. auto.
Qed.

Lemma reshape4_ok {A} (d : A) n1 n2 n3 n4 l : length l = (n1 * n2 * n3 * n4)%nat ->
  exists g, reshape4 d n1 n2 n3 n4 l = Ok g /\ shape4 g n1 n2 n3 n4 /\
  forall i j k m, (i < n1)%nat -> (j < n2)%nat -> (k < n3)%nat -> (m < n4)%nat ->
    at4 g d i j k m = nth (((i * n2 + j) * n3 + k) * n4 + m) l d.
Proof.
  intros H. unfold reshape4. rewrite H, Nat.eqb_refl. eexists. split; [reflexivity|]. split.
  - split; [rewrite map_length, seq_length; auto|].
    intros p Hp. apply in_map_iff in Hp. destruct Hp as (i & <- & _).
    split; [rewrite map_length, seq_length; auto|].
    intros q Hq. apply in_map_iff in Hq. destruct Hq as (j & <- & _).
    split; [rewrite map_length, seq_length; auto|].
    intros r Hr. apply in_map_iff in Hr. destruct Hr as (k & <- & _).
    rewrite map_length, seq_length; auto.
  - intros. unfold at4. rewrite !nth_map_seq by auto. auto.
Qed.

(** both oversamplings *)
Definition oversample {A} (os : nat) (g : grid4 A) : grid4 A :=
  map (repeat_interleave os) (repeat_interleave os g).

Lemma oversample_shape {A} os (g : grid4 A) a b c d : shape4 g a b c d ->
  shape4 (oversample os g) (a * os) (b * os) c d.
Proof.
  intros [H0 H]. unfold oversample. split; [rewrite map_length, repeat_interleave_length; lia|].
  intros p Hp. apply in_map_iff in Hp. destruct Hp as (p0 & <- & Hp). apply repeat_interleave_in in Hp.
  destruct (H _ Hp) as [H1 H']. split; [rewrite repeat_interleave_length; lia|].
  intros q Hq. apply repeat_interleave_in in Hq. auto.
Qed.
Lemma oversample_cell {A} os (g : grid4 A) a b c d x y : shape4 g a b c d ->
  (x < a * os)%nat -> (y < b * os)%nat ->
  nth y (nth x (oversample os g) []) [] = nth (y / os) (nth (x / os) g []) [].
Proof.
  intros [H0 H] Hx Hy. unfold oversample.
  rewrite (nth_map_in _ _ x []) by (rewrite repeat_interleave_length, H0; lia).
  rewrite (repeat_interleave_nth os g) by (rewrite H0; lia).
  assert (os <> 0)%nat by (intros ->; lia).
  assert (x / os < a)%nat by (apply Nat.div_lt_upper_bound; lia).
  destruct (H (nth (x / os) g [])) as [L1 _]; [apply nth_In; lia|].
  rewrite repeat_interleave_nth by (rewrite L1; lia). auto.
Qed.

(** * clip, sign, avoid_zero *)
Lemma clip_range lo hi x : lo <= hi -> lo <= clip lo hi x <= hi.
Proof.
  intros. unfold clip. split.
  - apply Rmin_glb; auto. apply Rmax_r.
  - apply Rmin_r.
Qed.
Lemma clip_id lo hi x : lo <= x <= hi -> clip lo hi x = x.
Proof. intros. unfold clip. rewrite Rmax_left by lra. rewrite Rmin_left by lra. auto. Qed.
Lemma clip_mono lo hi x y : x <= y -> clip lo hi x <= clip lo hi y.
Proof. intros. unfold clip, Rmin, Rmax. repeat destruct (Rle_dec _ _); lra. Qed.

Lemma avoid_zero1_cases c r : 0 < c ->
  (Rabs r >= c /\ avoid_zero1 c r = r) \/
  (0 <= r < c /\ avoid_zero1 c r = c) \/ (- c < r < 0 /\ avoid_zero1 c r = - c).
Proof.
  intros Hc. unfold avoid_zero1, Reqb, Rltb, sign.
  destruct (Req_EM_T r 0).
  - right; left. split; [lra|].
    destruct (Rlt_dec c c); [lra|]. simpl. auto.
  - destruct (Rlt_dec r c), (Rlt_dec (- c) r); simpl.
    + destruct (Rlt_dec 0 r); [right; left; split; lra|].
      destruct (Rlt_dec r 0); [right; right; split; lra|lra].
    + left. split; auto. unfold Rabs. destruct (Rcase_abs r); lra.
    + left. split; auto. unfold Rabs. destruct (Rcase_abs r); lra.
    + left. split; auto. unfold Rabs. destruct (Rcase_abs r); lra.
Qed.

Lemma avoid_zero1_spec c r : 0 < c ->
  Rabs (avoid_zero1 c r) >= c /\
  (Rabs r >= c -> avoid_zero1 c r = r) /\
  (r < 0 -> avoid_zero1 c r < 0) /\ (0 <= r -> 0 < avoid_zero1 c r) /\
  Rabs (avoid_zero1 c r - r) <= c /\
  avoid_zero1 c (avoid_zero1 c r) = avoid_zero1 c r.
Proof.
  intros Hc. assert (Big : Rabs (avoid_zero1 c r) >= c).
  { destruct (avoid_zero1_cases c r Hc) as [[H ->]|[[H ->]|[H ->]]]; auto.
    - rewrite Rabs_right; lra.
    - rewrite Rabs_left; lra. }
  assert (Idem : forall s, Rabs s >= c -> avoid_zero1 c s = s).
  { intros s Hs. destruct (avoid_zero1_cases c s Hc) as [[H E]|[[H E]|[H E]]]; auto; exfalso;
      unfold Rabs in Hs; destruct (Rcase_abs s); lra. }
  repeat split; auto.
  - intros. destruct (avoid_zero1_cases c r Hc) as [[H0 ->]|[[H0 ->]|[H0 ->]]]; lra.
  - intros. destruct (avoid_zero1_cases c r Hc) as [[H0 ->]|[[H0 ->]|[H0 ->]]]; try lra.
    unfold Rabs in H0. destruct (Rcase_abs r); lra.
  - destruct (avoid_zero1_cases c r Hc) as [[H ->]|[[H ->]|[H ->]]]; unfold Rabs; destruct (Rcase_abs _); lra.
Qed.

Lemma avoid_zero_grid c (g : grid4 C) a b n m : 0 < c -> shape4 g a b n m ->
  shape4 (avoid_zero_eps c g) a b n m /\
  (forall x y l f, (x < a)%nat -> (y < b)%nat -> (l < n)%nat -> (f < m)%nat ->
    let r := at4 g C0 x y l f in let r' := at4 (avoid_zero_eps c g) C0 x y l f in
    Rabs (Re r') >= c /\ Im r' = Im r /\ (Rabs (Re r) >= c -> r' = r) /\
    (Re r < 0 -> Re r' < 0) /\ (0 <= Re r -> 0 < Re r') /\ Rabs (Re r' - Re r) <= c) /\
  avoid_zero_eps c (avoid_zero_eps c g) = avoid_zero_eps c g.
Proof.
  intros Hc Hs. split; [|split].
  - unfold avoid_zero_eps. eapply shape4_map3; eauto. intros; rewrite map_length; auto.
  - intros x y l f Hx Hy Hl Hf. cbv zeta.
    assert (E : at4 (avoid_zero_eps c g) C0 x y l f =
      (avoid_zero1 c (Re (at4 g C0 x y l f)), Im (at4 g C0 x y l f))).
    { unfold avoid_zero_eps. rewrite (at4_map3 _ _ a b n m) by auto.
      destruct (shape4_nth g a b n m x y l Hs Hx Hy Hl) as (L1 & L2 & L3 & L4).
      rewrite nth_map_in with (d := C0) by lia. reflexivity. }
    rewrite E. simpl. destruct (avoid_zero1_spec c (Re (at4 g C0 x y l f)) Hc) as (A1 & A2 & A3 & A4 & A5 & _).
    repeat split; auto. intros. rewrite A2 by auto. destruct (at4 g C0 x y l f); reflexivity.
  - unfold avoid_zero_eps, map3. rewrite map_map. apply map_ext. intros p.
    rewrite map_map. apply map_ext. intros q. rewrite map_map. apply map_ext. intros r.
    rewrite map_map. apply map_ext. intros e. simpl.
    destruct (avoid_zero1_spec c (Re e) Hc) as (_ & _ & _ & _ & _ & ->). auto.
Qed.

(** * regression *)
Lemma real_of_range cfg o : ranges_ok cfg -> e_avoid_zero cfg = false ->
  e_rmin cfg <= real_of cfg o <= e_rmax cfg.
Proof. intros [H _] E. unfold real_of. rewrite E. apply clip_range; auto. Qed.
Lemma CUTOFF_pos : 0 < CUTOFF. Proof. unfold CUTOFF. lra. Qed.
Lemma real_of_range_az cfg o : ranges_ok cfg ->
  e_rmin cfg <= real_of cfg o <= e_rmax cfg \/ real_of cfg o = / 100 \/ real_of cfg o = - / 100.
Proof.
  intros [H _]. unfold real_of. destruct (e_avoid_zero cfg).
  - destruct (avoid_zero1_cases CUTOFF (clip (e_rmin cfg) (e_rmax cfg) (o * (e_rmax cfg - e_rmin cfg) + e_rmin cfg)) CUTOFF_pos)
      as [[_ ->]|[[_ ->]|[_ ->]]]; auto. left. apply clip_range; auto.
  - left. apply clip_range; auto.
Qed.
Lemma imag_of_range cfg o : ranges_ok cfg -> e_imin cfg <= imag_of cfg o <= e_imax cfg.
Proof. intros [_ H]. apply clip_range; auto. Qed.
Lemma real_of_affine cfg o : ranges_ok cfg -> e_avoid_zero cfg = false -> 0 <= o <= 1 ->
  real_of cfg o = e_rmin cfg + o * (e_rmax cfg - e_rmin cfg).
Proof.
  intros [H _] E Ho. unfold real_of. rewrite E. rewrite clip_id; [ring|]. nra.
Qed.
Lemma imag_of_unreachable cfg o : ranges_ok cfg -> 0 <= o <= 1 ->
  imag_of cfg o <= Rmax (e_imin cfg) (e_imax cfg - e_imin cfg).
Proof.
  intros [_ H] Ho. unfold imag_of, clip.
  apply Rle_trans with (Rmax (o * (e_imax cfg - e_imin cfg)) (e_imin cfg)); [apply Rmin_l|].
  rewrite Rmax_comm. apply Rle_max_compat_l. nra.
Qed.

Lemma regression_rows_ok cfg net nre nim rows : os_ok cfg ->
  eval_model cfg net = Ok (Rows rows) -> rows_ok cfg 2 rows ->
  exists g, regression_grid cfg net nre nim = Ok (if e_add_noise cfg then add_noise cfg nre nim g else g)
  /\ shape4 g (e_Nx cfg) (e_Ny cfg) (e_N_layers cfg) (e_N_freq cfg) /\
  forall x y l f, (x < e_Nx cfg)%nat -> (y < e_Ny cfg)%nat -> (l < e_N_layers cfg)%nat -> (f < e_N_freq cfg)%nat ->
   at4 g C0 x y l f =
    (real_of cfg (nth (f mod 2) (nth (row_no cfg (x / e_os cfg) (y / e_os cfg) l (f / 2)) rows []) 0),
     imag_of cfg (nth ((e_N_freq cfg + f) mod 2)
        (nth (row_no cfg (x / e_os cfg) (y / e_os cfg) l ((e_N_freq cfg + f) / 2)) rows []) 0)).
Proof.
  intros (Hos & HNx & HNy) EV [RL RR].
  set (nxu := (e_Nx cfg / e_os cfg)%nat) in *. set (nyu := (e_Ny cfg / e_os cfg)%nat) in *.
  assert (Ex : (nxu * e_os cfg = e_Nx cfg)%nat).
  { unfold nxu. rewrite (Nat.div_mod (e_Nx cfg) (e_os cfg)) at 2 by lia. rewrite HNx. lia. }
  assert (Ey : (nyu * e_os cfg = e_Ny cfg)%nat).
  { unfold nyu. rewrite (Nat.div_mod (e_Ny cfg) (e_os cfg)) at 2 by lia. rewrite HNy. lia. }
  assert (LC : length (concat rows) = (nxu * nyu * e_N_layers cfg * (2 * e_N_freq cfg))%nat).
  { rewrite (concat_length_k _ 2 RR), RL. lia. }
  destruct (reshape4_ok 0 nxu nyu (e_N_layers cfg) (2 * e_N_freq cfg) _ LC) as (g0 & E0 & S0 & A0).
  set (vec := fun v => combine (map (real_of cfg) (firstn (e_N_freq cfg) v)) (map (imag_of cfg) (skipn (e_N_freq cfg) v))).
  pose proof (oversample_shape (e_os cfg) _ _ _ _ _ S0) as S1. rewrite Ex, Ey in S1.
  assert (LV : forall v, length v = (2 * e_N_freq cfg)%nat -> length (vec v) = e_N_freq cfg).
  { intros v Hv. unfold vec. rewrite combine_length, !map_length, firstn_length, skipn_length, Hv. lia. }
  exists (map3 vec (oversample (e_os cfg) g0)). split; [|split].
  - unfold regression_grid. fold nxu nyu. rewrite EV. unfold bind at 1. rewrite E0. cbn [bind].
    rewrite Ex, Ey, !Nat.eqb_refl. cbn [andb bind]. reflexivity.
  - eapply shape4_map3; eauto.
  - intros x y l f Hx Hy Hl Hf.
    rewrite (at4_map3 _ _ _ _ _ _ _ _ _ _ _ S1) by auto.
    rewrite (oversample_cell _ _ _ _ _ _ _ _ S0) by lia.
    assert (Hx' : (x / e_os cfg < nxu)%nat) by (apply Nat.div_lt_upper_bound; lia).
    assert (Hy' : (y / e_os cfg < nyu)%nat) by (apply Nat.div_lt_upper_bound; lia).
    set (xu := (x / e_os cfg)%nat) in *. set (yu := (y / e_os cfg)%nat) in *.
    destruct (shape4_nth _ _ _ _ _ xu yu l S0 Hx' Hy' Hl) as (_ & _ & _ & L4).
    set (v := nth l (nth yu (nth xu g0 []) []) []) in *.
    assert (V : forall m, (m < 2 * e_N_freq cfg)%nat ->
       nth m v 0 = nth (m mod 2) (nth (row_no cfg xu yu l (m / 2)) rows []) 0).
    { intros m Hm. change (nth m v 0) with (at4 g0 0 xu yu l m). rewrite A0 by auto.
      pose proof (Nat.mod_upper_bound m 2 ltac:(lia)).
      rewrite <- (concat_nth rows 2 (row_no cfg xu yu l (m / 2)) (m mod 2)); auto.
      - f_equal. unfold row_no. fold nyu. rewrite (Nat.div_mod m 2) at 1 by lia. nia.
      - rewrite RL. fold nyu. unfold row_no. fold nyu.
        assert (m / 2 < e_N_freq cfg)%nat by (apply Nat.div_lt_upper_bound; lia).
        assert ((xu * nyu + yu) * e_N_layers cfg + l < nxu * nyu * e_N_layers cfg)%nat.
        { assert (xu * nyu + yu < nxu * nyu)%nat by nia. nia. }
        nia. }
    unfold vec.
    rewrite (nth_indep _ C0 ((real_of cfg 0), (imag_of cfg 0))).
    2: { fold (vec v). rewrite LV; auto. }
    etransitivity; [apply combine_nth; rewrite !map_length, firstn_length, skipn_length; lia|].
    rewrite !map_nth. f_equal; f_equal.
    + rewrite <- V by lia. rewrite <- (firstn_skipn (e_N_freq cfg) v) at 2.
      rewrite app_nth1; auto. rewrite firstn_length; lia.
    + rewrite <- V by lia. rewrite <- (firstn_skipn (e_N_freq cfg) v) at 2.
      rewrite app_nth2; rewrite firstn_length; [|lia]. f_equal. lia.
Qed.

Lemma add_noise_shape cfg nre nim g a b c d : shape4 g a b c d -> shape4 (add_noise cfg nre nim g) a b c d.
Proof. apply shape4_map4i. Qed.
Lemma add_noise_at cfg nre nim g a b c d x y l f : shape4 g a b c d ->
  (x < a)%nat -> (y < b)%nat -> (l < c)%nat -> (f < d)%nat ->
  at4 (add_noise cfg nre nim g) C0 x y l f =
   (clip (e_rmin cfg) (e_rmax cfg)
       (Re (at4 g C0 x y l f) + (nre x y l f - 1 / 2) * 2 * e_noise_scale cfg * (e_rmax cfg - e_rmin cfg)),
     clip (e_imin cfg) (e_imax cfg)
       (Im (at4 g C0 x y l f) + (nim x y l f - 1 / 2) * 2 * e_noise_scale cfg * (e_imax cfg - e_imin cfg))).
Proof. intros. unfold add_noise. rewrite (at4_map4i _ _ _ _ _ _ C0 C0 x y l f H) by auto. reflexivity. Qed.

Lemma entry4_at {A} (g : grid4 A) a b c n d x y l f : shape4 g a b c n ->
  (x < a)%nat -> (y < b)%nat -> (l < c)%nat -> (f < n)%nat -> entry4 g (at4 g d x y l f).
Proof.
  intros S Hx Hy Hl Hf. destruct (shape4_nth g a b c n x y l S Hx Hy Hl) as (L1 & L2 & L3 & L4).
  exists (nth x g []), (nth y (nth x g []) []), (nth l (nth y (nth x g []) []) []).
  repeat split; try (apply nth_In; lia).
Qed.

Lemma entry4_map3 {A B} (f : list A -> list B) g e : entry4 (map3 f g) e ->
  exists a b c, In a g /\ In b a /\ In c b /\ In e (f c).
Proof.
  intros (p & q & r & Hp & Hq & Hr & He). unfold map3 in Hp.
  apply in_map_iff in Hp. destruct Hp as (p0 & <- & Hp).
  apply in_map_iff in Hq. destruct Hq as (q0 & <- & Hq).
  apply in_map_iff in Hr. destruct Hr as (r0 & <- & Hr). eauto 10.
Qed.
Lemma entry4_map4i {A B} (f : nat -> nat -> nat -> nat -> A -> B) g e : entry4 (map4i f g) e ->
  exists x y l w a, e = f x y l w a.
Proof.
  intros (p & q & r & Hp & Hq & Hr & He). unfold map4i in Hp.
  apply mapi_in in Hp. destruct Hp as (i & p0 & Hp & ->).
  apply mapi_in in Hq. destruct Hq as (j & q0 & Hq & ->).
  apply mapi_in in Hr. destruct Hr as (k & r0 & Hr & ->).
  apply mapi_in in He. destruct He as (m & e0 & He & ->). eauto 10.
Qed.

Lemma regression_range cfg net nre nim g : ranges_ok cfg ->
  regression_grid cfg net nre nim = Ok g ->
  forall e, entry4 g e ->
   e_imin cfg <= Im e <= e_imax cfg /\
   (e_avoid_zero cfg = false \/ e_add_noise cfg = true \/ e_model_type cfg = "voxel"%string ->
      e_rmin cfg <= Re e <= e_rmax cfg) /\
   (e_rmin cfg <= Re e <= e_rmax cfg \/ Re e = / 100 \/ Re e = - / 100).
Proof.
  intros HR H e He. unfold regression_grid in H.
  apply bind_ok in H. destruct H as (out & Hout & H). apply bind_ok in H. destruct H as (eps & Heps & H).
  inversion H; subst g; clear H.
  destruct (e_add_noise cfg) eqn:EN.
  - unfold add_noise in He. apply entry4_map4i in He. destruct He as (x & y & l & w & a & ->). simpl.
    destruct HR. pose proof (clip_range (e_rmin cfg) (e_rmax cfg)). pose proof (clip_range (e_imin cfg) (e_imax cfg)).
    repeat split; try (left; split); intros; try apply H1; try apply H2; auto.
  - destruct out as [rows|gv].
    + apply bind_ok in Heps. destruct Heps as (o & Ho & Heps).
      destruct (_ && _); [|discriminate]. inversion Heps; subst eps; clear Heps.
      apply entry4_map3 in He. destruct He as (a & b & c & _ & _ & _ & He).
      destruct e as [er ei].
      pose proof (in_combine_l _ _ _ _ He) as Hre. pose proof (in_combine_r _ _ _ _ He) as Him.
      apply in_map_iff in Hre. destruct Hre as (o1 & <- & _).
      apply in_map_iff in Him. destruct Him as (o2 & <- & _). simpl.
      split; [apply imag_of_range; auto|]. split; [|apply real_of_range_az; auto].
      intros [E|[E|E]]; [apply real_of_range; auto|discriminate|].
      exfalso. unfold eval_model in Hout. rewrite E in Hout. simpl in Hout. discriminate.
    + inversion Heps; subst eps. apply entry4_map3 in He. destruct He as (a & b & c & _ & _ & _ & He).
      apply in_map_iff in He. destruct He as (z & <- & _). simpl. destruct HR.
      split; [apply clip_range; auto|]. split; [intros; apply clip_range; auto|left; apply clip_range; auto].
Qed.

(** avoid_zero_eps works for networks without noise ... *)
Lemma regression_avoid_zero cfg net nre nim g :
  regression_grid cfg net nre nim = Ok g -> e_avoid_zero cfg = true -> e_add_noise cfg = false ->
  e_model_type cfg <> "voxel"%string -> forall e, entry4 g e -> / 100 <= Rabs (Re e).
Proof.
  intros H EA EN EM e He. unfold regression_grid in H.
  apply bind_ok in H. destruct H as (out & Hout & H). apply bind_ok in H. destruct H as (eps & Heps & H).
  inversion H; subst g; clear H. rewrite EN in He.
  destruct out as [rows|gv].
  - apply bind_ok in Heps. destruct Heps as (o & Ho & Heps).
    destruct (_ && _); [|discriminate]. inversion Heps; subst eps; clear Heps.
    apply entry4_map3 in He. destruct He as (a & b & c & _ & _ & _ & He).
    destruct e as [er ei]. pose proof (in_combine_l _ _ _ _ He) as Hre.
    apply in_map_iff in Hre. destruct Hre as (o1 & <- & _). simpl. unfold real_of. rewrite EA.
    apply Rge_le. apply avoid_zero1_spec. apply CUTOFF_pos.
  - exfalso. unfold eval_model in Hout.
    destruct (_ || _); [destruct (get_transformed_grid _ _ _ _) as [[? ?] ?]; apply bind_ok in Hout; destruct Hout as (? & _ & X); discriminate|].
    destruct (String.eqb_spec (e_model_type cfg) "voxel"); [auto|discriminate].
Qed.

(** * sampling coordinates *)
Lemma linspace_tick a n i : (i < n)%nat -> nth i (linspace (- a) a n) 0 = a * tick n i.
Proof.
  intros. rewrite linspace_nth by auto. unfold tick. destruct (Nat.eqb_spec n 1).
  - assert (i = 0)%nat by lia. subst. simpl. lra.
  - unfold Rdiv. ring.
Qed.
Lemma tick_first n : tick n 0 = -1.
Proof. unfold tick. destruct (Nat.eqb n 1); auto. simpl. unfold Rdiv. lra. Qed.
Lemma tick_last n : (2 <= n)%nat -> tick n (n - 1) = 1.
Proof.
  intros. unfold tick. destruct (Nat.eqb_spec n 1); [lia|].
  assert (INR (n - 1) <> 0) by (apply not_0_INR; lia). field_simplify; auto; lra.
Qed.
Lemma tick_strict n i j : (i < j < n)%nat -> tick n i < tick n j.
Proof.
  intros. unfold tick. destruct (Nat.eqb_spec n 1); [lia|].
  assert (0 < / INR (n - 1)) by (apply Rinv_0_lt_compat, lt_0_INR; lia).
  assert (INR i < INR j) by (apply lt_INR; lia). unfold Rdiv. nra.
Qed.

Lemma cumsum_from_length acc l : length (cumsum_from acc l) = length l.
Proof. revert acc; induction l; simpl; auto. Qed.
Lemma cumsum_from_nth acc l i : (i < length l)%nat ->
  nth i (cumsum_from acc l) 0 = acc + Rsum (firstn (S i) l).
Proof.
  revert acc i. induction l; intros acc i H; [simpl in H; lia|].
  destruct i; [simpl; lra|]. simpl cumsum_from. simpl nth. rewrite IHl by (simpl in H; lia).
  simpl. lra.
Qed.

Lemma fold_max_ge l x : x <= fold_left Rmax l x /\ forall y, In y l -> y <= fold_left Rmax l x.
Proof.
  revert x. induction l as [|a l IH]; intros x; simpl; [split; [lra|tauto]|].
  destruct (IH (Rmax x a)) as [A B]. split.
  - pose proof (Rmax_l x a). lra.
  - intros y [<-|Hy]; auto. pose proof (Rmax_r x a). lra.
Qed.
Lemma fold_max_in l x : fold_left Rmax l x = x \/ In (fold_left Rmax l x) l.
Proof.
  revert x. induction l as [|a l IH]; intros x; simpl; auto.
  destruct (IH (Rmax x a)) as [->|H]; auto.
  unfold Rmax. destruct (Rle_dec x a); auto.
Qed.
Lemma Rmaximum_spec l : l <> [] -> In (Rmaximum l) l /\ forall y, In y l -> y <= Rmaximum l.
Proof.
  destruct l as [|x l]; [congruence|]. intros _. simpl. destruct (fold_max_ge l x) as [A B]. split.
  - destruct (fold_max_in l x) as [->|H]; auto.
  - intros y [<-|H]; auto.
Qed.
Lemma Rmaximum_unique l m : l <> [] -> In m l -> (forall y, In y l -> y <= m) -> Rmaximum l = m.
Proof.
  intros Hne Hm Hy. destruct (Rmaximum_spec l Hne) as [A B]. apply Rle_antisym; auto.
Qed.

Lemma Rsum_firstn_mono l i j : (forall x, In x l -> 0 < x) -> (i <= j)%nat ->
  Rsum (firstn i l) <= Rsum (firstn j l).
Proof.
  revert i j. induction l as [|a l IH]; intros i j H Hij; [rewrite !firstn_nil; lra|].
  destruct i, j; simpl; try lia; try lra.
  - assert (0 < a) by (apply H; simpl; auto).
    assert (0 <= Rsum (firstn j l)).
    { apply Rsum_nonneg. intros x Hx. left. apply H. right. rewrite <- (firstn_skipn j l). apply in_or_app; auto. }
    unfold Rsum in *. lra.
  - apply Rplus_le_compat_l. apply IH; [|lia]. intros; apply H; simpl; auto.
Qed.
Lemma Rsum_firstn_strict l i j : (forall x, In x l -> 0 < x) -> (i < j <= length l)%nat ->
  Rsum (firstn i l) < Rsum (firstn j l).
Proof.
  revert i j. induction l as [|a l IH]; intros i j H Hij; [simpl in Hij; lia|].
  destruct i, j; simpl in *; try lia.
  - assert (0 < a) by (apply H; simpl; auto).
    assert (0 <= Rsum (firstn j l)).
    { apply Rsum_nonneg. intros x Hx. left. apply H. right. rewrite <- (firstn_skipn j l). apply in_or_app; auto. }
    unfold Rsum in *. lra.
  - apply Rplus_lt_compat_l. apply IH; [|lia]. intros; apply H; simpl; auto.
Qed.

Lemma ztick_list t N : (2 <= length t)%nat -> (forall x, In x t -> 0 < x) -> length t = N ->
  forall a b, let '(_, _, z) := get_transformed_grid a b N t in
  length z = N /\ forall l, (l < N)%nat -> nth l z 0 = ztick N t l.
Proof.
  intros Ht Hpos HN a b. unfold get_transformed_grid, ztick.
  destruct (Nat.eqb_spec (length t) 1); [lia|].
  set (total := Rsum t).
  assert (HN2 : (2 <= N)%nat) by lia.
  destruct t as [|t0 ts]; [simpl in Ht; lia|]. simpl in Ht.
  assert (Htot : 0 < total) by (apply Rsum_pos; [discriminate|auto]).
  set (z0 := map (fun v => v - nth 0 (t0 :: ts) 0 / total) (cumsum (map (fun t => t / total) (t0 :: ts)))).
  assert (L0 : length z0 = N) by (unfold z0, cumsum; rewrite map_length, cumsum_from_length, map_length; auto).
  assert (E0 : forall l, (l < N)%nat -> nth l z0 0 = height (t0 :: ts) l / total).
  { intros l Hl. unfold z0. rewrite nth_map_in with (d := 0).
    2: { unfold cumsum; rewrite cumsum_from_length, map_length; lia. }
    unfold cumsum. rewrite cumsum_from_nth by (rewrite map_length; lia).
    change (map (fun t => t / total) (t0 :: ts)) with (t0 / total :: map (fun t => t / total) ts).
    simpl firstn. rewrite firstn_map. simpl Rsum. fold (Rsum (map (fun t : R => t / total) (firstn l ts))).
    rewrite Rsum_map_div. unfold height. simpl. unfold Rdiv. ring. }
  assert (Hpos' : forall x, In x ts -> 0 < x) by (intros; apply Hpos; simpl; auto).
  assert (Hlast : 0 < height (t0 :: ts) (length (t0 :: ts) - 1)).
  { unfold height. simpl. rewrite Nat.sub_0_r. rewrite firstn_all. apply Rsum_pos; auto.
    destruct ts; simpl in *; [lia|discriminate]. }
  assert (EM : Rmaximum z0 = height (t0 :: ts) (length (t0 :: ts) - 1) / total).
  { apply Rmaximum_unique.
    - intros E. rewrite E in L0. simpl in L0. subst N. simpl in L0. lia.
    - rewrite <- (E0 (length (t0 :: ts) - 1)%nat) by lia. apply nth_In. lia.
    - intros y Hy. apply (In_nth _ _ 0) in Hy. destruct Hy as (i & Hi & <-). rewrite E0 by lia.
      apply Rmult_le_compat_r; [left; apply Rinv_0_lt_compat; auto|].
      unfold height. simpl tl. apply Rsum_firstn_mono; auto. lia. }
  fold z0. rewrite EM. split; [rewrite map_length; auto|].
  intros l Hl. rewrite nth_map_in with (d := 0) by lia. rewrite E0 by auto. field. split; lra.
Qed.

Lemma ztick_ok t N : (0 < N)%nat -> length t = 1%nat \/ length t = N -> (forall x, In x t -> 0 < x) ->
  forall a b, let '(_, _, z) := get_transformed_grid a b N t in
  length z = N /\ forall l, (l < N)%nat -> nth l z 0 = ztick N t l.
Proof.
  intros HN HL Hp a b. destruct (Nat.eq_dec (length t) 1) as [E|E].
  - unfold get_transformed_grid, ztick. rewrite E. simpl. rewrite linspace_length. split; auto.
    intros. replace (-1) with (- (1)) by lra. rewrite linspace_tick by auto. lra.
  - destruct HL as [?|HL]; [contradiction|]. apply ztick_list; auto. lia.
Qed.

Lemma ztick_facts N t : (forall x, In x t -> 0 < x) -> length t = 1%nat \/ length t = N ->
  (2 <= N)%nat ->
  ztick N t 0 = -1 /\ ztick N t (N - 1) = 1 /\ (forall i j, (i < j < N)%nat -> ztick N t i < ztick N t j).
Proof.
  intros Hp HL HN. unfold ztick. destruct (Nat.eqb_spec (length t) 1).
  - rewrite tick_first, tick_last by auto. repeat split; auto. intros; apply tick_strict; auto.
  - destruct HL as [?|HL]; [contradiction|].
    assert (Hp' : forall x, In x (tl t) -> 0 < x).
    { intros x Hx. apply Hp. destruct t; simpl in *; auto. }
    assert (LT : length (tl t) = (N - 1)%nat) by (destruct t; simpl in *; lia).
    assert (0 < height t (length t - 1)).
    { unfold height. apply Rlt_le_trans with (Rsum (firstn (N - 1) (tl t))).
      - replace 0 with (Rsum (firstn 0 (tl t))) by reflexivity. apply Rsum_firstn_strict; auto. lia.
      - rewrite HL. lra. }
    split; [|split].
    + unfold height at 1. simpl. unfold Rdiv. lra.
    + rewrite HL in *. field_simplify; lra.
    + intros i j Hij.
      assert (height t i < height t j) by (apply Rsum_firstn_strict; auto; lia).
      assert (0 < / height t (length t - 1)) by (apply Rinv_0_lt_compat; auto).
      unfold Rdiv. nra.
Qed.

Lemma firstn_repeat {A} (a : A) k n : firstn k (repeat a n) = repeat a (Nat.min k n).
Proof. revert n; induction k; intros [|n]; simpl; auto. f_equal; auto. Qed.

Lemma ztick_equal N c l : 0 < c -> (2 <= N)%nat -> (l < N)%nat ->
  ztick N (repeat c N) l = ztick N [c] l.
Proof.
  intros Hc HN Hl. unfold ztick. rewrite repeat_length. simpl.
  destruct (Nat.eqb_spec N 1); [lia|]. unfold tick. destruct (Nat.eqb_spec N 1); [lia|].
  unfold height. destruct N; [lia|]. simpl repeat. simpl tl.
  rewrite !firstn_repeat, !Rsum_repeat. rewrite !Nat.min_l by lia.
  assert (INR (S N - 1) <> 0) by (apply not_0_INR; lia). field; repeat split; try lra; auto.
Qed.

Lemma nn_inputs_spec xs ys zs fs :
  length (nn_inputs xs ys zs fs) = (length xs * length ys * length zs * length fs)%nat /\
  forall i j l k, (i < length xs)%nat -> (j < length ys)%nat -> (l < length zs)%nat -> (k < length fs)%nat ->
   nth (((i * length ys + j) * length zs + l) * length fs + k) (nn_inputs xs ys zs fs) []
   = [nth i xs 0; nth j ys 0; nth l zs 0; nth k fs 0].
Proof.
  unfold nn_inputs.
  assert (L1 : forall x y z, length (map (fun f => [x; y; z; f]) fs) = length fs) by (intros; apply map_length).
  assert (L2 : forall x y, length (flat_map (fun z => map (fun f : R => [x; y; z; f]) fs) zs) = (length zs * length fs)%nat)
    by (intros; apply flat_map_length_k; auto).
  assert (L3 : forall x, length (flat_map (fun y => flat_map (fun z => map (fun f : R => [x; y; z; f]) fs) zs) ys) = (length ys * (length zs * length fs))%nat)
    by (intros; apply flat_map_length_k; auto).
  split.
  - rewrite (flat_map_length_k _ (length ys * (length zs * length fs))) by auto. lia.
  - intros i j l k Hi Hj Hl Hk.
    replace (((i * length ys + j) * length zs + l) * length fs + k)%nat with
      (i * (length ys * (length zs * length fs)) + (j * (length zs * length fs) + (l * length fs + k)))%nat by ring.
    assert (l * length fs + k < length zs * length fs)%nat by nia.
    assert (j * (length zs * length fs) + (l * length fs + k) < length ys * (length zs * length fs))%nat by nia.
    rewrite flat_map_nth with (dx := 0) by auto.
    rewrite flat_map_nth with (dx := 0) by auto.
    rewrite flat_map_nth with (dx := 0) by auto.
    rewrite nth_map_in with (d := 0) by auto. auto.
Qed.

Lemma freq_ticks_spec dist tf : tf <> [] -> dist = "linear"%string \/ dist = "log"%string ->
  exists fs, freq_ticks dist tf = Ok fs /\ length fs = length tf /\
  (forall k, (k < length tf)%nat ->
     (dist = "linear"%string -> nth k fs 0 = 32 * tick (length tf) k) /\
     (dist = "log"%string -> forall M, In M tf -> (forall g, In g tf -> g <= M) ->
         nth k fs 0 = 32 * (2 * (nth k tf 0 / M) - 1))).
Proof.
  intros Hne [->| ->].
  - exists (linspace (-32) 32 (length tf)). split; [reflexivity|]. rewrite linspace_length. split; auto.
    intros k Hk. split; [|discriminate]. intros _. replace (-32) with (- (32)) by lra. apply linspace_tick; auto.
  - destruct tf as [|f0 tf]; [congruence|]. eexists. split; [reflexivity|]. rewrite map_length. split; auto.
    intros k Hk. split; [discriminate|]. intros _ M HM Hmax.
    rewrite (Rmaximum_unique (f0 :: tf) M) by (auto; discriminate).
    rewrite nth_map_in with (d := 0) by auto.
    set (q := _ / M). lra.
Qed.

Lemma eval_model_inputs cfg net :
  e_model_type cfg = "nerf"%string \/ e_model_type cfg = "siren"%string ->
  e_freq_distribution cfg = "linear"%string \/ e_freq_distribution cfg = "log"%string ->
  (0 < e_N_freq cfg)%nat -> length (e_target_frequencies cfg) = e_N_freq cfg ->
  (0 < e_N_layers cfg)%nat ->
  length (e_thickness cfg) = 1%nat \/ length (e_thickness cfg) = e_N_layers cfg ->
  (forall x, In x (e_thickness cfg) -> 0 < x) ->
  let nxu := (e_Nx cfg / e_os cfg)%nat in let nyu := (e_Ny cfg / e_os cfg)%nat in
  exists inputs, eval_model cfg net = Ok (Rows (net_rows net inputs)) /\
  length inputs = (nxu * nyu * e_N_layers cfg * e_N_freq cfg)%nat /\
  forall i j l k, (i < nxu)%nat -> (j < nyu)%nat -> (l < e_N_layers cfg)%nat -> (k < e_N_freq cfg)%nat ->
    exists fk,
    nth (row_no cfg i j l k) inputs [] = [tick nxu i; tick nyu j; 1000 * ztick (e_N_layers cfg) (e_thickness cfg) l; fk] /\
    (e_freq_distribution cfg = "linear"%string -> fk = 32 * tick (e_N_freq cfg) k) /\
    (e_freq_distribution cfg = "log"%string ->
       forall M, In M (e_target_frequencies cfg) -> (forall g, In g (e_target_frequencies cfg) -> g <= M) ->
       fk = 32 * (2 * (nth k (e_target_frequencies cfg) 0 / M) - 1)).
Proof.
  intros Hm Hd HF HLf HL Ht Hp nxu nyu.
  assert (Em : (String.eqb (e_model_type cfg) "nerf" || String.eqb (e_model_type cfg) "siren") = true).
  { destruct Hm as [->| ->]; reflexivity. }
  unfold eval_model. rewrite Em. fold nxu nyu.
  pose proof (ztick_ok (e_thickness cfg) (e_N_layers cfg) HL Ht Hp nxu nyu) as Z.
  destruct (get_transformed_grid nxu nyu (e_N_layers cfg) (e_thickness cfg)) as [[x y] z] eqn:G.
  destruct Z as [Lz Ez].
  assert (x = linspace (-1) 1 nxu /\ y = linspace (-1) 1 nyu) as [-> ->].
  { unfold get_transformed_grid in G. inversion G; auto. }
  destruct (freq_ticks_spec (e_freq_distribution cfg) (e_target_frequencies cfg)) as (fs & EF & Lf & Nf); auto.
  { intros E. rewrite E in HLf. simpl in HLf. lia. }
  rewrite EF. cbn [bind]. eexists. split; [reflexivity|].
  destruct (nn_inputs_spec (linspace (-1) 1 nxu) (linspace (-1) 1 nyu) (map (fun v => v * 1000) z) fs) as [A B].
  rewrite !linspace_length, map_length, Lz, Lf, HLf in *. split; auto.
  intros i j l k Hi Hj Hl Hk. exists (nth k fs 0). split; [|apply Nf; auto].
  unfold row_no. fold nyu. rewrite B by auto. rewrite nth_map_in with (d := 0) by lia. rewrite Ez by auto.
  replace (-1) with (- (1)) by lra. rewrite !linspace_tick by auto. rewrite !Rmult_1_l, (Rmult_comm _ 1000). reflexivity.
Qed.

(** * classification *)
Lemma softmax_spec o : o <> [] ->
  length (softmax_weights o) = length o /\
  (forall m, (m < length o)%nat -> nth m (softmax_weights o) 0 = softmax16 o m) /\
  (forall w, In w (softmax_weights o) -> 0 < w) /\ Rsum (softmax_weights o) = 1.
Proof.
  intros Hne. unfold softmax_weights, BETA.
  set (ex := map (fun o => exp (16 * o)) o).
  assert (Hs : 0 < Rsum ex).
  { apply Rsum_pos. - unfold ex. destruct o; [congruence|discriminate].
    - intros x Hx. apply in_map_iff in Hx. destruct Hx as (y & <- & _). apply exp_pos. }
  set (s := Rsum ex) in *.
  assert (E2 : Rsum (map (fun e => e / s) ex) = 1).
  { rewrite Rsum_map_div. fold s. field. lra. }
  rewrite E2. split; [|split; [|split]].
  - unfold ex. rewrite !map_length. auto.
  - intros m Hm. rewrite map_map. rewrite nth_map_in with (d := 0) by (unfold ex; rewrite map_length; auto).
    unfold ex. rewrite nth_map_in with (d := 0) by auto. unfold softmax16. fold ex. fold s. field. lra.
  - intros w Hw. rewrite map_map in Hw. apply in_map_iff in Hw. destruct Hw as (e & <- & He).
    unfold ex in He. apply in_map_iff in He. destruct He as (y & <- & _).
    apply Rdiv_lt_0_compat; [apply Rdiv_lt_0_compat; auto; apply exp_pos|lra].
  - rewrite Rsum_map_div, E2. lra.
Qed.

Lemma softmax16_mono o i j : o <> [] -> nth i o 0 < nth j o 0 -> softmax16 o i < softmax16 o j.
Proof.
  intros Hne H. unfold softmax16.
  assert (Hs : 0 < Rsum (map (fun x => exp (16 * x)) o)).
  { apply Rsum_pos. - destruct o; [congruence|discriminate].
    - intros x Hx. apply in_map_iff in Hx. destruct Hx as (y & <- & _). apply exp_pos. }
  apply Rmult_lt_compat_r; [apply Rinv_0_lt_compat; auto|]. apply exp_increasing. lra.
Qed.

Lemma mmap_map {A B} (f : A -> res B) (h : A -> B) l : (forall x, In x l -> f x = Ok (h x)) ->
  mmap f l = Ok (map h l).
Proof.
  induction l; simpl; intros H; auto. rewrite H by auto. simpl. rewrite IHl by auto. auto.
Qed.

Lemma mmap3 {A B} (f : list A -> res (list B)) h (g : grid4 A) a b c d : shape4 g a b c d ->
  (forall v, length v = d -> f v = Ok (h v)) ->
  mmap (mmap (mmap f)) g = Ok (map3 h g).
Proof.
  intros [_ H] Hf. unfold map3. apply mmap_map. intros p Hp. destruct (H p Hp) as [_ H'].
  apply mmap_map. intros q Hq. destruct (H' q Hq) as [_ H''].
  apply mmap_map. intros r Hr. auto.
Qed.

(** real and imaginary part of the weighted sum *)
Lemma Csum_re l : Re (Csum l) = Rsum (map Re l).
Proof. induction l; simpl; auto. unfold Rsum in *. simpl. rewrite <- IHl. auto. Qed.
Lemma Csum_im l : Im (Csum l) = Rsum (map Im l).
Proof. induction l; simpl; auto. unfold Rsum in *. simpl. rewrite <- IHl. auto. Qed.

Lemma nth_map_seq_list {A} (f : nat -> A) n (v : list A) d : length v = n ->
  (forall i, (i < n)%nat -> nth i v d = f i) -> v = map f (seq 0 n).
Proof.
  intros L H. apply nth_ext with (d := d) (d' := d).
  - rewrite map_length, seq_length; auto.
  - intros i Hi. rewrite nth_map_seq by lia. apply H; lia.
Qed.

Lemma classification_core cfg net noise rows : os_ok cfg ->
  eval_model cfg net = Ok (Rows rows) -> rows_ok cfg (e_N_materials cfg) rows ->
  (0 < e_N_materials cfg)%nat -> (0 < e_N_freq cfg)%nat ->
  exists ids, shape4 ids (e_Nx cfg) (e_Ny cfg) (e_N_layers cfg) (e_N_materials cfg) /\
  (forall x y l, (x < e_Nx cfg)%nat -> (y < e_Ny cfg)%nat -> (l < e_N_layers cfg)%nat ->
     nth l (nth y (nth x ids []) []) [] =
     softmax_weights (map (classif_cell cfg rows noise x y l) (seq 0 (e_N_materials cfg)))) /\
  forall h d', (forall v, length v = e_N_materials cfg -> mixture v (e_epsilon_matrix cfg) = Ok (h v)) ->
   (forall v, length v = e_N_materials cfg -> length (h v) = d') ->
   classification_grid cfg net noise =
     Ok (if e_avoid_zero cfg then avoid_zero_eps CUTOFF (map3 h ids) else map3 h ids, ids) /\
   shape4 (map3 h ids) (e_Nx cfg) (e_Ny cfg) (e_N_layers cfg) d' /\
   forall x y l f, (x < e_Nx cfg)%nat -> (y < e_Ny cfg)%nat -> (l < e_N_layers cfg)%nat -> (f < d')%nat ->
     at4 (map3 h ids) C0 x y l f = nth f (h (nth l (nth y (nth x ids []) []) [])) C0.
Proof.
  intros (Hos & HNx & HNy) EV [RL RR] HM HF.
  set (nxu := (e_Nx cfg / e_os cfg)%nat) in *. set (nyu := (e_Ny cfg / e_os cfg)%nat) in *.
  set (nm := e_N_materials cfg) in *. set (nf := e_N_freq cfg) in *.
  assert (Ex : (nxu * e_os cfg = e_Nx cfg)%nat).
  { unfold nxu. rewrite (Nat.div_mod (e_Nx cfg) (e_os cfg)) at 2 by lia. rewrite HNx. lia. }
  assert (Ey : (nyu * e_os cfg = e_Ny cfg)%nat).
  { unfold nyu. rewrite (Nat.div_mod (e_Ny cfg) (e_os cfg)) at 2 by lia. rewrite HNy. lia. }
  assert (LC : length (concat rows) = (nxu * nyu * e_N_layers cfg * (nf * nm))%nat).
  { rewrite (concat_length_k _ nm RR), RL. lia. }
  destruct (reshape4_ok 0 nxu nyu (e_N_layers cfg) (nf * nm) _ LC) as (g0 & E0 & S0 & A0).
  pose proof (oversample_shape (e_os cfg) _ _ _ _ _ S0) as S1. rewrite Ex, Ey in S1.
  set (avg := fun v : list R => mean_over_freq nm
                   (map (fun f => map (fun m => nth (f * nm + m) v 0) (seq 0 nm)) (seq 0 nf))).
  assert (Lavg : forall v, length (avg v) = nm).
  { intros. unfold avg, mean_over_freq. rewrite map_length, seq_length; auto. }
  set (g2 := map3 avg (oversample (e_os cfg) g0)).
  assert (S2 : shape4 g2 (e_Nx cfg) (e_Ny cfg) (e_N_layers cfg) nm) by (eapply shape4_map3; eauto).
  set (g3 := if e_add_noise cfg then map4i (fun x y l m o => o + noise x y l m * e_noise_scale cfg) g2 else g2).
  assert (S3 : shape4 g3 (e_Nx cfg) (e_Ny cfg) (e_N_layers cfg) nm).
  { unfold g3. destruct (e_add_noise cfg); auto. apply shape4_map4i; auto. }
  assert (V3 : forall x y l m, (x < e_Nx cfg)%nat -> (y < e_Ny cfg)%nat -> (l < e_N_layers cfg)%nat -> (m < nm)%nat ->
    at4 g3 0 x y l m = classif_cell cfg rows noise x y l m).
  { intros x y l m Hx Hy Hl Hm.
    assert (V2 : at4 g2 0 x y l m = averaged cfg rows (x / e_os cfg) (y / e_os cfg) l m).
    { unfold g2. rewrite (at4_map3 _ _ _ _ _ _ _ _ _ _ _ S1) by auto.
      rewrite (oversample_cell _ _ _ _ _ _ _ _ S0) by lia.
      assert (Hx' : (x / e_os cfg < nxu)%nat) by (apply Nat.div_lt_upper_bound; lia).
      assert (Hy' : (y / e_os cfg < nyu)%nat) by (apply Nat.div_lt_upper_bound; lia).
      set (xu := (x / e_os cfg)%nat) in *. set (yu := (y / e_os cfg)%nat) in *.
      set (v := nth l (nth yu (nth xu g0 []) []) []).
      unfold avg, mean_over_freq. rewrite nth_map_seq by auto. unfold averaged, Rmean.
      rewrite map_map, map_length, seq_length. fold nf. f_equal. f_equal. apply map_ext_in. intros f Hf.
      apply in_seq in Hf. rewrite nth_map_seq by auto.
      assert (f * nm + m < nf * nm)%nat by nia.
      change (nth (f * nm + m) v 0) with (at4 g0 0 xu yu l (f * nm + m)). rewrite A0 by auto.
      rewrite <- (concat_nth rows nm (row_no cfg xu yu l f) m); auto.
      - f_equal. unfold row_no. fold nyu nf. nia.
      - rewrite RL. fold nyu. unfold row_no. fold nyu nf.
        assert ((xu * nyu + yu) * e_N_layers cfg + l < nxu * nyu * e_N_layers cfg)%nat.
        { assert (xu * nyu + yu < nxu * nyu)%nat by nia. nia. }
        nia. }
    unfold g3, classif_cell. destruct (e_add_noise cfg).
    - rewrite (at4_map4i _ _ _ _ _ _ 0 0 x y l m S2) by auto. rewrite V2. auto.
    - rewrite V2. ring. }
  set (ids := map3 softmax_weights g3).
  assert (Sid : shape4 ids (e_Nx cfg) (e_Ny cfg) (e_N_layers cfg) nm).
  { eapply shape4_map3; eauto. intros v Hv. unfold softmax_weights. rewrite !map_length. auto. }
  exists ids. split; auto. split.
  - intros x y l Hx Hy Hl.
    destruct (shape4_nth g3 _ _ _ _ x y l S3 Hx Hy Hl) as (L1 & L2 & L3 & L4).
    unfold ids, map3. rewrite (nth_map_in _ g3 x []) by lia. rewrite (nth_map_in _ _ y []) by lia.
    rewrite (nth_map_in _ _ l []) by lia. f_equal.
    apply nth_map_seq_list with (d := 0); auto. intros m Hm. apply V3; auto.
  - intros h d' Hh Hd. split; [|split].
    + unfold classification_grid. fold nxu nyu nm nf. rewrite EV. unfold bind at 1. cbv zeta. rewrite E0. cbn [bind].
      change (map (repeat_interleave (e_os cfg)) (repeat_interleave (e_os cfg) g0)) with (oversample (e_os cfg) g0).
      fold avg. fold g2. fold g3. fold ids.
      rewrite (mmap3 _ h ids _ _ _ _ Sid Hh). reflexivity.
    + eapply shape4_map3; eauto.
    + intros x y l f Hx Hy Hl Hf. apply (at4_map3 _ _ _ _ _ _ _ _ _ _ _ Sid); auto.
Qed.

Lemma Csum_pair {A} (l : list A) (u v : A -> R) : 
  Csum (map (fun a => (u a, v a)) l) = (Rsum (map u l), Rsum (map v l)).
Proof.
  induction l; simpl; auto. unfold Rsum in *. rewrite IHl. reflexivity.
Qed.

Lemma convex_bounds {A} (w : list R) (rows : list A) (g : A -> R) lo hi : length w = length rows ->
  (forall x, In x w -> 0 < x) -> Rsum w = 1 -> (forall a, In a rows -> lo <= g a <= hi) ->
  lo <= Rsum (map (fun p => fst p * g (snd p)) (combine w rows)) <= hi.
Proof.
  intros L Hp Hs Hb.
  assert (G : lo * Rsum w <= Rsum (map (fun p => fst p * g (snd p)) (combine w rows)) <= hi * Rsum w).
  { clear Hs. revert rows L Hb. induction w as [|x w IH]; intros [|a rows] L Hb; simpl in *; try discriminate; [lra|].
    assert (0 < x) by auto. assert (lo <= g a <= hi) by auto.
    destruct (IH ltac:(auto) rows ltac:(lia)) as [I1 I2]; [auto|]. unfold Rsum in *. nra. }
  rewrite Hs in G. lra.
Qed.

Lemma mix_at_spec w rows f : 
  Csum (map (fun p => Cscal (fst p) (nth f (snd p) C0)) (combine w rows)) = mix_at w rows f.
Proof. unfold mix_at. rewrite <- Csum_pair. reflexivity. Qed.

Lemma classification_T2 cfg net noise rows mats : os_ok cfg ->
  eval_model cfg net = Ok (Rows rows) -> rows_ok cfg (e_N_materials cfg) rows ->
  (0 < e_N_materials cfg)%nat -> (0 < e_N_freq cfg)%nat ->
  e_epsilon_matrix cfg = T2 mats -> length mats = e_N_materials cfg ->
  (forall v, In v mats -> length v = e_N_freq cfg) ->
  exists mix ids,
  classification_grid cfg net noise = Ok (if e_avoid_zero cfg then avoid_zero_eps (/ 100) mix else mix, ids) /\
  shape4 mix (e_Nx cfg) (e_Ny cfg) (e_N_layers cfg) (e_N_freq cfg) /\
  shape4 ids (e_Nx cfg) (e_Ny cfg) (e_N_layers cfg) (e_N_materials cfg) /\
  forall x y l, (x < e_Nx cfg)%nat -> (y < e_Ny cfg)%nat -> (l < e_N_layers cfg)%nat ->
   let o := map (classif_cell cfg rows noise x y l) (seq 0 (e_N_materials cfg)) in
   let w := nth l (nth y (nth x ids []) []) [] in
   (forall m, (m < e_N_materials cfg)%nat -> nth m w 0 = softmax16 o m) /\
   (forall v, In v w -> 0 < v) /\ Rsum w = 1 /\
   (forall m n, (m < e_N_materials cfg)%nat -> (n < e_N_materials cfg)%nat ->
      nth m o 0 < nth n o 0 -> nth m w 0 < nth n w 0) /\
   (forall f, (f < e_N_freq cfg)%nat -> at4 mix C0 x y l f = mix_at w mats f) /\
   (forall f lo hi, (f < e_N_freq cfg)%nat -> (forall v, In v mats -> lo <= Re (nth f v C0) <= hi) ->
      lo <= Re (at4 mix C0 x y l f) <= hi) /\
   (forall f lo hi, (f < e_N_freq cfg)%nat -> (forall v, In v mats -> lo <= Im (nth f v C0) <= hi) ->
      lo <= Im (at4 mix C0 x y l f) <= hi).
Proof.
  intros Hos EV HR HM HF EE LM LMF.
  destruct (classification_core cfg net noise rows Hos EV HR HM HF) as (ids & Sid & Vid & Core).
  set (h := fun w => map (mix_at w mats) (seq 0 (e_N_freq cfg))).
  destruct (Core h (e_N_freq cfg)) as (CG & Smix & Amix).
  { intros v Hv. rewrite EE. unfold mixture. rewrite LM, Hv, Nat.eqb_refl.
    assert (Hh : length (hd [] mats) = e_N_freq cfg).
    { destruct mats; simpl in *; [lia|auto]. }
    rewrite Hh. unfold h. f_equal. apply map_ext. intros. apply mix_at_spec. }
  { intros v _. unfold h. rewrite map_length, seq_length; auto. }
  exists (map3 h ids), ids. split; [exact CG|]. split; auto. split; auto.
  intros x y l Hx Hy Hl o w.
  assert (Ew : w = softmax_weights o) by (unfold w, o; apply Vid; auto).
  assert (Lo : length o = e_N_materials cfg) by (unfold o; rewrite map_length, seq_length; auto).
  assert (No : o <> []) by (intros E; rewrite E in Lo; simpl in Lo; lia).
  destruct (softmax_spec o No) as (SL & SV & SP & SS). rewrite <- Ew, Lo in *.
  assert (EM : forall f, (f < e_N_freq cfg)%nat -> at4 (map3 h ids) C0 x y l f = mix_at w mats f).
  { intros f Hf. rewrite Amix by auto. fold w. unfold h. rewrite nth_map_seq; auto. }
  split; [exact SV|]. split; auto. split; auto. split; [|split; [|split]].
  - intros m n Hm Hn H. rewrite !SV by auto. apply softmax16_mono; auto.
  - exact EM.
  - intros f lo hi Hf Hb. rewrite EM by auto. unfold mix_at. simpl.
    apply (convex_bounds w mats (fun v => Re (nth f v C0))); auto. lia.
  - intros f lo hi Hf Hb. rewrite EM by auto. unfold mix_at. simpl.
    apply (convex_bounds w mats (fun v => Im (nth f v C0))); auto. lia.
Qed.

(** A rank-1 epsilon matrix (one target frequency): the grid ignores the network. *)
Lemma classification_T1 cfg net noise rows v : os_ok cfg ->
  eval_model cfg net = Ok (Rows rows) -> rows_ok cfg (e_N_materials cfg) rows ->
  (0 < e_N_materials cfg)%nat -> (0 < e_N_freq cfg)%nat ->
  e_epsilon_matrix cfg = T1 v ->
  exists mix ids,
  classification_grid cfg net noise = Ok (if e_avoid_zero cfg then avoid_zero_eps (/ 100) mix else mix, ids) /\
  shape4 mix (e_Nx cfg) (e_Ny cfg) (e_N_layers cfg) (length v) /\
  forall x y l j, (x < e_Nx cfg)%nat -> (y < e_Ny cfg)%nat -> (l < e_N_layers cfg)%nat -> (j < length v)%nat ->
   at4 mix C0 x y l j = nth j v C0.
Proof.
  intros Hos EV HR HM HF EE.
  destruct (classification_core cfg net noise rows Hos EV HR HM HF) as (ids & Sid & Vid & Core).
  set (h := fun w => map (fun e => Csum (map (fun p => Cscal p e) w)) v).
  destruct (Core h (length v)) as (CG & Smix & Amix).
  { intros w Hw. rewrite EE. reflexivity. }
  { intros w _. unfold h. rewrite map_length; auto. }
  exists (map3 h ids), ids. split; [exact CG|]. split; auto.
  intros x y l j Hx Hy Hl Hj. rewrite Amix by auto.
  set (w := nth l (nth y (nth x ids []) []) []).
  set (o := map (classif_cell cfg rows noise x y l) (seq 0 (e_N_materials cfg))).
  assert (Ew : w = softmax_weights o) by (unfold w, o; apply Vid; auto).
  assert (Lo : length o = e_N_materials cfg) by (unfold o; rewrite map_length, seq_length; auto).
  assert (No : o <> []) by (intros E; rewrite E in Lo; simpl in Lo; lia).
  destruct (softmax_spec o No) as (SL & SV & SP & SS). rewrite <- Ew in *.
  unfold h. rewrite nth_map_in with (d := C0) by auto.
  set (e := nth j v C0). unfold Cscal. rewrite Csum_pair.
  rewrite !(map_ext (fun p => p * _) (fun p => _ * p)) by (intros; apply Rmult_comm).
  rewrite !Rsum_map_mult, SS, !Rmult_1_r. destruct e; reflexivity.
Qed.

(** constant blocks *)
Lemma regression_blocks cfg net nre nim rows : os_ok cfg -> e_add_noise cfg = false ->
  eval_model cfg net = Ok (Rows rows) -> rows_ok cfg 2 rows ->
  exists g, regression_grid cfg net nre nim = Ok g
  /\ shape4 g (e_Nx cfg) (e_Ny cfg) (e_N_layers cfg) (e_N_freq cfg) /\ forall x y x' y' l f, (x < e_Nx cfg)%nat -> (y < e_Ny cfg)%nat -> (x' < e_Nx cfg)%nat -> (y' < e_Ny cfg)%nat ->
   (l < e_N_layers cfg)%nat -> (f < e_N_freq cfg)%nat ->
   (x / e_os cfg = x' / e_os cfg)%nat -> (y / e_os cfg = y' / e_os cfg)%nat ->
   at4 g C0 x y l f = at4 g C0 x' y' l f.
Proof.
  intros Hos EN EV HR. destruct (regression_rows_ok cfg net nre nim rows Hos EV HR) as (g & E & S & A).
  rewrite EN in E. exists g. split; auto. split; auto.
  intros. rewrite !A by auto. congruence.
Qed.

Lemma regression_shape cfg net nre nim rows : os_ok cfg ->
  eval_model cfg net = Ok (Rows rows) -> rows_ok cfg 2 rows ->
  exists g, regression_grid cfg net nre nim = Ok g
  /\ shape4 g (e_Nx cfg) (e_Ny cfg) (e_N_layers cfg) (e_N_freq cfg).
Proof.
  intros Hos EV HR. destruct (regression_rows_ok cfg net nre nim rows Hos EV HR) as (g & E & S & A).
  rewrite E. destruct (e_add_noise cfg); eexists; split; eauto. apply add_noise_shape; auto.
Qed.

Lemma regression_channels cfg net nre nim rows : os_ok cfg -> e_add_noise cfg = false ->
  eval_model cfg net = Ok (Rows rows) -> rows_ok cfg 2 rows ->
  exists g, regression_grid cfg net nre nim = Ok g /\ forall x y l f, (x < e_Nx cfg)%nat -> (y < e_Ny cfg)%nat -> (l < e_N_layers cfg)%nat -> (f < e_N_freq cfg)%nat ->
   at4 g C0 x y l f =
    (real_of cfg (nth (f mod 2) (nth (row_no cfg (x / e_os cfg) (y / e_os cfg) l (f / 2)) rows []) 0),
     imag_of cfg (nth ((e_N_freq cfg + f) mod 2)
        (nth (row_no cfg (x / e_os cfg) (y / e_os cfg) l ((e_N_freq cfg + f) / 2)) rows []) 0)).
Proof.
  intros Hos EN EV HR. destruct (regression_rows_ok cfg net nre nim rows Hos EV HR) as (g & E & S & A).
  rewrite EN in E. eauto.
Qed.

Lemma regression_channels_one cfg net nre nim rows : os_ok cfg -> e_add_noise cfg = false -> e_N_freq cfg = 1%nat ->
  eval_model cfg net = Ok (Rows rows) -> rows_ok cfg 2 rows ->
  exists g, regression_grid cfg net nre nim = Ok g /\ forall x y l, (x < e_Nx cfg)%nat -> (y < e_Ny cfg)%nat -> (l < e_N_layers cfg)%nat ->
   at4 g C0 x y l 0 =
    (real_of cfg (nth 0 (nth (row_no cfg (x / e_os cfg) (y / e_os cfg) l 0) rows []) 0),
     imag_of cfg (nth 1 (nth (row_no cfg (x / e_os cfg) (y / e_os cfg) l 0) rows []) 0)).
Proof.
  intros Hos EN EF EV HR. destruct (regression_rows_ok cfg net nre nim rows Hos EV HR) as (g & E & S & A).
  rewrite EN in E. exists g. split; auto. intros. rewrite A by (auto; lia). rewrite EF. reflexivity.
Qed.

Lemma regression_bad_count cfg net nre nim rows :
  eval_model cfg net = Ok (Rows rows) ->
  length (concat rows) <> ((e_Nx cfg / e_os cfg) * (e_Ny cfg / e_os cfg) * e_N_layers cfg * (2 * e_N_freq cfg))%nat ->
  regression_grid cfg net nre nim = Err RuntimeError.
Proof.
  intros EV H. unfold regression_grid. rewrite EV. unfold bind at 1. unfold reshape4.
  destruct (Nat.eqb_spec (length (concat rows)) (e_Nx cfg / e_os cfg * (e_Ny cfg / e_os cfg) * e_N_layers cfg * (2 * e_N_freq cfg))); [contradiction|reflexivity].
Qed.
Lemma regression_bad_oversampling cfg net nre nim rows :
  eval_model cfg net = Ok (Rows rows) -> (0 < e_os cfg)%nat ->
  (e_Nx cfg mod e_os cfg <> 0 \/ e_Ny cfg mod e_os cfg <> 0)%nat ->
  regression_grid cfg net nre nim = Err RuntimeError.
Proof.
  intros EV Hos H. unfold regression_grid. rewrite EV. unfold bind at 1. unfold reshape4.
  destruct (Nat.eqb_spec (length (concat rows)) (e_Nx cfg / e_os cfg * (e_Ny cfg / e_os cfg) * e_N_layers cfg * (2 * e_N_freq cfg))); [|reflexivity].
  unfold bind at 2.
  assert (X : (Nat.eqb (e_Nx cfg / e_os cfg * e_os cfg) (e_Nx cfg) && Nat.eqb (e_Ny cfg / e_os cfg * e_os cfg) (e_Ny cfg)) = false).
  { pose proof (Nat.div_mod (e_Nx cfg) (e_os cfg) ltac:(lia)). pose proof (Nat.div_mod (e_Ny cfg) (e_os cfg) ltac:(lia)).
    apply andb_false_iff. destruct H; [left|right]; apply Nat.eqb_neq; lia. }
  rewrite X. reflexivity.
Qed.

(** * witnesses *)
Definition wcfg (mt : string) (nf : nat) (rmin rmax imin imax : R) (az noise : bool) : eps_cfg :=
  {| e_type := "regression"; e_model_type := mt; e_Nx := 1; e_Ny := 1; e_os := 1; e_N_layers := 1;
     e_N_freq := nf; e_N_materials := 0; e_target_frequencies := repeat 1 nf; e_freq_distribution := "linear";
     e_thickness := [1]; e_rmin := rmin; e_rmax := rmax; e_imin := imin; e_imax := imax;
     e_avoid_zero := az; e_add_noise := noise; e_noise_scale := 1; e_epsilon_matrix := T1 [] |}.

Lemma wcfg_os mt nf a b c d e f : os_ok (wcfg mt nf a b c d e f).
Proof. repeat split; simpl; auto. Qed.

Lemma noise_breaks_avoid_zero : exists cfg net nre nim g e,
  e_avoid_zero cfg = true /\ ranges_ok cfg /\ regression_grid cfg net nre nim = Ok g /\ entry4 g e /\ Re e = 0.
Proof.
  set (cfg := wcfg "siren" 1 (-1) 1 0 1 true true).
  set (net := {| net_rows := fun _ => [[1/2; 0]]; net_voxel := [] |}).
  set (nre := fun _ _ _ _ : nat => 1/2 - / 400). set (nim := fun _ _ _ _ : nat => 0).
  assert (EV : eval_model cfg net = Ok (Rows [[1/2; 0]])) by reflexivity.
  destruct (regression_rows_ok cfg net nre nim _ (wcfg_os _ _ _ _ _ _ _ _) EV) as (g & E & S & A).
  { split; simpl; auto. intros r [<-|[]]; auto. }
  exists cfg, net, nre, nim, (add_noise cfg nre nim g), (at4 (add_noise cfg nre nim g) C0 0 0 0 0).
  simpl e_add_noise in E.
  pose proof (add_noise_shape cfg nre nim g _ _ _ _ S) as S'.
  assert (H1 : (0 < 1)%nat) by lia.
  split; [reflexivity|]. split; [split; simpl; lra|]. split; [exact E|]. split.
  - apply (entry4_at _ _ _ _ _ _ _ _ _ _ S'); simpl; lia.
  - rewrite (add_noise_at _ _ _ _ _ _ _ _ 0 0 0 0 S H1 H1 H1 H1). rewrite A by (simpl; lia).
    simpl. unfold real_of. simpl.
    replace (clip (-1) 1 (1 / 2 * (1 - -1) + -1)) with 0.
    2: { rewrite clip_id; lra. }
    replace (avoid_zero1 CUTOFF 0) with (/ 100).
    2: { unfold avoid_zero1, Reqb, CUTOFF. destruct (Req_EM_T 0 0); [|lra]. unfold Rltb.
         destruct (Rlt_dec (/100) (/100)); [lra|]. reflexivity. }
    unfold nre. rewrite clip_id; lra.
Qed.

Lemma voxel_ignores_avoid_zero : exists cfg net nre nim g e,
  e_avoid_zero cfg = true /\ e_add_noise cfg = false /\ ranges_ok cfg /\
  regression_grid cfg net nre nim = Ok g /\ entry4 g e /\ Re e = 0.
Proof.
  set (cfg := wcfg "voxel" 1 (-1) 1 0 1 true false).
  set (net := {| net_rows := fun r => r; net_voxel := [[[[ (0, 0) ]]]] |}).
  exists cfg, net, (fun _ _ _ _ => 0), (fun _ _ _ _ => 0). eexists. eexists.
  split; [reflexivity|]. split; [reflexivity|]. split; [split; simpl; lra|]. split; [reflexivity|].
  split; [unfold entry4; simpl; do 3 eexists; do 3 (split; [left; reflexivity|]); left; reflexivity|].
  simpl. rewrite clip_id; lra.
Qed.

Lemma documented_channels_refuted : exists cfg net nre nim rows g,
  os_ok cfg /\ ranges_ok cfg /\ e_add_noise cfg = false /\ e_avoid_zero cfg = false /\
  eval_model cfg net = Ok (Rows rows) /\ rows_ok cfg 2 rows /\
  regression_grid cfg net nre nim = Ok g /\
  Re (at4 g C0 0 0 0 1) <> real_of cfg (nth 0 (nth (row_no cfg 0 0 0 1) rows []) 0) /\
  Im (at4 g C0 0 0 0 0) <> imag_of cfg (nth 1 (nth (row_no cfg 0 0 0 0) rows []) 0).
Proof.
  set (cfg := wcfg "siren" 2 1 2 0 1 false false).
  set (net := {| net_rows := map (fun _ => [1; 0]); net_voxel := [] |}).
  set (rows := [[1; 0]; [1; 0]]).
  assert (EV : eval_model cfg net = Ok (Rows rows)) by reflexivity.
  assert (RO : rows_ok cfg 2 rows).
  { split; simpl; auto. intros r [<-|[<-|[]]]; auto. }
  destruct (regression_channels cfg net (fun _ _ _ _ => 0) (fun _ _ _ _ => 0) rows (wcfg_os _ _ _ _ _ _ _ _) eq_refl EV RO) as (g & E & A).
  exists cfg, net, (fun _ _ _ _ => 0), (fun _ _ _ _ => 0), rows, g.
  repeat (split; [first [apply wcfg_os | reflexivity | assumption | split; simpl; lra]|]).
  rewrite !A by (simpl; lia). simpl. unfold real_of, imag_of. simpl.
  rewrite !clip_id by lra. lra.
Qed.

Lemma imag_max_unreachable : exists cfg, ranges_ok cfg /\ e_imin cfg < e_imax cfg /\
  forall o, 0 <= o <= 1 -> imag_of cfg o < e_imax cfg.
Proof.
  exists (wcfg "siren" 1 1 2 1 3 false false). split; [split; simpl; lra|]. split; [simpl; lra|].
  intros o Ho. apply Rle_lt_trans with (Rmax 1 (3 - 1)).
  - apply (imag_of_unreachable (wcfg "siren" 1 1 2 1 3 false false)); auto. split; simpl; lra.
  - simpl. rewrite Rmax_right; lra.
Qed.

(** log distribution: the lower end of the frequency coordinate is above -32 *)
Lemma log_tick_above f M : 0 < f -> f <= M -> -32 < 32 * (2 * (f / M) - 1) <= 32.
Proof.
  intros. assert (0 < f / M) by (apply Rdiv_lt_0_compat; lra).
  assert (f / M <= 1). { apply (Rmult_le_reg_r M); [lra|]. unfold Rdiv. rewrite Rmult_assoc, Rinv_l; lra. }
  lra.
Qed.

Lemma model_dispatch cfg net nre nim noise :
  (e_type cfg = "classification"%string -> forall r, model_to_eps_grid cfg net nre nim noise = Ok r ->
     exists g ids, r = Some (g, Some ids) /\ classification_grid cfg net noise = Ok (g, ids)) /\
  (e_type cfg = "regression"%string -> forall r, model_to_eps_grid cfg net nre nim noise = Ok r ->
     exists g, r = Some (g, None) /\ regression_grid cfg net nre nim = Ok g) /\
  (e_model_type cfg <> "nerf"%string -> e_model_type cfg <> "siren"%string -> e_model_type cfg <> "voxel"%string ->
     e_type cfg = "classification"%string \/ e_type cfg = "regression"%string ->
     model_to_eps_grid cfg net nre nim noise = Err NotImplementedError).
Proof.
  unfold model_to_eps_grid. split; [|split].
  - intros -> r H. simpl in H. apply bind_ok in H. destruct H as ([g ids] & H & E). inversion E; subst. simpl. eauto.
  - intros -> r H. simpl in H. apply bind_ok in H. destruct H as (g & H & E). inversion E; subst. eauto.
  - intros H1 H2 H3 H4.
    assert (EV : eval_model cfg net = Err NotImplementedError).
    { unfold eval_model. apply String.eqb_neq in H1, H2, H3. rewrite H1, H2, H3. reflexivity. }
    destruct H4 as [-> | ->]; simpl; [unfold classification_grid|unfold regression_grid]; rewrite EV; reflexivity.
Qed.

Lemma every_block cfg : os_ok cfg -> forall i, (i < e_Nx cfg / e_os cfg)%nat ->
  exists x, (x < e_Nx cfg)%nat /\ (x / e_os cfg = i)%nat.
Proof.
  intros (Hos & HNx & _) i Hi. exists (i * e_os cfg)%nat. rewrite Nat.div_mul by lia. split; auto.
  pose proof (Nat.div_mod (e_Nx cfg) (e_os cfg) ltac:(lia)). nia.
Qed.

(** Noise moves the real part by the real draw and the imaginary part by the
    imaginary draw, each relative to its own range, and stays in range. *)
Lemma regression_noise cfg net nre nim g a b c d :
  e_add_noise cfg = true ->
  regression_grid (quiet cfg) net nre nim = Ok g -> shape4 g a b c d ->
  exists g', regression_grid cfg net nre nim = Ok g' /\ shape4 g' a b c d
  /\ forall x y l f, (x < a)%nat -> (y < b)%nat -> (l < c)%nat -> (f < d)%nat ->
     let e := at4 g C0 x y l f in
     at4 g' C0 x y l f =
      (Rmin (Rmax (Re e + (2 * nre x y l f - 1) * e_noise_scale cfg * (e_rmax cfg - e_rmin cfg)) (e_rmin cfg)) (e_rmax cfg),
       Rmin (Rmax (Im e + (2 * nim x y l f - 1) * e_noise_scale cfg * (e_imax cfg - e_imin cfg)) (e_imin cfg)) (e_imax cfg)).
Proof.
  intros EN H S.
  assert (E : regression_grid cfg net nre nim = Ok (add_noise cfg nre nim g)).
  { unfold regression_grid in *. change (eval_model (quiet cfg) net) with (eval_model cfg net) in H.
    destruct (eval_model cfg net) as [out|]; cbn [bind] in *; [|discriminate].
    apply bind_ok in H. destruct H as (eps & Heps & H). cbn [e_add_noise quiet] in H. injection H as <-.
    destruct out as [rows|v]; cbn [bind].
    - apply bind_ok in Heps. destruct Heps as (o & Ho & Heps).
      change (reshape4 0 (e_Nx cfg / e_os cfg) (e_Ny cfg / e_os cfg) (e_N_layers cfg) (2 * e_N_freq cfg) (concat rows) = Ok o) in Ho.
      rewrite Ho. cbn [bind]. cbn [e_Nx e_Ny e_os quiet] in Heps. destruct (_ && _); [|discriminate]. injection Heps as <-.
      cbn [bind]. rewrite EN. reflexivity.
    - injection Heps as <-. cbn [bind]. rewrite EN. reflexivity. }
  exists (add_noise cfg nre nim g). split; [exact E|]. split; [apply add_noise_shape; auto|].
  intros x y l f Hx Hy Hl Hf. cbn zeta. rewrite (add_noise_at _ _ _ _ _ _ _ _ _ _ _ _ S Hx Hy Hl Hf). unfold clip.
  f_equal; f_equal; f_equal; field.
Qed.
