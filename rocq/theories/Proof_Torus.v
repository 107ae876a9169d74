(** Sums over grid cells and discrete calculus on a periodic box. *)
From Coq Require Import Reals ZArith String List Bool Lra Lia Permutation Psatz.
From Verif Require Import Base BaseLemmas Model_FDTD Spec_FDTD.
Import ListNotations.
Open Scope R_scope.

Lemma axis_eqb_spec a b : reflect (a = b) (axis_eqb a b).
Proof. destruct a, b; constructor; congruence. Qed.
Lemma axis_eqb_refl a : axis_eqb a a = true.
Proof. destruct a; reflexivity. Qed.

Lemma coord_setc_same a v p : coord a (setc a v p) = v.
Proof. destruct p as [[i j] k]; destruct a; reflexivity. Qed.
Lemma coord_setc_other a b v p : a <> b -> coord a (setc b v p) = coord a p.
Proof. destruct p as [[i j] k]; destruct a, b; intros H; try reflexivity; congruence. Qed.
Lemma setc_coord a p : setc a (coord a p) p = p.
Proof. destruct p as [[i j] k]; destruct a; reflexivity. Qed.
Lemma setc_setc a u v p : setc a u (setc a v p) = setc a u p.
Proof. destruct p as [[i j] k]; destruct a; reflexivity. Qed.
Lemma setc_comm a b u v p : a <> b -> setc a u (setc b v p) = setc b v (setc a u p).
Proof. destruct p as [[i j] k]; destruct a, b; intros H; try reflexivity; congruence. Qed.
Lemma coord_setc a b v p : coord a (setc b v p) = if axis_eqb a b then v else coord a p.
Proof. destruct p as [[i j] k]; destruct a, b; reflexivity. Qed.
Lemma pos_ext p q : (forall a, coord a p = coord a q) -> p = q.
Proof.
  destruct p as [[i j] k], q as [[x y] z]; intros H.
  specialize (H AX) as H1; specialize (H AY) as H2; specialize (H AZ) as H3.
  cbn in *; congruence.
Qed.

Lemma sum3_sq_nonneg (f : axis -> R) : 0 <= sum3 (fun c => f c ^ 2).
Proof.
  unfold sum3. pose proof (pow2_ge_0 (f AX)). pose proof (pow2_ge_0 (f AY)).
  pose proof (pow2_ge_0 (f AZ)). lra.
Qed.
Lemma sum3_sq_ge (f : axis -> R) c : f c ^ 2 <= sum3 (fun c => f c ^ 2).
Proof.
  unfold sum3. pose proof (pow2_ge_0 (f AX)). pose proof (pow2_ge_0 (f AY)).
  pose proof (pow2_ge_0 (f AZ)). destruct c; lra.
Qed.
Lemma sq_le0 x : x ^ 2 <= 0 -> x = 0.
Proof. intros H. pose proof (pow2_ge_0 x). apply Rsqr_0_uniq. unfold Rsqr. lra. Qed.

(** * Sums *)

Lemma Rsum_app l1 l2 : Rsum (l1 ++ l2) = Rsum l1 + Rsum l2.
Proof. unfold Rsum. induction l1 as [|x l IH]; cbn in *; [lra|]. rewrite IH; lra. Qed.

Lemma Rsum_perm l1 l2 : Permutation l1 l2 -> Rsum l1 = Rsum l2.
Proof. induction 1; unfold Rsum in *; cbn in *; lra. Qed.

Lemma Rsum_map_ext {A} (f g : A -> R) l : (forall x, In x l -> f x = g x) ->
  Rsum (map f l) = Rsum (map g l).
Proof. intros H; f_equal; apply map_ext_in; exact H. Qed.

Lemma Rsum_map_plus {A} (f g : A -> R) l :
  Rsum (map (fun x => f x + g x) l) = Rsum (map f l) + Rsum (map g l).
Proof. induction l as [|x l IH]; unfold Rsum in *; cbn in *; [lra|]; rewrite IH; lra. Qed.

Lemma Rsum_map_scal {A} (f : A -> R) k l :
  Rsum (map (fun x => k * f x) l) = k * Rsum (map f l).
Proof. induction l as [|x l IH]; unfold Rsum in *; cbn in *; [lra|]; rewrite IH; lra. Qed.

Lemma Rsum_map_le {A} (f g : A -> R) l : (forall x, In x l -> f x <= g x) ->
  Rsum (map f l) <= Rsum (map g l).
Proof.
  induction l as [|x l IH]; intros H; unfold Rsum in *; cbn in *; [lra|].
  assert (f x <= g x) by (apply H; auto).
  assert (fold_right Rplus 0 (map f l) <= fold_right Rplus 0 (map g l)) by (apply IH; auto).
  lra.
Qed.

Lemma Rsum_map_ge_one {A} (f : A -> R) l x : In x l -> (forall y, In y l -> 0 <= f y) ->
  f x <= Rsum (map f l).
Proof.
  induction l as [|y l IH]; intros Hin Hpos; [destruct Hin|].
  unfold Rsum in *; cbn [map fold_right] in *.
  assert (0 <= fold_right Rplus 0 (map f l)).
  { change (0 <= Rsum (map f l)). apply Rsum_nonneg. intros v Hv.
    apply in_map_iff in Hv as (z & <- & Hz). apply Hpos; right; exact Hz. }
  destruct Hin as [->|Hin]; [lra|].
  assert (0 <= f y) by (apply Hpos; left; auto).
  assert (f x <= fold_right Rplus 0 (map f l)) by (apply IH; auto; intros; apply Hpos; right; auto).
  lra.
Qed.

Lemma NoDup_list_prod {A B} (l : list A) (l' : list B) :
  NoDup l -> NoDup l' -> NoDup (list_prod l l').
Proof.
  induction 1 as [|x l Hx Hl IH]; intros Hl'; cbn; [constructor|].
  assert (Hd : forall y, In y (map (fun b => (x, b)) l') -> ~ In y (list_prod l l')).
  { intros y Hy Hin. apply in_map_iff in Hy as (b & <- & _). apply in_prod_iff in Hin.
    destruct Hin; contradiction. }
  assert (Hm : NoDup (map (fun b => (x, b)) l')).
  { apply FinFun.Injective_map_NoDup; [|exact Hl']. intros u v E; congruence. }
  specialize (IH Hl').
  revert Hd Hm. generalize (map (fun b => (x, b)) l'). intros m Hd Hm.
  induction Hm as [|y m Hy Hm IHm]; cbn; [exact IH|].
  constructor.
  - rewrite in_app_iff. intros [C|C]; [contradiction|]. apply (Hd y); [left; auto|exact C].
  - apply IHm. intros z Hz. apply Hd; right; exact Hz.
Qed.

Lemma cells_In lo hi p : In p (cells lo hi) <-> (forall a, (lo a <= coord a p < hi a)%nat).
Proof.
  destruct p as [[i j] k]. unfold cells, pos. rewrite !in_prod_iff, !in_seq. split.
  - intros [[H1 H2] H3] a. destruct a; cbn; lia.
  - intros H. pose proof (H AX) as H1. pose proof (H AY) as H2. pose proof (H AZ) as H3.
    cbn in *. lia.
Qed.

Lemma cells_NoDup lo hi : NoDup (cells lo hi).
Proof. repeat apply NoDup_list_prod; apply seq_NoDup. Qed.

Lemma cells_length lo hi : length (cells lo hi)
  = ((hi AX - lo AX) * (hi AY - lo AY) * (hi AZ - lo AZ))%nat.
Proof. unfold cells, pos. rewrite !prod_length, !seq_length. reflexivity. Qed.

Lemma box_sum_ext lo hi f g :
  (forall p, (forall a, (lo a <= coord a p < hi a)%nat) -> f p = g p) ->
  box_sum lo hi f = box_sum lo hi g.
Proof. intros H. apply Rsum_map_ext. intros p Hp. apply H, cells_In, Hp. Qed.
Lemma box_sum_plus lo hi f g :
  box_sum lo hi (fun p => f p + g p) = box_sum lo hi f + box_sum lo hi g.
Proof. apply Rsum_map_plus. Qed.
Lemma box_sum_scal lo hi f k :
  box_sum lo hi (fun p => k * f p) = k * box_sum lo hi f.
Proof. apply Rsum_map_scal. Qed.
Lemma box_sum_minus lo hi f g :
  box_sum lo hi (fun p => f p - g p) = box_sum lo hi f - box_sum lo hi g.
Proof.
  transitivity (box_sum lo hi (fun p => f p + (-1) * g p)).
  - apply box_sum_ext; intros; lra.
  - rewrite box_sum_plus, box_sum_scal; lra.
Qed.
Lemma box_sum_le lo hi f g :
  (forall p, (forall a, (lo a <= coord a p < hi a)%nat) -> f p <= g p) ->
  box_sum lo hi f <= box_sum lo hi g.
Proof. intros H. apply Rsum_map_le. intros p Hp. apply H, cells_In, Hp. Qed.
Lemma box_sum_nonneg lo hi f :
  (forall p, (forall a, (lo a <= coord a p < hi a)%nat) -> 0 <= f p) -> 0 <= box_sum lo hi f.
Proof.
  intros H. apply Rsum_nonneg. intros v Hv. apply in_map_iff in Hv as (p & <- & Hp).
  apply H, cells_In, Hp.
Qed.
Lemma box_sum_zero lo hi : box_sum lo hi (fun _ => 0) = 0.
Proof.
  transitivity (box_sum lo hi (fun p => 0 * 0)).
  - apply box_sum_ext; intros; ring.
  - rewrite (box_sum_scal lo hi (fun _ => 0) 0); ring.
Qed.
Lemma box_sum_ge_one lo hi f p : (forall a, (lo a <= coord a p < hi a)%nat) ->
  (forall q, (forall a, (lo a <= coord a q < hi a)%nat) -> 0 <= f q) -> f p <= box_sum lo hi f.
Proof.
  intros Hp Hf. apply Rsum_map_ge_one; [apply cells_In, Hp|].
  intros y Hy. apply Hf, cells_In, Hy.
Qed.

(** Reindexing along an injective map between boxes of equal size. *)
Lemma box_sum_reindex lo hi lo' hi' (h : pos -> pos) f :
  (forall p, (forall a, (lo a <= coord a p < hi a)%nat) ->
     forall a, (lo' a <= coord a (h p) < hi' a)%nat) ->
  (forall p q, (forall a, (lo a <= coord a p < hi a)%nat) ->
     (forall a, (lo a <= coord a q < hi a)%nat) -> h p = h q -> p = q) ->
  (forall a, (hi a - lo a = hi' a - lo' a)%nat) ->
  box_sum lo hi (fun p => f (h p)) = box_sum lo' hi' f.
Proof.
  intros Hin Hinj Hlen. unfold box_sum. rewrite <- (map_map h f).
  apply Rsum_perm, Permutation_map.
  apply NoDup_Permutation_bis.
  - assert (forall l, NoDup l -> (forall p, In p l -> In p (cells lo hi)) -> NoDup (map h l)) as K.
    { induction 1 as [|x l Hx Hl IH]; intros Hs; cbn; constructor.
      - intros C. apply in_map_iff in C as (y & E & Hy).
        assert (y = x); [|subst; contradiction].
        apply Hinj; [apply cells_In, Hs; right; auto|apply cells_In, Hs; left; auto|exact E].
      - apply IH. intros p Hp; apply Hs; right; auto. }
    apply K; [apply cells_NoDup|auto].
  - rewrite map_length, !cells_length, !Hlen. lia.
  - intros y Hy. apply in_map_iff in Hy as (x & <- & Hx). apply cells_In, Hin, cells_In, Hx.
Qed.

(** * The periodic box *)

Section Torus.
Variable M : shape3.

Definition nxt (a : axis) (p : pos) : pos :=
  setc a (if (S (coord a p) =? M a)%nat then 0 else S (coord a p))%nat p.
Definition prv (a : axis) (p : pos) : pos :=
  setc a (if (coord a p =? 0)%nat then (M a - 1) else (coord a p - 1))%nat p.

Definition T (f : pos -> R) : R := box_sum (fun _ => 0%nat) M f.
Definition inT (p : pos) : Prop := forall a, (0 <= coord a p < M a)%nat.

Lemma nxt_in a p : inT p -> inT (nxt a p).
Proof.
  intros H b. unfold nxt. rewrite coord_setc. destruct (axis_eqb_spec b a) as [->|].
  - specialize (H a). destruct (Nat.eqb_spec (S (coord a p)) (M a)); lia.
  - apply H.
Qed.
Lemma prv_in a p : inT p -> inT (prv a p).
Proof.
  intros H b. unfold prv. rewrite coord_setc. destruct (axis_eqb_spec b a) as [->|].
  - specialize (H a). destruct (Nat.eqb_spec (coord a p) 0); lia.
  - apply H.
Qed.
Lemma prv_nxt a p : inT p -> prv a (nxt a p) = p.
Proof.
  intros H. specialize (H a). apply pos_ext; intros b. unfold prv, nxt.
  rewrite !coord_setc, axis_eqb_refl.
  destruct (axis_eqb_spec b a) as [->|]; [|reflexivity].
  destruct (Nat.eqb_spec (S (coord a p)) (M a)).
  - cbn. lia.
  - cbn. lia.
Qed.
Lemma nxt_prv_other a b p : a <> b -> prv a (nxt b p) = nxt b (prv a p).
Proof.
  intros H. unfold prv, nxt.
  rewrite (coord_setc_other a b) by auto. rewrite (coord_setc_other b a) by auto.
  apply setc_comm; auto.
Qed.

Lemma T_ext f g : (forall p, inT p -> f p = g p) -> T f = T g.
Proof. intros H. apply box_sum_ext. exact H. Qed.
Lemma T_plus f g : T (fun p => f p + g p) = T f + T g.
Proof. apply box_sum_plus. Qed.
Lemma T_minus f g : T (fun p => f p - g p) = T f - T g.
Proof. apply box_sum_minus. Qed.
Lemma T_scal k f : T (fun p => k * f p) = k * T f.
Proof. apply box_sum_scal. Qed.
Lemma T_le f g : (forall p, inT p -> f p <= g p) -> T f <= T g.
Proof. intros H. apply box_sum_le. exact H. Qed.
Lemma T_nonneg f : (forall p, inT p -> 0 <= f p) -> 0 <= T f.
Proof. intros H. apply box_sum_nonneg. exact H. Qed.

Lemma T_shift a f : T (fun p => f (nxt a p)) = T f.
Proof.
  apply box_sum_reindex.
  - intros p Hp. exact (nxt_in a p Hp).
  - intros p q Hp Hq E.
    rewrite <- (prv_nxt a p Hp), <- (prv_nxt a q Hq), E. reflexivity.
  - reflexivity.
Qed.

(** Moving a backward neighbour to the other factor. *)
Lemma T_adj a (F G : pos -> R) :
  T (fun p => F (nxt a p) * G p) = T (fun p => F p * G (prv a p)).
Proof.
  rewrite <- (T_shift a (fun p => F p * G (prv a p))).
  apply T_ext. intros p Hp. rewrite (prv_nxt a p Hp). reflexivity.
Qed.

(** Forward difference and its bound. *)
Definition dl (a : axis) (F : pos -> R) : pos -> R := fun p => F (nxt a p) - F p.
(** (minus) backward difference *)
Definition dm (a : axis) (F : pos -> R) : pos -> R := fun p => F (prv a p) - F p.

Lemma T_sq_dl a F : T (fun p => dl a F p ^ 2)
   <= (if (1 <? M a)%nat then 4 else 0) * T (fun p => F p ^ 2).
Proof.
  destruct (Nat.ltb_spec 1 (M a)) as [H|H].
  - apply Rle_trans with (T (fun p => 2 * F (nxt a p) ^ 2 + 2 * F p ^ 2)).
    + apply T_le. intros p _. unfold dl. pose proof (pow2_ge_0 (F (nxt a p) + F p)). nra.
    + rewrite T_plus, (T_scal 2 (fun p => F (nxt a p) ^ 2)), (T_scal 2 (fun p => F p ^ 2)), (T_shift a (fun p => F p ^ 2)). lra.
  - rewrite Rmult_0_l. apply Req_le.
    transitivity (T (fun _ => 0)); [|apply box_sum_zero].
    apply T_ext. intros p Hp. unfold dl.
    assert (nxt a p = p) as ->; [|ring].
    unfold nxt. specialize (Hp a). rewrite <- (setc_coord a p) at 4. f_equal.
    destruct (Nat.eqb_spec (S (coord a p)) (M a)); lia.
Qed.

Lemma T_sq_dm a F : T (fun p => dm a F p ^ 2) = T (fun p => dl a F p ^ 2).
Proof.
  rewrite <- (T_shift a (fun p => dm a F p ^ 2)). apply T_ext. intros p Hp.
  unfold dm, dl. rewrite (prv_nxt a p Hp). ring.
Qed.

(** The exchange of mixed differences. *)
Lemma T_cross a b (F G : pos -> R) : a <> b ->
  T (fun p => dm a F p * dm b G p) = T (fun p => dl a G p * dl b F p).
Proof.
  intros Hab. unfold dm, dl.
  transitivity (T (fun p => F (prv a p) * G (prv b p)) - T (fun p => G p * F (prv a p))
                - T (fun p => F p * G (prv b p)) + T (fun p => F p * G p)).
  { rewrite <- !T_minus, <- T_plus. apply T_ext; intros; ring. }
  transitivity (T (fun p => G (nxt a p) * F (nxt b p)) - T (fun p => G (nxt a p) * F p)
                - T (fun p => F (nxt b p) * G p) + T (fun p => F p * G p)).
  2:{ rewrite <- !T_minus, <- T_plus. apply T_ext; intros; ring. }
  rewrite (T_adj a G F), (T_adj b F G).
  f_equal. f_equal. f_equal.
  rewrite <- (T_shift a (fun p => F (prv a p) * G (prv b p))).
  rewrite <- (T_shift b (fun p => F (prv a (nxt a p)) * G (prv b (nxt a p)))).
  apply T_ext. intros p Hp.
  rewrite (prv_nxt a (nxt b p)) by (apply nxt_in; exact Hp).
  rewrite (nxt_prv_other b a (nxt b p)) by auto.
  rewrite (prv_nxt b p Hp). ring.
Qed.

(** * Curl on the periodic box *)
Definition curlT (E : field) : field := fun p a =>
  let e c := fun q => E q c in
  match a with
  | AX => dl AY (e AZ) p - dl AZ (e AY) p
  | AY => dl AZ (e AX) p - dl AX (e AZ) p
  | AZ => dl AX (e AY) p - dl AY (e AX) p
  end.
Definition curlT' (H : field) : field := fun p a =>
  let h c := fun q => H q c in
  match a with
  | AX => dm AZ (h AY) p - dm AY (h AZ) p
  | AY => dm AX (h AZ) p - dm AZ (h AX) p
  | AZ => dm AY (h AX) p - dm AX (h AY) p
  end.

Lemma T_dl_adj a F G : T (fun p => G p * dl a F p) = T (fun p => F p * dm a G p).
Proof.
  unfold dl, dm.
  transitivity (T (fun p => F (nxt a p) * G p) - T (fun p => F p * G p)).
  { rewrite <- T_minus; apply T_ext; intros; ring. }
  rewrite (T_adj a F G).
  rewrite <- T_minus; apply T_ext; intros; ring.
Qed.

Lemma curlT_adjoint (E H : field) :
  T (fun p => sum3 (fun c => H p c * curlT E p c))
  = T (fun p => sum3 (fun c => E p c * curlT' H p c)).
Proof.
  set (e c := fun q => E q c). set (h c := fun q => H q c).
  transitivity (T (fun p => h AX p * dl AY (e AZ) p) - T (fun p => h AX p * dl AZ (e AY) p)
    + (T (fun p => h AY p * dl AZ (e AX) p) - T (fun p => h AY p * dl AX (e AZ) p))
    + (T (fun p => h AZ p * dl AX (e AY) p) - T (fun p => h AZ p * dl AY (e AX) p))).
  { rewrite <- !T_minus, <- !T_plus. apply T_ext; intros.
    unfold sum3, curlT, e, h; cbv zeta; ring. }
  rewrite !T_dl_adj.
  rewrite <- !T_minus, <- !T_plus. apply T_ext; intros.
  unfold sum3, curlT', e, h; cbv zeta; ring.
Qed.

Definition dimT : nat :=
  ((if 1 <? M AX then 1 else 0) + (if 1 <? M AY then 1 else 0)
   + (if 1 <? M AZ then 1 else 0))%nat.

Lemma curlT_bound (E : field) :
  T (fun p => sum3 (fun c => curlT E p c ^ 2))
  <= 4 * INR dimT * T (fun p => sum3 (fun c => E p c ^ 2)).
Proof.
  set (e c := fun q => E q c).
  set (s a := if (1 <? M a)%nat then 4 else 0).
  assert (Hd : 4 * INR dimT = s AX + s AY + s AZ).
  { unfold dimT, s. rewrite !plus_INR.
    destruct (1 <? M AX)%nat, (1 <? M AY)%nat, (1 <? M AZ)%nat; cbn; lra. }
  assert (K : T (fun p => sum3 (fun c => curlT E p c ^ 2))
     + T (fun p => (dm AX (e AX) p + dm AY (e AY) p + dm AZ (e AZ) p) ^ 2)
     = (T (fun p => dl AY (e AZ) p ^ 2) + T (fun p => dl AZ (e AY) p ^ 2))
     + (T (fun p => dl AZ (e AX) p ^ 2) + T (fun p => dl AX (e AZ) p ^ 2))
     + (T (fun p => dl AX (e AY) p ^ 2) + T (fun p => dl AY (e AX) p ^ 2))
     + (T (fun p => dl AX (e AX) p ^ 2) + T (fun p => dl AY (e AY) p ^ 2)
        + T (fun p => dl AZ (e AZ) p ^ 2))).
  { rewrite <- (T_sq_dm AX (e AX)), <- (T_sq_dm AY (e AY)), <- (T_sq_dm AZ (e AZ)).
    transitivity (
      (T (fun p => dl AY (e AZ) p ^ 2) + T (fun p => dl AZ (e AY) p ^ 2))
     + (T (fun p => dl AZ (e AX) p ^ 2) + T (fun p => dl AX (e AZ) p ^ 2))
     + (T (fun p => dl AX (e AY) p ^ 2) + T (fun p => dl AY (e AX) p ^ 2))
     + (T (fun p => dm AX (e AX) p ^ 2) + T (fun p => dm AY (e AY) p ^ 2)
        + T (fun p => dm AZ (e AZ) p ^ 2))
     + 2 * (T (fun p => dm AY (e AY) p * dm AZ (e AZ) p)
            - T (fun p => dl AY (e AZ) p * dl AZ (e AY) p)
          + (T (fun p => dm AZ (e AZ) p * dm AX (e AX) p)
            - T (fun p => dl AZ (e AX) p * dl AX (e AZ) p))
          + (T (fun p => dm AX (e AX) p * dm AY (e AY) p)
            - T (fun p => dl AX (e AY) p * dl AY (e AX) p)))).
    - rewrite <- !T_minus, <- !T_plus, <- T_scal, <- !T_plus.
      apply T_ext; intros. unfold sum3, curlT, e; cbv zeta; ring.
    - rewrite !T_cross by discriminate. ring. }
  assert (Hdiv : 0 <= T (fun p => (dm AX (e AX) p + dm AY (e AY) p + dm AZ (e AZ) p) ^ 2)).
  { apply T_nonneg. intros; apply pow2_ge_0. }
  assert (HE : T (fun p => sum3 (fun c => E p c ^ 2))
     = T (fun p => e AX p ^ 2) + T (fun p => e AY p ^ 2) + T (fun p => e AZ p ^ 2)).
  { rewrite <- !T_plus. apply T_ext; intros; reflexivity. }
  pose proof (T_sq_dl AX (e AX)). pose proof (T_sq_dl AX (e AY)). pose proof (T_sq_dl AX (e AZ)).
  pose proof (T_sq_dl AY (e AX)). pose proof (T_sq_dl AY (e AY)). pose proof (T_sq_dl AY (e AZ)).
  pose proof (T_sq_dl AZ (e AX)). pose proof (T_sq_dl AZ (e AY)). pose proof (T_sq_dl AZ (e AZ)).
  fold (s AX) in *. fold (s AY) in *. fold (s AZ) in *.
  rewrite Hd, HE. lra.
Qed.

(** The coupling is bounded by the squares: |<H, curl E>| <= sqrt D (|H|^2 + |E|^2). *)
Lemma coupling_bound (E H : field) :
  Rabs (T (fun p => sum3 (fun c => H p c * curlT E p c)))
  <= sqrt (INR dimT) * (T (fun p => sum3 (fun c => E p c ^ 2))
                        + T (fun p => sum3 (fun c => H p c ^ 2))).
Proof.
  set (D := INR dimT). set (s := sqrt D).
  assert (HD : 0 <= D) by apply pos_INR.
  assert (Hs : s * s = D) by (apply sqrt_sqrt; exact HD).
  assert (Hs0 : 0 <= s) by apply sqrt_pos.
  set (TE := T (fun p => sum3 (fun c => E p c ^ 2))).
  set (TH := T (fun p => sum3 (fun c => H p c ^ 2))).
  pose proof (curlT_bound E) as B. fold D TE in B.
  set (TC := T (fun p => sum3 (fun c => curlT E p c ^ 2))) in B.
  destruct (Req_dec s 0) as [Z|NZ].
  - rewrite Z, Rmult_0_l.
    assert (TC <= 0) by (rewrite <- Hs, Z in B; lra).
    (* every curl value vanishes *)
    assert (Hz : forall p, inT p -> forall c, curlT E p c = 0).
    { intros p Hp c.
      assert (sum3 (fun c => curlT E p c ^ 2) <= TC).
      { apply (box_sum_ge_one (fun _ => 0%nat) M (fun p => sum3 (fun c => curlT E p c ^ 2)) p Hp).
        intros q _. apply (sum3_sq_nonneg (curlT E q)). }
      pose proof (sum3_sq_ge (curlT E p) c) as G.
      apply sq_le0. lra. }
    assert (T (fun p => sum3 (fun c => H p c * curlT E p c)) = 0) as ->.
    { rewrite <- (box_sum_zero (fun _ => 0%nat) M). apply T_ext. intros p Hp.
      unfold sum3. rewrite !(Hz p Hp). ring. }
    rewrite Rabs_R0. lra.
  - assert (Hsp : 0 < s) by lra.
    assert (K : forall sg : R, sg = 1 \/ sg = -1 ->
       sg * T (fun p => sum3 (fun c => H p c * curlT E p c)) <= s * TH + / (4 * s) * TC).
    { intros sg Hsg. unfold TH, TC. rewrite <- !T_scal, <- T_plus. apply T_le. intros p _.
      assert (P : forall h c, sg * (h * c) <= s * h ^ 2 + / (4 * s) * c ^ 2).
      { intros h c.
        assert (Hq : 0 <= / (4 * s) * (2 * s * h - sg * c) ^ 2).
        { apply Rmult_le_pos; [left; apply Rinv_0_lt_compat; lra|apply pow2_ge_0]. }
        assert (Hsg2 : sg * sg = 1) by (destruct Hsg as [-> | ->]; ring).
        replace (/ (4 * s) * (2 * s * h - sg * c) ^ 2)
          with (s * h ^ 2 - sg * (h * c) + (sg * sg) * (/ (4 * s) * c ^ 2)) in Hq by (field; lra).
        rewrite Hsg2 in Hq. lra. }
      unfold sum3.
      pose proof (P (H p AX) (curlT E p AX)). pose proof (P (H p AY) (curlT E p AY)).
      pose proof (P (H p AZ) (curlT E p AZ)). lra. }
    assert (Hb : / (4 * s) * TC <= s * TE).
    { replace (s * TE) with (/ (4 * s) * (4 * D * TE)) by (rewrite <- Hs; field; lra).
      apply Rmult_le_compat_l; [left; apply Rinv_0_lt_compat; lra|exact B]. }
    pose proof (K 1 (or_introl eq_refl)). pose proof (K (-1) (or_intror eq_refl)).
    apply Rabs_le. lra.
Qed.
End Torus.
