(** The truncated set of orders. *)
From Coq Require Import Reals ZArith String List Bool Lra Lia Psatz Sorted Permutation Ratan.
From Verif Require Import Base BaseLemmas Cplx Model_Lattice Spec_Lattice Proof_Lattice Proof_Lattice2.
Import ListNotations.
Open Scope R_scope.

Lemma extent_range_in e z : (0 <= e)%Z -> (In z (extent_range e) <-> (- e <= z <= e)%Z).
Proof.
  intros He. unfold extent_range. rewrite in_map_iff. split.
  - intros (i & <- & Hi). apply in_seq in Hi. lia.
  - intros Hz. exists (Z.to_nat (z + e)). split; [lia|]. apply in_seq. lia.
Qed.

Lemma extent_range_nodup e : NoDup (extent_range e).
Proof.
  unfold extent_range. apply FinFun.Injective_map_NoDup; [|apply seq_NoDup].
  intros x y E. lia.
Qed.

Lemma candidates_in ue ve g : (0 <= ue)%Z -> (0 <= ve)%Z ->
  (In g (candidates ue ve) <-> (- ue <= fst g <= ue)%Z /\ (- ve <= snd g <= ve)%Z).
Proof.
  intros Hu Hv. unfold candidates. rewrite in_flat_map. split.
  - intros (a & Ha & Hg). apply in_map_iff in Hg as (b & <- & Hb). cbn [fst snd].
    apply extent_range_in in Ha; apply extent_range_in in Hb; auto.
  - intros [Ha Hb]. exists (fst g). split; [apply extent_range_in; auto|].
    apply in_map_iff. exists (snd g). split; [destruct g; reflexivity|]. apply extent_range_in; auto.
Qed.

Lemma candidates_nodup ue ve : NoDup (candidates ue ve).
Proof.
  unfold candidates. apply (NoDup_flat_map_key fst).
  - apply extent_range_nodup.
  - intros x _. apply FinFun.Injective_map_NoDup; [|apply extent_range_nodup].
    intros a b E. injection E; auto.
  - intros x y _ Hy. apply in_map_iff in Hy as (b & <- & _). reflexivity.
Qed.

Lemma candidates_length ue ve : (0 <= ue)%Z -> (0 <= ve)%Z ->
  Z.of_nat (length (candidates ue ve)) = ((2 * ue + 1) * (2 * ve + 1))%Z.
Proof.
  intros Hu Hv. unfold candidates, extent_range at 1.
  assert (K : forall l : list Z, length (flat_map (fun a => map (fun b => (a, b)) (extent_range ve)) l)
              = (length l * length (extent_range ve))%nat).
  { induction l as [|x l IH]; cbn [flat_map length]; auto.
    rewrite app_length, map_length, IH. lia. }
  rewrite K. unfold extent_range. rewrite !map_length, !seq_length. nia.
Qed.

(** Cauchy-Schwarz bounds on the coordinates of a short reciprocal vector *)
Lemma coordinate_bound lk1 lk2 g : vcross lk1 lk2 <> 0 ->
  Rabs (IZR (fst g)) * (Rabs (vcross lk1 lk2) / vnorm lk2) <= vnorm (recip lk1 lk2 g)
  /\ Rabs (IZR (snd g)) * (Rabs (vcross lk1 lk2) / vnorm lk1) <= vnorm (recip lk1 lk2 g).
Proof.
  intros H. destruct (vnorm_pos_cross _ _ H) as [Ha Hb].
  assert (K : forall k l, 0 < vnorm l -> Rabs (vcross k l) / vnorm l <= vnorm k).
  { intros k l Hl. apply Rmult_le_reg_r with (vnorm l); auto.
    unfold Rdiv. rewrite Rmult_assoc, Rinv_l, Rmult_1_r by lra.
    apply Rsqr_incr_0_var; [|apply Rmult_le_pos; [apply vnorm_nonneg|lra]].
    unfold Rsqr. rewrite <- Rabs_mult, Rabs_pos_eq by nra.
    pose proof (lagrange k l). nra. }
  split.
  - replace (Rabs (IZR (fst g)) * (Rabs (vcross lk1 lk2) / vnorm lk2))
      with (Rabs (vcross (recip lk1 lk2 g) lk2) / vnorm lk2); [apply K; auto|].
    unfold Rdiv. rewrite <- Rmult_assoc, <- Rabs_mult. do 2 f_equal.
    unfold vcross, recip; cbn [fst snd]; ring.
  - replace (Rabs (IZR (snd g)) * (Rabs (vcross lk1 lk2) / vnorm lk1))
      with (Rabs (vcross (recip lk1 lk2 g) lk1) / vnorm lk1); [apply K; auto|].
    unfold Rdiv. rewrite <- Rmult_assoc, <- Rabs_mult. f_equal.
    replace (vcross (recip lk1 lk2 g) lk1) with (- (IZR (snd g) * vcross lk1 lk2))
      by (unfold vcross, recip; cbn [fst snd]; ring).
    apply Rabs_Ropp.
Qed.

Lemma extent_covers x q rad : 0 < q -> Rabs (IZR x) * q <= rad ->
  (- (1 + Rtrunc (rad / q)) <= x <= 1 + Rtrunc (rad / q))%Z.
Proof.
  intros Hq H.
  assert (H0 : 0 <= rad) by (apply Rle_trans with (2 := H); apply Rmult_le_pos; [apply Rabs_pos|lra]).
  assert (Hr : 0 <= rad / q) by (apply Rmult_le_pos; [auto|left; apply Rinv_0_lt_compat; auto]).
  rewrite Rtrunc_nonneg by auto.
  assert (Hx : Rabs (IZR x) <= rad / q).
  { apply Rmult_le_reg_r with q; auto. unfold Rdiv. rewrite Rmult_assoc, Rinv_l; lra. }
  destruct (Rfloor_spec (rad / q)) as [_ F].
  rewrite <- abs_IZR in Hx.
  assert (IZR (Z.abs x) < IZR (Rfloor (rad / q) + 1)) by (rewrite plus_IZR; lra).
  apply lt_IZR in H1. lia.
Qed.

(** sorted lists *)
Lemma ssorted_nth (l : list R) i j : StronglySorted Rle l -> (i <= j)%nat -> (j < length l)%nat ->
  nth i l 0 <= nth j l 0.
Proof.
  intros S. revert i j. induction S as [|a l S IH F]; intros i j Hij Hj; cbn [length] in *; [lia|].
  destruct i, j; cbn [nth]; try lia.
  - lra.
  - rewrite Forall_forall in F. apply F, nth_In. lia.
  - apply IH; lia.
Qed.

Lemma shell_cut_le gl2 tol i : (shell_cut gl2 tol i <= i)%nat.
Proof. induction i; cbn [shell_cut]; [lia|]. destruct Rlt_dec; lia. Qed.

Lemma shell_cut_gap gl2 tol i n : shell_cut gl2 tol i = S n -> tol < Rabs (nth (S n) gl2 0 - nth n gl2 0).
Proof.
  induction i as [|i IH]; cbn [shell_cut]; [discriminate|].
  destruct Rlt_dec as [H|H]; [|exact IH]. intros E. injection E as <-. exact H.
Qed.

Lemma shell_cut_max gl2 tol i m : (S m <= i)%nat -> tol < Rabs (nth (S m) gl2 0 - nth m gl2 0) ->
  (S m <= shell_cut gl2 tol i)%nat.
Proof.
  induction i as [|i IH]; intros Hm G; [lia|]. cbn [shell_cut].
  destruct Rlt_dec as [H|H]; [lia|].
  destruct (Nat.eq_dec m i) as [->|Hne]; [contradiction|]. apply IH; auto; lia.
Qed.

Lemma map_nth_seq {A} (l : list A) d : map (fun i => nth i l d) (seq 0 (length l)) = l.
Proof.
  induction l as [|a l IH]; cbn [length seq map]; [reflexivity|].
  f_equal. rewrite <- seq_shift, map_map. exact IH.
Qed.

(** Everything about a successful truncation, in terms of the sorted candidates. *)
Lemma gsel_sorted argsort nG lk1 lk2 :
  sorts argsort -> independent lk1 lk2 -> (1 <= nG)%Z ->
  exists L : list (Z * Z), exists rad : R,
    NoDup L
    /\ (forall i j, (i <= j)%nat -> (j < length L)%nat ->
          len2 lk1 lk2 (nth i L (0,0)%Z) <= len2 lk1 lk2 (nth j L (0,0)%Z))
    /\ (forall g, len2 lk1 lk2 g <= rad -> In g L)
    /\ (forall i, (i < Z.to_nat nG)%nat -> (i < length L)%nat /\ len2 lk1 lk2 (nth i L (0,0)%Z) <= rad)
    /\ Gsel_circular argsort nG lk1 lk2
       = (let n := shell_cut (map (len2 lk1 lk2) L)
                     (/ 10 ^ 10 * Rmax (vnorm lk1 * vnorm lk1) (vnorm lk2 * vnorm lk2)) (Z.to_nat nG - 1) in
          Ok (firstn n L, Z.of_nat n)).
Proof.
  intros Hs Hi HnG.
  assert (Hc : vcross lk1 lk2 <> 0) by exact Hi.
  destruct (vnorm_pos_cross _ _ Hc) as [Ha Hb].
  set (A := Rabs (vcross lk1 lk2)).
  assert (HA : 0 < A) by (apply Rabs_pos_lt; auto).
  set (r0 := sqrt (IZR nG * A / PI)).
  assert (HnR : 1 <= IZR nG) by (apply (IZR_le 1); auto).
  assert (PP : 0 < PI) by apply PI_RGT_0.
  assert (Hq : 0 < IZR nG * A / PI) by (apply Rdiv_lt_0_compat; nra).
  assert (Hr0 : 0 < r0) by (apply sqrt_lt_R0; auto).
  set (cr := r0 + vnorm lk1 + vnorm lk2).
  assert (Hcr : 0 < cr) by (unfold cr; lra).
  destruct (disc_count lk1 lk2 r0 Hc Hr0) as (pts & Pn & Pin & Pl).
  fold A cr in Pin, Pl.
  assert (Plen : (Z.to_nat nG <= length pts)%nat).
  { apply INR_le. apply Rle_trans with (2 := Pl).
    unfold r0. rewrite sqrt_sqrt by lra.
    rewrite INR_IZR_INZ, Z2Nat.id by lia.
    right. field. split; lra. }
  unfold Gsel_circular.
  destruct (Req_EM_T (vnorm lk1 * vnorm lk2) 0) as [E|_]; [nra|].
  assert (E1 : (nG <? 0)%Z && negb (Reqb (vcross lk1 lk2) 0) = false).
  { destruct (Z.ltb_spec nG 0); [lia|reflexivity]. }
  rewrite E1. clear E1.
  destruct (Req_EM_T (vcross lk1 lk2) 0) as [E|_]; [contradiction|].
  rewrite (sine_factor lk1 lk2 Hc).
  assert (SF : vnorm lk2 * sqrt (1 - vdot lk1 lk2 * vdot lk1 lk2 / (vnorm lk1 * vnorm lk2 * (vnorm lk1 * vnorm lk2)))
               = A / vnorm lk1).
  { pose proof (sine_factor lk1 lk2 Hc) as S. fold A in S.
    set (q := sqrt (1 - _)) in *.
    assert (q = A / vnorm lk2 / vnorm lk1) by (apply Rmult_eq_reg_l with (vnorm lk1); [rewrite S; field|]; lra).
    rewrite H. field. lra. }
  rewrite SF. fold A. fold r0. fold cr.
  set (ue := (1 + Rtrunc (cr / (A / vnorm lk2)))%Z).
  set (ve := (1 + Rtrunc (cr / (A / vnorm lk1)))%Z).
  assert (Q2 : 0 < A / vnorm lk2) by (apply Rdiv_lt_0_compat; auto).
  assert (Q1 : 0 < A / vnorm lk1) by (apply Rdiv_lt_0_compat; auto).
  assert (Hue : (0 <= ue)%Z).
  { unfold ue. assert (0 <= Rtrunc (cr / (A / vnorm lk2)))%Z; [|lia].
    apply Rtrunc_nonneg_Z, Rlt_le, Rdiv_lt_0_compat; auto. }
  assert (Hve : (0 <= ve)%Z).
  { unfold ve. assert (0 <= Rtrunc (cr / (A / vnorm lk1)))%Z; [|lia].
    apply Rtrunc_nonneg_Z, Rlt_le, Rdiv_lt_0_compat; auto. }
  set (G0 := candidates ue ve).
  set (gl := map (Gl2_of (vnorm lk1) (vnorm lk2) (vdot lk1 lk2)) G0).
  destruct (Hs gl) as [Hp Hsort].
  set (L := map (fun i => nth i G0 (0,0)%Z) (argsort gl)).
  assert (Lgl : length gl = length G0) by (unfold gl; apply map_length).
  assert (PL : Permutation L G0).
  { unfold L. apply Permutation_trans with (map (fun i => nth i G0 (0,0)%Z) (seq 0 (length G0))).
    - apply Permutation_map. rewrite <- Lgl. exact Hp.
    - rewrite map_nth_seq. apply Permutation_refl. }
  assert (Egl : map (fun i => nth i gl 0) (argsort gl) = map (len2 lk1 lk2) L).
  { unfold L. rewrite map_map. apply map_ext_in. intros i Hin.
    apply (Permutation_in _ Hp) in Hin. apply in_seq in Hin.
    unfold gl. rewrite (nth_indep _ 0 (Gl2_of (vnorm lk1) (vnorm lk2) (vdot lk1 lk2) (0,0)%Z)) by (fold gl; lia).
    rewrite map_nth. apply gl2_len2. }
  rewrite Egl in *.
  assert (Hlen : length L = length G0) by (apply Permutation_length; auto).
  assert (Srt : forall i j, (i <= j)%nat -> (j < length L)%nat ->
          len2 lk1 lk2 (nth i L (0,0)%Z) <= len2 lk1 lk2 (nth j L (0,0)%Z)).
  { intros i j Hij Hj. rewrite <- !(map_nth (len2 lk1 lk2)).
    rewrite !(nth_indep _ (len2 lk1 lk2 (0,0)%Z) 0) by (rewrite map_length; lia).
    apply ssorted_nth; auto. rewrite map_length; auto. }
  assert (NL : NoDup L).
  { apply (Permutation_NoDup (l := G0)); [apply Permutation_sym; auto|apply candidates_nodup]. }
  assert (Len2 : forall g, len2 lk1 lk2 g = vnorm (recip lk1 lk2 g) * vnorm (recip lk1 lk2 g)).
  { intros g. rewrite vnorm_sq. reflexivity. }
  assert (Cov : forall g, len2 lk1 lk2 g <= cr * cr -> In g L).
  { intros g Hg. apply (Permutation_in (l := G0)); [apply Permutation_sym; auto|].
    assert (Hv : vnorm (recip lk1 lk2 g) <= cr).
    { apply Rsqr_incr_0_var; [unfold Rsqr; rewrite <- Len2; auto|lra]. }
    destruct (coordinate_bound lk1 lk2 g Hc) as [B1 B2]. fold A in B1, B2.
    unfold G0. apply candidates_in; auto. split.
    - apply extent_covers; lra.
    - apply extent_covers; lra. }
  assert (Pts : forall g, In g pts -> In g L /\ len2 lk1 lk2 g <= cr * cr).
  { intros g Hg. specialize (Pin g Hg).
    assert (len2 lk1 lk2 g <= cr * cr).
    { rewrite Len2. pose proof (vnorm_nonneg (recip lk1 lk2 g)).
      unfold cr in *. apply Rmult_le_compat; lra. }
    auto. }
  assert (PtsL : (length pts <= length L)%nat).
  { apply NoDup_incl_length; auto. intros g Hg. apply Pts; auto. }
  exists L, (cr * cr). split; [exact NL|]. split; [exact Srt|]. split; [exact Cov|]. split.
  - intros i Hlt. split; [lia|].
    destruct (Rle_lt_dec (len2 lk1 lk2 (nth i L (0,0)%Z)) (cr * cr)) as [H|H]; auto.
    exfalso.
    assert (I : incl pts (firstn i L)).
    { intros g Hg. destruct (Pts g Hg) as [HgL Hgl].
      destruct (In_nth L g (0,0)%Z HgL) as (k & Hk & Ek).
      destruct (le_lt_dec i k) as [Hik|Hki].
      - specialize (Srt i k Hik Hk). rewrite Ek in Srt. lra.
      - rewrite <- Ek, <- (firstn_skipn i L) at 1. rewrite app_nth1.
        + apply nth_In. rewrite firstn_length. lia.
        + rewrite firstn_length. lia. }
    apply NoDup_incl_length in I; auto. rewrite firstn_length in I. lia.
  - cbv zeta.
    assert (Tot : ((2 * ue + 1) * (2 * ve + 1))%Z = Z.of_nat (length L)).
    { rewrite Hlen. unfold G0. symmetry. apply candidates_length; auto. }
    rewrite Tot.
    assert (Emin : (if (nG <? Z.of_nat (length L))%Z then nG else Z.of_nat (length L)) = nG).
    { destruct (Z.ltb_spec nG (Z.of_nat (length L))); lia. }
    rewrite Emin. destruct (Z.leb_spec nG 0); [lia|]. reflexivity.
Qed.
