(** Properties of the truncated set of orders. *)
From Coq Require Import Reals ZArith String List Bool Lra Lia Psatz Sorted Permutation Ratan.
From Verif Require Import Base BaseLemmas Cplx Model_Lattice Spec_Lattice Proof_Lattice Proof_Lattice2 Proof_Lattice3.
Import ListNotations.
Open Scope R_scope.

Lemma len2_nonneg lk1 lk2 g : 0 <= len2 lk1 lk2 g.
Proof. unfold len2. nra. Qed.

Lemma len2_zero lk1 lk2 : len2 lk1 lk2 (0, 0)%Z = 0.
Proof. unfold len2, recip; cbn [fst snd]; ring. Qed.

Lemma len2_neg lk1 lk2 g : len2 lk1 lk2 (neg_order g) = len2 lk1 lk2 g.
Proof. unfold len2, recip, neg_order; cbn [fst snd]. rewrite !opp_IZR. ring. Qed.

Lemma len2_pos lk1 lk2 g : independent lk1 lk2 -> g <> (0, 0)%Z -> 0 < len2 lk1 lk2 g.
Proof.
  intros Hi Hg. assert (Hc : vcross lk1 lk2 <> 0) by exact Hi.
  destruct (vnorm_pos_cross _ _ Hc) as [Ha Hb].
  destruct (Rle_lt_dec (len2 lk1 lk2 g) 0) as [H|H]; auto. exfalso.
  assert (Z : vnorm (recip lk1 lk2 g) = 0).
  { pose proof (vnorm_sq (recip lk1 lk2 g)) as S. unfold len2 in H.
    pose proof (vnorm_nonneg (recip lk1 lk2 g)). nra. }
  destruct (coordinate_bound lk1 lk2 g Hc) as [B1 B2]. rewrite Z in B1, B2.
  assert (Q : 0 < Rabs (vcross lk1 lk2)) by (apply Rabs_pos_lt; auto).
  assert (Q2 : 0 < Rabs (vcross lk1 lk2) / vnorm lk2) by (apply Rdiv_lt_0_compat; auto).
  assert (Q1 : 0 < Rabs (vcross lk1 lk2) / vnorm lk1) by (apply Rdiv_lt_0_compat; auto).
  pose proof (Rabs_pos (IZR (fst g))). pose proof (Rabs_pos (IZR (snd g))).
  assert (F1 : Rabs (IZR (fst g)) = 0) by nra.
  assert (F2 : Rabs (IZR (snd g)) = 0) by nra.
  apply Hg. destruct g as [a b]; cbn [fst snd] in *.
  f_equal; apply eq_IZR.
  - destruct (Req_dec (IZR a) 0) as [|N]; auto. apply Rabs_no_R0 in N. contradiction.
  - destruct (Req_dec (IZR b) 0) as [|N]; auto. apply Rabs_no_R0 in N. contradiction.
Qed.

Lemma nth_firstn_lt {A} n (l : list A) i d : (i < n)%nat -> nth i (firstn n l) d = nth i l d.
Proof.
  revert n l. induction i as [|i IH]; intros [|n] [|a l] H; cbn; try lia; auto. apply IH. lia.
Qed.

Definition tolerance (lk1 lk2 : vec2) : R :=
  / 10 ^ 10 * Rmax (vnorm lk1 * vnorm lk1) (vnorm lk2 * vnorm lk2).

Lemma tolerance_nonneg lk1 lk2 : 0 <= tolerance lk1 lk2.
Proof.
  unfold tolerance. apply Rmult_le_pos.
  - left. apply Rinv_0_lt_compat. lra.
  - apply Rle_trans with (vnorm lk1 * vnorm lk1); [nra|apply Rmax_l].
Qed.

Lemma tolerance_spec lk1 lk2 : tolerance lk1 lk2
  = / 10 ^ 10 * Rmax (len2 lk1 lk2 (1, 0)%Z) (len2 lk1 lk2 (0, 1)%Z).
Proof.
  unfold tolerance. rewrite !vnorm_sq. unfold len2, recip; cbn [fst snd]. do 2 f_equal; ring.
Qed.

Lemma gsel_all argsort nG lk1 lk2 :
  sorts argsort -> independent lk1 lk2 -> (1 <= nG)%Z ->
  exists G, Gsel_circular argsort nG lk1 lk2 = Ok (G, Z.of_nat (length G))
    /\ (Z.of_nat (length G) <= nG - 1)%Z
    /\ NoDup G
    /\ (forall i j, (i <= j)%nat -> (j < length G)%nat ->
          len2 lk1 lk2 (nth i G (0,0)%Z) <= len2 lk1 lk2 (nth j G (0,0)%Z))
    /\ (forall g h, In h G -> len2 lk1 lk2 g <= len2 lk1 lk2 h + tolerance lk1 lk2 -> In g G)
    /\ (forall S rho, NoDup S -> (Z.of_nat (length S) <= nG - 1)%Z ->
          (forall g, In g S <-> len2 lk1 lk2 g <= rho) ->
          (forall g, rho < len2 lk1 lk2 g -> rho + tolerance lk1 lk2 < len2 lk1 lk2 g) ->
          incl S G).
Proof.
  intros Hs Hi HnG.
  destruct (gsel_sorted argsort nG lk1 lk2 Hs Hi HnG) as (L & rad & NL & Srt & Cov & In_rad & E).
  fold (tolerance lk1 lk2) in E.
  pose proof (tolerance_nonneg lk1 lk2) as T0.
  set (gl := map (len2 lk1 lk2) L) in *. cbv zeta in E.
  set (n := shell_cut gl (tolerance lk1 lk2) (Z.to_nat nG - 1)) in *.
  assert (Hn : (n <= Z.to_nat nG - 1)%nat) by apply shell_cut_le.
  assert (HnL : (n < length L)%nat) by (apply In_rad; lia).
  assert (Gn : forall i, (i < length L)%nat -> nth i gl 0 = len2 lk1 lk2 (nth i L (0,0)%Z)).
  { intros i H. unfold gl. rewrite (nth_indep _ 0 (len2 lk1 lk2 (0,0)%Z)) by (rewrite map_length; auto).
    apply map_nth. }
  exists (firstn n L).
  assert (Len : length (firstn n L) = n) by (rewrite firstn_length; lia).
  rewrite Len. split; [exact E|]. split; [lia|]. split.
  { rewrite <- (firstn_skipn n L) in NL. clear - NL.
    induction (firstn n L) as [|a l IH]; [constructor|]. cbn in NL. inversion NL; subst.
    constructor; auto. rewrite in_app_iff in H1. tauto. }
  split.
  { intros i j Hij Hj. rewrite !nth_firstn_lt by lia. apply Srt; lia. }
  assert (InG : forall k, (k < n)%nat -> In (nth k L (0,0)%Z) (firstn n L)).
  { intros k Hk. rewrite <- (nth_firstn_lt n) by auto. apply nth_In. lia. }
  split.
  - intros g h Hh Hlen.
    destruct (In_nth _ _ (0,0)%Z Hh) as (k & Hk & Ek). rewrite Len in Hk.
    rewrite nth_firstn_lt in Ek by auto.
    destruct n as [|n'] eqn:En; [lia|].
    pose proof (shell_cut_gap gl (tolerance lk1 lk2) (Z.to_nat nG - 1) n' En) as Gap.
    rewrite !Gn in Gap by lia.
    assert (Mono : len2 lk1 lk2 (nth n' L (0,0)%Z) <= len2 lk1 lk2 (nth (S n') L (0,0)%Z)) by (apply Srt; lia).
    rewrite Rabs_pos_eq in Gap by lra.
    assert (Hh2 : len2 lk1 lk2 h <= len2 lk1 lk2 (nth n' L (0,0)%Z)) by (rewrite <- Ek; apply Srt; lia).
    assert (Hr : len2 lk1 lk2 (nth (S n') L (0,0)%Z) <= rad) by (apply In_rad; lia).
    assert (HgL : In g L) by (apply Cov; lra).
    destruct (In_nth _ _ (0,0)%Z HgL) as (j & Hj & Ej).
    destruct (le_lt_dec (S n') j) as [Hge|Hlt].
    + assert (len2 lk1 lk2 (nth (S n') L (0,0)%Z) <= len2 lk1 lk2 g) by (rewrite <- Ej; apply Srt; lia). lra.
    + rewrite <- Ej. apply InG. auto.
  - intros S rho NS HS HIn Hgap.
    set (m := length S) in *.
    (* the first m sorted orders are exactly S *)
    assert (HmL : (m < length L)%nat) by (apply In_rad; lia).
    assert (Low : forall k, (k < m)%nat -> len2 lk1 lk2 (nth k L (0,0)%Z) <= rho).
    { intros k Hk. destruct (Rle_lt_dec (len2 lk1 lk2 (nth k L (0,0)%Z)) rho) as [|Hlt]; auto. exfalso.
      assert (Hrr : rho < rad).
      { apply Rlt_le_trans with (1 := Hlt). apply In_rad. lia. }
      assert (I : incl S (firstn k L)).
      { intros g Hg. apply HIn in Hg. assert (HgL : In g L) by (apply Cov; lra).
        destruct (In_nth _ _ (0,0)%Z HgL) as (j & Hj & Ej).
        destruct (le_lt_dec k j) as [Hkj|Hjk].
        - assert (len2 lk1 lk2 (nth k L (0,0)%Z) <= len2 lk1 lk2 g) by (rewrite <- Ej; apply Srt; lia). lra.
        - rewrite <- Ej, <- (nth_firstn_lt k) by auto. apply nth_In. rewrite firstn_length; lia. }
      apply NoDup_incl_length in I; auto. rewrite firstn_length in I. fold m in I. lia. }
    assert (High : rho < len2 lk1 lk2 (nth m L (0,0)%Z)).
    { destruct (Rle_lt_dec (len2 lk1 lk2 (nth m L (0,0)%Z)) rho) as [Hle|]; auto. exfalso.
      assert (I : incl (firstn (Datatypes.S m) L) S).
      { intros g Hg. destruct (In_nth _ _ (0,0)%Z Hg) as (j & Hj & Ej).
        rewrite firstn_length in Hj. rewrite nth_firstn_lt in Ej by lia.
        apply HIn. rewrite <- Ej. apply Rle_trans with (2 := Hle). apply Srt; lia. }
      apply NoDup_incl_length in I.
      - rewrite firstn_length in I. fold m in I. lia.
      - clear - NL. rewrite <- (firstn_skipn (Datatypes.S m) L) in NL.
        induction (firstn (Datatypes.S m) L) as [|a l IH]; [constructor|]. cbn in NL. inversion NL; subst.
        constructor; auto. rewrite in_app_iff in H1. tauto. }
    apply Hgap in High.
    destruct m as [|m'] eqn:Em.
    { destruct S; [intros x []|discriminate]. }
    assert (Hcut : (Datatypes.S m' <= n)%nat).
    { apply shell_cut_max; [lia|]. rewrite !Gn by lia.
      assert (len2 lk1 lk2 (nth m' L (0,0)%Z) <= rho) by (apply Low; lia).
      apply Rlt_le_trans with (2 := Rle_abs _). lra. }
    assert (Hrr : rho < rad).
    { apply Rlt_le_trans with (len2 lk1 lk2 (nth (Datatypes.S m') L (0,0)%Z)); [lra|]. apply In_rad. lia. }
    intros g Hg. apply HIn in Hg. assert (HgL : In g L) by (apply Cov; lra).
    destruct (In_nth _ _ (0,0)%Z HgL) as (j & Hj & Ej).
    destruct (le_lt_dec n j) as [Hge|Hlt2].
    + assert (len2 lk1 lk2 (nth (Datatypes.S m') L (0,0)%Z) <= len2 lk1 lk2 g) by (rewrite <- Ej; apply Srt; lia). lra.
    + rewrite <- Ej. apply InG; auto.
Qed.

(** * The statements used by the property file *)
Lemma orders_selected argsort nG lk1 lk2 :
  sorts argsort -> independent lk1 lk2 -> (1 <= nG)%Z ->
  exists G, Lattice_getG argsort (OInt nG) lk1 lk2 0 = Ok (G, Z.of_nat (length G))
    /\ (Z.of_nat (length G) <= nG - 1)%Z
    /\ NoDup G
    /\ (forall i j, (i <= j)%nat -> (j < length G)%nat ->
          len2 lk1 lk2 (nth i G (0,0)%Z) <= len2 lk1 lk2 (nth j G (0,0)%Z))
    /\ (G <> [] -> nth 0 G (1,1)%Z = (0,0)%Z).
Proof.
  intros Hs Hi HnG.
  destruct (gsel_all argsort nG lk1 lk2 Hs Hi HnG) as (G & E & Hl & N & Srt & Cl & _).
  exists G. split; [exact E|]. split; [exact Hl|]. split; [exact N|]. split; [exact Srt|].
  intros Hne. destruct G as [|g G]; [contradiction|]. cbn [nth].
  assert (Hz : In (0,0)%Z (g :: G)).
  { apply (Cl (0,0)%Z g); [left; auto|]. rewrite len2_zero.
    pose proof (len2_nonneg lk1 lk2 g). pose proof (tolerance_nonneg lk1 lk2). lra. }
  destruct (In_nth _ _ (0,0)%Z Hz) as (j & Hj & Ej).
  assert (len2 lk1 lk2 g <= 0).
  { rewrite <- (len2_zero lk1 lk2), <- Ej. apply (Srt 0%nat j); [lia|auto]. }
  destruct (Z.eq_dec (fst g) 0) as [E1|E1], (Z.eq_dec (snd g) 0) as [E2|E2];
    try (assert (0 < len2 lk1 lk2 g) by (apply len2_pos; auto; intros ->; cbn in *; congruence); lra).
  destruct g; cbn in *; subst; reflexivity.
Qed.

Lemma orders_complete argsort nG lk1 lk2 G n :
  sorts argsort -> independent lk1 lk2 ->
  Lattice_getG argsort (OInt nG) lk1 lk2 0 = Ok (G, n) ->
  forall g h, In h G ->
    len2 lk1 lk2 g <= len2 lk1 lk2 h
                      + / 10 ^ 10 * Rmax (len2 lk1 lk2 (1, 0)%Z) (len2 lk1 lk2 (0, 1)%Z) ->
    In g G.
Proof.
  intros Hs Hi E g h Hh Hl. cbn [Lattice_getG Z.eqb] in E.
  destruct (Z_lt_le_dec 0 nG) as [Hp|Hn].
  - destruct (gsel_all argsort nG lk1 lk2 Hs Hi ltac:(lia)) as (G' & E' & _ & _ & _ & Cl & _).
    rewrite E' in E. injection E as <- <-. apply (Cl g h Hh). rewrite tolerance_spec. exact Hl.
  - exfalso. unfold Gsel_circular in E.
    destruct (Req_EM_T (vnorm lk1 * vnorm lk2) 0); [discriminate|].
    destruct ((nG <? 0)%Z && negb (Reqb (vcross lk1 lk2) 0)); [discriminate|].
    destruct (Req_EM_T (vcross lk1 lk2) 0); [discriminate|].
    cbv zeta in E. revert E.
    match goal with |- (if (?x <=? 0)%Z then _ else _) = _ -> _ => set (m := x) end.
    assert (Hm : (m <= 0)%Z).
    { unfold m. match goal with |- ((if (?a <? ?b)%Z then _ else _) <= 0)%Z => destruct (Z.ltb_spec a b) end; lia. }
    destruct (Z.leb_spec m 0); [discriminate|lia].
Qed.

Lemma orders_symmetric argsort nG lk1 lk2 G n :
  sorts argsort -> independent lk1 lk2 ->
  Lattice_getG argsort (OInt nG) lk1 lk2 0 = Ok (G, n) ->
  forall g, In g G -> In (neg_order g) G.
Proof.
  intros Hs Hi E g Hg. apply (orders_complete argsort nG lk1 lk2 G n Hs Hi E _ g Hg).
  rewrite len2_neg, <- tolerance_spec. pose proof (tolerance_nonneg lk1 lk2). lra.
Qed.

Lemma orders_maximal argsort nG lk1 lk2 G n S rho :
  sorts argsort -> independent lk1 lk2 ->
  Lattice_getG argsort (OInt nG) lk1 lk2 0 = Ok (G, n) ->
  NoDup S -> (Z.of_nat (length S) < nG)%Z ->
  (forall g, In g S <-> len2 lk1 lk2 g <= rho) ->
  (forall g, rho < len2 lk1 lk2 g ->
     rho + / 10 ^ 10 * Rmax (len2 lk1 lk2 (1, 0)%Z) (len2 lk1 lk2 (0, 1)%Z) < len2 lk1 lk2 g) ->
  incl S G.
Proof.
  intros Hs Hi E NS HS HIn Hgap. cbn [Lattice_getG Z.eqb] in E.
  destruct (gsel_all argsort nG lk1 lk2 Hs Hi ltac:(lia)) as (G' & E' & _ & _ & _ & _ & Mx).
  rewrite E' in E. injection E as <- <-. apply (Mx S rho); auto; [lia|].
  intros g Hg. rewrite tolerance_spec. auto.
Qed.

Lemma single_order argsort lk1 lk2 :
  sorts argsort -> independent lk1 lk2 ->
  Lattice_getG argsort (OInt 1) lk1 lk2 0 = Ok ([], 0%Z).
Proof.
  intros Hs Hi. destruct (orders_selected argsort 1 lk1 lk2 Hs Hi ltac:(lia)) as (G & E & Hl & _).
  destruct G as [|g G]; [exact E|]. cbn [length] in Hl. lia.
Qed.

Lemma no_orders argsort nG lk1 lk2 :
  independent lk1 lk2 -> (nG <= 0)%Z ->
  Lattice_getG argsort (OInt nG) lk1 lk2 0
  = Err (if (nG =? 0)%Z then UnboundLocalError else ValueError).
Proof.
  intros Hi Hn. assert (Hc : vcross lk1 lk2 <> 0) by exact Hi.
  destruct (vnorm_pos_cross _ _ Hc) as [Ha Hb].
  cbn [Lattice_getG Z.eqb]. unfold Gsel_circular.
  destruct (Req_EM_T (vnorm lk1 * vnorm lk2) 0); [nra|].
  assert (Eq : Reqb (vcross lk1 lk2) 0 = false).
  { unfold Reqb. destruct Req_EM_T; [contradiction|reflexivity]. }
  rewrite Eq. cbn [negb]. rewrite andb_true_r.
  destruct (Z.eqb_spec nG 0) as [->|Hne].
  - destruct (Req_EM_T (vcross lk1 lk2) 0); [contradiction|]. cbn [Z.ltb Z.compare].
    cbv zeta.
    match goal with |- (if (?x <=? 0)%Z then _ else _) = _ => set (m := x) end.
    assert (Hm : (m <= 0)%Z).
    { unfold m. match goal with |- ((if (?a <? ?b)%Z then _ else _) <= 0)%Z => destruct (Z.ltb_spec a b) end; lia. }
    destruct (Z.leb_spec m 0); [reflexivity|lia].
  - destruct (Z.ltb_spec nG 0); [reflexivity|lia].
Qed.

Lemma getG_other argsort nG lk1 lk2 method :
  Lattice_getG argsort OOther lk1 lk2 method = Err AssertionError
  /\ Lattice_getG argsort (OInt nG) lk1 lk2 1 = Err TypeError
  /\ ((method <> 0)%Z -> (method <> 1)%Z -> Lattice_getG argsort (OInt nG) lk1 lk2 method = Err PlainException).
Proof.
  split; [reflexivity|]. split; [reflexivity|]. intros H0 H1. cbn [Lattice_getG].
  destruct (Z.eqb_spec method 0); [contradiction|]. destruct (Z.eqb_spec method 1); [contradiction|]. reflexivity.
Qed.

(** The whole second shell of the square lattice fits in five orders, yet five
    requested orders give one. *)
Lemma square_five argsort (s : R) :
  sorts argsort -> 0 < s ->
  Lattice_getG argsort (OInt 5) (s, 0) (0, s) 0 = Ok ([(0,0)%Z], 1%Z)
  /\ (forall g, len2 (s, 0) (0, s) g <= s * s <->
        In g [(0,0); (1,0); (-1,0); (0,1); (0,-1)]%Z)
  /\ (forall g, s * s < len2 (s, 0) (0, s) g -> 2 * (s * s) <= len2 (s, 0) (0, s) g).
Proof.
  intros Hs Hp.
  assert (Hi : independent (s, 0) (0, s)) by (unfold independent; cbn [fst snd]; nra).
  assert (L : forall g, len2 (s, 0) (0, s) g = s * s * IZR (fst g * fst g + snd g * snd g)).
  { intros g. unfold len2, recip; cbn [fst snd]. rewrite plus_IZR, !mult_IZR. ring. }
  assert (SS : 0 < s * s) by nra.
  assert (LE : forall g, len2 (s, 0) (0, s) g <= s * s <-> (fst g * fst g + snd g * snd g <= 1)%Z).
  { intros g. rewrite L. split; intros H.
    - apply le_IZR. apply Rmult_le_reg_l with (s * s); lra.
    - apply IZR_le in H. nra. }
  assert (Sh : forall g, len2 (s, 0) (0, s) g <= s * s <-> In g [(0,0); (1,0); (-1,0); (0,1); (0,-1)]%Z).
  { intros [a b]. rewrite LE. cbn [fst snd In]. split.
    - intros H. assert (-1 <= a <= 1)%Z by nia. assert (-1 <= b <= 1)%Z by nia.
      assert (Ha : a = (-1)%Z \/ a = 0%Z \/ a = 1%Z) by lia.
      assert (Hb : b = (-1)%Z \/ b = 0%Z \/ b = 1%Z) by lia.
      destruct Ha as [->|[->| ->]], Hb as [->|[->| ->]]; cbn in H; try lia; intuition.
    - intros [E|[E|[E|[E|[E|[]]]]]]; injection E as <- <-; lia. }
  split; [|split; [exact Sh|]].
  - destruct (gsel_all argsort 5 (s,0) (0,s) Hs Hi ltac:(lia)) as (G & E & Hl & N & _ & Cl & Mx).
    cbn [Lattice_getG Z.eqb].
    pose proof (tolerance_nonneg (s,0) (0,s)) as T0.
    assert (Only : forall g, In g G -> g = (0,0)%Z).
    { intros g Hg.
      destruct (Z_le_gt_dec 1 (fst g * fst g + snd g * snd g)) as [Hge|Hlt].
      - exfalso.
        assert (I : incl [(0,0); (1,0); (-1,0); (0,1); (0,-1)]%Z G).
        { intros h Hh. apply Sh in Hh. apply (Cl h g Hg).
          assert (s * s <= len2 (s,0) (0,s) g) by (rewrite L; apply IZR_le in Hge; nra). lra. }
        apply NoDup_incl_length in I.
        + cbn [length] in I. lia.
        + repeat constructor; cbn; intuition discriminate.
      - destruct g as [a b]; cbn [fst snd] in *. f_equal; nia. }
    assert (T1 : tolerance (s,0) (0,s) = / 10 ^ 10 * (s * s)).
    { rewrite tolerance_spec, !L. cbn [fst snd]. change (1 * 1 + 0 * 0)%Z with 1%Z. change (0 * 0 + 1 * 1)%Z with 1%Z.
      rewrite Rmult_1_r. rewrite Rmax_left by lra. reflexivity. }
    assert (Some : In (0,0)%Z G).
    { apply (Mx [(0,0)%Z] 0); [repeat constructor; cbn; tauto|cbn; lia| | |left; auto].
      - intros g. split.
        + intros [<-|[]]. rewrite len2_zero. lra.
        + intros H. left. destruct (Z.eq_dec (fst g) 0) as [E1|E1], (Z.eq_dec (snd g) 0) as [E2|E2];
            try (assert (0 < len2 (s,0) (0,s) g) by (apply len2_pos; auto; intros ->; cbn in *; congruence); lra).
          destruct g; cbn in *; subst; reflexivity.
      - intros g Hg. rewrite L in *. rewrite T1.
        assert (1 <= fst g * fst g + snd g * snd g)%Z.
        { destruct (Z_le_gt_dec 1 (fst g * fst g + snd g * snd g)) as [|Hlt]; auto.
          assert (fst g * fst g + snd g * snd g = 0)%Z by nia. rewrite H in Hg. lra. }
        apply IZR_le in H.
        assert (/ 10 ^ 10 < 1) by (rewrite <- Rinv_1; apply Rinv_lt_contravar; lra).
        nra. }
    rewrite E. destruct G as [|g G]; [destruct Some|].
    destruct G as [|g' G].
    + rewrite (Only g (or_introl eq_refl)). reflexivity.
    + exfalso. assert (g = g') by (rewrite (Only g), (Only g'); cbn; auto).
      subst. inversion N; subst. apply H1. left; auto.
  - intros g Hg. rewrite L in *.
    assert (2 <= fst g * fst g + snd g * snd g)%Z.
    { destruct (Z_le_gt_dec 2 (fst g * fst g + snd g * snd g)) as [|Hlt]; auto.
      assert (H : (fst g * fst g + snd g * snd g <= 1)%Z) by lia. apply IZR_le in H. nra. }
    apply IZR_le in H. nra.
Qed.

(** A sorting oracle exists: insertion sort of the indices. *)
Fixpoint ins (key : nat -> R) (x : nat) (l : list nat) : list nat :=
  match l with
  | [] => [x]
  | y :: r => if Rle_dec (key x) (key y) then x :: l else y :: ins key x r
  end.
Definition isort (l : list R) : list nat :=
  fold_right (ins (fun i => nth i l 0)) [] (seq 0 (length l)).

Lemma ins_perm key x l : Permutation (ins key x l) (x :: l).
Proof.
  induction l as [|y l IH]; cbn [ins]; [apply Permutation_refl|].
  destruct Rle_dec; [apply Permutation_refl|].
  apply Permutation_trans with (y :: x :: l); [constructor; auto|apply perm_swap].
Qed.

Lemma ins_sorted key x l : StronglySorted Rle (map key l) -> StronglySorted Rle (map key (ins key x l)).
Proof.
  induction l as [|y l IH]; cbn [ins map]; intros S; [repeat constructor|].
  inversion S as [|? ? S' F]; subst.
  destruct (Rle_dec (key x) (key y)) as [H|H]; cbn [map].
  - constructor; auto. constructor; auto.
    eapply Forall_impl; [|exact F]. cbn; intros; lra.
  - constructor; auto.
    apply Forall_forall. intros z Hz. apply in_map_iff in Hz as (k & <- & Hk).
    apply (Permutation_in _ (ins_perm key x l)) in Hk.
    destruct Hk as [<-|Hk]; [lra|]. rewrite Forall_forall in F. apply F, in_map; auto.
Qed.

Lemma isort_sorts : sorts isort.
Proof.
  intros l. unfold isort. split.
  - generalize (seq 0 (length l)). intros s. induction s as [|x s IH]; cbn [fold_right]; [constructor|].
    apply Permutation_trans with (1 := ins_perm _ _ _). constructor; auto.
  - generalize (seq 0 (length l)). intros s. induction s as [|x s IH]; cbn [fold_right]; [constructor|].
    apply ins_sorted; auto.
Qed.
