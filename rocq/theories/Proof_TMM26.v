(** Where the light goes in a partly incoherent stack. *)
From Coq Require Import Reals ZArith String List Bool Lia Lra.
From Verif Require Import Base PyVal Cplx CplxLemmas Model_TMM Model_TMM2 Model_TMM3 Spec_TMM Spec_TMM3.
From Verif Require Import Proof_TMM Proof_TMM2 Proof_TMM4 Proof_TMM5 Proof_TMM16 Proof_TMM22 Proof_TMM23 Proof_TMM24 Proof_TMM25.
Import ListNotations.
Open Scope R_scope.

Lemma sum_arrays_ok a b : length a = length b -> exists s, sum_arrays a b = Ok s /\ length s = length a /\ total s = total a + total b /\
  forall i, nth i s 0 = nth i a 0 + nth i b 0.
Proof.
  revert b. induction a as [|x a IH]; intros [|y b] L; try discriminate.
  - exists []. split; [reflexivity|]. split; [reflexivity|]. split; [unfold total; cbn; lra|]. intros [|i]; cbn; lra.
  - destruct (IH b ltac:(cbn in L; lia)) as (s & E & Ls & T & Nt). exists ((x + y) :: s). split; [cbn; rewrite E; reflexivity|]. split; [cbn; lia|]. split; [unfold total in *; cbn; lra|].
    intros [|i]; cbn; auto.
Qed.
Lemma total_app a b : total (a ++ b) = total a + total b.
Proof. unfold total in *. induction a as [|x a IH]; cbn; lra. Qed.
Lemma total_rev a : total (rev a) = total a.
Proof. induction a as [|x a IH]; [reflexivity|]. cbn [rev]. rewrite total_app, IH. unfold total. cbn. lra. Qed.
Lemma total_scale F l : total (map (Rmult F) l) = F * total l.
Proof. unfold total in *. induction l as [|x a IH]; cbn; lra. Qed.
Lemma inside_split {A} (l : list A) d : (2 <= length l)%nat -> l = nth 0 l d :: inside l ++ [nth (length l - 1) l d].
Proof.
  intros H. destruct l as [|x l]; [cbn in H; lia|]. cbn in H. unfold inside. cbn [tl nth]. f_equal.
  replace (length (x :: l) - 1)%nat with (S (length l - 1)) by (cbn; lia). cbn [nth]. rewrite <- last_nth. apply app_removelast_last. destruct l; [cbn in H; lia|discriminate].
Qed.
Lemma inside_length {A} (l : list A) : length (inside l) = (length l - 2)%nat.
Proof.
  destruct l as [|x [|y l]]; [reflexivity|reflexivity|]. pose proof (inside_split (x :: y :: l) x ltac:(cbn; lia)) as E. apply (f_equal (@length A)) in E. cbn [length] in E. rewrite app_length in E. cbn [length] in *. lia.
Qed.
Lemma inside_nth {A} (l : list A) i d : (S (S i) < length l)%nat -> nth i (inside l) d = nth (S i) l d.
Proof. intros H. rewrite (inside_split l d) at 2 by lia. cbn [nth]. rewrite app_nth1; [reflexivity|]. rewrite inside_length. lia. Qed.
Lemma inside_total l : (2 <= length l)%nat -> total (inside l) = total l - nth 0 l 0 - nth (length l - 1) l 0.
Proof.
  intros H. pose proof (f_equal total (inside_split l 0 H)) as E. change (total (nth 0 l 0 :: inside l ++ [nth (length l - 1) l 0])) with (nth 0 l 0 + total (inside l ++ [nth (length l - 1) l 0])) in E.
  rewrite total_app in E. change (total [nth (length l - 1) l 0]) with (nth (length l - 1) l 0 + 0) in E. lra.
Qed.

Lemma pos_cons k ks j : pos (k :: ks) (S j) = (S k + pos ks j)%nat.
Proof. unfold pos. cbn [firstn]. change (list_sum (k :: firstn j ks)) with (k + list_sum (firstn j ks))%nat. lia. Qed.
Lemma concat_parts (parts : list (list R)) ks : length parts = length ks -> (forall k, (k < length ks)%nat -> length (nth k parts []) = S (nth k ks 0%nat)) ->
  length (concat parts) = pos ks (length ks) /\
  forall k x, (k < length ks)%nat -> (x <= nth k ks 0)%nat -> nth (pos ks k + x) (concat parts) 0 = nth x (nth k parts []) 0.
Proof.
  revert ks. induction parts as [|p parts IH]; intros [|k0 ks] L H; try discriminate.
  - split; [reflexivity|]. intros k x Hk. cbn in Hk. lia.
  - destruct (IH ks) as (L1 & N1); [cbn in L; lia| |]. { intros k Hk. apply (H (S k)). cbn. lia. }
    pose proof (H 0%nat ltac:(cbn; lia)) as H0. cbn [nth] in H0. split; [cbn [concat length]; rewrite app_length, L1, pos_cons; lia|].
    intros k x Hk Hx. cbn [concat]. destruct k as [|k].
    + rewrite pos_0. cbn [nth Nat.add] in *. rewrite app_nth1 by lia. reflexivity.
    + rewrite pos_cons. rewrite app_nth2 by lia. replace (S k0 + pos ks k + x - length p)%nat with (pos ks k + x)%nat by lia. cbn [nth] in *. apply N1; [cbn in Hk; lia|exact Hx].
Qed.
Lemma concat_total (parts : list (list R)) (e : nat -> R) : (forall k, (k < length parts)%nat -> total (nth k parts []) = e k - e (S k)) ->
  total (concat parts) = e 0%nat - e (length parts).
Proof.
  revert e. induction parts as [|p parts IH]; intros e H; [cbn; lra|]. cbn [concat]. rewrite total_app.
  rewrite (IH (fun k => e (S k))) by (intros k Hk; apply (H (S k)); cbn; lia). pose proof (H 0%nat ltac:(cbn; lia)) as Q. cbn [nth] in Q. rewrite Q. cbn [length]. lra.
Qed.

(** The absorption list of a coherent stack *)
Lemma coh_list arcsin pol n d th lam c : inverts_sine arcsin -> coh_tmm arcsin pol n d th lam = Ok c ->
  (forall i, (0 < i)%nat -> (S i < length n)%nat -> 0 <= thickness (nth i d NaN)) ->
  (2 <= length n)%nat /\ exists l, absorp_in_each_layer c = Ok l /\ length l = length n /\ total (inside l) = c_entering c - c_T c.
Proof.
  intros inv H T. assert (L2 : (2 <= length n)%nat) by (apply (needs_all _ _ _ _ _ _ _ inv H)). split; [exact L2|].
  destruct (accounts_all _ _ _ _ _ _ _ inv H T) as (l & E & L & Tt & F & La & _). exists l. split; [exact E|]. split; [exact L|].
  destruct (powers_all _ _ _ _ _ _ _ inv H) as (P1 & P2 & _). rewrite inside_total by lia. rewrite L, Tt, F, La, P1, P2. lra.
Qed.
Lemma reverse_is arcsin pol n d th lam b : coh_tmm_reverse arcsin pol n d th lam = Ok b -> exists thf,
  snell arcsin (nth 0 n C0) (nth (length n - 1) n C0) th = Ok thf /\ coh_tmm arcsin pol (rev n) (rev d) thf lam = Ok b.
Proof. unfold coh_tmm_reverse. intros H. destruct (ensure _ _); [|discriminate]. cbn [bind] in H. destruct (snell _ _ _ _) as [t|] eqn:E; [|discriminate]. exists t. auto. Qed.

Section Calc.
Variables (arcsin : C -> C) (pol : string) (ns : list C) (ds : list pyfloat) (cs : list string) (th0 : C) (lam : R) (D : inc_data) (ths : list C).
Hypothesis K : calc arcsin pol ns ds cs th0 lam D ths.
Hypothesis inv : inverts_sine arcsin.
Hypothesis thick : forall i, nth i cs EmptyString = "c"%string -> 0 <= thickness (nth i ds NaN).
Notation M := (incoherent_layers D).

Lemma stack_thick ks k : cs = coherency ks -> (k < length ks)%nat ->
  let d := PInf :: map (fun i => nth i ds NaN) (seq (S (pos ks k)) (nth k ks 0%nat)) ++ [PInf] in
  length d = (nth k ks 0 + 2)%nat /\ (forall i, (0 < i)%nat -> (S i < nth k ks 0 + 2)%nat -> 0 <= thickness (nth i d NaN)).
Proof.
  intros E Hk d. split; [unfold d; cbn [length]; rewrite app_length, map_length, seq_length; cbn; lia|]. intros i H1 H2. unfold d. destruct i; [lia|]. cbn [nth].
  rewrite app_nth1 by (rewrite map_length, seq_length; lia). rewrite (nth_indep _ _ (nth 0 ds NaN)) by (rewrite map_length, seq_length; lia).
  rewrite (map_nth (fun i => nth i ds NaN)), seq_nth by lia. apply thick. rewrite E. apply letter_c; lia.
Qed.
Lemma stack_thick_rev ks k : cs = coherency ks -> (k < length ks)%nat ->
  let d := PInf :: map (fun i => nth i ds NaN) (seq (S (pos ks k)) (nth k ks 0%nat)) ++ [PInf] in
  (forall i, (0 < i)%nat -> (S i < nth k ks 0 + 2)%nat -> 0 <= thickness (nth i (rev d) NaN)).
Proof.
  intros E Hk d i H1 H2. destruct (stack_thick ks k E Hk) as (L & T). fold d in L, T. rewrite rev_nth by lia. apply T; lia.
Qed.

(** What layer [k] and the stack behind it absorb *)
Lemma part ks k : cs = coherency ks -> i_group D = group_of ns ds ks -> M = S (length ks) -> (k < length ks)%nat ->
  exists p, absorbed_from D k = Ok p /\ length p = S (nth k ks 0%nat) /\ total p = nth k (i_entering D) 0 - nth (S k) (i_entering D) 0 /\
  (nth k ks 0%nat <> 0%nat -> exists c b lc lb, nth_error (i_coh D) (cnt ks k) = Some c /\ nth_error (i_bcoh D) (cnt ks k) = Some b /\
     absorp_in_each_layer c = Ok lc /\ absorp_in_each_layer b = Ok lb /\
     nth 0 p 0 = nth k (i_entering D) 0 - (reaching_end D k * c_entering c - snd (intensity D (S k)) * c_T b) /\
     forall x, (x < nth k ks 0)%nat -> nth (S x) p 0 = reaching_end D k * nth (S x) lc 0 + snd (intensity D (S k)) * nth (nth k ks 0%nat - x) lb 0).
Proof.
  intros Ec G EM Hk. unfold absorbed_from. rewrite (lookup ns ds D ks k G Hk). destruct (Nat.eqb_spec (nth k ks 0%nat) 0) as [Z|Z].
  - eexists. split; [reflexivity|]. split; [rewrite Z; reflexivity|]. split; [cbn; lra|]. intros Q; congruence.
  - destruct (stack_lookup _ _ _ _ _ _ _ _ _ K ks k G Hk Z) as (c & b & E1 & E2 & Hc & Hb & HF). cbn zeta in Hc, Hb. rewrite E1, E2, HF. cbn [fst snd].
    set (n := map (fun i => nth i ns C0) (seq (pos ks k) (nth k ks 0%nat + 2))) in *. set (d := PInf :: _ ++ [PInf]) in *.
    destruct (stack_thick ks k Ec Hk) as (Ld & Td). fold d in Ld, Td.
    assert (Ln : length n = (nth k ks 0 + 2)%nat) by (unfold n; rewrite map_length, seq_length; reflexivity).
    destruct (coh_list _ _ _ _ _ _ _ inv Hc) as (_ & lc & Elc & Llc & Tlc); [rewrite Ln; exact Td|].
    destruct (reverse_is _ _ _ _ _ _ _ Hb) as (thf & _ & Hb').
    destruct (coh_list _ _ _ _ _ _ _ inv Hb') as (_ & lb & Elb & Llb & Tlb); [rewrite rev_length, Ln; apply stack_thick_rev; auto|]. rewrite rev_length in Llb.
    rewrite Elc, Elb. cbn [bind]. set (F := reaching_end D k). set (B := snd (intensity D (S k))).
    destruct (sum_arrays_ok (inside (map (Rmult F) lc)) (rev (inside (map (Rmult B) lb)))) as (s & Es & Ls & Ts & Ns).
    { rewrite rev_length, !inside_length, !map_length. lia. }
    assert (IM : forall F l, inside (map (Rmult F) l) = map (Rmult F) (inside l)).
    { intros F0 l. unfold inside. destruct l as [|x l]; [reflexivity|]. cbn [map tl]. clear. induction l as [|y l IH]; [reflexivity|]. destruct l; [reflexivity|]. change (removelast (map (Rmult F0) (y :: r :: l))) with (F0 * y :: removelast (map (Rmult F0) (r :: l))). rewrite IH. reflexivity. }
    rewrite Es. cbn [bind]. eexists. split; [reflexivity|]. split; [cbn [length]; rewrite Ls, inside_length, map_length; lia|]. split.
    + cbn [total fold_right]. change (fold_right Rplus 0 s) with (total s). rewrite Ts, total_rev, !IM, !total_scale, Tlc, Tlb.
      rewrite (entering_stack _ _ _ _ _ _ _ _ _ K ks k c b) by auto. fold F B. lra.
    + intros _. exists c, b, lc, lb. do 4 (split; [first [reflexivity|assumption]|]). split; [reflexivity|]. intros x Hx. cbn [nth]. rewrite Ns, !IM.
      rewrite rev_nth by (rewrite map_length, inside_length; lia). rewrite map_length, inside_length.
      rewrite !(nth_indep (map _ _) 0 (F * 0)) by (rewrite map_length, inside_length; lia). rewrite map_nth.
      rewrite (nth_indep (map (Rmult B) _) (F * 0) (B * 0)) by (rewrite map_length, inside_length; lia). rewrite map_nth.
      rewrite !inside_nth by lia. fold F B. f_equal. f_equal. f_equal. lia.
Qed.

Lemma absorption_list ks : cs = coherency ks -> i_group D = group_of ns ds ks -> M = S (length ks) -> length ns = S (pos ks (length ks)) ->
  exists parts, mapM (absorbed_from D) (seq 0 (length ks)) = Ok parts /\ length parts = length ks /\
    (forall k, (k < length ks)%nat -> absorbed_from D k = Ok (nth k parts []) /\ length (nth k parts []) = S (nth k ks 0%nat) /\ total (nth k parts []) = nth k (i_entering D) 0 - nth (S k) (i_entering D) 0) /\
    inc_absorp_in_each_layer D = Ok (concat parts ++ [i_T D]).
Proof.
  intros Ec G EM LN. destruct (mapM_exists (absorbed_from D) (seq 0 (length ks))) as (parts & E).
  { intros k Hk. apply in_seq in Hk. destruct (part ks k Ec G EM ltac:(lia)) as (p & Q & _). eauto. }
  destruct (mapM_ok _ _ _ E) as (L & N). rewrite seq_length in L, N. exists parts. split; [exact E|]. split; [exact L|]. split.
  - intros k Hk. specialize (N k 0%nat [] Hk). rewrite seq_nth in N by lia. cbn [Nat.add] in N. destruct (part ks k Ec G EM Hk) as (p & Q1 & Q2 & Q3 & _).
    assert (p = nth k parts []) by congruence. subst p. auto.
  - unfold inc_absorp_in_each_layer. rewrite (q_ent_len _ _ _ _ _ _ _ _ _ K), EM. replace (S (length ks) - 1)%nat with (length ks) by lia. rewrite E. reflexivity.
Qed.
End Calc.

(** ** In terms of the layers *)
Section All.
Variables (arcsin : C -> C) (pol : string) (ns : list C) (ds : list pyfloat) (cs : list string) (th0 : C) (lam : R) (D : inc_data).
Hypothesis inv : inverts_sine arcsin.
Hypothesis H : inc_tmm arcsin pol ns ds cs th0 lam = Ok D.
Hypothesis thick : forall i, nth i cs EmptyString = "c"%string -> 0 <= thickness (nth i ds NaN).
Notation M := (incoherent_layers D).

Lemma inc_accounts : exists l, inc_absorp_in_each_layer D = Ok l /\ length l = length ns /\ total l = 1 /\ nth (length ns - 1) l 0 = i_T D.
Proof.
  destruct (inc_calc _ _ _ _ _ _ _ _ H) as (ths & K). destruct (runs _ _ _ _ _ _ _ _ _ K) as (ks & Ec & G & LN & EM & LO & _).
  destruct (absorption_list _ _ _ _ _ _ _ _ _ K inv thick ks Ec G EM LN) as (parts & E & L & P & A). eexists. split; [exact A|].
  destruct (concat_parts parts ks L) as (L1 & _); [intros; apply P; auto|]. rewrite app_length, L1. cbn [length]. split; [lia|]. split.
  - rewrite total_app, (concat_total parts (fun k => nth k (i_entering D) 0)) by (intros k Hk; apply P; lia).
    rewrite (q_ent0 _ _ _ _ _ _ _ _ _ K), L. replace (length ks) with (M - 1)%nat by lia. rewrite (entering_last _ _ _ _ _ _ _ _ _ K). cbn. lra.
  - rewrite app_nth2 by lia. replace (length ns - 1 - length (concat parts))%nat with 0%nat by lia. reflexivity.
Qed.

(** The power that enters layer [k], and leaves it, forwards *)
Lemma inc_entries l k : inc_absorp_in_each_layer D = Ok l -> (S k < M)%nat ->
  let a := layer_of D k in let m := (layer_of D (S k) - a - 1)%nat in
  let F := reaching_end D k in let B := snd (intensity D (S k)) in
  (m = 0%nat -> nth (S k) (i_entering D) 0 = x_Tf (crossing_of D k) * F - x_Tb (crossing_of D k) * B /\
     nth a l 0 = nth k (i_entering D) 0 - nth (S k) (i_entering D) 0) /\
  (m <> 0%nat -> exists ths c b lc lb,
     list_snell arcsin ns th0 = Ok ths /\
     coh_tmm arcsin pol (map (fun i => nth i ns C0) (seq a (m + 2))) (PInf :: map (fun i => nth i ds NaN) (seq (S a) m) ++ [PInf]) (nth a ths C0) lam = Ok c /\
     coh_tmm_reverse arcsin pol (map (fun i => nth i ns C0) (seq a (m + 2))) (PInf :: map (fun i => nth i ds NaN) (seq (S a) m) ++ [PInf]) (nth a ths C0) lam = Ok b /\
     absorp_in_each_layer c = Ok lc /\ absorp_in_each_layer b = Ok lb /\
     nth (S k) (i_entering D) 0 = F * c_T c - B * c_entering b /\
     nth a l 0 = nth k (i_entering D) 0 - (F * c_entering c - B * c_T b) /\
     forall x, (x < m)%nat -> nth (a + S x) l 0 = F * nth (S x) lc 0 + B * nth (m - x) lb 0).
Proof.
  intros Hl Hk. cbn zeta. destruct (inc_calc _ _ _ _ _ _ _ _ H) as (ths & K). destruct (runs _ _ _ _ _ _ _ _ _ K) as (ks & Ec & G & LN & EM & LO & _).
  destruct (absorption_list _ _ _ _ _ _ _ _ _ K inv thick ks Ec G EM LN) as (parts & E & L & P & A). rewrite A in Hl. apply Ok_inj in Hl. subst l.
  rewrite !LO by lia. rewrite pos_S by lia. replace (pos ks k + S (nth k ks 0%nat) - pos ks k - 1)%nat with (nth k ks 0%nat) by lia.
  destruct (concat_parts parts ks L) as (L1 & N1); [intros; apply P; auto|].
  assert (Ne : forall x, (x <= nth k ks 0)%nat -> nth (pos ks k + x) (concat parts ++ [i_T D]) 0 = nth x (nth k parts []) 0).
  { intros x Hx. rewrite app_nth1; [apply N1; lia|]. rewrite L1. assert (pos ks (S k) <= pos ks (length ks))%nat by (destruct (Nat.eq_dec (S k) (length ks)) as [->|]; [lia|apply Nat.lt_le_incl, pos_mono; lia]). rewrite pos_S in * by lia. lia. }
  destruct (P k ltac:(lia)) as (P1 & P2 & P3). destruct (part _ _ _ _ _ _ _ _ _ K inv thick ks k Ec G EM ltac:(lia)) as (p & Q1 & Q2 & Q3 & Q4).
  assert (p = nth k parts []) by congruence. subst p. split.
  - intros Z. split; [apply (entering_direct _ _ _ _ _ _ _ _ _ K ks); auto; lia|]. specialize (Ne 0%nat ltac:(lia)). rewrite Nat.add_0_r in Ne. rewrite Ne.
    rewrite <- P3. rewrite Z in P2. destruct (nth k parts []) as [|x [|y q]]; try discriminate. cbn. lra.
  - intros Z. destruct (Q4 Z) as (c & b & lc & lb & E1 & E2 & E3 & E4 & E5 & E6). destruct (stack_lookup _ _ _ _ _ _ _ _ _ K ks k G ltac:(lia) Z) as (c' & b' & F1 & F2 & F3 & F4 & _).
    assert (c' = c) by congruence. assert (b' = b) by congruence. subst c' b'.
    exists ths, c, b, lc, lb. split; [exact (q_ths _ _ _ _ _ _ _ _ _ K)|]. split; [exact F3|]. split; [exact F4|]. split; [exact E3|]. split; [exact E4|].
    split; [rewrite (entering_stack _ _ _ _ _ _ _ _ _ K ks k c b) by (auto; lia); ring|]. split.
    + specialize (Ne 0%nat ltac:(lia)). rewrite Nat.add_0_r in Ne. rewrite Ne. exact E5.
    + intros x Hx. rewrite Ne by lia. apply E6. exact Hx.
Qed.
End All.
