(** Fields and power at any depth. *)
From Coq Require Import Reals ZArith String List Bool Lra Lia Psatz.
From Verif Require Import Base PyVal Cplx CplxLemmas Model_TMM Spec_TMM Model_TMM2 Spec_TMM2 Proof_TMM Proof_TMM12 Proof_TMM16 Proof_TMM17.
Import ListNotations.
Open Scope R_scope.

Lemma stack_length ds : length (stack_of ds) = (length ds + 2)%nat.
Proof. unfold stack_of. cbn. rewrite app_length, map_length. cbn. lia. Qed.
Lemma stack_nth ds i : (0 < i)%nat -> (i <= length ds)%nat -> nth i (stack_of ds) NaN = Fin (nth (i - 1) ds 0).
Proof.
  intros H1 H2. unfold stack_of. destruct i as [|i]; [lia|]. cbn [nth]. rewrite app_nth1 by (rewrite map_length; lia).
  replace (S i - 1)%nat with i by lia. rewrite (nth_indep _ NaN (Fin 0)) by (rewrite map_length; lia). apply (map_nth Fin).
Qed.
Lemma in_stack_layer ds x i z : in_stack ds x i z -> in_layer (stack_of ds) i z.
Proof.
  unfold in_layer. rewrite stack_length. intros [(-> & H & ->)|(H & A1 & A2 & A3 & A4)]; [left; split; [reflexivity|lra]|].
  right. split; [lia|]. split; [exact A3|]. intros Q. rewrite stack_nth by lia. cbn [thickness]. specialize (A4 ltac:(lia)). lra.
Qed.

Section Falls.
Variable arcsin : C -> C.
Hypothesis inv : inverts_sine arcsin.
Variables (pol : string) (ns : list C) (ds : list R) (th0 : C) (lam : R) (D : coh_data).
Hypothesis HD : coh_tmm arcsin pol ns (stack_of ds) th0 lam = Ok D.

Lemma len_n : length ns = (length ds + 2)%nat.
Proof. destruct (needs_all _ _ _ _ _ _ _ inv HD) as (L & _). rewrite stack_length in L. lia. Qed.

Lemma depth_evaluates x : Forall (fun d => 0 <= d) ds ->
  exists i z p, find_in_structure_with_inf (stack_of ds) (Fin x) = Ok (Z.of_nat i, Fin z) /\ position_resolved i z D = Ok p.
Proof.
  intros H. destruct (found_exists ds x H) as (i & z & F & G). exists i, z.
  destruct (proj2 (resolved_domain arcsin pol ns (stack_of ds) th0 lam D i z inv HD) (in_stack_layer _ _ _ _ G)) as (p & P).
  exists p. auto.
Qed.

Hypothesis real_s : Im (nth 0 ns C0 * Csin th0)%C = 0.
Hypothesis lam_pos : 0 < lam.
Hypothesis clear : no_opaque_layer D.
Hypothesis thick : Forall (fun d => 0 <= d) ds.
Hypothesis absorbing : forall i, (0 < i)%nat -> (S i < length ns)%nat -> passive (nth i ns C0).

Let rp i z := relative_power D i (wave_at D i z).

Lemma passive_layer i : (i < length ns)%nat -> passive (nth i ns C0).
Proof.
  intros H. destruct (needs_all _ _ _ _ _ _ _ inv HD) as (_ & _ & _ & _ & _ & _ & _ & _ & P0 & P1).
  destruct (Nat.eq_dec i 0) as [->|]; [exact P0|]. destruct (Nat.eq_dec i (length ns - 1)) as [->|]; [exact P1|]. apply absorbing; lia.
Qed.
Lemma layer_bound i z : in_layer (stack_of ds) i z -> (i < length ns)%nat.
Proof. rewrite len_n. unfold in_layer. rewrite stack_length. lia. Qed.

Lemma falls_in_layer i z w : in_layer (stack_of ds) i z -> in_layer (stack_of ds) i w -> z <= w -> rp i w <= rp i z.
Proof.
  intros Hz Hw L. destruct (Req_dec z w) as [->|N]; [lra|].
  set (f' := fun y => match position_resolved i y D with Ok p => - p_absor p | Err _ => 0 end).
  assert (IN : forall y, z <= y <= w -> in_layer (stack_of ds) i y).
  { intros y Hy. unfold in_layer in *. destruct Hz as [(-> & Z)|(Z1 & Z2 & Z3)], Hw as [(W0 & W)|(W1 & W2 & W3)]; try lia.
    - left. split; [reflexivity|lra].
    - right. split; [exact Z1|]. split; [lra|]. intros Q. specialize (W3 Q). lra. }
  destruct (MVT_cor2 (rp i) f' z w ltac:(lra)) as (y & E & Hy).
  - intros y Hy. unfold f'. destruct (proj2 (resolved_domain arcsin pol ns (stack_of ds) th0 lam D i y inv HD) (IN y Hy)) as (p & P).
    rewrite P. exact (resolved_deriv _ _ _ _ _ _ _ _ _ _ inv HD P).
  - unfold f' in E. destruct (proj2 (resolved_domain arcsin pol ns (stack_of ds) th0 lam D i y inv HD) (IN y ltac:(lra))) as (p & P).
    rewrite P in E. pose proof (proj1 (resolved_sign _ _ _ _ _ _ _ _ _ _ inv HD P real_s lam_pos) (passive_layer i (layer_bound _ _ Hz))) as A.
    assert (- p_absor p * (w - z) <= 0) by (assert (0 <= p_absor p * (w - z)) by (apply Rmult_le_pos; lra); lra). lra.
Qed.

Definition layer_stop (i : nat) : R := if Nat.eqb i 0 then 0 else thickness (nth i (stack_of ds) NaN).
Lemma stop_in i : (S i < length ns)%nat -> in_layer (stack_of ds) i (layer_stop i).
Proof.
  rewrite len_n. intros H. unfold layer_stop, in_layer. rewrite stack_length. destruct (Nat.eqb_spec i 0) as [->|]; [left; split; [reflexivity|lra]|].
  right. split; [lia|]. rewrite stack_nth by lia. cbn [thickness]. split; [|lra].
  rewrite Forall_forall in thick. apply thick, nth_In. lia.
Qed.
Lemma start_in i : (0 < i)%nat -> (i < length ns)%nat -> in_layer (stack_of ds) i 0.
Proof.
  rewrite len_n. intros H1 H2. unfold in_layer. rewrite stack_length. right. split; [lia|]. split; [lra|]. intros Q.
  rewrite stack_nth by lia. cbn [thickness]. rewrite Forall_forall in thick. apply thick, nth_In. lia.
Qed.
Lemma joins i : (S i < length ns)%nat -> rp i (layer_stop i) = rp (S i) 0.
Proof.
  intros H. destruct (proj2 (resolved_domain arcsin pol ns (stack_of ds) th0 lam D _ _ inv HD) (stop_in i H)) as (p & P).
  destruct (proj2 (resolved_domain arcsin pol ns (stack_of ds) th0 lam D _ _ inv HD) (start_in (S i) ltac:(lia) H)) as (q & Q).
  destruct (resolved_continuous _ _ _ _ _ _ _ _ p q inv HD H clear P Q) as (E & _).
  unfold rp. rewrite <- (proj1 (resolved_fields _ _ _ _ _ _ _ _ _ _ inv HD P)), <- (proj1 (resolved_fields _ _ _ _ _ _ _ _ _ _ inv HD Q)). exact E.
Qed.
Lemma starts_fall i j : (0 < i)%nat -> (i <= j)%nat -> (j < length ns)%nat -> rp j 0 <= rp i 0.
Proof.
  intros H1 H2 H3. induction j as [|j IH]; [lia|]. destruct (Nat.eq_dec i (S j)) as [->|]; [lra|].
  specialize (IH ltac:(lia) ltac:(lia)). rewrite <- joins by exact H3. eapply Rle_trans; [|exact IH].
  apply falls_in_layer; [apply start_in; lia|apply stop_in; lia|].
  pose proof (stop_in j H3) as S. unfold in_layer in S. destruct S as [(-> & _)|(_ & S & _)]; [lia|exact S].
Qed.
Lemma before_stop i z : in_layer (stack_of ds) i z -> (S i < length ns)%nat -> z <= layer_stop i.
Proof.
  rewrite len_n. unfold in_layer, layer_stop. rewrite stack_length. intros [(-> & H)|(H1 & H2 & H3)] Q; [exact H|].
  destruct (Nat.eqb_spec i 0); [lia|]. apply H3. lia.
Qed.

Lemma deeper i z j w x y : in_stack ds x i z -> in_stack ds y j w -> x <= y -> (i < j)%nat \/ (i = j /\ z <= w).
Proof.
  intros A B L. destruct A as [(-> & A & ->)|(A & A1 & A2 & A3 & A4)], B as [(-> & B & ->)|(B & B1 & B2 & B3 & B4)].
  - right. auto.
  - left. lia.
  - exfalso. assert (0 <= total (firstn (i - 1) ds)); [|lra]. apply total_nonneg. apply Forall_forall. intros d I.
    rewrite Forall_forall in thick. apply thick. rewrite <- (firstn_skipn (i - 1) ds). apply in_or_app; auto.
  - destruct (lt_eq_lt_dec i j) as [[Q|Q]|Q]; [left; exact Q|right; split; [exact Q|subst; lra]|exfalso].
    pose proof (firstn_total_mono ds (S (j - 1)) (i - 1) thick ltac:(lia) A1) as M.
    rewrite firstn_total_step in M by lia. specialize (B4 ltac:(lia)). lra.
Qed.

Lemma power_falls x y i z j w p q : x <= y ->
  find_in_structure_with_inf (stack_of ds) (Fin x) = Ok (Z.of_nat i, Fin z) -> position_resolved i z D = Ok p ->
  find_in_structure_with_inf (stack_of ds) (Fin y) = Ok (Z.of_nat j, Fin w) -> position_resolved j w D = Ok q ->
  p_poyn q <= p_poyn p.
Proof.
  intros L F1 P F2 Q. apply found_in_stack in F1; [|exact thick]. apply found_in_stack in F2; [|exact thick].
  destruct F1 as (i' & E1 & S1). apply Nat2Z.inj in E1. subst i'. destruct F2 as (j' & E2 & S2). apply Nat2Z.inj in E2. subst j'.
  rewrite (proj1 (resolved_fields _ _ _ _ _ _ _ _ _ _ inv HD P)), (proj1 (resolved_fields _ _ _ _ _ _ _ _ _ _ inv HD Q)).
  fold (rp i z) (rp j w). pose proof (in_stack_layer _ _ _ _ S1) as I1. pose proof (in_stack_layer _ _ _ _ S2) as I2.
  destruct (deeper _ _ _ _ _ _ S1 S2 L) as [Hij|[-> Hzw]]; [|apply falls_in_layer; assumption].
  pose proof (layer_bound _ _ I2) as J. apply Rle_trans with (rp j 0).
  { apply falls_in_layer; [apply start_in; lia|exact I2|]. unfold in_layer in I2. destruct I2 as [(-> & _)|(_ & ? & _)]; [lia|assumption]. }
  apply Rle_trans with (rp (S i) 0); [apply starts_fall; lia|]. rewrite <- joins by lia.
  apply falls_in_layer; [exact I1|apply stop_in; lia|apply before_stop; [exact I1|lia]].
Qed.
End Falls.
