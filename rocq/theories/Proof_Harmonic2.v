From Coq Require Import Reals ZArith List Bool Lra Lia Psatz.
From Verif Require Import Base BaseLemmas Cplx CplxLemmas Model_FDTD Spec_FDTD Proof_Propagate Proof_Wave Spec_Harmonic Proof_Harmonic.
Import ListNotations.
Open Scope R_scope.

Lemma oscillates_columns w A g n lo hi : oscillates w A g n lo hi <->
  column_field (g_N g) lo hi (g_E g) (EW w A n) /\ forall p c, in_grid (g_N g) p -> (lo <= coord AX p < hi)%nat -> g_H g p c = HW (g_courant g) w A n (coord AX p) c.
Proof.
  split.
  - intros O. split; intros p c G L; [apply (O p c G L)|]. apply (O p c G); lia.
  - intros [O1 O2] p c G L. split; [apply (O1 p c G L)|]. intros H. apply (O2 p c G). lia.
Qed.

Lemma half_open N lo hi F W : (forall p c, in_grid N p -> (lo <= coord AX p < hi)%nat -> F p c = W (coord AX p) c) -> (0 < hi)%nat -> column_field N lo (hi - 1) F W.
Proof. intros H Hh p c G L. apply H; [exact G|lia]. Qed.

Section Step.
  Variables (eps sig : nat -> R) (w : R) (A : nat -> C).

  Lemma step_osc g g' lo hi lo' hi' n : free_columns g eps sig lo hi -> (lo <= lo')%nat -> (hi' <= hi)%nat ->
    sin (w / 2) <> 0 -> g_courant g <> 0 -> (forall x, (lo <= x <= hi)%nat -> eps x <> 0 /\ 1 + sig x <> 0) ->
    (forall x, (lo < x < hi)%nat -> balanced (g_courant g) w eps sig A x) ->
    oscillates w A g n lo' hi' -> step g = Ok g' ->
    free_columns g' eps sig lo hi /\ g_courant g' = g_courant g /\ g_N g' = g_N g /\ oscillates w A g' (S n) (S lo') (hi' - 1).
  Proof.
    intros (Hh & Hb & Hs & Hm) L1 L2 HS HC Hp Ba O St. apply oscillates_columns in O as [OE OH].
    unfold step in St. destruct (update_E g) as [g1|] eqn:U1; [|discriminate]. cbn [bind] in St.
    destruct (update_H g1) as [g2|] eqn:U2; [|discriminate]. cbn [bind] in St. injection St as <-.
    unfold update_E in U1. destruct (map_res (boundary_phi_E (g_N g) (g_H g)) (g_boundaries g)) as [bs|] eqn:MB; [|discriminate]. cbn [bind] in U1.
    destruct (fold_res _ (g_sources g) _) as [E3|] eqn:FE in U1; [|discriminate]. cbn [bind] in U1.
    destruct (map_res _ (g_detectors g)) as [ds|]; [|discriminate]. cbn [bind] in U1. injection U1 as <-.
    unfold update_H in U2. cbn [with_fields g_boundaries g_sources g_N g_E g_H g_steps g_detectors] in U2.
    destruct (map_res (boundary_phi_H (g_N g) E3) bs) as [bs'|] eqn:MB'; [|discriminate]. cbn [bind] in U2.
    destruct (fold_res _ (g_sources g) _) as [H3|] eqn:FH in U2; [|discriminate]. cbn [bind] in U2.
    destruct (map_res _ ds) as [ds'|]; [|discriminate]. cbn [bind] in U2. injection U2 as <-.
    assert (OB : Forall (outside (g_N g) lo hi) bs) by (apply (phi_E_outside _ _ _ _ _ _ MB); exact Hb).
    assert (OB' : Forall (outside (g_N g) lo hi) bs') by (apply (phi_H_outside _ _ _ _ _ _ MB'); exact OB).
    assert (C1' : column_field (g_N g) (S lo') (hi' - 1) (bulk_E g) (EW w A (S n))).
    { intros p c G L. assert (Lx : (lo' <= coord AX p < hi')%nat) by lia. unfold bulk_E.
      destruct (Hm p G ltac:(lia)) as (M1 & M2 & M3). destruct (Hp (coord AX p) ltac:(lia)) as [P1 P2].
      pose proof (half_open _ _ _ _ _ OH ltac:(lia)) as OH'.
      rewrite (OE p c G) by lia. unfold curl_H. destruct c.
      - rewrite (col_dbwd_0 _ _ _ _ _ AY AZ p OH' G) by (try discriminate; lia). rewrite (col_dbwd_0 _ _ _ _ _ AZ AY p OH' G) by (try discriminate; lia).
        cbn [EW]. unfold Rdiv. ring.
      - rewrite (col_dbwd_0 _ _ _ _ _ AZ AX p OH' G) by (try discriminate; lia). rewrite (col_dbwd_x _ _ _ _ _ AZ p OH' G) by lia.
        cbn [EW HW]. unfold Rdiv. ring.
      - rewrite (col_dbwd_x _ _ _ _ _ AY p OH' G) by lia. rewrite (col_dbwd_0 _ _ _ _ _ AY AX p OH' G) by (try discriminate; lia).
        rewrite M1, M2, Rminus_0_r. apply E_equation; try assumption; [|lia]. apply Ba. lia. }
    assert (CE : column_field (g_N g) (S lo') (hi' - 1) E3 (EW w A (S n))).
    { apply (sources_E (g_N g) lo hi (S lo') (hi' - 1) (g_steps g) (g_sources g) Hs ltac:(lia) ltac:(lia) _ _ _ FE).
      apply (boundaries_E (g_N g) lo hi); try assumption; lia. }
    assert (CH : forall p c, in_grid (g_N g) p -> (S lo' <= coord AX p < hi' - 1)%nat -> H3 p c = HW (g_courant g) w A (S n) (coord AX p) c).
    { intros p0 c0 G0 L0.
      assert (X : column_field (g_N g) (S lo') (hi' - 2) H3 (HW (g_courant g) w A (S n))).
      { rewrite (sources_H (g_N g) lo hi _ _ Hs _ _ FH). apply (boundaries_H (g_N g) lo hi); try assumption; try lia.
        intros p c G L. unfold bulk_H. cbn [with_fields g_H g_courant g_im g_N g_E]. destruct (Hm p G ltac:(lia)) as (_ & _ & M3).
        rewrite (OH p c G) by lia. unfold curl_E. destruct c.
        - rewrite (col_dfwd_0 _ _ _ _ _ AY AZ p CE G) by (try discriminate; lia). rewrite (col_dfwd_0 _ _ _ _ _ AZ AY p CE G) by (try discriminate; lia).
          cbn [HW]. ring.
        - rewrite (col_dfwd_0 _ _ _ _ _ AZ AX p CE G) by (try discriminate; lia). rewrite (col_dfwd_x _ _ _ _ _ AZ p CE G) by lia.
          rewrite M3. rewrite <- H_equation by exact HS. ring.
        - rewrite (col_dfwd_x _ _ _ _ _ AY p CE G) by lia. rewrite (col_dfwd_0 _ _ _ _ _ AY AX p CE G) by (try discriminate; lia).
          cbn [HW EW]. ring. }
      apply X; [exact G0|lia]. }
    split; [|split; [reflexivity|split; [reflexivity|]]].
    - split; [exact Hh|]. split; [exact OB'|]. split; [exact Hs|exact Hm].
    - apply oscillates_columns. cbn [with_fields g_E g_H g_N g_courant]. split; [exact CE|exact CH].
  Qed.

  Lemma run_osc k : forall g g' lo hi lo' hi' n, free_columns g eps sig lo hi -> (lo <= lo')%nat -> (hi' <= hi)%nat ->
    sin (w / 2) <> 0 -> g_courant g <> 0 -> (forall x, (lo <= x <= hi)%nat -> eps x <> 0 /\ 1 + sig x <> 0) ->
    (forall x, (lo < x < hi)%nat -> balanced (g_courant g) w eps sig A x) ->
    oscillates w A g n lo' hi' -> run_steps k g = Ok g' -> oscillates w A g' (n + k) (lo' + k) (hi' - k).
  Proof.
    induction k as [|k IH]; intros g g' lo hi lo' hi' n F L1 L2 HS HC Hp Ba O Rn; cbn [run_steps] in Rn.
    - injection Rn as <-. rewrite !Nat.add_0_r, Nat.sub_0_r. exact O.
    - destruct (step g) as [g1|] eqn:St; [|discriminate]. cbn [bind] in Rn.
      destruct (step_osc g g1 lo hi lo' hi' n F L1 L2 HS HC Hp Ba O St) as (F1 & C1' & N1 & O1).
      replace (n + S k)%nat with (S n + k)%nat by lia. replace (lo' + S k)%nat with (S lo' + k)%nat by lia. replace (hi' - S k)%nat with (hi' - 1 - k)%nat by lia.
      apply (IH g1 g' lo hi); try assumption; try lia; rewrite C1'; assumption.
  Qed.
End Step.

Lemma oscillation eps sig w A g g' lo hi n k : free_columns g eps sig lo hi -> sin (w / 2) <> 0 -> 0 < g_courant g ->
  (forall x, (lo <= x <= hi)%nat -> 0 < eps x /\ 0 <= sig x) ->
  (forall x, (lo < x < hi)%nat -> balanced (g_courant g) w eps sig A x) ->
  oscillates w A g n lo hi -> run_steps k g = Ok g' -> oscillates w A g' (n + k) (lo + k) (hi - k).
Proof.
  intros F HS HC Hp Ba O Rn. apply (run_osc eps sig w A k g g' lo hi lo hi n); try assumption; try lia; try lra.
  intros x L. destruct (Hp x L). lra.
Qed.
