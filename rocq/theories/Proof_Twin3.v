(** What detectors record of one polarization. *)
From Coq Require Import Reals ZArith String List Bool Lra Lia Psatz.
From Verif Require Proof_Plane.
From Verif Require Import Base BaseLemmas Model_FDTD Model_Register Spec_FDTD Proof_FDTD Proof_Propagate Proof_Reverse Proof_Causal Spec_Twin Proof_Twin Proof_Twin2.
Import ListNotations.
Open Scope R_scope.

Section Read.
  Variables (a : axis) (y : bool) (N : shape3).
  Lemma sample_same F1 F2 cells : same_part a y N F1 F2 -> forall v1 v2, sample N F1 cells = Ok v1 -> sample N F2 cells = Ok v2 ->
    Forall2 (fun v w : vec => forall c, part a y c -> v c = w c) v1 v2.
  Proof using.
    intros A. unfold sample. induction cells as [|b cells IH]; intros v1 v2 X1 X2; cbn [map_res] in X1, X2.
    - injection X1 as <-. injection X2 as <-. constructor.
    - apply bind_ok in X1 as (w1 & Y1 & X1). apply bind_ok in X1 as (r1 & Z1 & X1). injection X1 as <-.
      apply bind_ok in X2 as (w2 & Y2 & X2). apply bind_ok in X2 as (r2 & Z2 & X2). injection X2 as <-.
      constructor; [|apply IH; assumption]. apply bind_ok in Y1 as (p & P1 & Y1). injection Y1 as <-.
      apply bind_ok in Y2 as (q & P2 & Y2). injection Y2 as <-. rewrite P1 in P2. injection P2 as <-.
      intros c C. apply A; [eapply resolve3_in, P1|exact C].
  Qed.
End Read.
Lemma current_same N sp H1 H2 c : same_part AZ false N H1 H2 -> point_current N sp H1 c = point_current N sp H2 c.
Proof.
  intros A. destruct c as [[i j] k]. unfold point_current.
  assert (R : forall p b, b <> AZ -> (let! q := resolve3 N p in Ok (H1 q b)) = (let! q := resolve3 N p in Ok (H2 q b))).
  { intros p b Nb. destruct (resolve3 N p) as [q|e] eqn:Q; [|reflexivity]. cbn [bind]. rewrite (A q b); [reflexivity|eapply resolve3_in, Q|exact Nb]. }
  cbv zeta. rewrite !R by discriminate. reflexivity.
Qed.
Lemma detect_E_same a z N E1 E2 : same_part a z N E1 E2 -> forall l1 l2 l1' l2', Forall2 (same_part_detector a z) l1 l2 ->
  map_res (detect_E N E1) l1 = Ok l1' -> map_res (detect_E N E2) l2 = Ok l2' -> Forall2 (same_part_detector a z) l1' l2'.
Proof.
  intros A l1 l2 l1' l2' F. revert l1' l2'. induction F as [|d1 d2 r1 r2 D _ IH]; intros l1' l2' X1 X2; cbn [map_res] in X1, X2.
  - injection X1 as <-. injection X2 as <-. constructor.
  - apply bind_ok in X1 as (w1 & Y1 & X1). apply bind_ok in X1 as (s1 & Z1 & X1). injection X1 as <-.
    apply bind_ok in X2 as (w2 & Y2 & X2). apply bind_ok in X2 as (s2 & Z2 & X2). injection X2 as <-.
    constructor; [|apply IH; assumption]. destruct d1 as [c1 e1 h1|c1 i1|], d2 as [c2 e2 h2|c2 i2|]; cbn in D; try contradiction; cbn [detect_E] in Y1, Y2.
    + destruct D as (<- & DE & DH). apply bind_ok in Y1 as (v1 & V1 & Y1). injection Y1 as <-. apply bind_ok in Y2 as (v2 & V2 & Y2). injection Y2 as <-.
      split; [reflexivity|]. split; [|exact DH]. apply Forall2_app; [exact DE|]. constructor; [eapply sample_same; eassumption|constructor].
    + injection Y1 as <-. injection Y2 as <-. exact D.
    + discriminate.
Qed.
Lemma detect_H_same a z N sp H1 H2 : same_part a (negb z) N H1 H2 -> forall l1 l2 l1' l2', Forall2 (same_part_detector a z) l1 l2 ->
  map_res (detect_H N sp H1) l1 = Ok l1' -> map_res (detect_H N sp H2) l2 = Ok l2' -> Forall2 (same_part_detector a z) l1' l2'.
Proof.
  intros A l1 l2 l1' l2' F. revert l1' l2'. induction F as [|d1 d2 r1 r2 D _ IH]; intros l1' l2' X1 X2; cbn [map_res] in X1, X2.
  - injection X1 as <-. injection X2 as <-. constructor.
  - apply bind_ok in X1 as (w1 & Y1 & X1). apply bind_ok in X1 as (s1 & Z1 & X1). injection X1 as <-.
    apply bind_ok in X2 as (w2 & Y2 & X2). apply bind_ok in X2 as (s2 & Z2 & X2). injection X2 as <-.
    constructor; [|apply IH; assumption]. destruct d1 as [c1 e1 h1|c1 i1|], d2 as [c2 e2 h2|c2 i2|]; cbn in D; try contradiction; cbn [detect_H] in Y1, Y2.
    + destruct D as (<- & DE & DH). apply bind_ok in Y1 as (v1 & V1 & Y1). injection Y1 as <-. apply bind_ok in Y2 as (v2 & V2 & Y2). injection Y2 as <-.
      split; [reflexivity|]. split; [exact DE|]. apply Forall2_app; [exact DH|]. constructor; [eapply sample_same; eassumption|constructor].
    + destruct D as (<- & D). apply bind_ok in Y1 as (v1 & V1 & Y1). injection Y1 as <-. apply bind_ok in Y2 as (v2 & V2 & Y2). injection Y2 as <-.
      split; [reflexivity|]. intros -> ->. rewrite (D eq_refl eq_refl). assert (M : forall l, map_res (point_current N sp H1) l = map_res (point_current N sp H2) l).
      { induction l as [|x l IHl]; [reflexivity|]. cbn [map_res]. rewrite (current_same N sp H1 H2 x A), IHl. reflexivity. }
      rewrite M, V2 in V1. injection V1 as <-. reflexivity.
    + discriminate.
Qed.
Lemma detector_step a z g1 g2 g1' g2' : same_polarization a z g1 g2 -> g_spacing g1 = g_spacing g2 -> Forall2 (same_part_detector a z) (g_detectors g1) (g_detectors g2) ->
  step g1 = Ok g1' -> step g2 = Ok g2' -> g_spacing g1' = g_spacing g2' /\ Forall2 (same_part_detector a z) (g_detectors g1') (g_detectors g2').
Proof.
  intros T Sp D S1 S2. pose proof (twin_step a z g1 g2 g1' g2' T S1 S2) as (_ & _ & _ & _ & _ & TE & TH & _). destruct T as (N0 & _).
  apply step_inv in S1 as (h1 & k1 & UE1 & UH1 & ->). apply step_inv in S2 as (h2 & k2 & UE2 & UH2 & ->).
  apply update_E_inv in UE1 as (b1 & E1 & d1 & _ & _ & X1 & ->). apply update_E_inv in UE2 as (b2 & E2 & d2 & _ & _ & X2 & ->).
  apply update_H_inv in UH1 as (b1' & H1 & d1' & _ & _ & Y1 & ->). apply update_H_inv in UH2 as (b2' & H2 & d2' & _ & _ & Y2 & ->).
  cbn [with_fields g_N g_E g_H g_spacing g_detectors] in *. rewrite <- N0, <- ?Sp in *. split; [exact Sp || reflexivity|].
  eapply detect_H_same; [exact TH| |exact Y1|exact Y2]. eapply detect_E_same; [exact TE|exact D|exact X1|exact X2].
Qed.
Lemma detectors_same a z n : forall g1 g2 g1' g2', same_polarization a z g1 g2 -> g_spacing g1 = g_spacing g2 -> Forall2 (same_part_detector a z) (g_detectors g1) (g_detectors g2) ->
  run_steps n g1 = Ok g1' -> run_steps n g2 = Ok g2' -> Forall2 (same_part_detector a z) (g_detectors g1') (g_detectors g2').
Proof.
  induction n as [|n IH]; intros g1 g2 g1' g2' T Sp D R1 R2; cbn [run_steps] in R1, R2.
  - injection R1 as <-. injection R2 as <-. exact D.
  - apply bind_ok in R1 as (k1 & S1 & R1). apply bind_ok in R2 as (k2 & S2 & R2). destruct (detector_step a z g1 g2 k1 k2 T Sp D S1 S2) as [Sp' D'].
    eapply IH; [eapply twin_step; eassumption|exact Sp'|exact D'|exact R1|exact R2].
Qed.

Lemma runs_together a z n g1 g2 g1' : same_polarization a z g1 g2 -> Forall2 (same_part_detector a z) (g_detectors g1) (g_detectors g2) -> run_steps n g1 = Ok g1' -> exists g2', run_steps n g2 = Ok g2'.
Proof.
  intros (N0 & _ & _ & St & So & _ & _ & _ & _ & _ & BB) DD R. apply Proof_Reset.run_raises_iff.
  destruct (proj1 (Proof_Reset.run_raises_iff n g1) (ex_intro _ g1' R)) as [->|(B & D & S)]; [left; reflexivity|right].
  rewrite <- N0, <- St, <- So. split; [|split; [|exact S]].
  - clear - BB B. induction BB as [|b1 b2 r1 r2 Hb _ IH]; [constructor|]. inversion B; subst. constructor; [|apply IH; assumption].
    destruct b1 as [x1|p1| |], b2 as [x2|p2| |]; cbn in Hb; try discriminate; try (rewrite <- Hb; assumption); try assumption.
    destruct Hb as (B1 & B2 & B3 & _). cbn in *. rewrite <- B1, <- B3. assumption.
  - clear - DD D. induction DD as [|d1 d2 r1 r2 Hd _ IH]; [constructor|]. inversion D; subst. constructor; [|apply IH; assumption].
    destruct d1, d2; cbn in Hd; try contradiction; destruct Hd as (<- & _); assumption.
Qed.
Lemma detectors_agree a z n g1 g2 g1' : same_polarization a z g1 g2 -> g_spacing g1 = g_spacing g2 -> Forall2 (same_part_detector a z) (g_detectors g1) (g_detectors g2) ->
  run_steps n g1 = Ok g1' -> exists g2', run_steps n g2 = Ok g2' /\ Forall2 (same_part_detector a z) (g_detectors g1') (g_detectors g2').
Proof.
  intros T Sp D R. destruct (runs_together a z n g1 g2 g1' T D R) as (g2' & R2). exists g2'. split; [exact R2|]. eapply detectors_same; eassumption.
Qed.

(** A case: the grids of C111 between two PMLs, with a field and a current detector. *)
Definition watched_grid (e h i : R) : grid :=
  let g := flat_grid e h i in with_fields g (g_E g) (g_H g) (g_steps g)
    [PMLb (make_pml AX false 1 default_pml_a (7 / 10)); PMLb (make_pml AX true 1 default_pml_a (7 / 10)); Periodic AY] [FieldDetector [(2, 1, 0)%Z; (3, 2, 0)%Z] [] []; CurrentDetector [(2, 1, 0)%Z] []].
Lemma watched_runs n e h i : exists g, run_steps n (watched_grid e h i) = Ok g.
Proof.
  apply Proof_Reset.run_raises_iff. right. split; [repeat constructor; cbn; lia|]. split; [|intros k _; constructor; [|constructor]].
  - repeat constructor; cbn; unfold index_ok; cbn; lia.
  - cbn. unfold index_ok; cbn. repeat split; try lia; try lra; try discriminate.
Qed.
Lemma watched_same e h i e' h' i' : same_polarization AZ true (watched_grid e h i) (watched_grid e' h' i').
Proof.
  destruct (flat_same e h i e' h' i') as (A1 & A2 & A3 & A4 & A5 & A6 & A7 & A8 & A9 & A10 & _).
  repeat (split; [assumption|]). constructor; [repeat split|]. constructor; [repeat split|]. constructor; [reflexivity|constructor].
Qed.
Lemma watched_case n : exists g1 g2, run_steps n (watched_grid 3 5 (/ 3)) = Ok g1 /\ run_steps n (watched_grid 7 0 1) = Ok g2
  /\ Forall2 (same_part_detector AZ true) (g_detectors g1) (g_detectors g2).
Proof.
  destruct (watched_runs n 3 5 (/ 3)) as (g1 & R1). destruct (watched_runs n 7 0 1) as (g2 & R2). exists g1, g2. split; [exact R1|]. split; [exact R2|].
  apply (detectors_same AZ true n (watched_grid 3 5 (/ 3)) (watched_grid 7 0 1)); [apply watched_same|reflexivity|repeat constructor|exact R1|exact R2].
Qed.
