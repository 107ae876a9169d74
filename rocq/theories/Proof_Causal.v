(** Columns that the light has not reached, and layers it has not returned from. *)
From Coq Require Import Reals ZArith List Bool Lra Lia Psatz.
From Verif Require Proof_Plane.
From Verif Require Import Base BaseLemmas Model_FDTD Spec_FDTD Proof_FDTD Proof_Propagate Spec_Harmonic Proof_Harmonic Proof_Reverse Proof_Rows.
Import ListNotations.
Open Scope R_scope.

(** The columns from [lo] to before [hi]. *)
Definition within (N : shape3) (lo hi : nat) (p : pos) : Prop := in_grid N p /\ (lo <= coord AX p < hi)%nat.
Definition zero_on (N : shape3) (lo hi : nat) (F : field) : Prop := forall p c, within N lo hi p -> F p c = 0.
Definition memory_zero (N : shape3) (lo hi lo' hi' : nat) (b : boundary) : Prop :=
  match b with
  | PMLb pm => forall q x c, (within N lo hi (pml_cell N pm q) -> p_psiE pm x q c = 0)
                          /\ (within N lo' hi' (pml_cell N pm q) -> p_psiH pm x q c = 0)
  | _ => True end.
Definition dark (g : grid) (lo hi : nat) : Prop :=
  zero_on (g_N g) lo hi (g_E g) /\ zero_on (g_N g) lo hi (g_H g) /\ Forall (memory_zero (g_N g) lo hi lo hi) (g_boundaries g).
Definition clear_between (g : grid) (lo hi : nat) : Prop :=
  Forall (outside (g_N g) lo hi) (g_boundaries g) /\ Forall (source_outside (g_N g) lo hi) (g_sources g).

Section Zero.
  Variable N : shape3.
  Lemma within_down lo hi b p : within N (S lo) hi p -> within N lo hi (setc b (coord b p - 1) p).
  Proof.
    intros [G L]. split.
    - intros a. rewrite coord_setc. pose proof (G a). destruct (axis_eqb_spec a b) as [->|]; lia.
    - rewrite coord_setc. destruct (axis_eqb_spec AX b) as [<-|]; lia.
  Qed.
  Lemma within_up lo hi b p : within N lo (pred hi) p -> (S (coord b p) < N b)%nat -> within N lo hi (setc b (S (coord b p)) p).
  Proof.
    intros [G L] B. split.
    - intros a. rewrite coord_setc. pose proof (G a). destruct (axis_eqb_spec a b) as [->|]; lia.
    - rewrite coord_setc. destruct (axis_eqb_spec AX b) as [<-|]; lia.
  Qed.
  Lemma within_le lo hi lo' hi' p : within N lo' hi' p -> (lo <= lo')%nat -> (hi' <= hi)%nat -> within N lo hi p.
  Proof. intros [G L] A B. split; [exact G|lia]. Qed.
  Lemma dbwd_zero lo hi F b c p : zero_on N lo hi F -> within N (S lo) hi p -> dbwd F b c p = 0.
  Proof.
    intros Z W. unfold dbwd. destruct (_ <=? _)%nat; [|reflexivity].
    rewrite (Z _ c (within_down lo hi b p W)), (Z p c) by (eapply within_le; [exact W|lia|lia]). ring.
  Qed.
  Lemma dfwd_zero lo hi F b c p : zero_on N lo hi F -> within N lo (pred hi) p -> dfwd N F b c p = 0.
  Proof.
    intros Z W. unfold dfwd. destruct (Nat.ltb_spec (S (coord b p)) (N b)) as [B|B]; [|reflexivity].
    rewrite (Z _ c (within_up lo hi b p W B)), (Z p c) by (eapply within_le; [exact W|lia|lia]). ring.
  Qed.
  Lemma cell_coord pm q a : coord a (pml_cell N pm q) = if axis_eqb a (p_axis pm) then (coord a q + pml_offset N pm)%nat else coord a q.
  Proof. unfold pml_cell. rewrite coord_setc. destruct (axis_eqb_spec a (p_axis pm)) as [->|]; reflexivity. Qed.
  Lemma cell_down pm b q : (1 <= coord b q)%nat -> pml_cell N pm (setc b (coord b q - 1) q) = setc b (coord b (pml_cell N pm q) - 1) (pml_cell N pm q).
  Proof.
    intros B. apply pos_ext. intros a. rewrite cell_coord, !coord_setc, !cell_coord.
    destruct (axis_eqb_spec a b) as [->|]; [destruct (axis_eqb b (p_axis pm))|]; lia.
  Qed.
  Lemma cell_up pm b q : pml_cell N pm (setc b (S (coord b q)) q) = setc b (S (coord b (pml_cell N pm q))) (pml_cell N pm q).
  Proof.
    apply pos_ext. intros a. rewrite cell_coord, !coord_setc, !cell_coord.
    destruct (axis_eqb_spec a b) as [->|]; [destruct (axis_eqb b (p_axis pm))|]; lia.
  Qed.
  Lemma local_back pm lo hi F b c q : zero_on N lo hi F -> within N (S lo) hi (pml_cell N pm q) ->
    dbwd (fun q c => F (pml_cell N pm q) c) b c q = 0.
  Proof.
    intros Z W. unfold dbwd. destruct (Nat.leb_spec 1 (coord b q)) as [B|B]; [|reflexivity]. rewrite cell_down by exact B.
    rewrite (Z _ c (within_down lo hi b _ W)), (Z _ c) by (eapply within_le; [exact W|lia|lia]). ring.
  Qed.
  Lemma local_fore pm lo hi F b c q : (p_thick pm <= N (p_axis pm))%nat -> zero_on N lo hi F -> within N lo (pred hi) (pml_cell N pm q) ->
    dfwd (pml_shape N pm) (fun q c => F (pml_cell N pm q) c) b c q = 0.
  Proof.
    intros T Z W. unfold dfwd. destruct (Nat.ltb_spec (S (coord b q)) (pml_shape N pm b)) as [B|B]; [|reflexivity]. rewrite cell_up.
    assert (U : (S (coord b (pml_cell N pm q)) < N b)%nat).
    { rewrite cell_coord. unfold pml_shape in B. destruct (axis_eqb_spec b (p_axis pm)) as [->|]; [|exact B]. unfold pml_offset. destruct (p_high pm); lia. }
    rewrite (Z _ c (within_up lo hi b _ W U)), (Z _ c) by (eapply within_le; [exact W|lia|lia]). ring.
  Qed.

  Lemma phi_E_zero lo hi H bs : zero_on N lo hi H -> forall bs', map_res (boundary_phi_E N H) bs = Ok bs' ->
    Forall (memory_zero N lo hi lo hi) bs -> Forall (memory_zero N (S lo) hi lo hi) bs'.
  Proof.
    intros Z. induction bs as [|b bs IH]; intros bs' M F; cbn [map_res] in M; [injection M as <-; constructor|].
    apply bind_ok in M as (b' & B & M). apply bind_ok in M as (r & M & E). injection E as <-. inversion F as [|? ? F1 F2]; subst.
    constructor; [|apply IH; assumption]. clear IH F F2 M.
    destruct b as [a|pm| |]; cbn [boundary_phi_E] in B; try discriminate; try (injection B as <-; exact I).
    destruct (p_thick pm <=? _)%nat; [|discriminate]. injection B as <-.
    intros q x c. split; [|apply (F1 q x c)]. change (pml_cell N (pml_phi_E N H pm) q) with (pml_cell N pm q). intros W.
    cbn [pml_phi_E p_psiE]. rewrite (proj1 (F1 q x c)) by (eapply within_le; [exact W|lia|lia]).
    destruct x, c; rewrite ?(local_back pm lo hi H) by assumption; ring.
  Qed.
  Lemma phi_H_zero lo hi E bs : zero_on N (S lo) hi E -> forall bs', map_res (boundary_phi_H N E) bs = Ok bs' ->
    Forall (memory_zero N (S lo) hi lo hi) bs -> Forall (memory_zero N (S lo) (pred hi) (S lo) (pred hi)) bs'.
  Proof.
    intros Z. induction bs as [|b bs IH]; intros bs' M F; cbn [map_res] in M; [injection M as <-; constructor|].
    apply bind_ok in M as (b' & B & M). apply bind_ok in M as (r & M & X). injection X as <-. inversion F as [|? ? F1 F2]; subst.
    constructor; [|apply IH; assumption]. clear IH F F2 M.
    destruct b as [a|pm| |]; cbn [boundary_phi_H] in B; try discriminate; try (injection B as <-; exact I).
    destruct (Nat.leb_spec (p_thick pm) (N (p_axis pm))) as [T|]; [|discriminate]. injection B as <-.
    intros q x c. change (pml_cell N (pml_phi_H N E pm) q) with (pml_cell N pm q). split; intros W.
    - apply (F1 q x c). eapply within_le; [exact W|lia|lia].
    - cbn [pml_phi_H p_psiH]. rewrite (proj2 (F1 q x c)) by (eapply within_le; [exact W|lia|lia]).
      destruct x, c; rewrite ?(local_fore pm (S lo) hi E) by assumption; ring.
  Qed.
End Zero.

(** One step: the darkness shrinks by one column on both sides. *)
Lemma dark_step g g' l h lo hi : clear_between g l h -> dark g lo hi -> (l <= lo)%nat -> (hi <= S h)%nat -> step g = Ok g' ->
  clear_between g' l h /\ dark g' (S lo) (pred hi) /\ g_N g' = g_N g.
Proof.
  intros (Hb & Hs) (ZE & ZH & ZM) L1 L2 St. apply step_inv in St as (g1 & g2 & UE & UH & ->).
  apply update_E_inv in UE as (bs & E3 & ds & MB & FE & _ & ->). apply update_H_inv in UH as (bs' & H3 & ds' & MB' & FH & _ & ->).
  cbn [with_fields g_boundaries g_sources g_N g_E g_H g_steps g_detectors g_courant g_im] in *.
  assert (OB : Forall (outside (g_N g) l h) bs) by (apply (phi_E_outside _ _ _ _ _ _ MB); exact Hb).
  assert (OB' : Forall (outside (g_N g) l h) bs') by (apply (phi_H_outside _ _ _ _ _ _ MB'); exact OB).
  assert (ME : Forall (memory_zero (g_N g) (S lo) hi lo hi) bs) by (eapply phi_E_zero; eassumption).
  assert (Z3 : zero_on (g_N g) (S lo) hi E3).
  { intros p c [G L]. rewrite (src_E (g_N g) l h _ _ Hs _ _ FE p c) by lia. rewrite (colsE (g_N g) l h) by (try assumption; lia).
    set (q := mvsE (g_N g) bs p). assert (W : within (g_N g) (S lo) hi q).
    { split; [apply grid_mvsE, G|]. unfold q. rewrite (mvsE_x (g_N g) l h) by exact OB. exact L. }
    unfold bulk_E. rewrite (ZE q c) by (eapply within_le; [exact W|lia|lia]).
    assert (curl_H (g_H g) q c = 0) as -> by (destruct c; unfold curl_H; rewrite !(dbwd_zero (g_N g) lo hi) by assumption; ring).
    unfold Rdiv. ring. }
  split; [split; assumption|]. split; [|reflexivity].
  split; [|split]; cbn [with_fields g_boundaries g_sources g_N g_E g_H g_steps g_detectors g_courant g_im].
  - intros p c W. apply Z3. eapply within_le; [exact W|lia|lia].
  - intros p c [G L]. rewrite (sources_H _ _ _ _ _ Hs _ _ FH). rewrite (colsH (g_N g) l h) by (try assumption; lia).
    set (q := mvsH (g_N g) bs' p). assert (W : within (g_N g) (S lo) (pred hi) q).
    { split; [apply grid_mvsH, G|]. unfold q. rewrite (mvsH_x (g_N g) l h) by exact OB'. exact L. }
    unfold bulk_H. cbn [with_fields g_boundaries g_sources g_N g_E g_H g_steps g_detectors g_courant g_im].
    rewrite (ZH q c) by (eapply within_le; [exact W|lia|lia]).
    assert (curl_E (g_N g) E3 q c = 0) as -> by (destruct c; unfold curl_E; rewrite !(dfwd_zero (g_N g) (S lo) hi) by assumption; ring). ring.
  - eapply phi_H_zero; eassumption.
Qed.

Lemma dark_run n : forall g g' l h lo hi, clear_between g l h -> dark g lo hi -> (l <= lo)%nat -> (hi <= S h)%nat -> run_steps n g = Ok g' ->
  clear_between g' l h /\ dark g' (n + lo) (hi - n) /\ g_N g' = g_N g.
Proof.
  induction n as [|n IH]; intros g g' l h lo hi C D L1 L2 R; cbn [run_steps] in R.
  - injection R as <-. rewrite Nat.sub_0_r. auto.
  - apply bind_ok in R as (g1 & S1 & R). destruct (dark_step _ _ _ _ _ _ C D L1 L2 S1) as (C1 & D1 & N1).
    destruct (IH g1 g' l h (S lo) (pred hi) C1 D1 ltac:(lia) ltac:(lia) R) as (C2 & D2 & N2).
    replace (n + S lo)%nat with (S n + lo)%nat in D2 by lia. replace (pred hi - n)%nat with (hi - S n)%nat in D2 by lia. repeat split; try assumption; try apply C2; try apply D2. congruence.
Qed.

(** Two simulations that agree before column [x0] go on agreeing there while the column
    before [x0] is dark. *)
Lemma regain x0 r g1 g2 : agree AX x0 2 r g1 g2 -> (g_N g1 AX <= r)%nat ->
  (forall p c, in_grid (g_N g1) p -> (coord AX p < x0)%nat -> g_abs g1 p c = g_abs g2 p c /\ g_ie g1 p c = g_ie g2 p c /\ g_im g1 p c = g_im g2 p c) ->
  dark g1 (x0 - 1) x0 -> dark g2 (x0 - 1) x0 -> agree AX x0 1 r g1 g2.
Proof.
  intros (A1 & A2 & A3 & A4 & (_ & A5 & A6) & AE & AH & _ & _ & _ & AB & AW) Hr M (E1 & H1 & B1) (E2 & H2 & B2).
  assert (Cs : forall p, far (g_N g1) AX x0 1 r p -> far (g_N g1) AX x0 2 r p \/ within (g_N g1) (x0 - 1) x0 p).
  { intros p [G F]. destruct (Nat.eq_dec (S (coord AX p)) x0) as [e|n]; [right|left]; (split; [exact G|]); lia. }
  assert (Lt : forall p, far (g_N g1) AX x0 1 r p -> (coord AX p < x0)%nat) by (intros p [G F]; pose proof (G AX); lia).
  split; [exact A1|]. split; [exact A2|]. split; [exact A3|]. split; [exact A4|]. split; [split; [lia|split; assumption]|].
  rewrite <- A1 in E2, H2, B2.
  split; [|split; [|split; [|split; [|split; [|split]]]]].
  - intros p c F. destruct (Cs p F) as [F'|W]; [apply AE, F'|rewrite (E1 p c W), (E2 p c W); reflexivity].
  - intros p c F. destruct (Cs p F) as [F'|W]; [apply AH, F'|rewrite (H1 p c W), (H2 p c W); reflexivity].
  - intros p c F. apply (M p c (proj1 F) (Lt p F)).
  - intros p c F. apply (M p c (proj1 F) (Lt p F)).
  - intros p c F. apply (M p c (proj1 F) (Lt p F)).
  - revert B1 B2. clear - AB Cs. induction AB as [|b1 b2 bs1 bs2 Hb _ IH]; intros B1 B2; [constructor|].
    inversion B1 as [|? ? P1 Q1]; subst. inversion B2 as [|? ? P2 Q2]; subst. constructor; [|apply IH; assumption].
    destruct b1 as [a|p1| |], b2 as [a2|p2| |]; try exact Hb. destruct Hb as (C1 & C2 & C3 & C4 & C5 & C6 & C7 & C8).
    repeat (split; [assumption|]). intros q x c F. destruct (Cs _ F) as [F'|W]; [apply C8, F'|].
    destruct (P1 q x c) as [u v]. destruct (P2 q x c) as [u' v']. rewrite (pml_cell_eq _ p1 p2) in u, v by assumption. rewrite (pml_cell_eq _ p1 p2) in W by assumption.
    rewrite u, v, u', v' by exact W. auto.
  - exact AW.
Qed.

Lemma keep_agreeing x0 l h n : forall g1 g2 g1' g2' lo hi r, agree AX x0 1 r g1 g2 -> (g_N g1 AX <= r)%nat ->
  (forall p c, in_grid (g_N g1) p -> (coord AX p < x0)%nat -> g_abs g1 p c = g_abs g2 p c /\ g_ie g1 p c = g_ie g2 p c /\ g_im g1 p c = g_im g2 p c) ->
  clear_between g1 l h -> clear_between g2 l h -> dark g1 lo hi -> dark g2 lo hi -> (l <= lo)%nat -> (hi <= S h)%nat ->
  (1 <= x0)%nat -> (n + lo <= x0 - 1)%nat -> (x0 <= hi - n)%nat -> run_steps n g1 = Ok g1' -> run_steps n g2 = Ok g2' ->
  agree AX x0 1 (n + r) g1' g2'.
Proof.
  induction n as [|n IH]; intros g1 g2 g1' g2' lo hi r A Hr M C1 C2 D1 D2 L1 L2 X B1 B2 R1 R2; cbn [run_steps] in R1, R2.
  - injection R1 as <-. injection R2 as <-. exact A.
  - apply bind_ok in R1 as (k1 & S1 & R1). apply bind_ok in R2 as (k2 & S2 & R2).
    destruct (dark_step _ _ _ _ _ _ C1 D1 L1 L2 S1) as (C1' & D1' & N1). destruct (dark_step _ _ _ _ _ _ C2 D2 L1 L2 S2) as (C2' & D2' & N2).
    pose proof (Proof_Propagate.agree_step _ _ _ _ _ _ _ _ A S1 S2) as A'.
    assert (Sm : forall k k', step k = Ok k' -> g_abs k' = g_abs k /\ g_ie k' = g_ie k /\ g_im k' = g_im k).
    { intros k k' S0. apply step_inv in S0 as (h1 & h2 & UE & UH & ->).
      apply update_E_inv in UE as (? & ? & ? & _ & _ & _ & ->). apply update_H_inv in UH as (? & ? & ? & _ & _ & _ & ->). auto. }
    destruct (Sm _ _ S1) as (a1 & a2 & a3). destruct (Sm _ _ S2) as (b1 & b2 & b3).
    assert (M' : forall p c, in_grid (g_N k1) p -> (coord AX p < x0)%nat -> g_abs k1 p c = g_abs k2 p c /\ g_ie k1 p c = g_ie k2 p c /\ g_im k1 p c = g_im k2 p c).
    { intros p c G L. rewrite a1, a2, a3, b1, b2, b3. rewrite N1 in G. apply M; assumption. }
    assert (Nar : forall k, dark k (S lo) (pred hi) -> dark k (x0 - 1) x0).
    { intros k (u & v & w). split; [|split].
      - intros p c W. apply u. eapply within_le; [exact W|lia|lia].
      - intros p c W. apply v. eapply within_le; [exact W|lia|lia].
      - eapply Forall_impl; [|exact w]. intros [ | pm | | ] Q; try exact I. intros q x c. split; intros W; apply (Q q x c); eapply within_le; try exact W; lia. }
    assert (A'' : agree AX x0 1 (S r) k1 k2) by (apply regain; auto; rewrite N1; lia).
    replace (S n + r)%nat with (n + S r)%nat by lia.
    apply (IH k1 k2 g1' g2' (S lo) (pred hi) (S r)); try assumption; try lia. rewrite N1. lia.
Qed.

(** The fields before column [x0] agree until the light has been to [x0] and back. *)
Lemma no_news x0 l h n m g1 g2 g1' g2' lo hi r : agree AX x0 1 r g1 g2 -> (g_N g1 AX <= r)%nat ->
  (forall p c, in_grid (g_N g1) p -> (coord AX p < x0)%nat -> g_abs g1 p c = g_abs g2 p c /\ g_ie g1 p c = g_ie g2 p c /\ g_im g1 p c = g_im g2 p c) ->
  clear_between g1 l h -> clear_between g2 l h -> dark g1 lo hi -> dark g2 lo hi -> (l <= lo)%nat -> (hi <= S h)%nat ->
  (1 <= x0)%nat -> (n + lo <= x0 - 1)%nat -> (x0 <= hi - n)%nat -> run_steps (n + m) g1 = Ok g1' -> run_steps (n + m) g2 = Ok g2' ->
  forall p c, in_grid (g_N g1) p -> (coord AX p + m < x0)%nat -> g_E g1' p c = g_E g2' p c.
Proof.
  intros A Hr M C1 C2 D1 D2 L1 L2 X B1 B2 R1 R2 p c G L. rewrite run_steps_add in R1, R2.
  apply bind_ok in R1 as (k1 & P1 & R1). apply bind_ok in R2 as (k2 & P2 & R2).
  pose proof (keep_agreeing x0 l h n g1 g2 k1 k2 lo hi r A Hr M C1 C2 D1 D2 L1 L2 X B1 B2 P1 P2) as A1.
  pose proof (agree_run _ _ m _ _ _ _ _ _ A1 R1 R2) as (_ & _ & _ & _ & _ & AE & _).
  destruct (dark_run _ _ _ _ _ _ _ C1 D1 L1 L2 P1) as (C1' & _ & N1).
  destruct (Proof_Plane.run_frame m _ _ R1) as (N2 & _).
  apply AE. rewrite N2, N1. split; [exact G|]. right. lia.
Qed.
