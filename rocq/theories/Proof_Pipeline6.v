(** The logs of a TRCWA run hold finite numbers that are not negative. *)
From Coq Require Import Reals ZArith String List Bool Lra Lia.
From Verif Require Import Base BaseLemmas Cplx PyVal Spec_Config Model_Config Proof_Config Model_Materials Model_EpsGrid
  Model_Losses Proof_Losses Model_Layout Model_Networks Model_Start Proof_Start Proof_Start2 Model_Training Spec_Training Proof_Training
  Model_TRCWA Model_Modes Model_Dispatch Spec_Start Spec_Dispatch Proof_Dispatch2
  Model_Pipeline Spec_Pipeline Proof_Pipeline Proof_Pipeline2 Proof_Pipeline3 Proof_Pipeline4.
Import ListNotations.
Open Scope R_scope.
Open Scope string_scope.

Lemma loss_loop_nonneg L A : forall pR pT tR tT fs aR aT aA fl bR bT bA fl', 0 <= aR -> 0 <= aT -> 0 <= aA ->
  loss_loop L A pR pT tR tT fs (aR, aT, aA, fl) = (bR, bT, bA, fl') -> 0 <= bR /\ 0 <= bT /\ 0 <= bA.
Proof.
  induction pR as [|r pR IH]; intros [|t pT] [|r' tR] [|t' tT] [|f fs] aR aT aA fl bR bT bA fl' H1 H2 H3 H; cbn [loss_loop] in H;
    try (injection H as <- <- <- <-; auto; fail).
  destruct (renorm_point r t) as [[r2 t2] f2]. revert H. apply IH.
  - pose proof (tpow_nonneg (Rabs (r2 - r')) L). lra.
  - pose proof (tpow_nonneg (Rabs (t2 - t')) L). lra.
  - destruct A; [|exact H3]. pose proof (tpow_nonneg (Rabs ((1 - t2 - r2) - (1 - t' - r'))) L). lra.
Qed.

Lemma spectrum_loss_nonneg pR pT tR tT fs L A x b : spectrum_loss pR pT tR tT fs L A = Ok (x, b) -> 0 <= x.
Proof.
  unfold spectrum_loss. destruct (loss_loop _ _ _ _ _ _ _ _) as [[[aR aT] aA] fl] eqn:E.
  destruct (loss_loop_nonneg L A pR pT tR tT fs 0 0 0 false aR aT aA fl (Rle_refl _) (Rle_refl _) (Rle_refl _) E) as (P1 & P2 & P3).
  destruct pR as [|r pR]; [discriminate|]. assert (P : 0 < INR (length (r :: pR))) by (apply lt_0_INR; cbn; lia).
  revert P. generalize (INR (length (r :: pR))). intros N P. destruct A; intros H; injection H as <- _; unfold Rdiv; apply Rmult_le_pos; try lra; left; apply Rinv_0_lt_compat; lra.
Qed.

Lemma mean_nonneg l : (forall x, In x l -> 0 <= x) -> 0 <= Rmean l.
Proof.
  intros H. unfold Rmean, Rdiv.
  assert (S : 0 <= Rsum l) by (unfold Rsum; clear -H; induction l as [|a l IH]; cbn [fold_right]; [lra|pose proof (H a (or_introl eq_refl)); specialize (IH (fun x Hx => H x (or_intror Hx))); lra]).
  destruct l as [|a l]; [cbn; lra|]. apply Rmult_le_pos; [exact S|]. left. apply Rinv_0_lt_compat. apply lt_0_INR. cbn. lia.
Qed.

Lemma reg_loss_nonneg cells L : 0 <= reg_loss cells L.
Proof. apply mean_nonneg. intros x Hx. apply in_map_iff in Hx. destruct Hx as (p & <- & _). apply Rmin_glb; apply tpow_nonneg. Qed.

Lemma losses_nonneg c ids pR pT o : (forall w, get_real c "reg_loss_weight" = Ok w -> 0 < w) -> losses_of c ids pR pT = Ok o ->
  exists l l1 b, o = Done (Fin l) (Fin l1) b /\ 0 <= l /\ 0 <= l1.
Proof.
  intros Hw H. unfold losses_of in H.
  apply bind_ok in H as (tR & _ & H). apply bind_ok in H as (tT & _ & H). apply bind_ok in H as (fs & _ & H).
  apply bind_ok in H as (L & _ & H). apply bind_ok in H as (ab & _ & H). apply bind_ok in H as ([s sb] & E1 & H).
  apply bind_ok in H as ([l1 lb] & E2 & H). apply bind_ok in H as (ty & _ & H). apply bind_ok in H as (loss & El & H). injection H as <-.
  apply spectrum_loss_nonneg in E1. apply spectrum_loss_nonneg in E2. cbn [fst snd] in *. exists loss, l1, sb. split; [reflexivity|]. split; [|exact E2].
  destruct (py_eqb ty (VStr "classification")); [|injection El as <-; exact E1].
  apply bind_ok in El as (u & _ & El). destruct (truthy u); [|injection El as <-; exact E1].
  apply bind_ok in El as (w & W & El). destruct ids as [i|]; [|discriminate]. injection El as <-.
  pose proof (Hw w W). pose proof (reg_loss_nonneg (concat (concat i)) L). assert (0 <= w * reg_loss (concat (concat i)) L) by (apply Rmult_le_pos; lra). lra.
Qed.

Lemma sum_nonneg : forall l a, (forall f, In f l -> nonneg f) -> nonneg a -> nonneg (fold_left fadd l a).
Proof.
  induction l as [|f l IH]; intros a H Ha; [exact Ha|]. cbn [fold_left]. apply IH; [intros g Hg; apply H; right; exact Hg|].
  destruct Ha as (x & -> & Hx). destruct (H f (or_introl eq_refl)) as (y & -> & Hy). exists (x + y). cbn. split; [reflexivity|lra].
Qed.
Lemma fmean_nonneg l : (forall f, In f l -> nonneg f) -> nonneg (fmean l).
Proof.
  intros H. destruct (sum_nonneg l (Fin 0) H) as (x & E & Hx); [exists 0; split; [reflexivity|lra]|]. unfold fmean. rewrite E.
  exists (x * / INR (length l)). cbn. split; [reflexivity|]. destruct l as [|a l].
  - cbn in E. injection E as <-. lra.
  - apply Rmult_le_pos; [exact Hx|]. left. apply Rinv_0_lt_compat. apply lt_0_INR. cbn. lia.
Qed.

Section logs.
Context {W O : Type}.
Variables (evl : nat -> W -> outcome) (adam : nat -> W -> O -> R -> W * O) (w0 : W) (o0 : O) (lr : R) (n : nat).
Hypothesis D : forall it w l l1 b, evl it w = Done l l1 b -> nonneg l /\ nonneg l1.
Lemma logs_nonneg w ll wl l1 : run_training evl adam n w0 o0 lr = Ok (w, (ll, wl, l1)) -> forall f, In f ll \/ In f wl \/ In f l1 -> nonneg f.
Proof.
  intros E. pose proof (run_inv evl adam w0 o0 lr n w _ E) as (s & Hs & _ & El). injection El as -> -> ->.
  pose proof (inv_holds _ _ _ _ _ _ _ Hs) as I. pose proof (history_holds _ _ _ _ _ _ _ Hs) as Hh.
  assert (L : forall f, In f (losses (outf evl adam w0 o0 lr) n) -> nonneg f).
  { intros f Hf. apply in_losses in Hf. destruct Hf as (k & x & b & Hk & Ek). rewrite (h_out _ _ _ _ _ _ _ _ Hh k Hk) in Ek. exact (proj1 (D _ _ _ _ _ Ek)). }
  intros f [Hf|[Hf|Hf]].
  - rewrite (i_loss _ _ _ _ _ _ _ I) in Hf. exact (L f Hf).
  - rewrite (i_wavg _ _ _ _ _ _ _ I) in Hf. apply in_map_iff in Hf. destruct Hf as (i & <- & _). apply fmean_nonneg. intros g Hg. apply L.
    unfold lastn in Hg. assert (X : forall A (x : A) k l, In x (skipn k l) -> In x l) by (intros A x k l Hx; rewrite <- (firstn_skipn k l); apply in_or_app; right; exact Hx).
    assert (Y : forall A (x : A) k l, In x (firstn k l) -> In x l) by (intros A x k l Hx; rewrite <- (firstn_skipn k l); apply in_or_app; left; exact Hx).
    apply X in Hg. apply Y in Hg. exact Hg.
  - rewrite (i_l1 _ _ _ _ _ _ _ I) in Hf. unfold l1s in Hf. apply in_flat_map in Hf. destruct Hf as (k & Hk & Hf). apply in_seq in Hk.
    destruct (outf evl adam w0 o0 lr k) as [| |l l1 b] eqn:Ek; cbn in Hf; try tauto. destruct Hf as [<-|[]].
    rewrite (h_out _ _ _ _ _ _ _ _ Hh k) in Ek by lia. exact (proj2 (D _ _ _ _ _ Ek)).
Qed.
End logs.

Section runs.
Variables (argsort : list R -> list nat) (eig : eig_oracle) (nre nim noise : nat -> nat -> nat -> nat -> nat -> R)
  (odd : config -> option (grid4 R) -> list pyfloat -> list pyfloat -> outcome).
Context {O : Type}.
Variables (adam : nat -> model -> O -> R -> model * O) (o0 : O) (d : draws) (files : list mfile) (r r' : run) (m : model) (lr : R) (n : Z).
Hypothesis S0 : started d files r r' m lr n.
Notation tr := (train argsort eig nre nim noise odd adam o0 d files r).

Lemma weight_pos w : get_real (r_cfg r') "reg_loss_weight" = Ok w -> 0 < w.
Proof.
  pose proof (st_init _ _ _ _ _ _ _ S0) as E. destruct (start_valid _ _ _ _ E) as (_ & _ & _ & RO).
  destruct (ro_pos _ RO "reg_loss_weight") as (v & x & F1 & F2 & F3); [cbn; tauto|]. intros G.
  unfold get_real, getitem in G. rewrite (start_lookup _ _ _ _ _ E) in G by (cbn; intuition discriminate).
  unfold entry in F1. rewrite F1 in G. cbn [bind] in G. destruct v; cbn in F2, G; try discriminate; injection F2 as <-; cbn in G;
    inversion F3; subst; cbn in G; try discriminate; injection G as <-; assumption.
Qed.

Lemma trcwa_logs r2 ll wl l1 : entry (r_cfg r) "solver" (VStr "TRCWA") -> tr = Ok (r2, (ll, wl, l1)) ->
  forall f, In f ll \/ In f wl \/ In f l1 -> nonneg f.
Proof.
  intros Sv. rewrite (whole_run argsort eig nre nim noise odd adam o0 d files r r' m lr n S0).
  destruct (run_training _ adam (Z.to_nat n) m o0 lr) as [[w lg]|e] eqn:E; [|discriminate].
  intros H. assert (Hl : lg = (ll, wl, l1)) by congruence. subst lg. clear H. revert E. apply logs_nonneg.
  intros it x l l' b. unfold evaluate. destruct (grid_of_run _ _ _ _) as [[[g ids]|]|]; try discriminate.
  unfold compute_spectrum. cbn [bind].
  assert (S1 : solver_is (r_cfg r') "FDTD" = false /\ solver_is (r_cfg r') "TRCWA" = true).
  { unfold solver_is. rewrite (start_lookup _ _ _ _ _ (st_init _ _ _ _ _ _ _ S0)) by (cbn; intuition discriminate).
    unfold entry in Sv. rewrite Sv. split; reflexivity. }
  destruct S1 as [S1 S2]. rewrite S1, S2. destruct (has_nan (eps4_of g)); [discriminate|].
  destruct (read_trcwa (r_cfg r')) as [u|e]; cbn [bind]; [|destruct e; discriminate].
  destruct (compute_spectrum_trcwa argsort eig (eps4_of g) u) as [[rr tt]|e]; cbn [bind fst snd]; [|destruct e; discriminate].
  destruct (losses_of _ _ _ _) as [o|e] eqn:Lo; cbn [outcome_of]; [|discriminate].
  destruct (losses_nonneg _ _ _ _ _ weight_pos Lo) as (x1 & x2 & b' & -> & P1 & P2). intros X. injection X as <- <- _.
  split; eexists; split; try reflexivity; assumption.
Qed.
End runs.
