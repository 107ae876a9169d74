From Coq Require Import Reals ZArith List Bool Lra Lia.
From Verif Require Import Base BaseLemmas Model_FDTD Spec_FDTD Proof_FDTD Spec_Reverse.
Import ListNotations.
Open Scope R_scope.

Lemma pos_ext p q : (forall a, coord a p = coord a q) -> p = q.
Proof. intros H. destruct p as [[x y] z], q as [[x' y'] z']. pose proof (H AX). pose proof (H AY). pose proof (H AZ). cbn in *. congruence. Qed.
Lemma coord_setc a b x p : coord b (setc a x p) = if axis_eqb b a then x else coord b p.
Proof. destruct p as [[u v] w], a, b; reflexivity. Qed.
Lemma axis_eqb_spec a b : reflect (a = b) (axis_eqb a b).
Proof. destruct a, b; constructor; congruence. Qed.

(** * The copies of periodic boundaries *)
Section Copies.
  Variable N : shape3.
  Definition mvE (b : boundary) (p : pos) : pos := match b with Periodic a => if (coord a p =? 0)%nat then setc a (N a - 1) p else p | _ => p end.
  Definition mvH (b : boundary) (p : pos) : pos := match b with Periodic a => if (coord a p =? N a - 1)%nat then setc a 0%nat p else p | _ => p end.
  Definition mvsE (bs : list boundary) (p : pos) : pos := fold_right mvE p bs.
  Definition mvsH (bs : list boundary) (p : pos) : pos := fold_right mvH p bs.

  Lemma foldE co ie bs : no_pml bs -> forall F p c, fold_left (fun E b => boundary_update_E N co ie b E) bs F p c = F (mvsE bs p) c.
  Proof.
    induction bs as [|b r IH]; intros Hn F p c; [reflexivity|]. inversion Hn as [|? ? Hb Hr]; subst. cbn [fold_left]. rewrite IH by exact Hr. cbn [mvsE fold_right].
    destruct b; try contradiction; cbn [boundary_update_E mvE]; try reflexivity. fold (mvsE r p). destruct (coord a (mvsE r p) =? 0)%nat; reflexivity.
  Qed.
  Lemma foldH co im bs : no_pml bs -> forall F p c, fold_left (fun H b => boundary_update_H N co im b H) bs F p c = F (mvsH bs p) c.
  Proof.
    induction bs as [|b r IH]; intros Hn F p c; [reflexivity|]. inversion Hn as [|? ? Hb Hr]; subst. cbn [fold_left]. rewrite IH by exact Hr. cbn [mvsH fold_right].
    destruct b; try contradiction; cbn [boundary_update_H mvH]; try reflexivity. fold (mvsH r p). destruct (coord a (mvsH r p) =? N a - 1)%nat; reflexivity.
  Qed.

  Definition per (bs : list boundary) (a : axis) : bool := existsb (is_periodic a) bs.
  Lemma coord_mvsE bs p a : in_grid N p -> coord a (mvsE bs p) = if per bs a && (coord a p =? 0)%nat then (N a - 1)%nat else coord a p.
  Proof.
    intros Hp. pose proof (Hp a) as Ha. induction bs as [|b r IH]; [reflexivity|]. cbn [mvsE fold_right]. fold (mvsE r p). unfold per. cbn [existsb]. fold (per r a).
    destruct b as [a'| | |]; cbn [mvE is_periodic]; try exact IH. destruct (axis_eqb_spec a a') as [<-|Ne]; cbn [orb].
    - destruct (Nat.eqb_spec (coord a (mvsE r p)) 0) as [Z|Z].
      + rewrite coord_setc. destruct (axis_eqb_spec a a); [|congruence]. destruct (per r a); cbn [andb] in *; destruct (Nat.eqb_spec (coord a p) 0); lia.
      + destruct (per r a); cbn [andb] in *; destruct (Nat.eqb_spec (coord a p) 0); lia.
    - destruct (coord a' (mvsE r p) =? 0)%nat; [|exact IH]. rewrite coord_setc. destruct (axis_eqb_spec a a'); [congruence|exact IH].
  Qed.
  Lemma coord_mvsH bs p a : in_grid N p -> coord a (mvsH bs p) = if per bs a && (coord a p =? N a - 1)%nat then 0%nat else coord a p.
  Proof.
    intros Hp. pose proof (Hp a) as Ha. induction bs as [|b r IH]; [reflexivity|]. cbn [mvsH fold_right]. fold (mvsH r p). unfold per. cbn [existsb]. fold (per r a).
    destruct b as [a'| | |]; cbn [mvH is_periodic]; try exact IH. destruct (axis_eqb_spec a a') as [<-|Ne]; cbn [orb].
    - destruct (Nat.eqb_spec (coord a (mvsH r p)) (N a - 1)) as [Z|Z].
      + rewrite coord_setc. destruct (axis_eqb_spec a a); [|congruence]. destruct (per r a); cbn [andb] in *; destruct (Nat.eqb_spec (coord a p) (N a - 1)); lia.
      + destruct (per r a); cbn [andb] in *; destruct (Nat.eqb_spec (coord a p) (N a - 1)); lia.
    - destruct (coord a' (mvsH r p) =? N a' - 1)%nat; [|exact IH]. rewrite coord_setc. destruct (axis_eqb_spec a a'); [congruence|exact IH].
  Qed.
  Lemma grid_mvsE bs p : in_grid N p -> in_grid N (mvsE bs p).
  Proof. intros Hp a. rewrite coord_mvsE by exact Hp. pose proof (Hp a). destruct (_ && _); lia. Qed.
  Lemma grid_mvsH bs p : in_grid N p -> in_grid N (mvsH bs p).
  Proof. intros Hp a. rewrite coord_mvsH by exact Hp. pose proof (Hp a). destruct (_ && _); lia. Qed.
  Lemma grid_setc a x p : in_grid N p -> (x < N a)%nat -> in_grid N (setc a x p).
  Proof. intros Hp Hx b. rewrite coord_setc. destruct (axis_eqb_spec b a) as [->|]; [exact Hx|apply Hp]. Qed.
  Lemma setc_same a p : setc a (coord a p) p = p.
  Proof. apply pos_ext. intros b. rewrite coord_setc. destruct (axis_eqb_spec b a) as [->|]; reflexivity. Qed.
  Lemma setc_twice a x y p : setc a x (setc a y p) = setc a x p.
  Proof. apply pos_ext. intros b. rewrite !coord_setc. destruct (axis_eqb_spec b a) as [->|]; reflexivity. Qed.

  (** a field whose periodic faces agree is not changed *)
  Lemma okE bs F : periodic_ok (periodic_on bs N) N F -> forall p c, in_grid N p -> F (mvsE bs p) c = F p c.
  Proof.
    intros K p c Hp.
    assert (G : forall l, (forall a, per l a = true -> per bs a = true) -> F (mvsE l p) c = F p c).
    { induction l as [|b r IH]; intros Hl; [reflexivity|]. cbn [mvsE fold_right]. fold (mvsE r p).
      assert (Hr : forall a, per r a = true -> per bs a = true). { intros a H. apply Hl. unfold per in *. cbn [existsb]. rewrite H. apply orb_true_r. }
      specialize (IH Hr). destruct b as [a| | |]; cbn [mvE]; try exact IH. destruct (Nat.eqb_spec (coord a (mvsE r p)) 0) as [Z|Z]; [|exact IH].
      rewrite <- IH. pose proof (grid_mvsE r p Hp) as Hq. destruct (Nat.ltb_spec 1 (N a)) as [L|L].
      - symmetry. apply K; [|exact Hq|exact Z]. unfold periodic_on. apply andb_true_iff. split; [|apply Nat.ltb_lt; exact L]. apply (Hl a). unfold per. cbn [existsb is_periodic]. destruct (axis_eqb_spec a a); [reflexivity|congruence].
      - f_equal. rewrite <- (setc_same a (mvsE r p)) at 2. f_equal. lia. }
    apply G. auto.
  Qed.
  Lemma okH bs F : periodic_ok (periodic_on bs N) N F -> forall p c, in_grid N p -> F (mvsH bs p) c = F p c.
  Proof.
    intros K p c Hp.
    assert (G : forall l, (forall a, per l a = true -> per bs a = true) -> F (mvsH l p) c = F p c).
    { induction l as [|b r IH]; intros Hl; [reflexivity|]. cbn [mvsH fold_right]. fold (mvsH r p).
      assert (Hr : forall a, per r a = true -> per bs a = true). { intros a H. apply Hl. unfold per in *. cbn [existsb]. rewrite H. apply orb_true_r. }
      specialize (IH Hr). destruct b as [a| | |]; cbn [mvH]; try exact IH. destruct (Nat.eqb_spec (coord a (mvsH r p)) (N a - 1)) as [Z|Z]; [|exact IH].
      rewrite <- IH. pose proof (grid_mvsH r p Hp) as Hq. set (q := mvsH r p) in *. pose proof (Hq a) as Qa. destruct (Nat.ltb_spec 1 (N a)) as [L|L].
      - rewrite (K a) with (p := setc a 0%nat q); [| |apply grid_setc; [exact Hq|lia]|rewrite coord_setc; destruct (axis_eqb_spec a a); [reflexivity|congruence]].
        + rewrite setc_twice, <- Z, setc_same. reflexivity.
        + unfold periodic_on. apply andb_true_iff. split; [|apply Nat.ltb_lt; exact L]. apply (Hl a). unfold per. cbn [existsb is_periodic]. destruct (axis_eqb_spec a a); [reflexivity|congruence].
      - f_equal. rewrite <- (setc_same a q) at 2. f_equal. lia. }
    apply G. auto.
  Qed.
  (** and after the copies the faces agree *)
  Lemma copiedE bs (F : field) : periodic_ok (periodic_on bs N) N (fun p c => F (mvsE bs p) c).
  Proof.
    intros a Ha p c Hp Z. unfold periodic_on in Ha. apply andb_true_iff in Ha as [Pa L]. apply Nat.ltb_lt in L. f_equal. fold (per bs a) in Pa.
    assert (Hq : in_grid N (setc a (N a - 1) p)) by (apply grid_setc; [exact Hp|lia]).
    apply pos_ext. intros b. rewrite !coord_mvsE by assumption. rewrite coord_setc. destruct (axis_eqb_spec b a) as [->|]; [|reflexivity].
    rewrite Z, Pa. cbn [andb Nat.eqb]. destruct (Nat.eqb_spec (N a - 1) 0); lia.
  Qed.
  Lemma copiedH bs (F : field) : periodic_ok (periodic_on bs N) N (fun p c => F (mvsH bs p) c).
  Proof.
    intros a Ha p c Hp Z. unfold periodic_on in Ha. apply andb_true_iff in Ha as [Pa L]. apply Nat.ltb_lt in L. f_equal. fold (per bs a) in Pa.
    assert (Hq : in_grid N (setc a (N a - 1) p)) by (apply grid_setc; [exact Hp|lia]).
    apply pos_ext. intros b. rewrite !coord_mvsH by assumption. rewrite coord_setc. destruct (axis_eqb_spec b a) as [->|]; [|reflexivity].
    rewrite Z, Pa, Nat.eqb_refl. cbn [andb]. destruct (Nat.eqb_spec 0 (N a - 1)); lia.
  Qed.
  (** the cells copied from are not copied to *)
  Lemma mvsE_idem bs p : in_grid N p -> mvsE bs (mvsE bs p) = mvsE bs p.
  Proof.
    intros Hp. pose proof (grid_mvsE bs p Hp) as Hq. apply pos_ext. intros a. rewrite coord_mvsE by exact Hq. rewrite coord_mvsE by exact Hp. pose proof (Hp a).
    destruct (per bs a); cbn [andb]; [|reflexivity]. destruct (Nat.eqb_spec (coord a p) 0) as [z|z]; [destruct (N a - 1 =? 0)%nat; reflexivity|]. destruct (Nat.eqb_spec (coord a p) 0); lia.
  Qed.
  Lemma mvsH_idem bs p : in_grid N p -> mvsH bs (mvsH bs p) = mvsH bs p.
  Proof.
    intros Hp. pose proof (grid_mvsH bs p Hp) as Hq. apply pos_ext. intros a. rewrite coord_mvsH by exact Hq. rewrite coord_mvsH by exact Hp. pose proof (Hp a).
    destruct (per bs a); cbn [andb]; [|reflexivity]. destruct (Nat.eqb_spec (coord a p) (N a - 1)) as [z|z]; [destruct (0 =? N a - 1)%nat; reflexivity|]. destruct (Nat.eqb_spec (coord a p) (N a - 1)); lia.
  Qed.

  (** * Curls look at cells of the grid only *)
  Lemma curl_E_same A B : same_field N A B -> same_field N (curl_E N A) (curl_E N B).
  Proof.
    intros Sf p c Hp. assert (D : forall b d, dfwd N A b d p = dfwd N B b d p).
    { intros b d. unfold dfwd. destruct (Nat.ltb_spec (S (coord b p)) (N b)) as [L|L]; [|reflexivity]. rewrite !Sf; [reflexivity|exact Hp|apply grid_setc; [exact Hp|lia]]. }
    destruct c; cbn [curl_E]; rewrite !D; reflexivity.
  Qed.
  Lemma curl_H_same A B : same_field N A B -> same_field N (curl_H A) (curl_H B).
  Proof.
    intros Sf p c Hp. assert (D : forall b d, dbwd A b d p = dbwd B b d p).
    { intros b d. unfold dbwd. destruct (Nat.leb_spec 1 (coord b p)) as [L|L]; [|reflexivity]. pose proof (Hp b). rewrite !Sf; [reflexivity|apply grid_setc; [exact Hp|lia]|exact Hp]. }
    destruct c; cbn [curl_H]; rewrite !D; reflexivity.
  Qed.
  Lemma curl_H_opp A p c : curl_H (fun q d => - A q d) p c = - curl_H A p c.
  Proof. assert (D : forall b d, dbwd (fun q d => - A q d) b d p = - dbwd A b d p) by (intros b d; unfold dbwd; destruct (1 <=? coord b p)%nat; ring). destruct c; cbn [curl_H]; rewrite !D; ring. Qed.
End Copies.


(** * One step *)
Lemma half_E g g1 : no_pml (g_boundaries g) -> quiet_from (g_steps g) g -> update_E g = Ok g1 ->
  (forall p c, g_E g1 p c = bulk_E g (mvsE (g_N g) (g_boundaries g) p) c) /\ g_H g1 = g_H g
  /\ same_static g g1 /\ g_boundaries g1 = g_boundaries g /\ g_steps g1 = g_steps g.
Proof.
  intros Hn Q U. apply update_E_inv in U as (bs & E3 & ds & Hb & Hs & Hd & ->). rewrite (no_pml_phi_E _ _ _ Hn) in Hb. injection Hb as <-.
  rewrite (proj1 (Q (g_steps g) _ (Nat.le_refl _))) in Hs. injection Hs as <-.
  split; [|repeat split]. intros p c. cbn [with_fields g_E]. apply foldE. exact Hn.
Qed.
Lemma half_H g g1 : no_pml (g_boundaries g) -> quiet_from (g_steps g) g -> update_H g = Ok g1 ->
  (forall p c, g_H g1 p c = bulk_H g (mvsH (g_N g) (g_boundaries g) p) c) /\ g_E g1 = g_E g
  /\ same_static g g1 /\ g_boundaries g1 = g_boundaries g /\ g_steps g1 = g_steps g.
Proof.
  intros Hn Q U. apply update_H_inv in U as (bs & E3 & ds & Hb & Hs & Hd & ->). rewrite (no_pml_phi_H _ _ _ Hn) in Hb. injection Hb as <-.
  rewrite (proj2 (Q (g_steps g) _ (Nat.le_refl _))) in Hs. injection Hs as <-.
  split; [|repeat split]. intros p c. cbn [with_fields g_H]. apply foldH. exact Hn.
Qed.
Lemma quiet_static q g h : same_static g h -> quiet_from q g -> quiet_from q h.
Proof. intros S Q. static S. intros n F L. rewrite SN, Ssr. apply Q. exact L. Qed.
Lemma quiet_later q q' g : (q <= q')%nat -> quiet_from q g -> quiet_from q' g.
Proof. intros L Q n F K. apply Q. lia. Qed.

Lemma whole_step g g1 : no_pml (g_boundaries g) -> quiet_from (g_steps g) g -> step g = Ok g1 ->
  let N := g_N g in let bs := g_boundaries g in
  (forall p c, g_E g1 p c = bulk_E g (mvsE N bs p) c)
  /\ (forall p c, g_H g1 p c = g_H g (mvsH N bs p) c - g_courant g * g_im g (mvsH N bs p) c * curl_E N (g_E g1) (mvsH N bs p) c)
  /\ same_static g g1 /\ g_boundaries g1 = bs /\ g_steps g1 = S (g_steps g).
Proof.
  intros Hn Q U N bs. apply step_inv in U as (h & k & UE & UH & ->).
  destruct (half_E _ _ Hn Q UE) as (E1 & H1 & S1 & B1 & T1).
  assert (Hn1 : no_pml (g_boundaries h)) by (rewrite B1; exact Hn). assert (Q1 : quiet_from (g_steps h) h) by (rewrite T1; eapply quiet_static; eassumption).
  destruct (half_H _ _ Hn1 Q1 UH) as (H2 & E2 & S2 & B2 & T2).
  assert (SS : same_static g k) by (eapply same_static_trans; eassumption).
  cbn [with_fields g_E g_H g_steps g_boundaries]. split; [intros p c; rewrite E2; apply E1|]. split.
  - intros p c. rewrite H2. unfold bulk_H. rewrite E2. destruct S1 as (SN & Ssp & Sco & Sts & Sab & Sie & Sim & Ssr & Sob & Sat). rewrite H1, SN, Sco, Sim, B1. reflexivity.
  - split; [exact SS|]. split; [unfold bs; congruence|congruence].
Qed.

Lemma tidy_step g g1 : tidy g -> step g = Ok g1 -> tidy g1.
Proof.
  intros (Hn & Q & KE & KH) U. destruct (whole_step _ _ Hn Q U) as (E1 & H1 & SS & B & T). pose proof SS as S'. static S'.
  split; [rewrite B; exact Hn|]. split; [rewrite T; eapply quiet_static; [exact SS|]; eapply quiet_later; [|exact Q]; lia|]. rewrite B, SN. split.
  - intros a Ha p c Hp Z. rewrite !E1. exact (copiedE _ _ (bulk_E g) a Ha p c Hp Z).
  - intros a Ha p c Hp Z. rewrite !H1. exact (copiedH _ _ (fun p c => g_H g p c - g_courant g * g_im g p c * curl_E (g_N g) (g_E g1) p c) a Ha p c Hp Z).
Qed.
Lemma tidy_run n : forall g g', tidy g -> run_steps n g = Ok g' -> tidy g'.
Proof. induction n as [|n IH]; intros g g' T R; cbn in R; [injection R as <-; exact T|]. apply bind_ok in R as (h & U & R). exact (IH _ _ (tidy_step _ _ T U) R). Qed.

(** * Backwards *)
Definition undone (g h : grid) : Prop :=
  same_static g h /\ g_boundaries h = g_boundaries g /\ (g_steps g <= g_steps h)%nat
  /\ same_field (g_N g) (g_E h) (g_E g) /\ same_field (g_N g) (g_H h) (fun p c => - g_H g p c).
Lemma no_loss_static g h : same_static g h -> same_field (g_N g) (g_abs g) (fun _ _ => 0) -> same_field (g_N h) (g_abs h) (fun _ _ => 0).
Proof. intros S. static S. rewrite SN, Sab. auto. Qed.

Lemma back_one g g1 h k l : tidy g -> same_field (g_N g) (g_abs g) (fun _ _ => 0) -> step g = Ok g1 -> undone g1 h ->
  update_H h = Ok k -> update_E k = Ok l -> undone g l.
Proof.
  intros T A U (SS & Bh & Th & Eh & Hh) UH UE. pose proof (tidy_step _ _ T U) as T1. destruct T as (Hn & Q & KE & KH).
  destruct (whole_step _ _ Hn Q U) as (E1 & H1 & S1 & B1 & C1). pose proof S1 as S1'. static S1'.
  assert (Sh : same_static g h) by (eapply same_static_trans; eassumption).
  assert (Hnh : no_pml (g_boundaries h)) by (rewrite Bh, B1; exact Hn).
  assert (Qh : quiet_from (g_steps h) h) by (eapply quiet_static; [exact Sh|]; eapply quiet_later; [|exact Q]; lia).
  destruct (half_H _ _ Hnh Qh UH) as (H2 & E2 & S2 & B2 & C2).
  assert (Hnk : no_pml (g_boundaries k)) by (rewrite B2; exact Hnh).
  assert (Qk : quiet_from (g_steps k) k) by (rewrite C2; eapply quiet_static; eassumption).
  destruct (half_E _ _ Hnk Qk UE) as (E3 & H3 & S3 & B3 & C3).
  assert (Sk : same_static g k) by (eapply same_static_trans; eassumption).
  assert (Sl : same_static g l) by (eapply same_static_trans; eassumption).
  rewrite SN in Eh, Hh.
  assert (GH : same_field (g_N g) (g_H k) (fun p c => - g_H g p c)).
  { intros p c Hp. rewrite H2. pose proof Sh as Sh'. destruct Sh' as (hN & _ & hco & _ & _ & _ & him & _). unfold bulk_H. rewrite hN, hco, him, Bh, B1.
    set (q := mvsH (g_N g) (g_boundaries g) p). assert (Hq : in_grid (g_N g) q) by (apply grid_mvsH; exact Hp).
    rewrite (Hh q c Hq), (curl_E_same _ _ _ Eh q c Hq), H1.
    replace (mvsH (g_N g) (g_boundaries g) q) with q by (symmetry; apply mvsH_idem; exact Hp).
    rewrite <- (okH (g_N g) (g_boundaries g) (g_H g) KH p c Hp). fold q. ring. }
  split; [exact Sl|]. split; [congruence|]. split; [lia|]. split; [|rewrite H3; exact GH].
  intros p c Hp. rewrite E3. destruct Sk as (kN & _ & kco & _ & kab & kie & _). unfold bulk_E. rewrite kN, kco, kab, kie, B2, Bh, B1, E2.
  set (q := mvsE (g_N g) (g_boundaries g) p). assert (Hq : in_grid (g_N g) q) by (apply grid_mvsE; exact Hp).
  rewrite (Eh q c Hq), (curl_H_same _ _ _ GH q c Hq), curl_H_opp, E1.
  replace (mvsE (g_N g) (g_boundaries g) q) with q by (symmetry; apply mvsE_idem; exact Hp). unfold bulk_E.
  rewrite (A q c Hq), <- (okE (g_N g) (g_boundaries g) (g_E g) KE p c Hp). fold q. field.
Qed.

Lemma back_last n : forall g, back (S n) g = bind (back n g) (fun g => bind (update_H g) update_E).
Proof.
  induction n as [|n IH]; intros g.
  - cbn. destruct (update_H g); [|reflexivity]. cbn. destruct (update_E _); reflexivity.
  - change (back (S (S n)) g) with (bind (update_H g) (fun h => bind (update_E h) (back (S n)))).
    change (back (S n) g) with (bind (update_H g) (fun h => bind (update_E h) (back n))).
    destruct (update_H g) as [h|]; [|reflexivity]. cbn [bind]. destruct (update_E h) as [k|]; [|reflexivity]. cbn [bind]. apply IH.
Qed.
Lemma run_back_und n : forall g g' g'', tidy g -> same_field (g_N g) (g_abs g) (fun _ _ => 0) -> run_steps n g = Ok g' -> back n (turned g') = Ok g'' -> undone g g''.
Proof.
  induction n as [|n IH]; intros g g' g'' T A R B.
  - cbn in R, B. injection R as <-. injection B as <-. repeat split; auto.
  - rewrite back_last in B. apply bind_ok in B as (h & B & L). apply bind_ok in L as (k & UH & UE). cbn in R. apply bind_ok in R as (g1 & U & R).
    pose proof (tidy_step _ _ T U) as T1. pose proof (step_static _ _ U) as [S1 _].
    pose proof (IH _ _ _ T1 (no_loss_static _ _ S1 A) R B) as D. exact (back_one _ _ _ _ _ T A U D UH UE).
Qed.
Lemma run_back n g g' g'' : tidy g -> same_field (g_N g) (g_abs g) (fun _ _ => 0) -> run_steps n g = Ok g' -> back n (turned g') = Ok g'' ->
  same_field (g_N g) (g_E g'') (g_E g) /\ same_field (g_N g) (g_H g'') (fun p c => - g_H g p c).
Proof. intros T A R B. destruct (run_back_und _ _ _ _ T A R B) as (_ & _ & _ & H). exact H. Qed.

(** a grid without detectors can be run back *)
Lemma back_ok n : forall g, no_pml (g_boundaries g) -> quiet_from (g_steps g) g -> g_detectors g = [] -> exists g', back n g = Ok g'.
Proof.
  induction n as [|n IH]; intros g Hn Q D; cbn [back]; [eauto|].
  unfold update_H at 1. rewrite (no_pml_phi_H _ _ _ Hn). cbn [bind]. rewrite (proj2 (Q (g_steps g) _ (Nat.le_refl _))), D. cbn [bind map_res].
  match goal with |- context [update_E ?x] => set (h := x) end.
  unfold update_E. change (g_boundaries h) with (g_boundaries g). rewrite (no_pml_phi_E _ _ _ Hn). cbn [bind].
  change (g_sources h) with (g_sources g). change (g_steps h) with (g_steps g). change (g_N h) with (g_N g). rewrite (proj1 (Q (g_steps g) _ (Nat.le_refl _))). cbn [bind].
  change (g_detectors h) with (@nil detector). cbn [bind map_res]. apply IH; [exact Hn|exact Q|reflexivity].
Qed.
Lemma step_detectors g g1 : g_detectors g = [] -> step g = Ok g1 -> g_detectors g1 = [].
Proof.
  intros D U. apply step_inv in U as (h & k & UE & UH & ->). apply update_E_inv in UE as (bs & E3 & ds & _ & _ & Hd & ->). rewrite D in Hd. injection Hd as <-.
  apply update_H_inv in UH as (bs' & H3 & ds' & _ & _ & Hd & ->). cbn in Hd. injection Hd as <-. reflexivity.
Qed.
Lemma run_detectors n : forall g g1, g_detectors g = [] -> run_steps n g = Ok g1 -> g_detectors g1 = [].
Proof. induction n as [|n IH]; intros g g1 D R; cbn in R; [injection R as <-; exact D|]. apply bind_ok in R as (h & U & R). exact (IH _ _ (step_detectors _ _ D U) R). Qed.
Lemma run_back_exists n g g' : tidy g -> same_field (g_N g) (g_abs g) (fun _ _ => 0) -> g_detectors g = [] -> run_steps n g = Ok g' ->
  exists g'', back n (turned g') = Ok g'' /\ same_field (g_N g) (g_E g'') (g_E g) /\ same_field (g_N g) (g_H g'') (fun p c => - g_H g p c).
Proof.
  intros T A D R. pose proof (tidy_run _ _ _ T R) as (Hn & Q & _). destruct (back_ok n (turned g')) as [g'' B]; [exact Hn|exact Q|exact (run_detectors _ _ _ D R)|].
  exists g''. split; [exact B|]. exact (run_back _ _ _ _ T A R B).
Qed.

(** * Different fields stay different *)
Lemma distinct_step g h g1 h1 : tidy g -> tidy h -> same_setup g h ->
  (forall p c, in_grid (g_N g) p -> g_abs g p c <> 1 /\ g_abs g p c <> -1) ->
  step g = Ok g1 -> step h = Ok h1 -> same_field (g_N g) (g_E h1) (g_E g1) -> same_field (g_N g) (g_H h1) (g_H g1) ->
  same_field (g_N g) (g_E h) (g_E g) /\ same_field (g_N g) (g_H h) (g_H g).
Proof.
  intros (Hn & Q & KE & KH) (Hn' & Q' & KE' & KH') (SN & Sc & SB & Se & Sm & Sa) A U U' EE HH.
  destruct (whole_step _ _ Hn Q U) as (E1 & H1 & _). destruct (whole_step _ _ Hn' Q' U') as (E1' & H1' & _). rewrite SN, SB in *.
  assert (GH : same_field (g_N g) (g_H h) (g_H g)).
  { intros p c Hp. rewrite <- (okH _ _ _ KH p c Hp), <- (okH _ _ _ KH' p c Hp). set (q := mvsH (g_N g) (g_boundaries g) p).
    assert (Hq : in_grid (g_N g) q) by (apply grid_mvsH; exact Hp). pose proof (HH q c Hq) as J. rewrite H1, H1' in J.
    replace (mvsH (g_N g) (g_boundaries g) q) with q in J by (symmetry; apply mvsH_idem; exact Hp).
    rewrite (curl_E_same _ _ _ EE q c Hq), Sc, (Sm q c Hq) in J. lra. }
  split; [|exact GH]. intros p c Hp. rewrite <- (okE _ _ _ KE p c Hp), <- (okE _ _ _ KE' p c Hp). set (q := mvsE (g_N g) (g_boundaries g) p).
  assert (Hq : in_grid (g_N g) q) by (apply grid_mvsE; exact Hp). pose proof (EE q c Hq) as J. rewrite E1, E1' in J.
  replace (mvsE (g_N g) (g_boundaries g) q) with q in J by (symmetry; apply mvsE_idem; exact Hp).
  unfold bulk_E in J. rewrite (curl_H_same _ _ _ GH q c Hq), Sc, (Se q c Hq), (Sa q c Hq) in J. destruct (A q c Hq) as [A1 A2].
  assert (W : (1 - g_abs g q c) / (1 + g_abs g q c) <> 0). { unfold Rdiv. apply Rmult_integral_contrapositive_currified; [lra|]. apply Rinv_neq_0_compat. lra. }
  apply (Rmult_eq_reg_r ((1 - g_abs g q c) / (1 + g_abs g q c))); [|exact W]. lra.
Qed.
Lemma setup_step g h g1 h1 : tidy g -> tidy h -> same_setup g h -> step g = Ok g1 -> step h = Ok h1 -> same_setup g1 h1.
Proof.
  intros (Hn & Q & _) (Hn' & Q' & _) (SN & Sc & SB & Se & Sm & Sa) U U'.
  destruct (whole_step _ _ Hn Q U) as (_ & _ & (a1 & _ & a2 & _ & a3 & a4 & a5 & _) & a6 & _).
  destruct (whole_step _ _ Hn' Q' U') as (_ & _ & (b1 & _ & b2 & _ & b3 & b4 & b5 & _) & b6 & _).
  unfold same_setup. rewrite a1, a2, a3, a4, a5, a6, b1, b2, b3, b4, b5, b6. repeat split; assumption.
Qed.
Lemma distinct n : forall g h g1 h1, tidy g -> tidy h -> same_setup g h ->
  (forall p c, in_grid (g_N g) p -> g_abs g p c <> 1 /\ g_abs g p c <> -1) ->
  run_steps n g = Ok g1 -> run_steps n h = Ok h1 -> same_field (g_N g) (g_E h1) (g_E g1) -> same_field (g_N g) (g_H h1) (g_H g1) ->
  same_field (g_N g) (g_E h) (g_E g) /\ same_field (g_N g) (g_H h) (g_H g).
Proof.
  induction n as [|n IH]; intros g h g1 h1 T T' S A R R' EE HH; cbn in R, R'.
  - injection R as <-. injection R' as <-. split; assumption.
  - apply bind_ok in R as (k & U & R). apply bind_ok in R' as (k' & U' & R'). pose proof (step_static _ _ U) as [SS _]. destruct SS as (kN & _ & _ & _ & kab & _).
    destruct (IH k k' g1 h1) as [G1 G2]; [exact (tidy_step _ _ T U)|exact (tidy_step _ _ T' U')|exact (setup_step _ _ _ _ T T' S U U')| |exact R|exact R'|rewrite kN; exact EE|rewrite kN; exact HH|].
    + rewrite kN, kab. exact A.
    + rewrite kN in G1, G2. exact (distinct_step _ _ _ _ T T' S A U U' G1 G2).
Qed.

(** at one loss the electric field is forgotten *)
Lemma forgets g h g1 h1 : tidy g -> tidy h -> same_setup g h -> same_field (g_N g) (g_abs g) (fun _ _ => 1) -> same_field (g_N g) (g_H h) (g_H g) ->
  step g = Ok g1 -> step h = Ok h1 -> same_field (g_N g) (g_E h1) (g_E g1) /\ same_field (g_N g) (g_H h1) (g_H g1).
Proof.
  intros (Hn & Q & _) (Hn' & Q' & _) (SN & Sc & SB & Se & Sm & Sa) A HH U U'.
  destruct (whole_step _ _ Hn Q U) as (E1 & H1 & _). destruct (whole_step _ _ Hn' Q' U') as (E1' & H1' & _). rewrite SN, SB in *.
  assert (EE : same_field (g_N g) (g_E h1) (g_E g1)).
  { intros p c Hp. rewrite E1, E1'. set (q := mvsE (g_N g) (g_boundaries g) p). assert (Hq : in_grid (g_N g) q) by (apply grid_mvsE; exact Hp).
    unfold bulk_E. rewrite (curl_H_same _ _ _ HH q c Hq), Sc, (Se q c Hq), (Sa q c Hq), (A q c Hq). field. }
  split; [exact EE|]. intros p c Hp. rewrite H1, H1'. set (q := mvsH (g_N g) (g_boundaries g) p). assert (Hq : in_grid (g_N g) q) by (apply grid_mvsH; exact Hp).
  rewrite (HH q c Hq), Sc, (Sm q c Hq), (curl_E_same _ _ _ EE q c Hq). reflexivity.
Qed.
