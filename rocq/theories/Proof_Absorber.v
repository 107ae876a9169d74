(** The absorbing layers as convolutions over the history of a run. *)
From Coq Require Import Reals ZArith String List Bool Lra Lia Psatz.
From Verif Require Import Base BaseLemmas Model_FDTD Model_Register Spec_FDTD Spec_Absorber Proof_FDTD.
Import ListNotations.
Open Scope R_scope.

Lemma Rsum_scale {A} (f : A -> R) b l : Rsum (map (fun x => f x * b) l) = Rsum (map f l) * b.
Proof. induction l as [|x l IH]; unfold Rsum in *; cbn [map fold_right]; [lra|rewrite IH; lra]. Qed.

(** The memory before step k. *)
Fixpoint held (b c : R) (d : nat -> R) (k : nat) : R :=
  match k with O => 0 | S j => held b c d j * b + c * d j end.
Lemma held_remembered b c d n : held b c d (S n) = remembered b c d n.
Proof.
  unfold remembered. induction n as [|n IH].
  - cbn. ring.
  - rewrite seq_S, map_app, Rsum_app. change (held b c d (S (S n))) with (held b c d (S n) * b + c * d (S n)).
    rewrite IH. f_equal.
    + rewrite <- Rsum_scale. f_equal. apply map_ext_in. intros j Hj. apply in_seq in Hj.
      replace (S n - j)%nat with (S (n - j)) by lia. cbn. ring.
    + cbn [map Rsum plus]. replace (0 + S n)%nat with (S n) by lia. rewrite Nat.sub_diag. cbn. lra.
Qed.
Lemma held_ext b c d d' k : (forall j, (j < k)%nat -> d j = d' j) -> held b c d k = held b c d' k.
Proof.
  induction k as [|k IH]; intros H; [reflexivity|]. cbn. rewrite IH, H by (intros; auto with arith). reflexivity.
Qed.

Definition pml_of (co : R) (l : absorber) : pml := make_pml (b_axis l) (b_high l) (b_depth l) (b_stability l) co.

(** The component the derivative along [ax] of which enters component [x]. *)
Definition third (x d : axis) : axis :=
  match x, d with
  | AX, AY | AY, AX => AZ | AX, AZ | AZ, AX => AY | AY, AZ | AZ, AY => AX | _, _ => x end.

Section History.
Variable h : nat -> grid.
Let N := g_N (h 0%nat).
Let co := g_courant (h 0%nat).

Definition cell_of (l : absorber) (q : pos) : pos :=
  setc (b_axis l) (coord (b_axis l) q + first_cell N l)%nat q.
Definition memE (l : absorber) (k : nat) (q : pos) (d : axis) : R :=
  let p := cell_of l q in let s := electric_loss N l p in
  held (fade co l s) (uptake co l s) (fun j => backward N l (g_H (h j)) d p) k.
Definition memH (l : absorber) (k : nat) (q : pos) (d : axis) : R :=
  let p := cell_of l q in let s := magnetic_loss N l p in
  held (fade co l s) (uptake co l s) (fun j => forward N l (g_E (h (S j))) d p) k.

(** A layer whose electric memory holds kE steps and magnetic memory kH. *)
Definition tracks (kE kH : nat) (l : absorber) (b : boundary) : Prop :=
  exists pm, b = PMLb pm /\ p_axis pm = b_axis l /\ p_high pm = b_high l /\ p_thick pm = b_depth l
  /\ p_bE pm = p_bE (pml_of co l) /\ p_cE pm = p_cE (pml_of co l)
  /\ p_bH pm = p_bH (pml_of co l) /\ p_cH pm = p_cH (pml_of co l)
  /\ forall q, (coord (b_axis l) q < b_depth l)%nat -> forall x d,
      p_psiE pm x q d = (if axis_eqb d (b_axis l) && negb (axis_eqb x d) then memE l kE q (third x d) else 0)
   /\ p_psiH pm x q d = (if axis_eqb d (b_axis l) && negb (axis_eqb x d) then memH l kH q (third x d) else 0).

Lemma fresh_tracks l : tracks 0 0 l (PMLb (pml_of co l)).
Proof.
  exists (pml_of co l). repeat (split; [reflexivity|]). intros q _ x d.
  split; cbn; destruct (_ && _); reflexivity.
Qed.

Lemma pml_c_zero a : pml_c a co 0 = 0.
Proof. unfold pml_c, Rdiv. ring. Qed.

Lemma rates_E l q : (coord (b_axis l) q < b_depth l)%nat ->
  p_bE (pml_of co l) q (b_axis l) = fade co l (electric_loss N l (cell_of l q))
  /\ p_cE (pml_of co l) q (b_axis l) = uptake co l (electric_loss N l (cell_of l q)).
Proof.
  intros Hq. cbn [pml_of make_pml p_bE p_cE]. unfold sigma_field.
  assert (X : axis_eqb (b_axis l) (b_axis l) = true) by (destruct (b_axis l); reflexivity). rewrite X.
  assert (S : sigmaE_at (b_high l) (b_depth l) (coord (b_axis l) q) = electric_loss N l (cell_of l q)).
  { unfold electric_loss, cell_of.
    replace (coord (b_axis l) (setc (b_axis l) (coord (b_axis l) q + first_cell N l) q) - first_cell N l)%nat
      with (coord (b_axis l) q) by (destruct q as [[? ?] ?], (b_axis l); cbn; lia).
    unfold sigmaE_at, pml_sigma, grading. destruct (b_high l); f_equal; f_equal; f_equal; lra. }
  rewrite S. unfold fade, uptake, fade, pml_c, pml_b, Rdiv. split.
  - f_equal. field.
  - replace (- (electric_loss N l (cell_of l q) * / 1 + b_stability l) * co)
      with (- ((electric_loss N l (cell_of l q) + b_stability l) * co)) by field.
    rewrite Rmult_1_r, pow1, Rmult_1_r. ring.
Qed.
Lemma rates_H l q : (coord (b_axis l) q < b_depth l)%nat ->
  p_bH (pml_of co l) q (b_axis l) = fade co l (magnetic_loss N l (cell_of l q))
  /\ p_cH (pml_of co l) q (b_axis l) = uptake co l (magnetic_loss N l (cell_of l q)).
Proof.
  intros Hq. cbn [pml_of make_pml p_bH p_cH]. unfold sigma_field.
  assert (X : axis_eqb (b_axis l) (b_axis l) = true) by (destruct (b_axis l); reflexivity). rewrite X.
  assert (S : sigmaH_at (b_high l) (b_depth l) (coord (b_axis l) q) = magnetic_loss N l (cell_of l q)).
  { unfold magnetic_loss, cell_of.
    replace (coord (b_axis l) (setc (b_axis l) (coord (b_axis l) q + first_cell N l) q) - first_cell N l)%nat
      with (coord (b_axis l) q) by (destruct q as [[? ?] ?], (b_axis l); cbn; lia).
    unfold sigmaH_at, pml_sigma, grading.
    destruct (Nat.ltb_spec (S (coord (b_axis l) q)) (b_depth l)), (Nat.eqb_spec (S (coord (b_axis l) q)) (b_depth l));
      try lia; try reflexivity.
    destruct (b_high l); f_equal; f_equal; f_equal; lra. }
  rewrite S. unfold fade, uptake, fade, pml_c, pml_b, Rdiv. split.
  - f_equal. field.
  - replace (- (magnetic_loss N l (cell_of l q) * / 1 + b_stability l) * co)
      with (- ((magnetic_loss N l (cell_of l q) + b_stability l) * co)) by field.
    rewrite Rmult_1_r, pow1, Rmult_1_r. ring.
Qed.

Lemma other_rates l q d : d <> b_axis l ->
  p_cE (pml_of co l) q d = 0 /\ p_cH (pml_of co l) q d = 0.
Proof.
  intros Hd. cbn [pml_of make_pml p_cE p_cH]. unfold sigma_field.
  replace (axis_eqb d (b_axis l)) with false by (destruct d, (b_axis l); try reflexivity; congruence).
  split; apply pml_c_zero.
Qed.

Lemma slice_backward pm l (F : field) q d : p_axis pm = b_axis l -> p_high pm = b_high l -> p_thick pm = b_depth l ->
  dbwd (fun q0 c => F (pml_cell N pm q0) c) (b_axis l) d q = backward N l F d (cell_of l q).
Proof.
  intros A Hh T. unfold dbwd, backward, pml_cell, pml_offset, cell_of. rewrite A, Hh, T. fold (first_cell N l).
  set (f := first_cell N l). clearbody f.
  replace (coord (b_axis l) (setc (b_axis l) (coord (b_axis l) q + f) q))
    with (coord (b_axis l) q + f)%nat by (destruct q as [[? ?] ?], (b_axis l); reflexivity).
  destruct (Nat.leb_spec 1 (coord (b_axis l) q)), (Nat.eqb_spec (coord (b_axis l) q + f) f); try lia; try reflexivity.
  f_equal; apply (f_equal (fun r => F r d)); destruct q as [[i j] k], (b_axis l); cbn in *; (apply f_equal2; [apply f_equal2|]; first [reflexivity|lia]).
Qed.
Lemma slice_forward pm l (F : field) q d : p_axis pm = b_axis l -> p_high pm = b_high l -> p_thick pm = b_depth l ->
  (coord (b_axis l) q < b_depth l)%nat ->
  dfwd (pml_shape N pm) (fun q0 c => F (pml_cell N pm q0) c) (b_axis l) d q = forward N l F d (cell_of l q).
Proof.
  intros A Hh T Hq. unfold dfwd, forward, pml_cell, pml_offset, cell_of, pml_shape. rewrite A, Hh, T. fold (first_cell N l).
  assert (X : axis_eqb (b_axis l) (b_axis l) = true) by (destruct (b_axis l); reflexivity). rewrite X.
  set (f := first_cell N l). clearbody f.
  replace (coord (b_axis l) (setc (b_axis l) (coord (b_axis l) q + f) q))
    with (coord (b_axis l) q + f)%nat by (destruct q as [[? ?] ?], (b_axis l); reflexivity).
  destruct (Nat.ltb_spec (S (coord (b_axis l) q)) (b_depth l)),
    (Nat.eqb_spec (S (coord (b_axis l) q + f)) (f + b_depth l)); try lia; try reflexivity.
  f_equal; apply (f_equal (fun r => F r d)); destruct q as [[i j] k], (b_axis l); cbn in *; (apply f_equal2; [apply f_equal2|]; first [reflexivity|lia]).
Qed.

Lemma tracks_E kE kH l b b' : boundary_phi_E N (g_H (h kE)) b = Ok b' -> tracks kE kH l b -> tracks (S kE) kH l b'.
Proof.
  intros E (pm & -> & A & Hh & T & B1 & C1 & B2 & C2 & M). cbn in E.
  destruct (_ <=? _)%nat; [|discriminate]. inversion E; subst; clear E.
  exists (pml_phi_E N (g_H (h kE)) pm). repeat (split; [assumption || reflexivity|]).
  intros q Hq x d. destruct (M q Hq x d) as [ME MH]. split; [|exact MH].
  cbn [pml_phi_E p_psiE]. rewrite ME, B1, C1. destruct (rates_E l q Hq) as [RB RC].
  pose proof (slice_backward pm l (g_H (h kE)) q (third x d) A Hh T) as SB.
  destruct (axis_eqb d (b_axis l)) eqn:Ed.
  - assert (d = b_axis l) by (destruct d, (b_axis l); cbn in Ed; congruence). subst d.
    destruct (negb (axis_eqb x (b_axis l))) eqn:Ex; cbn [andb].
    + unfold memE. cbn [held]. rewrite <- RB, <- SB, <- RC. rewrite (Rmult_comm (p_cE _ _ _)).
      f_equal. destruct x, (b_axis l); cbn in Ex; try discriminate; reflexivity.
    + rewrite Rmult_0_l, Rplus_0_l. destruct x, (b_axis l); cbn in Ex; try discriminate; reflexivity.
  - cbn [andb]. rewrite Rmult_0_l, Rplus_0_l.
    assert (Hd : d <> b_axis l) by (intros ->; destruct (b_axis l); discriminate).
    destruct (other_rates l q d Hd) as [Z _]. destruct x, d; try reflexivity; rewrite Z; ring.
Qed.
Lemma tracks_H kE kH l b b' : boundary_phi_H N (g_E (h (S kH))) b = Ok b' -> tracks kE kH l b -> tracks kE (S kH) l b'.
Proof.
  intros E (pm & -> & A & Hh & T & B1 & C1 & B2 & C2 & M). cbn in E.
  destruct (_ <=? _)%nat; [|discriminate]. inversion E; subst; clear E.
  exists (pml_phi_H N (g_E (h (S kH))) pm). repeat (split; [assumption || reflexivity|]).
  intros q Hq x d. destruct (M q Hq x d) as [ME MH]. split; [exact ME|].
  cbn [pml_phi_H p_psiH]. rewrite MH, B2, C2. destruct (rates_H l q Hq) as [RB RC].
  pose proof (slice_forward pm l (g_E (h (S kH))) q (third x d) A Hh T Hq) as SB.
  destruct (axis_eqb d (b_axis l)) eqn:Ed.
  - assert (d = b_axis l) by (destruct d, (b_axis l); cbn in Ed; congruence). subst d.
    destruct (negb (axis_eqb x (b_axis l))) eqn:Ex; cbn [andb].
    + unfold memH. cbn [held]. rewrite <- RB, <- SB, <- RC. rewrite (Rmult_comm (p_cH _ _ _)).
      f_equal. destruct x, (b_axis l); cbn in Ex; try discriminate; reflexivity.
    + rewrite Rmult_0_l, Rplus_0_l. destruct x, (b_axis l); cbn in Ex; try discriminate; reflexivity.
  - cbn [andb]. rewrite Rmult_0_l, Rplus_0_l.
    assert (Hd : d <> b_axis l) by (intros ->; destruct (b_axis l); discriminate).
    destruct (other_rates l q d Hd) as [_ Z]. destruct x, d; try reflexivity; rewrite Z; ring.
Qed.

(** After an update, phi is the curl taken of the memory. *)
Definition phi_E_ok (k : nat) (l : absorber) (b : boundary) : Prop :=
  exists pm, b = PMLb pm /\ p_axis pm = b_axis l /\ p_high pm = b_high l /\ p_thick pm = b_depth l
  /\ (b_depth l <= N (b_axis l))%nat
  /\ forall q, (coord (b_axis l) q < b_depth l)%nat -> forall c,
      p_phiE pm q c = cross (b_axis l) (memE l k q) c.
Definition phi_H_ok (k : nat) (l : absorber) (b : boundary) : Prop :=
  exists pm, b = PMLb pm /\ p_axis pm = b_axis l /\ p_high pm = b_high l /\ p_thick pm = b_depth l
  /\ (b_depth l <= N (b_axis l))%nat
  /\ forall q, (coord (b_axis l) q < b_depth l)%nat -> forall c,
      p_phiH pm q c = cross (b_axis l) (memH l k q) c.

Lemma phi_E_step kE kH l b b' : boundary_phi_E N (g_H (h kE)) b = Ok b' -> tracks kE kH l b -> phi_E_ok (S kE) l b'.
Proof.
  intros E Tr. pose proof (tracks_E _ _ _ _ _ E Tr) as (pm' & -> & A' & Hh' & T' & _ & _ & _ & _ & M').
  destruct Tr as (pm & -> & A & _ & T & _). cbn in E. rewrite A, T in E.
  destruct (Nat.leb_spec (b_depth l) (N (b_axis l))) as [HT|]; [|discriminate]. inversion E; subst pm'; clear E.
  exists (pml_phi_E N (g_H (h kE)) pm). repeat (split; [assumption || reflexivity|]).
  intros q Hq c. specialize (M' q Hq).
  transitivity (match c with
    | AX => p_psiE (pml_phi_E N (g_H (h kE)) pm) AX q AY - p_psiE (pml_phi_E N (g_H (h kE)) pm) AX q AZ
    | AY => p_psiE (pml_phi_E N (g_H (h kE)) pm) AY q AZ - p_psiE (pml_phi_E N (g_H (h kE)) pm) AY q AX
    | AZ => p_psiE (pml_phi_E N (g_H (h kE)) pm) AZ q AX - p_psiE (pml_phi_E N (g_H (h kE)) pm) AZ q AY
    end); [destruct c; reflexivity|].
  set (ps := p_psiE _) in *. clearbody ps.
  destruct c; rewrite !(fun x d => proj1 (M' x d)); clear M'; unfold cross;
    destruct (b_axis l) eqn:Eb; cbn [axis_eqb negb andb third]; ring.
Qed.
Lemma phi_H_step kE kH l b b' : boundary_phi_H N (g_E (h (S kH))) b = Ok b' -> tracks kE kH l b -> phi_H_ok (S kH) l b'.
Proof.
  intros E Tr. pose proof (tracks_H _ _ _ _ _ E Tr) as (pm' & -> & A' & Hh' & T' & _ & _ & _ & _ & M').
  destruct Tr as (pm & -> & A & _ & T & _). cbn in E. rewrite A, T in E.
  destruct (Nat.leb_spec (b_depth l) (N (b_axis l))) as [HT|]; [|discriminate]. inversion E; subst pm'; clear E.
  exists (pml_phi_H N (g_E (h (S kH))) pm). repeat (split; [assumption || reflexivity|]).
  intros q Hq c. specialize (M' q Hq).
  transitivity (match c with
    | AX => p_psiH (pml_phi_H N (g_E (h (S kH))) pm) AX q AY - p_psiH (pml_phi_H N (g_E (h (S kH))) pm) AX q AZ
    | AY => p_psiH (pml_phi_H N (g_E (h (S kH))) pm) AY q AZ - p_psiH (pml_phi_H N (g_E (h (S kH))) pm) AY q AX
    | AZ => p_psiH (pml_phi_H N (g_E (h (S kH))) pm) AZ q AX - p_psiH (pml_phi_H N (g_E (h (S kH))) pm) AZ q AY
    end); [destruct c; reflexivity|].
  set (ps := p_psiH _) in *. clearbody ps.
  destruct c; rewrite !(fun x d => proj2 (M' x d)); clear M'; unfold cross;
    destruct (b_axis l) eqn:Eb; cbn [axis_eqb negb andb third]; ring.
Qed.

Lemma map_res_F2 (f : boundary -> res boundary) (P Q : absorber -> boundary -> Prop) ls bs bs' :
  (forall l b b', f b = Ok b' -> P l b -> Q l b') -> map_res f bs = Ok bs' -> Forall2 P ls bs -> Forall2 Q ls bs'.
Proof.
  intros Hf E F. revert bs' E. induction F as [|l b ls bs HP F IH]; intros bs' E; cbn in E.
  - inversion E. constructor.
  - destruct (f b) as [b'|] eqn:Eb; cbn [bind] in E; [|discriminate].
    destruct (map_res f bs) as [r|] eqn:Er; cbn [bind] in E; [|discriminate]. inversion E; subst.
    constructor; [eapply Hf; eassumption|apply IH; reflexivity].
Qed.

Lemma local_of pm l p : p_axis pm = b_axis l -> p_high pm = b_high l -> p_thick pm = b_depth l ->
  (b_depth l <= N (b_axis l))%nat -> in_grid N p ->
  in_pml N pm p = covers N l p
  /\ (covers N l p = true -> (coord (b_axis l) (pml_local N pm p) < b_depth l)%nat
        /\ cell_of l (pml_local N pm p) = p).
Proof.
  intros A Hh T HT Hp. specialize (Hp (b_axis l)).
  unfold in_pml, covers, pml_local, pml_offset, cell_of, first_cell. rewrite A, Hh, T.
  set (n := N (b_axis l)) in *. clearbody n.
  replace (coord (b_axis l) (setc (b_axis l) (coord (b_axis l) p - (if b_high l then n - b_depth l else 0)) p))
    with (coord (b_axis l) p - (if b_high l then n - b_depth l else 0))%nat by (destruct p as [[? ?] ?], (b_axis l); reflexivity).
  split.
  - destruct (b_high l).
    + destruct (Nat.leb_spec (n - b_depth l) (coord (b_axis l) p)); cbn; [|reflexivity]. apply Nat.ltb_lt. lia.
    + cbn. reflexivity.
  - intros C. destruct (b_high l).
    + apply Nat.leb_le in C. split; [lia|]. destruct p as [[i j] k], (b_axis l); cbn in *; (apply f_equal2; [apply f_equal2|]; first [reflexivity|lia]).
    + apply Nat.ltb_lt in C. split; [lia|]. destruct p as [[i j] k], (b_axis l); cbn in *; (apply f_equal2; [apply f_equal2|]; first [reflexivity|lia]).
Qed.

Lemma fold_E n (ie : field) ls bs F : Forall2 (phi_E_ok (S n)) ls bs -> forall p c, in_grid N p ->
  fold_left (fun E b => boundary_update_E N co ie b E) bs F p c
  = F p c + co * ie p c * Rsum (map (fun l => electric_share h l n p c) ls).
Proof.
  intros G. revert F. induction G as [|l b ls bs (pm & -> & A & Hh & T & HT & Ph) G IH]; intros F p c Hp.
  - cbn. ring.
  - cbn [fold_left map]. rewrite IH by exact Hp. cbn [boundary_update_E].
    destruct (local_of pm l p A Hh T HT Hp) as [I L]. rewrite I.
    change (Rsum (electric_share h l n p c :: map (fun l0 => electric_share h l0 n p c) ls))
      with (electric_share h l n p c + Rsum (map (fun l0 => electric_share h l0 n p c) ls)).
    unfold electric_share at 2. fold N co.
    destruct (covers N l p) eqn:C; [|ring]. destruct (L eq_refl) as [L1 L2].
    rewrite (Ph _ L1). unfold pml_bias, memE. rewrite L2.
    assert (X : cross (b_axis l) (fun d => held (fade co l (electric_loss N l p)) (uptake co l (electric_loss N l p))
        (fun j => backward N l (g_H (h j)) d p) (S n)) c
      = cross (b_axis l) (fun d => remembered (fade co l (electric_loss N l p)) (uptake co l (electric_loss N l p))
        (fun j => backward N l (g_H (h j)) d p) n) c).
    { unfold cross. destruct (b_axis l), c; rewrite ?held_remembered; reflexivity. }
    rewrite X. ring.
Qed.
Lemma fold_H n (im : field) ls bs F : Forall2 (phi_H_ok (S n)) ls bs -> forall p c, in_grid N p ->
  fold_left (fun H b => boundary_update_H N co im b H) bs F p c
  = F p c - co * im p c * Rsum (map (fun l => magnetic_share h l n p c) ls).
Proof.
  intros G. revert F. induction G as [|l b ls bs (pm & -> & A & Hh & T & HT & Ph) G IH]; intros F p c Hp.
  - cbn. ring.
  - cbn [fold_left map]. rewrite IH by exact Hp. cbn [boundary_update_H].
    destruct (local_of pm l p A Hh T HT Hp) as [I L]. rewrite I.
    change (Rsum (magnetic_share h l n p c :: map (fun l0 => magnetic_share h l0 n p c) ls))
      with (magnetic_share h l n p c + Rsum (map (fun l0 => magnetic_share h l0 n p c) ls)).
    unfold magnetic_share at 2. fold N co.
    destruct (covers N l p) eqn:C; [|ring]. destruct (L eq_refl) as [L1 L2].
    rewrite (Ph _ L1). unfold memH. rewrite L2.
    assert (X : cross (b_axis l) (fun d => held (fade co l (magnetic_loss N l p)) (uptake co l (magnetic_loss N l p))
        (fun j => forward N l (g_E (h (S j))) d p) (S n)) c
      = cross (b_axis l) (fun d => remembered (fade co l (magnetic_loss N l p)) (uptake co l (magnetic_loss N l p))
        (fun j => forward N l (g_E (h (S j))) d p) n) c).
    { unfold cross. destruct (b_axis l), c; rewrite ?held_remembered; reflexivity. }
    rewrite X. ring.
Qed.

Definition one_step_ok (ls : list absorber) (n : nat) : Prop :=
  exists E1 H1,
    (forall p c, in_grid N p -> E1 p c = bulk_E (h n) p c
       + co * g_ie (h 0%nat) p c * Rsum (map (fun l => electric_share h l n p c) ls))
    /\ fold_res (source_update_E N (g_steps (h n))) (g_sources (h 0%nat)) E1 = Ok (g_E (h (S n)))
    /\ (forall p c, in_grid N p -> H1 p c = g_H (h n) p c - co * g_im (h 0%nat) p c
          * (curl_E N (g_E (h (S n))) p c + Rsum (map (fun l => magnetic_share h l n p c) ls)))
    /\ fold_res (source_update_H N (g_steps (h n))) (g_sources (h 0%nat)) H1 = Ok (g_H (h (S n))).

Lemma track_step ls n : same_static (h 0%nat) (h n) -> Forall2 (tracks n n) ls (g_boundaries (h n)) ->
  step (h n) = Ok (h (S n)) ->
  one_step_ok ls n /\ same_static (h 0%nat) (h (S n)) /\ Forall2 (tracks (S n) (S n)) ls (g_boundaries (h (S n))).
Proof.
  intros St Tr H. pose proof St as St0. static St. fold N co in SN, Sco.
  pose proof (step_static _ _ H) as [St1 _].
  pose proof (same_static_trans _ _ _ St0 St1) as St2.
  apply step_inv in H as (g1 & g2 & U1 & U2 & E).
  apply update_E_inv in U1 as (bs & E3 & ds & P1 & F1 & _ & ->).
  apply update_H_inv in U2 as (bs' & H3 & ds' & P2 & F2 & _ & ->).
  cbn [with_fields g_N g_E g_H g_boundaries g_steps g_sources g_detectors g_spacing g_courant g_im g_ie] in *.
  assert (EE : g_E (h (S n)) = E3) by (rewrite E; reflexivity).
  assert (EH : g_H (h (S n)) = H3) by (rewrite E; reflexivity).
  assert (EB : g_boundaries (h (S n)) = bs') by (rewrite E; reflexivity). clear E.
  rewrite SN in *. rewrite Sco, Sie, Ssr in F1. rewrite Sco, Sim, Ssr in F2. rewrite <- EE in P2.
  assert (T1 : Forall2 (tracks (S n) n) ls bs).
  { eapply map_res_F2; [|exact P1|exact Tr]. intros l b b' Eb Tb. eapply tracks_E; eassumption. }
  assert (T2 : Forall2 (tracks (S n) (S n)) ls bs').
  { eapply map_res_F2; [|exact P2|exact T1]. intros l b b' Eb Tb. eapply tracks_H; eassumption. }
  assert (Q1 : Forall2 (phi_E_ok (S n)) ls bs).
  { eapply map_res_F2; [|exact P1|exact Tr]. intros l b b' Eb Tb. eapply phi_E_step; eassumption. }
  assert (Q2 : Forall2 (phi_H_ok (S n)) ls bs').
  { eapply map_res_F2; [|exact P2|exact T1]. intros l b b' Eb Tb. eapply phi_H_step; eassumption. }
  split; [|split; [exact St2|rewrite EB; exact T2]].
  eexists _, _. split; [|split; [rewrite EE; exact F1|split; [|rewrite EH; exact F2]]].
  - intros p c Hp. rewrite (fold_E n (g_ie (h 0%nat)) ls bs (bulk_E (h n)) Q1 p c Hp). reflexivity.
  - intros p c Hp. rewrite (fold_H n (g_im (h 0%nat)) ls bs' _ Q2 p c Hp).
    unfold bulk_H. cbn [with_fields g_N g_E g_H g_courant g_im]. rewrite SN, Sco, Sim, EE. ring.
Qed.

Lemma track_run ls n : Forall2 (tracks 0 0) ls (g_boundaries (h 0%nat)) ->
  (forall k, (k <= n)%nat -> step (h k) = Ok (h (S k))) -> one_step_ok ls n.
Proof.
  intros T0 Hs.
  assert (J : forall k, (k <= n)%nat -> same_static (h 0%nat) (h k) /\ Forall2 (tracks k k) ls (g_boundaries (h k))).
  { induction k as [|k IH]; intros Hk; [split; [apply same_static_refl|exact T0]|].
    destruct IH as [S1 T1]; [lia|]. destruct (track_step ls k S1 T1 (Hs k ltac:(lia))) as (_ & S2 & T2). auto. }
  destruct (J n (le_n n)) as [S1 T1]. apply (track_step ls n S1 T1 (Hs n (le_n n))).
Qed.
End History.

Lemma absorber_run h ls n :
  g_boundaries (h 0%nat) = map (fun l => PMLb (make_pml (b_axis l) (b_high l) (b_depth l) (b_stability l) (g_courant (h 0%nat)))) ls ->
  (forall k, (k <= n)%nat -> step (h k) = Ok (h (S k))) ->
  exists E1 H1,
    (forall p c, in_grid (g_N (h 0%nat)) p ->
       E1 p c = bulk_E (h n) p c + g_courant (h 0%nat) * g_ie (h 0%nat) p c
                * Rsum (map (fun l => electric_share h l n p c) ls))
    /\ fold_res (source_update_E (g_N (h 0%nat)) (g_steps (h n))) (g_sources (h 0%nat)) E1 = Ok (g_E (h (S n)))
    /\ (forall p c, in_grid (g_N (h 0%nat)) p ->
       H1 p c = g_H (h n) p c - g_courant (h 0%nat) * g_im (h 0%nat) p c
          * (curl_E (g_N (h 0%nat)) (g_E (h (S n))) p c + Rsum (map (fun l => magnetic_share h l n p c) ls)))
    /\ fold_res (source_update_H (g_N (h 0%nat)) (g_steps (h n))) (g_sources (h 0%nat)) H1 = Ok (g_H (h (S n))).
Proof.
  intros B Hs. apply track_run; [|exact Hs]. rewrite B. clear.
  induction ls; cbn [map]; constructor; [apply fresh_tracks|assumption].
Qed.

Lemma absorbers_convolve g h ls n :
  g_boundaries g = map (fun l => PMLb (make_pml (b_axis l) (b_high l) (b_depth l) (b_stability l) (g_courant g))) ls ->
  (forall k, (k <= S n)%nat -> run_steps k g = Ok (h k)) ->
  exists E1 H1,
    (forall p c, in_grid (g_N g) p ->
       E1 p c = bulk_E (h n) p c + g_courant g * g_ie g p c * Rsum (map (fun l => electric_share h l n p c) ls))
    /\ fold_res (source_update_E (g_N g) (g_steps (h n))) (g_sources g) E1 = Ok (g_E (h (S n)))
    /\ (forall p c, in_grid (g_N g) p ->
       H1 p c = g_H (h n) p c - g_courant g * g_im g p c
          * (curl_E (g_N g) (g_E (h (S n))) p c + Rsum (map (fun l => magnetic_share h l n p c) ls)))
    /\ fold_res (source_update_H (g_N g) (g_steps (h n))) (g_sources g) H1 = Ok (g_H (h (S n))).
Proof.
  intros B Hr. assert (G : h 0%nat = g) by (specialize (Hr 0%nat ltac:(lia)); cbn in Hr; congruence).
  rewrite <- G in B. pose proof (absorber_run h ls n B) as K. rewrite G in K. apply K.
  intros k Hk. pose proof (Hr (S k) ltac:(lia)) as R. rewrite run_steps_S, (Hr k) in R by lia. exact R.
Qed.
