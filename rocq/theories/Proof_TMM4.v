From Coq Require Import Reals ZArith String List Bool Lra Lia Psatz.
From Verif Require Import Base PyVal Cplx CplxLemmas Model_TMM Spec_TMM Proof_TMM Proof_TMM2 Proof_TMM3.
Import ListNotations.
Open Scope R_scope.

(** * The power carried by a wave *)
Definition weight (pol : string) (n c : C) : C := if String.eqb pol "s" then (n * c)%C else (Cconj n * c)%C.
Lemma power_closed pol n c fb :
  power pol n c fb = Re (weight pol n c) * (Cnorm2 (fst fb) - Cnorm2 (snd fb))
                     - 2 * Im (weight pol n c) * Im (fst fb * Cconj (snd fb))%C.
Proof.
  unfold power, tangential, weight, Cnorm2. destruct n, c, fb as [[? ?] [? ?]]. destruct String.eqb; simpl; ring.
Qed.

(** Power density lost *)
Definition loss_density (pol : string) (n c k : C) (fb : C * C) : R :=
  2 * Im k * Re (weight pol n c) * (Cnorm2 (fst fb) + Cnorm2 (snd fb))
  + 4 * Re k * Im (weight pol n c) * Re (fst fb * Cconj (snd fb))%C.

Lemma advance_norms k z fb :
  Cnorm2 (fst (advance (k * RtoC z)%C fb)) = Cnorm2 (fst fb) * exp (- (2 * Im k * z)) /\
  Cnorm2 (snd (advance (k * RtoC z)%C fb)) = Cnorm2 (snd fb) * exp (2 * Im k * z) /\
  (fst (advance (k * RtoC z)%C fb) * Cconj (snd (advance (k * RtoC z)%C fb)))%C
    = (fst fb * Cconj (snd fb) * (cos (2 * Re k * z), sin (2 * Re k * z)))%C.
Proof.
  destruct k as [a b], fb as [[f1 f2] [b1 b2]].
  assert (E1 : (Ci * ((a, b) * RtoC z))%C = (- (b * z), a * z)) by (apply Ceq; simpl; ring).
  assert (E2 : (- Ci * ((a, b) * RtoC z))%C = (b * z, - (a * z))) by (apply Ceq; simpl; ring).
  unfold advance. cbn [fst snd]. rewrite E1, E2. unfold Cexp, Cis, Cscal. cbn [Re Im fst snd]. rewrite cos_neg, sin_neg.
  assert (S1 : sin (a * z) * sin (a * z) + cos (a * z) * cos (a * z) = 1) by (pose proof (sin2_cos2 (a * z)); unfold Rsqr in *; lra).
  assert (X1 : exp (- (b * z)) * exp (b * z) = 1) by (rewrite <- exp_plus; replace (- (b * z) + b * z) with 0 by ring; apply exp_0).
  replace (- (2 * b * z)) with (- (b * z) + - (b * z)) by ring. replace (2 * b * z) with (b * z + b * z) by ring.
  replace (2 * a * z) with (2 * (a * z)) by ring. rewrite sin_2a, cos_2a, !exp_plus.
  generalize dependent (sin (a * z)). generalize dependent (cos (a * z)).
  generalize dependent (exp (- (b * z))). generalize dependent (exp (b * z)).
  intros p m X1 u v S1. split; [|split].
  - unfold Cnorm2; simpl. transitivity ((f1 * f1 + f2 * f2) * (m * m) * (v * v + u * u)); [ring|]. rewrite S1. ring.
  - unfold Cnorm2; simpl. transitivity ((b1 * b1 + b2 * b2) * (p * p) * (v * v + u * u)); [ring|]. rewrite S1. ring.
  - apply Ceq; simpl.
    + transitivity ((m * p) * ((f1 * b1 + f2 * b2) * (u * u - v * v) - (f2 * b1 - f1 * b2) * (2 * v * u))); [ring|]. rewrite X1. ring.
    + transitivity ((m * p) * ((f1 * b1 + f2 * b2) * (2 * v * u) + (f2 * b1 - f1 * b2) * (u * u - v * v))); [ring|]. rewrite X1. ring.
Qed.

Lemma power_derivative pol n c k fb z :
  derivable_pt_lim (fun z => power pol n c (advance (k * RtoC z)%C fb)) z
    (- loss_density pol n c k (advance (k * RtoC z)%C fb)).
Proof.
  destruct (advance_norms k z fb) as (N1 & N2 & N3).
  unfold loss_density. rewrite N1, N2, N3.
  set (p := (fst fb * Cconj (snd fb))%C). set (W := weight pol n c).
  apply (derivable_pt_lim_ext (fun z => Re W * (Cnorm2 (fst fb) * exp (- (2 * Im k * z)) - Cnorm2 (snd fb) * exp (2 * Im k * z))
     - 2 * Im W * (Re p * sin (2 * Re k * z) + Im p * cos (2 * Re k * z)))).
  { intros y. rewrite power_closed. destruct (advance_norms k y fb) as (M1 & M2 & M3). rewrite M1, M2, M3.
    fold p W. simpl. ring. }
  replace (- _) with (Re W * (Cnorm2 (fst fb) * (exp (- (2 * Im k * z)) * (- (2 * Im k))) - Cnorm2 (snd fb) * (exp (2 * Im k * z) * (2 * Im k)))
    - 2 * Im W * (Re p * (cos (2 * Re k * z) * (2 * Re k)) + Im p * (- sin (2 * Re k * z) * (2 * Re k)))) by (simpl; ring).
  assert (L : forall a, derivable_pt_lim (fun z => a * z) z a).
  { intros a. pose proof (derivable_pt_lim_scal id a z 1 (derivable_pt_lim_id z)) as Q. rewrite Rmult_1_r in Q. exact Q. }
  assert (Lo : derivable_pt_lim (fun z => - (2 * Im k * z)) z (- (2 * Im k))) by (apply (derivable_pt_lim_opp (fun z => 2 * Im k * z)); apply L).
  assert (SC : forall a f l, derivable_pt_lim f z l -> derivable_pt_lim (fun z => a * f z) z (a * l)) by (intros; apply (derivable_pt_lim_scal f a z l H)).
  assert (CO : forall g f a l, derivable_pt_lim f z l -> derivable_pt_lim g (f z) a -> derivable_pt_lim (fun z => g (f z)) z (a * l))
    by (intros g f a l H1 H2; apply (derivable_pt_lim_comp f g z l a H1 H2)).
  apply (derivable_pt_lim_minus (fun z => Re W * (Cnorm2 (fst fb) * exp (- (2 * Im k * z)) - Cnorm2 (snd fb) * exp (2 * Im k * z)))
     (fun z => 2 * Im W * (Re p * sin (2 * Re k * z) + Im p * cos (2 * Re k * z)))).
  - apply SC. apply (derivable_pt_lim_minus (fun z => Cnorm2 (fst fb) * exp (- (2 * Im k * z))) (fun z => Cnorm2 (snd fb) * exp (2 * Im k * z))).
    + apply SC. apply (CO exp); [exact Lo|apply derivable_pt_lim_exp].
    + apply SC. apply (CO exp (fun z => 2 * Im k * z)); [apply L|apply derivable_pt_lim_exp].
  - apply SC. apply (derivable_pt_lim_plus (fun z => Re p * sin (2 * Re k * z)) (fun z => Im p * cos (2 * Re k * z))).
    + apply SC. apply (CO sin (fun z => 2 * Re k * z)); [apply L|apply derivable_pt_lim_sin].
    + apply SC. apply (CO cos (fun z => 2 * Re k * z)); [apply L|apply derivable_pt_lim_cos].
Qed.

(** ** The sign of the loss *)
(** [q2]: n^2 c^2 = n^2 - s^2 *)
Lemma loss_formula pol n c s K fb : n <> C0 -> (n * n * (c * c))%C = (n * n - RtoC (s * s))%C ->
  loss_density pol n c (RtoC K * (n * c))%C fb =
    if String.eqb pol "s" then 2 * K * (Re n * Im n) * Cnorm2 (fst fb + snd fb)%C
    else 2 * K * (Re n * Im n) * (Cnorm2 c * Cnorm2 (fst fb - snd fb)%C + s * s / Cnorm2 n * Cnorm2 (fst fb + snd fb)%C).
Proof.
  intros Hn H. assert (Hp : 0 < Cnorm2 n) by (apply Cnorm2_pos; exact Hn).
  assert (HR := f_equal Im H). destruct n as [a b], c as [u v], fb as [[f1 f2] [b1 b2]].
  unfold loss_density, weight. unfold Cnorm2 in *. simpl in *. destruct String.eqb; simpl.
  - (* Im (q^2) = Im (n^2) *)
    assert (E : 2 * ((a * u - b * v) * (a * v + b * u)) = 2 * (a * b)) by lra.
    transitivity (K * (2 * ((a * u - b * v) * (a * v + b * u))) * ((f1 + b1) * (f1 + b1) + (f2 + b2) * (f2 + b2))); [ring|].
    rewrite E. ring.
  - (* |n|^4 Im (c^2) = s^2 Im (n^2) *)
    assert (HR2 := f_equal Re H). simpl in HR2.
    assert (E : (a * a + b * b) * (2 * (u * v)) = s * s / (a * a + b * b) * (2 * (a * b))).
    { apply (Rmult_eq_reg_l (a * a + b * b)); [|lra].
      transitivity (s * s * (2 * (a * b))); [|field; lra].
      transitivity ((a * a - b * b) * ((a * a - b * b) * (u * v + v * u) + (a * b + b * a) * (u * u - v * v))
                    - (a * b + b * a) * ((a * a - b * b) * (u * u - v * v) - (a * b + b * a) * (u * v + v * u))); [ring|].
      rewrite HR2, HR. ring. }
    transitivity (K * ((2 * (a * b)) * ((u * u + v * v) * ((f1 - b1) * (f1 - b1) + (f2 - b2) * (f2 - b2)))
                       + ((a * a + b * b) * (2 * (u * v))) * ((f1 + b1) * (f1 + b1) + (f2 + b2) * (f2 + b2)))); [ring|].
    rewrite E. field. lra.
Qed.

Lemma Cnorm2_ge0 z : 0 <= Cnorm2 z.
Proof. unfold Cnorm2. nra. Qed.
Lemma loss_nonneg pol n c s K fb : n <> C0 -> (n * n * (c * c))%C = (n * n - RtoC (s * s))%C -> 0 <= K -> passive n ->
  0 <= loss_density pol n c (RtoC K * (n * c))%C fb.
Proof.
  intros Hn H HK HP. rewrite (loss_formula _ _ _ s _ _ Hn H). unfold passive in HP.
  assert (0 <= 2 * K * (Re n * Im n)) by nra.
  assert (Hp : 0 < Cnorm2 n) by (apply Cnorm2_pos; exact Hn).
  destruct String.eqb; apply Rmult_le_pos; auto using Cnorm2_ge0.
  apply Rplus_le_le_0_compat; apply Rmult_le_pos; auto using Cnorm2_ge0.
  apply Rmult_le_pos; [nra|]. left. apply Rinv_0_lt_compat. exact Hp.
Qed.
Lemma loss_zero pol n c s K fb : n <> C0 -> (n * n * (c * c))%C = (n * n - RtoC (s * s))%C -> lossless n ->
  loss_density pol n c (RtoC K * (n * c))%C fb = 0.
Proof.
  intros Hn H HP. rewrite (loss_formula _ _ _ s _ _ Hn H). unfold lossless in HP. rewrite HP. destruct String.eqb; ring.
Qed.

(** ** The power lost over a layer *)
Lemma advance_0 k fb : advance (k * RtoC 0)%C fb = fb.
Proof.
  unfold advance. replace (Ci * (k * RtoC 0))%C with C0 by (apply Ceq; simpl; ring).
  replace (- Ci * (k * RtoC 0))%C with C0 by (apply Ceq; simpl; ring). rewrite Cexp_0.
  destruct fb. simpl. f_equal; ring.
Qed.
Lemma power_drop pol n c k fb d : 0 < d -> exists z, 0 < z < d /\
  power pol n c fb - power pol n c (advance (k * RtoC d)%C fb) = loss_density pol n c k (advance (k * RtoC z)%C fb) * d.
Proof.
  intros Hd.
  destruct (MVT_cor2 (fun z => power pol n c (advance (k * RtoC z)%C fb)) (fun z => - loss_density pol n c k (advance (k * RtoC z)%C fb)) 0 d Hd) as (z & E & Hz).
  { intros z _. apply power_derivative. }
  exists z. split; [exact Hz|]. rewrite advance_0 in E. lra.
Qed.
Lemma power_drop_nonneg pol n c s K fb d : n <> C0 -> (n * n * (c * c))%C = (n * n - RtoC (s * s))%C -> 0 <= K -> passive n -> 0 <= d ->
  power pol n c (advance (RtoC K * (n * c) * RtoC d)%C fb) <= power pol n c fb.
Proof.
  intros Hn H HK HP Hd. destruct (Req_EM_T d 0) as [-> | Hd0]; [rewrite advance_0; lra|].
  destruct (power_drop pol n c (RtoC K * (n * c))%C fb d) as (z & _ & E); [lra|].
  pose proof (loss_nonneg pol n c s K (advance (RtoC K * (n * c) * RtoC z)%C fb) Hn H HK HP). nra.
Qed.
Lemma power_drop_zero pol n c s K fb d : n <> C0 -> (n * n * (c * c))%C = (n * n - RtoC (s * s))%C -> lossless n -> 0 <= d ->
  power pol n c (advance (RtoC K * (n * c) * RtoC d)%C fb) = power pol n c fb.
Proof.
  intros Hn H HP Hd. destruct (Req_EM_T d 0) as [-> | Hd0]; [rewrite advance_0; lra|].
  destruct (power_drop pol n c (RtoC K * (n * c))%C fb d) as (z & _ & E); [lra|].
  rewrite (loss_zero _ _ _ s _ _ Hn H HP) in E. lra.
Qed.
