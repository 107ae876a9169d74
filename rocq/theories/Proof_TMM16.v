From Coq Require Import Reals ZArith String List Bool Lra Lia Psatz.
From Verif Require Import Base PyVal Cplx CplxLemmas Model_TMM Spec_TMM Proof_TMM Proof_TMM2 Proof_TMM3 Proof_TMM4 Proof_TMM5 Proof_TMM6 Proof_TMM7 Proof_TMM8 Proof_TMM9 Proof_TMM10 Proof_TMM11 Proof_TMM12 Proof_TMM13 Proof_TMM14 Proof_TMM15.
Import ListNotations.
Open Scope R_scope.

Lemma solves_all : forall arcsin pol ns ds th0 lam D, inverts_sine arcsin ->
  coh_tmm arcsin pol ns ds th0 lam = Ok D ->
  wave_in_stack pol ns (map Ccos (c_th D)) (phases D) (map (wave_of D) (seq 0 (length ns))) /\
  wave_of D 0 = (C1, c_r D) /\ wave_of D (length ns - 1) = (c_t D, C0).
Proof. intros. eapply solves; eassumption. Qed.
Lemma unique_all : forall arcsin pol ns ds th0 lam D waves r t,
  coh_tmm arcsin pol ns ds th0 lam = Ok D ->
  wave_in_stack pol ns (map Ccos (c_th D)) (phases D) waves ->
  nth 0 waves (C0, C0) = (C1, r) -> nth (length ns - 1) waves (C0, C0) = (t, C0) ->
  r = c_r D /\ t = c_t D.
Proof. intros. eapply unique; eassumption. Qed.
Lemma snell_all : forall arcsin pol ns ds th0 lam D, inverts_sine arcsin ->
  coh_tmm arcsin pol ns ds th0 lam = Ok D ->
  length (c_th D) = length ns /\
  (forall i, (i < length ns)%nat -> (nth i ns C0 * Csin (nth i (c_th D) C0) = nth 0 ns C0 * Csin th0)%C) /\
  Ccos (nth 0 (c_th D) C0) = Ccos th0 /\
  (Im (nth 0 ns C0 * Csin th0)%C = 0 -> 0 <= Re (nth (length ns - 1) ns C0 * Ccos (nth (length ns - 1) (c_th D) C0))%C) /\
  (forall i, (i < length ns)%nat ->
     nth i (c_kz D) C0 = (RtoC (2 * PI / lam) * (nth i ns C0 * Ccos (nth i (c_th D) C0)))%C).
Proof. intros. eapply snell_law; eassumption. Qed.
Lemma inputs_all : forall arcsin pol ns ds th0 lam D,
  coh_tmm arcsin pol ns ds th0 lam = Ok D ->
  c_pol D = pol /\ c_n D = ns /\ c_d D = ds /\ c_th0 D = th0 /\ c_lam D = lam.
Proof. intros. apply coh_tmm_calc in H. exact (k_in _ _ _ _ _ _ _ H). Qed.
Lemma needs_all : forall arcsin pol ns ds th0 lam D, inverts_sine arcsin ->
  coh_tmm arcsin pol ns ds th0 lam = Ok D ->
  length ds = length ns /\ (2 <= length ns)%nat /\ nth 0 ds NaN = PInf /\ nth (length ns - 1) ds NaN = PInf /\
  (forall i, (0 < i)%nat -> (S i < length ns)%nat -> exists d, nth i ds NaN = Fin d) /\
  (pol = "s" \/ pol = "p")%string /\ lam <> 0 /\ Rabs (Im (nth 0 ns C0 * Csin th0)%C) < 100 * EPSILON /\
  passive (nth 0 ns C0) /\ passive (nth (length ns - 1) ns C0).
Proof. intros. eapply needs; eassumption. Qed.
Lemma succeeds_all : forall arcsin pol ns ds th0 lam s, inverts_sine arcsin -> principal arcsin ->
  pol = "s"%string \/ pol = "p"%string -> (2 <= length ns)%nat -> length ds = length ns ->
  nth 0 ds NaN = PInf /\ nth (length ns - 1) ds NaN = PInf ->
  (forall i, (0 < i)%nat -> (S i < length ns)%nat -> exists d, nth i ds NaN = Fin d /\ 0 <= d /\
     Im (nth i ns C0 * Ccos (arcsin (RtoC s / nth i ns C0)))%C * (2 * PI / lam) * d <= 35) ->
  0 < lam -> (nth 0 ns C0 * Csin th0)%C = RtoC s -> 0 < Re (Ccos th0) ->
  (forall i, (i < length ns)%nat -> admits s (nth i ns C0)) ->
  (exists D, coh_tmm arcsin pol ns ds th0 lam = Ok D /\ c_th D = map (fun n => arcsin (RtoC s / n)%C) ns) /\
  (exists D', coh_tmm_reverse arcsin pol ns ds th0 lam = Ok D').
Proof.
  intros. split; [eapply coh_tmm_succeeds; eassumption|]. eapply reverse_succeeds; eassumption.
Qed.
Lemma accounts_all : forall arcsin pol ns ds th0 lam D, inverts_sine arcsin ->
  coh_tmm arcsin pol ns ds th0 lam = Ok D ->
  (forall i, (0 < i)%nat -> (S i < length ns)%nat -> 0 <= thickness (nth i ds NaN)) ->
  exists l, absorp_in_each_layer D = Ok l /\ length l = length ns /\ total l = 1 /\
    nth 0 l 0 = 1 - relative_power D 0 (wave_of D 0) /\
    nth (length ns - 1) l 0 = relative_power D (length ns - 1) (wave_of D (length ns - 1)) /\
    forall i, (0 < i)%nat -> (S i < length ns)%nat ->
      nth i l 0 = relative_power D i (wave_of D i) - relative_power D i (advance (nth i (phases D) C0) (wave_of D i)).
Proof.
  intros arcsin pol ns ds th0 lam D inv HD Ht. rewrite <- (T_power arcsin inv _ _ _ _ _ _ HD). eapply absorbed; eassumption.
Qed.
Lemma powers_all : forall arcsin pol ns ds th0 lam D, inverts_sine arcsin ->
  coh_tmm arcsin pol ns ds th0 lam = Ok D ->
  c_T D = relative_power D (length ns - 1) (wave_of D (length ns - 1)) /\
  c_entering D = relative_power D 0 (wave_of D 0) /\
  c_R D = Cnorm2 (c_r D) /\
  (Im (nth 0 ns C0 * Csin th0)%C = 0 -> Im (nth 0 ns C0) = 0 -> Im (Ccos th0) = 0 -> c_R D + c_entering D = 1).
Proof.
  intros arcsin pol ns ds th0 lam D inv HD. split; [eapply T_power; eassumption|]. split; [eapply entering_power; eassumption|]. split.
  - apply coh_tmm_calc in HD. rewrite (k_R _ _ _ _ _ _ _ HD). unfold R_from_r, Cabs. apply pow2_sqrt. apply Cnorm2_ge0.
  - intros. eapply R_entering; eassumption.
Qed.
Lemma passive_all : forall arcsin pol ns ds th0 lam D, inverts_sine arcsin ->
  coh_tmm arcsin pol ns ds th0 lam = Ok D ->
  Im (nth 0 ns C0 * Csin th0)%C = 0 -> 0 < lam -> no_opaque_layer D ->
  (forall i, (0 < i)%nat -> (S i < length ns)%nat -> 0 <= thickness (nth i ds NaN)) ->
  (forall i, (0 < i)%nat -> (S i < length ns)%nat -> passive (nth i ns C0)) ->
  0 <= c_T D <= c_entering D /\
  (exists l, absorp_in_each_layer D = Ok l /\ forall i, (0 < i)%nat -> (i < length ns)%nat -> 0 <= nth i l 0) /\
  (Im (nth 0 ns C0) = 0 -> Im (Ccos th0) = 0 -> 0 <= c_R D /\ c_R D + c_T D <= 1).
Proof.
  intros arcsin pol ns ds th0 lam D inv HD Hs Hl HO Ht HP.
  pose proof (T_nonneg arcsin inv _ _ _ _ _ _ HD Hs) as T0. pose proof (T_le_entering arcsin inv _ _ _ _ _ _ HD Hs Hl HO Ht HP) as T1.
  split; [lra|]. split.
  - destruct (absorbed arcsin inv _ _ _ _ _ _ HD Ht) as (l & H1 & _ & _ & _ & H2 & H3). exists l. split; [exact H1|].
    intros i I0 I1. destruct (Nat.eq_dec i (length ns - 1)) as [-> | Hi]; [rewrite H2; exact T0|].
    rewrite H3 by lia. pose proof (layer_absorbs arcsin inv _ _ _ _ _ _ HD Hs Hl HO Ht i ltac:(lia) ltac:(lia) (HP i ltac:(lia) ltac:(lia))). lra.
  - intros I1 I2. pose proof (R_entering arcsin inv _ _ _ _ _ _ HD Hs I1 I2). pose proof (R_nonneg arcsin _ _ _ _ _ _ HD). lra.
Qed.
Lemma lossless_all : forall arcsin pol ns ds th0 lam D, inverts_sine arcsin ->
  coh_tmm arcsin pol ns ds th0 lam = Ok D ->
  Im (nth 0 ns C0 * Csin th0)%C = 0 -> no_opaque_layer D ->
  (forall i, (0 < i)%nat -> (S i < length ns)%nat -> 0 <= thickness (nth i ds NaN)) ->
  (forall i, (0 < i)%nat -> (S i < length ns)%nat -> lossless (nth i ns C0)) ->
  c_T D = c_entering D /\
  (exists l, absorp_in_each_layer D = Ok l /\ forall i, (0 < i)%nat -> (S i < length ns)%nat -> nth i l 0 = 0) /\
  (Im (nth 0 ns C0) = 0 -> Im (Ccos th0) = 0 -> c_R D + c_T D = 1).
Proof.
  intros arcsin pol ns ds th0 lam D inv HD Hs HO Ht HP.
  pose proof (T_eq_entering arcsin inv _ _ _ _ _ _ HD Hs HO Ht HP) as T1.
  split; [exact T1|]. split.
  - destruct (absorbed arcsin inv _ _ _ _ _ _ HD Ht) as (l & H1 & _ & _ & _ & H2 & H3). exists l. split; [exact H1|].
    intros i I0 I1. rewrite H3 by lia. rewrite (layer_transparent arcsin inv _ _ _ _ _ _ HD Hs HO Ht i I0 I1 (HP i I0 I1)). ring.
  - intros I1 I2. pose proof (R_entering arcsin inv _ _ _ _ _ _ HD Hs I1 I2). lra.
Qed.
Lemma resolved_domain : forall arcsin pol ns ds th0 lam D i z, inverts_sine arcsin ->
  coh_tmm arcsin pol ns ds th0 lam = Ok D ->
  ((exists p, position_resolved i z D = Ok p) <-> in_layer ds i z).
Proof.
  intros arcsin pol ns ds th0 lam D i z inv HD. split.
  - intros (p & H). eapply resolved_inv; eassumption.
  - eapply resolved_ok; eassumption.
Qed.
Lemma resolved_fields : forall arcsin pol ns ds th0 lam D i z p, inverts_sine arcsin ->
  coh_tmm arcsin pol ns ds th0 lam = Ok D -> position_resolved i z D = Ok p ->
  p_poyn p = relative_power D i (wave_at D i z) /\
  (p_Ex p, p_Ey p, p_Ez p) =
    (if String.eqb pol "s" then (C0, fst (wave_at D i z) + snd (wave_at D i z), C0)
     else ((fst (wave_at D i z) - snd (wave_at D i z)) * Ccos (nth i (c_th D) C0), C0,
           - (fst (wave_at D i z) + snd (wave_at D i z)) * Csin (nth i (c_th D) C0)))%C.
Proof. intros arcsin pol ns ds th0 lam D i z p inv HD H. eapply resolved_inv; eassumption. Qed.
Lemma resolved_deriv : forall arcsin pol ns ds th0 lam D i z p, inverts_sine arcsin ->
  coh_tmm arcsin pol ns ds th0 lam = Ok D -> position_resolved i z D = Ok p ->
  derivable_pt_lim (fun y => relative_power D i (wave_at D i y)) z (- p_absor p).
Proof. intros arcsin pol ns ds th0 lam D i z p inv HD H. eapply resolved_derivative; eassumption. Qed.
Lemma resolved_sign : forall arcsin pol ns ds th0 lam D i z p, inverts_sine arcsin ->
  coh_tmm arcsin pol ns ds th0 lam = Ok D -> position_resolved i z D = Ok p ->
  Im (nth 0 ns C0 * Csin th0)%C = 0 -> 0 < lam ->
  (passive (nth i ns C0) -> 0 <= p_absor p) /\ (lossless (nth i ns C0) -> p_absor p = 0).
Proof. intros arcsin pol ns ds th0 lam D i z p inv HD H Hs Hl. eapply resolved_absorption; eassumption. Qed.
Lemma resolved_continuous : forall arcsin pol ns ds th0 lam D i p q, inverts_sine arcsin ->
  coh_tmm arcsin pol ns ds th0 lam = Ok D -> (S i < length ns)%nat -> no_opaque_layer D ->
  position_resolved i (if Nat.eqb i 0 then 0 else thickness (nth i ds NaN)) D = Ok p ->
  position_resolved (S i) 0 D = Ok q ->
  p_poyn p = p_poyn q /\ p_Ex p = p_Ex q /\ p_Ey p = p_Ey q /\
  (nth i ns C0 * nth i ns C0 * p_Ez p = nth (S i) ns C0 * nth (S i) ns C0 * p_Ez q)%C.
Proof. intros arcsin pol ns ds th0 lam D i p q inv HD H1 H2 H3 H4. eapply resolved_interface; eassumption. Qed.
Lemma resolved_at_ends : forall arcsin pol ns ds th0 lam D p, inverts_sine arcsin ->
  coh_tmm arcsin pol ns ds th0 lam = Ok D ->
  (position_resolved 0 0 D = Ok p -> p_poyn p = c_entering D) /\
  (position_resolved (length ns - 1) 0 D = Ok p -> p_poyn p = c_T D).
Proof.
  intros arcsin pol ns ds th0 lam D p inv HD. split; intros H; [eapply resolved_ends|eapply resolved_last]; eassumption.
Qed.

Lemma same_RT arcsin pol ns ns' ds ds' th0 lam D D' : inverts_sine arcsin ->
  coh_tmm arcsin pol ns ds th0 lam = Ok D -> coh_tmm arcsin pol ns' ds' th0 lam = Ok D' ->
  nth 0 ns C0 = nth 0 ns' C0 -> nth (length ns - 1) ns C0 = nth (length ns' - 1) ns' C0 ->
  c_r D' = c_r D -> Cnorm2 (c_t D') = Cnorm2 (c_t D) -> c_R D' = c_R D /\ c_T D' = c_T D.
Proof.
  intros inv H H' E0 EL Er Et. apply coh_tmm_calc in H, H'.
  destruct (T_of_t pol ns ns' ds ds' th0 lam lam arcsin D D' inv H H' E0 EL) as (E1 & E2); [rewrite Er; reflexivity|auto|auto].
Qed.
Lemma last_app {A} (l m : list A) x : m <> [] -> nth (length (l ++ m) - 1) (l ++ m) x = nth (length m - 1) m x.
Proof.
  intros H. rewrite app_length. destruct m as [|y m]; [contradiction|]. rewrite app_nth2 by (simpl; lia). f_equal. simpl. lia.
Qed.
Lemma no_thickness : forall arcsin, inverts_sine arcsin -> forall pol A B n dA dB th0 lam D D',
  A <> [] -> B <> [] -> length dA = length A ->
  coh_tmm arcsin pol (A ++ B) (dA ++ dB) th0 lam = Ok D ->
  coh_tmm arcsin pol (A ++ n :: B) (dA ++ Fin 0 :: dB) th0 lam = Ok D' ->
  c_r D' = c_r D /\ c_t D' = c_t D /\ c_R D' = c_R D /\ c_T D' = c_T D.
Proof.
  intros arcsin inv pol A B n dA dB th0 lam D D' HA HB L H H'.
  destruct (insert_same arcsin inv pol A B n _ _ th0 lam HA HB D D' (coh_tmm_calc _ _ _ _ _ _ _ H) (coh_tmm_calc _ _ _ _ _ _ _ H') dA dB L eq_refl eq_refl) as (E1 & E2).
  split; [auto|]. split; [auto|]. eapply same_RT; try eassumption; auto; [| |congruence].
  - destruct A; [contradiction|reflexivity].
  - change (n :: B) with ([n] ++ B)%list. rewrite app_assoc, !last_app by exact HB. reflexivity.
Qed.
Lemma cut_layer : forall arcsin, inverts_sine arcsin -> forall pol A B n dA dB d1 d2 th0 lam D D',
  A <> [] -> B <> [] -> length dA = length A -> 0 <= d1 -> 0 <= d2 ->
  coh_tmm arcsin pol (A ++ n :: B) (dA ++ Fin (d1 + d2) :: dB) th0 lam = Ok D ->
  coh_tmm arcsin pol (A ++ n :: n :: B) (dA ++ Fin d1 :: Fin d2 :: dB) th0 lam = Ok D' ->
  0 <= Im (nth (length A) (c_kz D) C0) -> Im (nth (length A) (c_kz D) C0 * RtoC (d1 + d2))%C <= 35 ->
  c_r D' = c_r D /\ c_t D' = c_t D /\ c_R D' = c_R D /\ c_T D' = c_T D.
Proof.
  intros arcsin inv pol A B n dA dB d1 d2 th0 lam D D' HA HB L H1 H2 H H' HI HO.
  destruct (split_same arcsin inv pol A B n dA dB d1 d2 th0 lam D D' HA HB L (coh_tmm_calc _ _ _ _ _ _ _ H) (coh_tmm_calc _ _ _ _ _ _ _ H') H1 H2 HI HO) as (E1 & E2).
  split; [auto|]. split; [auto|]. eapply same_RT; try eassumption; auto; [| |congruence].
  - destruct A; [contradiction|reflexivity].
  - change (n :: n :: B) with ([n] ++ n :: B)%list. rewrite (app_assoc A [n]), !last_app by discriminate. reflexivity.
Qed.
Lemma half_waves : forall arcsin, inverts_sine arcsin -> forall pol ns dA dB d h m th0 lam D D',
  coh_tmm arcsin pol ns (dA ++ Fin d :: dB) th0 lam = Ok D ->
  coh_tmm arcsin pol ns (dA ++ Fin (d + h) :: dB) th0 lam = Ok D' ->
  Im (nth (length dA) (c_kz D) C0) = 0 -> Re (nth (length dA) (c_kz D) C0) * h = INR m * PI ->
  c_r D' = c_r D /\ c_t D' = (RtoC ((-1) ^ m) * c_t D)%C /\ c_R D' = c_R D /\ c_T D' = c_T D.
Proof.
  intros arcsin inv pol ns dA dB d h m th0 lam D D' H H' HI HR.
  destruct (half_wave arcsin pol ns dA dB d h m th0 lam D D' (coh_tmm_calc _ _ _ _ _ _ _ H) (coh_tmm_calc _ _ _ _ _ _ _ H') HI HR) as (E1 & E2).
  split; [auto|]. split; [auto|]. eapply same_RT; try eassumption; auto. rewrite E2, Cnorm2_mul.
  replace (Cnorm2 (RtoC ((-1) ^ m))) with 1; [ring|]. unfold Cnorm2. simpl. rewrite <- Rpow_mult_distr. replace (-1 * -1) with 1 by ring. rewrite pow1. ring.
Qed.
Lemma unpolarized_is : forall arcsin ns ds th0 lam R T,
  (unpolarized_RT arcsin ns ds th0 lam = Ok (R, T) <->
   exists S P, coh_tmm arcsin "s" ns ds th0 lam = Ok S /\ coh_tmm arcsin "p" ns ds th0 lam = Ok P /\
     R = (c_R S + c_R P) / 2 /\ T = (c_T S + c_T P) / 2).
Proof.
  intros. unfold unpolarized_RT. split.
  - intros H. inv_bind H. inv_bind H. apply Ok_inj in H. exists a, a0. repeat split; auto; congruence.
  - intros (S & P & -> & -> & -> & ->). reflexivity.
Qed.
Lemma opaque_pol arcsin ns ds th0 lam S P : inverts_sine arcsin -> coh_tmm arcsin "s" ns ds th0 lam = Ok S -> coh_tmm arcsin "p" ns ds th0 lam = Ok P ->
  no_opaque_layer S -> no_opaque_layer P.
Proof.
  intros inv HS HP HO. apply coh_tmm_calc in HS as KS. apply coh_tmm_calc in HP as KP.
  assert (EC : c_th P = c_th S) by (pose proof (k_snell _ _ _ _ _ _ _ KS); pose proof (k_snell _ _ _ _ _ _ _ KP); congruence).
  assert (EK : c_kz P = c_kz S) by (rewrite (k_kz _ _ _ _ _ _ _ KS), (k_kz _ _ _ _ _ _ _ KP), EC; reflexivity).
  unfold no_opaque_layer in *. destruct (k_in _ _ _ _ _ _ _ KS) as (_ & E1 & E2 & _). destruct (k_in _ _ _ _ _ _ _ KP) as (_ & E3 & E4 & _).
  rewrite EK, E3, E4. rewrite E1, E2 in HO. exact HO.
Qed.
Lemma unpolarized_bounds : forall arcsin ns ds th0 lam R T, inverts_sine arcsin ->
  unpolarized_RT arcsin ns ds th0 lam = Ok (R, T) ->
  Im (nth 0 ns C0 * Csin th0)%C = 0 -> 0 < lam ->
  (forall S, coh_tmm arcsin "s" ns ds th0 lam = Ok S -> no_opaque_layer S) ->
  (forall i, (0 < i)%nat -> (S i < length ns)%nat -> 0 <= thickness (nth i ds NaN)) ->
  Im (nth 0 ns C0) = 0 -> Im (Ccos th0) = 0 ->
  ((forall i, (0 < i)%nat -> (S i < length ns)%nat -> passive (nth i ns C0)) -> 0 <= R /\ 0 <= T /\ R + T <= 1) /\
  ((forall i, (0 < i)%nat -> (S i < length ns)%nat -> lossless (nth i ns C0)) -> R + T = 1).
Proof.
  intros arcsin ns ds th0 lam R T inv H Hs Hl HO Ht I1 I2. apply unpolarized_is in H as (S & P & HS & HP & -> & ->).
  assert (OS := HO S HS). assert (OP := opaque_pol _ _ _ _ _ _ _ inv HS HP OS). split; intros Hm.
  - destruct (passive_all _ _ _ _ _ _ _ inv HS Hs Hl OS Ht Hm) as (A1 & _ & A2). destruct (passive_all _ _ _ _ _ _ _ inv HP Hs Hl OP Ht Hm) as (B1 & _ & B2).
    specialize (A2 I1 I2). specialize (B2 I1 I2). lra.
  - destruct (lossless_all _ _ _ _ _ _ _ inv HS Hs OS Ht Hm) as (_ & _ & A2). destruct (lossless_all _ _ _ _ _ _ _ inv HP Hs OP Ht Hm) as (_ & _ & B2).
    specialize (A2 I1 I2). specialize (B2 I1 I2). lra.
Qed.

(** * Examples *)
Lemma film_example : exists arcsin D, inverts_sine arcsin /\ principal arcsin /\
  coh_tmm arcsin "p" [(1, 0); (2, 1/20); (3/2, 0)] [PInf; Fin 1; PInf] (PI / 6, 0) 1 = Ok D /\ no_opaque_layer D.
Proof.
  destruct arcsin_exists as (f & inv & pri). destruct (film_ok f "p" (1/20) 1 inv pri (or_intror eq_refl)) as (D & H & HO & _); try lra.
  exists f, D. auto.
Qed.
Lemma film_thick b d : 0 <= d -> forall i, (0 < i)%nat -> (S i < length (film b))%nat -> 0 <= thickness (nth i (film_d d) NaN).
Proof. intros Hd i H1 H2. simpl in H2. replace i with 1%nat by lia. exact Hd. Qed.
Lemma film_im0 b : Im (nth 0 (film b) C0 * Csin deg30)%C = 0.
Proof. rewrite film_s. reflexivity. Qed.
Lemma cos30_im : Im (Ccos deg30) = 0.
Proof. rewrite cos30. reflexivity. Qed.
Lemma film_passive b : 0 <= b -> forall i, (0 < i)%nat -> (S i < length (film b))%nat -> passive (nth i (film b) C0).
Proof. intros Hb i H1 H2. simpl in H2. replace i with 1%nat by lia. unfold passive. simpl. lra. Qed.
Lemma film_lossless : forall i, (0 < i)%nat -> (S i < length (film 0))%nat -> lossless (nth i (film 0) C0).
Proof. intros i H1 H2. simpl in H2. replace i with 1%nat by lia. unfold lossless. simpl. ring. Qed.
Lemma passive_example : exists arcsin D l, inverts_sine arcsin /\
  coh_tmm arcsin "p" [(1, 0); (2, 1/20); (3/2, 0)] [PInf; Fin 1; PInf] (PI / 6, 0) 1 = Ok D /\
  absorp_in_each_layer D = Ok l /\ 0 <= nth 1 l 0 /\ c_R D + c_T D <= 1.
Proof.
  destruct arcsin_exists as (f & inv & pri). destruct (film_ok f "p" (1/20) 1 inv pri (or_intror eq_refl)) as (D & H & HO & _); try lra.
  destruct (passive_all f "p" (film (1/20)) (film_d 1) deg30 1 D inv H (film_im0 _) Rlt_0_1 HO (film_thick _ _ Rle_0_1) (film_passive (1/20) ltac:(lra))) as (_ & (l & Hl & H0) & H1).
  exists f, D, l. repeat split; auto; [apply H0; simpl; lia|]. apply H1; [reflexivity|apply cos30_im].
Qed.
Lemma lossless_example : exists arcsin D, inverts_sine arcsin /\
  coh_tmm arcsin "s" [(1, 0); (2, 0); (3/2, 0)] [PInf; Fin 1; PInf] (PI / 6, 0) 1 = Ok D /\ c_R D + c_T D = 1.
Proof.
  destruct arcsin_exists as (f & inv & pri). destruct (film_ok f "s" 0 1 inv pri (or_introl eq_refl)) as (D & H & HO & _); try lra.
  destruct (lossless_all f "s" (film 0) (film_d 1) deg30 1 D inv H (film_im0 _) HO (film_thick _ _ Rle_0_1) film_lossless) as (_ & _ & H1).
  exists f, D. repeat split; auto. apply H1; [reflexivity|apply cos30_im].
Qed.
Lemma resolved_example : exists arcsin D p q, inverts_sine arcsin /\
  coh_tmm arcsin "p" [(1, 0); (2, 1/20); (3/2, 0)] [PInf; Fin 1; PInf] (PI / 6, 0) 1 = Ok D /\
  position_resolved 1 1 D = Ok p /\ position_resolved 2 0 D = Ok q /\ 0 <= p_absor p /\ p_poyn p = p_poyn q.
Proof.
  destruct arcsin_exists as (f & inv & pri). destruct (film_ok f "p" (1/20) 1 inv pri (or_intror eq_refl)) as (D & H & HO & _); try lra.
  assert (L1 : in_layer (film_d 1) 1 1) by (right; simpl; repeat split; try lia; try lra).
  assert (L2 : in_layer (film_d 1) 2 0) by (right; simpl; repeat split; try lia; try lra).
  destruct (proj2 (resolved_domain _ _ _ _ _ _ _ _ _ inv H) L1) as (p & Hp). destruct (proj2 (resolved_domain _ _ _ _ _ _ _ _ _ inv H) L2) as (q & Hq).
  exists f, D, p, q. repeat split; auto.
  - apply (resolved_sign _ _ _ _ _ _ _ _ _ _ inv H Hp (film_im0 _) Rlt_0_1). change (passive (nth 1 (film (1/20)) C0)). apply film_passive; [lra|lia|simpl; lia].
  - eapply (resolved_continuous f "p" _ _ _ _ D 1 p q inv H); auto; simpl; lia.
Qed.
Lemma reverse_example : exists arcsin D D', inverts_sine arcsin /\
  coh_tmm arcsin "s" [(1, 0); (2, 0); (3/2, 0)] [PInf; Fin 1; PInf] (PI / 6, 0) 1 = Ok D /\
  coh_tmm_reverse arcsin "s" [(1, 0); (2, 0); (3/2, 0)] [PInf; Fin 1; PInf] (PI / 6, 0) 1 = Ok D' /\
  c_T D' = c_T D /\ c_R D' = c_R D.
Proof.
  destruct arcsin_exists as (f & inv & pri). destruct (film_ok f "s" 0 1 inv pri (or_introl eq_refl)) as (D & H & HO & _ & _ & Hc); try lra.
  destruct (film_reverse f "s" 0 1 inv pri (or_introl eq_refl)) as (D' & H'); try lra.
  exists f, D, D'. split; [exact inv|]. split; [exact H|]. split; [exact H'|].
  assert (C00 : Im (cosine_of D 0) = 0).
  { unfold cosine_of. destruct (snell_all _ _ _ _ _ _ _ inv H) as (_ & _ & E & _). rewrite E. apply cos30_im. }
  split; [eapply (T_same f inv _ _ _ _ _ _ _ H H')|eapply (R_same f inv _ _ _ _ _ _ _ H H')]; auto; try reflexivity.
  - apply film_im0.
  - apply film_thick. lra.
  - apply film_lossless.
Qed.
Lemma alike_example : exists arcsin D D' D'', inverts_sine arcsin /\
  coh_tmm arcsin "s" ([(1, 0); (2, 0)] ++ [(3/2, 0)]) ([PInf; Fin (1/2)] ++ [PInf]) (PI / 6, 0) 1 = Ok D /\
  coh_tmm arcsin "s" ([(1, 0); (2, 0)] ++ (2, 1/10) :: [(3/2, 0)]) ([PInf; Fin (1/2)] ++ Fin 0 :: [PInf]) (PI / 6, 0) 1 = Ok D' /\
  coh_tmm arcsin "s" ([(1, 0)] ++ (2, 0) :: (2, 0) :: [(3/2, 0)]) ([PInf] ++ Fin (1/4) :: Fin (1/4) :: [PInf]) (PI / 6, 0) 1 = Ok D'' /\
  c_T D' = c_T D /\ c_T D'' = c_T D.
Proof.
  destruct arcsin_exists as (f & inv & pri).
  assert (Four : forall b d1 d2, 0 <= b <= 1/10 -> 0 <= d1 <= 1 -> 0 <= d2 <= 1 ->
    exists D, coh_tmm f "s" [(1, 0); (2, 0); (2, b); (3/2, 0)] [PInf; Fin d1; Fin d2; PInf] deg30 1 = Ok D).
  { intros b d1 d2 Hb H1 H2.
    destruct (coh_tmm_succeeds f inv pri "s" [(1, 0); (2, 0); (2, b); (3/2, 0)] [PInf; Fin d1; Fin d2; PInf] deg30 1 (1/2)) as (D & E & _); auto; try (simpl; lia); try lra.
    - intros i I0 I1. simpl in I1. assert (i = 1 \/ i = 2)%nat as [-> | ->] by lia.
      + destruct (film_layers f 0 d1 inv pri ltac:(lra) H1 1%nat ltac:(lia) ltac:(simpl; lia)) as (d & Q). exists d. exact Q.
      + destruct (film_layers f b d2 inv pri ltac:(lra) H2 1%nat ltac:(lia) ltac:(simpl; lia)) as (d & Q). exists d. exact Q.
    - apply (film_s b).
    - rewrite cos30. simpl. assert (0 < sqrt 3) by (apply sqrt_lt_R0; lra). lra.
    - intros i Hi. simpl in Hi. assert (i = 0 \/ i = 1 \/ i = 2 \/ i = 3)%nat as [-> | [-> | [-> | ->]]] by lia.
      + apply (film_admits 0 0); [lra|lia].
      + apply (film_admits 0 1); [lra|lia].
      + apply (film_admits b 1); [lra|lia].
      + apply (film_admits 0 2); [lra|lia].
    - exists D. exact E. }
  destruct (film_ok f "s" 0 (1/2) inv pri (or_introl eq_refl)) as (D & H & HO & HK & _ & _); try lra.
  destruct (Four (1/10) (1/2) 0) as (D' & H'); try lra. destruct (Four 0 (1/4) (1/4)) as (D'' & H''); try lra.
  exists f, D, D', D''. split; [exact inv|]. split; [exact H|]. split; [exact H'|]. split; [exact H''|]. split.
  - apply (no_thickness f inv "s" [(1, 0); (2, 0)] [(3/2, 0)] (2, 1/10) [PInf; Fin (1/2)] [PInf] deg30 1 D D'); auto; discriminate.
  - assert (KI : Im (nth 1 (c_kz D) C0) = 0) by (apply HK; reflexivity).
    apply (cut_layer f inv "s" [(1, 0)] [(3/2, 0)] (2, 0) [PInf] [PInf] (1/4) (1/4) deg30 1 D D''); auto; try discriminate; try lra.
    + replace (1/4 + 1/4) with (1/2) by field. exact H.
    + cbn [length]. lra.
    + cbn [length]. destruct (nth 1 (c_kz D) C0) as [x y]. simpl in KI |- *. subst. lra.
Qed.
Lemma unpolarized_example : exists arcsin R T, inverts_sine arcsin /\
  unpolarized_RT arcsin [(1, 0); (2, 0); (3/2, 0)] [PInf; Fin 1; PInf] (PI / 6, 0) 1 = Ok (R, T) /\ R + T = 1.
Proof.
  destruct arcsin_exists as (f & inv & pri).
  destruct (film_ok f "s" 0 1 inv pri (or_introl eq_refl)) as (S & HS & HO & _); try lra.
  destruct (film_ok f "p" 0 1 inv pri (or_intror eq_refl)) as (P & HP & _); try lra.
  exists f, ((c_R S + c_R P) / 2), ((c_T S + c_T P) / 2). split; [exact inv|].
  assert (E : unpolarized_RT f (film 0) (film_d 1) deg30 1 = Ok ((c_R S + c_R P) / 2, (c_T S + c_T P) / 2)).
  { apply unpolarized_is. exists S, P. auto. }
  split; [exact E|]. eapply (unpolarized_bounds f (film 0) (film_d 1) deg30 1); eauto.
  - apply film_im0.
  - lra.
  - intros S' HS'. rewrite HS in HS'. apply Ok_inj in HS'. subst. exact HO.
  - apply film_thick. lra.
  - apply cos30_im.
  - apply film_lossless.
Qed.
