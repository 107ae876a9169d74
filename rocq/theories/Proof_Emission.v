(** What placed sources add to the electric field. *)
From Coq Require Import Reals ZArith String List Bool Lra Lia Psatz.
From Verif Require Import Base BaseLemmas Model_Units Proof_Units Model_FDTD Model_Register Spec_FDTD Spec_Register Spec_Emission Proof_FDTD Proof_Register Proof_Register2 Proof_Index Proof_Signal.
Import ListNotations.
Open Scope R_scope.

Lemma hanning_rate s : pynum_R (s_period s) <> 0 ->
  s_frequency s * s_dt s = match s_hanning_dt s with Some d => d / pynum_R (s_period s) | None => 1 / 2 end.
Proof. intros H. unfold s_dt, s_frequency. destruct (s_hanning_dt s); field; exact H. Qed.

Lemma hanning_waveform s q : s_signal s = SHanning -> signal_ok 0 s -> forall dt dx co,
  (Reqb (s_cycle s) 0 || Reqb (s_frequency s * s_dt s / s_cycle s) 0 = false)%bool
  /\ (if (Z.of_nat q <? hanning_end (s_frequency s) (s_dt s) (s_cycle s))%Z
      then hanning (s_frequency s) (INR q * s_dt s) (s_cycle s) else 0)
     = waveform dt dx co s q.
Proof.
  intros Hs Ok dt dx co. unfold signal_ok in Ok. rewrite Hs in Ok. destruct Ok as (HT & Hc & Hd).
  pose proof (hanning_rate s HT) as R. unfold waveform, hanning_end, hanning. rewrite Hs.
  set (u := match s_hanning_dt s with Some d => d / pynum_R (s_period s) | None => 1 / 2 end) in *.
  assert (Hu : u <> 0).
  { unfold u. destruct (s_hanning_dt s) as [d|]; [|lra]. unfold Rdiv. apply Rmult_integral_contrapositive_currified.
    - congruence.
    - apply Rinv_neq_0_compat, HT. }
  rewrite R. clearbody u. split.
  - apply orb_false_iff. split; apply Reqb_false; [exact Hc|].
    unfold Rdiv. apply Rmult_integral_contrapositive_currified; [exact Hu|apply Rinv_neq_0_compat, Hc].
  - replace (2 * PI / (u / s_cycle s)) with (2 * PI * s_cycle s / u) by (field; split; assumption).
    replace (s_frequency s * (INR q * s_dt s)) with (INR q * u) by (rewrite <- R; ring).
    destruct (_ <? _)%Z; [|reflexivity]. f_equal. field.
Qed.

Lemma ricker_cells s dx : pynum_R (s_period s) <> 0 -> dx <> 0 -> s_gpw dx s = SPEED_OF_LIGHT * pynum_R (s_period s) / dx.
Proof. intros. unfold s_gpw, s_frequency. field. split; assumption. Qed.

Lemma line_emits_factor g s q : signal_ok (g_time_step g) s -> g_spacing g <> 0 ->
  line_factor (source_signal g s) q = Ok (waveform (g_time_step g) (g_spacing g) (g_courant g) s q).
Proof.
  intros Hok Hx. unfold source_signal. destruct (s_signal s) eqn:Hs; cbn [line_factor].
  - unfold signal_ok in Hok. rewrite Hs in Hok. apply Z.eqb_neq in Hok. rewrite Hok. unfold waveform. rewrite Hs.
    f_equal. f_equal. f_equal. unfold Rdiv. ring.
  - assert (O : signal_ok 0 s) by (unfold signal_ok in *; rewrite Hs in *; exact Hok).
    destruct (hanning_waveform s q Hs O (g_time_step g) (g_spacing g) (g_courant g)) as [A B]. rewrite A, <- B.
    destruct (_ <? _)%Z; reflexivity.
  - unfold signal_ok in Hok. rewrite Hs in Hok. rewrite (ricker_cells s _ Hok Hx). unfold waveform, ricker. rewrite Hs.
    rewrite (Rmult_comm _ 6). destruct (Rltb _ _); reflexivity.
Qed.
Lemma point_emits_value g s q : s_signal s <> SRicker -> signal_ok (g_time_step g) s ->
  point_value (s_amplitude s) (source_signal g s) q
  = Ok (s_amplitude s * waveform (g_time_step g) (g_spacing g) (g_courant g) s q).
Proof.
  intros Hn Hok. unfold source_signal. destruct (s_signal s) eqn:Hs; cbn [point_value]; [| |congruence].
  - unfold signal_ok in Hok. rewrite Hs in Hok. apply Z.eqb_neq in Hok. rewrite Hok. unfold waveform. rewrite Hs.
    f_equal. f_equal. f_equal. f_equal. unfold Rdiv. ring.
  - assert (O : signal_ok 0 s) by (unfold signal_ok in *; rewrite Hs in *; exact Hok).
    destruct (hanning_waveform s q Hs O (g_time_step g) (g_spacing g) (g_courant g)) as [A B]. rewrite A, <- B.
    destruct (_ <? _)%Z; [reflexivity|]. f_equal. ring.
Qed.

(** A point source placed on one cell. *)
Lemma point_emits nm s g i j k : s_signal s <> SRicker -> signal_ok (g_time_step g) s ->
  (forall n, nm = Some n -> ~ In n (g_attrs g)) ->
  (i < g_N g AX)%nat -> (j < g_N g AY)%nat -> (k < g_N g AZ)%nat ->
  exists g' src,
    setitem [KNum (PInt (Z.of_nat i)); KNum (PInt (Z.of_nat j)); KNum (PInt (Z.of_nat k))] (CPoint nm s) g = (g', None)
    /\ g_sources g' = g_sources g ++ [src]
    /\ forall q E, exists E', source_update_E (g_N g) q src E = Ok E'
      /\ E' (i, j, k) AZ = E (i, j, k) AZ
           + s_amplitude s * waveform (g_time_step g) (g_spacing g) (g_courant g) s q
      /\ forall p c, (p, c) <> ((i, j, k), AZ) -> E' p c = E p c.
Proof.
  intros Hr Hok Hn Hi Hj Hk.
  destruct (claim_none_of nm g Hn) as (h & Hc & S).
  exists (add_source_ (PointSource (Z.of_nat i, Z.of_nat j, Z.of_nat k) (s_amplitude s) (source_signal g s)) h),
         (PointSource (Z.of_nat i, Z.of_nat j, Z.of_nat k) (s_amplitude s) (source_signal g s)).
  split; [|split].
  - unfold setitem. cbn [pad_key handle_key handle_distance register]. unfold register_point. rewrite Hc. reflexivity.
  - cbn [add_source_ g_sources]. destruct S as (_ & _ & _ & _ & _ & _ & _ & _ & _ & _ & S & _). rewrite <- S. reflexivity.
  - intros q E. cbn [source_update_E]. rewrite (point_emits_value g s q Hr Hok). cbn [bind].
    assert (R : resolve3 (g_N g) (Z.of_nat i, Z.of_nat j, Z.of_nat k) = Ok (i, j, k)).
    { unfold resolve3. rewrite !resolve_nat by assumption. reflexivity. }
    rewrite R. cbn [bind]. eexists. split; [reflexivity|]. split.
    + unfold add_at, pos_eqb. rewrite !Nat.eqb_refl. reflexivity.
    + intros p c Hpc. unfold add_at. destruct p as [[a b] d]. cbn [pos_eqb].
      destruct (Nat.eqb_spec i a), (Nat.eqb_spec j b), (Nat.eqb_spec k d); cbn [andb]; try reflexivity.
      destruct c; cbn [axis_eqb]; try reflexivity. subst. congruence.
Qed.

(** The line across y. *)
Lemma y_line_far x z n : (2 <= n)%nat -> list_max0 (line_distances (y_line x z n)) = INR (n / 2) ^ 2.
Proof.
  intros Hn. assert (n / 2 < n)%nat by (apply Nat.div_lt; lia).
  assert (Hm : (n <= 2 * (n / 2) + 1)%nat) by (pose proof (Nat.div_mod n 2 ltac:(lia)); pose proof (Nat.mod_upper_bound n 2 ltac:(lia)); lia).
  apply Rle_antisym.
  - assert (A : forall l, (forall v, In v l -> v <= INR (n / 2) ^ 2) -> list_max0 l <= INR (n / 2) ^ 2).
    { induction l as [|v l IH]; intros Hl; cbn [list_max0 fold_right]; [apply pow2_ge_0|].
      apply Rmax_lub; [apply Hl; left; reflexivity|apply IH; intros; apply Hl; right; assumption]. }
    apply A. intros v Hv. apply (In_nth _ _ 0) in Hv as (j & Hj & <-).
    rewrite line_distances_length, y_line_length in Hj. rewrite y_line_distance by exact Hj.
    apply pow_maj_Rabs. apply Rabs_le. pose proof (pos_INR j).
    assert (INR j <= INR (2 * (n / 2))) by (apply le_INR; lia). rewrite mult_INR in H1. cbn [INR] in H1. lra.
  - apply Rle_trans with (nth 0 (line_distances (y_line x z n)) 0).
    + rewrite y_line_distance by lia. cbn [INR]. right. ring.
    + apply list_max0_ge, nth_In. rewrite line_distances_length, y_line_length. lia.
Qed.

Lemma y_line_weights x z n : (2 <= n)%nat ->
  line_weights (line_distances (y_line x z n)) = map (bell n) (seq 0 n).
Proof.
  intros Hn. assert (1 <= n / 2)%nat by (apply Nat.div_le_lower_bound; lia).
  assert (INR (n / 2) <> 0) by (apply not_0_INR; lia).
  apply (nth_ext _ _ 0 0).
  - rewrite line_weights_length, line_distances_length, y_line_length, map_length, seq_length. reflexivity.
  - intros j Hj. rewrite line_weights_length, line_distances_length, y_line_length in Hj.
    rewrite (nth_map_in (bell n) (seq 0 n) j 0%nat 0) by (rewrite seq_length; exact Hj). rewrite seq_nth by exact Hj.
    unfold line_weights. rewrite (nth_map_in _ _ _ 0 0) by (rewrite line_distances_length, y_line_length; exact Hj).
    rewrite y_line_distance, y_line_far by assumption. unfold bell. cbn [plus]. f_equal. field. assumption.
Qed.

Lemma line_fold N (x k n : nat) prof f E : (x < N AX)%nat -> (k < N AZ)%nat -> (n <= N AY)%nat -> length prof = n ->
  exists E', fold_res (fun cv F => let! p := resolve3 N (fst cv) in Ok (add_at F p AZ (snd cv * f)))
      (combine (map (fun j => (Z.of_nat x, Z.of_nat j, Z.of_nat k)) (seq (N AY - n) n)) prof) E = Ok E'
    /\ (forall j, (j < n)%nat -> E' (x, (N AY - n + j)%nat, k) AZ = E (x, (N AY - n + j)%nat, k) AZ + nth j prof 0 * f)
    /\ (forall p c, ~ (c = AZ /\ exists j, (N AY - n <= j < N AY)%nat /\ p = (x, j, k)) -> E' p c = E p c).
Proof.
  intros Hx Hk. revert prof E. induction n as [|n IH]; intros prof E Hn Hp.
  - exists E. destruct prof; [|discriminate]. cbn. split; [reflexivity|]. split; [intros; lia|reflexivity].
  - destruct prof as [|w prof]; [discriminate|]. cbn in Hp. injection Hp as Hp. cbn [seq map combine fold_res fst snd].
    assert (R : resolve3 N (Z.of_nat x, Z.of_nat (N AY - S n), Z.of_nat k) = Ok (x, (N AY - S n)%nat, k)).
    { unfold resolve3. rewrite !resolve_nat by lia. reflexivity. }
    rewrite R. cbn [bind]. replace (S (N AY - S n)) with (N AY - n)%nat by lia.
    destruct (IH prof (add_at E (x, (N AY - S n)%nat, k) AZ (w * f)) ltac:(lia) Hp) as (E' & F & A & B).
    exists E'. split; [exact F|]. split.
    + intros [|j] Hj.
      * rewrite Nat.add_0_r. rewrite B.
        -- unfold add_at, pos_eqb. rewrite !Nat.eqb_refl. reflexivity.
        -- intros (_ & j & Hj' & Hp'). injection Hp' as Hp'. lia.
      * replace (N AY - S n + S j)%nat with (N AY - n + j)%nat by lia. rewrite A by lia. cbn [nth]. f_equal.
        unfold add_at, pos_eqb. destruct (Nat.eqb_spec (N AY - S n) (N AY - n + j)); [lia|].
        rewrite andb_false_r. reflexivity.
    + intros p c Hp'. rewrite B.
      * unfold add_at. destruct p as [[a b] d]. cbn [pos_eqb].
        destruct (Nat.eqb_spec x a), (Nat.eqb_spec (N AY - S n) b), (Nat.eqb_spec k d); cbn [andb]; try reflexivity.
        destruct c; cbn [axis_eqb]; try reflexivity. exfalso. apply Hp'. split; [reflexivity|].
        exists b. subst. split; [lia|reflexivity].
      * intros (-> & j & Hj & ->). apply Hp'. split; [reflexivity|]. exists j. split; [lia|reflexivity].
Qed.

(** A line source across y emits the waveform with a bell-shaped profile. *)
Lemma line_emits nm s g i k : signal_ok (g_time_step g) s -> g_spacing g <> 0 ->
  (2 <= g_N g AY)%nat -> (i < g_N g AX)%nat -> (k < g_N g AZ)%nat ->
  (forall n, nm = Some n -> ~ In n (g_attrs g)) ->
  exists g' src,
    setitem [KNum (PInt (Z.of_nat i)); full_slice; KNum (PInt (Z.of_nat k))] (CLine nm s) g = (g', None)
    /\ g_sources g' = g_sources g ++ [src]
    /\ forall q E, exists E', source_update_E (g_N g) q src E = Ok E'
      /\ (forall j, (j < g_N g AY)%nat ->
            E' (i, j, k) AZ = E (i, j, k) AZ
              + s_amplitude s * (bell (g_N g AY) j / Rsum (map (bell (g_N g AY)) (seq 0 (g_N g AY))))
                * waveform (g_time_step g) (g_spacing g) (g_courant g) s q)
      /\ (forall p c, ~ (c = AZ /\ exists j, (j < g_N g AY)%nat /\ p = (i, j, k)) -> E' p c = E p c).
Proof.
  intros Hok Hx Hy Hi Hk Hn.
  destruct (line_source_across nm s g (Z.of_nat i) (Z.of_nat k) Hy Hn) as (g' & prof & S1 & S2 & ->).
  exists g'. eexists. split; [exact S1|]. split; [exact S2|]. intros q E. cbn [source_update_E].
  rewrite (line_emits_factor g s q Hok Hx). cbn [bind].
  set (w := waveform _ _ _ s q). clearbody w.
  set (prof := line_profile _ _).
  assert (Lp : length prof = g_N g AY).
  { unfold prof, line_profile. rewrite map_length, line_weights_length, line_distances_length, y_line_length. reflexivity. }
  destruct (line_fold (g_N g) i k (g_N g AY) prof w E Hi Hk (le_n _) Lp) as (E' & F & A & B).
  rewrite Nat.sub_diag in F. exists E'. split; [exact F|]. split.
  - intros j Hj. specialize (A j Hj). rewrite Nat.sub_diag in A. cbn [plus] in A. rewrite A. f_equal. f_equal.
    unfold prof, line_profile. rewrite y_line_weights by exact Hy.
    rewrite (nth_map_in _ _ _ 0 0) by (rewrite map_length, seq_length; exact Hj).
    rewrite (nth_map_in _ _ _ 0%nat 0) by (rewrite seq_length; exact Hj). rewrite seq_nth by exact Hj. cbn [plus].
    unfold Rdiv. ring.
  - intros p c Hp. apply B. intros (-> & j & Hj & ->). apply Hp. split; [reflexivity|]. exists j. split; [lia|reflexivity].
Qed.
