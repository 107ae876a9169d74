From Coq Require Import Reals ZArith String List Bool Lra Lia Psatz.
From Verif Require Import Base PyVal Cplx CplxLemmas Model_TMM Spec_TMM Proof_TMM Proof_TMM2 Proof_TMM3 Proof_TMM4 Proof_TMM5 Proof_TMM6.
Import ListNotations.
Open Scope R_scope.

(** * Stacks that act alike *)
Section Alike.
Variable arcsin : C -> C.
Hypothesis inv : inverts_sine arcsin.

Lemma by_wave pol ns ds th0 lam D (g : nat -> C * C) r t : calc arcsin pol ns ds th0 lam D ->
  (forall i, (S i < length ns)%nat ->
    tangential pol (nth i ns C0) (Ccos (nth i (c_th D) C0)) (if Nat.eqb i 0 then g 0%nat else advance (nth i (phases D) C0) (g i))
    = tangential pol (nth (S i) ns C0) (Ccos (nth (S i) (c_th D) C0)) (g (S i))) ->
  g 0%nat = (C1, r) -> g (length ns - 1)%nat = (t, C0) -> r = c_r D /\ t = c_t D.
Proof.
  intros K H H0 H1. assert (HN := k_N _ _ _ _ _ _ _ K).
  assert (G : forall i, (i < length ns)%nat -> nth i (map g (seq 0 (length ns))) (C0, C0) = g i).
  { intros i Hi. rewrite (nth_indep _ _ (g 0%nat)) by (rewrite map_length, seq_length; exact Hi). rewrite map_nth, seq_nth by exact Hi. reflexivity. }
  apply (coh_unique arcsin _ _ _ _ _ _ K (map g (seq 0 (length ns)))).
  - split; [rewrite map_length, seq_length; reflexivity|]. intros i Hi. rewrite !G by lia.
    rewrite !(cs_nth arcsin _ _ _ _ _ _ K). destruct (Nat.ltb_spec i (length ns)); [|lia]. destruct (Nat.ltb_spec (S i) (length ns)); [|lia].
    apply H. exact Hi.
  - rewrite G by lia. exact H0.
  - rewrite G by lia. exact H1.
Qed.

(** the cosines, by position *)
Definition cos_at (s : C) (first last : bool) (th0 n : C) : C :=
  if first then Ccos th0
  else let g := arcsin (s / n)%C in
       if last then Ccos (if forwards (n * Ccos g)%C then g else (RtoC PI - g)%C) else Ccos g.
Lemma cos_is pol ns ds th0 lam D i : calc arcsin pol ns ds th0 lam D -> (i < length ns)%nat ->
  Ccos (nth i (c_th D) C0) = cos_at (nth 0 ns C0 * Csin th0)%C (Nat.eqb i 0) (Nat.eqb i (length ns - 1)) th0 (nth i ns C0).
Proof.
  intros K Hi. assert (HN := k_N _ _ _ _ _ _ _ K). unfold cos_at.
  pose proof (list_snell_spec arcsin inv _ _ _ (k_N _ _ _ _ _ _ _ K) (k_snell _ _ _ _ _ _ _ K)) as (_ & _ & Mid & _ & _ & _ & La).
  cbv zeta in *. destruct (Nat.eqb_spec i 0) as [-> | H0]; [apply (c_0 arcsin inv _ _ _ _ _ _ K)|].
  destruct (Nat.eqb_spec i (length ns - 1)) as [-> | HL]; [rewrite La; reflexivity|]. rewrite Mid by lia. reflexivity.
Qed.

Lemma tangential_inj pol n c x y : n <> C0 -> c <> C0 -> tangential pol n c x = tangential pol n c y -> x = y.
Proof.
  intros Hn Hc H. rewrite !tangential_ab in H. assert (E1 := f_equal fst H). assert (E2 := f_equal snd H). cbn [fst snd] in E1, E2.
  assert (Ha : ca pol n c <> C0). { unfold ca. destruct String.eqb; auto. intros Q. injection Q. lra. }
  assert (Hb : cb pol n c <> C0). { unfold cb. destruct String.eqb; auto. apply Cmul_neq_0; auto. }
  apply Cmul_cancel in E1; auto. apply Cmul_cancel in E2; auto.
  destruct x as [f b], y as [f' b']. cbn [fst snd] in *.
  f_equal; apply (Cmul_cancel (RtoC 2)); try apply two_neq; rewrite RtoC_2.
  - transitivity ((f + b) + (f - b))%C; [ring|]. rewrite E1, E2. ring.
  - transitivity ((f + b) - (f - b))%C; [ring|]. rewrite E1, E2. ring.
Qed.

Lemma advance_advance a b x : advance a (advance b x) = advance (a + b)%C x.
Proof.
  unfold advance. cbn [fst snd]. replace (Ci * (a + b))%C with (Ci * a + Ci * b)%C by ring.
  replace (- Ci * (a + b))%C with (- Ci * a + - Ci * b)%C by ring. rewrite !Cexp_add. f_equal; ring.
Qed.

(** ** A layer of no thickness *)
Section Insert.
Variables (pol : string) (A B : list C) (x : C) (dl dl' : list pyfloat) (th0 : C) (lam : R).
Hypothesis HA : A <> [].
Hypothesis HB : B <> [].
Let a := length A.
Lemma A_pos : (0 < a)%nat.
Proof. unfold a. destruct A; [contradiction|simpl; lia]. Qed.
Lemma B_pos : (0 < length B)%nat.
Proof. destruct B; [contradiction|simpl; lia]. Qed.

(** skipping the position [a] *)
Definition skip (i : nat) : nat := if Nat.ltb i a then i else S i.
Lemma nth_skip {T} (l l' : list T) y i d : length l = a -> nth i (l ++ l') d = nth (skip i) (l ++ y :: l') d.
Proof.
  intros L. unfold skip. destruct (Nat.ltb_spec i a).
  - rewrite !app_nth1 by lia. reflexivity.
  - rewrite !app_nth2 by lia. rewrite L. replace (S i - a)%nat with (S (i - a)) by lia. reflexivity.
Qed.

Variables D D' : coh_data.
Hypothesis K : calc arcsin pol (A ++ B) dl th0 lam D.
Hypothesis K' : calc arcsin pol (A ++ x :: B) dl' th0 lam D'.
Let ns := (A ++ B)%list.
Let ns' := (A ++ x :: B)%list.
Lemma len_ns : length ns' = S (length ns).
Proof. unfold ns, ns'. rewrite !app_length. simpl. lia. Qed.
Lemma a_lt : (a < length ns)%nat.
Proof. unfold ns. rewrite app_length. pose proof B_pos. unfold a. lia. Qed.
Lemma skip_n i : nth i ns C0 = nth (skip i) ns' C0.
Proof. apply nth_skip. reflexivity. Qed.
Lemma skip_lt i : (i < length ns)%nat -> (skip i < length ns')%nat.
Proof. intros. rewrite len_ns. unfold skip. destruct (Nat.ltb i a); lia. Qed.
Lemma skip_cos i : (i < length ns)%nat -> Ccos (nth i (c_th D) C0) = Ccos (nth (skip i) (c_th D') C0).
Proof.
  intros Hi. pose proof A_pos. pose proof a_lt.
  rewrite (cos_is _ _ _ _ _ _ i K Hi). rewrite (cos_is _ _ _ _ _ _ (skip i) K' (skip_lt i Hi)).
  fold ns ns'. rewrite len_ns. rewrite (skip_n i).
  replace (nth 0 ns C0) with (nth 0 ns' C0).
  2:{ rewrite (skip_n 0). unfold skip. destruct (Nat.ltb_spec 0 a); [reflexivity|lia]. }
  f_equal.
  - unfold skip. destruct (Nat.ltb_spec i a); auto. destruct i; [lia|reflexivity].
  - unfold skip. destruct (Nat.ltb_spec i a).
    + destruct (Nat.eqb_spec i (length ns - 1)); [lia|]. destruct (Nat.eqb_spec i (S (length ns) - 1)); [lia|reflexivity].
    + destruct (Nat.eqb_spec i (length ns - 1)); destruct (Nat.eqb_spec (S i) (S (length ns) - 1)); auto; lia.
Qed.
Lemma skip_phase i : (i < length ns)%nat -> nth i dl NaN = nth (skip i) dl' NaN -> nth i (phases D) C0 = nth (skip i) (phases D') C0.
Proof.
  intros Hi Hd. rewrite (phases_nth arcsin _ _ _ _ _ _ K) by exact Hi. rewrite (phases_nth arcsin _ _ _ _ _ _ K') by (apply skip_lt; exact Hi).
  rewrite Hd. f_equal. rewrite (kz_is arcsin _ _ _ _ _ _ K) by exact Hi. rewrite (kz_is arcsin _ _ _ _ _ _ K') by (apply skip_lt; exact Hi).
  cbv beta. fold ns ns'. rewrite skip_n, skip_cos by exact Hi. reflexivity.
Qed.
Lemma skip_last : skip (length ns - 1) = (length ns' - 1)%nat.
Proof. pose proof a_lt. rewrite len_ns. unfold skip. destruct (Nat.ltb_spec (length ns - 1) a); lia. Qed.

(** fields at the interfaces of the longer stack *)
Lemma m' i : (S i < length ns')%nat ->
  tangential pol (nth i ns' C0) (Ccos (nth i (c_th D') C0)) (if Nat.eqb i 0 then wave_of D' 0 else advance (nth i (phases D') C0) (wave_of D' i))
  = tangential pol (nth (S i) ns' C0) (Ccos (nth (S i) (c_th D') C0)) (wave_of D' (S i)).
Proof. intros Hi. exact (match_interface arcsin _ _ _ _ _ _ K' i Hi). Qed.

Lemma insert_same dA dB : length dA = length A -> dl = (dA ++ dB)%list -> dl' = (dA ++ Fin 0 :: dB)%list -> c_r D = c_r D' /\ c_t D = c_t D'.
Proof.
  intros LA Ed Ed'. pose proof A_pos as PA. pose proof a_lt as Pa.
  assert (E : c_r D' = c_r D /\ c_t D' = c_t D); [|destruct E; auto].
  apply (by_wave _ _ _ _ _ _ (fun i => wave_of D' (skip i)) _ _ K).
  - intros i Hi. fold ns in Hi |- *. rewrite (skip_phase i) by (try lia; rewrite Ed, Ed'; apply nth_skip; exact LA). rewrite !skip_cos by lia. rewrite !skip_n.
    destruct (Nat.eq_dec (S i) a) as [Ea | Ea].
    + (* across the new layer *)
      assert (S1 : skip i = i) by (unfold skip; destruct (Nat.ltb_spec i a); lia).
      assert (S2 : skip (S i) = S (S i)) by (unfold skip; destruct (Nat.ltb_spec (S i) a); lia).
      assert (S0 : skip 0 = 0%nat) by (unfold skip; destruct (Nat.ltb_spec 0 a); lia).
      rewrite S1, S2, S0. rewrite (m' i) by (rewrite len_ns; lia). rewrite <- (m' (S i)) by (rewrite len_ns; lia). cbn [Nat.eqb]. f_equal.
      rewrite (phases_nth arcsin _ _ _ _ _ _ K') by (fold ns'; rewrite len_ns; lia). rewrite Ea.
      replace (nth a dl' NaN) with (Fin 0).
      2:{ rewrite Ed', app_nth2 by (unfold a; lia). rewrite LA. fold a. rewrite Nat.sub_diag. reflexivity. }
      cbn [thickness]. unfold phase_of.
      replace (Rltb 35 _) with false. { symmetry. apply advance_0. }
      symmetry. apply Rltb_false. simpl. lra.
    + assert (S1 : skip (S i) = S (skip i)) by (unfold skip; destruct (Nat.ltb_spec i a), (Nat.ltb_spec (S i) a); lia).
      assert (S0 : skip 0 = 0%nat) by (unfold skip; destruct (Nat.ltb_spec 0 a); lia).
      assert (S2 : Nat.eqb i 0 = Nat.eqb (skip i) 0) by (unfold skip; destruct (Nat.ltb_spec i a); destruct i; auto; lia).
      rewrite S1, S0, S2. apply m'. rewrite len_ns. unfold skip. destruct (Nat.ltb i a); lia.
  - unfold skip. destruct (Nat.ltb_spec 0 a); [reflexivity|lia].
  - fold ns. rewrite skip_last. exact (wave_last arcsin _ _ _ _ _ _ K').
Qed.
End Insert.

(** ** A layer cut in two *)
Lemma split_same pol A B x dA dB d1 d2 th0 lam D D' : A <> [] -> B <> [] -> length dA = length A ->
  calc arcsin pol (A ++ x :: B) (dA ++ Fin (d1 + d2) :: dB) th0 lam D ->
  calc arcsin pol (A ++ x :: x :: B) (dA ++ Fin d1 :: Fin d2 :: dB) th0 lam D' ->
  0 <= d1 -> 0 <= d2 ->
  0 <= Im (nth (length A) (c_kz D) C0) -> Im (nth (length A) (c_kz D) C0 * RtoC (d1 + d2))%C <= 35 ->
  c_r D = c_r D' /\ c_t D = c_t D'.
Proof.
  intros HA HB LA K K' H1 H2 HI HO.
  assert (HB' : x :: B <> []) by discriminate.
  set (a := length A) in *. set (ns := (A ++ x :: B)%list). set (ns' := (A ++ x :: x :: B)%list).
  set (dl := (dA ++ Fin (d1 + d2) :: dB)%list) in *. set (dl' := (dA ++ Fin d1 :: Fin d2 :: dB)%list) in *.
  assert (PA : (0 < a)%nat) by (apply (A_pos A HA)).
  assert (PB : (0 < length B)%nat) by (destruct B; [contradiction|simpl; lia]).
  assert (Ln : length ns = (a + S (length B))%nat) by (unfold ns; rewrite app_length; reflexivity).
  assert (Ln' : length ns' = S (length ns)) by (apply len_ns).
  set (sk := skip A).
  assert (Xa : nth a ns C0 = x) by (unfold ns; rewrite app_nth2 by (unfold a; lia); unfold a; rewrite Nat.sub_diag; reflexivity).
  assert (Xa' : nth a ns' C0 = x) by (unfold ns'; rewrite app_nth2 by (unfold a; lia); unfold a; rewrite Nat.sub_diag; reflexivity).
  assert (Xb' : nth (S a) ns' C0 = x).
  { unfold ns'. rewrite app_nth2 by (unfold a; lia). unfold a. replace (S (length A) - length A)%nat with 1%nat by lia. reflexivity. }
  assert (Da : nth a dl NaN = Fin (d1 + d2)) by (unfold dl; rewrite app_nth2 by lia; rewrite LA, Nat.sub_diag; reflexivity).
  assert (Da' : nth a dl' NaN = Fin d1) by (unfold dl'; rewrite app_nth2 by lia; rewrite LA, Nat.sub_diag; reflexivity).
  assert (Db' : nth (S a) dl' NaN = Fin d2).
  { unfold dl'. rewrite app_nth2 by lia. rewrite LA. replace (S a - a)%nat with 1%nat by lia. reflexivity. }
  (* the two halves have the cosine of the whole *)
  assert (Cb : Ccos (nth a (c_th D) C0) = Ccos (nth (S a) (c_th D') C0)).
  { rewrite (skip_cos pol A (x :: B) x dl dl' th0 lam HA HB' D D' K K' a) by (fold ns; lia). unfold skip. fold a. rewrite Nat.ltb_irrefl. reflexivity. }
  assert (Ca : Ccos (nth a (c_th D') C0) = Ccos (nth (S a) (c_th D') C0)).
  { rewrite (cos_is _ _ _ _ _ _ a K') by (fold ns'; lia). rewrite (cos_is _ _ _ _ _ _ (S a) K') by (fold ns'; lia).
    fold ns'. rewrite Xa', Xb'. f_equal.
    - destruct a; [lia|reflexivity].
    - destruct (Nat.eqb_spec a (length ns' - 1)); [lia|]. destruct (Nat.eqb_spec (S a) (length ns' - 1)); [lia|reflexivity]. }
  assert (HaN : (a < length ns)%nat) by lia.
  assert (Ka : nth a (c_kz D') C0 = nth a (c_kz D) C0).
  { rewrite (kz_is arcsin _ _ _ _ _ _ K') by (fold ns'; lia). rewrite (kz_is arcsin _ _ _ _ _ _ K) by exact HaN. cbv beta. fold ns ns'.
    rewrite Xa, Xa', Ca, Cb. reflexivity. }
  assert (Kb : nth (S a) (c_kz D') C0 = nth a (c_kz D) C0).
  { rewrite (kz_is arcsin _ _ _ _ _ _ K') by (fold ns'; lia). rewrite (kz_is arcsin _ _ _ _ _ _ K) by exact HaN. cbv beta. fold ns ns'.
    rewrite Xa, Xb', Cb. reflexivity. }
  set (k := nth a (c_kz D) C0) in *.
  assert (IM : forall d, Im (k * RtoC d)%C = Im k * d) by (intros; simpl; ring). rewrite IM in HO.
  assert (PO : forall d, Im k * d <= 35 -> phase_of k d = (k * RtoC d)%C).
  { intros d Hd. unfold phase_of. destruct (Rltb 35 _) eqn:E; auto. apply Rltb_true in E. rewrite IM in E. lra. }
  assert (P0 : nth a (phases D) C0 = (k * RtoC (d1 + d2))%C).
  { rewrite (phases_nth arcsin _ _ _ _ _ _ K) by exact HaN. rewrite Da. apply PO. exact HO. }
  assert (P1 : nth a (phases D') C0 = (k * RtoC d1)%C).
  { rewrite (phases_nth arcsin _ _ _ _ _ _ K') by (fold ns'; lia). rewrite Da', Ka. apply PO. nra. }
  assert (P2 : nth (S a) (phases D') C0 = (k * RtoC d2)%C).
  { rewrite (phases_nth arcsin _ _ _ _ _ _ K') by (fold ns'; lia). rewrite Db', Kb. apply PO. nra. }
  (* inside, the wave goes on unchanged *)
  assert (Hx : x <> C0). { destruct (snell_all arcsin inv _ _ _ _ _ _ K a HaN) as (Q & _). cbv beta in Q. fold ns in Q. rewrite Xa in Q. exact Q. }
  assert (Hc : Ccos (nth a (c_th D') C0) <> C0).
  { destruct (k_rt _ _ _ _ _ _ _ K') as (rt & Hrt & Hn & _). fold ns' in Hrt, Hn.
    destruct (interfaces_spec _ _ _ _ (th_length arcsin _ _ _ _ _ _ K') Hrt) as (_ & F).
    fold ns' in F. destruct (F a ltac:(lia)) as ((FD & _ & Ft) & HP). specialize (Hn a ltac:(lia)). rewrite Ft in Hn.
    apply (Cdiv_neq_inv _ _ FD) in Hn. intros Z. apply Hn. unfold cb. rewrite Z. destruct String.eqb; ring. }
  assert (W : wave_of D' (S a) = advance (k * RtoC d1)%C (wave_of D' a)).
  { pose proof (m' pol A (x :: B) x dl' th0 lam D' K' a) as M. fold ns' in M. specialize (M ltac:(lia)). rewrite Xa', Xb', <- Ca, P1 in M.
    destruct (Nat.eqb_spec a 0); [lia|]. apply tangential_inj in M; auto. }
  assert (E : c_r D' = c_r D /\ c_t D' = c_t D); [|destruct E; auto].
  apply (by_wave _ _ _ _ _ _ (fun i => if Nat.leb i a then wave_of D' i else wave_of D' (S i)) _ _ K).
  - intros i Hi. fold ns in Hi |- *.
    assert (SC : forall i, (i < length ns)%nat -> Ccos (nth i (c_th D) C0) = Ccos (nth (skip A i) (c_th D') C0))
      by (intros; apply (skip_cos pol A (x :: B) x dl dl' th0 lam HA HB' D D' K K'); assumption).
    assert (SN : forall i, nth i ns C0 = nth (skip A i) ns' C0) by (intros; apply nth_skip; reflexivity).
    assert (MM := m' pol A (x :: B) x dl' th0 lam D' K'). fold ns' in MM.
    destruct (Nat.lt_trichotomy i a) as [Hia | [-> | Hia]].
    + assert (S1 : skip A i = i) by (unfold skip; fold a; destruct (Nat.ltb_spec i a); lia).
      assert (SD : nth i dl NaN = nth (skip A i) dl' NaN).
      { rewrite S1. unfold dl, dl'. rewrite !app_nth1 by lia. reflexivity. }
      rewrite (skip_phase pol A (x :: B) x dl dl' th0 lam HA HB' D D' K K' i) by (try exact SD; fold ns; lia).
      rewrite (SC i), (SN i), S1 by lia.
      destruct (Nat.leb_spec 0 a); [|lia]. destruct (Nat.leb_spec i a); [|lia]. destruct (Nat.leb_spec (S i) a); [|lia].
      rewrite MM by lia. destruct (Nat.eq_dec (S i) a) as [Ea | Ea].
      * rewrite Ea, Xa, Xa', Cb, Ca. reflexivity.
      * rewrite (SC (S i)), (SN (S i)) by lia. unfold skip. fold a. destruct (Nat.ltb_spec (S i) a); [reflexivity|lia].
    + destruct (Nat.eqb_spec a 0); [lia|]. rewrite Nat.leb_refl. destruct (Nat.leb_spec (S a) a); [lia|].
      rewrite (SC (S a)), (SN (S a)) by lia. unfold skip. fold a. destruct (Nat.ltb_spec (S a) a); [lia|].
      rewrite <- MM by lia. cbn [Nat.eqb]. rewrite P2, W, advance_advance, P0, Xa, Xb', Cb. f_equal. f_equal.
      apply Ceq; simpl; ring.
    + assert (S1 : skip A i = S i) by (unfold skip; fold a; destruct (Nat.ltb_spec i a); lia).
      assert (S2 : skip A (S i) = S (S i)) by (unfold skip; fold a; destruct (Nat.ltb_spec (S i) a); lia).
      assert (SD : nth i dl NaN = nth (skip A i) dl' NaN).
      { rewrite S1. unfold dl, dl'. rewrite !app_nth2 by lia. rewrite LA. replace (S i - a)%nat with (S (S (i - a - 1))) by lia.
        replace (i - a)%nat with (S (i - a - 1)) by lia. simpl. rewrite Nat.sub_0_r. reflexivity. }
      rewrite (skip_phase pol A (x :: B) x dl dl' th0 lam HA HB' D D' K K' i) by (try exact SD; fold ns; lia).
      rewrite (SC i), (SN i), (SC (S i)), (SN (S i)), S1, S2 by lia.
      destruct (Nat.leb_spec i a); [lia|]. destruct (Nat.leb_spec (S i) a); [lia|]. destruct (Nat.eqb_spec i 0); [lia|].
      rewrite <- MM by lia. reflexivity.
  - simpl. reflexivity.
  - fold ns. destruct (Nat.leb_spec (length ns - 1) a); [lia|]. replace (S (length ns - 1)) with (length ns' - 1)%nat by lia.
    exact (wave_last arcsin _ _ _ _ _ _ K').
Qed.

(** ** Half a wavelength more *)
Lemma Cexp_mPI m z : Cexp (z + Ci * RtoC (INR m * PI))%C = (RtoC ((-1) ^ m) * Cexp z)%C /\
  Cexp (z - Ci * RtoC (INR m * PI))%C = (RtoC ((-1) ^ m) * Cexp z)%C.
Proof.
  assert (E : Cexp (Ci * RtoC (INR m * PI))%C = RtoC ((-1) ^ m) /\ Cexp (- (Ci * RtoC (INR m * PI)))%C = RtoC ((-1) ^ m)).
  { induction m as [|m (IH1 & IH2)].
    - simpl INR. simpl pow. split; [replace (Ci * RtoC (0 * PI))%C with C0 by (apply Ceq; simpl; ring)|replace (- (Ci * RtoC (0 * PI)))%C with C0 by (apply Ceq; simpl; ring)];
      rewrite Cexp_0; reflexivity.
    - rewrite S_INR. simpl pow. split.
      + replace (Ci * RtoC ((INR m + 1) * PI))%C with (Ci * RtoC (INR m * PI) + Ci * RtoC PI)%C by (apply Ceq; simpl; ring).
        rewrite Cexp_add, IH1. replace (Cexp (Ci * RtoC PI)) with (- C1)%C; [apply Ceq; simpl; ring|].
        unfold Cexp, Cscal, Cis. replace (Re (Ci * RtoC PI)%C) with 0 by (simpl; ring). replace (Im (Ci * RtoC PI)%C) with PI by (simpl; ring).
        rewrite exp_0, cos_PI, sin_PI. apply Ceq; simpl; ring.
      + replace (- (Ci * RtoC ((INR m + 1) * PI)))%C with (- (Ci * RtoC (INR m * PI)) + - (Ci * RtoC PI))%C by (apply Ceq; simpl; ring).
        rewrite Cexp_add, IH2. replace (Cexp (- (Ci * RtoC PI))) with (- C1)%C; [apply Ceq; simpl; ring|].
        unfold Cexp, Cscal, Cis. replace (Re (- (Ci * RtoC PI))%C) with 0 by (simpl; ring). replace (Im (- (Ci * RtoC PI))%C) with (- PI) by (simpl; ring).
        rewrite exp_0, cos_neg, sin_neg, cos_PI, sin_PI. apply Ceq; simpl; ring. }
  destruct E as (E1 & E2). split.
  - rewrite Cexp_add, E1. ring.
  - replace (z - Ci * RtoC (INR m * PI))%C with (z + - (Ci * RtoC (INR m * PI)))%C by ring. rewrite Cexp_add, E2. ring.
Qed.
Definition scale2 (e : C) (x : C * C) : C * C := ((e * fst x)%C, (e * snd x)%C).
Lemma tangential_scale pol n c e x : tangential pol n c (scale2 e x) = scale2 e (tangential pol n c x).
Proof. unfold tangential, scale2. destruct String.eqb; cbn [fst snd]; f_equal; ring. Qed.
Lemma advance_scale d e x : advance d (scale2 e x) = scale2 e (advance d x).
Proof. unfold advance, scale2. cbn [fst snd]. f_equal; ring. Qed.
Lemma half_wave pol ns dA dB d h m th0 lam D D' :
  calc arcsin pol ns (dA ++ Fin d :: dB) th0 lam D -> calc arcsin pol ns (dA ++ Fin (d + h) :: dB) th0 lam D' ->
  Im (nth (length dA) (c_kz D) C0) = 0 -> Re (nth (length dA) (c_kz D) C0) * h = INR m * PI ->
  c_r D' = c_r D /\ c_t D' = (RtoC ((-1) ^ m) * c_t D)%C.
Proof.
  intros K K' HI HR. set (a := length dA) in *.
  set (dl := (dA ++ Fin d :: dB)%list) in *. set (dl' := (dA ++ Fin (d + h) :: dB)%list) in *.
  assert (HN := k_N _ _ _ _ _ _ _ K). set (N := length ns) in *.
  assert (Ld : length dl = N) by (apply (k_ds _ _ _ _ _ _ _ K)).
  assert (HaN : (a < N)%nat) by (rewrite <- Ld; unfold dl; rewrite app_length; simpl; unfold a; lia).
  assert (CC : c_th D' = c_th D).
  { pose proof (k_snell _ _ _ _ _ _ _ K) as E1. pose proof (k_snell _ _ _ _ _ _ _ K') as E2. congruence. }
  assert (KK : c_kz D' = c_kz D).
  { rewrite (k_kz _ _ _ _ _ _ _ K), (k_kz _ _ _ _ _ _ _ K'), CC. reflexivity. }
  assert (Da : nth a dl NaN = Fin d) by (unfold dl; rewrite app_nth2 by (unfold a; lia); unfold a; rewrite Nat.sub_diag; reflexivity).
  assert (Da' : nth a dl' NaN = Fin (d + h)) by (unfold dl'; rewrite app_nth2 by (unfold a; lia); unfold a; rewrite Nat.sub_diag; reflexivity).
  assert (Dn : forall i, i <> a -> nth i dl NaN = nth i dl' NaN).
  { intros i Hi. unfold dl, dl'. destruct (Nat.lt_ge_cases i a).
    - rewrite !app_nth1 by (unfold a in *; lia). reflexivity.
    - rewrite !app_nth2 by (unfold a in *; lia). replace (i - length dA)%nat with (S (i - a - 1)) by (unfold a in *; lia). reflexivity. }
  assert (Pn : forall i, (i < N)%nat -> i <> a -> nth i (phases D') C0 = nth i (phases D) C0).
  { intros i Hi Hia. rewrite (phases_nth arcsin _ _ _ _ _ _ K') by exact Hi. rewrite (phases_nth arcsin _ _ _ _ _ _ K) by exact Hi.
    rewrite KK, Dn by exact Hia. reflexivity. }
  set (k := nth a (c_kz D) C0) in *.
  assert (PO : forall y, phase_of k y = (k * RtoC y)%C).
  { intros y. unfold phase_of. destruct (Rltb 35 _) eqn:E; auto. apply Rltb_true in E. simpl in E. rewrite HI in E. exfalso. nra. }
  assert (Pa : nth a (phases D') C0 = (nth a (phases D) C0 + RtoC (INR m * PI))%C).
  { rewrite (phases_nth arcsin _ _ _ _ _ _ K') by exact HaN. rewrite (phases_nth arcsin _ _ _ _ _ _ K) by exact HaN.
    rewrite KK, Da, Da'. cbn [thickness]. fold k. rewrite !PO. rewrite <- HR. apply Ceq; simpl; rewrite HI; ring. }
  set (e := RtoC ((-1) ^ m)).
  assert (Av : forall w, advance (nth a (phases D') C0) w = scale2 e (advance (nth a (phases D) C0) w)).
  { intros w. rewrite Pa. unfold advance, scale2. cbn [fst snd].
    replace (Ci * (nth a (phases D) C0 + RtoC (INR m * PI)))%C with (Ci * nth a (phases D) C0 + Ci * RtoC (INR m * PI))%C by ring.
    replace (- Ci * (nth a (phases D) C0 + RtoC (INR m * PI)))%C with (- Ci * nth a (phases D) C0 - Ci * RtoC (INR m * PI))%C by ring.
    rewrite (proj1 (Cexp_mPI m _)), (proj2 (Cexp_mPI m _)). fold e. f_equal; ring. }
  assert (ML := match_interface arcsin _ _ _ _ _ _ K). cbv beta in ML. fold N in ML.
  assert (W1 : wave_of D 0 = (C1, c_r D)) by reflexivity.
  assert (ends : (0 < a)%nat /\ (S a < N)%nat).
  { destruct (k_ends _ _ _ _ _ _ _ K) as (E0 & E1). fold N in E1. split.
    - destruct (Nat.eq_dec a 0) as [Z | Z]; [|lia]. rewrite Z in Da. congruence.
    - destruct (Nat.eq_dec a (N - 1)) as [Z | Z]; [|lia]. rewrite Z in Da. congruence. }
  destruct ends as (P0 & P1).
  destruct (by_wave _ _ _ _ _ _ (fun i => if Nat.leb i a then wave_of D i else scale2 e (wave_of D i)) (c_r D) (e * c_t D)%C K') as (E1 & E2).
  - intros i Hi. fold N in Hi. rewrite CC. specialize (ML i Hi). unfold leaving in ML.
    change (if Nat.eqb (S i) 0 then (C1, c_r D) else nth (S i) (c_vw D) (C0, C0)) with (wave_of D (S i)) in ML.
    change (if Nat.eqb i 0 then (C1, c_r D) else nth i (c_vw D) (C0, C0)) with (wave_of D i) in ML.
    destruct (Nat.lt_trichotomy i a) as [Hia | [-> | Hia]].
    + destruct (Nat.leb_spec 0 a); [|lia]. destruct (Nat.leb_spec i a); [|lia]. destruct (Nat.leb_spec (S i) a); [|lia].
      rewrite Pn by lia. exact ML.
    + rewrite Nat.leb_refl. destruct (Nat.leb_spec (S a) a); [lia|]. destruct (Nat.eqb_spec a 0); [lia|].
      rewrite Av, !tangential_scale. f_equal. exact ML.
    + destruct (Nat.leb_spec i a); [lia|]. destruct (Nat.leb_spec (S i) a); [lia|]. destruct (Nat.eqb_spec i 0); [lia|].
      rewrite Pn by lia. rewrite advance_scale, !tangential_scale. f_equal. exact ML.
  - reflexivity.
  - fold N. destruct (Nat.leb_spec (N - 1) a); [lia|].
    pose proof (wave_last arcsin _ _ _ _ _ _ K) as WL. cbv beta in WL. fold N in WL. fold (wave_of D (N - 1)) in WL. rewrite WL.
    unfold scale2. cbn [fst snd]. f_equal. ring.
  - split; symmetry; assumption.
Qed.
End Alike.
