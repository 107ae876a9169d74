(** Transparent incoherent layers: what is reflected, transmitted and absorbed. *)
From Coq Require Import Reals ZArith String List Bool Lia Lra Psatz.
From Verif Require Import Base PyVal Cplx CplxLemmas Model_TMM Model_TMM2 Model_TMM3 Spec_TMM Spec_TMM3.
From Verif Require Import Proof_TMM Proof_TMM2 Proof_TMM4 Proof_TMM5 Proof_TMM6 Proof_TMM9 Proof_TMM16 Proof_TMM22 Proof_TMM23 Proof_TMM24 Proof_TMM25 Proof_TMM26 Proof_TMM27.
Import ListNotations.
Open Scope R_scope.

Lemma stack_one arcsin pol n d th lam c s : inverts_sine arcsin -> coh_tmm arcsin pol n d th lam = Ok c ->
  (nth 0 n C0 * Csin th)%C = RtoC s -> transparent s (nth 0 n C0) -> 0 < lam -> no_opaque_layer c ->
  (forall i, (0 < i)%nat -> (S i < length n)%nat -> 0 <= thickness (nth i d NaN)) ->
  (forall i, (0 < i)%nat -> (S i < length n)%nat -> passive (nth i n C0)) ->
  c_R c + c_entering c = 1 /\ 0 <= c_R c /\ 0 <= c_T c <= c_entering c /\
  (forall l, absorp_in_each_layer c = Ok l -> forall i, (0 < i)%nat -> (i < length n)%nat -> 0 <= nth i l 0) /\
  ((forall i, (0 < i)%nat -> (S i < length n)%nat -> lossless (nth i n C0)) -> c_T c = c_entering c).
Proof.
  intros inv H Hs T Hl Op Th Pa. assert (I0 : Im (nth 0 n C0 * Csin th)%C = 0) by (rewrite Hs; reflexivity).
  destruct (transparent_cos _ _ _ T Hs) as (Ic & _). destruct T as (T1 & T2).
  destruct (powers_all _ _ _ _ _ _ _ inv H) as (_ & _ & ER & E). destruct (passive_all _ _ _ _ _ _ _ inv H I0 Hl Op Th Pa) as (Q1 & (l & El & Q2) & _).
  split; [apply E; auto|]. split; [rewrite ER; apply Cnorm2_ge0|]. split; [exact Q1|]. split; [intros l' El'; replace l' with l by congruence; exact Q2|].
  intros Lo. apply (lossless_all _ _ _ _ _ _ _ inv H I0 Op Th Lo).
Qed.

Lemma stack_both arcsin pol n d th lam c b s : inverts_sine arcsin -> coh_tmm arcsin pol n d th lam = Ok c -> coh_tmm_reverse arcsin pol n d th lam = Ok b ->
  (nth 0 n C0 * Csin th)%C = RtoC s -> transparent s (nth 0 n C0) -> transparent s (nth (length n - 1) n C0) -> 0 < lam -> no_opaque_layer c -> no_opaque_layer b ->
  (forall i, (0 < i)%nat -> (S i < length n)%nat -> 0 <= thickness (nth i d NaN)) ->
  (forall i, (0 < i)%nat -> (S i < length n)%nat -> passive (nth i n C0)) ->
  (c_R c + c_entering c = 1 /\ 0 <= c_R c /\ 0 <= c_T c <= c_entering c /\
   (forall l, absorp_in_each_layer c = Ok l -> forall i, (0 < i)%nat -> (i < length n)%nat -> 0 <= nth i l 0)) /\
  (c_R b + c_entering b = 1 /\ 0 <= c_R b /\ 0 <= c_T b <= c_entering b /\
   (forall l, absorp_in_each_layer b = Ok l -> forall i, (0 < i)%nat -> (i < length n)%nat -> 0 <= nth i l 0)) /\
  c_T b = c_T c /\
  ((forall i, (0 < i)%nat -> (S i < length n)%nat -> lossless (nth i n C0)) -> c_T c = c_entering c /\ c_T b = c_entering b).
Proof.
  intros inv Hc Hb Hs T0 TN Hl O1 O2 Th Pa. destruct (stack_one _ _ _ _ _ _ _ _ inv Hc Hs T0 Hl O1 Th Pa) as (A1 & A2 & A3 & A4 & A5).
  destruct (reverse_is _ _ _ _ _ _ _ Hb) as (thf & Sn & Hb'). destruct (needs_all _ _ _ _ _ _ _ inv Hc) as (Ld & L2 & _).
  assert (Sf : (nth (length n - 1) n C0 * Csin thf)%C = RtoC s).
  { unfold snell in Sn. inv_bind Sn. inv_bind Sn. apply cdiv_inv in E as (Nz & ->). apply Ok_inj in Sn. subst thf. rewrite <- Hs.
    destruct a0; [|rewrite Csin_pi_minus]; rewrite inv; field; exact Nz. }
  assert (Rn : forall i, (i < length n)%nat -> nth i (rev n) C0 = nth (length n - S i) n C0) by (intros; apply rev_nth; auto).
  assert (R0 : nth 0 (rev n) C0 = nth (length n - 1) n C0) by (apply Rn; lia).
  destruct (stack_one arcsin pol (rev n) (rev d) thf lam b s inv Hb') as (B1 & B2 & B3 & B4 & B5); auto.
  { rewrite R0. exact Sf. }
  { rewrite R0. exact TN. }
  { rewrite rev_length. intros i H1 H2. rewrite rev_nth by lia. rewrite Ld. apply Th; lia. }
  { rewrite rev_length. intros i H1 H2. rewrite Rn by lia. apply Pa; lia. }
  rewrite rev_length in *. split; [auto|]. split; [auto|]. split.
  - destruct (snell_all _ _ _ _ _ _ _ inv Hc) as (_ & Sa & _). apply (T_same arcsin inv _ _ _ _ _ _ _ Hc Hb); try apply T0; try apply TN.
    + refine (proj1 (transparent_cos s _ _ T0 _)). rewrite Sa by lia. exact Hs.
    + refine (proj1 (transparent_cos s _ _ TN _)). rewrite Sa by lia. exact Hs.
  - intros Lo. split; [auto|]. apply B5. intros i H1 H2. rewrite Rn by lia. apply Lo; lia.
Qed.

Section All.
Variables (arcsin : C -> C) (pol : string) (ns : list C) (ds : list pyfloat) (cs : list string) (th0 : C) (lam s : R) (D : inc_data).
Hypothesis inv : inverts_sine arcsin.
Hypothesis pri : principal arcsin.
Hypothesis H : inc_tmm arcsin pol ns ds cs th0 lam = Ok D.
Hypothesis Hs : (nth 0 ns C0 * Csin th0)%C = RtoC s.
Hypothesis Hth : 0 < Re (Ccos th0).
Hypothesis Hl : 0 < lam.
Hypothesis HI : forall i, nth i cs EmptyString = "i"%string -> transparent s (nth i ns C0).
Hypothesis HC : forall i, nth i cs EmptyString = "c"%string -> 0 <= thickness (nth i ds NaN) /\ passive (nth i ns C0).
Hypothesis Op : forall c, In c (i_coh D) \/ In c (i_bcoh D) -> no_opaque_layer c.
Notation M := (incoherent_layers D).

Lemma letters ks k : cs = coherency ks -> M = S (length ks) -> (forall k, (k < M)%nat -> layer_of D k = pos ks k) -> (k < M)%nat -> transparent s (nth (layer_of D k) ns C0).
Proof. intros E EM LO Hk. apply HI. rewrite LO, E by lia. apply letter_i. lia. Qed.

Lemma thin i : nth i cs EmptyString = "c"%string -> 0 <= thickness (nth i ds NaN).
Proof. intros Q. apply HC, Q. Qed.

Lemma cosines ths k : calc arcsin pol ns ds cs th0 lam D ths -> (k < M)%nat ->
  (nth (layer_of D k) ns C0 * Csin (nth (layer_of D k) ths C0))%C = RtoC s /\ Im (Ccos (nth (layer_of D k) ths C0)) = 0 /\ 0 < Re (Ccos (nth (layer_of D k) ths C0)).
Proof.
  intros K Hk. destruct (runs _ _ _ _ _ _ _ _ _ K) as (ks & Ec & G & LN & EM & LO & _). pose proof (q_M _ _ _ _ _ _ _ _ _ K) as M2.
  assert (T := letters ks k Ec EM LO Hk). set (i := layer_of D k) in *.
  assert (Hi : (i < length ns)%nat) by (unfold i; rewrite LO, LN by lia; destruct (Nat.eq_dec k (length ks)) as [->|]; [lia|]; pose proof (pos_mono ks k (length ks)); lia).
  assert (N2 : (2 <= length ns)%nat) by (rewrite LN; assert (pos ks 0 < pos ks (length ks))%nat by (apply pos_mono; lia); lia).
  destruct (list_snell_spec arcsin inv ns th0 ths N2 (q_ths _ _ _ _ _ _ _ _ _ K)) as (LT & Sn & Mid & _ & _ & F0 & FN). cbn zeta in FN. rewrite Hs in *.
  destruct (Sn i Hi) as (_ & Si). split; [exact Si|]. destruct (transparent_cos s _ _ T Si) as (I0 & _). split; [exact I0|].
  assert (T0 : transparent s (nth 0 ns C0)) by (replace 0%nat with (layer_of D 0) by (rewrite LO, pos_0; lia); apply (letters ks); auto; lia).
  pose proof (Rabs_pos s) as Ps. destruct (Nat.eq_dec i 0) as [Z|Z].
  - rewrite Z in *. rewrite F0; [exact Hth|]. apply forwards_real; [apply T0|destruct T0; lra| |exact Hth]. apply (transparent_cos s _ _ T0 Hs).
  - destruct (transparent_guess arcsin s _ inv pri T) as (G1 & G2). destruct (Nat.eq_dec i (length ns - 1)) as [W|W].
    + rewrite W in *. rewrite FN. assert (forwards (nth (length ns - 1) ns C0 * Ccos (arcsin (RtoC s / nth (length ns - 1) ns C0)))%C = true) as -> by (apply forwards_real; auto; destruct T; lra). exact G2.
    + rewrite Mid by lia. exact G2.
Qed.

Lemma pass_one k : (0 < k)%nat -> (S k < M)%nat -> pass_of D k = 1.
Proof.
  clear HC Op Hl. intros H1 H2. destruct (inc_calc _ _ _ _ _ _ _ _ H) as (ths & K). destruct (runs _ _ _ _ _ _ _ _ _ K) as (ks & Ec & G & LN & EM & LO & _).
  destruct (pass_is _ _ _ _ _ _ _ _ _ K k H1 H2) as (d & _ & _ & ->). destruct (cosines ths k K ltac:(lia)) as (_ & Q & _). assert (T := letters ks k Ec EM LO ltac:(lia)).
  assert (Im (nth (layer_of D k) ns C0 * Ccos (nth (layer_of D k) ths C0))%C = 0) as ->.
  { destruct T as (T & _). destruct (nth (layer_of D k) ns C0), (Ccos (nth (layer_of D k) ths C0)). cbn in *. subst. ring. }
  replace (- (4 * PI * 0 / lam * d)) with 0 by (unfold Rdiv; ring). rewrite exp_0. apply Rmax_left.
  rewrite <- Rinv_1. apply Rinv_le_contravar; [lra|]. apply pow_R1_Rle. lra.
Qed.

(** The stack behind layer [k] *)
Lemma stack_at ths k : calc arcsin pol ns ds cs th0 lam D ths -> (S k < M)%nat ->
  let a := layer_of D k in let m := (layer_of D (S k) - a - 1)%nat in
  let n := map (fun i => nth i ns C0) (seq a (m + 2)) in let d := PInf :: map (fun i => nth i ds NaN) (seq (S a) m) ++ [PInf] in
  (a + m + 1)%nat = layer_of D (S k) /\ length n = (m + 2)%nat /\ nth 0 n C0 = nth a ns C0 /\ nth (length n - 1) n C0 = nth (layer_of D (S k)) ns C0 /\
  (forall i, (0 < i)%nat -> (S i < length n)%nat -> nth i n C0 = nth (a + i) ns C0 /\ nth (a + i) cs EmptyString = "c"%string) /\
  (forall i, (0 < i)%nat -> (S i < length n)%nat -> 0 <= thickness (nth i d NaN)) /\
  (forall i, (0 < i)%nat -> (S i < length n)%nat -> passive (nth i n C0)).
Proof.
  intros K Hk. destruct (runs _ _ _ _ _ _ _ _ _ K) as (ks & Ec & G & LN & EM & LO & _). cbn zeta. rewrite !LO by lia. rewrite pos_S by lia.
  replace (pos ks k + S (nth k ks 0%nat) - pos ks k - 1)%nat with (nth k ks 0%nat) by lia. set (m := nth k ks 0%nat).
  assert (Ln : length (map (fun i => nth i ns C0) (seq (pos ks k) (m + 2))) = (m + 2)%nat) by (rewrite map_length, seq_length; reflexivity).
  assert (Nn : forall i, (i < m + 2)%nat -> nth i (map (fun i => nth i ns C0) (seq (pos ks k) (m + 2))) C0 = nth (pos ks k + i) ns C0).
  { intros i Hi. rewrite (nth_indep _ _ (nth 0 ns C0)) by lia. rewrite (map_nth (fun i => nth i ns C0)), seq_nth by lia. reflexivity. }
  rewrite Ln. split; [lia|]. split; [reflexivity|]. split; [rewrite Nn by lia; f_equal; lia|]. split; [rewrite Nn by lia; f_equal; lia|].
  assert (Lc : forall i, (0 < i)%nat -> (S i < m + 2)%nat -> nth (pos ks k + i) cs EmptyString = "c"%string).
  { intros i H1 H2. rewrite Ec. replace (pos ks k + i)%nat with (S (pos ks k) + (i - 1))%nat by lia. apply letter_c; unfold m in *; lia. }
  split; [intros i H1 H2; split; [apply Nn; lia|apply Lc; lia]|]. split.
  - assert (Hk' : (k < length ks)%nat) by lia. exact (proj2 (stack_thick ds cs thin ks k Ec Hk')).
  - intros i H1 H2. rewrite Nn by lia. apply HC, Lc; lia.
Qed.

Definition good (k : nat) : Prop := no_gain (crossing_of D k) /\
  ((forall i, nth i cs EmptyString = "c"%string -> lossless (nth i ns C0)) ->
   x_Rf (crossing_of D k) + x_Tf (crossing_of D k) = 1 /\ x_Rb (crossing_of D k) + x_Tb (crossing_of D k) = 1).
Lemma stack_in ths k : calc arcsin pol ns ds cs th0 lam D ths -> (S k < M)%nat -> layer_of D (S k) <> S (layer_of D k) ->
  forall c b, (let a := layer_of D k in let m := (layer_of D (S k) - a - 1)%nat in
  let n := map (fun i => nth i ns C0) (seq a (m + 2)) in let d := PInf :: map (fun i => nth i ds NaN) (seq (S a) m) ++ [PInf] in
  coh_tmm arcsin pol n d (nth a ths C0) lam = Ok c /\ coh_tmm_reverse arcsin pol n d (nth a ths C0) lam = Ok b) -> no_opaque_layer c /\ no_opaque_layer b.
Proof.
  intros K Hk Ne c b (Hc & Hb). destruct (runs _ _ _ _ _ _ _ _ _ K) as (ks & Ec & G & LN & EM & LO & _). cbn zeta in Hc, Hb. rewrite !LO in * by lia. rewrite pos_S in * by lia.
  replace (pos ks k + S (nth k ks 0%nat) - pos ks k - 1)%nat with (nth k ks 0%nat) in * by lia.
  destruct (stack_lookup _ _ _ _ _ _ _ _ _ K ks k G ltac:(lia) ltac:(lia)) as (c' & b' & E1 & E2 & F1 & F2 & _).
  assert (c' = c) by congruence. assert (b' = b) by congruence. subst c' b'. apply nth_error_In in E1, E2. split; apply Op; auto.
Qed.

Lemma stack_good ths k c b : calc arcsin pol ns ds cs th0 lam D ths -> (S k < M)%nat -> layer_of D (S k) <> S (layer_of D k) ->
  (let a := layer_of D k in let m := (layer_of D (S k) - a - 1)%nat in
  let n := map (fun i => nth i ns C0) (seq a (m + 2)) in let d := PInf :: map (fun i => nth i ds NaN) (seq (S a) m) ++ [PInf] in
  coh_tmm arcsin pol n d (nth a ths C0) lam = Ok c /\ coh_tmm_reverse arcsin pol n d (nth a ths C0) lam = Ok b) ->
  (c_R c + c_entering c = 1 /\ 0 <= c_R c /\ 0 <= c_T c <= c_entering c /\
   (forall l, absorp_in_each_layer c = Ok l -> forall i, (0 < i)%nat -> (i < layer_of D (S k) - layer_of D k - 1 + 2)%nat -> 0 <= nth i l 0)) /\
  (c_R b + c_entering b = 1 /\ 0 <= c_R b /\ 0 <= c_T b <= c_entering b /\
   (forall l, absorp_in_each_layer b = Ok l -> forall i, (0 < i)%nat -> (i < layer_of D (S k) - layer_of D k - 1 + 2)%nat -> 0 <= nth i l 0)) /\
  c_T b = c_T c /\
  ((forall i, nth i cs EmptyString = "c"%string -> lossless (nth i ns C0)) -> c_T c = c_entering c /\ c_T b = c_entering b).
Proof.
  intros K Hk Ne Hcb. destruct (stack_in ths k K Hk Ne c b Hcb) as (O1 & O2). destruct Hcb as (Hc & Hb).
  destruct (stack_at ths k K Hk) as (Ea & Ln & N0 & NN & Nc & Th & Pa). destruct (runs _ _ _ _ _ _ _ _ _ K) as (ks & Ec & G & LN & EM & LO & _).
  set (n := map (fun i => nth i ns C0) (seq (layer_of D k) (layer_of D (S k) - layer_of D k - 1 + 2))) in *.
  destruct (cosines ths k K ltac:(lia)) as (Sa & _).
  destruct (stack_both arcsin pol n _ _ lam c b s inv Hc Hb) as (Q1 & Q2 & Q3 & Q4); auto.
  { rewrite N0. exact Sa. }
  { rewrite N0. apply (letters ks); auto. lia. }
  { rewrite NN. apply (letters ks); auto. }
  rewrite Ln in *. split; [exact Q1|]. split; [exact Q2|]. split; [exact Q3|]. intros Lo. apply Q4. intros i H1 H2. destruct (Nc i H1 H2) as (-> & Q). apply Lo, Q.
Qed.

Lemma all_good k : (S k < M)%nat -> good k.
Proof.
  intros Hk. destruct (inc_calc _ _ _ _ _ _ _ _ H) as (ths & K). destruct (runs _ _ _ _ _ _ _ _ _ K) as (ks & Ec & G & LN & EM & LO & _).
  destruct (crossings_are _ _ _ _ _ _ _ _ _ K k Hk) as (X1 & X2). pose proof (q_Tf _ _ _ _ _ _ _ _ _ K k Hk) as Nz.
  destruct (Nat.eq_dec (layer_of D (S k)) (S (layer_of D k))) as [Z|Z].
  - specialize (X1 Z). destruct (cosines ths k K ltac:(lia)) as (_ & I1 & C1p). destruct (cosines ths (S k) K Hk) as (_ & I2 & C2p). rewrite Z in *.
    assert (T1 := letters ks k Ec EM LO ltac:(lia)). assert (T2 := letters ks (S k) Ec EM LO ltac:(lia)). rewrite Z in T2. destruct T1 as (T1 & T1'), T2 as (T2 & T2'). pose proof (Rabs_pos s).
    assert (Hp : (pol = "s" \/ pol = "p")%string).
    { pose proof (q_X _ _ _ _ _ _ _ _ _ K k Hk) as Q. unfold crossing_at in Q. rewrite (lookup ns ds D ks k G) in Q by lia. rewrite !LO in Z by lia. rewrite pos_S in Z by lia. replace (nth k ks 0%nat) with 0%nat in Q by lia. cbn [Nat.eqb] in Q.
      inv_bind Q. inv_bind Q. apply (interface_T_is _ _ _ _ _ _ E0). }
    unfold good. rewrite X1. destruct (crossing_real pol _ _ _ _ Hp T1 T2 I1 I2 ltac:(lra) ltac:(lra) C1p C2p) as (Q1 & Q2 & Q3). auto.
  - destruct (X2 Z) as (c & b & Hc & Hb & E). destruct (stack_good ths k c b K Hk Z (conj Hc Hb)) as ((A1 & A2 & A3 & _) & (B1 & B2 & B3 & _) & Q3 & Q4).
    unfold good. rewrite E in *. unfold no_gain. cbn [x_Rf x_Tf x_Rb x_Tb] in *. split; [repeat split; lra|]. intros Lo. destruct (Q4 Lo). lra.
Qed.

Lemma transparent_bounds : 0 <= i_R D /\ 0 < i_T D /\ i_R D + i_T D <= 1.
Proof.
  destruct (inc_bounds _ _ _ _ _ _ _ _ H) as (A & B & E & _); auto; [intros; apply all_good; auto|intros; rewrite pass_one by auto; lra].
Qed.
Lemma transparent_lossless : (forall i, nth i cs EmptyString = "c"%string -> lossless (nth i ns C0)) -> i_R D + i_T D = 1.
Proof.
  intros Lo. apply (inc_conserved _ _ _ _ _ _ _ _ H); [intros; apply all_good; auto|exact pass_one].
Qed.

(** Powers entering and leaving *)
Lemma transparent_flow k : (S k < M)%nat -> exists leaving l,
  inc_absorp_in_each_layer D = Ok l /\
  nth (S k) (i_entering D) 0 = fst (intensity D (S k)) - snd (intensity D (S k)) /\
  nth (layer_of D k) l 0 = nth k (i_entering D) 0 - leaving /\
  leaving = fst (intensity D k) - snd (intensity D k) /\
  forall x, (layer_of D k < x < layer_of D (S k))%nat -> 0 <= nth x l 0.
Proof.
  intros Hk. destruct (inc_accounts _ _ _ _ _ _ _ _ inv H thin) as (l & El & Ll & _). destruct (inc_calc _ _ _ _ _ _ _ _ H) as (ths & K).
  destruct (runs _ _ _ _ _ _ _ _ _ K) as (ks & Ec & G & LN & EM & LO & _). destruct (stack_at ths k K Hk) as (Ea & _).
  destruct (inc_entries _ _ _ _ _ _ _ _ inv H thin l k El Hk) as (D1 & D2). cbn zeta in D1, D2.
  destruct (balance_all _ _ _ _ _ _ _ _ H) as (H2 & Bal & E0 & E1). destruct (Bal k Hk) as (bk & F1 & F2 & F3). cbn zeta in F2, F3.
  assert (RE : reaching_end D k = if Nat.eqb k 0 then fst (intensity D 0) else pass_of D k * fst (intensity D k)).
  { unfold reaching_end. rewrite E0. reflexivity. }
  rewrite <- RE in F2, F3.
  assert (Fk : reaching_end D k = fst (intensity D k) /\ snd (intensity D k) = bk).
  { rewrite RE, F1. destruct (Nat.eqb_spec k 0) as [->|]; [auto|]. rewrite pass_one by lia. split; ring. }
  destruct Fk as (Fk & Bk). destruct (all_good k Hk) as ((G1 & G2 & _) & _).
  destruct (inc_bounds _ _ _ _ _ _ _ _ H) as (_ & _ & _ & BB); [intros; apply all_good; auto|intros; rewrite pass_one by auto; lra|].
  destruct (BB k ltac:(lia)) as (BV & BW). destruct (BB (S k) Hk) as (BV' & BW').
  destruct (crossings_are _ _ _ _ _ _ _ _ _ K k Hk) as (X1 & X2).
  destruct (Nat.eq_dec (layer_of D (S k)) (S (layer_of D k))) as [Z|Z].
  - destruct D1 as (Q1 & Q2); [lia|]. exists (nth (S k) (i_entering D) 0), l.
    assert (GG : x_Rf (crossing_of D k) + x_Tf (crossing_of D k) = 1 /\ x_Rb (crossing_of D k) + x_Tb (crossing_of D k) = 1).
    { specialize (X1 Z). destruct (cosines ths k K ltac:(lia)) as (_ & I1 & C1p). destruct (cosines ths (S k) K Hk) as (_ & I2 & C2p). rewrite Z in *.
      assert (T1 := letters ks k Ec EM LO ltac:(lia)). assert (T2 := letters ks (S k) Ec EM LO ltac:(lia)). rewrite Z in T2. destruct T1 as (T1 & T1'), T2 as (T2 & T2'). pose proof (Rabs_pos s).
      assert (Hp : (pol = "s" \/ pol = "p")%string).
      { pose proof (q_X _ _ _ _ _ _ _ _ _ K k Hk) as Q. unfold crossing_at in Q. rewrite (lookup ns ds D ks k G) in Q by lia. rewrite !LO in Z by lia. rewrite pos_S in Z by lia. replace (nth k ks 0%nat) with 0%nat in Q by lia. cbn [Nat.eqb] in Q.
        inv_bind Q. inv_bind Q. apply (interface_T_is _ _ _ _ _ _ E2). }
      rewrite X1. exact (proj2 (crossing_real pol _ _ _ _ Hp T1 T2 I1 I2 ltac:(lra) ltac:(lra) C1p C2p)). }
    destruct GG as (GF & GB). split; [exact El|]. split; [rewrite Q1, F2; nra|]. split; [exact Q2|]. split; [rewrite Q1, <- Fk, Bk, F3; nra|].
    intros x Hx. lia.
  - destruct D2 as (ths' & c & b & lc & lb & Et & Hc & Hb & Ec1 & Eb1 & Q1 & Q2 & Q3); [lia|]. assert (ths' = ths) by (pose proof (q_ths _ _ _ _ _ _ _ _ _ K); congruence). subst ths'.
    destruct (X2 Z) as (c' & b' & Hc' & Hb' & EX). cbn zeta in Hc', Hb'. assert (c' = c) by congruence. assert (b' = b) by congruence. subst c' b'.
    destruct (stack_good ths k c b K Hk Z (conj Hc Hb)) as ((A1 & A2 & A3 & A4) & (B1 & B2 & B3 & B4) & _ & _).
    rewrite EX in F2, F3. cbn [x_Rf x_Tf x_Rb x_Tb] in F2, F3.
    eexists; exists l. split; [exact El|]. split; [rewrite Q1, F2; nra|]. split; [exact Q2|]. split; [rewrite <- Fk, Bk, F3; nra|].
    intros x Hx. replace x with (layer_of D k + S (x - layer_of D k - 1))%nat by lia. rewrite Q3 by lia. rewrite Fk.
    pose proof (A4 lc Ec1 (S (x - layer_of D k - 1)) ltac:(lia) ltac:(lia)).
    pose proof (B4 lb Eb1 (layer_of D (S k) - layer_of D k - 1 - (x - layer_of D k - 1))%nat ltac:(lia) ltac:(lia)).
    apply Rplus_le_le_0_compat; apply Rmult_le_pos; lra.
Qed.

Lemma transparent_absorption : exists l, inc_absorp_in_each_layer D = Ok l /\ nth 0 l 0 = i_R D /\ nth (length ns - 1) l 0 = i_T D /\
  (forall i, (0 < i)%nat -> (S i < length ns)%nat -> nth i cs EmptyString = "i"%string -> nth i l 0 = 0) /\
  forall i, 0 <= nth i l 0.
Proof.
  destruct (inc_accounts _ _ _ _ _ _ _ _ inv H thin) as (l & El & Ll & _ & LT). exists l. split; [exact El|]. destruct (inc_calc _ _ _ _ _ _ _ _ H) as (ths & K).
  destruct (runs _ _ _ _ _ _ _ _ _ K) as (ks & Ec & G & LN & EM & LO & _). pose proof (q_M _ _ _ _ _ _ _ _ _ K) as M2.
  assert (Fl : forall k, (S k < M)%nat -> nth (layer_of D k) l 0 = (if Nat.eqb k 0 then i_R D else 0) /\ forall x, (layer_of D k < x < layer_of D (S k))%nat -> 0 <= nth x l 0).
  { intros k Hk. destruct (transparent_flow k Hk) as (lv & l' & El' & Q1 & Q2 & Q3 & Q4). assert (l' = l) by congruence. subst l'. split; [|exact Q4]. rewrite Q2, Q3.
    destruct (balance_all _ _ _ _ _ _ _ _ H) as (H2 & Bal & E0 & E1). destruct (Nat.eqb_spec k 0) as [->|Z].
    - rewrite (q_ent0 _ _ _ _ _ _ _ _ _ K), E0. cbn. lra.
    - destruct k as [|k]; [congruence|]. destruct (transparent_flow k ltac:(lia)) as (lv' & l' & _ & Q5 & _). rewrite Q5. lra. }
  assert (F0 : nth 0 l 0 = i_R D) by (destruct (Fl 0%nat ltac:(lia)) as (Q & _); rewrite LO, pos_0 in Q by lia; exact Q).
  destruct transparent_bounds as (B1 & B2 & B3).
  assert (All : forall i, (i < length ns)%nat -> (exists k, (S k < M)%nat /\ i = layer_of D k) \/ i = (length ns - 1)%nat \/ ((exists k, (S k < M)%nat /\ (layer_of D k < i < layer_of D (S k))%nat) /\ nth i cs EmptyString = "c"%string)).
  { intros i Hi. destruct (locate ks i ltac:(lia)) as [->|(j & x & Hj & Hx & ->)]; [left; exists 0%nat; split; [lia|rewrite LO, pos_0; lia]|].
    destruct (Nat.eq_dec x (nth j ks 0%nat)) as [->|].
    - destruct (Nat.eq_dec (S j) (length ks)) as [W|W].
      + right. left. rewrite LN, <- W, pos_S by lia. lia.
      + left. exists (S j). split; [lia|]. rewrite LO, pos_S by lia. lia.
    - right. right. split; [exists j; split; [lia|]; rewrite !LO, pos_S by lia; lia|]. rewrite Ec. apply letter_c; lia. }
  split; [exact F0|]. split; [exact LT|]. split.
  - intros i H1 H2 Li. destruct (All i ltac:(lia)) as [(k & Hk & ->)|[->|(_ & Q)]]; [|lia|congruence].
    destruct (Fl k Hk) as (-> & _). destruct (Nat.eqb_spec k 0) as [->|]; [rewrite LO, pos_0 in H1 by lia; lia|reflexivity].
  - intros i. destruct (le_lt_dec (length ns) i) as [W|W]; [rewrite nth_overflow by lia; lra|].
    destruct (All i W) as [(k & Hk & ->)|[->|((k & Hk & Q) & _)]].
    + destruct (Fl k Hk) as (-> & _). destruct (Nat.eqb k 0); lra.
    + rewrite LT. lra.
    + apply (Fl k Hk). exact Q.
Qed.
End All.
