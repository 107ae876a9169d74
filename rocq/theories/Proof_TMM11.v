From Coq Require Import Reals ZArith String List Bool Lra Lia Psatz.
From Verif Require Import Base PyVal Cplx CplxLemmas Model_TMM Spec_TMM Proof_TMM Proof_TMM2 Proof_TMM3 Proof_TMM4 Proof_TMM5 Proof_TMM6 Proof_TMM7 Proof_TMM10.
Import ListNotations.
Open Scope R_scope.

(** * Scaling lengths *)
Lemma scaled_nth k ds i : nth i (map (scaled k) ds) NaN = scaled k (nth i ds NaN).
Proof. change NaN with (scaled k NaN) at 1. apply map_nth. Qed.

Lemma scaling arcsin pol ns ds th0 lam k : k <> 0 ->
  coh_tmm arcsin pol ns (map (scaled k) ds) th0 (k * lam) =
  let! D := coh_tmm arcsin pol ns ds th0 lam in
  Ok (mkCoh (c_r D) (c_t D) (c_R D) (c_T D) (c_entering D) (c_vw D) (map (fun q => (q / RtoC k)%C) (c_kz D)) (c_th D)
            (c_pol D) (c_n D) (map (scaled k) (c_d D)) (c_th0 D) (k * lam)).
Proof.
  intros Hk. unfold coh_tmm. rewrite map_length.
  destruct (ensure (Nat.eqb (length ns) (length ds)) ValueError) as [[]|]; [|reflexivity]. cbn [bind].
  destruct (ensure (negb (Nat.eqb (length ns) 0)) IndexError) as [[]|]; [|reflexivity]. cbn [bind].
  rewrite !scaled_nth.
  assert (FE : (feq (scaled k (nth 0 ds NaN)) (scaled k (nth (length ns - 1) ds NaN)) && feq (scaled k (nth (length ns - 1) ds NaN)) PInf)%bool
    = (feq (nth 0 ds NaN) (nth (length ns - 1) ds NaN) && feq (nth (length ns - 1) ds NaN) PInf)%bool).
  { destruct (nth 0 ds NaN), (nth (length ns - 1) ds NaN); simpl; rewrite ?andb_false_r; reflexivity. }
  rewrite FE. destruct (ensure (_ && _) AssertionError) as [[]|]; [|reflexivity]. cbn [bind].
  destruct (ensure (Rltb _ _) AssertionError) as [[]|]; [|reflexivity]. cbn [bind].
  destruct (is_forward_angle (nth 0 ns C0) th0) as [f|]; [|reflexivity]. cbn [bind].
  destruct (ensure f AssertionError) as [[]|]; [|reflexivity]. cbn [bind].
  destruct (list_snell arcsin ns th0) as [ths|] eqn:Eth; [|reflexivity]. cbn [bind].
  assert (EL : Reqb (k * lam) 0 = Reqb lam 0).
  { unfold Reqb. destruct (Req_EM_T lam 0) as [-> | Hl], (Req_EM_T _ 0) as [E | E]; auto.
    - exfalso. apply E. ring.
    - apply Rmult_integral in E. tauto. }
  rewrite EL. destruct (Reqb lam 0) eqn:El; [reflexivity|]. cbn [negb ensure bind]. apply Reqb_false in El.
  set (kz := map (fun p => (RtoC (2 * PI) * fst p * Ccos (snd p) / RtoC lam)%C) (combine ns ths)).
  assert (Hlc : RtoC lam <> C0) by (intros Q; injection Q; auto).
  assert (Hkc : RtoC k <> C0) by (intros Q; injection Q; auto).
  replace (map (fun p => (RtoC (2 * PI) * fst p * Ccos (snd p) / RtoC (k * lam))%C) (combine ns ths)) with (map (fun q => (q / RtoC k)%C) kz).
  2:{ unfold kz. rewrite map_map. apply map_ext. intros p. replace (RtoC (k * lam)) with (RtoC k * RtoC lam)%C by (apply Ceq; simpl; ring). field. auto. }
  replace (forallb (fun i => finite_thickness (nth i (map (scaled k) ds) NaN)) (seq 1 (length ns - 2))) with (forallb (fun i => finite_thickness (nth i ds NaN)) (seq 1 (length ns - 2))).
  2:{ assert (Q : forall i, finite_thickness (nth i ds NaN) = finite_thickness (nth i (map (scaled k) ds) NaN)) by (intros i; rewrite scaled_nth; destruct (nth i ds NaN); reflexivity).
      induction (seq 1 (length ns - 2)) as [|i l IH]; simpl; auto. rewrite Q, IH. reflexivity. }
  destruct (ensure (forallb _ _) RuntimeError) as [[]|]; [|reflexivity]. cbn [bind].
  destruct (interfaces pol ns ths) as [rt|]; [|reflexivity]. cbn [bind].
  destruct (ensure (negb (Nat.eqb (length ns) 1)) IndexError) as [[]|]; [|reflexivity]. cbn [bind].
  destruct (ensure (forallb _ _) RuntimeError) as [[]|]; [|reflexivity]. cbn [bind].
  assert (EM : M_list (map (fun q => (q / RtoC k)%C) kz) (map (scaled k) ds) rt = M_list kz ds rt).
  { unfold M_list. rewrite map_length. apply map_ext_in. intros i Hi. apply in_seq in Hi. f_equal.
    rewrite scaled_nth. set (fk := fun q : C => (q / RtoC k)%C). rewrite (nth_indep _ _ (fk C0)) by (rewrite map_length; lia). rewrite map_nth.
    unfold phase_of, fk. assert (EQ : (nth i kz C0 / RtoC k * RtoC (thickness (scaled k (nth i ds NaN))) = nth i kz C0 * RtoC (thickness (nth i ds NaN)))%C).
    { destruct (nth i ds NaN) as [d| | |]; simpl thickness; try (apply Ceq; simpl; ring).
      replace (RtoC (k * d)) with (RtoC k * RtoC d)%C by (apply Ceq; simpl; ring). field. exact Hkc. }
    rewrite EQ. reflexivity. }
  rewrite EM.
  destruct (cdiv (m10 _) _) as [r|]; [|reflexivity]. cbn [bind].
  destruct (cdiv C1 _) as [t|]; [|reflexivity]. cbn [bind].
  destruct (T_from_t pol t _ _ _ _) as [T|]; [|reflexivity]. cbn [bind].
  destruct (power_entering_from_r pol r _ _) as [e|]; [|reflexivity]. cbn [bind]. reflexivity.
Qed.

(** R and T follow r and t *)
Lemma T_of_t pol ns ns' ds ds' th0 lam lam' arcsin D D' (inv : inverts_sine arcsin) : calc arcsin pol ns ds th0 lam D -> calc arcsin pol ns' ds' th0 lam' D' ->
  nth 0 ns C0 = nth 0 ns' C0 -> nth (length ns - 1) ns C0 = nth (length ns' - 1) ns' C0 ->
  Cnorm2 (c_r D) = Cnorm2 (c_r D') -> Cnorm2 (c_t D) = Cnorm2 (c_t D') -> c_R D = c_R D' /\ c_T D = c_T D'.
Proof.
  intros K K' E0 EL Er Et. split.
  - rewrite (k_R _ _ _ _ _ _ _ K), (k_R _ _ _ _ _ _ _ K'). unfold R_from_r, Cabs. rewrite Er. reflexivity.
  - assert (HN := k_N _ _ _ _ _ _ _ K). assert (HN' := k_N _ _ _ _ _ _ _ K').
    assert (Ec : Ccos (nth (length ns - 1) (c_th D) C0) = Ccos (nth (length ns' - 1) (c_th D') C0)).
    { rewrite (cos_is arcsin inv _ _ _ _ _ _ _ K) by lia. rewrite (cos_is arcsin inv _ _ _ _ _ _ _ K') by lia.
      rewrite !Nat.eqb_refl, E0, EL. f_equal. destruct (Nat.eqb_spec (length ns - 1) 0), (Nat.eqb_spec (length ns' - 1) 0); auto; lia. }
    pose proof (k_T _ _ _ _ _ _ _ K) as H. pose proof (k_T _ _ _ _ _ _ _ K') as H'.
    unfold T_from_t in H, H'. rewrite !Cabs_sq in H, H'. rewrite Ec, E0, EL, Et in H. rewrite H in H'. congruence.
Qed.
