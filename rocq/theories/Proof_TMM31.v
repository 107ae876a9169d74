(** The incoherent method: angles and crossings, and cases. *)
From Coq Require Import Reals ZArith String List Bool Lia Lra Psatz.
From Verif Require Import Base PyVal Cplx CplxLemmas Model_TMM Model_TMM2 Model_TMM3 Spec_TMM Spec_TMM3.
From Verif Require Import Proof_TMM Proof_TMM2 Proof_TMM3 Proof_TMM4 Proof_TMM5 Proof_TMM6 Proof_TMM7 Proof_TMM9 Proof_TMM13 Proof_TMM14 Proof_TMM16 Proof_TMM21 Proof_TMM22 Proof_TMM23 Proof_TMM24 Proof_TMM25 Proof_TMM26 Proof_TMM27 Proof_TMM28 Proof_TMM29 Proof_TMM30.
Import ListNotations.
Open Scope R_scope.

Lemma angles_all arcsin pol ns ds cs th0 lam D : inverts_sine arcsin -> inc_tmm arcsin pol ns ds cs th0 lam = Ok D ->
  (2 <= length ns)%nat /\ exists ths, list_snell arcsin ns th0 = Ok ths /\ length ths = length ns /\
  (forall i, (i < length ns)%nat -> (nth i ns C0 * Csin (nth i ths C0))%C = (nth 0 ns C0 * Csin th0)%C) /\
  (is_forward_angle (nth 0 ns C0) th0 = Ok true -> Ccos (nth 0 ths C0) = Ccos th0) /\
  (forall k, (S k < incoherent_layers D)%nat -> layer_of D (S k) = S (layer_of D k) ->
     crossing_of D k = interface_crossing pol (nth (layer_of D k) ns C0) (Ccos (nth (layer_of D k) ths C0))
                                              (nth (S (layer_of D k)) ns C0) (Ccos (nth (S (layer_of D k)) ths C0))) /\
  (forall k, (S k < incoherent_layers D)%nat -> layer_of D (S k) <> S (layer_of D k) -> exists c b,
     let a := layer_of D k in let m := (layer_of D (S k) - a - 1)%nat in
     coh_tmm arcsin pol (map (fun i => nth i ns C0) (seq a (m + 2))) (PInf :: map (fun i => nth i ds NaN) (seq (S a) m) ++ [PInf]) (nth a ths C0) lam = Ok c /\
     coh_tmm_reverse arcsin pol (map (fun i => nth i ns C0) (seq a (m + 2))) (PInf :: map (fun i => nth i ds NaN) (seq (S a) m) ++ [PInf]) (nth a ths C0) lam = Ok b /\
     crossing_of D k = mkCross (c_R c) (c_T c) (c_R b) (c_T b)) /\
  (forall k, (0 < k)%nat -> (S k < incoherent_layers D)%nat -> exists d, nth (layer_of D k) ds NaN = Fin d /\ lam <> 0 /\
     pass_of D k = Rmax (exp (- (4 * PI * Im (nth (layer_of D k) ns C0 * Ccos (nth (layer_of D k) ths C0))%C / lam * d))) (/ 10 ^ 30)).
Proof.
  intros inv H. destruct (inc_calc _ _ _ _ _ _ _ _ H) as (ths & K). destruct (runs _ _ _ _ _ _ _ _ _ K) as (ks & Ec & G & LN & EM & LO & W).
  assert (HN : (2 <= length ns)%nat).
  { pose proof (q_M _ _ _ _ _ _ _ _ _ K) as Q. pose proof (pos_mono ks 0 (length ks) ltac:(lia) ltac:(lia)). lia. }
  split; [exact HN|]. exists ths. pose proof (q_ths _ _ _ _ _ _ _ _ _ K) as Et. destruct (list_snell_spec arcsin inv ns th0 ths HN Et) as (L & S1 & _ & _ & _ & F & _).
  split; [exact Et|]. split; [exact L|]. split; [intros i Hi; apply S1, Hi|]. split; [intros Q; apply F; apply is_forward_inv in Q as (_ & Q); congruence|].
  split; [intros k Hk Hd; apply (crossings_are _ _ _ _ _ _ _ _ _ K k Hk), Hd|].
  split; [intros k Hk Hd; apply (crossings_are _ _ _ _ _ _ _ _ _ K k Hk), Hd|exact (pass_is _ _ _ _ _ _ _ _ _ K)].
Qed.

Lemma layers_all arcsin pol ns ds cs th0 lam D : inc_tmm arcsin pol ns ds cs th0 lam = Ok D ->
  well_formed ns ds cs /\ inc_group_layers ns ds cs = Ok (i_group D) /\
  map (layer_of D) (seq 0 (incoherent_layers D)) = filter (fun i => String.eqb (nth i cs EmptyString) "i") (seq 0 (length cs)).
Proof.
  intros H. destruct (inc_calc _ _ _ _ _ _ _ _ H) as (ths & K). pose proof (q_group _ _ _ _ _ _ _ _ _ K) as G.
  split; [exact (group_accepts _ _ _ _ G)|]. split; [exact G|]. rewrite <- (inc_positions _ _ _ _ G). unfold layer_of, incoherent_layers.
  apply (nth_ext _ _ 0%nat 0%nat); rewrite map_length, seq_length; [reflexivity|]. intros i Hi.
  rewrite (nth_indep _ _ (nth 0 (g_all_from_inc (i_group D)) 0%nat)) by (rewrite map_length, seq_length; exact Hi).
  rewrite (map_nth (fun j => nth j (g_all_from_inc (i_group D)) 0%nat)), seq_nth by exact Hi. reflexivity.
Qed.

(** ** A glass slab, light at normal incidence *)
Lemma slab_success f pol d : inverts_sine f -> principal f -> (pol = "s" \/ pol = "p")%string ->
  exists D, inc_tmm f pol [(1, 0); (3/2, 0); (1, 0)] [PInf; Fin d; PInf] ["i"; "i"; "i"]%string C0 1 = Ok D.
Proof.
  intros inv pri Hp. destruct (inc_succeeds f inv pri pol [(1, 0); (3/2, 0); (1, 0)] [PInf; Fin d; PInf] ["i"; "i"; "i"]%string C0 1 0) as (D & HD & _); [exact Hp|..].
  - unfold well_formed. cbn. repeat split; try discriminate. intros c [<-|[<-|[<-|[]]]]; auto.
  - cbn; lia.
  - lra.
  - rewrite Csin_0. cbn. apply Ceq; cbn; ring.
  - intros i Hi. destruct i as [|[|[|i]]]; [| | |destruct i; discriminate]; (split; [reflexivity|cbn [nth Re fst]; rewrite Rabs_R0; lra]).
  - intros i H1 H2. cbn in H2. replace i with 1%nat by lia. exists d. reflexivity.
  - intros i Hi. destruct i as [|[|[|i]]]; cbn in Hi; try discriminate. destruct i; discriminate.
  - exists D. exact HD.
Qed.

Lemma normal_cos arcsin ns th0 ths i : inverts_sine arcsin -> principal arcsin -> (2 <= length ns)%nat -> list_snell arcsin ns C0 = Ok ths ->
  (0 < i)%nat -> (S i < length ns)%nat -> th0 = C0 -> nth i ns C0 <> C0 -> Ccos (nth i ths C0) = C1.
Proof.
  intros inv pri HN Et H1 H2 -> Nz. destruct (list_snell_spec arcsin inv ns C0 ths HN Et) as (_ & _ & S1 & _). rewrite S1 by assumption. rewrite Csin_0.
  replace (nth 0 ns C0 * C0 / nth i ns C0)%C with C0 by (field; exact Nz). apply arcsin_zero; assumption.
Qed.
Lemma last_cos arcsin ns ths : inverts_sine arcsin -> principal arcsin -> (2 <= length ns)%nat -> list_snell arcsin ns C0 = Ok ths ->
  nth (length ns - 1) ns C0 = (1, 0) -> Ccos (nth (length ns - 1) ths C0) = C1.
Proof.
  intros inv pri HN Et E. destruct (list_snell_spec arcsin inv ns C0 ths HN Et) as (_ & _ & _ & _ & _ & _ & Q). cbv zeta in Q. rewrite E, Csin_0 in Q.
  replace (nth 0 ns C0 * C0 / (1, 0))%C with C0 in Q by (field; intros Z; apply (f_equal Re) in Z; cbn in Z; lra).
  rewrite (arcsin_zero arcsin inv pri) in Q. rewrite (proj2 (forwards_real (1, 0) C1 eq_refl ltac:(cbn; lra) eq_refl)) in Q by (cbn; lra). rewrite Q. apply arcsin_zero; assumption.
Qed.
Lemma first_cos arcsin ns ths : inverts_sine arcsin -> principal arcsin -> (2 <= length ns)%nat -> list_snell arcsin ns C0 = Ok ths ->
  nth 0 ns C0 = (1, 0) -> Ccos (nth 0 ths C0) = C1.
Proof.
  intros inv pri HN Et E. destruct (list_snell_spec arcsin inv ns C0 ths HN Et) as (_ & _ & _ & _ & _ & F & _). rewrite E, Ccos_0 in F. apply F.
  apply forwards_real; cbn; try reflexivity; lra.
Qed.
Lemma crossing_normal pol n n' : (pol = "s" \/ pol = "p")%string -> 0 < Re n -> 0 < Re n' ->
  interface_crossing pol n C1 n' C1 = mkCross (Cnorm2 (n - n') / Cnorm2 (n + n')) (Re n' * 4 * Cnorm2 n / (Re n * Cnorm2 (n + n')))
     (Cnorm2 (n - n') / Cnorm2 (n + n')) (Re n * 4 * Cnorm2 n' / (Re n' * Cnorm2 (n + n'))).
Proof.
  assert (G : forall n n' : C, (pol = "s" \/ pol = "p")%string -> 0 < Re n -> 0 < Re n' -> Cnorm2 (fresnel_r pol n n' C1 C1) = Cnorm2 (n - n') / Cnorm2 (n + n') /\
    power pol n' C1 (fresnel_t pol n n' C1 C1, C0) / power pol n C1 (C1, C0) = Re n' * 4 * Cnorm2 n / (Re n * Cnorm2 (n + n'))).
  { intros a b Hp P1 P2. assert (Q : 0 < Cnorm2 (a + b)%C) by (apply Cnorm2_pos; intros Z; apply (f_equal Re) in Z; cbn in Z; lra).
    assert (Q' : (a + b)%C <> C0) by (intros Z; rewrite Z in Q; unfold Cnorm2 in Q; cbn in Q; lra).
    assert (W : forall x, power pol x C1 (C1, C0) = Re x) by (intros [u v]; unfold power, tangential; destruct Hp as [-> | ->]; cbn; ring).
    assert (T : Cnorm2 (fresnel_t pol a b C1 C1) * Cnorm2 (a + b) = 4 * Cnorm2 a).
    { rewrite <- Cnorm2_mul. replace (fresnel_t pol a b C1 C1 * (a + b))%C with (RtoC 2 * a)%C; [rewrite Cnorm2_mul; unfold Cnorm2 at 1; cbn; ring|].
      unfold fresnel_t. destruct Hp as [-> | ->]; cbn [String.eqb Ascii.eqb Bool.eqb]; [field; replace (a * C1 + b * C1)%C with (a + b)%C by ring; exact Q'|].
      replace (b * C1 + a * C1)%C with (a + b)%C by ring. field. exact Q'. }
    assert (F : Cnorm2 (fresnel_r pol a b C1 C1) * Cnorm2 (a + b) = Cnorm2 (a - b)).
    { rewrite <- Cnorm2_mul. unfold fresnel_r. destruct Hp as [-> | ->]; cbn [String.eqb Ascii.eqb Bool.eqb].
      - f_equal. replace (a * C1 + b * C1)%C with (a + b)%C by ring. field. exact Q'.
      - replace ((b * C1 - a * C1) / (b * C1 + a * C1) * (a + b))%C with (- (a - b))%C by (replace (b * C1 + a * C1)%C with (a + b)%C by ring; field; exact Q').
        unfold Cnorm2. destruct a, b; cbn; ring. }
    split.
    - rewrite <- F. field. lra.
    - rewrite power_forward, !W. apply (Rmult_eq_reg_r (Re a * Cnorm2 (a + b)%C)); [|nra]. transitivity (Re b * (Cnorm2 (fresnel_t pol a b C1 C1) * Cnorm2 (a + b)%C)); [field; lra|]. rewrite T. field. split; lra. }
  intros Hp P1 P2. unfold interface_crossing. destruct (G n n' Hp P1 P2) as (-> & ->). destruct (G n' n Hp P2 P1) as (-> & ->).
  replace (n' + n)%C with (n + n')%C by ring. replace (Cnorm2 (n' - n)%C) with (Cnorm2 (n - n')%C) by (unfold Cnorm2; destruct n, n'; cbn; ring). reflexivity.
Qed.

(** One incoherent layer [n] in vacuum *)
Lemma one_layer f pol n d D : inverts_sine f -> principal f -> (pol = "s" \/ pol = "p")%string -> 0 < Re n ->
  inc_tmm f pol [(1, 0); n; (1, 0)] [PInf; d; PInf] ["i"; "i"; "i"]%string C0 1 = Ok D ->
  incoherent_layers D = 3%nat /\
  crossing_of D 0 = mkCross (Cnorm2 (C1 - n) / Cnorm2 (C1 + n)) (Re n * 4 / Cnorm2 (C1 + n)) (Cnorm2 (C1 - n) / Cnorm2 (C1 + n)) (4 * Cnorm2 n / (Re n * Cnorm2 (C1 + n))) /\
  crossing_of D 1 = mkCross (x_Rb (crossing_of D 0)) (x_Tb (crossing_of D 0)) (x_Rf (crossing_of D 0)) (x_Tf (crossing_of D 0)) /\
  exists t, d = Fin t /\ pass_of D 1 = Rmax (exp (- (4 * PI * Im n * t))) (/ 10 ^ 30).
Proof.
  intros inv pri Hp Pn H. destruct (layers_all _ _ _ _ _ _ _ _ H) as (_ & G & EL). cbn in EL.
  assert (M3 : incoherent_layers D = 3%nat) by (apply (f_equal (@length nat)) in EL; rewrite map_length, seq_length in EL; exact EL).
  rewrite M3 in EL. cbn in EL. injection EL as L0 L1 L2. split; [exact M3|].
  destruct (angles_all _ _ _ _ _ _ _ _ inv H) as (HN & ths & Et & _ & _ & _ & X & _ & P).
  assert (Nz : n <> C0) by (intros ->; cbn in Pn; lra).
  pose proof (first_cos f _ ths inv pri HN Et eq_refl) as C_0. pose proof (normal_cos f _ C0 ths 1 inv pri HN Et ltac:(lia) ltac:(cbn; lia) eq_refl Nz) as C_1. pose proof (last_cos f _ ths inv pri HN Et eq_refl) as C_2.
  pose proof (X 0%nat ltac:(lia) ltac:(congruence)) as X0. pose proof (X 1%nat ltac:(lia) ltac:(congruence)) as X1. rewrite L0 in X0. rewrite L1 in X1. cbn [nth length Nat.sub] in *.
  rewrite C_0, C_1, crossing_normal in X0 by (assumption || (cbn; lra)). rewrite C_1, C_2, crossing_normal in X1 by (assumption || (cbn; lra)).
  assert (Q : 0 < Cnorm2 (C1 + n)%C) by (apply Cnorm2_pos; intros Z; apply (f_equal Re) in Z; cbn in Z; lra).
  change ((1, 0) + n)%C with (C1 + n)%C in X0. change ((1, 0) - n)%C with (C1 - n)%C in X0. replace (n + (1, 0))%C with (C1 + n)%C in X1 by (apply Ceq; cbn; ring).
  replace (Cnorm2 (n - (1, 0))%C) with (Cnorm2 (C1 - n)%C) in X1 by (unfold Cnorm2; destruct n; cbn; ring).
  assert (N1 : Cnorm2 (1, 0) = 1) by (unfold Cnorm2; cbn; ring). rewrite N1 in X0, X1. cbn [Re fst] in X0, X1.
  split; [rewrite X0; f_equal; field; lra|]. split; [rewrite X0, X1; cbn; f_equal; field; lra|].
  destruct (P 1%nat ltac:(lia) ltac:(lia)) as (t & E & _ & Q2). rewrite L1 in E, Q2. cbn [nth] in *. exists t. split; [exact E|]. rewrite Q2, C_1. do 2 f_equal. destruct n; cbn. field.
Qed.

Lemma slab_example : exists arcsin D, inverts_sine arcsin /\ principal arcsin /\
  inc_tmm arcsin "s" [(1, 0); (3/2, 0); (1, 0)] [PInf; Fin 1; PInf] ["i"; "i"; "i"]%string C0 1 = Ok D /\
  i_R D = 1/13 /\ i_T D = 12/13.
Proof.
  destruct arcsin_exists as (f & inv & pri). destruct (slab_success f "s" 1 inv pri (or_introl eq_refl)) as (D & H). exists f, D. do 3 (split; [assumption|]).
  destruct (one_layer f "s" (3/2, 0) (Fin 1) D inv pri (or_introl eq_refl) ltac:(cbn; lra) H) as (M & X0 & X1 & t & _ & P).
  destruct (three_layers _ _ _ _ _ _ _ _ H M) as (_ & -> & ->). cbn zeta. rewrite X1, X0, P. cbn [x_Rf x_Tf x_Rb x_Tb].
  replace (4 * PI * Im (3 / 2, 0) * t) with 0 by (cbn; ring). rewrite Ropp_0, exp_0.
  rewrite Rmax_left by (rewrite <- Rinv_1; apply Rinv_le_contravar; [lra|apply pow_R1_Rle; lra]). unfold Cnorm2. cbn. split; field; lra.
Qed.
