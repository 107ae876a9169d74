(** Proofs about index normalisation, detector cells and source signals. *)
From Coq Require Import Reals ZArith String List Bool Lra Lia Psatz.
From Verif Require Import Base BaseLemmas Model_Units Proof_Units Model_FDTD Model_Register Spec_FDTD Spec_Register Proof_Torus Proof_FDTD Proof_Energy Proof_Propagate Proof_Steps Proof_Linear Proof_Reset Proof_Cavity Proof_Register Proof_Register2 Proof_Material.
Import ListNotations.
Open Scope R_scope.

(** * Distances *)

(** The chosen index is a nearest one, halves going up. *)
Lemma distance_nearest spacing d : 0 < spacing -> - (/ 2) * spacing <= d ->
  let i := IZR (handle_distance spacing (PFloat d)) in
  d - spacing / 2 < i * spacing <= d + spacing / 2.
Proof.
  intros Hs Hd. cbn [handle_distance]. cbv zeta.
  assert (Hq : 0 <= d / spacing + / 2).
  { apply (Rmult_le_reg_r spacing); [exact Hs|]. rewrite Rmult_0_l, Rmult_plus_distr_r.
    unfold Rdiv. rewrite Rmult_assoc, Rinv_l by lra. lra. }
  rewrite Rtrunc_nonneg by exact Hq. destruct (Rfloor_spec (d / spacing + / 2)) as [A B].
  set (i := IZR (Rfloor (d / spacing + / 2))) in *.
  assert (E : d / spacing * spacing = d) by (field; lra).
  split.
  - apply (Rmult_lt_compat_r spacing) in B; [|exact Hs]. nra.
  - apply (Rmult_le_compat_r spacing) in A; [|lra]. nra.
Qed.
(** Below minus half a cell the conversion is off: it rounds towards zero after
    the half-cell shift. *)
Lemma distance_negative spacing d : 0 < spacing -> d < - (/ 2) * spacing ->
  let i := IZR (handle_distance spacing (PFloat d)) in
  d + spacing / 2 <= i * spacing < d + 3 / 2 * spacing.
Proof.
  intros Hs Hd. cbn [handle_distance]. cbv zeta.
  assert (Hq : d / spacing + / 2 < 0).
  { apply (Rmult_lt_reg_r spacing); [exact Hs|]. rewrite Rmult_0_l, Rmult_plus_distr_r.
    unfold Rdiv. rewrite Rmult_assoc, Rinv_l by lra. lra. }
  rewrite Rtrunc_neg by exact Hq. rewrite opp_IZR.
  destruct (Rfloor_spec (- (d / spacing + / 2))) as [A B].
  set (i := IZR (Rfloor (- (d / spacing + / 2)))) in *.
  assert (E : d / spacing * spacing = d) by (field; lra).
  split.
  - apply (Rmult_le_compat_r spacing) in A; [|lra]. nra.
  - apply (Rmult_lt_compat_r spacing) in B; [|exact Hs]. nra.
Qed.
Lemma distance_int spacing z : handle_distance spacing (PInt z) = z.
Proof. reflexivity. Qed.

Lemma time_nearest dt t : 0 < dt -> 0 <= t ->
  Rabs (IZR (handle_time dt (PFloat t)) * dt - t) <= dt / 2.
Proof.
  intros Hd Ht. assert (H : - (/ 2) * dt <= t) by lra.
  destruct (distance_nearest dt t Hd H) as [A B]. cbn [handle_distance] in A, B. cbn [handle_time].
  apply Rabs_le. lra.
Qed.

(** * Line detectors and sources *)

Lemma line_index_exact_up a m i : (0 < m)%nat -> line_index a (a + Z.of_nat m) m i = (a + Z.of_nat i)%Z.
Proof.
  intros Hm. unfold line_index.
  replace (a * Z.of_nat m + Z.of_nat i * (a + Z.of_nat m - a))%Z with ((a + Z.of_nat i) * Z.of_nat m)%Z by ring.
  apply Z.quot_mul. lia.
Qed.
Lemma line_index_const a m i : (0 < m)%nat -> line_index a a m i = a.
Proof.
  intros Hm. unfold line_index. rewrite Z.sub_diag, Z.mul_0_r, Z.add_0_r. apply Z.quot_mul. lia.
Qed.

(** [grid[x, :, z] = ...] visits every y once, at fixed x and z. *)
Lemma line_across_y minimum N x z s : (minimum <= N AY)%nat -> (0 < N AY)%nat ->
  line_cells minimum N (HList [x]) (HSlice None None s) (HList [z])
  = Ok (map (fun j => (x, Z.of_nat j, z)) (seq 0 (N AY))).
Proof.
  intros Hm HN. unfold line_cells. cbn [to_bounds last bind fst snd].
  rewrite !Z.sub_diag, Z.sub_0_r.
  replace (Z.to_nat (Z.max (Z.max (Z.abs 0) (Z.abs (Z.of_nat (N AY)))) (Z.abs 0))) with (N AY) by lia.
  assert ((minimum <=? N AY)%nat = true) as -> by (apply Nat.leb_le; exact Hm).
  cbn [ensure bind]. assert ((N AY =? 0)%nat = false) as -> by (apply Nat.eqb_neq; lia). cbn [negb ensure bind].
  apply f_equal. apply map_ext. intros j. rewrite !line_index_const by exact HN.
  change (Z.of_nat (N AY)) with (0 + Z.of_nat (N AY))%Z. rewrite line_index_exact_up by exact HN. reflexivity.
Qed.

(** Negative bounds of lines are not counted from the end: [-k:] runs from -k
    to the grid size and visits the last k cells twice. *)
Lemma line_negative_start N x z k s : (0 < k)%nat -> (k <= N AY)%nat ->
  line_cells 0 N (HList [x]) (HSlice (Some (- Z.of_nat k)%Z) None s) (HList [z])
  = Ok (map (fun j => (x, Z.of_nat j - Z.of_nat k, z)%Z) (seq 0 (N AY + k))).
Proof.
  intros Hk HN. unfold line_cells. cbn [to_bounds last bind fst snd].
  rewrite !Z.sub_diag.
  replace (Z.to_nat (Z.max (Z.max (Z.abs 0) (Z.abs (Z.of_nat (N AY) - - Z.of_nat k))) (Z.abs 0))) with (N AY + k)%nat by lia.
  cbn [Nat.leb ensure bind]. assert ((N AY + k =? 0)%nat = false) as -> by (apply Nat.eqb_neq; lia). cbn [negb ensure bind].
  apply f_equal. apply map_ext. intros j. rewrite !line_index_const by lia.
  replace (Z.of_nat (N AY)) with (- Z.of_nat k + Z.of_nat (N AY + k))%Z by lia.
  rewrite line_index_exact_up by lia. f_equal. f_equal. lia.
Qed.

(** Block detectors include the stop index: an open end reaches one past the
    last cell and every step raises. *)
Lemma In_arange a b l : arange_incl (a, b) = Ok l -> forall z, In z l <-> (a <= z <= b)%Z.
Proof.
  unfold arange_incl. destruct (Z.ltb_spec (b + 1) a); [discriminate|]. intros E; inversion E; subst; clear E.
  intros z. rewrite in_map_iff. split.
  - intros (i & <- & Hi). apply in_seq in Hi. lia.
  - intros Hz. exists (Z.to_nat (z - a)). split; [lia|]. apply in_seq. lia.
Qed.
Lemma In_block xs ys zs x y z : In (x, y, z) (block_product xs ys zs) <-> In x xs /\ In y ys /\ In z zs.
Proof.
  unfold block_product. rewrite in_flat_map. split.
  - intros (x' & Hx & H). apply in_flat_map in H as (y' & Hy & H). apply in_map_iff in H as (z' & E & Hz).
    inversion E; subst. auto.
  - intros (Hx & Hy & Hz). exists x. split; [exact Hx|]. apply in_flat_map. exists y. split; [exact Hy|].
    apply in_map. exact Hz.
Qed.
Lemma block_cells_incl N xa xb ya yb za zb s1 s2 s3 cells :
  block_cells N (HSlice (Some xa) (Some xb) s1) (HSlice (Some ya) (Some yb) s2) (HSlice (Some za) (Some zb) s3) = Ok cells ->
  forall x y z, In (x, y, z) cells <-> (xa <= x <= xb /\ ya <= y <= yb /\ za <= z <= zb)%Z.
Proof.
  unfold block_cells. cbn [to_bounds bind]. intros H x y z.
  destruct (arange_incl (xa, xb)) as [xs|] eqn:X; cbn [bind] in H; [|discriminate].
  destruct (arange_incl (ya, yb)) as [ys|] eqn:Y; cbn [bind] in H; [|discriminate].
  destruct (arange_incl (za, zb)) as [zs|] eqn:Z; cbn [bind] in H; [|discriminate].
  inversion H; subst. rewrite In_block, (In_arange _ _ _ X), (In_arange _ _ _ Y), (In_arange _ _ _ Z). tauto.
Qed.

Lemma open_block_blocks k nm g g' key l n : k <> DLine -> (1 <= length key <= 3)%nat ->
  (In full_slice key \/ (length key < 3)%nat) ->
  (forall x, In x key -> x = full_slice \/ exists z, x = KNum (PInt z)) ->
  setitem key (CDetector k nm) g = (g', None) -> (0 < n)%nat ->
  forall g'', run_steps n (assign_all l g') <> Ok g''.
Proof.
  intros Hk Hlen Hopen Hkey H Hn g'' Hrun.
  assert (exists x y z, pad_key key = Ok (x, y, z) /\ In full_slice [x; y; z]
     /\ (forall v, In v [x; y; z] -> v = full_slice \/ exists i, v = KNum (PInt i))) as (x & y & z & Hp & Ho & Hv).
  { destruct key as [|x [|y [|z [|]]]]; cbn in Hlen; try lia.
    - exists x, full_slice, full_slice. split; [reflexivity|]. split; [cbn; auto|].
      intros v [<-|[<-|[<-|[]]]]; auto. apply Hkey. left; reflexivity.
    - exists x, y, full_slice. split; [reflexivity|]. split; [cbn; auto|].
      intros v [<-|[<-|[<-|[]]]]; auto; apply Hkey; cbn; auto.
    - exists x, y, z. split; [reflexivity|]. split; [|intros v Hv; apply Hkey; exact Hv].
      destruct Hopen as [Ho|Ho]; [exact Ho|cbn in Ho; lia]. }
  unfold setitem in H. rewrite Hp in H. cbn [register] in H. unfold register_detector in H.
  destruct (claim_name nm g) as [g1|] eqn:E; [|discriminate].
  apply claim_name_inv in E as [E _]. destruct E as (EN & _).
  set (hx := handle_key (g_spacing g) x) in *. set (hy := handle_key (g_spacing g) y) in *. set (hz := handle_key (g_spacing g) z) in *.
  assert (match k with DLine => line_cells 0 (g_N g) hx hy hz | _ => block_cells (g_N g) hx hy hz end = block_cells (g_N g) hx hy hz) as EB
    by (destruct k; [congruence|reflexivity|reflexivity]).
  rewrite EB in H. clear EB. destruct (block_cells (g_N g) hx hy hz) as [cells|] eqn:EC; [|discriminate].
  inversion H; subst; clear H.
  assert (bad : exists c, In c cells /\ ~ cell_ok (g_N g) c).
  { assert (F : forall n0 v, (v = full_slice \/ exists i, v = KNum (PInt i)) ->
       exists a b, to_bounds n0 (handle_key (g_spacing g) v) = Ok (a, b) /\ (v = full_slice -> b = Z.of_nat n0) /\ (a <= b)%Z).
    { intros n0 v [->|[i ->]]; cbn; do 2 eexists; (split; [reflexivity|]); split; try reflexivity; try lia. discriminate. }
    destruct (F (g_N g AX) x) as (xa & xb & X1 & X2 & X3); [apply Hv; cbn; auto|].
    destruct (F (g_N g AY) y) as (ya & yb & Y1 & Y2 & Y3); [apply Hv; cbn; auto|].
    destruct (F (g_N g AZ) z) as (za & zb & Z1 & Z2 & Z3); [apply Hv; cbn; auto|].
    fold hx in X1. fold hy in Y1. fold hz in Z1.
    assert (EC' : (let! xs := arange_incl (xa, xb) in let! ys := arange_incl (ya, yb) in let! zs := arange_incl (za, zb) in
                  Ok (block_product xs ys zs)) = Ok cells).
    { unfold block_cells in EC. rewrite X1, Y1, Z1 in EC. cbn [bind] in EC.
      assert (NL : is_list hx = false \/ is_list hy = false \/ is_list hz = false).
      { destruct Ho as [Ho|[Ho|[Ho|[]]]]; [left; unfold hx|right; left; unfold hy|right; right; unfold hz]; rewrite Ho; reflexivity. }
      destruct hx, hy, hz; cbn in NL; try exact EC. destruct NL as [?|[?|?]]; discriminate. }
    destruct (arange_incl (xa, xb)) as [xs|] eqn:AX1; cbn [bind] in EC'; [|discriminate].
    destruct (arange_incl (ya, yb)) as [ys|] eqn:AY1; cbn [bind] in EC'; [|discriminate].
    destruct (arange_incl (za, zb)) as [zs|] eqn:AZ1; cbn [bind] in EC'; [|discriminate].
    inversion EC'; subst cells. exists (xb, yb, zb). split.
    - rewrite In_block, (In_arange _ _ _ AX1), (In_arange _ _ _ AY1), (In_arange _ _ _ AZ1). lia.
    - cbn. unfold index_ok. destruct Ho as [Ho|[Ho|[Ho|[]]]];
        [rewrite (X2 Ho)|rewrite (Y2 Ho)|rewrite (Z2 Ho)]; lia. }
  destruct bad as (c & Hc & Hbad).
  assert (ER : exists g', run_steps n (assign_all l (add_detector_ (match k with DCurrent => CurrentDetector cells [] | _ => FieldDetector cells [] [] end) g1)) = Ok g') by eauto.
  apply run_raises_iff in ER as [->|(_ & D & _)]; [lia|].
  destruct (assign_all_extends l (add_detector_ (match k with DCurrent => CurrentDetector cells [] | _ => FieldDetector cells [] [] end) g1))
    as (XN & _ & _ & _ & _ & _ & _ & _ & _ & _ & [l' XD] & _).
  rewrite XD, XN in D. cbn [add_detector_ g_detectors g_N] in D. rewrite <- EN in D. rewrite Forall_forall in D.
  specialize (D (match k with DCurrent => CurrentDetector cells [] | _ => FieldDetector cells [] [] end)).
  assert (K : In (match k with DCurrent => CurrentDetector cells [] | _ => FieldDetector cells [] [] end)
    ((g_detectors g1 ++ [match k with DCurrent => CurrentDetector cells [] | _ => FieldDetector cells [] [] end]) ++ l'))
    by (apply in_or_app; left; apply in_or_app; right; left; reflexivity).
  specialize (D K). destruct k; [congruence| |]; cbn in D; rewrite Forall_forall in D; specialize (D c Hc).
  - contradiction.
  - destruct c as [[cx cy] cz]. destruct D as [D _]. contradiction.
Qed.
