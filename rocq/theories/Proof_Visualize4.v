(** Proofs for C76, continued: where the parts of a picture are. *)
From Coq Require Import Reals ZArith String List Bool Arith Lra Lia.
From Verif Require Import Base BaseLemmas Model_Units Model_FDTD Model_Register Model_Runs Model_Output Model_Visualize Spec_FDTD Spec_Register Spec_Visualize
  Proof_FDTD Proof_Register Proof_Index Proof_Material Proof_Output Proof_Visualize Proof_Visualize2 Proof_Visualize3.
Import ListNotations.
Open Scope list_scope.
Open Scope R_scope.

Lemma combine_app {A B} (l m : list A) (l' m' : list B) : length l = length l' -> combine (l ++ m) (l' ++ m') = combine l l' ++ combine m m'.
Proof. revert l'. induction l as [|a l IH]; intros [|b l'] H; cbn in *; try discriminate; [reflexivity|]. rewrite IH by lia. reflexivity. Qed.
Lemma Forall2_last {A B} (P : A -> B -> Prop) l x m : Forall2 P (l ++ [x]) m -> exists m' y, m = m' ++ [y] /\ P x y.
Proof.
  intros F. apply Forall2_app_inv_l in F as (m' & m2 & F1 & F2 & ->). inversion F2 as [|a b la lb Pxy Fn]; subst. inversion Fn; subst. eauto.
Qed.
(** The rectangle of an object covers the pixels of the cells of its slices. *)
Lemma object_where ax bx ay by_ az bz nm eps cond st st' x y z norm grad pic a k lo hi :
  perform_in (Assign [int_slice ax bx; int_slice ay by_; int_slice az bz] (CObject nm eps cond)) st = Some (st', None) ->
  slice_range (g_N (st_grid st) AX) ax bx (coord AX lo) (coord AX hi) ->
  slice_range (g_N (st_grid st) AY) ay by_ (coord AY lo) (coord AY hi) ->
  slice_range (g_N (st_grid st) AZ) az bz (coord AZ lo) (coord AZ hi) ->
  asks x y z a k -> visualize x y z norm grad st' = Ok pic ->
  exists earlier rect, rects ObjRole (pic_items pic) = earlier ++ [rect]
  /\ forall r c, holds_pixel rect r c <-> (coord (down a) lo <= r < coord (down a) hi)%nat /\ (coord (across a) lo <= c < coord (across a) hi)%nat.
Proof.
  intros P RX RY RZ Ha E. apply (picture_objects _ _ _ _ _ _ _ _ _ Ha) in E.
  unfold perform_in in P. cbn [perform] in P.
  destruct (setitem _ _ (ss_grid (st_session st))) as [g' e] eqn:S. cbn [fst snd] in P.
  destruct e as [e|]; [discriminate|]. inversion P; subst; clear P. cbn [st_objs] in E. unfold st_grid in *.
  destruct (object_placed [int_slice ax bx; int_slice ay by_; int_slice az bz] _ _ _ _ _ _ _ _ eq_refl S) as (zl & zh & o & O & Ap & Ho). rewrite Ap in E.
  apply Forall2_last in E as (m & rect & Em & r0 & r1 & c0 & c1 & Dr & Dc & H). exists m, rect. split; [exact Em|].
  assert (HK : forall a b, handle_key (g_spacing (ss_grid (st_session st))) (int_slice a b) = HSlice a b None) by (intros [u|] [v|]; reflexivity).
  rewrite !HK in O. unfold object_region in O.
  rewrite (proj1 (slice_range_region _ _ _ _ _ RX)), (proj1 (slice_range_region _ _ _ _ _ RY)), (proj1 (slice_range_region _ _ _ _ _ RZ)) in O.
  cbn [bind fst snd] in O.
  assert (zl = (Z.of_nat (coord AX lo), Z.of_nat (coord AY lo), Z.of_nat (coord AZ lo))) as Ezl by congruence.
  assert (zh = (Z.of_nat (coord AX hi), Z.of_nat (coord AY hi), Z.of_nat (coord AZ hi))) as Ezh by congruence.
  assert (BD : forall b, (coord b lo <= coord b hi)%nat)
    by (destruct RX as (_ & _ & ?), RY as (_ & _ & ?), RZ as (_ & _ & ?); intros [| |]; lia).
  rewrite Ho in Dr, Dc. assert (ZL : forall b, zcoord b zl = Z.of_nat (coord b lo)) by (intros []; rewrite Ezl; reflexivity).
  assert (ZH : forall b, zcoord b zh = Z.of_nat (coord b hi)) by (intros []; rewrite Ezh; reflexivity).
  rewrite ZL, ZH in Dr, Dc. injection Dr as <- <-. injection Dc as <- <-.
  intros r c. rewrite H. pose proof (BD (down a)). pose proof (BD (across a)). lia.
Qed.

(** The outline of a block detector holds the cells it reads. *)
Lemma arange_ends a b l : arange_incl (a, b) = Ok l -> l = [] \/ (exists r, l = a :: r) /\ exists m, l = m ++ [b].
Proof.
  unfold arange_incl. destruct (Z.ltb_spec (b + 1) a); [discriminate|]. intros E; inversion E; subst; clear E.
  destruct (Z.to_nat (b + 1 - a)) as [|n] eqn:Q; [left; reflexivity|right]. split.
  - cbn [seq map]. rewrite Z.add_0_r. eauto.
  - exists (map (fun i => (a + Z.of_nat i)%Z) (seq 0 n)). rewrite seq_S, map_app. cbn [map Nat.add]. do 2 f_equal. lia.
Qed.
Lemma block_ends xs ys zs x0 y0 z0 xr yr zr xm ym zm x1 y1 z1 :
  xs = x0 :: xr -> ys = y0 :: yr -> zs = z0 :: zr -> xs = xm ++ [x1] -> ys = ym ++ [y1] -> zs = zm ++ [z1] ->
  exists r, block_product xs ys zs = (x0, y0, z0) :: r /\ @last zpos r (x0, y0, z0) = (x1, y1, z1).
Proof.
  intros X Y Z X' Y' Z'. assert (H : exists r, block_product xs ys zs = (x0, y0, z0) :: r) by (rewrite X, Y, Z; cbn; eauto).
  assert (L : exists m, block_product xs ys zs = m ++ [(x1, y1, z1)]).
  { assert (G : forall {A B} (f : A -> list B) m x, flat_map f (m ++ [x]) = flat_map f m ++ f x) by (intros; rewrite flat_map_app; cbn; rewrite app_nil_r; reflexivity).
    assert (M : exists m, flat_map (fun y => map (fun z => (x1, y, z)) zs) ys = m ++ [(x1, y1, z1)]).
    { rewrite Y', G. exists (flat_map (fun y => map (fun z => (x1, y, z)) zs) ym ++ map (fun z => (x1, y1, z)) zm).
      rewrite <- app_assoc. f_equal. rewrite Z', map_app. reflexivity. }
    destruct M as [m M]. unfold block_product. rewrite X', G, M. rewrite app_assoc. eauto. }
  destruct H as [r H], L as [m L]. exists r. split; [exact H|]. rewrite H in L. destruct m as [|q m]; cbn in L; inversion L; subst; [reflexivity|].
  apply last_last.
Qed.
Lemma block_outline N x y z cells p r a : ~ (exists xs ys zs, x = HList xs /\ y = HList ys /\ z = HList zs) ->
  block_cells N x y z = Ok cells -> cells = p :: r -> forall q, In q cells -> within a p (last r p) q.
Proof.
  intros Nl E Ec q Q. assert (B : exists bx by_ bz xs ys zs, arange_incl bx = Ok xs /\ arange_incl by_ = Ok ys /\ arange_incl bz = Ok zs /\ cells = block_product xs ys zs).
  { unfold block_cells in E.
    destruct x, y, z; try (exfalso; apply Nl; do 3 eexists; repeat split; reflexivity);
      apply bind_inv in E as (bx & _ & E); apply bind_inv in E as (by_ & _ & E); apply bind_inv in E as (bz & _ & E);
      apply bind_inv in E as (xs & X & E); apply bind_inv in E as (ys & Y & E); apply bind_inv in E as (zs & Z & E); inversion E; subst;
      exists bx, by_, bz, xs, ys, zs; auto. }
  destruct B as ([xa xb] & [ya yb] & [za zb] & xs & ys & zs & X & Y & Z & B).
  destruct q as [[qx qy] qz]. rewrite B in Q. apply In_block in Q as (Qx & Qy & Qz).
  destruct (arange_ends _ _ _ X) as [-> |((xr & X0) & xm & X1)]; [destruct Qx|].
  destruct (arange_ends _ _ _ Y) as [-> |((yr & Y0) & ym & Y1)]; [destruct Qy|].
  destruct (arange_ends _ _ _ Z) as [-> |((zr & Z0) & zm & Z1)]; [destruct Qz|].
  destruct (block_ends _ _ _ _ _ _ _ _ _ _ _ _ _ _ _ X0 Y0 Z0 X1 Y1 Z1) as (r' & H & L).
  rewrite B, H in Ec. assert (Ep : (xa, ya, za) = p) by congruence. assert (Er : r' = r) by congruence. rewrite <- Ep, <- Er, L.
  apply (In_arange _ _ _ X) in Qx. apply (In_arange _ _ _ Y) in Qy. apply (In_arange _ _ _ Z) in Qz.
  intros b _. destruct b; cbn [zcoord]; assumption.
Qed.
Lemma block_drawn key nm st st' x y z norm grad pic a k : (forall l, ~ In (KList l) key) ->
  perform_in (Assign key (CDetector DBlock nm)) st = Some (st', None) ->
  length (ss_dets (st_session st)) = length (g_detectors (st_grid st)) ->
  asks x y z a k -> visualize x y z norm grad st' = Ok pic ->
  exists ds d cells p q cs curve, g_detectors (st_grid st') = ds ++ [d] /\ cells_read d = Some cells
  /\ curves DetRole (pic_items pic) = cs ++ [curve] /\ outlines a p q curve /\ forall c, In c cells -> within a p q c.
Proof.
  intros Nl P L Ha E. apply (picture_detectors _ _ _ _ _ _ _ _ _ Ha) in E.
  unfold perform_in in P. cbn [perform] in P. destruct (setitem _ _ (ss_grid (st_session st))) as [g' [e|]] eqn:S; [discriminate|]. cbn [option_map] in P.
  inversion P; subst; clear P. unfold st_grid in *. cbn [st_session with_grid ss_grid ss_dets] in *.
  assert (Nk : forall u v w, pad_key key = Ok (u, v, w) -> forall l, u <> KList l /\ v <> KList l /\ w <> KList l).
  { intros u v w Hk l. destruct key as [|k1 [|k2 [|k3 [|]]]]; inversion Hk; subst; clear Hk; repeat split; try discriminate; intros ->; apply (Nl l); cbn; auto. }
  unfold setitem in S. unfold appended in E. destruct (pad_key key) as [[[u v] w]|]; [|discriminate]. specialize (Nk _ _ _ eq_refl). cbn [register] in S.
  unfold register_detector in S. destruct (claim_name nm _) as [g1|] eqn:C; [|discriminate]. apply claim_detectors in C.
  destruct (block_cells _ _ _ _) as [cells|] eqn:B; [|discriminate]. inversion S; subst; clear S. cbn [add_detector_ g_detectors] in E. cbn [add_detector_ g_detectors].
  rewrite C in E. rewrite combine_app in E by exact L. cbn [combine] in E.
  apply Forall2_last in E as (cs & curve & Ec & p & r & Rd & _ & O). cbn [fst snd cells_read] in Rd, O. injection Rd as Rd.
  rewrite C. do 2 eexists. exists cells, p, (last r p), cs, curve. split; [reflexivity|]. split; [reflexivity|]. split; [exact Ec|]. split; [exact (O eq_refl)|].
  set (sp := g_spacing (ss_grid (st_session st))) in *.
  assert (D : (exists xs ys zs, handle_key sp u = HList xs /\ handle_key sp v = HList ys /\ handle_key sp w = HList zs)
    \/ ~ (exists xs ys zs, handle_key sp u = HList xs /\ handle_key sp v = HList ys /\ handle_key sp w = HList zs)).
  { destruct (handle_key sp u) as [xs|]; [|right; intros (?&?&?&?&_); discriminate]. destruct (handle_key sp v) as [ys|]; [|right; intros (?&?&?&_&?&_); discriminate].
    destruct (handle_key sp w) as [zs|]; [|right; intros (?&?&?&_&_&?); discriminate]. left. eauto 8. }
  destruct D as [D|D]; [|intros c Ic; exact (block_outline _ _ _ _ _ _ _ a D B Rd c Ic)].
  destruct D as (xs & ys & zs & Hx & Hy & Hz).
  destruct u as [u|l|]; [|exfalso; destruct (Nk l) as (? & _); contradiction|discriminate].
  destruct v as [v|l|]; [|exfalso; destruct (Nk l) as (_ & ? & _); contradiction|discriminate].
  destruct w as [w|l|]; [|exfalso; destruct (Nk l) as (_ & _ & ?); contradiction|discriminate].
  cbn [handle_key] in B. cbn in B. injection B as B. rewrite <- B in Rd. injection Rd as <- <-. rewrite <- B. cbn [last]. intros c [<- |[]] b _. split; reflexivity.
Qed.

(** ** What is not drawn, or drawn elsewhere *)
Lemma zx_point_refused x y z norm grad st k cell : asks x y z AY k -> In cell (point_sources (g_sources (st_grid st))) ->
  ~ an_index (g_N (st_grid st) AX) (zcoord AY cell) -> forall pic, visualize x y z norm grad st <> Ok pic.
Proof.
  intros Ha I No pic E. assert (Ex : exists p, visualize x y z norm grad st = Ok p) by eauto.
  apply picture_iff in Ex as (_ & _ & a & k' & Ha' & _ & _ & Fs & _).
  destruct (asks_fun _ _ _ _ _ _ _ Ha Ha') as [<- <-]. apply in_flat_map in I as (s & Is & I). rewrite Forall_forall in Fs. specialize (Fs s Is).
  destruct s as [| | |]; cbn in I; try contradiction. destruct I as [<- |[]]. cbn [source_drawable] in Fs. destruct Fs as (r & c & _ & [L Q]). apply No. unfold an_index. lia.
Qed.
Lemma plane_edge_on x y z norm grad st pic a k lo hi b : asks x y z a k -> visualize x y z norm grad st = Ok pic ->
  plane_sources (g_sources (st_grid st)) = [(lo, hi)] -> (forall c, zcoord c lo < zcoord c hi)%Z -> b <> a -> (zcoord b hi = zcoord b lo + 1)%Z ->
  exists rect, rects SrcRole (pic_items pic) = [rect] /\ forall r c, ~ holds_pixel rect r c.
Proof.
  intros Ha E Pl Or Ne Th. pose proof (picture_planes _ _ _ _ _ _ _ _ _ Ha E) as F. rewrite Pl in F.
  assert (Q : Forall2 (fun lh rect => forall r c, holds_pixel rect r c <->
     (zcoord (down a) (fst lh) <= Z.of_nat r < zcoord (down a) (snd lh))%Z /\ (zcoord (across a) (fst lh) <= Z.of_nat c < zcoord (across a) (snd lh))%Z
     /\ (forall b, b <> a -> zcoord b (snd lh) <> zcoord b (fst lh) + 1)%Z) [(lo, hi)] (rects SrcRole (pic_items pic))).
  { apply F. intros l h c [Eq|[]]. injection Eq as <- <-. apply Or. }
  inversion Q as [|u rect la lb H Fn Eq1 Eq2]; subst. inversion Fn; subst. exists rect. split; [reflexivity|].
  intros r c K. apply H in K as (_ & _ & K). exact (K b Ne Th).
Qed.
Lemma negative_detector_off x y z norm grad st pic a k nk d p r b : asks x y z a k -> visualize x y z norm grad st = Ok pic ->
  combine (ss_dets (st_session st)) (g_detectors (st_grid st)) = [(nk, d)] -> cells_read d = Some (p :: r) -> b <> a -> (zcoord b p < 0)%Z ->
  exists curve rest u v, curves DetRole (pic_items pic) = [curve] /\ curve = Some (u, v) :: rest /\ (u <= -1 \/ v <= -1).
Proof.
  intros Ha E C D Ne Neg. pose proof (picture_detectors _ _ _ _ _ _ _ _ _ Ha E) as F. rewrite C in F.
  inversion F as [|u curve la lb H Fn Eq1 Eq2]; subst. inversion Fn; subst.
  destruct H as (p' & r' & H & J & O). cbn [fst snd] in *. rewrite D in H. injection H as <- <-.
  assert (G : exists rest, curve = spot a p :: rest).
  { destruct (snd nk) eqn:K; [rewrite (J ltac:(discriminate))| |rewrite (J ltac:(discriminate))]; try (eexists; reflexivity).
    destruct (O eq_refl) as (x0 & y0 & x1 & y1 & S1 & _ & ->). rewrite S1. eexists; reflexivity. }
  destruct G as [rest ->]. do 2 eexists. do 2 eexists. split; [reflexivity|]. split; [reflexivity|].
  assert (Q : (zcoord b p <= -1)%Z) by lia. apply IZR_le in Q. apply axes_of in Ne as [-> | ->]; [right|left]; exact Q.
Qed.
