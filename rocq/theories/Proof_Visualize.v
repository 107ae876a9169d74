(** Proofs for C76. *)
From Coq Require Import Reals ZArith String List Bool Arith Lra Lia.
From Verif Require Import Base BaseLemmas Model_FDTD Model_Register Model_Runs Model_Output Model_Visualize Spec_Visualize Proof_FDTD.
Import ListNotations.
Open Scope list_scope.
Open Scope R_scope.

Lemma resolve_names n z i : resolve n z = Ok i <-> names_index n z i.
Proof.
  unfold resolve, names_index.
  destruct ((0 <=? z) && (z <? Z.of_nat n))%Z eqn:A.
  - apply andb_true_iff in A as [A B]. apply Z.leb_le in A. apply Z.ltb_lt in B. split.
    + intros E. injection E as <-. lia.
    + intros [H [-> | ->]]; f_equal; lia.
  - destruct ((- Z.of_nat n <=? z) && (z <? 0))%Z eqn:B.
    + apply andb_true_iff in B as [B C]. apply Z.leb_le in B. apply Z.ltb_lt in C. split.
      * intros E. injection E as <-. lia.
      * intros [H [-> | ->]]; f_equal; lia.
    + split; [discriminate|]. intros [H [-> | ->]]; exfalso.
      * apply andb_false_iff in A as [A|A]; [apply Z.leb_gt in A|apply Z.ltb_ge in A]; lia.
      * apply andb_false_iff in B as [B|B]; [apply Z.leb_gt in B|apply Z.ltb_ge in B]; lia.
Qed.
Lemma resolve_cases n z : (exists i, resolve n z = Ok i) \/ resolve n z = Err IndexError.
Proof. unfold resolve. destruct (_ && _); [eauto|]. destruct (_ && _); eauto. Qed.
Lemma names_index_fun n z i j : names_index n z i -> names_index n z j -> i = j.
Proof. intros H K. apply resolve_names in H. apply resolve_names in K. congruence. Qed.
Lemma an_index_names n z : an_index n z <-> exists i, names_index n z i.
Proof.
  unfold an_index, names_index. split.
  - intros H. destruct (Z_lt_le_dec z 0); [exists (Z.to_nat (z + Z.of_nat n))|exists (Z.to_nat z)]; lia.
  - intros (i & H & [-> | ->]); lia.
Qed.

Lemma choose_asks x y z a k : choose_plane x y z = Ok (a, k) <-> asks x y z a k.
Proof.
  unfold asks. split.
  - destruct x, y, z; cbn; intros E; try discriminate; injection E as <- <-; repeat split.
  - destruct a; cbn; intros (-> & -> & ->); reflexivity.
Qed.
Lemma choose_err x y z e : choose_plane x y z = Err e -> e = ValueError.
Proof. destruct x, y, z; cbn; intros E; congruence. Qed.

Lemma down_row a : row_axis a = down a. Proof. destruct a; reflexivity. Qed.
Lemma across_col a : col_axis a = across a. Proof. destruct a; reflexivity. Qed.

(** ** The loops *)
Definition source_item (a : axis) (s : source) : item :=
  match s with
  | LineSource cells _ _ => match cells with [] => Lines SrcRole [] | p :: r => Lines SrcRole [spot a p; spot a (last r p)] end
  | PointSource cell _ _ => Marker SrcRole (IZR (zcoord (point_col_axis a) cell) - / 2, IZR (zcoord (down a) cell) - / 2)
  | PlaneSource lo hi _ _ _ _ _ =>
      let r := squeeze (zcoord (down a) lo) (zcoord (down a) hi) in
      let c := squeeze (zcoord (across a) lo) (zcoord (across a) hi) in
      Patch SrcRole (IZR (fst c) - / 2) (IZR (fst r) - / 2) (IZR (snd c - fst c)) (IZR (snd r - fst r))
  | UnplacedSource => Lines SrcRole []
  end.
Definition source_blanks (N : shape3) (a : axis) (s : source) (r c : nat) : Prop :=
  match s with PointSource cell _ _ => blanks N a cell r c | _ => False end.

Lemma blanks_resolve N a cell r c : blanks N a cell r c
  <-> resolve (N (row_axis a)) (zcoord (row_axis a) cell) = Ok r /\ resolve (N (col_axis a)) (zcoord (point_col_axis a) cell) = Ok c.
Proof. rewrite !resolve_names. destruct a; reflexivity. Qed.

Lemma draw_source_ok N a s px items px' items' : draw_source N a s (px, items) = Ok (px', items') ->
  source_drawable N a s /\ items' = items ++ [source_item a s]
  /\ forall r c, (source_blanks N a s r c -> px' r c = 0) /\ (~ source_blanks N a s r c -> px' r c = px r c).
Proof.
  destruct s as [cell amp sg|cells pr sg|lo hi e h amp pe ph|]; cbn [draw_source]; intros E.
  - apply bind_inv in E as (i & Ei & E). apply bind_inv in E as (j & Ej & E). injection E as <- <-.
    split; [exists i, j; apply blanks_resolve; auto|]. split; [cbn; now rewrite down_row|].
    intros r c. cbn [source_blanks]. rewrite blanks_resolve, Ei, Ej.
    destruct (Nat.eqb_spec r i), (Nat.eqb_spec c j); cbn; subst; split; try reflexivity; try (intros H; exfalso; apply H; auto; fail); intros [H K]; congruence.
  - destruct cells as [|p r]; [discriminate|]. cbn in E. injection E as <- <-. split; [discriminate|]. split; [cbn; now rewrite down_row, across_col|].
    intros; split; [intros []|reflexivity].
  - injection E as <- <-. split; [exact I|]. split; [cbn; now rewrite down_row, across_col|]. intros; split; [intros []|reflexivity].
  - discriminate.
Qed.
Lemma draw_source_live N a s px items : source_drawable N a s -> exists im, draw_source N a s (px, items) = Ok im.
Proof.
  destruct s as [cell amp sg|cells pr sg|lo hi e h amp pe ph|]; cbn [draw_source source_drawable].
  - intros (r & c & B). apply blanks_resolve in B as [-> ->]. cbn. eauto.
  - destruct cells; [contradiction|]. cbn. eauto.
  - eauto.
  - contradiction.
Qed.
Lemma draw_source_err N a s im e : draw_source N a s im = Err e -> e = IndexError \/ e = AttributeError.
Proof.
  destruct im as [px items]. destruct s as [cell amp sg|cells pr sg|lo hi e' h amp pe ph|]; cbn [draw_source].
  - destruct (resolve_cases (N (row_axis a)) (zcoord (row_axis a) cell)) as [[i ->]| ->]; cbn; [|intros E; injection E as <-; auto].
    destruct (resolve_cases (N (col_axis a)) (zcoord (point_col_axis a) cell)) as [[j ->]| ->]; cbn; intros E; [discriminate|injection E as <-; auto].
  - destruct cells; cbn; intros E; [injection E as <-; auto|discriminate].
  - discriminate.
  - intros E; injection E as <-; auto.
Qed.
Lemma draw_sources_ok N a l : forall px items px' items', fold_res (draw_source N a) l (px, items) = Ok (px', items') ->
  Forall (source_drawable N a) l /\ items' = items ++ map (source_item a) l
  /\ forall r c, ((exists s, In s l /\ source_blanks N a s r c) -> px' r c = 0)
     /\ (~ (exists s, In s l /\ source_blanks N a s r c) -> px' r c = px r c).
Proof.
  induction l as [|s l IH]; intros px items px' items' E.
  - injection E as <- <-. split; [constructor|]. split; [now rewrite app_nil_r|]. intros r c. split; [intros (s & [] & _)|reflexivity].
  - cbn [fold_res] in E. apply bind_inv in E as ([px1 it1] & E1 & E). apply draw_source_ok in E1 as (D & -> & P1).
    apply IH in E as (F & -> & P2). split; [constructor; assumption|]. split; [cbn [map]; now rewrite <- app_assoc|].
    intros r c. destruct (P1 r c) as [B1 B2]. destruct (P2 r c) as [C1 C2].
    assert (Dec : (exists s', In s' l /\ source_blanks N a s' r c) \/ ~ (exists s', In s' l /\ source_blanks N a s' r c)).
    { clear. induction l as [|s' l IH]; [right; intros (s & [] & _)|]. destruct IH as [(t & I & B)|H]; [left; exists t; split; [right|]; assumption|].
      assert (X : source_blanks N a s' r c \/ ~ source_blanks N a s' r c).
      { destruct s'; cbn [source_blanks]; auto. rewrite blanks_resolve.
        destruct (resolve _ _) as [i|]; [|right; intros [Q _]; discriminate]. destruct (resolve _ _) as [j|]; [|right; intros [_ Q]; discriminate].
        destruct (Nat.eq_dec i r), (Nat.eq_dec j c); subst; auto; right; intros [Q1 Q2]; congruence. }
      destruct X as [X|X]; [left; exists s'; split; [left; reflexivity|exact X]|].
      right. intros (t & [<-|I] & B); [contradiction|]. apply H. eauto. }
    split.
    + intros (t & [<-|I] & B).
      * destruct Dec as [Y|Nn]; [now apply C1|]. rewrite C2 by assumption. now apply B1.
      * apply C1. eauto.
    + intros Nn. rewrite C2.
      * apply B2. intros B. apply Nn. exists s. split; [left; reflexivity|exact B].
      * intros (t & I & B). apply Nn. exists t. split; [right; exact I|exact B].
Qed.
Lemma draw_sources_live N a l : forall im, Forall (source_drawable N a) l -> exists im', fold_res (draw_source N a) l im = Ok im'.
Proof.
  induction l as [|s l IH]; intros [px items] F; [eexists; reflexivity|]. apply Forall_cons_iff in F as [F1 F2].
  destruct (draw_source_live N a s px items F1) as [im E]. cbn [fold_res]. rewrite E. cbn [bind]. now apply IH.
Qed.
Lemma draw_sources_err N a l e : forall im, fold_res (draw_source N a) l im = Err e -> e = IndexError \/ e = AttributeError.
Proof.
  induction l as [|s l IH]; intros im E; [discriminate|]. cbn [fold_res] in E.
  destruct (draw_source N a s im) as [im'|e'] eqn:D; cbn [bind] in E; [eauto|]. injection E as <-. eapply draw_source_err; eassumption.
Qed.

Definition det_item (a : axis) (d : (option string * det_kind) * detector) : item :=
  Lines DetRole
  match cells_read (snd d) with
  | Some (p :: r) =>
      let q := last r p in
      match snd (fst d) with
      | DBlock => [spot a p; Some (IZR (zcoord (across a) q), IZR (zcoord (down a) p)); spot a q;
                   Some (IZR (zcoord (across a) p), IZR (zcoord (down a) q)); spot a p]
      | _ => [spot a p; spot a q]
      end
  | _ => []
  end.
Lemma draw_detector_ok a d items items' : draw_detector a d items = Ok items' ->
  detector_drawable (snd d) /\ items' = items ++ [det_item a d].
Proof.
  destruct d as [[n k] d]. unfold draw_detector. cbn [fst snd]. intros E. apply bind_inv in E as (cells & Ec & E).
  destruct cells as [|p r]; [discriminate|].
  assert (C : cells_read d = Some (p :: r)) by (destruct d; cbn in *; congruence).
  cbn in E. injection E as <-. split; [exists p, r; exact C|]. unfold det_item. cbn [fst snd]. rewrite C, ?down_row, ?across_col.
  destruct k; reflexivity.
Qed.
Lemma draw_detector_live a d items : detector_drawable (snd d) -> exists items', draw_detector a d items = Ok items'.
Proof.
  intros (p & r & C). unfold draw_detector. assert (H : det_cells (snd d) = Ok (p :: r)) by (destruct (snd d); cbn in *; congruence).
  rewrite H. cbn. eauto.
Qed.
Lemma draw_detector_err a d items e : draw_detector a d items = Err e -> e = IndexError \/ e = AttributeError.
Proof.
  unfold draw_detector. destruct (det_cells (snd d)) as [cells|e'] eqn:D; cbn [bind].
  - destruct cells; cbn; intros E; [injection E as <-; auto|discriminate].
  - intros E. injection E as <-. destruct (snd d); cbn in D; try discriminate. injection D as <-. auto.
Qed.
Lemma draw_detectors_ok a l : forall items items', fold_res (draw_detector a) l items = Ok items' ->
  Forall (fun d => detector_drawable (snd d)) l /\ items' = items ++ map (det_item a) l.
Proof.
  induction l as [|d l IH]; intros items items' E.
  - injection E as <-. split; [constructor|]. now rewrite app_nil_r.
  - cbn [fold_res] in E. apply bind_inv in E as (i1 & E1 & E). apply draw_detector_ok in E1 as (D & ->).
    apply IH in E as (F & ->). split; [constructor; assumption|]. cbn [map]. now rewrite <- app_assoc.
Qed.
Lemma draw_detectors_live a l : forall items, Forall (fun d => detector_drawable (snd d)) l -> exists items', fold_res (draw_detector a) l items = Ok items'.
Proof.
  induction l as [|d l IH]; intros items F; [eexists; reflexivity|]. apply Forall_cons_iff in F as [F1 F2].
  destruct (draw_detector_live a d items F1) as [i E]. cbn [fold_res]. rewrite E. cbn [bind]. now apply IH.
Qed.
Lemma draw_detectors_err a l e : forall items, fold_res (draw_detector a) l items = Err e -> e = IndexError \/ e = AttributeError.
Proof.
  induction l as [|s l IH]; intros im E; [discriminate|]. cbn [fold_res] in E.
  destruct (draw_detector a s im) as [im'|e'] eqn:D; cbn [bind] in E; [eauto|]. injection E as <-. eapply draw_detector_err; eassumption.
Qed.

Definition obj_item (a : axis) (o : axis -> option (Z * Z)) : item :=
  match o (down a), o (across a) with
  | Some r, Some c =>
      let low p := IZR (Z.min (fst p) (snd p)) in
      let high p := IZR (Z.max (fst p) (snd p)) in
      Patch ObjRole (low c - / 2) (low r - / 2) (high c - low c) (high r - low r)
  | _, _ => Lines ObjRole []
  end.
Lemma axes_of a b : b <> a <-> b = down a \/ b = across a.
Proof. destruct a, b; cbn; split; intros H; try (left; reflexivity); try (right; reflexivity); try discriminate; try (exfalso; apply H; reflexivity); destruct H; discriminate. Qed.
Lemma drawable_axes a o : object_drawable a o <-> o (down a) <> None /\ o (across a) <> None.
Proof.
  unfold object_drawable. split.
  - intros H. split; apply H; apply axes_of; auto.
  - intros [H K] b Hb. apply axes_of in Hb as [-> | ->]; assumption.
Qed.
Lemma draw_object_ok a o items items' : draw_object a o items = Ok items' -> object_drawable a o /\ items' = items ++ [obj_item a o].
Proof.
  unfold draw_object, obj_item. rewrite down_row, across_col, drawable_axes.
  destruct (o (down a)), (o (across a)); intros E; try discriminate. injection E as <-. split; [split; discriminate|reflexivity].
Qed.
Lemma draw_object_live a o items : object_drawable a o -> exists items', draw_object a o items = Ok items'.
Proof.
  rewrite drawable_axes. unfold draw_object. intros [H K]. change (row_axis a) with (down a). change (col_axis a) with (across a).
  destruct (o (down a)), (o (across a)); try contradiction. eauto.
Qed.
Lemma draw_object_err a o items e : draw_object a o items = Err e -> e = AttributeError.
Proof. unfold draw_object. destruct (o (row_axis a)), (o (col_axis a)); congruence. Qed.
Lemma draw_objects_ok a l : forall items items', fold_res (draw_object a) l items = Ok items' ->
  Forall (object_drawable a) l /\ items' = items ++ map (obj_item a) l.
Proof.
  induction l as [|d l IH]; intros items items' E.
  - injection E as <-. split; [constructor|]. now rewrite app_nil_r.
  - cbn [fold_res] in E. apply bind_inv in E as (i1 & E1 & E). apply draw_object_ok in E1 as (D & ->).
    apply IH in E as (F & ->). split; [constructor; assumption|]. cbn [map]. now rewrite <- app_assoc.
Qed.
Lemma draw_objects_live a l : forall items, Forall (object_drawable a) l -> exists items', fold_res (draw_object a) l items = Ok items'.
Proof.
  induction l as [|d l IH]; intros items F; [eexists; reflexivity|]. apply Forall_cons_iff in F as [F1 F2].
  destruct (draw_object_live a d items F1) as [i E]. cbn [fold_res]. rewrite E. cbn [bind]. now apply IH.
Qed.
Lemma draw_objects_err a l e : forall items, fold_res (draw_object a) l items = Err e -> e = AttributeError.
Proof.
  induction l as [|s l IH]; intros im E; [discriminate|]. cbn [fold_res] in E.
  destruct (draw_object a s im) as [im'|e'] eqn:D; cbn [bind] in E; [eauto|]. injection E as <-. eapply draw_object_err; eassumption.
Qed.

Lemma norm_known norm : existsb (String.eqb norm) ["linear"; "lin"; "log"]%string = true <-> known_norm norm.
Proof.
  unfold known_norm. cbn [existsb].
  destruct (String.eqb_spec norm "linear"), (String.eqb_spec norm "lin"), (String.eqb_spec norm "log"); cbn; intuition congruence.
Qed.

(** ** The picture as a whole *)
Definition dets_of (st : studio) : list ((option string * det_kind) * detector) := combine (ss_dets (st_session st)) (g_detectors (st_grid st)).
Lemma visualize_ok x y z norm grad st pic : visualize x y z norm grad st = Ok pic ->
  let g := st_grid st in
  exists a k k', known_norm norm /\ asks x y z a k /\ (1 < g_N g (down a))%nat /\ (1 < g_N g (across a))%nat /\ names_index (g_N g a) k k'
  /\ Forall (source_drawable (g_N g) a) (g_sources g) /\ Forall (fun d => detector_drawable (snd d)) (dets_of st)
  /\ Forall (object_drawable a) (st_objs st) /\ grad = false
  /\ pic_rows pic = g_N g (down a) /\ pic_cols pic = g_N g (across a)
  /\ (forall r c, ((exists s, In s (g_sources g) /\ source_blanks (g_N g) a s r c) -> pic_pixel pic r c = 0)
       /\ (~ (exists s, In s (g_sources g) /\ source_blanks (g_N g) a s r c) -> pic_pixel pic r c = energy g (cell_at a k' r c)))
  /\ pic_items pic = map (source_item a) (g_sources g) ++ map (det_item a) (dets_of st)
       ++ flat_map (draw_boundary (g_N g) a) (g_boundaries g) ++ map (obj_item a) (st_objs st)
  /\ pic_vmax pic = (if String.eqb norm "log" then Some (greatest (pixels (pic_rows pic) (pic_cols pic) (pic_pixel pic)) + / 10 ^ 4) else None).
Proof.
  unfold visualize. cbv zeta. intros E. set (g := st_grid st) in *. destruct (existsb _ _) eqn:Nm; [|discriminate]. cbn [negb] in E. apply norm_known in Nm.
  apply bind_inv in E as ([a k] & Ea & E). cbn [fst snd] in E. rewrite down_row, across_col in E.
  apply bind_inv in E as ([] & Es & E). apply bind_inv in E as (k' & Ek & E).
  apply bind_inv in E as ([px its] & Esrc & E). apply bind_inv in E as (i1 & Edet & E). apply bind_inv in E as (i3 & Eobj & E).
  apply bind_inv in E as ([] & Eg & E). cbn [fst snd] in *.
  exists a, k, k'. apply choose_asks in Ea. apply resolve_names in Ek.
  assert (Sz : (1 < g_N g (down a))%nat /\ (1 < g_N g (across a))%nat).
  { unfold ensure in Es. destruct (_ && _) eqn:Q in Es; [|discriminate]. apply andb_true_iff in Q as [Q1 Q2]. apply Nat.ltb_lt in Q1. apply Nat.ltb_lt in Q2. auto. }
  destruct Sz as [Sz1 Sz2]. apply draw_sources_ok in Esrc as (Fs & -> & Px). apply draw_detectors_ok in Edet as (Fd & ->). apply draw_objects_ok in Eobj as (Fo & ->).
  injection E as <-. repeat (split; [first [assumption|reflexivity]|]).
  split; [destruct grad; [discriminate|reflexivity]|]. cbn [pic_rows pic_cols pic_pixel pic_items pic_vmax].
  split; [reflexivity|]. split; [reflexivity|]. split; [exact Px|]. split; [|reflexivity]. now rewrite <- !app_assoc.
Qed.
Lemma visualize_live x y z norm st a k : let g := st_grid st in
  known_norm norm -> asks x y z a k -> (1 < g_N g (down a))%nat -> (1 < g_N g (across a))%nat -> an_index (g_N g a) k ->
  Forall (source_drawable (g_N g) a) (g_sources g) -> Forall (fun d => detector_drawable (snd d)) (dets_of st) ->
  Forall (object_drawable a) (st_objs st) -> exists pic, visualize x y z norm false st = Ok pic.
Proof.
  intros g Nm Ea S1 S2 Ek Fs Fd Fo. unfold visualize. apply norm_known in Nm. rewrite Nm. cbn [negb].
  apply choose_asks in Ea. rewrite Ea. cbn [bind fst snd]. fold g. rewrite down_row, across_col.
  apply Nat.ltb_lt in S1. apply Nat.ltb_lt in S2. rewrite S1, S2. cbn [andb ensure bind].
  apply an_index_names in Ek as [k' Ek]. apply resolve_names in Ek. rewrite Ek. cbn [bind].
  destruct (draw_sources_live (g_N g) a (g_sources g) (fun r c => energy g (cell_at a k' r c), []) Fs) as [[px its] ->]. cbn [bind snd].
  destruct (draw_detectors_live a (dets_of st) its Fd) as [i1 Ed]. unfold dets_of in Ed. fold g in Ed. rewrite Ed. cbn [bind].
  destruct (draw_objects_live a (st_objs st) (i1 ++ flat_map (draw_boundary (g_N g) a) (g_boundaries g)) Fo) as [i3 ->]. cbn [bind negb ensure]. eauto.
Qed.

Lemma picture_iff x y z norm grad st : let g := st_grid st in
  (exists pic, visualize x y z norm grad st = Ok pic)
  <-> known_norm norm /\ grad = false /\ exists a k, asks x y z a k
      /\ (forall b, b <> a -> (1 < g_N g b)%nat) /\ an_index (g_N g a) k
      /\ Forall (source_drawable (g_N g) a) (g_sources g)
      /\ Forall (fun d => detector_drawable (snd d)) (combine (ss_dets (st_session st)) (g_detectors g))
      /\ Forall (object_drawable a) (st_objs st).
Proof.
  intros g. split.
  - intros (pic & E). apply visualize_ok in E. cbn zeta in E. destruct E as (a & k & k' & Nm & Ea & S1 & S2 & Ek & Fs & Fd & Fo & Eg & _).
    split; [exact Nm|]. split; [exact Eg|]. exists a, k. split; [exact Ea|]. split; [intros b Hb; apply axes_of in Hb as [-> | ->]; assumption|].
    split; [apply an_index_names; eauto|]. auto.
  - intros (Nm & -> & a & k & Ea & S & Ek & Fs & Fd & Fo). eapply visualize_live; try eassumption; apply S; apply axes_of; auto.
Qed.
Lemma picture_value_error x y z norm grad st :
  visualize x y z norm grad st = Err ValueError <-> ~ known_norm norm \/ ~ exists a k, asks x y z a k.
Proof.
  unfold visualize. destruct (existsb _ _) eqn:Nm; cbn [negb].
  - apply norm_known in Nm. destruct (choose_plane x y z) as [[a k]|e] eqn:Ea; cbn [bind fst snd].
    + apply choose_asks in Ea. split; [|intros [H|H]; [contradiction|exfalso; apply H; eauto]]. intros E. exfalso.
      unfold ensure at 1 in E. destruct (_ && _)%bool; cbn [bind] in E; [|discriminate].
      destruct (resolve_cases (g_N (st_grid st) a) k) as [[k' R]|R]; rewrite R in E; cbn [bind] in E; [|discriminate].
      destruct (fold_res (draw_source _ _) _ _) as [im|e] eqn:Q in E; cbn [bind] in E; [|apply draw_sources_err in Q; destruct Q; congruence].
      destruct (fold_res (draw_detector _) _ _) as [i1|e] eqn:Q1 in E; cbn [bind] in E; [|apply draw_detectors_err in Q1; destruct Q1; congruence].
      destruct (fold_res (draw_object _) _ _) as [i3|e] eqn:Q2 in E; cbn [bind] in E; [|apply draw_objects_err in Q2; congruence].
      unfold ensure in E. destruct (negb grad); cbn [bind] in E; discriminate.
    + pose proof (choose_err _ _ _ _ Ea) as ->. split; [|reflexivity]. intros _. right. intros (a & k & H). apply choose_asks in H. congruence.
  - split; [|reflexivity]. intros _. left. intros H. apply norm_known in H. congruence.
Qed.

Lemma energy_is g p : energy g p = energy_in g p.
Proof. unfold energy, energy_in, Rsum. cbn [map fold_right]. ring. Qed.
Lemma cell_at_coord a p : cell_at a (coord a p) (coord (down a) p) (coord (across a) p) = p.
Proof. destruct p as [[i j] k]. destruct a; reflexivity. Qed.
Lemma blanked_points N a l r c : (exists s, In s l /\ source_blanks N a s r c) <-> exists cell, In cell (point_sources l) /\ blanks N a cell r c.
Proof.
  unfold point_sources. split.
  - intros (s & I & B). destruct s; cbn in B; try contradiction. exists cell. split; [|exact B]. apply in_flat_map. eexists. split; [exact I|left; reflexivity].
  - intros (cell & I & B). apply in_flat_map in I as (s & I & J). exists s. split; [exact I|]. destruct s; cbn in *; try contradiction. destruct J as [-> | []]. exact B.
Qed.
Lemma picture_image x y z norm grad st pic : visualize x y z norm grad st = Ok pic ->
  let g := st_grid st in
  exists a k k', asks x y z a k /\ names_index (g_N g a) k k'
  /\ pic_rows pic = g_N g (down a) /\ pic_cols pic = g_N g (across a)
  /\ forall p, coord a p = k' ->
     ((exists cell, In cell (point_sources (g_sources g)) /\ blanks (g_N g) a cell (coord (down a) p) (coord (across a) p)) ->
        pic_pixel pic (coord (down a) p) (coord (across a) p) = 0)
     /\ ((forall cell, In cell (point_sources (g_sources g)) -> ~ blanks (g_N g) a cell (coord (down a) p) (coord (across a) p)) ->
        pic_pixel pic (coord (down a) p) (coord (across a) p) = energy_in g p).
Proof.
  intros E g. apply visualize_ok in E. cbn zeta in E. fold g in E. destruct E as (a & k & k' & _ & Ea & _ & _ & Ek & _ & _ & _ & _ & Er & Ec & Px & _).
  exists a, k, k'. repeat (split; [assumption|]). intros p Hp. destruct (Px (coord (down a) p) (coord (across a) p)) as [P1 P2]. split.
  - intros H. apply P1. now apply blanked_points.
  - intros H. rewrite P2.
    + rewrite <- Hp, cell_at_coord. apply energy_is.
    + intros K. apply blanked_points in K as (cell & I & B). exact (H cell I B).
Qed.
