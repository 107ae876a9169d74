(** Superposition of FDTD simulations; resetting. *)
From Coq Require Import Reals ZArith String List Bool Lra Lia Psatz.
From Verif Require Import Base BaseLemmas Model_FDTD Spec_FDTD Proof_Torus Proof_FDTD Proof_Energy Proof_Propagate Proof_Steps.
Import ListNotations.
Open Scope R_scope.

Section Sup.
Variables (N : shape3) (a b : R).
Notation sup := (superposed N a b).

Lemma dbwd_sup F1 F2 F3 x c p : sup F1 F2 F3 -> in_grid N p ->
  dbwd F3 x c p = a * dbwd F1 x c p + b * dbwd F2 x c p.
Proof.
  intros HF Hp. unfold dbwd. destruct (Nat.leb_spec 1 (coord x p)); [|ring].
  rewrite !HF; [ring| |exact Hp]. apply setc_in_grid'; [exact Hp|]. specialize (Hp x). lia.
Qed.
Lemma dfwd_sup F1 F2 F3 x c p : sup F1 F2 F3 -> in_grid N p ->
  dfwd N F3 x c p = a * dfwd N F1 x c p + b * dfwd N F2 x c p.
Proof.
  intros HF Hp. unfold dfwd. destruct (Nat.ltb_spec (S (coord x p)) (N x)); [|ring].
  rewrite !HF; [ring|exact Hp|]. apply setc_in_grid'; [exact Hp|exact H].
Qed.
Lemma curl_H_sup F1 F2 F3 : sup F1 F2 F3 -> sup (curl_H F1) (curl_H F2) (curl_H F3).
Proof. intros HF p c Hp. destruct c; cbn [curl_H]; rewrite !(dbwd_sup F1 F2 F3) by assumption; ring. Qed.
Lemma curl_E_sup F1 F2 F3 : sup F1 F2 F3 -> sup (curl_E N F1) (curl_E N F2) (curl_E N F3).
Proof. intros HF p c Hp. destruct c; cbn [curl_E]; rewrite !(dfwd_sup F1 F2 F3) by assumption; ring. Qed.
End Sup.

(** Without PML the boundaries are equal. *)
Lemma sup_no_pml N a b l1 l2 l3 : superposed_boundaries N a b l1 l2 l3 -> no_pml l3 -> l1 = l3 /\ l2 = l3.
Proof.
  induction 1 as [|b1 b2 b3 l1 l2 l3 Hb _ IH]; intros Hn; [auto|].
  inversion Hn as [|? ? Hb3 Hn']; subst. destruct (IH Hn') as [-> ->].
  destruct b1, b2, b3; cbn in Hb, Hb3; try contradiction; destruct Hb; split; congruence.
Qed.

Lemma copies_E_sup N a b co ie bs : no_pml bs -> forall F1 F2 F3, superposed N a b F1 F2 F3 ->
  superposed N a b (fold_left (fun E x => boundary_update_E N co ie x E) bs F1)
                   (fold_left (fun E x => boundary_update_E N co ie x E) bs F2)
                   (fold_left (fun E x => boundary_update_E N co ie x E) bs F3).
Proof.
  induction 1 as [|x bs Hx _ IH]; intros F1 F2 F3 HF; cbn [fold_left]; [exact HF|].
  apply IH. destruct x; cbn in Hx; try contradiction; cbn [boundary_update_E]; [|exact HF].
  intros p c Hp. destruct (coord a0 p =? 0)%nat; apply HF; [|exact Hp].
  apply setc_in_grid'; [exact Hp|]. specialize (Hp a0). lia.
Qed.
Lemma copies_H_sup N a b co im bs : no_pml bs -> forall F1 F2 F3, superposed N a b F1 F2 F3 ->
  superposed N a b (fold_left (fun E x => boundary_update_H N co im x E) bs F1)
                   (fold_left (fun E x => boundary_update_H N co im x E) bs F2)
                   (fold_left (fun E x => boundary_update_H N co im x E) bs F3).
Proof.
  induction 1 as [|x bs Hx _ IH]; intros F1 F2 F3 HF; cbn [fold_left]; [exact HF|].
  apply IH. destruct x; cbn in Hx; try contradiction; cbn [boundary_update_H]; [|exact HF].
  intros p c Hp. destruct (coord a0 p =? N a0 - 1)%nat; apply HF; [|exact Hp].
  apply setc_in_grid'; [exact Hp|]. specialize (Hp a0). lia.
Qed.

(** PML, on local cells that belong to the grid. *)
Section PmlSup.
Variables (N : shape3) (a b : R).

Lemma cell_down pm x q : in_grid N (pml_cell N pm q) -> in_grid N (pml_cell N pm (setc x (coord x q - 1) q)).
Proof.
  intros H y. specialize (H y). rewrite coord_pml_cell, coord_setc in *.
  destruct (axis_eqb_spec y x) as [->|]; destruct (axis_eqb _ (p_axis pm)); lia.
Qed.
Lemma cell_up pm x q : (p_thick pm <= N (p_axis pm))%nat ->
  in_grid N (pml_cell N pm q) -> (S (coord x q) < pml_shape N pm x)%nat ->
  in_grid N (pml_cell N pm (setc x (S (coord x q)) q)).
Proof.
  intros Ht H Hx y. specialize (H y). rewrite coord_pml_cell, coord_setc in *.
  destruct (axis_eqb_spec y x) as [->|]; [|assumption].
  unfold pml_shape in Hx. destruct (axis_eqb_spec x (p_axis pm)) as [->|]; [|assumption].
  unfold pml_offset in *. destruct (p_high pm); lia.
Qed.

Lemma pml_E_sup H1 H2 H3 p1 p2 p3 :
  superposed N a b H1 H2 H3 ->
  superposed_boundary N a b (PMLb p1) (PMLb p2) (PMLb p3) ->
  superposed_boundary N a b (PMLb (pml_phi_E N H1 p1)) (PMLb (pml_phi_E N H2 p2)) (PMLb (pml_phi_E N H3 p3))
  /\ (forall q c, in_grid N (pml_cell N p3 q) -> p_phiE (pml_phi_E N H3 p3) q c
       = a * p_phiE (pml_phi_E N H1 p1) q c + b * p_phiE (pml_phi_E N H2 p2) q c).
Proof.
  intros HH ((A1 & A2 & A3 & A4 & A5 & A6 & A7) & (B1 & B2 & B3 & B4 & B5 & B6 & B7) & Hpsi).
  assert (D : forall x c q, in_grid N (pml_cell N p3 q) ->
     dbwd (fun q c => H3 (pml_cell N p3 q) c) x c q
     = a * dbwd (fun q c => H1 (pml_cell N p1 q) c) x c q + b * dbwd (fun q c => H2 (pml_cell N p2 q) c) x c q).
  { intros x c q Hq. unfold dbwd. rewrite !(pml_cell_eq N p1 p3), !(pml_cell_eq N p2 p3) by assumption.
    destruct (1 <=? coord x q)%nat; [rewrite !HH; [|apply cell_down; exact Hq|exact Hq]|]; ring. }
  assert (K : forall x q c, in_grid N (pml_cell N p3 q) -> p_psiE (pml_phi_E N H3 p3) x q c
     = a * p_psiE (pml_phi_E N H1 p1) x q c + b * p_psiE (pml_phi_E N H2 p2) x q c).
  { intros x q c Hq. cbn. rewrite (proj1 (Hpsi x q c Hq)), A4, A5, B4, B5.
    destruct x, c; rewrite ?D by exact Hq; ring. }
  split.
  - split; [|split].
    + repeat split; assumption.
    + repeat split; assumption.
    + intros x q c Hq. split; [apply K, Hq|apply (Hpsi x q c Hq)].
  - intros q c Hq.
    pose proof (K AX q AY Hq) as K1. pose proof (K AX q AZ Hq) as K2. pose proof (K AY q AZ Hq) as K3.
    pose proof (K AY q AX Hq) as K4. pose proof (K AZ q AX Hq) as K5. pose proof (K AZ q AY Hq) as K6.
    cbn in K1, K2, K3, K4, K5, K6.
    destruct c; cbn; [rewrite K1, K2|rewrite K3, K4|rewrite K5, K6]; ring.
Qed.
Lemma pml_H_sup E1 E2 E3 p1 p2 p3 : (p_thick p3 <= N (p_axis p3))%nat ->
  superposed N a b E1 E2 E3 ->
  superposed_boundary N a b (PMLb p1) (PMLb p2) (PMLb p3) ->
  superposed_boundary N a b (PMLb (pml_phi_H N E1 p1)) (PMLb (pml_phi_H N E2 p2)) (PMLb (pml_phi_H N E3 p3))
  /\ (forall q c, in_grid N (pml_cell N p3 q) -> p_phiH (pml_phi_H N E3 p3) q c
       = a * p_phiH (pml_phi_H N E1 p1) q c + b * p_phiH (pml_phi_H N E2 p2) q c).
Proof.
  intros Ht HH ((A1 & A2 & A3 & A4 & A5 & A6 & A7) & (B1 & B2 & B3 & B4 & B5 & B6 & B7) & Hpsi).
  assert (D : forall x c q, in_grid N (pml_cell N p3 q) ->
     dfwd (pml_shape N p3) (fun q c => E3 (pml_cell N p3 q) c) x c q
     = a * dfwd (pml_shape N p1) (fun q c => E1 (pml_cell N p1 q) c) x c q
       + b * dfwd (pml_shape N p2) (fun q c => E2 (pml_cell N p2 q) c) x c q).
  { intros x c q Hq. unfold dfwd.
    rewrite (pml_shape_eq N p1 p3), (pml_shape_eq N p2 p3) by assumption.
    rewrite !(pml_cell_eq N p1 p3), !(pml_cell_eq N p2 p3) by assumption.
    destruct (Nat.ltb_spec (S (coord x q)) (pml_shape N p3 x)); [|ring].
    rewrite !HH; [ring|exact Hq|apply cell_up; assumption]. }
  assert (K : forall x q c, in_grid N (pml_cell N p3 q) -> p_psiH (pml_phi_H N E3 p3) x q c
     = a * p_psiH (pml_phi_H N E1 p1) x q c + b * p_psiH (pml_phi_H N E2 p2) x q c).
  { intros x q c Hq. cbn. rewrite (proj2 (Hpsi x q c Hq)), A6, A7, B6, B7.
    destruct x, c; rewrite ?D by exact Hq; ring. }
  split.
  - split; [|split].
    + repeat split; assumption.
    + repeat split; assumption.
    + intros x q c Hq. split; [apply (Hpsi x q c Hq)|apply K, Hq].
  - intros q c Hq.
    pose proof (K AX q AY Hq) as K1. pose proof (K AX q AZ Hq) as K2. pose proof (K AY q AZ Hq) as K3.
    pose proof (K AY q AX Hq) as K4. pose proof (K AZ q AX Hq) as K5. pose proof (K AZ q AY Hq) as K6.
    cbn in K1, K2, K3, K4, K5, K6.
    destruct c; cbn; [rewrite K1, K2|rewrite K3, K4|rewrite K5, K6]; ring.
Qed.

Definition sup_phiE (b1 b2 b3 : boundary) : Prop :=
  match b1, b2, b3 with
  | PMLb p1, PMLb p2, PMLb p3 => forall q c, in_grid N (pml_cell N p3 q) ->
      p_phiE p3 q c = a * p_phiE p1 q c + b * p_phiE p2 q c
  | _, _, _ => True
  end.
Definition sup_phiH (b1 b2 b3 : boundary) : Prop :=
  match b1, b2, b3 with
  | PMLb p1, PMLb p2, PMLb p3 => forall q c, in_grid N (pml_cell N p3 q) ->
      p_phiH p3 q c = a * p_phiH p1 q c + b * p_phiH p2 q c
  | _, _, _ => True
  end.

Inductive F3 {A} (P : A -> A -> A -> Prop) : list A -> list A -> list A -> Prop :=
| F3_nil : F3 P [] [] []
| F3_cons x y z l1 l2 l3 : P x y z -> F3 P l1 l2 l3 -> F3 P (x :: l1) (y :: l2) (z :: l3).

Lemma sup_F3 l1 l2 l3 : superposed_boundaries N a b l1 l2 l3 <-> F3 (superposed_boundary N a b) l1 l2 l3.
Proof. split; induction 1; constructor; assumption. Qed.
Lemma F3_impl {A} (P Q : A -> A -> A -> Prop) l1 l2 l3 : (forall x y z, P x y z -> Q x y z) ->
  F3 P l1 l2 l3 -> F3 Q l1 l2 l3.
Proof. intros H. induction 1; constructor; auto. Qed.

Lemma phis_E_sup H1 H2 H3 : superposed N a b H1 H2 H3 -> forall l1 l2 l3,
  F3 (superposed_boundary N a b) l1 l2 l3 -> forall l1' l2' l3',
  map_res (boundary_phi_E N H1) l1 = Ok l1' -> map_res (boundary_phi_E N H2) l2 = Ok l2' ->
  map_res (boundary_phi_E N H3) l3 = Ok l3' ->
  F3 (fun x y z => superposed_boundary N a b x y z /\ sup_phiE x y z) l1' l2' l3'.
Proof.
  intros HH l1 l2 l3 HF. induction HF as [|b1 b2 b3 l1 l2 l3 Hb _ IH]; intros l1' l2' l3' X1 X2 X3; cbn in X1, X2, X3.
  - inversion X1; inversion X2; inversion X3. constructor.
  - binv X1. binv X1. binv X2. binv X2. binv X3. binv X3. inversion X1; inversion X2; inversion X3; subst.
    constructor; [|apply IH; assumption].
    destruct b1 as [x1|p1| |], b2 as [x2|p2| |], b3 as [x3|p3| |]; try contradiction; try discriminate;
      try (cbn in Er, Er1, Er3; try discriminate; inversion Er; inversion Er1; inversion Er3; subst; split; [exact Hb|exact I]).
    cbn in Er, Er1, Er3.
    destruct (p_thick p1 <=? N (p_axis p1))%nat; [|discriminate].
    destruct (p_thick p2 <=? N (p_axis p2))%nat; [|discriminate].
    destruct (p_thick p3 <=? N (p_axis p3))%nat; [|discriminate].
    inversion Er; inversion Er1; inversion Er3; subst.
    destruct (pml_E_sup H1 H2 H3 p1 p2 p3 HH Hb) as [K1 K2]. split; [exact K1|].
    intros q c Hq. apply K2. exact Hq.
Qed.
Lemma phis_H_sup E1 E2 E3 : superposed N a b E1 E2 E3 -> forall l1 l2 l3,
  F3 (superposed_boundary N a b) l1 l2 l3 -> forall l1' l2' l3',
  map_res (boundary_phi_H N E1) l1 = Ok l1' -> map_res (boundary_phi_H N E2) l2 = Ok l2' ->
  map_res (boundary_phi_H N E3) l3 = Ok l3' ->
  F3 (fun x y z => superposed_boundary N a b x y z /\ sup_phiH x y z) l1' l2' l3'.
Proof.
  intros HH l1 l2 l3 HF. induction HF as [|b1 b2 b3 l1 l2 l3 Hb _ IH]; intros l1' l2' l3' X1 X2 X3; cbn in X1, X2, X3.
  - inversion X1; inversion X2; inversion X3. constructor.
  - binv X1. binv X1. binv X2. binv X2. binv X3. binv X3. inversion X1; inversion X2; inversion X3; subst.
    constructor; [|apply IH; assumption].
    destruct b1 as [x1|p1| |], b2 as [x2|p2| |], b3 as [x3|p3| |]; try contradiction; try discriminate;
      try (cbn in Er, Er1, Er3; try discriminate; inversion Er; inversion Er1; inversion Er3; subst; split; [exact Hb|exact I]).
    cbn in Er, Er1, Er3.
    destruct (p_thick p1 <=? N (p_axis p1))%nat; [|discriminate].
    destruct (p_thick p2 <=? N (p_axis p2))%nat; [|discriminate].
    destruct (Nat.leb_spec (p_thick p3) (N (p_axis p3))) as [Ht|]; [|discriminate].
    inversion Er; inversion Er1; inversion Er3; subst.
    destruct (pml_H_sup E1 E2 E3 p1 p2 p3 Ht HH Hb) as [K1 K2]. split; [exact K1|].
    intros q c Hq. apply K2. exact Hq.
Qed.

Lemma updates_E_sup co ie l1 l2 l3 : (a + b = 1 \/ no_pml l3) ->
  F3 (fun x y z => superposed_boundary N a b x y z /\ sup_phiE x y z) l1 l2 l3 ->
  forall F1 F2 G, superposed N a b F1 F2 G ->
  superposed N a b (fold_left (fun E x => boundary_update_E N co ie x E) l1 F1)
                   (fold_left (fun E x => boundary_update_E N co ie x E) l2 F2)
                   (fold_left (fun E x => boundary_update_E N co ie x E) l3 G).
Proof.
  intros Hab HF. induction HF as [|b1 b2 b3 l1 l2 l3 [Hb Hphi] _ IH]; intros F1 F2 G HG; cbn [fold_left]; [exact HG|].
  apply IH. { destruct Hab as [Hab|Hab]; [left; exact Hab|right; inversion Hab; assumption]. }
  destruct b1 as [x1|p1| |], b2 as [x2|p2| |], b3 as [x3|p3| |]; cbn in Hb; try contradiction;
    try (destruct Hb; discriminate); try exact HG.
  - destruct Hb as [E1 E2]; inversion E1; inversion E2; subst. intros p c Hp. cbn [boundary_update_E].
    destruct (coord x3 p =? 0)%nat; apply HG; [|exact Hp].
    apply setc_in_grid'; [exact Hp|]. specialize (Hp x3). lia.
  - destruct Hab as [Hab|Hab]; [|inversion Hab; contradiction].
    destruct Hb as ((A1 & A2 & A3 & _) & (B1 & B2 & B3 & _) & _).
    intros p c Hp. cbn [boundary_update_E].
    destruct (in_pml_eq N p1 p3 p A1 A2 A3) as [-> ->]. destruct (in_pml_eq N p2 p3 p B1 B2 B3) as [-> ->].
    destruct (in_pml N p3 p) eqn:Ep; [|apply HG, Hp].
    rewrite (HG p c Hp). cbn in Hphi. rewrite Hphi by (rewrite pml_cell_local by exact Ep; exact Hp).
    replace b with (1 - a) by lra. ring.
Qed.
Lemma updates_H_sup co im l1 l2 l3 :
  F3 (fun x y z => superposed_boundary N a b x y z /\ sup_phiH x y z) l1 l2 l3 ->
  forall F1 F2 G, superposed N a b F1 F2 G ->
  superposed N a b (fold_left (fun E x => boundary_update_H N co im x E) l1 F1)
                   (fold_left (fun E x => boundary_update_H N co im x E) l2 F2)
                   (fold_left (fun E x => boundary_update_H N co im x E) l3 G).
Proof.
  intros HF. induction HF as [|b1 b2 b3 l1 l2 l3 [Hb Hphi] _ IH]; intros F1 F2 G HG; cbn [fold_left]; [exact HG|].
  apply IH.
  destruct b1 as [x1|p1| |], b2 as [x2|p2| |], b3 as [x3|p3| |]; cbn in Hb; try contradiction;
    try (destruct Hb; discriminate); try exact HG.
  - destruct Hb as [E1 E2]; inversion E1; inversion E2; subst. intros p c Hp. cbn [boundary_update_H].
    destruct (coord x3 p =? N x3 - 1)%nat; apply HG; [|exact Hp].
    apply setc_in_grid'; [exact Hp|]. specialize (Hp x3). lia.
  - destruct Hb as ((A1 & A2 & A3 & _) & (B1 & B2 & B3 & _) & _).
    intros p c Hp. cbn [boundary_update_H].
    destruct (in_pml_eq N p1 p3 p A1 A2 A3) as [-> ->]. destruct (in_pml_eq N p2 p3 p B1 B2 B3) as [-> ->].
    destruct (in_pml N p3 p) eqn:Ep; [|apply HG, Hp].
    rewrite (HG p c Hp). cbn in Hphi. rewrite Hphi by (rewrite pml_cell_local by exact Ep; exact Hp).
    ring.
Qed.

(** Additive sources add something that does not depend on the field. *)
Lemma point_value_scale k amp sg q v : point_value amp sg q = Ok v -> point_value (k * amp) sg q = Ok (k * v).
Proof.
  unfold point_value. destruct sg.
  - destruct (period =? 0)%Z; intros H; inversion H; subst. apply f_equal. ring.
  - destruct (Reqb cycle 0 || _); [discriminate|].
    destruct (Z.of_nat q <? _)%Z; intros H; inversion H; subst; apply f_equal; ring.
  - destruct (Rltb _ _); intros H; inversion H; subst. apply f_equal; ring.
Qed.

Definition adds (f : field -> res field) (D : field) : Prop :=
  forall F, exists F', f F = Ok F' /\ forall p c, F' p c = F p c + D p c.

Lemma add_at_adds p c v : adds (fun F => Ok (add_at F p c v)) (add_at zero_field p c v).
Proof.
  intros F. eexists; split; [reflexivity|]. intros q d. unfold add_at, zero_field.
  destruct (pos_eqb p q && axis_eqb c d); ring.
Qed.

Lemma source_adds q s k F F' : additive s -> source_update_E N q s F = Ok F' ->
  exists D, adds (source_update_E N q s) D
    /\ adds (source_update_E N q (scale_source k s)) (fun p c => k * D p c).
Proof.
  destruct s as [cell amp sg|cells prof sg| |]; cbn [additive]; try contradiction; intros _ H; cbn [source_update_E] in H.
  - binv H. binv H. exists (add_at zero_field r0 AZ r). split; intros G; cbn [source_update_E scale_source].
    + rewrite Er, Er0. cbn [bind]. apply add_at_adds.
    + rewrite (point_value_scale k amp sg q r Er), Er0. cbn [bind]. eexists; split; [reflexivity|].
      intros x d. unfold add_at, zero_field. destruct (pos_eqb r0 x && axis_eqb AZ d); ring.
  - binv H. unfold adds. cbn [source_update_E scale_source]. rewrite Er. cbn [bind].
    revert prof F H. induction cells as [|cell cells IH]; intros prof F H.
    + exists zero_field. split; intros G; cbn; (eexists; split; [reflexivity|]); intros; unfold zero_field; ring.
    + destruct prof as [|w prof].
      { exists zero_field. split; intros G; cbn; (eexists; split; [reflexivity|]); intros; unfold zero_field; ring. }
      cbn [combine fold_res fst snd map] in *. binv H. binv Er0.
      destruct (IH prof _ H) as (D & HD & HD'). rewrite Er1.
      exists (fun p c => add_at zero_field r1 AZ (w * r) p c + D p c). split; intros G; cbn [bind].
      * destruct (HD (add_at G r1 AZ (w * r))) as (F1 & E1 & V1). exists F1. split; [exact E1|].
        intros p c. rewrite V1. unfold add_at, zero_field. destruct (pos_eqb r1 p && axis_eqb AZ c); ring.
      * destruct (HD' (add_at G r1 AZ (k * w * r))) as (F1 & E1 & V1). exists F1. split; [exact E1|].
        intros p c. rewrite V1. unfold add_at, zero_field. destruct (pos_eqb r1 p && axis_eqb AZ c); ring.
Qed.

Lemma sources_add q ss k : Forall additive ss -> forall F F', fold_res (source_update_E N q) ss F = Ok F' ->
  exists D, adds (fold_res (source_update_E N q) ss) D
    /\ adds (fold_res (source_update_E N q) (map (scale_source k) ss)) (fun p c => k * D p c).
Proof.
  induction 1 as [|s ss Hs _ IH]; intros F F' H; cbn [fold_res map] in *.
  - exists zero_field. split; intros G; (eexists; split; [reflexivity|]); intros; unfold zero_field; ring.
  - binv H. destruct (IH _ _ H) as (D & HD & HD').
    destruct (source_adds q s k F r Hs Er) as (D0 & H0 & H0').
    exists (fun p c => D0 p c + D p c). split; intros G; cbn [fold_res].
    + destruct (H0 G) as (G1 & -> & V1). cbn [bind]. destruct (HD G1) as (G2 & E2 & V2).
      exists G2. split; [exact E2|]. intros p c. rewrite V2, V1. ring.
    + destruct (H0' G) as (G1 & -> & V1). cbn [bind]. destruct (HD' G1) as (G2 & E2 & V2).
      exists G2. split; [exact E2|]. intros p c. rewrite V2, V1. ring.
Qed.

Lemma fold_res_app {A B} (f : B -> A -> res A) l1 l2 x :
  fold_res f (l1 ++ l2) x = bind (fold_res f l1 x) (fold_res f l2).
Proof.
  revert x. induction l1 as [|y l1 IH]; intros x; cbn; [reflexivity|].
  destruct (f y x); cbn; [apply IH|reflexivity].
Qed.

Lemma sources_sup q s1 s2 : Forall additive s1 -> Forall additive s2 ->
  forall F1 F2 G F1' F2' G', superposed N a b F1 F2 G ->
  fold_res (source_update_E N q) s1 F1 = Ok F1' -> fold_res (source_update_E N q) s2 F2 = Ok F2' ->
  fold_res (source_update_E N q) (map (scale_source a) s1 ++ map (scale_source b) s2) G = Ok G' ->
  superposed N a b F1' F2' G'.
Proof.
  intros A1 A2 F1 F2 G F1' F2' G' HG X1 X2 X3.
  destruct (sources_add q s1 a A1 _ _ X1) as (D1 & K1 & L1).
  destruct (sources_add q s2 b A2 _ _ X2) as (D2 & K2 & L2).
  rewrite fold_res_app in X3.
  destruct (K1 F1) as (Y1 & E1 & V1). destruct (K2 F2) as (Y2 & E2 & V2).
  destruct (L1 G) as (Y3 & E3 & V3). rewrite E3 in X3. cbn [bind] in X3.
  destruct (L2 Y3) as (Y4 & E4 & V4).
  intros p c Hp. replace F1' with Y1 by congruence. replace F2' with Y2 by congruence.
  replace G' with Y4 by congruence. rewrite V1, V2, V4, V3, (HG p c Hp). ring.
Qed.
End PmlSup.

Lemma additive_soft ss : Forall additive ss -> Forall soft ss.
Proof. apply Forall_impl. intros []; cbn; auto. Qed.
Lemma scaled_soft k ss : Forall additive ss -> Forall soft (map (scale_source k) ss).
Proof. induction 1 as [|s ss Hs _ IH]; constructor; [destruct s; cbn in *; auto|exact IH]. Qed.

Lemma shape_no_pml l l' : Forall2 (fun b b' => bnd_shape b' = bnd_shape b) l l' -> no_pml l -> no_pml l'.
Proof.
  induction 1 as [|b b' l l' Hb _ IH]; intros H; [constructor|]. inversion H; subst.
  constructor; [|apply IH; assumption]. destruct b, b'; cbn in *; auto; discriminate.
Qed.

Lemma superposition_step a b g1 g2 g3 g1' g2' g3' : superposition a b g1 g2 g3 ->
  (a + b = 1 \/ no_pml (g_boundaries g3)) ->
  step g1 = Ok g1' -> step g2 = Ok g2' -> step g3 = Ok g3' ->
  superposition a b g1' g2' g3'.
Proof.
  intros ((N1 & P1 & C1 & A1 & I1 & M1) & (N2 & P2 & C2 & A2 & I2 & M2) & T1 & T2 & S1 & S2 & S3 & HB & HE & HH)
    Hab X1 X2 X3.
  pose proof (step_shapes _ _ X3) as [Sh3 _].
  destruct (step_static _ _ X1) as [St1 Ht1]. destruct (step_static _ _ X2) as [St2 Ht2].
  destruct (step_static _ _ X3) as [St3 Ht3].
  apply step_inv in X1 as (h1 & k1 & UE1 & UH1 & ->).
  apply step_inv in X2 as (h2 & k2 & UE2 & UH2 & ->).
  apply step_inv in X3 as (h3 & k3 & UE3 & UH3 & ->).
  apply update_E_inv in UE1 as (bs1 & E1 & ds1 & Q1 & R1 & _ & ->).
  apply update_E_inv in UE2 as (bs2 & E2 & ds2 & Q2 & R2 & _ & ->).
  apply update_E_inv in UE3 as (bs3 & E3 & ds3 & Q3 & R3 & _ & ->).
  apply update_H_inv in UH1 as (cs1 & H1 & es1 & V1 & W1 & _ & ->).
  apply update_H_inv in UH2 as (cs2 & H2 & es2 & V2 & W2 & _ & ->).
  apply update_H_inv in UH3 as (cs3 & H3 & es3 & V3 & W3 & _ & ->).
  cbn in *. rewrite N1, C1, I1, M1, T1 in *. rewrite N2, C2, I2, M2, T2 in *.
  set (N := g_N g3) in *.
  apply sup_F3 in HB.
  pose proof (phis_E_sup N a b _ _ _ HH _ _ _ HB _ _ _ Q1 Q2 Q3) as HB1.
  assert (Hab1 : a + b = 1 \/ no_pml bs3).
  { destruct Hab as [Hab|Hab]; [left; exact Hab|right]. rewrite no_pml_phi_E in Q3 by exact Hab. congruence. }
  assert (HE' : superposed N a b E1 E2 E3).
  { rewrite S3 in R3. eapply (sources_sup N a b); [exact S1|exact S2| |exact R1|exact R2|exact R3].
    apply updates_E_sup; [exact Hab1|exact HB1|].
    intros p c Hp. unfold bulk_E. rewrite A1, A2, I1, I2, C1, C2, (HE p c Hp), (curl_H_sup N a b _ _ _ HH p c Hp).
    unfold Rdiv. ring. }
  assert (HB2 : F3 (superposed_boundary N a b) bs1 bs2 bs3) by (eapply F3_impl; [|exact HB1]; intros ? ? ? [? _]; assumption).
  pose proof (phis_H_sup N a b _ _ _ HE' _ _ _ HB2 _ _ _ V1 V2 V3) as HB3.
  rewrite soft_H in W1 by (apply additive_soft; exact S1).
  rewrite soft_H in W2 by (apply additive_soft; exact S2).
  rewrite S3, soft_H in W3 by (apply Forall_app; split; apply scaled_soft; assumption).
  assert (HH' : superposed N a b H1 H2 H3).
  { replace H1 with (fold_left (fun H b => boundary_update_H N (g_courant g3) (g_im g3) b H) cs1
        (bulk_H (with_fields g1 E1 (g_H g1) (g_steps g1) bs1 ds1))) by congruence.
    replace H2 with (fold_left (fun H b => boundary_update_H N (g_courant g3) (g_im g3) b H) cs2
        (bulk_H (with_fields g2 E2 (g_H g2) (g_steps g2) bs2 ds2))) by congruence.
    replace H3 with (fold_left (fun H b => boundary_update_H N (g_courant g3) (g_im g3) b H) cs3
        (bulk_H (with_fields g3 E3 (g_H g3) (g_steps g3) bs3 ds3))) by congruence.
    apply updates_H_sup; [exact HB3|]. intros p c Hp. unfold bulk_H, with_fields; cbn.
    rewrite M1, M2, C1, C2, N1, N2, (HH p c Hp). fold N. rewrite (curl_E_sup N a b _ _ _ HE' p c Hp). ring. }
  unfold superposition, same_setup, with_fields; cbn. fold N.
  assert (FB : superposed_boundaries N a b cs1 cs2 cs3)
    by (apply sup_F3; eapply F3_impl; [|exact HB3]; intros ? ? ? [? _]; assumption).
  repeat (split; [try assumption; try congruence; try (repeat split; assumption)|]); assumption.
Qed.

Lemma superposition_run n a b : forall g1 g2 g3 g1' g2' g3', superposition a b g1 g2 g3 ->
  (a + b = 1 \/ no_pml (g_boundaries g3)) ->
  run_steps n g1 = Ok g1' -> run_steps n g2 = Ok g2' -> run_steps n g3 = Ok g3' ->
  superposition a b g1' g2' g3'.
Proof.
  induction n as [|n IH]; intros g1 g2 g3 g1' g2' g3' HS Hab X1 X2 X3; cbn in X1, X2, X3.
  - inversion X1; inversion X2; inversion X3; subst. exact HS.
  - binv X1. binv X2. binv X3. eapply (IH r r0 r1); try eassumption.
    + eapply superposition_step; eassumption.
    + destruct Hab as [Hab|Hab]; [left; exact Hab|right].
      destruct (step_shapes _ _ Er1) as [Sh _]. eapply shape_no_pml; eassumption.
Qed.
