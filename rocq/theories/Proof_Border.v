(** Periodic boundaries are placed on the first axis whose index touches a border. *)
From Coq Require Import Reals ZArith String List Bool Lia.
From Verif Require Import Base Model_Units Model_FDTD Model_Register Spec_FDTD Spec_Register Proof_Register Proof_Register2 Spec_Border.
Import ListNotations.

Lemma integers_slice sp k : integers k -> exists b, boundary_slice (handle_key sp k) = Ok b
  /\ (at_border b = true <-> touches_border k).
Proof.
  intros [[z ->]|(a & b & ->)].
  - exists (BInt z). split; [reflexivity|]. cbn [at_border]. rewrite orb_true_iff, !Z.eqb_eq. split.
    + intros H. exists z. split; [exact H|]. left. reflexivity.
    + intros (w & Hw & [E|(b & E & _)]); [|discriminate]. inversion E; subst. exact Hw.
  - destruct a as [a|]; [destruct b as [b|]|].
    + cbn [int_slice handle_key option_map handle_distance boundary_slice].
      destruct ((a =? b)%Z || (Z.abs (a - b) =? 1)%Z) eqn:E.
      * exists (BInt a). split; [reflexivity|]. cbn [at_border]. rewrite orb_true_iff, !Z.eqb_eq.
        apply orb_true_iff in E. rewrite !Z.eqb_eq in E. split.
        -- intros H. exists a. split; [exact H|]. right. exists b. split; [reflexivity|]. lia.
        -- intros (w & Hw & [E1|(b1 & E1 & _)]); [discriminate|]. inversion E1; subst. exact Hw.
      * exists (BSlice (Some a) (Some b)). split; [reflexivity|]. cbn [at_border]. split; [discriminate|].
        intros (w & Hw & [E1|(b1 & E1 & L)]); [discriminate|]. inversion E1; subst.
        apply orb_false_iff in E as [E2 E3]. apply Z.eqb_neq in E2, E3. lia.
    + exists (BSlice (Some a) None). split; [reflexivity|]. split; [discriminate|]. intros (w & _ & [E1|(b1 & E1 & _)]); discriminate.
    + exists (BSlice None b). split; [destruct b; reflexivity|]. split; [discriminate|]. intros (w & _ & [E1|(b1 & E1 & _)]); discriminate.
Qed.

Lemma periodic_placed g nm x y z r : integers x -> integers y -> integers z -> meant_axis x y z r ->
  (forall n, nm = Some n -> ~ In n (g_attrs g)) ->
  match r with
  | Some ax =>
      (forall hi, ~ In (face_attr ax hi) (g_attrs g) /\ nm <> Some (face_attr ax hi)) ->
      exists g', setitem [x; y; z] (CPeriodic nm) g = (g', None)
        /\ g_boundaries g' = g_boundaries g ++ [Periodic ax]
        /\ forall n, In n (g_attrs g') <-> In n (g_attrs g) \/ nm = Some n \/ exists hi, n = face_attr ax hi
  | None => exists g', setitem [x; y; z] (CPeriodic nm) g = (g', Some IndexError)
        /\ g_boundaries g' = g_boundaries g ++ [InertPeriodic]
  end.
Proof.
  intros Ix Iy Iz M Hn.
  destruct (integers_slice (g_spacing g) x Ix) as (bx & Ex & Bx).
  destruct (integers_slice (g_spacing g) y Iy) as (by_ & Ey & By).
  destruct (integers_slice (g_spacing g) z Iz) as (bz & Ez & Bz).
  assert (exists h, claim_name nm g = Ok h /\ (forall n, In n (g_attrs h) <-> In n (g_attrs g) \/ nm = Some n) /\ g_boundaries h = g_boundaries g)
    as (h & Hc & Hh & Hb).
  { destruct nm as [n|]; cbn [claim_name].
    - assert (has_attr g n = false) as ->.
      { destruct (has_attr g n) eqn:E; [|reflexivity]. apply has_attr_In in E. destruct (Hn n eq_refl E). }
      eexists. split; [reflexivity|]. cbn. split; [|reflexivity]. intros m. split.
      + intros [<-|H]; auto.
      + intros [H|H]; [right; exact H|]. inversion H. left. reflexivity.
    - exists g. split; [reflexivity|]. split; [|reflexivity]. intros m. split; [auto|]. intros [H|H]; [exact H|discriminate]. }
  assert (P : forall ax, (forall hi, ~ In (face_attr ax hi) (g_attrs g) /\ nm <> Some (face_attr ax hi)) ->
    exists g', place_periodic ax h = (g', None)
        /\ g_boundaries g' = g_boundaries g ++ [Periodic ax]
        /\ forall n, In n (g_attrs g') <-> In n (g_attrs g) \/ nm = Some n \/ exists hi, n = face_attr ax hi).
  { intros ax F. unfold place_periodic.
    assert (N : forall hi, has_attr h (face_attr ax hi) = false).
    { intros hi. destruct (has_attr h (face_attr ax hi)) eqn:E; [|reflexivity]. apply has_attr_In in E. apply Hh in E.
      destruct (F hi) as [F1 F2]. destruct E; contradiction. }
    rewrite !N. cbn [orb]. eexists. split; [reflexivity|]. cbn. rewrite Hb. split; [reflexivity|]. intros n. split.
    - intros [<-|[<-|H]].
      + right. right. exists true. reflexivity.
      + right. right. exists false. reflexivity.
      + apply Hh in H. destruct H; auto.
    - intros [H|[H|([|] & H)]].
      + right. right. apply Hh. auto.
      + right. right. apply Hh. auto.
      + left. auto.
      + right. left. auto. }
  cbn [setitem pad_key register]. unfold register_periodic. rewrite Ex. cbn [bind]. rewrite Ey. cbn [bind]. rewrite Ez. cbn [bind]. rewrite Hc. cbn [bind].
  assert (NB : forall b k, (at_border b = true <-> touches_border k) -> ~ touches_border k -> at_border b = false).
  { intros b k H N. destruct (at_border b); [|reflexivity]. destruct N. apply H. reflexivity. }
  destruct r as [ax|].
  - intros F. destruct ax; cbn in M.
    + rewrite (proj2 Bx M). apply (P AX F).
    + destruct M as [M1 M2]. rewrite (NB _ _ Bx M1), (proj2 By M2). apply (P AY F).
    + destruct M as (M1 & M2 & M3). rewrite (NB _ _ Bx M1), (NB _ _ By M2), (proj2 Bz M3). apply (P AZ F).
  - cbn in M. destruct M as (M1 & M2 & M3). rewrite (NB _ _ Bx M1), (NB _ _ By M2), (NB _ _ Bz M3).
    eexists. split; [reflexivity|]. cbn. rewrite Hb. reflexivity.
Qed.
