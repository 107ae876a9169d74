(** Property theorems C78 and C79: pictures of detector readings. *)
From Coq Require Import Reals ZArith String Ascii List Bool Arith Lra Lia.
From Verif Require Import Base BaseLemmas Model_Units Model_FDTD Model_Register Model_Runs Model_Output Model_Visualize Model_Detection Spec_Detection Proof_Detection Proof_Detection2.
Import ListNotations.
Open Scope list_scope.
Open Scope R_scope.

(** ** C78 *)

(** A map is drawn of the readings of a block with a step and a cell, and a component
    that exists. *)
Theorem C78_drawn : forall arg z,
  (exists out, dB_map_2D arg z = Ok out) <-> exists b, arg = Block b /\ some_readings b /\ (-3 <= z < 3)%Z.
Proof. exact map_outcome. Qed.
Print Assumptions C78_drawn.
Theorem C78_refused : forall arg z,
  dB_map_2D arg z = Err ValueError <-> forall b, arg = Block b -> (0 < b_T b)%nat /\ (b_rows b = 0 \/ b_cols b = 0)%nat.
Proof. exact map_value_error. Qed.
Print Assumptions C78_refused.
(** Each pixel is the swing at its place in decibels over the least swing of the map;
    if some place does not swing at all, no pixel is a number. *)
Theorem C78_map : forall b z pk m c i0 j0 low,
  dB_map_2D (Block b) z = Ok (pk, m) -> names_component z c ->
  (i0 < b_rows b)%nat -> (j0 < b_cols b)%nat -> swings_by b c i0 j0 low ->
  (forall i j d, (i < b_rows b)%nat -> (j < b_cols b)%nat -> swings_by b c i j d -> low <= d) ->
  length m = b_rows b /\ Forall (fun row => length row = b_cols b) m
  /\ forall i j d, (i < b_rows b)%nat -> (j < b_cols b)%nat -> swings_by b c i j d ->
     (0 < low -> pixel m i j (Level (10 * log10 (d / low))))
     /\ (low = 0 -> 0 < d -> pixel m i j Infinite) /\ (low = 0 -> d = 0 -> pixel m i j NotANumber).
Proof. exact map_shows. Qed.
Print Assumptions C78_map.
(** No pixel is below 0 dB, the least swing is at 0 dB, and a place that swings more is
    shown higher. *)
Theorem C78_order : forall b z pk m c i0 j0 low,
  dB_map_2D (Block b) z = Ok (pk, m) -> names_component z c ->
  (i0 < b_rows b)%nat -> (j0 < b_cols b)%nat -> swings_by b c i0 j0 low -> 0 < low ->
  (forall i j d, (i < b_rows b)%nat -> (j < b_cols b)%nat -> swings_by b c i j d -> low <= d) ->
  pixel m i0 j0 (Level 0)
  /\ forall i j d i' j' d', (i < b_rows b)%nat -> (j < b_cols b)%nat -> swings_by b c i j d -> (i' < b_rows b)%nat -> (j' < b_cols b)%nat -> swings_by b c i' j' d' ->
     exists x x', pixel m i j (Level x) /\ pixel m i' j' (Level x') /\ 0 <= x /\ (x <= x' <-> d <= d').
Proof. exact map_pixels. Qed.
Print Assumptions C78_order.
(** The places that are printed are those of the greatest swing. *)
Theorem C78_peaks : forall b z pk m c,
  dB_map_2D (Block b) z = Ok (pk, m) -> names_component z c ->
  forall i j, In (i, j) (List.concat pk) <-> (i < b_rows b)%nat /\ (j < b_cols b)%nat /\ exists d, swings_by b c i j d
    /\ forall i' j' d', (i' < b_rows b)%nat -> (j' < b_cols b)%nat -> swings_by b c i' j' d' -> d' <= d.
Proof. exact map_peaks. Qed.
Print Assumptions C78_peaks.
(** Only the chosen component in the lowest layer matters, and neither its unit, its
    sign nor a constant background does. *)
Theorem C78_invariant : forall b b' z k off,
  same_size b b' -> k <> 0 ->
  (forall c t i j, names_component z c -> (t < b_T b)%nat -> (i < b_rows b)%nat -> (j < b_cols b)%nat -> reading b' c i j t = k * reading b c i j t + off i j) ->
  dB_map_2D (Block b') z = dB_map_2D (Block b) z.
Proof. exact map_scaled. Qed.
Print Assumptions C78_invariant.

(** Two steps and two cells, the second swinging ten times as much. *)
Definition C78_block : block :=
  mkBlock 2 1 2 1 (fun t _ j _ c => match c, t with AZ, 1%nat => if Nat.eqb j 0 then 1 else 10 | _, _ => 3 * INR t end).
Example C78_case : exists pk m, dB_map_2D (Block C78_block) 2 = Ok (pk, m) /\ ~ In (0, 0)%nat (List.concat pk) /\ In (0, 1)%nat (List.concat pk)
  /\ pixel m 0 0 (Level 0) /\ pixel m 0 1 (Level 10).
Proof.
  assert (Sr : some_readings C78_block) by (repeat split; cbn; lia).
  assert (D : exists out, dB_map_2D (Block C78_block) 2 = Ok out) by (apply map_outcome; exists C78_block; repeat split; cbn; lia).
  destruct D as ([pk m] & E). exists pk, m. split; [exact E|].
  assert (S0 : swings_by C78_block AZ 0 0 1).
  { split; [exists 1%nat, 0%nat; cbn; repeat split; try lia; lra|]. intros [|[|t]] [|[|u]] Ht Hu; cbn in *; try lia; lra. }
  assert (S1 : swings_by C78_block AZ 0 1 10).
  { split; [exists 1%nat, 0%nat; cbn; repeat split; try lia; lra|]. intros [|[|t]] [|[|u]] Ht Hu; cbn in *; try lia; lra. }
  assert (C : names_component 2 AZ) by (left; reflexivity).
  assert (A : forall i j d, (i < b_rows C78_block)%nat -> (j < b_cols C78_block)%nat -> swings_by C78_block AZ i j d -> i = 0%nat /\ (j = 0%nat /\ d = 1 \/ j = 1%nat /\ d = 10)).
  { intros i j d Hi Hj Sw. cbn in Hi, Hj. assert (i = 0%nat) as -> by lia. split; [reflexivity|]. destruct j as [|[|j]]; [left|right|lia]; (split; [reflexivity|]); eapply swings_fun; eauto. }
  pose proof (map_peaks _ _ _ _ _ E C) as P. split; [|split].
  - intros I. apply P in I as (_ & _ & d & Sd & G). pose proof (swings_fun _ _ _ _ _ _ Sd S0) as ->. specialize (G 0%nat 1%nat 10 ltac:(cbn; lia) ltac:(cbn; lia) S1). lra.
  - apply P. split; [cbn; lia|]. split; [cbn; lia|]. exists 10. split; [exact S1|]. intros i j d Hi Hj Sw. destruct (A i j d Hi Hj Sw) as (_ & [[_ ->]|[_ ->]]); lra.
  - assert (Low : forall i j d, (i < b_rows C78_block)%nat -> (j < b_cols C78_block)%nat -> swings_by C78_block AZ i j d -> 1 <= d).
    { intros i j d Hi Hj Sw. destruct (A i j d Hi Hj Sw) as (_ & [[_ ->]|[_ ->]]); lra. }
    destruct (map_shows C78_block 2 pk m AZ 0%nat 0%nat 1 E C ltac:(cbn; lia) ltac:(cbn; lia) S0 Low) as (_ & _ & M). split.
    + destruct (M 0%nat 0%nat 1 ltac:(cbn; lia) ltac:(cbn; lia) S0) as [M0 _]. specialize (M0 ltac:(lra)).
      replace (10 * log10 (1 / 1)) with 0 in M0; [exact M0|]. unfold log10. replace (1 / 1) with 1 by field. rewrite ln_1. unfold Rdiv. ring.
    + destruct (M 0%nat 1%nat 10 ltac:(cbn; lia) ltac:(cbn; lia) S1) as [M0 _]. specialize (M0 ltac:(lra)).
      replace (10 * log10 (10 / 1)) with 10 in M0; [exact M0|]. unfold log10. replace (10 / 1) with 10 by field. assert (0 < ln 10) by (rewrite <- ln_1; apply ln_increasing; lra). field. lra.
Qed.

(** ** C79 *)

(** A curve is drawn for each component that is asked for of each array of a line
    detector: the envelope of the readings in its first cell, in the picture of the
    field named by the last letter but one. *)
Theorem C79_curves : forall env d specific cs ar,
  plot_detection env (Some d) specific = Ok (cs, ar) ->
  forall f c n h, In (f, c, n, h) cs <-> exists l, In (n, ALine l) d /\ ends_with_field n f /\ wanted specific f c /\ h = env (map (in_first_cell c) l).
Proof. exact plot_curves. Qed.
Print Assumptions C79_curves.
(** Each curve is given with the first moment at which it is at its maximum. *)
Theorem C79_arrivals : forall env d specific cs ar,
  (forall l, length (env l) = length l) -> (forall n l, In (n, ALine l) d -> l <> []) ->
  plot_detection env (Some d) specific = Ok (cs, ar) ->
  forall f c, match curves_for f c cs with
    | [] => forall l, ~ arrivals_of ar f c l
    | k => exists times, (forall l, arrivals_of ar f c l <-> l = times)
             /\ Forall2 (fun (curve : string * list R) (arrival : string * nat) => fst arrival = fst curve /\ first_maximum (snd curve) (snd arrival)) k times
    end.
Proof. exact plot_arrivals. Qed.
Print Assumptions C79_arrivals.
(** When the pictures are drawn: all components, or one. *)
Theorem C79_drawn_all : forall env d,
  (exists out, plot_detection env (Some d) None = Ok out) <->
  (forall n l, In (n, ALine l) d -> (2 <= String.length n)%nat) /\ exists d' n a k, d = d' ++ [(n, a)] /\ inner a = Some k /\ (k <= 4)%nat.
Proof. exact plot_drawn_all. Qed.
Print Assumptions C79_drawn_all.
Theorem C79_drawn_one : forall env d f c,
  f = "E"%char \/ f = "H"%char -> (exists out, plot_detection env (Some d) (Some (String f (String (letter c) EmptyString))) = Ok out) <->
  (forall n l, In (n, ALine l) d -> (2 <= String.length n)%nat) /\ exists d' n a k, d = d' ++ [(n, a)] /\ inner a = Some k.
Proof. exact plot_drawn_one. Qed.
Print Assumptions C79_drawn_one.
Theorem C79_no_dictionary : forall env specific,
  plot_detection env None specific = Err PlainException.
Proof. exact plot_nothing. Qed.
Print Assumptions C79_no_dictionary.
Theorem C79_empty : forall env specific,
  (forall s, specific = Some s -> exists r, s = String "E" r \/ s = String "H" r) -> plot_detection env (Some []) specific = Err UnboundLocalError.
Proof. exact plot_empty. Qed.
Print Assumptions C79_empty.
(** Readings of block detectors are not always skipped, as announced: after the line
    detectors they make the call fail if they are more than four cells wide, and so
    do readings of no step. *)
Theorem C79_block_refuted : forall env d n k,
  (forall n l, In (n, ALine l) d -> (2 <= String.length n)%nat) -> (4 < k)%nat ->
  plot_detection env (Some (d ++ [(n, AOther (Some k))])) None = Err ValueError.
Proof. exact plot_block_last. Qed.
Print Assumptions C79_block_refuted.
Theorem C79_unread_refuted : forall env d n specific,
  (forall n l, In (n, ALine l) d -> (2 <= String.length n)%nat) ->
  specific = None \/ (exists f c, (f = "E" \/ f = "H")%char /\ specific = Some (String f (String (letter c) EmptyString))) ->
  plot_detection env (Some (d ++ [(n, AOther None)])) specific = Err IndexError.
Proof. exact plot_unread_last. Qed.
Print Assumptions C79_unread_refuted.
(** What [save_data] stores of line detectors is shown as E and H of each detector. *)
Theorem C79_saved : forall env s s' folder,
  save_data s = (s', None) -> ss_folder s = Some folder -> (forall n k, In (n, k) (ss_dets s) -> k = DLine) ->
  exists dic, ss_files s' ("detector_readings.npz" :: folder)%string = Some (File (Some (Readings dic)))
  /\ ((exists out, plot_detection env (Some (loaded dic)) None = Ok out) <-> exists d n l, dic = d ++ [(n, l)] /\ recorded l)
  /\ forall cs ar, plot_detection env (Some (loaded dic)) None = Ok (cs, ar) -> forall f c n h, In (f, c, n, h) cs <->
     exists m l, In (Some m, DLine) (ss_dets s) /\ (f = "E" \/ f = "H")%char /\ n = (m ++ " (" ++ String f ")")%string /\ In (n, l) dic /\ recorded l /\ h = env (map (in_first_cell c) l).
Proof. exact saved_plotted. Qed.
Print Assumptions C79_saved.

Definition C79_dict : list (string * arr) :=
  [("block (E)"%string, AOther (Some 7%nat)); ("d (E)"%string, ALine [[fun _ => 1; fun _ => 9]; [fun _ => 2; fun _ => 9]; [fun _ => 2; fun _ => 0]])].
Example C79_case : exists cs ar, plot_detection (map Rabs) (Some C79_dict) (Some "Ey"%string) = Ok (cs, ar)
  /\ In ("E"%char, AY, "d (E)"%string, [Rabs 1; Rabs 2; Rabs 2]) cs /\ arrivals_of ar "E" AY [("d (E)"%string, 1%nat)] /\ forall l, ~ arrivals_of ar "E" AX l.
Proof.
  assert (Nm : forall n l, In (n, ALine l) C79_dict -> n = "d (E)"%string /\ l = [[fun _ => 1; fun _ => 9]; [fun _ => 2; fun _ => 9]; [fun _ => 2; fun _ => 0]]).
  { intros n l [H|[H|[]]]; [discriminate|]. split; congruence. }
  assert (D : exists out, plot_detection (map Rabs) (Some C79_dict) (Some "Ey"%string) = Ok out).
  { apply (plot_drawn_one (map Rabs) C79_dict "E" AY); [auto|]. split; [intros n l I; apply Nm in I as [-> _]; cbn; lia|]. exists [("block (E)"%string, AOther (Some 7%nat))]. do 3 eexists. split; reflexivity. }
  destruct D as ([cs ar] & E). exists cs, ar. split; [exact E|].
  assert (I : In ("E"%char, AY, "d (E)"%string, [Rabs 1; Rabs 2; Rabs 2]) cs).
  { apply (plot_curves _ _ _ _ _ E). eexists. split; [right; left; reflexivity|]. split; [exists "d ("%string, ")"%char; reflexivity|]. split; [exists EmptyString; reflexivity|reflexivity]. }
  split; [exact I|]. apply plot_inv in E as ((css & Hc & ->) & ->).
  assert (css = [[]; [("E"%char, AY, "d (E)"%string, [Rabs 1; Rabs 2; Rabs 2])]]) as ->.
  { assert (Q : map_res (curves_of (map Rabs) (Some "Ey"%string)) C79_dict = Ok [[]; [("E"%char, AY, "d (E)"%string, [Rabs 1; Rabs 2; Rabs 2])]]) by reflexivity. congruence. }
  cbn [List.concat app fold_left record_arrival add_arrival add_dimension].
  assert (arrival_time [Rabs 1; Rabs 2; Rabs 2] = 1%nat) as ->.
  { destruct (arrival_is [Rabs 1; Rabs 2; Rabs 2] ltac:(discriminate)) as (L & M & F). rewrite !Rabs_pos_eq in * by lra. set (t := arrival_time [1; 2; 2]) in *. clearbody t.
    destruct t as [|[|[|t]]]; cbn in *; [specialize (M 1%nat ltac:(lia)); cbn in M; lra|reflexivity|specialize (F 1%nat ltac:(lia)); cbn in F; lra|lia]. }
  split; [exists [(AY, [("d (E)"%string, 1%nat)])]; split; left; reflexivity|]. intros l (e & [H|[]] & Ie). assert (e = [(AY, [("d (E)"%string, 1%nat)])]) as -> by congruence. destruct Ie as [Ie|[]]. discriminate.
Qed.
