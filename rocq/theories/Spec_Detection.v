(** Vocabulary for C78 and C79. *)
From Coq Require Import Reals ZArith String Ascii List Bool Arith.
From Verif Require Import Base Model_Units Model_FDTD Model_Output Model_Detection.
Import ListNotations.
Open Scope list_scope.
Open Scope R_scope.

(** The greatest difference between two readings of a component in the lowest layer
    of a block. *)
Definition reading (b : block) (c : axis) (i j t : nat) : R := b_at b t i j 0%nat c.
Definition swings_by (b : block) (c : axis) (i j : nat) (d : R) : Prop :=
  (exists t u, (t < b_T b)%nat /\ (u < b_T b)%nat /\ d = reading b c i j t - reading b c i j u)
  /\ forall t u, (t < b_T b)%nat -> (u < b_T b)%nat -> reading b c i j t - reading b c i j u <= d.
(** A component named by an index (0, 1, 2 or -3, -2, -1). *)
Definition names_component (z : Z) (c : axis) : Prop :=
  match c with AX => (z = 0 \/ z = -3)%Z | AY => (z = 1 \/ z = -2)%Z | AZ => (z = 2 \/ z = -1)%Z end.
(** A block with at least one step, row, column and layer. *)
Definition some_readings (b : block) : Prop := (0 < b_T b /\ 0 < b_rows b /\ 0 < b_cols b /\ 0 < b_height b)%nat.
(** As many steps, rows and columns, and both with a layer or both without. *)
Definition same_size (b b' : block) : Prop :=
  b_T b' = b_T b /\ b_rows b' = b_rows b /\ b_cols b' = b_cols b /\ (0 < b_height b' <-> 0 < b_height b)%nat.
(** A pixel of a picture. *)
Definition pixel (m : list (list level)) (i j : nat) (v : level) : Prop := exists row, nth_error m i = Some row /\ nth_error row j = Some v.

(** The name of a field letter: [n (E)]. *)
Definition ends_with_field (name : string) (f : ascii) : Prop := exists a c, name = (a ++ String f (String c EmptyString))%string.
(** A component of a field is asked for: all, or those of [specific_plot]. *)
Definition letter (c : axis) : ascii := match c with AX => "x" | AY => "y" | AZ => "z" end%char.
Definition wanted (specific : option string) (f : ascii) (c : axis) : Prop :=
  match specific with None => True | Some s => exists r, s = String f (String (letter c) r) end.
(** The label and the values of the curves of a component of a field. *)
Fixpoint curves_for (f : ascii) (c : axis) (cs : list curve) : list (string * list R) :=
  match cs with
  | [] => []
  | (f', c', n, h) :: r => if (Ascii.eqb f f' && axis_eqb c c')%bool then (n, h) :: curves_for f c r else curves_for f c r
  end.
(** The first moment at which a curve is at its maximum. *)
Definition first_maximum (h : list R) (t : nat) : Prop :=
  (t < length h)%nat /\ (forall u, (u < length h)%nat -> nth u h 0 <= nth t h 0) /\ forall u, (u < t)%nat -> nth u h 0 < nth t h 0.
(** The component in the first cell of a detector at a step. *)
Definition in_first_cell (c : axis) (step : list vec) : R := hd (fun _ => 0) step c.
(** The recorded times of arrival of a component of a field. *)
Definition arrivals_of (d : arrivals) (f : ascii) (c : axis) (l : list (string * nat)) : Prop :=
  exists e, In (f, e) d /\ In (c, l) e.

(** The arrays of line detectors as read from the file of [save_data]: one without a
    step or without a cell has fewer than three axes. *)
Definition recorded (l : list (list vec)) : Prop := match l with (_ :: _) :: _ => True | _ => False end.
Definition loaded (r : readings) : list (string * arr) :=
  map (fun nl => (fst nl, match snd nl with (_ :: _) :: _ => ALine (snd nl) | _ => AOther None end)) r.
