(** nidn/fdtd/visualization.py 331-467: [dB_map_2D] and [plot_detection], the
    pictures of detector readings ("visualization").

    Simplifications: what is drawn before an exception is not modelled, nor are
    titles, legends and labels; arithmetic is exact. *)
From Coq Require Import Reals ZArith String Ascii List Bool Arith.
From Verif Require Import Base Model_Units Model_FDTD Model_Visualize.
Import ListNotations.
Open Scope list_scope.
Open Scope R_scope.

(** ** [dB_map_2D] *)

(** An array with 5 axes: time step, row, column, height, component; there are
    three components. *)
Record block := mkBlock { b_T : nat; b_rows : nat; b_cols : nat; b_height : nat; b_at : nat -> nat -> nat -> nat -> axis -> R }.
(** The argument [block_det]. *)
Inductive block_arg := NoBlock | OtherAxes | Block (b : block).
(** What a pixel shows. *)
Inductive level := Level (x : R) | Infinite | NotANumber.

Definition least (l : list R) : R := match l with [] => 0 | x :: r => fold_left Rmin r x end.
(** 360-361 *)
Definition swing (b : block) (c : axis) (i j : nat) : R :=
  let temp := map (fun t => b_at b t i j 0%nat c) (seq 0 (b_T b)) in greatest temp - least temp.
Definition component_of (n : nat) : axis := match n with O => AX | S O => AY | _ => AZ end.
(** 356-361: the rows of a *)
Definition swings (b : block) (c : axis) : list (list R) :=
  map (fun i => map (swing b c i) (seq 0 (b_cols b))) (seq 0 (b_rows b)).
(** 365-370: per row that has a peak, the places of its peaks *)
Definition peaks (peak : R) (a : list (list R)) : list (list (nat * nat)) :=
  flat_map (fun ix : nat * list R =>
    if existsb (fun y => Reqb y peak) (snd ix)
    then [map (fun jy => (fst ix, fst jy)) (filter (fun jy => Reqb (snd jy) peak) (combine (seq 0 (length (snd ix))) (snd ix)))]
    else []) (combine (seq 0 (length a)) a).
(** 373: [10 * log10(y / minVal)] with the arithmetic of numpy for [minVal = 0]; y is
    not below [minVal] *)
Definition decibel (m y : R) : level :=
  if Reqb m 0 then if Reqb y 0 then NotANumber else Infinite else Level (10 * log10 (y / m)).
(** 331-373: the list that is printed and the image *)
Definition dB_map_2D (arg : block_arg) (choose_axis : Z) : res (list (list (nat * nat)) * list (list level)) :=
  match arg with
  | NoBlock | OtherAxes => Err ValueError
  | Block b =>
      let! _ := ensure (0 <? b_T b)%nat IndexError in
      if ((b_rows b =? 0) || (b_cols b =? 0))%nat then Err ValueError else
      let! _ := ensure (0 <? b_height b)%nat IndexError in
      let! c := resolve 3 choose_axis in
      let a := swings b (component_of c) in
      let peak := greatest (map greatest a) in
      let low := least (map least a) in
      Ok (peaks peak a, map (map (decibel low)) a)
  end.

(** ** [plot_detection] *)

(** An array of the dictionary: one with 3 axes (time step, cell, component), which
    has a step and a cell and three components; or another one, with
    [len(array[0][0])] if that exists. *)
Inductive arr := ALine (l : list (list vec)) | AOther (inner : option nat).
Definition inner (a : arr) : option nat := match a with ALine _ => Some 3%nat | AOther n => n end.

(** [s[-2]] *)
Fixpoint last_but_one (s : string) : option ascii :=
  match s with
  | EmptyString => None
  | String c r => match r with
                  | EmptyString => None
                  | String _ EmptyString => Some c
                  | _ => last_but_one r
                  end
  end.
Definition char_at (i : nat) (s : string) : res ascii :=
  match String.get i s with Some c => Ok c | None => Err IndexError end.
(** [["x", "y", "z"].index(c)] *)
Definition letter_axis (c : ascii) : res axis :=
  if Ascii.eqb c "x" then Ok AX else if Ascii.eqb c "y" then Ok AY else if Ascii.eqb c "z" then Ok AZ else Err ValueError.

Section plotting.
(** [abs(hilbert(...))] *)
Variable envelope : list R -> list R.

(** A curve: field, component, label, values. *)
Definition curve := (ascii * axis * string * list R)%type.
(** 423: the component in the first cell over time *)
Definition first_cell (c : axis) (l : list (list vec)) : list R :=
  map (fun cells => match cells with v :: _ => v c | [] => 0 end) l.
(** 401-425: the curves of one array *)
Definition curves_of (specific : option string) (na : string * arr) : res (list curve) :=
  match snd na with
  | AOther _ => Ok []
  | ALine l =>
      let! f := match last_but_one (fst na) with Some f => Ok f | None => Err IndexError end in
      let curve_of c := (f, c, fst na, envelope (first_cell c l)) in
      match specific with
      | None => Ok (map curve_of [AX; AY; AZ])
      | Some s =>
          let! s0 := char_at 0 s in
          if negb (Ascii.eqb f s0) then Ok [] else
          let! s1 := char_at 1 s in
          let! c := letter_axis s1 in
          Ok [curve_of c]
      end
  end.
(** [where(h == max(h))[0][0]] *)
Fixpoint find_first (m : R) (l : list R) (i : nat) : nat :=
  match l with [] => i | x :: r => if Reqb x m then i else find_first m r (S i) end.
Definition arrival_time (h : list R) : nat := find_first (greatest h) h 0.
(** The dictionary [maxArray]. *)
Definition arrivals := list (ascii * list (axis * list (string * nat))).
Fixpoint add_dimension (c : axis) (x : string * nat) (d : list (axis * list (string * nat))) : list (axis * list (string * nat)) :=
  match d with
  | [] => [(c, [x])]
  | (c', l) :: r => if axis_eqb c c' then (c', l ++ [x]) :: r else (c', l) :: add_dimension c x r
  end.
Fixpoint add_arrival (f : ascii) (c : axis) (x : string * nat) (d : arrivals) : arrivals :=
  match d with
  | [] => [(f, add_dimension c x [])]
  | (f', e) :: r => if Ascii.eqb f f' then (f', add_dimension c x e) :: r else (f', e) :: add_arrival f c x r
  end.
(** 428-434 *)
Definition record_arrival (d : arrivals) (k : curve) : arrivals :=
  let '(f, c, n, h) := k in add_arrival f c (n, arrival_time h) d.

(** 436-453: the labels; [n] is [len(detector_dict[detector][0][0])] of the last
    array *)
Definition label_dimensions (specific : option string) (n : nat) : res unit :=
  match specific with
  | None => ensure (n <=? 4)%nat ValueError
  | Some s => if (n =? 0)%nat then Ok tt else let! s1 := char_at 1 s in let! _ := letter_axis s1 in Ok tt
  end.
Definition label_figure (specific : option string) (d : list (string * arr)) (f : ascii) : res unit :=
  let! skip := match specific with None => Ok false | Some s => let! s0 := char_at 0 s in Ok (negb (Ascii.eqb f s0)) end in
  if skip then Ok tt else
  match rev d with
  | [] => Err UnboundLocalError
  | (_, a) :: _ => match inner a with None => Err IndexError | Some n => label_dimensions specific n end
  end.
(** 380-467: the curves and the times of arrival *)
Definition plot_detection (detector_dict : option (list (string * arr))) (specific : option string) : res (list curve * arrivals) :=
  match detector_dict with
  | None => Err PlainException
  | Some d =>
      let! cs := map_res (curves_of specific) d in
      let! _ := label_figure specific d "E"%char in
      let! _ := label_figure specific d "H"%char in
      let curves := List.concat cs in
      Ok (curves, fold_left record_arrival curves [])
  end.
End plotting.
