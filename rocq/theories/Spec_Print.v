(** Vocabulary for stating the properties of the listing of a config. *)
From Coq Require Import String Ascii List Bool Arith.
From Verif Require Import Base PyVal Model_Print.
Import ListNotations.
Open Scope string_scope.

(** Values that [f"{value:<15}"] refuses. *)
Definition unprintable (e : entry) : Prop := exists t, e = Plain (VObj t).

(** What the listing shows of one value: strings as they are, bools as 0 or 1. *)
Definition shown (show : pyval -> string) (v : pyval) : string :=
  match v with VStr s => s | VBool true => "1" | VBool false => "0" | _ => show v end.

(** [t] is the text [s], followed by spaces up to the given width. *)
Definition left_aligned (width : nat) (s t : string) : Prop :=
  exists blanks, t = s ++ blanks /\ (forall i c, String.get i blanks = Some c -> c = " "%char)
  /\ String.length t = Nat.max width (String.length s).

(** What is printed for one item, the end of the line left open. *)
Inductive item_text (show : pyval -> string) : string * entry -> string -> Prop :=
| text_list k l : item_text show (k, Plain (VList l)) (newline ++ k ++ ": " ++ show (VList l) ++ newline)
| text_array k t : item_text show (k, Array t) (newline ++ k ++ ": " ++ t ++ newline)
| text_collection k : item_text show (k, Collection) newline
| text_value k v key value eol : (forall l, v <> VList l) -> (forall t, v <> VObj t) -> eol = "" \/ eol = newline ->
    left_aligned 23 k key -> left_aligned 15 (shown show v) value ->
    item_text show (k, Plain v) (key ++ ": " ++ value ++ "|" ++ eol).

(** A text without bars. *)
Fixpoint no_bars (s : string) : bool :=
  match s with
  | EmptyString => true
  | String c r => negb (Ascii.eqb c "|"%char) && no_bars r
  end.

(** Whether no line of a text, of which [n] bars of the first line have been seen
    before, has more than [m] bars. *)
Fixpoint bars_ok (m n : nat) (s : string) : bool :=
  match s with
  | EmptyString => true
  | String c r =>
      if Ascii.eqb c "010"%char then bars_ok m 0 r
      else if Ascii.eqb c "|"%char then (S n <=? m)%nat && bars_ok m (S n) r
      else bars_ok m n r
  end.
Definition at_most_per_line (m : nat) (s : string) : Prop := bars_ok m 0 s = true.

(** No bars in the texts that go into the listing of a config. *)
Definition barless (show : pyval -> string) (cfg : list (string * entry)) : Prop :=
  forall k e, In (k, e) cfg -> no_bars k = true
    /\ match e with Plain v => no_bars (shown show v) = true | Array t => no_bars t = true | Collection => True end.
