(** nidn/utils/print_cfg.py: the listing of a config.

    Simplification: how Python writes an int, a float, a list or an array is an
    argument ([show]). *)
From Coq Require Import String Ascii List Bool Arith.
From Verif Require Import Base PyVal.
Import ListNotations.
Open Scope string_scope.

(** What a config holds under a key: a value, an ndarray or a MaterialCollection. *)
Inductive entry := Plain (v : pyval) | Array (text : string) | Collection.

Definition newline : string := String "010"%char "".
Fixpoint spaces (n : nat) : string := match n with O => "" | S m => " " ++ spaces m end.
(** [f"{s:<n}"] *)
Definition pad (n : nat) (s : string) : string := s ++ spaces (n - String.length s).

Section printing.
Variable show : pyval -> string.

(** [f"{value:<15}"]: a bool is written as the int it is; None, tuples, dicts,
    modules and tensors with axes raise TypeError. *)
Definition format15 (v : pyval) : res string :=
  match v with
  | VStr s => Ok (pad 15 s)
  | VBool b => Ok (pad 15 (if b then "1" else "0"))
  | VInt _ | VFloat _ => Ok (pad 15 (show v))
  | VList _ => Err TypeError
  | VObj _ => Err TypeError
  end.

(** print_cfg.py 15-27: the loop; returns what has been printed and the exception
    that ended it, if any. *)
Fixpoint print_items (idx : nat) (cfg : list (string * entry)) : string * option exn :=
  match cfg with
  | [] => ("", None)
  | (key, value) :: r =>
      let list_line text :=
        let (out, e) := print_items 1 r in
        (newline ++ key ++ ": " ++ text ++ newline ++ out, e) in
      match value with
      | Plain (VList l) => list_line (show (VList l))
      | Array text => list_line text
      | Collection => let (out, e) := print_items (S idx) r in (newline ++ out, e)
      | Plain v =>
          match format15 v with
          | Err e => ("", Some e)
          | Ok text =>
              let (out, e) := print_items (S idx) r in
              (pad 23 key ++ ": " ++ text ++ "|" ++ (if (idx mod 3 =? 2)%nat then newline else "") ++ out, e)
          end
      end
  end.
(** print_cfg.py 7-28 *)
Definition print_cfg (cfg : list (string * entry)) : string * option exn :=
  let (out, e) := print_items 0 cfg in
  match e with
  | Some x => (out, Some x)
  | None => (out ++ newline, None)
  end.
End printing.
