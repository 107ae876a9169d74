(** notebooks/tmm_core.py ("tmm"): the incoherent, or partly incoherent,
    transfer-matrix method.  Simplifications as in Model_TMM.v; the entries that
    are NaN because they are not defined are [None] or left out. *)
From Coq Require Import Reals ZArith String List Bool.
From Verif Require Import Base PyVal Cplx Model_TMM Model_TMM2.
Import ListNotations.
Open Scope R_scope.

(** * Grouping the layers *)

(** lines 808-820: the dictionary [inc_group_layers] returns; [num_stacks],
    [num_inc_layers] and [num_layers] are the lengths of [g_all_from_stack],
    [g_all_from_inc] and [g_inc_from_all] *)
Record group := mkGroup {
  g_stack_d : list (list pyfloat); g_stack_n : list (list C);
  g_all_from_inc : list nat; g_inc_from_all : list (option nat);
  g_all_from_stack : list (list nat); g_stack_from_all : list (option (nat * nat));
  g_inc_from_stack : list nat; g_stack_from_inc : list (option nat) }.

(** lines 755-765: the variables of the loop *)
Record loop_state := mkLoop {
  l_inc : nat; l_stack : nat; l_group : group; l_on : bool;
  l_d : list pyfloat; l_n : list C; l_within : nat }.
Definition loop_start : loop_state := mkLoop 0 0 (mkGroup [] [] [] [] [] [] [] []) false [] [] 0.

(** [l[-1].append(x)] *)
Definition append_to_last (l : list (list nat)) (x : nat) : list (list nat) := removelast l ++ [last l [] ++ [x]].

(** lines 766-807: the body of the loop *)
Definition group_step (ns : list C) (ds : list pyfloat) (cs : list string) (s : loop_state) (i : nat) : res loop_state :=
  let g := l_group s in
  let n := nth i ns C0 in
  let d := nth i ds NaN in
  if String.eqb (nth i cs EmptyString) "c" then
    if negb (l_on s) then
      Ok (mkLoop (l_inc s) (l_stack s)
            (mkGroup (g_stack_d g) (g_stack_n g) (g_all_from_inc g) (g_inc_from_all g ++ [None])
                     (g_all_from_stack g ++ [[(i - 1)%nat; i]]) (g_stack_from_all g ++ [Some (l_stack s, 1%nat)])
                     (g_inc_from_stack g ++ [(l_inc s - 1)%nat]) (g_stack_from_inc g))
            true [PInf; d] [nth (i - 1) ns C0; n] 1)
    else
      Ok (mkLoop (l_inc s) (l_stack s)
            (mkGroup (g_stack_d g) (g_stack_n g) (g_all_from_inc g) (g_inc_from_all g ++ [None])
                     (append_to_last (g_all_from_stack g) i) (g_stack_from_all g ++ [Some (l_stack s, S (l_within s))])
                     (g_inc_from_stack g) (g_stack_from_inc g))
            true (l_d s ++ [d]) (l_n s ++ [n]) (S (l_within s)))
  else if String.eqb (nth i cs EmptyString) "i" then
    if negb (l_on s) then
      Ok (mkLoop (S (l_inc s)) (l_stack s)
            (mkGroup (g_stack_d g) (g_stack_n g) (g_all_from_inc g ++ [i]) (g_inc_from_all g ++ [Some (l_inc s)])
                     (g_all_from_stack g) (g_stack_from_all g ++ [None])
                     (g_inc_from_stack g) (g_stack_from_inc g ++ [None]))
            false (l_d s) (l_n s) (l_within s))
    else
      Ok (mkLoop (S (l_inc s)) (S (l_stack s))
            (mkGroup (g_stack_d g ++ [l_d s ++ [PInf]]) (g_stack_n g ++ [l_n s ++ [n]])
                     (g_all_from_inc g ++ [i]) (g_inc_from_all g ++ [Some (l_inc s)])
                     (append_to_last (g_all_from_stack g) i) (g_stack_from_all g ++ [None])
                     (g_inc_from_stack g) (g_stack_from_inc g ++ [Some (l_stack s)]))
            false (l_d s) (l_n s) (l_within s))
  else Err ValueError.

Fixpoint group_loop (ns : list C) (ds : list pyfloat) (cs : list string) (s : loop_state) (layers : list nat) : res loop_state :=
  match layers with
  | [] => Ok s
  | i :: r => let! s' := group_step ns ds cs s i in group_loop ns ds cs s' r
  end.

(** lines 701-820 [inc_group_layers]; the lists have one dimension *)
Definition inc_group_layers (ns : list C) (ds : list pyfloat) (cs : list string) : res group :=
  let! _ := ensure (negb (Nat.eqb (length ds) 0)) IndexError in
  let! _ := ensure (feq (nth 0 ds NaN) PInf && feq (nth (length ds - 1) ds NaN) PInf) ValueError in
  let! _ := ensure (negb (Nat.eqb (length cs) 0)) IndexError in
  let! _ := ensure (String.eqb (nth 0 cs EmptyString) "i" && String.eqb (nth (length cs - 1) cs EmptyString) "i") ValueError in
  let! _ := ensure (Nat.eqb (length ns) (length ds) && Nat.eqb (length ds) (length cs)) ValueError in
  let! s := group_loop ns ds cs loop_start (seq 0 (length ns)) in
  Ok (l_group s).

(** * The method *)

(** Real 2x2 matrices, [numpy.dot] *)
Record r22 := mkR { r00 : R; r01 : R; r10 : R; r11 : R }.
Definition rdot (a b : r22) : r22 :=
  mkR (r00 a * r00 b + r01 a * r10 b) (r00 a * r01 b + r01 a * r11 b)
      (r10 a * r00 b + r11 a * r10 b) (r10 a * r01 b + r11 a * r11 b).
Definition rscal (c : R) (a : r22) : r22 := mkR (c * r00 a) (c * r01 a) (c * r10 a) (c * r11 a).
Definition rvec (a : r22) (v : R * R) : R * R := (r00 a * fst v + r01 a * snd v, r10 a * fst v + r11 a * snd v).
Definition r_id : r22 := mkR 1 0 0 1.

(** lines 919-958: [R_list[i, i + 1]], [T_list[i, i + 1]], [R_list[i + 1, i]] and
    [T_list[i + 1, i]] *)
Record crossing := mkCross { x_Rf : R; x_Tf : R; x_Rb : R; x_Tb : R }.

(** The dictionary [inc_tmm] returns.  [i_VW] has the pairs from layer 1 on (line
    1000 fills the pair of layer 0 with NaN); [i_crossings] and [i_P] are local to
    inc_tmm and kept here for the statements. *)
Record inc_data := mkInc {
  i_T : R; i_R : R; i_VW : list (R * R); i_coh : list coh_data; i_bcoh : list coh_data;
  i_FB : list (R * R); i_entering : list R; i_group : group; i_crossings : list crossing; i_P : list R }.

(** for loops which fill a list *)
Fixpoint mapM {A B} (f : A -> res B) (l : list A) : res (list B) :=
  match l with
  | [] => Ok []
  | x :: r => let! y := f x in let! ys := mapM f r in Ok (y :: ys)
  end.

Section Arcsin.
Variable arcsin : C -> C.

(** lines 880-899: both calculations of each stack *)
Definition stack_data (pol : string) (lam : R) (ths : list C) (g : group) (i : nat) : res (coh_data * coh_data) :=
  let n := nth i (g_stack_n g) [] in
  let d := nth i (g_stack_d g) [] in
  let th := nth (nth 0 (nth i (g_all_from_stack g) []) 0%nat) ths C0 in
  let! c := coh_tmm arcsin pol n d th lam in
  let! b := coh_tmm_reverse arcsin pol n d th lam in
  Ok (c, b).

(** lines 903-913: the part of the light that passes an inner incoherent layer *)
Definition pass_through (ns : list C) (ds : list pyfloat) (ths : list C) (lam : R) (i : nat) : res R :=
  let! d := (match nth i ds NaN with Fin x => Ok x | _ => Err RuntimeError end) in
  let! x := rdiv (- 4 * PI * d * Im (nth i ns C0 * Ccos (nth i ths C0))%C) lam in
  Ok (if Rltb (exp x) (/ 10 ^ 30) then / 10 ^ 30 else exp x).
Definition passes (ns : list C) (ds : list pyfloat) (ths : list C) (lam : R) (g : group) : res (list R) :=
  let N := length (g_all_from_inc g) in
  let! inner := mapM (fun k => pass_through ns ds ths lam (nth k (g_all_from_inc g) 0%nat)) (seq 1 (N - 2)) in
  Ok ([0] ++ inner ++ (if Nat.ltb 1 N then [0] else [])).

(** lines 921-958 *)
Definition crossing_at (pol : string) (ns ths : list C) (g : group) (coh bcoh : list coh_data) (k : nat) : res crossing :=
  let i := nth k (g_all_from_inc g) 0%nat in
  match nth (S k) (g_stack_from_inc g) None with
  | None =>
      let n := nth i ns C0 in let n' := nth (S i) ns C0 in
      let th := nth i ths C0 in let th' := nth (S i) ths C0 in
      let! Rf := interface_R pol n n' th th' in
      let! Tf := interface_T pol n n' th th' in
      let! Rb := interface_R pol n' n th' th in
      let! Tb := interface_T pol n' n th' th in
      Ok (mkCross Rf Tf Rb Tb)
  | Some s =>
      match nth_error coh s, nth_error bcoh s with
      | Some c, Some b => Ok (mkCross (c_R c) (c_T c) (c_R b) (c_T b))
      | _, _ => Err IndexError
      end
  end.

(** lines 963-974, 978-989 *)
Definition L_interface (x : crossing) : res r22 :=
  let! _ := ensure (negb (Reqb (x_Tf x) 0)) RuntimeError in
  Ok (rscal (1 / x_Tf x) (mkR 1 (- x_Rb x) (x_Rf x) (x_Tb x * x_Tf x - x_Rb x * x_Rf x))).
Definition L_layer (P : R) (x : crossing) : res r22 :=
  let! E := L_interface x in
  let! q := rdiv 1 P in
  Ok (rdot (mkR q 0 0 P) E).

(** lines 1001-1006: the pairs of the layers 1, ..., M - 1 *)
Definition intensities (Ls : list r22) (T : R) : list (R * R) :=
  fold_right (fun L l => rvec L (hd (0, 0) l) :: l) [(T, 0)] Ls.

(** lines 1012-1019; [VW] starts with layer 1 *)
Definition towards_stack (P : list R) (VW : list (R * R)) (prev : nat) : R * R :=
  ((if Nat.eqb prev 0 then 1 else fst (nth (prev - 1) VW (0, 0)) * nth prev P 0), snd (nth prev VW (0, 0))).

(** lines 1024-1043: the power entering layer [k], [0 < k] *)
Definition entering_at (P : list R) (VW : list (R * R)) (X : list crossing) (g : group) (coh bcoh : list coh_data)
    (FB : list (R * R)) (k : nat) : res R :=
  let x := nth (k - 1) X (mkCross 0 0 0 0) in
  match nth k (g_stack_from_inc g) None with
  | None =>
      if Nat.eqb k 1 then Ok (x_Tf x - snd (nth 0 VW (0, 0)) * x_Tb x)
      else Ok (fst (nth (k - 2) VW (0, 0)) * nth (k - 1) P 0 * x_Tf x - snd (nth (k - 1) VW (0, 0)) * x_Tb x)
  | Some s =>
      match nth_error coh s, nth_error bcoh s with
      | Some c, Some b => Ok (fst (nth s FB (0, 0)) * c_T c - snd (nth s FB (0, 0)) * c_entering b)
      | _, _ => Err IndexError
      end
  end.

(** lines 823-1054 [inc_tmm]; [numpy.real_if_close] leaves out an imaginary part
    below 100 epsilon *)
Definition inc_tmm (pol : string) (ns : list C) (ds : list pyfloat) (cs : list string) (th_0 : C) (lam : R) : res inc_data :=
  let! _ := ensure (negb (Nat.eqb (length ns) 0)) IndexError in
  let! _ := ensure (Rltb (Rabs (Im (nth 0 ns C0 * Csin th_0)%C)) (100 * EPSILON)) ValueError in
  let! g := inc_group_layers ns ds cs in
  let M := length (g_all_from_inc g) in
  let! ths := list_snell arcsin ns th_0 in
  let! stacks := mapM (stack_data pol lam ths g) (seq 0 (length (g_all_from_stack g))) in
  let coh := map fst stacks in
  let bcoh := map snd stacks in
  let! P := passes ns ds ths lam g in
  let! X := mapM (crossing_at pol ns ths g coh bcoh) (seq 0 (M - 1)) in
  let! _ := ensure (Nat.ltb 1 M) IndexError in
  let! L_0 := L_interface (nth 0 X (mkCross 0 0 0 0)) in
  let! Ls := mapM (fun k => L_layer (nth k P 0) (nth k X (mkCross 0 0 0 0))) (seq 1 (M - 2)) in
  let Ltilde := fold_left rdot Ls L_0 in
  let! T := rdiv 1 (r00 Ltilde) in
  let! R := rdiv (r10 Ltilde) (r00 Ltilde) in
  let VW := intensities Ls T in
  let FB := map (towards_stack P VW) (g_inc_from_stack g) in
  let! inner := mapM (entering_at P VW X g coh bcoh FB) (seq 1 (M - 1)) in
  Ok (mkInc T R VW coh bcoh FB (1 :: inner) g X P).
End Arcsin.

(** * Absorption *)

(** [l[1:-1]], and [l[-2:0:-1]] *)
Definition inside {A} (l : list A) : list A := removelast (tl l).

(** line 1098: sum of two arrays; different lengths cannot be added (or are
    broadcast, which is not modelled) *)
Fixpoint sum_arrays (a b : list R) : res (list R) :=
  match a, b with
  | [], [] => Ok []
  | x :: r, y :: q => let! s := sum_arrays r q in Ok ((x + y) :: s)
  | _, _ => Err ValueError
  end.

(** lines 1079-1102: what layer [k], and the stack behind it, absorb *)
Definition absorbed_from (D : inc_data) (k : nat) : res (list R) :=
  let e := nth k (i_entering D) 0 in
  match nth (S k) (g_stack_from_inc (i_group D)) None with
  | None => Ok [e - nth (S k) (i_entering D) 0]
  | Some j =>
      match nth_error (i_coh D) j, nth_error (i_bcoh D) j with
      | Some c, Some b =>
          let F := fst (nth j (i_FB D) (0, 0)) in
          let B := snd (nth j (i_FB D) (0, 0)) in
          let exiting := F * c_entering c - B * c_T b in
          let! lc := absorp_in_each_layer c in
          let! lb := absorp_in_each_layer b in
          let! inner := sum_arrays (inside (map (Rmult F) lc)) (rev (inside (map (Rmult B) lb))) in
          Ok ((e - exiting) :: inner)
      | _, _ => Err IndexError
      end
  end.

(** lines 1057-1105 [inc_absorp_in_each_layer] *)
Definition inc_absorp_in_each_layer (D : inc_data) : res (list R) :=
  let! parts := mapM (absorbed_from D) (seq 0 (length (i_entering D) - 1)) in
  Ok (concat parts ++ [i_T D]).

(** lines 1108-1117 [inc_find_absorp_analytic_fn]: for a coherent layer [j] is a
    list of two numbers, [isnan(j)] an array of two, and its truth value raises
    ValueError; for an incoherent layer line 1117 does *)
Definition inc_find_absorp_analytic_fn (layer : Z) (D : inc_data) : res absorption_fn :=
  let! i := py_index (length (g_stack_from_all (i_group D))) layer in
  match nth i (g_stack_from_all (i_group D)) None with
  | Some (_, _) => Err ValueError
  | None => Err ValueError
  end.
