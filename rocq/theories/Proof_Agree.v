(** A wave in a stack at normal incidence gives the numbers of the film recursion. *)
From Coq Require Import Reals String List Lia Lra.
From Verif Require Import Base PyVal Cplx CplxLemmas Model_TMM Spec_TMM Spec_Film Proof_TMM2.
Import ListNotations.
Open Scope R_scope.

Definition sum (p : C * C) : C := (fst p + snd p)%C.
Definition diff (p : C * C) : C := (fst p - snd p)%C.
Definition swap_if (n m : C) (p q : C * C) : Prop := (m = n /\ q = p) \/ (m = (- n)%C /\ q = (snd p, fst p)).

(** The wave at the end of layer [i]; in the first medium it is [w0]. *)
Definition at_end (om : C) (l : list (C * C * R)) (w : nat -> C * C) (i : nat) : C * C :=
  match i with
  | O => w 0%nat
  | S j => let '(n, _, d) := nth j l (C0, C0, 0) in
           ((fst (w i) * film_phase om n d)%C, (snd (w i) * / film_phase om n d)%C)
  end.

Lemma film_phase_nz om n d : film_phase om n d <> C0.
Proof. apply Cexp_neq_0. Qed.
Lemma film_phase_opp om n d : film_phase om (- n)%C d = (/ film_phase om n d)%C.
Proof.
  assert (H : (film_phase om n d * film_phase om (- n) d)%C = C1).
  { unfold film_phase. rewrite <- (Cexp_opp (Ci * (n * om) * RtoC d)%C). f_equal. f_equal. ring. }
  pose proof (film_phase_nz om n d). assert (E : (film_phase om (- n) d = / film_phase om n d * (film_phase om n d * film_phase om (- n) d))%C) by (field; assumption).
  rewrite E, H. ring.
Qed.

Lemma two_nz : RtoC 2 <> C0.
Proof. intros E. apply (f_equal fst) in E. cbn in E. lra. Qed.
Lemma two_is : RtoC 2 = (C1 + C1)%C.
Proof. apply injective_projections; cbn; ring. Qed.
Lemma split_wave (m F B F' B' m' : C) : m <> C0 ->
  (F + B = F' + B')%C -> (m * (F - B) = m' * (F' - B'))%C ->
  F = (((m + m') * F' + (m - m') * B') / (RtoC 2 * m))%C /\ B = (((m - m') * F' + (m + m') * B') / (RtoC 2 * m))%C.
Proof.
  intros Hm E1 E2. pose proof two_nz as H2. split.
  - transitivity ((m * (F + B) + m * (F - B)) / (RtoC 2 * m))%C; [|rewrite E1, E2; field; split; assumption].
    rewrite two_is in *. field. split; assumption.
  - transitivity ((m * (F + B) - m * (F - B)) / (RtoC 2 * m))%C; [|rewrite E1, E2; field; split; assumption].
    rewrite two_is in *. field. split; assumption.
Qed.
Lemma swap_sum n m p q : swap_if n m p q -> sum q = sum p /\ (m * diff q = n * diff p)%C.
Proof. unfold sum, diff. intros [[-> ->]|[-> ->]]; cbn [fst snd]; split; try reflexivity; ring. Qed.
Lemma swap_ex n m p : m = n \/ m = (- n)%C -> exists q, swap_if n m p q.
Proof. intros [H|H]; [exists p; left|exists (snd p, fst p); right]; auto. Qed.

Lemma film_waves om nN : nN <> C0 -> forall (l : list (C * C * R)) (n m : C) (w : nat -> C * C) (t : C),
  let L := (n :: map (fun p => fst (fst p)) l ++ [nN]) in
  (m = n \/ m = (- n)%C) -> n <> C0 ->
  (forall q, In q l -> fst (fst q) <> C0 /\ (snd (fst q) = fst (fst q) \/ snd (fst q) = (- fst (fst q))%C)) ->
  (forall i, (i <= length l)%nat -> sum (at_end om l w i) = sum (w (S i)) /\
     (nth i L C0 * diff (at_end om l w i) = nth (S i) L C0 * diff (w (S i)))%C) ->
  w (S (length l)) = (t, C0) ->
  let '(X, D, P) := film om m (map (fun p => (snd (fst p), snd p)) l) nN in
  exists k fb, swap_if n m (w 0%nat) fb /\ fst fb = (k * D)%C /\ snd fb = (- (k * X))%C /\ (t * nN = k * m * P)%C.
Proof.
  intros HN. pose proof two_nz as H2. induction l as [|[[n1 m1] d1] l IH]; intros n m w t L Hm Hn Hl Hw Ht;
    assert (Hm0 : m <> C0) by (destruct Hm as [->| ->]; [assumption|intros E; apply Hn; replace n with (- - n)%C by ring; rewrite E; ring]).
  - cbn [film map]. destruct (Hw 0%nat ltac:(cbn; lia)) as [E1 E2]. cbn [length] in Ht. rewrite Ht in E1, E2.
    unfold L in E2. cbn [nth map app at_end] in E1, E2.
    destruct (swap_ex n m (w 0%nat) Hm) as [fb S]. destruct (swap_sum _ _ _ _ S) as [S1 S2].
    rewrite <- S1 in E1. rewrite <- S2 in E2. unfold sum, diff in E1, E2. cbn [fst snd] in E1, E2.
    destruct (split_wave m (fst fb) (snd fb) t C0 nN Hm0 E1 E2) as [F B].
    exists (t / (RtoC 2 * m))%C, fb. split; [exact S|]. rewrite F, B. repeat split; field; split; assumption.
  - destruct (Hl (n1, m1, d1) ltac:(left; reflexivity)) as [N1 M1]. cbn [fst snd] in N1, M1.
    pose (w' := fun i => match i with O => at_end om ((n1, m1, d1) :: l) w 1 | S j => w (S (S j)) end).
    specialize (IH n1 m1 w' t M1 N1 (fun q Hq => Hl q (or_intror Hq))).
    assert (A : forall i, at_end om l w' i = at_end om ((n1, m1, d1) :: l) w (S i)) by (intros [|i]; reflexivity).
    cbn [map film fst snd]. destruct (film om m1 (map (fun p : C * C * R => (snd (fst p), snd p)) l) nN) as [[X D] P].
    destruct IH as (k & fb' & S' & EF & EB & ET).
    { intros i Hi. rewrite A. destruct (Hw (S i) ltac:(cbn; lia)) as [E1 E2]. split; [exact E1|exact E2]. }
    { exact Ht. }
    destruct (Hw 0%nat ltac:(cbn; lia)) as [E1 E2]. unfold L in E2. cbn [nth map app at_end fst snd] in E1, E2.
    destruct (swap_ex n m (w 0%nat) Hm) as [fb S]. destruct (swap_sum _ _ _ _ S) as [S1 S2].
    set (d := film_phase om m1 d1). assert (Hd : d <> C0) by apply film_phase_nz.
    assert (S'' : swap_if n1 m1 (w 1%nat) ((fst fb' / d)%C, (snd fb' * d)%C)).
    { pose proof (film_phase_nz om n1 d1) as Hp. unfold d. unfold w' in S'. cbn [at_end nth] in S'.
      destruct (w 1%nat) as [a b]. cbn [fst snd] in S'.
      destruct S' as [[-> ->]|[-> ->]]; [left|right]; (split; [reflexivity|]); cbn [fst snd]; rewrite ?film_phase_opp; f_equal; field; repeat split. all: try assumption. intros E1'; apply (f_equal fst) in E1'; cbn in E1'; lra. }
    destruct (swap_sum _ _ _ _ S'') as [S3 S4].
    rewrite <- S1, <- S3 in E1. rewrite <- S2, <- S4 in E2. unfold sum, diff in E1, E2. cbn [fst snd] in E1, E2.
    rewrite EF, EB in E1, E2.
    destruct (split_wave m (fst fb) (snd fb) _ _ m1 Hm0 E1 E2) as [F B].
    exists (k / (RtoC 2 * m * d))%C, fb. split; [exact S|]. rewrite F, B, ET. repeat split; field; repeat split; assumption.
Qed.
