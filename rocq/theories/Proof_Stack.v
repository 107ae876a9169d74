From Coq Require Import Reals ZArith String List Bool Lia.
From Verif Require Import Base Model_Stack Spec_Stack.
Import ListNotations.
Open Scope nat_scope.

(** The state reached by a history, in closed form. *)
Definition id_of {T E P} (cs : list (layer_call T E P)) (i : nat) (c : layer_call T E P) : list nat :=
  match c with
  | Uniform _ _ => [0; i; count is_uniform cs]
  | Grid _ _ _ => [1; i; count (fun c => negb (is_uniform c)) cs; count is_grid cs]
  | Fourier _ _ => [2; i; count (fun c => negb (is_uniform c)) cs; count is_fourier cs]
  end.

Lemma filter_snoc {A} (f : A -> bool) l x : filter f (l ++ [x]) = filter f l ++ (if f x then [x] else []).
Proof. rewrite filter_app. cbn. destruct (f x); reflexivity. Qed.

Lemma count_snoc {T E P} (f : layer_call T E P -> bool) cs c :
  count f (cs ++ [c]) = count f cs + (if f c then 1 else 0).
Proof. unfold count. rewrite filter_snoc, app_length. destruct (f c); reflexivity. Qed.

Definition eps_of {T E P} (c : layer_call T E P) : list E := match c with Uniform _ e => [e] | _ => [] end.
Definition nxy_of {T E P} (c : layer_call T E P) := match c with Grid _ a b => [(a, b)] | _ => [] end.
Definition par_of {T E P} (c : layer_call T E P) : list P := match c with Fourier _ p => [p] | _ => [] end.

Lemma flat_snoc {A B} (f : A -> list B) l x : flat_map f (l ++ [x]) = flat_map f l ++ f x.
Proof. rewrite flat_map_app. cbn. rewrite app_nil_r. reflexivity. Qed.

Lemma add_layers_snoc {T E P} (cs : list (layer_call T E P)) c s :
  add_layers (cs ++ [c]) s = add_layer c (add_layers cs s).
Proof. unfold add_layers. rewrite fold_left_app. reflexivity. Qed.

Lemma stack_closed {T E P} (cs : list (layer_call T E P)) :
  let s := add_layers cs empty_stack in
  Layer_N s = length cs
  /\ thickness_list s = map call_thickness cs
  /\ length (id_list s) = length cs
  /\ (forall i c, nth_error cs i = Some c -> nth_error (id_list s) i = Some (id_of (firstn i cs) i c))
  /\ Uniform_ep_list s = flat_map eps_of cs /\ Uniform_N s = count is_uniform cs
  /\ Patterned_N s = count (fun c => negb (is_uniform c)) cs
  /\ GridLayer_N s = count is_grid cs /\ GridLayer_Nxy_list s = flat_map nxy_of cs
  /\ FourierLayer_N s = count is_fourier cs /\ FourierLayer_params s = flat_map par_of cs.
Proof.
  induction cs as [|c cs IH] using rev_ind.
  - cbn. repeat split; auto. intros [|i] c H; discriminate.
  - cbn zeta in *. rewrite add_layers_snoc.
    set (s := add_layers cs empty_stack) in *.
    destruct IH as (H1 & H2 & H3 & H4 & H5 & H6 & H7 & H8 & H9 & H10 & H11).
    rewrite !count_snoc, !flat_snoc, map_app, app_length. cbn [length].
    assert (K : forall idx, idx = id_of cs (length cs) c -> forall i c', nth_error (cs ++ [c]) i = Some c' ->
              nth_error (id_list s ++ [idx]) i = Some (id_of (firstn i (cs ++ [c])) i c')).
    { intros idx -> i c' Hi.
      destruct (Nat.lt_ge_cases i (length cs)) as [Hlt|Hge].
      - rewrite nth_error_app1 in Hi by auto. rewrite nth_error_app1 by lia.
        rewrite (H4 i c' Hi). rewrite firstn_app. replace (i - length cs) with 0 by lia.
        cbn [firstn]. rewrite app_nil_r. reflexivity.
      - assert (i = length cs).
        { assert (i < length (cs ++ [c])) by (apply nth_error_Some; congruence).
          rewrite app_length in H; cbn in H; lia. }
        subst i. rewrite nth_error_app2, Nat.sub_diag in Hi by lia. cbn in Hi. injection Hi as <-.
        rewrite nth_error_app2 by lia. rewrite H3, Nat.sub_diag. cbn [nth_error].
        rewrite firstn_app, Nat.sub_diag, firstn_all. cbn [firstn]. rewrite app_nil_r. reflexivity. }
    destruct c as [t e|t nx ny|t p]; cbn [add_layer];
      unfold Add_LayerUniform, Add_LayerGrid, Add_LayerFourier;
      cbn [Layer_N thickness_list id_list Uniform_ep_list Uniform_N Patterned_N GridLayer_N
           GridLayer_Nxy_list FourierLayer_N FourierLayer_params is_uniform is_grid is_fourier negb
           eps_of nxy_of par_of map call_thickness];
      rewrite H1, ?H2, ?H5, ?H6, ?H7, ?H8, ?H9, ?H10, ?H11, ?app_nil_r;
      rewrite app_length; cbn [length];
      repeat (split; [try reflexivity; try lia|]); try reflexivity; try lia;
      try (apply K; cbn [id_of]; reflexivity).
Qed.

Lemma count_firstn_lt {T E P} (f : layer_call T E P -> bool) cs i c :
  nth_error cs i = Some c -> f c = true -> count f (firstn i cs) < count f cs.
Proof.
  revert i. induction cs as [|a cs IH]; intros [|i] H F; try discriminate; cbn in H.
  - injection H as ->. unfold count. cbn. rewrite F. cbn. lia.
  - cbn [firstn]. specialize (IH i H F). unfold count in *. cbn. destruct (f a); cbn; lia.
Qed.

Lemma flat_nth {T E P B} (p : layer_call T E P -> bool) (f : layer_call T E P -> list B) (x : B) cs i c :
  (forall c, length (f c) = if p c then 1 else 0) ->
  nth_error cs i = Some c -> f c = [x] ->
  nth_error (flat_map f cs) (count p (firstn i cs)) = Some x.
Proof.
  intros L. revert i. induction cs as [|a cs IH]; intros [|i] H F; try discriminate; cbn in H.
  - injection H as ->. cbn [firstn]. unfold count; cbn. rewrite F. reflexivity.
  - cbn [firstn flat_map]. specialize (L a) as La. unfold count in *. cbn [filter].
    destruct (p a); cbn [length].
    + destruct (f a) as [|b [|]]; cbn in La; try discriminate. cbn. apply IH; auto.
    + destruct (f a); cbn in La; try discriminate. cbn. apply IH; auto.
Qed.

Lemma layer_bookkeeping {T E P} (cs : list (layer_call T E P)) :
  let s := add_layers cs empty_stack in
  Layer_N s = length cs
  /\ Uniform_N s = count is_uniform cs /\ length (Uniform_ep_list s) = Uniform_N s
  /\ GridLayer_N s = count is_grid cs /\ length (GridLayer_Nxy_list s) = GridLayer_N s
  /\ FourierLayer_N s = count is_fourier cs /\ length (FourierLayer_params s) = FourierLayer_N s
  /\ Patterned_N s = GridLayer_N s + FourierLayer_N s
  /\ length (id_list s) = length cs
  /\ thickness_list s = map call_thickness cs
  /\ (forall i c, nth_error cs i = Some c ->
        exists id, nth_error (id_list s) i = Some id /\ refers s i c id).
Proof.
  destruct (stack_closed cs) as (H1 & H2 & H3 & H4 & H5 & H6 & H7 & H8 & H9 & H10 & H11).
  cbn zeta. set (s := add_layers cs empty_stack) in *.
  assert (LU : forall (cs : list (layer_call T E P)), length (flat_map eps_of cs) = count is_uniform cs).
  { induction cs0 as [|[]]; unfold count in *; cbn; auto. }
  assert (LG : forall (cs : list (layer_call T E P)), length (flat_map nxy_of cs) = count is_grid cs).
  { induction cs0 as [|[]]; unfold count in *; cbn; auto. }
  assert (LF : forall (cs : list (layer_call T E P)), length (flat_map par_of cs) = count is_fourier cs).
  { induction cs0 as [|[]]; unfold count in *; cbn; auto. }
  repeat split; auto.
  - rewrite H5, H6. apply LU.
  - rewrite H8, H9. apply LG.
  - rewrite H10, H11. apply LF.
  - rewrite H7, H8, H10. clear. induction cs as [|[]]; unfold count in *; cbn; auto. rewrite IHcs. lia.
  - intros i c Hi. exists (id_of (firstn i cs) i c). split; [apply H4; auto|].
    destruct c as [t e|t nx ny|t p]; cbn [refers id_of].
    + eexists; split; [reflexivity|]. rewrite H5. eapply flat_nth; [|exact Hi|reflexivity].
      intros []; reflexivity.
    + eexists; eexists; split; [reflexivity|]. split.
      * rewrite H7. eapply count_firstn_lt; [exact Hi|reflexivity].
      * rewrite H9. eapply flat_nth; [|exact Hi|reflexivity]. intros []; reflexivity.
    + eexists; eexists; split; [reflexivity|]. split.
      * rewrite H7. eapply count_firstn_lt; [exact Hi|reflexivity].
      * rewrite H11. eapply flat_nth; [|exact Hi|reflexivity]. intros []; reflexivity.
Qed.

(** Different patterned layers have different pattern numbers. *)
Lemma pattern_numbers_distinct {T E P} (cs : list (layer_call T E P)) i j c d pi pj :
  let s := add_layers cs empty_stack in
  i <> j -> nth_error cs i = Some c -> nth_error cs j = Some d ->
  is_uniform c = false -> is_uniform d = false ->
  (exists k l, nth_error (id_list s) i = Some [k; i; pi; l]) ->
  (exists k l, nth_error (id_list s) j = Some [k; j; pj; l]) -> pi <> pj.
Proof.
  cbn zeta. intros Hij Hi Hj Uc Ud (k & l & Ei) (k' & l' & Ej).
  destruct (stack_closed cs) as (_ & _ & _ & H4 & _). cbn zeta in H4.
  rewrite (H4 i c Hi) in Ei. rewrite (H4 j d Hj) in Ej.
  assert (Pi : pi = count (fun c => negb (is_uniform c)) (firstn i cs)).
  { destruct c; try discriminate; injection Ei; auto. }
  assert (Pj : pj = count (fun c => negb (is_uniform c)) (firstn j cs)).
  { destruct d; try discriminate; injection Ej; auto. }
  assert (K : forall a b x, a < b -> nth_error cs a = Some x -> is_uniform x = false ->
            count (fun c => negb (is_uniform c)) (firstn a cs) < count (fun c => negb (is_uniform c)) (firstn b cs)).
  { intros a b x Hab Hx Ux.
    assert (Ha : firstn a cs = firstn a (firstn b cs)) by (rewrite firstn_firstn; f_equal; lia).
    rewrite Ha. apply (count_firstn_lt _ _ a x); [|rewrite Ux; reflexivity].
    rewrite <- Hx. clear - Hab. revert b cs Hab. induction a; intros [|b] [|y cs] H; try lia; cbn; auto.
    apply IHa; lia. }
  destruct (Nat.lt_gt_cases i j) as [[H|H] _]; auto.
  - specialize (K i j c H Hi Uc). lia.
  - specialize (K j i d H Hj Ud). lia.
Qed.
