(** Property theorems C106: the simulation can be run backwards. *)
From Coq Require Import Reals ZArith String List Bool Lra Lia.
From Verif Require Import Base BaseLemmas Model_Units Model_FDTD Model_Register Spec_FDTD Proof_FDTD Proof_Reset Spec_Reverse Proof_Reverse.
Import ListNotations.
Open Scope R_scope.

(** A cavity of 4 x 3 x 1 cells, periodic along y, holding an electric field along z in
    its third slice and a magnetic field along x in its second one; the same cavity with
    an electric field of twice the size. *)
Definition rev_grid (s loss : R) : grid :=
  mkGrid (shape_of 4 3 1) 1 (1 / 2) 1
         (fun p c => match p, c with (2%nat, _, _), AZ => s | _, _ => 0 end)
         (fun p c => match p, c with (1%nat, _, _), AX => 1 | _, _ => 0 end)
         (fun _ _ => loss) (fun _ _ => 1) (fun _ _ => 1) 0 [] [Periodic AY] [] 0 [].
Lemma rev_tidy s l : tidy (rev_grid s l).
Proof.
  split; [repeat constructor|]. split; [intros q F _; split; reflexivity|].
  split; intros [| |] H; cbn in H; try discriminate; intros [[i j] k] c _ Hj; cbn in Hj; subst j; reflexivity.
Qed.
Lemma rev_runs s l n : exists g, run_steps n (rev_grid s l) = Ok g.
Proof. apply run_raises_iff. right. split; [repeat constructor|]. split; [constructor|intros; constructor]. Qed.
Lemma rev_setup s t l : same_setup (rev_grid s l) (rev_grid t l).
Proof. repeat split. Qed.
Lemma rev_differ s t l : s <> t -> ~ same_field (g_N (rev_grid s l)) (g_E (rev_grid t l)) (g_E (rev_grid s l)).
Proof. intros N H. apply N. symmetry. refine (H (2,0,0)%nat AZ _). intros [| |]; cbn; lia. Qed.

Theorem C106_run_back : forall n g g' g'', tidy g ->
  same_field (g_N g) (g_abs g) (fun _ _ => 0) ->
  run_steps n g = Ok g' -> back n (turned g') = Ok g'' ->
  same_field (g_N g) (g_E g'') (g_E g) /\ same_field (g_N g) (g_H g'') (fun p c => - g_H g p c).
Proof. exact run_back. Qed.
Print Assumptions C106_run_back.

Theorem C106_run_back_exists : forall n g g', tidy g ->
  same_field (g_N g) (g_abs g) (fun _ _ => 0) -> g_detectors g = [] ->
  run_steps n g = Ok g' ->
  exists g'', back n (turned g') = Ok g''
    /\ same_field (g_N g) (g_E g'') (g_E g)
    /\ same_field (g_N g) (g_H g'') (fun p c => - g_H g p c).
Proof. exact run_back_exists. Qed.
Print Assumptions C106_run_back_exists.
Example C106_run_back_case : forall n, exists g', tidy (rev_grid 1 0)
  /\ same_field (g_N (rev_grid 1 0)) (g_abs (rev_grid 1 0)) (fun _ _ => 0)
  /\ g_detectors (rev_grid 1 0) = [] /\ run_steps n (rev_grid 1 0) = Ok g'
  /\ exists g'', back n (turned g') = Ok g'' /\ g_E g'' (2,1,0)%nat AZ = 1.
Proof.
  intros n. destruct (rev_runs 1 0 n) as [g' R]. exists g'. split; [apply rev_tidy|]. split; [intros p c _; reflexivity|]. split; [reflexivity|]. split; [exact R|].
  destruct (C106_run_back_exists n (rev_grid 1 0) g' (rev_tidy 1 0) (fun p c _ => eq_refl) eq_refl R) as (g'' & B & E & _).
  exists g''. split; [exact B|]. rewrite E; [reflexivity|]. intros [| |]; cbn; lia.
Qed.

Theorem C106_distinct : forall n g h g' h', tidy g -> tidy h -> same_setup g h ->
  (forall p c, in_grid (g_N g) p -> g_abs g p c <> 1 /\ g_abs g p c <> -1) ->
  run_steps n g = Ok g' -> run_steps n h = Ok h' ->
  same_field (g_N g) (g_E h') (g_E g') -> same_field (g_N g) (g_H h') (g_H g') ->
  same_field (g_N g) (g_E h) (g_E g) /\ same_field (g_N g) (g_H h) (g_H g).
Proof. exact distinct. Qed.
Print Assumptions C106_distinct.
Example C106_distinct_case : forall n, exists g' h',
  tidy (rev_grid 1 (1/2)) /\ tidy (rev_grid 2 (1/2)) /\ same_setup (rev_grid 1 (1/2)) (rev_grid 2 (1/2))
  /\ (forall p c, in_grid (g_N (rev_grid 1 (1/2))) p -> g_abs (rev_grid 1 (1/2)) p c <> 1 /\ g_abs (rev_grid 1 (1/2)) p c <> -1)
  /\ run_steps n (rev_grid 1 (1/2)) = Ok g' /\ run_steps n (rev_grid 2 (1/2)) = Ok h'
  /\ ~ (same_field (g_N (rev_grid 1 (1/2))) (g_E h') (g_E g') /\ same_field (g_N (rev_grid 1 (1/2))) (g_H h') (g_H g')).
Proof.
  intros n. destruct (rev_runs 1 (1/2) n) as [g' R]. destruct (rev_runs 2 (1/2) n) as [h' R']. exists g', h'.
  assert (A : forall p c, in_grid (g_N (rev_grid 1 (1/2))) p -> g_abs (rev_grid 1 (1/2)) p c <> 1 /\ g_abs (rev_grid 1 (1/2)) p c <> -1) by (intros p c _; cbn; split; lra).
  repeat (split; [first [apply rev_tidy|apply rev_setup|exact A|exact R|exact R']|]). intros [E H].
  destruct (C106_distinct n _ _ _ _ (rev_tidy 1 (1/2)) (rev_tidy 2 (1/2)) (rev_setup 1 2 (1/2)) A R R' E H) as [D _].
  revert D. apply rev_differ. lra.
Qed.

Theorem C106_forgets : forall g h g' h', tidy g -> tidy h -> same_setup g h ->
  same_field (g_N g) (g_abs g) (fun _ _ => 1) -> same_field (g_N g) (g_H h) (g_H g) ->
  step g = Ok g' -> step h = Ok h' ->
  same_field (g_N g) (g_E h') (g_E g') /\ same_field (g_N g) (g_H h') (g_H g').
Proof. exact forgets. Qed.
Print Assumptions C106_forgets.
Example C106_forgets_case : exists g' h',
  tidy (rev_grid 1 1) /\ tidy (rev_grid 2 1) /\ same_setup (rev_grid 1 1) (rev_grid 2 1)
  /\ same_field (g_N (rev_grid 1 1)) (g_abs (rev_grid 1 1)) (fun _ _ => 1)
  /\ same_field (g_N (rev_grid 1 1)) (g_H (rev_grid 2 1)) (g_H (rev_grid 1 1))
  /\ step (rev_grid 1 1) = Ok g' /\ step (rev_grid 2 1) = Ok h'
  /\ ~ same_field (g_N (rev_grid 1 1)) (g_E (rev_grid 2 1)) (g_E (rev_grid 1 1)).
Proof.
  destruct (rev_runs 1 1 1) as [g' R]. destruct (rev_runs 2 1 1) as [h' R']. cbn in R, R'.
  do 2 eexists. split; [apply rev_tidy|]. split; [apply rev_tidy|]. split; [apply rev_setup|]. split; [intros p c _; reflexivity|]. split; [intros p c _; reflexivity|].
  split; [reflexivity|]. split; [reflexivity|]. apply rev_differ. lra.
Qed.

Theorem C106_tidy_stays : forall n g g', tidy g -> run_steps n g = Ok g' -> tidy g'.
Proof. exact tidy_run. Qed.
Print Assumptions C106_tidy_stays.
