(** Property theorems C74: soft sources. *)
From Coq Require Import Reals ZArith String List Bool Lra Lia.
From Verif Require Import Base BaseLemmas Model_FDTD Model_Register Model_Soft Spec_FDTD Spec_Soft Proof_Steps Proof_Soft.
Import ListNotations.
Open Scope R_scope.

(** An unnamed source on a single cell is placed together with a current detector on that cell. *)
Theorem C74_placed : forall key x y z wave imp sg i j k,
  pad_key key = Ok (x, y, z) ->
  handle_key (g_spacing (sg_grid sg)) x = HList [i] -> handle_key (g_spacing (sg_grid sg)) y = HList [j] ->
  handle_key (g_spacing (sg_grid sg)) z = HList [k] ->
  set_soft key wave None imp sg
  = (mkSG (add_detector_ (CurrentDetector [(i, j, k)] []) (sg_grid sg))
          (sg_soft sg ++ [mkSoft wave imp (Some (i, j, k)) (Some (length (g_detectors (sg_grid sg)))) [] []]), None).
Proof. exact soft_placed. Qed.
Print Assumptions C74_placed.
Theorem C74_not_a_cell : forall key x y z wave imp sg,
  pad_key key = Ok (x, y, z) ->
  (forall i j k, (handle_key (g_spacing (sg_grid sg)) x, handle_key (g_spacing (sg_grid sg)) y,
                  handle_key (g_spacing (sg_grid sg)) z) <> (HList [i], HList [j], HList [k])) ->
  snd (set_soft key wave None imp sg) = Some ValueError.
Proof. exact soft_elsewhere. Qed.
Print Assumptions C74_not_a_cell.
(** No source with a name can be placed. *)
Theorem C74_named : forall key wave n imp sg,
  exists sg' e, set_soft key wave (Some n) imp sg = (sg', Some e)
  /\ (e = KeyError \/ e = ValueError \/ e = UnboundLocalError).
Proof. exact soft_named. Qed.
Print Assumptions C74_named.
Theorem C74_named_cell : forall key x y z wave n imp sg i j k,
  pad_key key = Ok (x, y, z) ->
  handle_key (g_spacing (sg_grid sg)) x = HList [i] -> handle_key (g_spacing (sg_grid sg)) y = HList [j] ->
  handle_key (g_spacing (sg_grid sg)) z = HList [k] ->
  has_attr (sg_grid sg) n = false ->
  exists g', claim_name (Some n) (sg_grid sg) = Ok g' /\
  set_soft key wave (Some n) imp sg
  = (mkSG g' (sg_soft sg ++ [mkSoft wave imp (Some (i, j, k)) None [] []]), Some UnboundLocalError).
Proof. exact soft_named_cell. Qed.
Print Assumptions C74_named_cell.
(** What a step does: the ordinary step, with the voltage over the grid spacing added to E_z. *)
Theorem C74_emits : forall sg sg',
  step_soft sg = Ok sg' -> exists g1, step (sg_grid sg) = Ok g1
  /\ forall p c, g_E (sg_grid sg') p c
     = g_E g1 p c + (if axis_eqb c AZ then Rsum (map (contribution (sg_grid sg) p) (sg_soft sg')) else 0).
Proof. exact soft_emits. Qed.
Print Assumptions C74_emits.
Theorem C74_voltages : forall sg sg',
  step_soft sg = Ok sg' ->
  Forall2 (fun s s' => same_soft s s' /\ exists current,
    (g_steps (sg_grid sg) = 0%nat -> current = 0)
    /\ ((0 < g_steps (sg_grid sg))%nat -> last_reading (sg_grid sg) s current)
    /\ so_in s' = so_in s ++ [voltage_at (so_wave s) (g_steps (sg_grid sg))]
    /\ so_out s' = so_out s ++ [voltage_at (so_wave s) (g_steps (sg_grid sg))
                                + (if Rltb 0 (so_impedance s) then so_impedance s * current else 0)])
  (sg_soft sg) (sg_soft sg').
Proof. exact soft_voltages. Qed.
Print Assumptions C74_voltages.
Theorem C74_inputs : forall n,
  forall sg sg', run_soft n sg = Ok sg' ->
  Forall2 (fun s s' => same_soft s s' /\ so_in s' = so_in s ++ map (voltage_at (so_wave s)) (seq (g_steps (sg_grid sg)) n))
  (sg_soft sg) (sg_soft sg').
Proof. exact run_soft_inputs. Qed.
Print Assumptions C74_inputs.
Theorem C74_history : forall key wave imp sg sg1 n sg2,
  set_soft key wave None imp sg = (sg1, None) ->
  g_steps (sg_grid sg) = 0%nat -> run_soft n sg1 = Ok sg2 ->
  exists s cell Is, nth_error (sg_soft sg2) (length (sg_soft sg)) = Some s
  /\ so_cell s = Some cell /\ so_wave s = wave /\ so_impedance s = imp
  /\ nth_error (g_detectors (sg_grid sg2)) (length (g_detectors (sg_grid sg))) = Some (CurrentDetector [cell] (map (fun i => [i]) Is))
  /\ length Is = n /\ so_in s = map (voltage_at wave) (seq 0 n)
  /\ voltages_follow imp (so_in s) (so_out s) Is
  /\ (forall k sk, (k < n)%nat -> run_soft (S k) sg1 = Ok sk ->
        point_current (g_N (sg_grid sg1)) (g_spacing (sg_grid sg1)) (g_H (sg_grid sk)) cell = Ok (nth k Is 0)).
Proof. exact soft_history_placed. Qed.
Print Assumptions C74_history.
Theorem C74_quiet : forall sg sg',
  step_soft sg = Ok sg' ->
  Forall (fun s => so_impedance s <= 0 /\ voltage_at (so_wave s) (g_steps (sg_grid sg)) = 0) (sg_soft sg) ->
  step (sg_grid sg) = Ok (sg_grid sg').
Proof. exact soft_quiet. Qed.
Print Assumptions C74_quiet.
(** A source placed at time 0 does not keep the grid from running. *)
Theorem C74_works : forall key wave imp sg sg1 x y z n,
  set_soft key wave None imp sg = (sg1, None) -> sg_soft sg = [] ->
  g_steps (sg_grid sg) = 0%nat -> map so_cell (sg_soft sg1) = [Some (x, y, z)] ->
  (0 <= x < Z.of_nat (g_N (sg_grid sg) AX))%Z -> (0 <= y < Z.of_nat (g_N (sg_grid sg) AY))%Z ->
  (0 <= z < Z.of_nat (g_N (sg_grid sg) AZ))%Z ->
  is_ok (run_steps n (sg_grid sg)) = true -> exists sg2, run_soft n sg1 = Ok sg2.
Proof. exact soft_works. Qed.
Print Assumptions C74_works.
(** Where steps raise although the rest of the grid is in order. *)
Theorem C74_late : forall sg key wave imp sg1,
  set_soft key wave None imp sg = (sg1, None) -> sg_soft sg = [] ->
  is_ok (step (sg_grid sg1)) = true -> (0 < g_steps (sg_grid sg))%nat ->
  step_soft sg1 = Err IndexError.
Proof. exact soft_late. Qed.
Print Assumptions C74_late.
Theorem C74_orphan : forall sg s,
  sg_soft sg = [s] -> so_det s = None -> is_ok (step (sg_grid sg)) = true ->
  (0 < g_steps (sg_grid sg))%nat -> step_soft sg = Err AttributeError.
Proof. exact soft_orphan. Qed.
Print Assumptions C74_orphan.
Theorem C74_unplaced : forall sg s,
  sg_soft sg = [s] -> so_det s = None -> so_cell s = None -> is_ok (step (sg_grid sg)) = true ->
  step_soft sg = Err AttributeError.
Proof. exact soft_unplaced. Qed.
Print Assumptions C74_unplaced.
(** A reset clears the fields and starts the waveforms anew; sources and recorded
    voltages stay. *)
Theorem C74_reset : forall sg,
  g_steps (sg_grid (reset_soft sg)) = 0%nat /\ sg_soft (reset_soft sg) = sg_soft sg
  /\ forall p c, g_E (sg_grid (reset_soft sg)) p c = 0 /\ g_H (sg_grid (reset_soft sg)) p c = 0.
Proof. exact reset_clears. Qed.
Print Assumptions C74_reset.
Theorem C74_reset_inputs : forall sg n sg1 m sg2,
  run_soft n sg = Ok sg1 -> run_soft m (reset_soft sg1) = Ok sg2 ->
  Forall2 (fun s s' => same_soft s s' /\ so_in s' = so_in s ++ map (voltage_at (so_wave s)) (seq (g_steps (sg_grid sg)) n ++ seq 0 m))
  (sg_soft sg) (sg_soft sg2).
Proof. exact reset_inputs. Qed.
Print Assumptions C74_reset_inputs.

Definition small : grid :=
  mkGrid (fun _ => 2%nat) 1 (1 / 2) 1 zero_field zero_field zero_field (fun _ _ => 1) (fun _ _ => 1) 0 [] [] [] 0 [].
Definition on_cell : list pykey := [KNum (PInt 1); KNum (PInt 0); KNum (PInt 1)].
Definition placed : sgrid := fst (set_soft on_cell [3; 5] None 2 (mkSG small [])).
Example C74_case : set_soft on_cell [3; 5] None 2 (mkSG small []) = (placed, None)
  /\ (exists sg, run_soft 7 placed = Ok sg) /\ is_ok (step (sg_grid placed)) = true.
Proof.
  assert (A : set_soft on_cell [3; 5] None 2 (mkSG small []) = (placed, None)) by reflexivity. split; [exact A|]. split.
  - apply (soft_works on_cell [3; 5] 2 (mkSG small []) placed 1 0 1 7 A); try reflexivity; try (cbn; lia).
  - rewrite step_ok. reflexivity.
Qed.
(** The first step puts 3 volts on the cell. *)
Example C74_first : forall sg, step_soft placed = Ok sg -> g_E (sg_grid sg) (1, 0, 1)%nat AZ = 3.
Proof.
  intros sg E. destruct (soft_emits _ _ E) as (g1 & St & Em). rewrite Em. cbn [axis_eqb].
  assert (Z : g_E g1 (1, 0, 1)%nat AZ = 0).
  { rewrite (step_E_after _ _ St). unfold E_after. cbn. unfold bulk_E, curl_H. cbn. unfold dbwd, zero_field. cbn. field. }
  rewrite Z. pose proof (soft_voltages _ _ E) as V. unfold placed in V. cbn [sg_soft fst set_soft on_cell] in V.
  inversion V as [|s s' l l' (Sm & cur & C0 & _ & _ & O) V' E1 E2]. inversion V'; subst.
  cbn [map Rsum fold_right]. destruct Sm as (_ & _ & Sc & _). unfold contribution, sits_at. rewrite Sc, O, (C0 eq_refl).
  cbn. change (Pos.to_nat 1 =? 1)%nat with true. cbn [andb]. destruct (Rltb 0 2); lra.
Qed.
Example C74_named_fails :
  snd (set_soft on_cell [3; 5] (Some "feed"%string) 2 (mkSG small [])) = Some UnboundLocalError
  /\ snd (set_soft [KNum (PInt 1)] [3; 5] None 2 (mkSG small [])) = Some ValueError.
Proof. split; reflexivity. Qed.
