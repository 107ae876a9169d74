(** Cases for C109. *)
From Coq Require Import Reals ZArith String List Bool Lra Lia Psatz.
From Verif Require Import Base BaseLemmas PyVal Spec_Config Model_Units Model_Coeffs Model_FDTD Model_Register Spec_FDTD Spec_Register Model_Layout Spec_Layout
  Spec_Harmonic Proof_Harmonic7 Proof_Layout Proof_Spectrum Proof_Causal3 Spec_Cut Proof_Cut.
Import ListNotations.
Open Scope R_scope.

Lemma stack_again : with_thick stack_cfg [1; 1] = stack_cfg /\ with_niter stack_cfg 400 = stack_cfg.
Proof. split; reflexivity. Qed.
(** The second layer of the stack in two parts. *)
Lemma cut_case : one_wavelength (with_thick stack_cfg [1; 3 / 10; 7 / 10]) (1 / 1000000) [[[(4, 0); (2, 1 / 10); (2, 1 / 10)]]] = one_wavelength stack_cfg (1 / 1000000) stack_slice.
Proof.
  destruct stack_facts as (P & KN & US & _).
  assert (E : with_thick stack_cfg ([1] ++ (3 / 10 + 7 / 10) :: []) = stack_cfg).
  { unfold with_thick, stack_cfg. cbn [app f_scaling f_pml f_free f_det f_src_x f_src_y f_pulse f_source f_niter f_min_gp]. do 2 f_equal. f_equal. lra. }
  pose proof (entry_cut stack_cfg [1] [] (3 / 10) (7 / 10) (1 / 1000000) [(4, 0)] [] (2, 1 / 10)) as H. cbv zeta in H. rewrite E in H. apply H; try assumption; try reflexivity; try lra.
  - cbn. lra.
  - unfold UNIT_MAGNITUDE. cbn. lra.
  - exists (4, 0). cbn. split; [auto|lra].
Qed.
Ltac col' := apply column_at, Rfloor_unique; cbn [with_thick f_scaling f_pml f_free f_thick stack_cfg Rsum fold_right firstn Z.of_nat Pos.of_succ_nat Pos.succ]; unfold Rsum; cbn [fold_right]; lra.
(** A boundary moved by a tenth of a cell. *)
Lemma moved_facts : proper (with_thick stack_cfg [101 / 100; 1]) /\ columns (with_thick stack_cfg [101 / 100; 1]) = 70%nat
  /\ edge (with_thick stack_cfg [101 / 100; 1]) 0 = 25%nat /\ edge (with_thick stack_cfg [101 / 100; 1]) 1 = 35%nat /\ edge (with_thick stack_cfg [101 / 100; 1]) 2 = 45%nat.
Proof.
  split; [split; cbn; try lra; try lia; repeat (constructor; [lra|]); constructor|]. split; [unfold columns; col'|].
  split; [|split]; unfold edge, layer_begin; col'.
Qed.
Lemma moved_case : one_wavelength (with_thick stack_cfg [101 / 100; 1]) (1 / 1000000) stack_slice = one_wavelength stack_cfg (1 / 1000000) stack_slice.
Proof.
  destruct stack_facts as (P & KN & US & C & _ & E0 & E2 & _). pose proof stack_edge as E1. destruct moved_facts as (P' & C' & E0' & E1' & E2').
  symmetry. apply (entry_edges stack_cfg [1; 1] [101 / 100; 1] (1 / 1000000) stack_slice [[(4, 0); (2, 1 / 10)]] [(4, 0); (2, 1 / 10)]); try assumption; try reflexivity; try discriminate.
  - cbn. lra.
  - unfold UNIT_MAGNITUDE. cbn. lra.
  - exists (4, 0). cbn. split; [auto|lra].
  - rewrite C'. exact C.
  - change (with_thick stack_cfg [1; 1]) with stack_cfg. intros [|[|[|j]]] Hj; [congruence|congruence|congruence|cbn in Hj; lia].
Qed.
(** The stack run for 300 and for 400 steps. *)
Lemma longer_case : exists t r t' r', simulate (with_niter stack_cfg 300) (Some stack_slice) (1 / 1000000) = Ok (t, r) /\ simulate stack_cfg (Some stack_slice) (1 / 1000000) = Ok (t', r')
  /\ length t = 300%nat /\ length t' = 400%nat /\ t = firstn 300 t' /\ r = firstn 300 r'.
Proof.
  destruct stack_facts as (P & KN & US & _).
  assert (OK : forall n, exists t r, simulate (with_niter stack_cfg n) (Some stack_slice) (1 / 1000000) = Ok (t, r) /\ length t = Z.to_nat n).
  { intros n. destruct (simulate_ok (with_niter stack_cfg n) (Some stack_slice) (1 / 1000000)) as (t & r & S & L & _).
    - destruct P; constructor; assumption. - cbn. lra. - exact KN. - exact US. - unfold UNIT_MAGNITUDE. cbn. lra.
    - right. exists stack_slice, [[(4, 0); (2, 1 / 10)]], [(4, 0); (2, 1 / 10)]. repeat split; try discriminate. cbn. lia.
    - exists t, r. split; [exact S|exact L]. }
  destruct (OK 300%Z) as (t & r & S & L). destruct (OK 400%Z) as (t' & r' & S' & L'). exists t, r, t', r'.
  split; [exact S|]. split; [exact S'|]. split; [exact L|]. split; [exact L'|].
  change 300%nat with (Z.to_nat 300). apply (signals_longer stack_cfg (Some stack_slice) (1 / 1000000) 300 400); try assumption; try lia; try lra.
  - cbn. lra.
  - right. exists stack_slice, [[(4, 0); (2, 1 / 10)]], [(4, 0); (2, 1 / 10)]. repeat split.
Qed.
(** Two wavelengths. *)
Lemma spectrum_case : spectra (with_thick stack_cfg [1; 3 / 10; 7 / 10]) [1 / 1000000; 2 / 1000000] 0 [[[[(4, 0); (2, 1 / 10); (2, 1 / 10)]]]; [[[(3, 0); (5, 0); (5, 0)]]]]
  = spectra stack_cfg [1 / 1000000; 2 / 1000000] 0 [stack_slice; [[[(3, 0); (5, 0)]]]].
Proof.
  destruct stack_facts as (P & KN & US & _).
  assert (E : with_thick stack_cfg ([1] ++ (3 / 10 + 7 / 10) :: []) = stack_cfg).
  { unfold with_thick, stack_cfg. cbn [app f_scaling f_pml f_free f_det f_src_x f_src_y f_pulse f_source f_niter f_min_gp]. do 2 f_equal. f_equal. lra. }
  pose proof (spectra_cut stack_cfg [1] [] (3 / 10) (7 / 10) [1 / 1000000; 2 / 1000000] [([(4, 0)], (2, 1 / 10), []); ([(3, 0)], (5, 0), [])]) as H. cbv zeta in H. rewrite E in H.
  apply H; try assumption; try lra.
  - cbn. lra.
  - intros wl [<-|[<-|[]]]; unfold UNIT_MAGNITUDE; cbn; lra.
  - intros es1 e es2 [X|[X|[]]]; injection X as <- <- <-; (split; [reflexivity|]; split; [cbn; lia|]).
    + exists (4, 0). cbn. split; [auto|lra].
    + exists (3, 0). cbn. split; [auto|lra].
Qed.
(** A last layer of vacuum, given and not given; the other slice has a second cell. *)
Lemma entry_case : one_wavelength stack_cfg (1 / 1000000) [[[(4, 0); (1, 0)]]] = one_wavelength stack_cfg (1 / 1000000) [[[(4, 0)]; [(9, 2)]]].
Proof.
  destruct stack_facts as (P & KN & US & C & _ & E0 & E2 & _). pose proof stack_edge as E1.
  apply (entry_columns stack_cfg [1; 1] [1; 1] (1 / 1000000) [[[(4, 0); (1, 0)]]] [[[(4, 0)]; [(9, 2)]]] [[(4, 0); (1, 0)]] [[(4, 0)]; [(9, 2)]] [(4, 0); (1, 0)] [(4, 0)]); try assumption; try reflexivity; try discriminate.
  - cbn. lra.
  - unfold UNIT_MAGNITUDE. cbn. lra.
  - split; reflexivity.
  - cbn. lia.
  - exists (4, 0). cbn. split; [auto|lra].
  - exists (4, 0). cbn. split; [auto|lra].
  - change (with_thick stack_cfg [1; 1]) with stack_cfg. intros x e _ [(j & J & L & <-)|[O ->]].
    + destruct j as [|[|j]]; [left; exists 0%nat; cbn in *; auto|right; split; [right; cbn [length]; lia|reflexivity]|cbn in J; lia].
    + right. split; [|reflexivity]. cbn [length] in *. rewrite E0, E1, E2 in *. lia.
Qed.
