(** The config a training run leaves behind, and the loop with a fixed config. *)
From Coq Require Import Reals ZArith String List Bool Lra Lia.
From Verif Require Import Base BaseLemmas Cplx PyVal Spec_Config Model_Config Proof_Config Model_Materials Model_EpsGrid Spec_EpsGrid Proof_EpsGrid
  Model_Losses Model_Layout Proof_Spectrum2 Model_Networks Model_Start Proof_Start Model_Training Model_TRCWA Model_Modes Model_Dispatch Spec_Dispatch Proof_Dispatch2 Model_Pipeline.
Import ListNotations.
Open Scope R_scope.
Open Scope string_scope.

Definition keys3 : list string := ["target_frequencies"; "PER_LAYER_THICKNESS"; "FDTD_grid_scaling"].

Definition with_thickness (e : eps_cfg) (T : list R) : eps_cfg :=
  {| e_type := e_type e; e_model_type := e_model_type e; e_Nx := e_Nx e; e_Ny := e_Ny e; e_os := e_os e;
     e_N_layers := e_N_layers e; e_N_freq := e_N_freq e; e_N_materials := e_N_materials e;
     e_target_frequencies := e_target_frequencies e; e_freq_distribution := e_freq_distribution e; e_thickness := T;
     e_rmin := e_rmin e; e_rmax := e_rmax e; e_imin := e_imin e; e_imax := e_imax e;
     e_avoid_zero := e_avoid_zero e; e_add_noise := e_add_noise e; e_noise_scale := e_noise_scale e;
     e_epsilon_matrix := e_epsilon_matrix e |}.

Lemma bind_err {A B} (e : exn) (f : A -> res B) : bind (Err e) f = Err e.
Proof. reflexivity. Qed.

Lemma read_eps_left c c' mats T T' : agree_but keys3 c c' -> lookup c' "target_frequencies" = lookup c "target_frequencies" ->
  get_reals c "PER_LAYER_THICKNESS" = Ok T -> get_reals c' "PER_LAYER_THICKNESS" = Ok T' ->
  read_eps c' mats = let! e := read_eps c mats in Ok (with_thickness e T').
Proof.
  intros A F H H'. unfold read_eps. rewrite H, H'. clear H H'.
  assert (F' : get_reals c' "target_frequencies" = get_reals c "target_frequencies") by (unfold get_reals, getitem; rewrite F; reflexivity).
  rewrite F'. clear F F'.
  assert (G : forall k, ~ In k keys3 -> getitem c' k = getitem c k) by (intros k Hk; unfold getitem; rewrite (A k Hk); reflexivity).
  assert (G1 : forall k, ~ In k keys3 -> get_str c' k = get_str c k) by (intros k Hk; unfold get_str; rewrite (G k Hk); reflexivity).
  assert (G2 : forall k, ~ In k keys3 -> get_nat c' k = get_nat c k) by (intros k Hk; unfold get_nat, get_int; rewrite (G k Hk); reflexivity).
  assert (G3 : forall k, ~ In k keys3 -> get_real c' k = get_real c k) by (intros k Hk; unfold get_real; rewrite (G k Hk); reflexivity).
  rewrite !G1, !G2, !G3, !G by (cbn; intuition discriminate). clear A G G1 G2 G3.
  repeat match goal with
  | |- context [bind ?x _] => destruct x; [cbn [bind]|reflexivity]
  end. reflexivity.
Qed.

(** The coordinates of the layers do not change when equal thicknesses are written out. *)
Lemma list_nth_eq (l l' : list R) : length l = length l' -> (forall k, (k < length l)%nat -> nth k l 0 = nth k l' 0) -> l = l'.
Proof. intros HL H. apply (nth_ext _ _ 0 0 HL H). Qed.

Lemma spread_grid a b N x : 0 < x -> (2 <= N)%nat ->
  get_transformed_grid a b N (repeat x N) = get_transformed_grid a b N [x].
Proof.
  intros Hx HN.
  pose proof (ztick_ok (repeat x N) N ltac:(lia) ltac:(right; apply repeat_length) ltac:(intros y Hy; apply repeat_spec in Hy; subst; exact Hx) a b) as Z1.
  pose proof (ztick_ok [x] N ltac:(lia) ltac:(left; reflexivity) ltac:(intros y [<-|[]]; exact Hx) a b) as Z2.
  destruct (get_transformed_grid a b N (repeat x N)) as [[u v] z] eqn:E1.
  destruct (get_transformed_grid a b N [x]) as [[u' v'] z'] eqn:E2. cbn [snd fst] in *.
  destruct Z1 as [L1 Z1]. destruct Z2 as [L2 Z2].
  assert (z = z').
  { apply list_nth_eq; [congruence|]. intros k Hk. rewrite L1 in Hk. rewrite Z1, Z2 by exact Hk. apply ztick_equal; assumption. }
  unfold get_transformed_grid in E1, E2. injection E1 as <- <- _. injection E2 as <- <- _. subst. reflexivity.
Qed.

Lemma grid_spread e T' m nre nim noise :
  (forall a b, get_transformed_grid a b (e_N_layers e) T' = get_transformed_grid a b (e_N_layers e) (e_thickness e)) ->
  (let! net := with_model (with_thickness e T') m in model_to_eps_grid (with_thickness e T') net nre nim noise)
  = (let! net := with_model e m in model_to_eps_grid e net nre nim noise).
Proof.
  intros H. assert (EV : forall net, eval_model (with_thickness e T') net = eval_model e net).
  { intros net. unfold eval_model. cbn [with_thickness e_model_type e_Nx e_Ny e_os e_N_layers e_thickness e_freq_distribution e_target_frequencies].
    rewrite H. reflexivity. }
  unfold with_model. rewrite EV.
  match goal with |- bind ?x _ = bind ?y _ => change y with x; destruct x as [net|er]; [|reflexivity] end. cbn [bind].
  unfold model_to_eps_grid, classification_grid, regression_grid. rewrite EV. reflexivity.
Qed.

(** * The FDTD solver's changes do not matter to the run *)
Section left.
Variables (c c' : config) (wls : list R) (T : list R).
Hypothesis S0 : solver_is c "FDTD" = true.
Hypothesis P : prepare_fdtd c = Ok (c', wls).
(** the frequencies were already there *)
Hypothesis F : frequency_points c = Ok (c, wls).
Hypothesis HT : get_reals c "PER_LAYER_THICKNESS" = Ok T.
Hypothesis PT : forall x, In x T -> 0 < x.

Lemma left_freqs : lookup c' "target_frequencies" = lookup c "target_frequencies".
Proof.
  unfold prepare_fdtd in P. rewrite F in P. cbn [bind fst snd] in P. apply bind_ok in P as (c2 & H2 & H).
  apply bind_ok in H as (s & _ & H). injection H as <-. rewrite lookup_set. cbn [String.eqb Ascii.eqb Bool.eqb].
  unfold spread_thickness in H2. apply bind_ok in H2 as (v & _ & H2). apply bind_ok in H2 as (n & _ & H2).
  destruct v; try discriminate. injection H2 as <-. destruct (_ && _); [|reflexivity]. rewrite lookup_set. reflexivity.
Qed.

Lemma map_res_repeat (v : pyval) x n : real_item v = Ok x -> map_res real_item (repeat v n) = Ok (repeat x n).
Proof. intros E. induction n as [|n IH]; [reflexivity|]. cbn [repeat map_res]. rewrite E. cbn [bind]. rewrite IH. reflexivity. Qed.

Lemma left_thickness : exists T', get_reals c' "PER_LAYER_THICKNESS" = Ok T'
  /\ forall N, get_nat c "N_layers" = Ok N -> forall a b, get_transformed_grid a b N T' = get_transformed_grid a b N T.
Proof.
  destruct (prepare_inv _ _ _ P) as (_ & (l & n & L1 & L2 & L3) & _).
  unfold get_reals in HT. rewrite (proj2 (getitem_entry _ _ _) L1) in HT. cbn [bind] in HT.
  unfold get_reals. rewrite (proj2 (getitem_entry _ _ _) L3). cbn [bind].
  destruct (Nat.eqb_spec (length l) 1) as [E1|E1]; cbn [andb]; [|exists T; split; [exact HT|reflexivity]].
  destruct (Z.ltb_spec 1 n) as [E2|E2]; [|exists T; split; [exact HT|reflexivity]].
  destruct l as [|v [|]]; try discriminate. cbn [map_res] in HT. apply bind_ok in HT as (x & Ex & H). cbn [bind] in H. injection H as <-.
  assert (E : concat (repeat [v] (Z.to_nat n)) = repeat v (Z.to_nat n)).
  { clear. induction (Z.to_nat n) as [|m IH]; [reflexivity|]. cbn. rewrite IH. reflexivity. }
  rewrite E, (map_res_repeat _ _ _ Ex). exists (repeat x (Z.to_nat n)). split; [reflexivity|].
  intros N HN a b. unfold get_nat in HN. rewrite L2 in HN. cbn [bind] in HN. injection HN as <-.
  apply spread_grid; [apply PT; left; reflexivity|lia].
Qed.

Lemma read_eps_layers mats e : read_eps c mats = Ok e -> get_nat c "N_layers" = Ok (e_N_layers e) /\ get_reals c "PER_LAYER_THICKNESS" = Ok (e_thickness e).
Proof.
  unfold read_eps. intros H.
  repeat match type of H with
  | bind ?x _ = Ok _ => let E := fresh "E" in destruct x eqn:E; [cbn [bind] in H|discriminate H]
  end. injection H as <-. cbn. auto.
Qed.

Lemma grid_left m mats nre nim noise :
  grid_of_run (mkRun c' (Some m) mats) nre nim noise = grid_of_run (mkRun c (Some m) mats) nre nim noise.
Proof.
  destruct (prepare_inv _ _ _ P) as (AG & _ & _). destruct left_thickness as (T' & HT' & HG).
  unfold grid_of_run. cbn [r_model r_cfg r_materials]. rewrite (read_eps_left c c' mats T T' AG left_freqs HT HT').
  destruct (read_eps c mats) as [e|er] eqn:E; [|reflexivity]. cbn [bind].
  destruct (read_eps_layers _ _ E) as [E1 E2]. rewrite HT in E2. injection E2 as E2.
  apply grid_spread. intros a b. rewrite <- E2. apply HG. exact E1.
Qed.

Lemma solver_left name : solver_is c' name = solver_is c name.
Proof. destruct (prepare_inv _ _ _ P) as (AG & _ & _). unfold solver_is. rewrite (AG "solver") by (cbn; intuition discriminate). reflexivity. Qed.

Lemma spectrum_left argsort eig e : compute_spectrum argsort eig e c' false = compute_spectrum argsort eig e c false.
Proof.
  unfold compute_spectrum. rewrite !solver_left, S0. cbn [bind]. destruct (has_nan e); [reflexivity|].
  unfold compute_spectrum_fdtd. rewrite P. destruct (prepare_inv _ _ _ P) as (_ & _ & P'). rewrite P'. reflexivity.
Qed.

Lemma config_left_left : config_left c' = c' /\ config_left c = c'.
Proof.
  unfold config_left. rewrite solver_left, S0. destruct (prepare_inv _ _ _ P) as (_ & _ & P'). rewrite P, P'. split; reflexivity.
Qed.
End left.
