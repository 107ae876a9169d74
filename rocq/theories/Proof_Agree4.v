(** The comparison at a real frequency. *)
From Coq Require Import Reals ZArith String Lra Lia Psatz.
From mathcomp Require Import all_ssreflect all_algebra.
From Verif Require Import Base PyVal Cplx CplxLemmas CField Model_Lattice Spec_Lattice Model_Stack Model_Modes Model_TRCWA
  Spec_TRCWA Spec_Film Spec_Agree Proof_Agree3.
From Verif Require Model_TMM Spec_TMM.
Import GRing.Theory.
Delimit Scope R_scope with coqR.
Delimit Scope Z_scope with coqZ.
Local Open Scope ring_scope.

Lemma indices_one c ns : tmm_indices c C1 ns = RtoC (sqrt (t_top c)) :: ns ++ [:: RtoC (sqrt (t_bottom c))].
Proof.
  rewrite /tmm_indices. apply: map_id_in => z _. by case: z => a b; apply: injective_projections; rewrite /=; ring.
Qed.
Lemma agree_real argsort arcsin c f films ns pol x r t D :
  sorts argsort -> Spec_TMM.inverts_sine arcsin -> Spec_TMM.principal arcsin ->
  (0 < t_top c)%coqR -> (0 < t_bottom c)%coqR -> (0 < f)%coqR ->
  map (fun n => Cmul n n) ns = map (fun p => eps_C p.2) films ->
  film_stack argsort c (RtoC f) films = Ok x -> RT_Solve true x = Ok (r, t) ->
  Model_TMM.coh_tmm arcsin pol (RtoC (sqrt (t_top c)) :: ns ++ [:: RtoC (sqrt (t_bottom c))]) (tmm_depths (map fst films)) C0 (1 / f)%coqR = Ok D ->
  Spec_TMM.no_opaque_layer D ->
  r = RtoC (Model_TMM.c_R D) /\ t = RtoC (Model_TMM.c_T D).
Proof.
  move=> Hs Hi Hp Ht Hb Hf Hn Hx HRT HD Hop.
  have Hx' : film_stack argsort c (Cmul (RtoC f) C1) films = Ok x.
    by have -> : Cmul (RtoC f) C1 = RtoC f by ring.
  rewrite -indices_one in HD.
  have [-> ->] := agree_films argsort arcsin c f C1 films ns pol x r t D Hs Hi Hp Ht Hb Hf ltac:(rewrite /=; lra) ltac:(rewrite /=; lra) Hn Hx' HRT HD Hop.
  have -> : exp (- (4 * PI * sqrt (t_top c) * f * Im C1))%coqR = 1%coqR.
    have -> : (- (4 * PI * sqrt (t_top c) * f * Im C1) = 0)%coqR by rewrite /=; ring. exact: exp_0.
  by split; congr RtoC; ring.
Qed.
