(** Rounding to the nearest number of 53 bits (exponents unbounded) *)
From Coq Require Import Reals ZArith List Bool Lra Lia.
From Flocq Require Zaux Raux Generic_fmt FLX Relative.
From Verif Require Import Base BaseLemmas Model_Layout Spec_Layout Spec_Rounding Proof_Torch3.
Import ListNotations.
Open Scope R_scope.

Definition nearest (x : R) : R := Generic_fmt.round Zaux.radix2 (FLX.FLX_exp 53) (Generic_fmt.Znearest (fun z => negb (Z.even z))) x.

Lemma nearest_accurate : accurate (fun x y => nearest (x + y)) (fun x y => nearest (x * y)) (/ 2 ^ 53).
Proof. split; intros x y; apply nearest_error. Qed.

Lemma prec : FLX.Prec_gt_0 53.
Proof. reflexivity. Qed.

Lemma nearest_mono x y : x <= y -> nearest x <= nearest y.
Proof. apply Generic_fmt.round_le; [apply FLX.FLX_exp_valid, prec|apply Generic_fmt.valid_rnd_N]. Qed.
Lemma nearest_twice x : nearest (nearest x) = nearest x.
Proof.
  apply Generic_fmt.round_generic; [apply Generic_fmt.valid_rnd_N|].
  apply Generic_fmt.generic_format_round; [apply FLX.FLX_exp_valid, prec|apply Generic_fmt.valid_rnd_N].
Qed.
Lemma nearest_zero : nearest 0 = 0.
Proof. apply Generic_fmt.round_0, Generic_fmt.valid_rnd_N. Qed.
