(** The value a current detector records. *)
From Coq Require Import Reals ZArith String List Bool Lra Lia Psatz.
From Verif Require Import Base BaseLemmas Model_FDTD Model_Register Spec_FDTD Spec_Emission Proof_FDTD Proof_Signal Proof_Cavity.
Import ListNotations.
Open Scope R_scope.

Lemma resolve_prev n i : (i < n)%nat -> resolve n (Z.of_nat i - 1) = Ok (if (i =? 0)%nat then n - 1 else i - 1)%nat.
Proof.
  intros H. destruct (Nat.eqb_spec i 0) as [->|Hi].
  - unfold resolve. cbn [Z.of_nat]. replace ((0 <=? 0 - 1) && _)%Z%bool with false by reflexivity.
    replace ((- Z.of_nat n <=? 0 - 1) && (0 - 1 <? 0))%Z%bool with true.
    + f_equal. lia.
    + symmetry. apply andb_true_iff. split; [apply Z.leb_le; lia|reflexivity].
  - replace (Z.of_nat i - 1)%Z with (Z.of_nat (i - 1)) by lia. apply resolve_nat. lia.
Qed.

Lemma current_value N dx H i j k : in_grid N (i, j, k) ->
  point_current N dx H (Z.of_nat i, Z.of_nat j, Z.of_nat k)
  = Ok ((circulation N dx H (i, j, k) + circulation N dx H (before N AZ (i, j, k))) / 2
        + dx * (H (i, j, k) AY - H (before N AX (i, j, k)) AY) / 2).
Proof.
  intros G. pose proof (G AX) as Gx. pose proof (G AY) as Gy. pose proof (G AZ) as Gz. cbn [coord] in *.
  unfold point_current, resolve3. rewrite !resolve_prev, !resolve_nat by assumption. cbn [bind].
  unfold circulation, before. cbn [coord setc].
  set (k1 := if (k =? 0)%nat then (N AZ - 1)%nat else (k - 1)%nat). clearbody k1.
  set (i1 := if (i =? 0)%nat then (N AX - 1)%nat else (i - 1)%nat). clearbody i1.
  set (j1 := if (j =? 0)%nat then (N AY - 1)%nat else (j - 1)%nat). clearbody j1.
  f_equal. field.
Qed.

(** The mean of the two circulations is recorded only when the extra term
    vanishes. *)
Lemma current_not_mean : exists N dx H p, in_grid N p /\ dx > 0
  /\ point_current N dx H (Z.of_nat (coord AX p), Z.of_nat (coord AY p), Z.of_nat (coord AZ p))
     <> Ok ((circulation N dx H p + circulation N dx H (before N AZ p)) / 2).
Proof.
  exists (shape_of 2 2 2), 1, (fun p c => match p, c with (1%nat, 1%nat, 1%nat), AY => 1 | _, _ => 0 end), (1, 1, 1)%nat.
  split; [intros [| |]; cbn; lia|]. split; [lra|].
  cbn [coord]. rewrite (current_value (shape_of 2 2 2) 1 _ 1 1 1) by (intros [| |]; cbn; lia).
  intros K. injection K as K. cbn in K. lra.
Qed.
