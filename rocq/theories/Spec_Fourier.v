(** Vocabulary of C68. *)
From Coq Require Import Reals ZArith List.
Open Scope R_scope.

(** [P] samples of spacing [dt], transformed, have bins of width 1 / (P dt); [bins]
    of them fit into a band of width [w]. *)
Definition bins_fit (bins : R) (P : Z) (dt w : R) : Prop := bins * (1 / (IZR P * dt)) <= w.
