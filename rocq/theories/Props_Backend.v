(** Property theorems C58: set_backend.  [names_backend], [dotless] and
    [begins_with] are defined in Spec_Backend.v. *)
From Coq Require Import String Ascii List Bool.
From Verif Require Import Base Model_Backend Spec_Backend Proof_Backend.
Import ListNotations.
Open Scope string_scope.

(** A call succeeds exactly for these names, with the class and type named. *)
Theorem C58_accepts : forall cuda has name b b',
  set_backend cuda has name b = (b', None) <->
  exists c d, names_backend name c d /\ has d = true /\ (begins_with "torch.cuda" name -> cuda = true)
    /\ b' = mkBackend c (Some d).
Proof. exact backend_accepts. Qed.
Print Assumptions C58_accepts.
Theorem C58_documented : forall cuda has d b,
  has "float16" = true -> has "float32" = true -> has "float64" = true ->
  In d ["float16"; "float32"; "float64"] ->
  set_backend cuda has "torch" b = (mkBackend TorchBackend (Some "float64"), None)
  /\ set_backend cuda has ("torch." ++ d) b = (mkBackend TorchBackend (Some d), None)
  /\ (cuda = true -> set_backend cuda has "torch.cuda" b = (mkBackend TorchCudaBackend (Some "float64"), None)
        /\ set_backend cuda has ("torch.cuda." ++ d) b = (mkBackend TorchCudaBackend (Some d), None)).
Proof. exact backend_documented. Qed.
Print Assumptions C58_documented.
(** The second part of a name may be anything that torch has, e.g. "torch.zeros". *)
Theorem C58_any_attribute : forall cuda has d b,
  has d = true -> dotless d -> ~ begins_with "cuda" d ->
  set_backend cuda has ("torch." ++ d) b = (mkBackend TorchBackend (Some d), None).
Proof. exact backend_any_attribute. Qed.
Print Assumptions C58_any_attribute.
(** The exceptions (ValueError for all other names, as NameError never occurs). *)
Theorem C58_no_gpu : forall cuda has name b,
  snd (set_backend cuda has name b) = Some BRuntimeError <-> begins_with "torch.cuda" name /\ cuda = false.
Proof. exact backend_no_gpu. Qed.
Print Assumptions C58_no_gpu.
Theorem C58_unknown_type : forall cuda has name b,
  snd (set_backend cuda has name b) = Some BAttributeError <->
  exists c d, names_backend name c d /\ has d = false /\ (begins_with "torch.cuda" name -> cuda = true).
Proof. exact backend_unknown_type. Qed.
Print Assumptions C58_unknown_type.
Theorem C58_no_nameerror : forall cuda has name b,
  snd (set_backend cuda has name b) <> Some BNameError.
Proof. exact backend_no_nameerror. Qed.
Print Assumptions C58_no_nameerror.
(** A failed call changes nothing ... *)
Theorem C58_unchanged : forall cuda has name b b' e,
  set_backend cuda has name b = (b', Some e) -> e <> BAttributeError -> b' = b.
Proof. exact backend_unchanged. Qed.
Print Assumptions C58_unchanged.
(** ... except that an unknown type is noticed after the class is replaced. *)
Theorem C58_half_changed : forall cuda has name b b' c d,
  set_backend cuda has name b = (b', Some BAttributeError) -> names_backend name c d -> b' = mkBackend c (b_float b).
Proof. exact backend_half_changed. Qed.
Print Assumptions C58_half_changed.
Theorem C58_unchanged_refuted : exists has name b b' e,
  set_backend true has name b = (b', Some e) /\ b' <> b.
Proof. exact backend_unchanged_refuted. Qed.
Print Assumptions C58_unchanged_refuted.
(** In a session only the last successful call matters; no GPU, no cuda class. *)
Theorem C58_last : forall cuda has names name c d b,
  names_backend name c d -> has d = true -> (begins_with "torch.cuda" name -> cuda = true) ->
  set_backends cuda has (names ++ [name]) b = mkBackend c (Some d).
Proof. exact backend_last. Qed.
Print Assumptions C58_last.
Theorem C58_cpu : forall has names b,
  b_class b = TorchBackend -> b_class (set_backends false has names b) = TorchBackend.
Proof. exact backend_cpu. Qed.
Print Assumptions C58_cpu.

Example C58_case : names_backend "torch.cuda.float32" TorchCudaBackend "float32"
  /\ names_backend "torch.float16" TorchBackend "float16".
Proof.
  split.
  - refine (nb_cuda_type "float32" _). apply no_dots. reflexivity.
  - refine (nb_torch_type "float16" _ _); [apply no_dots; reflexivity|discriminate].
Qed.
Example C58_case_rejected cuda has b :
  snd (set_backend cuda has "numpy" b) = Some BValueError /\ snd (set_backend cuda has "torch.tpu.float32" b) = Some BValueError
  /\ snd (set_backend false has "torch.cudafloat" b) = Some BRuntimeError.
Proof. destruct cuda; auto. Qed.
