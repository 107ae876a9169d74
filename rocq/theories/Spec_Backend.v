(** Vocabulary for C58. *)
From Coq Require Import String Ascii List.
From Verif Require Import Model_Backend.
Open Scope string_scope.

Definition dotless (s : string) : Prop := ~ exists a b, s = a ++ "." ++ b.

(** What a name asks for: a class and a float type.  [names_backend name c dtype] *)
Inductive names_backend : string -> backend_class -> string -> Prop :=
| nb_torch : names_backend "torch" TorchBackend "float64"
| nb_cuda : names_backend "torch.cuda" TorchCudaBackend "float64"
| nb_torch_type d : dotless d -> d <> "cuda" -> names_backend ("torch." ++ d) TorchBackend d
| nb_cpu_type d : dotless d -> names_backend ("torch.cpu." ++ d) TorchBackend d
| nb_cuda_type d : dotless d -> names_backend ("torch.cuda." ++ d) TorchCudaBackend d.

Definition begins_with (p s : string) : Prop := exists r, s = p ++ r.
