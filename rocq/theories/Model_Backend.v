(** nidn/fdtd/backend.py: the choice of the backend.

    Simplifications: torch is installed; the methods of the two classes are not
    modelled, and the float type is represented by the name it is looked up under
    in the torch module.  Which names the torch module has is an argument, and so
    is whether a GPU is available. *)
From Coq Require Import String Ascii List Bool Arith.
From Verif Require Import Base.
Import ListNotations.
Open Scope string_scope.

(** backend.py 70-216: the classes; the second one exists with a GPU only. *)
Inductive backend_class := TorchBackend | TorchCudaBackend.

(** backend.py 221: the class of the one backend object, and its attribute [float]
    (None while it has none of its own and shows that of the class). *)
Record backend := mkBackend { b_class : backend_class; b_float : option string }.

(** The exceptions of set_backend; NameError would be an undefined class. *)
Inductive backend_exn := BRuntimeError | BValueError | BAttributeError | BNameError.

(** [name.count(".")] *)
Fixpoint count_dots (s : string) : nat :=
  match s with
  | EmptyString => 0
  | String c r => if Ascii.eqb c "." then S (count_dots r) else count_dots r
  end.

(** [name.split(".")] *)
Fixpoint split_dots (s : string) : list string :=
  match s with
  | EmptyString => [""]
  | String c r =>
      if Ascii.eqb c "." then "" :: split_dots r
      else match split_dots r with
           | w :: ws => String c w :: ws
           | [] => [String c ""]
           end
  end.

(** backend.py 257-267: name, dtype and device *)
Definition parse_backend (name : string) : option (string * string * string) :=
  match count_dots name, split_dots name with
  | 0, _ => Some (name, "float64", "cpu")
  | 1, [n; dtype] => if String.eqb dtype "cuda" then Some (n, "float64", "cuda") else Some (n, dtype, "cpu")
  | 2, [n; device; dtype] => Some (n, dtype, device)
  | _, _ => None
  end.

(** [getattr(torch, dtype)] after the class has been replaced *)
Definition set_float (torch_has : string -> bool) (c : backend_class) (dtype : string) (b : backend)
    : backend * option backend_exn :=
  if torch_has dtype then (mkBackend c (Some dtype), None) else (mkBackend c (b_float b), Some BAttributeError).

(** backend.py 225-278 [set_backend]: the state afterwards and the exception, if any *)
Definition set_backend (cuda : bool) (torch_has : string -> bool) (name : string) (b : backend)
    : backend * option backend_exn :=
  if prefix "torch.cuda" name && negb cuda then (b, Some BRuntimeError) else
  match parse_backend name with
  | None => (b, Some BValueError)
  | Some (n, dtype, device) =>
      if String.eqb n "torch" then
        if String.eqb device "cpu" then set_float torch_has TorchBackend dtype b
        else if String.eqb device "cuda" then
          if cuda then set_float torch_has TorchCudaBackend dtype b else (b, Some BNameError)
        else (b, Some BValueError)
      else (b, Some BValueError)
  end.

(** A session: any number of calls, exceptions caught. *)
Definition set_backends (cuda : bool) (torch_has : string -> bool) (names : list string) (b : backend) : backend :=
  fold_left (fun b name => fst (set_backend cuda torch_has name b)) names b.
