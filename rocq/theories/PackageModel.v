(** Model of licant/__init__.py beyond the scripts: the names that the package provides, the
    store of attributes and functions, and [system]. *)
From Verif Require Import PyBase.
From Coq Require Import ZArith.
Local Open Scope string_scope.
Local Open Scope list_scope.

(** Names bound by the statements of __init__.py:1-77 (and __all__ itself, 80). *)
Definition licant_names : list string :=
  ["subprocess"; "os"; "ex"; "Core"; "Target"; "UpdatableTarget"; "default_core"; "routine"; "do"; "get_target";
   "copy"; "fileset"; "Executor"; "makefile"; "source"; "makedir"; "MakeCore"; "DirectoryTarget"; "FileTarget";
   "objcopy"; "cxx_application"; "cxx_shared_library"; "cxx_static_library"; "cxx_static_and_shared"; "cxx_library";
   "cxx_objects"; "module"; "implementation"; "submodule"; "module_defimpl"; "module_default_implementation"; "error";
   "gcc_toolchain"; "clang_toolchain"; "licant"; "include"; "__version__"; "directory"; "execute"; "execute_recursive";
   "about"; "Object"; "glbfunc"; "attribute_store"; "global_function"; "import_attribute"; "attribute"; "system"; "mtime"; "__all__"].
(** The modules of the package (files of licant/).  [from licant import *] imports those that
    are named in __all__ and are no attributes yet. *)
Definition licant_modules : list string :=
  ["cache"; "cli"; "core"; "cxx_make"; "cxx_modules"; "install"; "java_make"; "libs"; "licant_libs"; "make"; "modules";
   "scripter"; "solver"; "util"].
(** __init__.py:80-117 *)
Definition licant_all : list string :=
  ["include"; "system"; "error"; "module_default_implementation"; "module_defimpl"; "module"; "implementation"; "submodule";
   "cxx_modules"; "cxx_objects"; "cxx_library"; "cxx_application"; "shared_library"; "static_library"; "static_and_shared";
   "makedir"; "makefile"; "fileset"; "copy"; "source"; "do"; "routine"; "routine_decorator"; "mtime"; "UpdatableTarget"; "Core";
   "core"; "cxx_static_library"; "cxx_shared_library"; "objcopy"; "get_target"; "Target"; "ex"; "MakeCore"; "DirectoryTarget";
   "FileTarget"].

(** Python's [from package import *]: the names of __all__ are taken in their order; a name
    that is no attribute is imported as a module of the package if there is one; a name that
    is nothing raises AttributeError.  The result is the list of names bound. *)
Fixpoint import_star (attrs modules : list string) (all : list string) : res (list string) :=
  match all with
  | [] => Ok []
  | n :: all' =>
      if smem String.eqb n attrs || smem String.eqb n modules
      then do! l <- import_star attrs modules all'; Ok (n :: l)
      else Raise (AttributeError n)
  end.

(** __init__.py:44-61: [attribute_store] and [glbfunc] are objects of an empty class.  Names
    with two underscores, which every object has, are left out. *)
Section Store.
  Context {V : Type}.
  (** 56-57 [import_attribute] *)
  Definition import_attribute (st : list (string * V)) (name : string) (v : V) : list (string * V) := sset st name v.
  (** 60-61 [attribute] *)
  Definition attribute (st : list (string * V)) (name : string) : res V :=
    match sget st name with Some v => Ok v | None => Raise (AttributeError name) end.
  (** 52-53 [global_function]: [name] is var.__name__. *)
  Definition global_function (st : list (string * V)) (name : string) (v : V) : list (string * V) := sset st name v.
End Store.

(** __init__.py:66-73 [system] with the exit status of the command: subprocess.check_call
    returns 0 or raises CalledProcessError with the status. *)
Inductive system_end := Returned | CalledProcessError (status : Z) | SystemErrorRaised.
Definition check_call (status : Z) : Z + Z := if Z.eqb status 0 then inl 0%Z else inr status.
Definition system (status : Z) : system_end :=
  match check_call status with
  | inr s => CalledProcessError s
  | inl s => if Z.eqb s 0 then Returned else SystemErrorRaised
  end.
