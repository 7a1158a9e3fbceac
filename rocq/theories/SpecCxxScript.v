(** Vocabulary: the calls that C++ modules make, as statements of a script. *)
From Verif Require Import PyBase PyPath SolverModel SpecGraph InvokerModel SpecTrace CoreModel SpecCore MakeModel UtilModel SpecMake
  RegModel CliModel SpecUtil SpecReg SpecProject SpecTrack SpecCxxTrack FormatModel ModulesModel CxxModel.
Local Open Scope string_scope.
Local Open Scope list_scope.

(** [sh cmd p]: what the shell command [cmd], run in [cwd], leaves in file [p]. *)
Section Calls.
  Variables (sh : string -> string -> buildfun) (cwd : string).
  Definition run_command (c : fres) (p : string) : buildfun :=
    match c with FOk cmd => sh cmd p | _ => fun _ => None end.
  (** make.py:249-256 [copy] runs cp on the source as given and the canonical target. *)
  Definition event_stmt (home : string) (e : event) : stmt :=
    match e with
    | VSource p => SSource p
    | VCopy src tgt =>
        let src' := expanduser home src in let tgt' := realpath cwd (expanduser home tgt) in
        SCopy tgt src [] (sh ("cp " ++ src' ++ " " ++ tgt')%string tgt')
    | VFileset name targets => SSet name targets
    | VRule _ tgt _ deps _ _ force => SRule force tgt deps (run_command (command cwd e) (realpath cwd tgt))
    end.
  (** The list and the object are made by the rules for the language of the source, with the
      same options. *)
  Definition compiled_item (it : item) : Prop :=
    match it with
    | IStmt _ => True
    | IUnit u => exists co l, lang_of (u_src u) = Ok l /\
        u_list u = run_command (command cwd (VRule RDepend (u_dep u) (u_src u) [] (match l with LCxx => cxxdeprule | _ => ccdeprule end) co false)) (realpath cwd (u_dep u)) /\
        u_comp u = run_command (command cwd (VRule RObject (u_obj u) (u_src u) [] (match l with LCxx => cxxobjrule | _ => ccobjrule end) co false)) (realpath cwd (u_obj u))
    end.
End Calls.
