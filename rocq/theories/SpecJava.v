(** What the calls of java_make and objcopy are meant to do (C88). *)
From Verif Require Import PyBase PyPath MakeModel SpecMake SpecProject JavaModel.
Local Open Scope string_scope.
Local Open Scope list_scope.

(** The files that the command of the call names as its input. *)
Definition input_names (c : jcall) : list string :=
  match c with JJavac srcs _ _ _ => srcs | JDex src _ _ _ => [src] | JObjcopy _ _ src _ _ => [src] end.
Definition output_name (c : jcall) : string :=
  match c with JJavac _ tgt _ _ => tgt | JDex _ tgt _ _ => tgt | JObjcopy _ tgt _ _ _ => tgt end.
(** The command looks at these files only. *)
Definition looks_at_inputs (cwd : string) (c : jcall) (b : buildfun) : Prop :=
  forall s s', (forall n, In n (input_names c) -> s (realpath cwd n) = s' (realpath cwd n)) -> b s = b s'.
(** dex must be told that it depends on its source. *)
Definition dex_told (c : jcall) : Prop :=
  match c with JDex src _ _ deps => In src deps | _ => True end.
(** A script of declared sources and such calls. *)
Definition jscript (srcs : list string) (calls : list (jcall * buildfun)) : list stmt :=
  map SSource srcs ++ flat_map (fun cb => jstmts (fst cb) (snd cb)) calls.
