(** Vocabulary for C108: the tools that the commands of a build call. *)
From Verif Require Import PyBase PyPath ModulesModel CxxModel.
Local Open Scope string_scope.
Local Open Scope list_scope.

(** The toolchain of a call of application, shared_library, ...: the one given with it, or the
    default one. *)
Definition toolchain_of (default : toolchain) (kw : opts) (t : toolchain) : Prop :=
  sget kw "toolchain" = Some (VTool t) \/ (sget kw "toolchain" = None /\ t = default).
(** The tools for each kind of rule. *)
Definition tools (t : toolchain) (k : rkind) : list string :=
  match k with
  | RObject | RDepend => [tc_cxx t; tc_cc t]
  | RLink => [tc_cxx t; tc_ar t]
  | RMoc => [tc_moc t]
  | RUic => [tc_uic t]
  end.
(** The command line [c] calls the program [w]. *)
Definition calls (c w : string) : Prop := exists args, c = (w ++ " " ++ args)%string.
Definition begins (p s : string) : Prop := exists rest, s = (p ++ rest)%string.
