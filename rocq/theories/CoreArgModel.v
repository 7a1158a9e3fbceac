(** The argument [core] of the functions of cxx_modules.py. *)
From Verif Require Import PyBase PyPath SolverModel InvokerModel CoreModel MakeModel UtilModel RegModel SpecReg SpecProject FormatModel ModulesModel
  CxxModel SpecCxxScript.
Local Open Scope string_scope.
Local Open Scope list_scope.

Section CoreArg.
  Variables (sh : string -> string -> buildfun) (cwd home : string) (tool : toolchain).
  Variables (exists_ : string -> bool) (glob_ : string -> list string) (dfile : string -> option string).
  Variables (fuel rfuel : nat).

  (** What the events of a call register: cxx_modules.py:283-344, 463-526 and the functions of
      cxx_make.py called there are called without a core, so everything goes to the default core. *)
  Definition register (ev : list event) (st : regs) : res regs :=
    mrun (realpath cwd) exists_ glob_ home rfuel 0 (map (fun e => op_of (event_stmt sh cwd home e)) ev) st.

  (** cxx_modules.py:545-579 [task], called by application, shared_library, static_library and
      objects with [core] number [k].  prepare_targets (432) has an argument [core] but does
      not use it; only the file set of [objects] is made in the given core (563). *)
  Definition task_in (k : nat) (st : regs) (lib : mlib) (below : list string) (top name : string)
      (target impl : option string) (type : string) (default : bool) (kw : opts) : res (mlib * regs) :=
    if String.eqb type "objects" then
      do! lib1 <- module lib name impl default below top (("type", VStr type) :: kw);
      do! (r, _, lib2, ev) <- prepare_targets home tool glob_ dfile fuel lib1 name None [];
      do! ss <- rstrs r;
      do! st1 <- register ev st;
      do! st2 <- fileset (realpath cwd) exists_ glob_ rfuel st1 k name ss [];
      Ok (lib2, st2)
    else
      let tgt := match target with Some t => t | None => name end in
      do! lib1 <- module lib (name ++ "__module")%string impl default below top (("type", VStr type) :: ("target", VStr tgt) :: kw);
      do! (_, _, lib2, ev) <- prepare_targets home tool glob_ dfile fuel lib1 (name ++ "__module")%string None [];
      do! st1 <- register ev st;
      Ok (lib2, st1).
End CoreArg.
