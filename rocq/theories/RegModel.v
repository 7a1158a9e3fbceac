(** Model of how licant/make.py creates and registers targets: [FileTarget.__init__],
    [source], [dirkeep], [copy], [makefile], [fileset] and the methods of [MakeCore].

    There are several registries; number 0 is [default_core()].  Every target is added to
    one registry, in whose heap it lives.  [exists_] is os.path.exists and [glob_] is
    glob.glob at the time of the registrations (the disk does not change meanwhile);
    [canon] is licant.util.canonical_path.  Messages and options are left out. *)
From Verif Require Import PyBase PyPath SolverModel InvokerModel CoreModel MakeModel.
Local Open Scope string_scope.
Local Open Scope list_scope.

(** A registry and the kinds of the objects in its heap. *)
Definition mreg : Type := core * list mkind.
Definition kind_of (r : mreg) (i : nat) : mkind := nth i (snd r) MOther.
Definition empty_reg : mreg := (empty_core, []).
(** The registries of a process. *)
Definition regs := list mreg.
Definition reg (st : regs) (k : nat) : mreg := nth k st empty_reg.
Definition put (st : regs) (k : nat) (r : mreg) : regs := lupd st k r.

(** [core.add(Class(name, deps))] once the constructor is through. *)
Definition reg_add (r : mreg) (cls : tclass) (kd : mkind) (name : string) (deps : list string) : mreg :=
  (core_new (fst r) cls name deps, snd r ++ [kd]).

Definition has_star (s : string) : bool := existsb (Ascii.eqb "*"%char) (list_ascii_of_string s).

Section Reg.
  Variable canon : string -> string.
  Variable exists_ : string -> bool.
  Variable glob_ : string -> list string.
  Variable home : string.

  (** core.py:86-96 [Core.has] on registry [k]. *)
  Definition rhas (st : regs) (k : nat) (nm : string) : bool * regs :=
    let '(b, c') := core_has canon (fst (reg st k)) nm in (b, put st k (c', snd (reg st k))).

  (** core.py:230-238: the first loop of [expand_globs]. *)
  Definition expand_names (deps : list string) : list string :=
    flat_map (fun d => if has_star d then glob_ d else [d]) deps.

  (** make.py:121-138 [FileTarget.__init__], called by 214 [source], 224-235 [dirkeep] and
      the others, followed by [core.add] on registry [k].
      [dk]: use_dirkeep.  125-129: the directory is registered (in the default core) and
      appended to [deps].  core.py:188, 230-241: names with a star are expanded and every
      dependency that exists on disk is registered as a source (in the default core).
      The recursion (directories of directories, sources) is bounded by the fuel. *)
  Fixpoint fnew (fuel : nat) (st : regs) (k : nat) (kd : mkind) (name : string) (deps : list string) (dk : bool)
    : res regs :=
    match fuel with
    | 0 => OutOfFuel
    | S fuel' =>
        let tgt := canon name in                                   (* 123 *)
        let dirpath := normpath (dirname tgt) in                   (* 126 *)
        do! (st1, deps1) <-
          (if dk && negb (exists_ dirpath) then                    (* 125, 127 *)
             do! st1 <- fnew fuel' st 0 MDir dirpath []            (* 128, 224-235 *)
                          (negb (exists_ (normpath (dirname dirpath))));
             Ok (st1, deps ++ [dirpath])                           (* 129 *)
           else Ok (st, deps));
        let ret := expand_names deps1 in
        do! st2 <-
          (fix loop (l : list string) (st : regs) : res regs :=    (* core.py:238-240 *)
             match l with
             | [] => Ok st
             | r :: l' =>
                 if exists_ r then
                   (* make.py:211-221 [source] *)
                   let '(b, st') := rhas st 0 r in
                   if b then loop l' st'
                   else do! st'' <- fnew fuel' st' 0 MSource r [] true; loop l' st''
                 else loop l' st
             end) ret st1;
        Ok (put st2 k (reg_add (reg st2 k) Updatable kd tgt ret))
    end.

  (** make.py:211-221 [source]. *)
  Definition source (fuel : nat) (st : regs) (tgt : string) : res regs :=
    let '(b, st') := rhas st 0 tgt in
    if b then Ok st' else fnew fuel st' 0 MSource tgt [] true.

  (** make.py:242-257 [copy]. *)
  Definition copy (fuel : nat) (st : regs) (k : nat) (tgt src : string) (adddeps : list string) (build : buildfun)
    : res regs :=
    let src := expanduser home src in
    let tgt := expanduser home tgt in
    do! st1 <- source fuel st src;
    fnew fuel st1 k (MFile false build) tgt (src :: adddeps) true.

  (** make.py:260-269 [makefile]; [force] may be among the keyword arguments.  The functions of
      cxx_make.py that make rules (129-302) do the same. *)
  Definition makefile (fuel : nat) (st : regs) (k : nat) (force : bool) (tgt : string) (deps : list string) (build : buildfun) : res regs :=
    fnew fuel st k (MFile force build) tgt deps true.

  (** core.py:230-241 for targets that are no FileTarget. *)
  Fixpoint source_existing (fuel : nat) (l : list string) (st : regs) : res regs :=
    match l with
    | [] => Ok st
    | r :: l' => if exists_ r then do! st' <- source fuel st r; source_existing fuel l' st'
                 else source_existing fuel l' st
    end.
  (** core.py:118-124, 272-275 (make.py) [target], [updtarget], [fileset]: the name is kept. *)
  Definition plain_new (fuel : nat) (st : regs) (k : nat) (cls : tclass) (kd : mkind) (name : string) (deps : list string)
    : res regs :=
    let ret := expand_names deps in
    do! st' <- source_existing fuel ret st;
    Ok (put st' k (reg_add (reg st' k) cls kd name ret)).
  (** make.py:272-275 [fileset]. *)
  Definition fileset (fuel : nat) (st : regs) (k : nat) (name : string) (targets deps : list string) : res regs :=
    plain_new fuel st k Updatable MSet name (deps ++ targets).

  (** ** MakeCore (make.py:286-378), the core being number [k] *)

  (** 290-299 [makedir] *)
  Definition mc_makedir (fuel : nat) (st : regs) (k : nat) (dirpath : string) (deps : list string) : res regs :=
    fnew fuel st k MDir dirpath deps false.

  (** 301-310 [dirkeep] *)
  Fixpoint mc_dirkeep (fuel : nat) (st : regs) (k : nat) (path : string) : res (list string * regs) :=
    match fuel with
    | 0 => OutOfFuel
    | S fuel' =>
        let base := normpath (dirname path) in
        if negb (exists_ base) then
          do! (deps, st1) <- mc_dirkeep fuel' st k base;
          let '(b, st2) := rhas st1 k base in
          do! st3 <- (if b then Ok st2 else mc_makedir fuel' st2 k base deps);
          Ok ([base], st3)
        else Ok ([], st)
    end.

  (** 345-360 [source]: [has] and [get] use the name as given. *)
  Definition mc_source (fuel : nat) (st : regs) (k : nat) (src : string) : res regs :=
    let '(b, st') := rhas st k src in
    if b then Ok st' else fnew fuel st' k MSource (expanduser home src) [] false.

  (** 312-328 [touch] and 362-378 [ftarget] (the rule is [build]). *)
  Definition mc_ftarget (fuel : nat) (st : regs) (k : nat) (tgt : string) (build : buildfun) (deps : list string) : res regs :=
    let tgt := expanduser home tgt in
    do! (dirdeps, st1) <- mc_dirkeep fuel st k tgt;
    fnew fuel st1 k (MFile false build) tgt (deps ++ dirdeps) false.
  (** 330-343 [copy] *)
  Definition mc_copy (fuel : nat) (st : regs) (k : nat) (src dst : string) (build : buildfun) (deps : list string) : res regs :=
    let src := expanduser home src in
    let dst := expanduser home dst in
    do! (dirdeps, st1) <- mc_dirkeep fuel st k dst;
    do! st2 <- mc_source fuel st1 k src;
    fnew fuel st2 k (MFile false build) dst (src :: dirdeps ++ deps) false.
End Reg.
