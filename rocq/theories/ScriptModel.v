(** Model of licant/scripter.py and licant/libs.py ([include]): scripts that execute scripts.

    A script is a tree of the operations it performs; what lies between them (ordinary Python)
    is a function of the state [G] of everything else: the variables shared by all scripts
    (scripter.py:18 executes every script in one and the same namespace), the file system and
    so on.  A script performs finitely many operations per run.
    Not modelled: the registration of the script as a source (scripter.py:10, 15), output,
    a registry that cannot be read (libs.py:29-33), and scripts that overwrite the names of
    scripter.py itself. *)
From Verif Require Import PyBase PyPath.

(** How a library is asked for: include(lib, path=p), include(lib, local_tunel=(a, b)),
    include(lib). *)
Inductive how := ByPath (p : string) | ByTunnel (dir name : string) | ByName.

Inductive prog (G : Type) : Type :=
| PEnd                                                     (* the script returns *)
| PThrow (e : exn)                                         (* an exception is raised *)
| PGet (k : G -> prog G)
| PPut (g : G) (k : prog G)
| PDirectory (k : string -> prog G)                        (* licant.directory() *)
| PExecute (path : string) (k : prog G)                    (* licant.execute(path) *)
| PExecuteRec (root pattern : string) (hide : option string) (k : prog G) (* licant.execute_recursive *)
| PInclude (lib : string) (h : how) (k : prog G)           (* licant.include *)
| PTry (body : prog G) (handler : exn -> prog G) (k : prog G). (* try: body except BaseException *)
Arguments PEnd {G}.
Arguments PThrow {G} _.
Arguments PGet {G} _.
Arguments PPut {G} _ _.
Arguments PDirectory {G} _.
Arguments PExecute {G} _ _.
Arguments PExecuteRec {G} _ _ _ _.
Arguments PInclude {G} _ _ _.
Arguments PTry {G} _ _ _.

(** What happened: a script was started, a library was asked for, a library was accepted. *)
Inductive sevent := EvStart (path : string) | EvAsk (lib : string) (h : how) | EvLib (lib path : string).

Section Script.
  Context {G : Type}.

  Record sstate := SS {
    q_stack : list string;               (* ScriptQueue.stack, scripter.py:9; top first *)
    q_included : list (string * string); (* libs.included, libs.py:12 *)
    q_g : G;
    q_trace : list sevent }.

  (** Results carry the state, because exceptions can be caught. *)
  Inductive sout := SDone (s : sstate) | SRaise (e : exn) (s : sstate) | SNoFuel.
  Definition sbind (o : sout) (f : sstate -> sout) : sout :=
    match o with SDone s => f s | _ => o end.

  Definition note (e : sevent) (s : sstate) : sstate :=
    SS (q_stack s) (q_included s) (q_g s) (q_trace s ++ [e]).
  Definition put_g (g : G) (s : sstate) : sstate := SS (q_stack s) (q_included s) g (q_trace s).
  Definition push (p : string) (s : sstate) : sstate :=
    SS (p :: q_stack s) (q_included s) (q_g s) (q_trace s).
  Definition pop (s : sstate) : sstate :=
    SS (tl (q_stack s)) (q_included s) (q_g s) (q_trace s).
  Definition add_lib (lib p : string) (s : sstate) : sstate :=
    SS (q_stack s) (sset (q_included s) lib p) (q_g s) (q_trace s).

  Variable files : G -> string -> option (prog G).       (* open(path).read(), compiled *)
  Variable find : G -> string -> string -> option string -> list string.  (* util.find_recursive(root, pattern, hide) *)
  Variable registry : list (string * string).            (* libs, libs.py:26-35, read once *)
  Variable tunnel_there : G -> string -> bool.           (* os.path.exists(local_tunel[0]) *)
  Variable link : string -> string -> G -> G.            (* makedirs and symlink, libs.py:62-68 *)

  (** scripter.py:27-31 [last], [curdir]. *)
  Definition curdir (s : sstate) : string := dirname (hd ""%string (q_stack s)).

  (** Exceptions that are not SystemExit or KeyboardInterrupt. *)
  Definition is_exception (e : exn) : bool :=
    match e with
    | SystemExit _ => false
    | PlainException m => negb (String.eqb m "KeyboardInterrupt")
    | _ => true
    end.

  Section Run.
    (** [ScriptQueue.__execute]. *)
    Variable enter : string -> sstate -> sout.

    (** scripter.py:23-25 [execute]. *)
    Definition execute (p : string) (s : sstate) : sout := enter (path_join (curdir s) p) s.

    (** scripter.py:33-37 [execute_recursive]; debug only prints. *)
    Fixpoint enter_all (l : list string) (s : sstate) : sout :=
      match l with [] => SDone s | p :: l' => sbind (enter p s) (enter_all l') end.
    Definition execute_recursive (root pattern : string) (hide : option string) (s : sstate) : sout :=
      enter_all (find (q_g s) (path_join (curdir s) root) pattern hide) s.

    (** libs.py:55-77: a tunnel that is not there is made; os.makedirs("") fails (63), and so
        does an unregistered library (65). *)
    Definition tunnel (lib d : string) (g : G) : exn + G :=
      if tunnel_there g d then inr g
      else if String.eqb (dirname d) "" then inl (PlainException "FileNotFoundError")
      else match sget registry lib with
           | None => inl (KeyError lib)
           | Some f => inr (link (dirname f) d g)
           end.

    (** libs.py:38-89 [include]. *)
    Definition include (lib : string) (h : how) (s0 : sstate) : sout :=
      let s := note (EvAsk lib h) s0 in
      if shas (q_included s) lib then SDone s
      else match h with
           | ByPath p => execute p (note (EvLib lib p) (add_lib lib p s))
           | ByTunnel d n =>
               match tunnel lib d (q_g s) with
               | inl e => SRaise e s
               | inr g => let p := path_join d n in
                          execute p (note (EvLib lib p) (add_lib lib p (put_g g s)))
               end
           | ByName =>
               match sget registry lib with
               | None => SRaise (SystemExit "Unregistred library") s
               | Some p => execute p (note (EvLib lib p) (add_lib lib p s))
               end
           end.

    Fixpoint run (p : prog G) (s : sstate) : sout :=
      match p with
      | PEnd => SDone s
      | PThrow e => SRaise e s
      | PGet k => run (k (q_g s)) s
      | PPut g k => run k (put_g g s)
      | PDirectory k => run (k (curdir s)) s            (* __init__.py:28-29 *)
      | PExecute path k => sbind (execute path s) (run k)
      | PExecuteRec root pattern hide k => sbind (execute_recursive root pattern hide s) (run k)
      | PInclude lib h k => sbind (include lib h s) (run k)
      | PTry body handler k =>
          sbind (match run body s with
                 | SRaise e s' => run (handler e) s'
                 | o => o
                 end) (run k)
      end.
  End Run.

  (** scripter.py:12-21 [__execute]; the fuel bounds the nesting of scripts.
      Line 20, util.py:108-114 [error_exception]: a message and exit(-1). *)
  Fixpoint enter (fuel : nat) (path : string) (s : sstate) : sout :=
    match fuel with
    | 0 => SNoFuel
    | S fuel' =>
        let s1 := note (EvStart path) (push path s) in                 (* 16 *)
        match files (q_g s1) path with
        | None => SRaise (SystemExit "Exception in file") s1           (* open fails *)
        | Some p =>
            match run (enter fuel') p s1 with
            | SDone s2 => SDone (pop s2)                               (* 21 *)
            | SRaise e s2 =>
                SRaise (if is_exception e then SystemExit "Exception in file" else e) s2
            | SNoFuel => SNoFuel
            end
        end
    end.

  (** A process: the main script argv[0] is on the stack (scripter.py:9). *)
  Definition start (argv0 : string) (g : G) : sstate := SS [argv0] [] g [].
  Definition main (fuel : nat) (argv0 : string) (p : prog G) (g : G) : sout :=
    run (enter fuel) p (start argv0 g).
End Script.
Arguments sstate : clear implicits.
Arguments sout : clear implicits.
