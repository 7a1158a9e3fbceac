(** What the directory of a script means, without a stack: the directory is handed down. *)
From Verif Require Import PyBase PyPath ScriptModel.

Section Lexical.
  Context {G : Type}.
  Record lstate := LS { l_included : list (string * string); l_g : G; l_trace : list sevent }.
  Inductive lout := LDone (s : lstate) | LRaise (e : exn) (s : lstate) | LNoFuel.
  Definition lnote e s := LS (l_included s) (l_g s) (l_trace s ++ [e]).

  Variable files : G -> string -> option (prog G).
  Variable find : G -> string -> string -> option string -> list string.
  Variable registry : list (string * string).
  Variable tunnel_there : G -> string -> bool.
  Variable link : string -> string -> G -> G.

  Section LRun.
    (** Runs the script stored at a path. *)
    Variable script : string -> lstate -> lout.
    Fixpoint scripts (l : list string) (s : lstate) : lout :=
      match l with
      | [] => LDone s
      | p :: l' => match script p s with LDone s' => scripts l' s' | o => o end
      end.
    (** The path that an accepted library is loaded from and the state after making the tunnel;
        or the error. *)
    Definition lib_found (lib : string) (h : how) (g : G) : exn + string * G :=
      match h with
      | ByPath p => inr (p, g)
      | ByTunnel d n =>
          if tunnel_there g d then inr (path_join d n, g)
          else if String.eqb (dirname d) "" then inl (PlainException "FileNotFoundError")
          else match sget registry lib with
               | Some f => inr (path_join d n, link (dirname f) d g)
               | None => inl (KeyError lib)
               end
      | ByName =>
          match sget registry lib with
          | Some p => inr (p, g)
          | None => inl (SystemExit "Unregistred library")
          end
      end.
    (** [dir]: directory of the script that the program belongs to. *)
    Fixpoint lrun (dir : string) (p : prog G) (s : lstate) : lout :=
      match p with
      | PEnd => LDone s
      | PThrow e => LRaise e s
      | PGet k => lrun dir (k (l_g s)) s
      | PPut g k => lrun dir k (LS (l_included s) g (l_trace s))
      | PDirectory k => lrun dir (k dir) s
      | PExecute path k =>
          match script (path_join dir path) s with LDone s' => lrun dir k s' | o => o end
      | PExecuteRec root pattern hide k =>
          match scripts (find (l_g s) (path_join dir root) pattern hide) s with LDone s' => lrun dir k s' | o => o end
      | PInclude lib h k =>
          let s1 := lnote (EvAsk lib h) s in
          if shas (l_included s) lib then lrun dir k s1
          else match lib_found lib h (l_g s) with
               | inl e => LRaise e s1
               | inr (p, g) =>
                   match script (path_join dir p)
                           (lnote (EvLib lib p) (LS (sset (l_included s1) lib p) g (l_trace s1))) with
                   | LDone s' => lrun dir k s'
                   | o => o
                   end
               end
      | PTry body handler k =>
          match (match lrun dir body s with LRaise e s' => lrun dir (handler e) s' | o => o end) with
          | LDone s' => lrun dir k s'
          | o => o
          end
      end.
  End LRun.

  Fixpoint lscript (fuel : nat) (path : string) (s : lstate) : lout :=
    match fuel with
    | 0 => LNoFuel
    | S fuel' =>
        let s1 := lnote (EvStart path) s in
        match files (l_g s1) path with
        | None => LRaise (SystemExit "Exception in file") s1
        | Some p =>
            match lrun (lscript fuel') (dirname path) p s1 with
            | LRaise e s2 => LRaise (if is_exception e then SystemExit "Exception in file" else e) s2
            | o => o
            end
        end
    end.
End Lexical.
Arguments lstate : clear implicits.
Arguments lout : clear implicits.

(** No operation on other scripts. *)
Fixpoint local {G} (p : prog G) : Prop :=
  match p with
  | PEnd | PThrow _ => True
  | PGet k => forall g, local (k g)
  | PPut _ k => local k
  | PDirectory k => forall d, local (k d)
  | PExecute _ _ | PExecuteRec _ _ _ _ | PInclude _ _ _ => False
  | PTry b h k => local b /\ (forall e, local (h e)) /\ local k
  end.
(** Exceptions of other scripts are not caught. *)
Fixpoint lets_pass {G} (p : prog G) : Prop :=
  match p with
  | PEnd | PThrow _ => True
  | PGet k => forall g, lets_pass (k g)
  | PPut _ k => lets_pass k
  | PDirectory k => forall d, lets_pass (k d)
  | PExecute _ k | PExecuteRec _ _ _ k | PInclude _ _ k => lets_pass k
  | PTry b h k => local b /\ (forall e, lets_pass (h e)) /\ lets_pass k
  end.

(** The state and the result without the stack. *)
Definition forget {G} (s : sstate G) : lstate G := LS (q_included s) (q_g s) (q_trace s).
Definition forget_out {G} (o : sout G) : lout G :=
  match o with SDone s => LDone (forget s) | SRaise e s => LRaise e (forget s) | SNoFuel => LNoFuel end.
(** When it returns, the stack is [st]. *)
Definition returns_to {G} (st : list string) (o : sout G) : Prop :=
  match o with SDone s => q_stack s = st | _ => True end.

(** Libraries accepted in a trace. *)
Definition accepted (tr : list sevent) : list (string * string) :=
  flat_map (fun e => match e with EvLib l p => [(l, p)] | _ => [] end) tr.
(** Scripts started. *)
Definition starts (tr : list sevent) : list string :=
  flat_map (fun e => match e with EvStart p => [p] | _ => [] end) tr.
Definition state_of {G} (o : sout G) : option (sstate G) :=
  match o with SDone s | SRaise _ s => Some s | SNoFuel => None end.

(** Traces of scripts and libraries.  A library asked for and not yet accepted is accepted or
    an error; when it is accepted its script is started; scripts may also be started directly
    if [direct]. *)
Inductive trace_of (direct : Prop) : list sevent -> Prop :=
| tr_nil : trace_of direct []
| tr_start : forall tr p, trace_of direct tr -> direct -> trace_of direct (tr ++ [EvStart p])
| tr_known : forall tr lib h, trace_of direct tr -> In lib (map fst (accepted tr)) ->
    trace_of direct (tr ++ [EvAsk lib h])
| tr_error : forall tr lib h, trace_of direct tr -> ~ In lib (map fst (accepted tr)) ->
    (forall p, h <> ByPath p) -> trace_of direct (tr ++ [EvAsk lib h])
| tr_new : forall tr lib h p d, trace_of direct tr -> ~ In lib (map fst (accepted tr)) ->
    (forall q, h = ByPath q -> p = q) -> (forall a b, h = ByTunnel a b -> p = path_join a b) ->
    trace_of direct (tr ++ [EvAsk lib h; EvLib lib p; EvStart (path_join d p)]).

(** The only other scripts asked for are libraries of [libs], from any path. *)
Fixpoint only_includes {G} (libs : list string) (p : prog G) : Prop :=
  match p with
  | PEnd | PThrow _ => True
  | PGet k => forall g, only_includes libs (k g)
  | PPut _ k => only_includes libs k
  | PDirectory k => forall d, only_includes libs (k d)
  | PExecute _ _ | PExecuteRec _ _ _ _ => False
  | PInclude lib _ k => In lib libs /\ only_includes libs k
  | PTry b h k => only_includes libs b /\ (forall e, only_includes libs (h e)) /\ only_includes libs k
  end.
