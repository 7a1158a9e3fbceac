(** Model of licant/core.py: the target registry [Core], the dependency closure, the
    evaluation of [need_update], the preparation of [recurse_update] and [Core.do].

    Objects live in a heap (a list); an object is its index.  Dependencies are strings
    (core.py:187, [to_name_if_needed]); glob expansion (core.py:230-241) is in MakeModel.v.
    [canon] stands for [licant.util.canonical_path], which is a fixed function within one
    process because it is memoised (licant/util.py:273-288, see UtilModel.v).
    After an exception the heap is not modelled any further. *)
From Coq Require Import OrderedTypeEx.
From Verif Require Import PyBase SolverModel InvokerModel.

(** Class of a target: [Target] (core.py:174) or [UpdatableTarget] and its subclasses
    (core.py:304). *)
Inductive tclass := Plain | Updatable.

(** Fields of a target object that the modelled code reads or writes. *)
Record tobj := TO {
  t_name : string;                  (* self.tgt, core.py:186 *)
  t_deps : list string;             (* self.deps, core.py:187-189 *)
  t_class : tclass;
  t_default : string;               (* self.default_action, core.py:193 *)
  t_need : option bool;             (* self.need_update, core.py:320 *)
  t_cached : option (list nat) }.   (* self.cached_deplist, core.py:204 *)

(** Keys of [depends_as_set_lazy_cache]: a string, a target object, or a pair
    (core.py:106 looks up a pair, core.py:115 stores under the bare target). *)
Inductive ckey := KStr (s : string) | KObj (i : nat) | KPair (k : ckey) (b : bool).
Fixpoint ckey_eqb (a b : ckey) : bool :=
  match a, b with
  | KStr s, KStr s' => String.eqb s s'
  | KObj i, KObj j => Nat.eqb i j
  | KPair k x, KPair k' x' => ckey_eqb k k' && Bool.eqb x x'
  | _, _ => false
  end.

(** core.py:33-38.  [c_threads] is runtime["threads"] ([None]: not in the dictionary). *)
Record core := CO {
  c_targets : list (string * nat);
  c_heap : list tobj;
  c_lazy : list (ckey * list string);
  c_threads : option Z }.

Definition empty_core : core := CO [] [] [] None.

Definition dummy_obj : tobj := TO "" [] Plain "" None None.
Definition obj (c : core) (i : nat) : tobj := nth i (c_heap c) dummy_obj.

Definition set_obj (c : core) (i : nat) (t : tobj) : core :=
  CO (c_targets c) (lupd (c_heap c) i t) (c_lazy c) (c_threads c).
Definition set_need (c : core) (i : nat) (b : option bool) : core :=
  let t := obj c i in
  set_obj c i (TO (t_name t) (t_deps t) (t_class t) (t_default t) b (t_cached t)).
Definition set_cached (c : core) (i : nat) (l : list nat) : core :=
  let t := obj c i in
  set_obj c i (TO (t_name t) (t_deps t) (t_class t) (t_default t) (t_need t) (Some l)).

(** Creation of an object: its index is the next free place of the heap. *)
Definition alloc (c : core) (t : tobj) : core * nat :=
  (CO (c_targets c) (c_heap c ++ [t]) (c_lazy c) (c_threads c), List.length (c_heap c)).

(** core.py:177-204 and 309-320: freshly constructed objects. *)
Definition new_obj (cls : tclass) (name : string) (deps : list string) : tobj :=
  TO name deps cls
     (match cls with Plain => "action" | Updatable => "recurse_update_get_args" end)%string
     None None.

(** core.py:62-73 [Core.add] (debug output and help list left out). *)
Definition core_add (c : core) (i : nat) : core :=
  CO (sset (c_targets c) (t_name (obj c i)) i) (c_heap c) (c_lazy c) (c_threads c).
(** core.py:118-124 [Core.target], [Core.updtarget]. *)
Definition core_new (c : core) (cls : tclass) (name : string) (deps : list string) : core :=
  let '(c', i) := alloc c (new_obj cls name deps) in core_add c' i.

Definition mapM {A B} (f : A -> res B) : list A -> res (list B) :=
  fix go l := match l with
              | [] => Ok []
              | x :: l' => do! y <- f x; do! ys <- go l'; Ok (y :: ys)
              end.

(** Python's [sorted] on strings. *)
Fixpoint insert_sorted (x : string) (l : list string) : list string :=
  match l with
  | [] => [x]
  | y :: l' => match String_as_OT.cmp x y with
               | Gt => y :: insert_sorted x l'
               | _ => x :: l
               end
  end.
Definition py_sorted (l : list string) : list string := fold_right insert_sorted [] l.

(** core.py:84 and util.py:98-100 [error]: a message and [exit(-1)]. *)
Definition exit_unregistered (nm : string) : exn := SystemExit ("unregistred target " ++ nm).

Section Core.
  Variable canon : string -> string.

  (** core.py:75-84 [Core.get]. *)
  Definition core_get (c : core) (nm : string) : res nat :=
    match sget (c_targets c) nm with
    | Some i => Ok i
    | None =>
        match sget (c_targets c) (canon nm) with
        | Some i => Ok i
        | None => Raise (exit_unregistered nm)
        end
    end.

  (** core.py:86-96 [Core.has] (and 59-60 [exist]): inserts an alias. *)
  Definition core_has (c : core) (nm : string) : bool * core :=
    match sget (c_targets c) nm with
    | Some _ => (true, c)
    | None =>
        match sget (c_targets c) (canon nm) with
        | Some i => (true, CO (sset (c_targets c) nm i) (c_heap c) (c_lazy c) (c_threads c))
        | None => (false, c)
        end
    end.

  (** core.py:98-103 [depends_as_set_impl]; the shared set [accum] is threaded through. *)
  Fixpoint das_impl (fuel : nat) (c : core) (tgt : string) (accum : list string)
    : res (list string) :=
    match fuel with
    | 0 => OutOfFuel
    | S fuel' =>
        do! i <- core_get c tgt;
        (fix loop (ds : list string) (acc : list string) : res (list string) :=
           match ds with
           | [] => Ok acc
           | d :: ds' =>
               if smem String.eqb d acc then loop ds' acc
               else do! acc' <- das_impl fuel' c d (acc ++ [d]); loop ds' acc'
           end) (t_deps (obj c i)) accum
    end.

  (** Recursion depth that is always enough (C18). *)
  Definition das_fuel (c : core) : nat :=
    S (S (List.length (flat_map t_deps (c_heap c)))).

  (** The argument of [depends_as_set] is a name or a target object. *)
  Inductive tgt_arg := ByName (s : string) | ByObj (i : nat).
  Definition arg_str (c : core) (a : tgt_arg) : string :=
    match a with ByName s => s | ByObj i => t_name (obj c i) end.   (* __repr__, core.py:299-301 *)
  Definition arg_key (a : tgt_arg) : ckey :=
    match a with ByName s => KStr s | ByObj i => KObj i end.

  (** core.py:105-116 [depends_as_set]. *)
  Definition depends_as_set (c : core) (a : tgt_arg) (incroot : bool) : res (list string * core) :=
    match dget ckey_eqb (c_lazy c) (KPair (arg_key a) incroot) with
    | Some l => Ok (l, c)
    | None =>
        do! acc <- das_impl (das_fuel c) c (arg_str c a)
                      (if incroot then [arg_str c a] else []);
        let ret := py_sorted acc in
        Ok (ret, CO (c_targets c) (c_heap c) (dset ckey_eqb (c_lazy c) (arg_key a) ret)
                    (c_threads c))
    end.

  (** core.py:249-253 [get_deplist]. *)
  Definition get_deplist (c : core) (i : nat) : res (list nat * core) :=
    match t_cached (obj c i) with
    | Some l => Ok (l, c)
    | None =>
        do! l <- mapM (core_get c) (t_deps (obj c i));
        Ok (l, set_cached c i l)
    end.

  (** [update_if] of each target at the time of the evaluation; it is assumed not to change
      the registry (core.py:190, 319). *)
  Variable update_if : nat -> res bool.

  (** core.py:336-347 [recursive_update_needed_request].  A plain [Target] has no such
      method.  Python's recursion is bounded by the fuel. *)
  Fixpoint rec_need (fuel : nat) (c : core) (i : nat) : res (bool * core) :=
    match fuel with
    | 0 => OutOfFuel
    | S fuel' =>
        match t_class (obj c i) with
        | Plain => Raise (AttributeError "recursive_update_needed_request")
        | Updatable =>
            match t_need (obj c i) with
            | Some b => Ok (b, c)
            | None =>
                do! u <- update_if i;
                if u then Ok (true, c)
                else
                  do! (l, c1) <- get_deplist c i;
                  (fix loop (l : list nat) (c : core) : res (bool * core) :=
                     match l with
                     | [] => Ok (false, c)
                     | j :: l' =>
                         do! (b, c') <- rec_need fuel' c j;
                         if b then Ok (true, c') else loop l' c'
                     end) l c1
            end
        end
    end.

  (** core.py:322-323 and 212-213 [evaluate_update_needity] of one target. *)
  Definition eval_one (fuel : nat) (c : core) (i : nat) : res core :=
    match t_class (obj c i) with
    | Plain => Ok c
    | Updatable => do! (b, c') <- rec_need fuel c i; Ok (set_need c' i (Some b))
    end.
  Fixpoint eval_all (fuel : nat) (ids : list nat) (c : core) : res core :=
    match ids with
    | [] => Ok c
    | i :: ids' => do! c' <- eval_one fuel c i; eval_all fuel ids' c'
    end.

  (** core.py:40-44, 327-328, 215-216 [nullify_update_needity]. *)
  Definition nullify_one (c : core) (i : nat) : core :=
    match t_class (obj c i) with Plain => c | Updatable => set_need c i None end.
  Definition nullify (c : core) : core :=
    fold_left nullify_one (dvalues (c_targets c)) c.

  (** core.py:46-54 [update_update_needity]: every registered target, in dictionary order. *)
  Definition update_update_needity (fuel : nat) (c : core) : res core :=
    let c' := nullify c in eval_all fuel (dvalues (c_targets c')) c'.

  (** ** recurse_update (core.py:364-395), up to the construction of the solver. *)

  (** core.py:368-373: the set of objects of the cone; [order] is the iteration order of
      that set. *)
  Definition ru_objects (c : core) (order : list nat -> list nat) (i : nat) : res (list nat) :=
    do! (names, c1) <- depends_as_set c (ByObj i) true;
    do! ids <- mapM (core_get c1) names;
    Ok (order (nodup Nat.eq_dec ids)).

  (** core.py:381-386: the DependableTarget of one object. *)
  Definition ru_dtarget (c : core) (i : nat) : res dtarget :=
    do! ds <- mapM (core_get c) (t_deps (obj c i));
    Ok (DT (t_name (obj c i)) (map (fun j => t_name (obj c j)) ds)).

  Inductive ru_result :=
  | RuExn (e : exn)                           (* leaves recurse_update before the solver *)
  | RuRejected (e : solver_error)             (* the solver's constructor raises *)
  | RuExec (objs : list nat) (sv : solver)    (* exec() is called; objs!k is target k *)
  | RuNoFuel.

  (** core.py:365-366: runtime["threads"] wins over the argument. *)
  Definition ru_threads (c : core) (threads : option Z) : option Z :=
    match c_threads c with Some t => Some t | None => threads end.

  (** core.py:364-392. *)
  Definition recurse_update (c : core) (order : list nat -> list nat) (so : set_order)
             (i : nat) (threads : option Z) : ru_result :=
    match (do! objs <- ru_objects c order i;
           do! dts <- mapM (ru_dtarget c) objs; Ok (objs, dts)) with
    | Raise e => RuExn e
    | OutOfFuel => RuNoFuel
    | Ok (objs, dts) =>
        match solver_init so dts (ru_threads c threads) with
        | inl e => RuRejected e
        | inr sv => RuExec objs sv
        end
    end.

  (** core.py:330-331 [recurse_update_get_args]: runtime["threads"] of a NoneDictionary
      (core.py:21-29) is None when absent. *)
  Definition recurse_update_get_args (c : core) order so (i : nat) : ru_result :=
    recurse_update c order so i (c_threads c).

  (** core.py:355-362 [update_if_need] run as the what_to_do of a task (378-379): [upd] is
      the effect of the update method. *)
  Definition task_behaviour {W} (c : core) (upd : nat -> W -> tres -> W -> Prop)
             (objs : list nat) (k : nat) (w : W) (r : tres) (w' : W) : Prop :=
    let i := nth k objs (List.length (c_heap c)) in
    match t_class (obj c i) with
    | Plain => r = RExn /\ w' = w                    (* no attribute update_if_need *)
    | Updatable =>
        match t_need (obj c i) with
        | None => r = RExn /\ w' = w                 (* raise Exception("need_update is None") *)
        | Some true => upd i w r w'
        | Some false => r = RNotFalse /\ w' = w
        end
    end.
End Core.

(** ** Core.do (core.py:126-139). *)

(** Python values that the modelled calls return. *)
Inductive pyval := PyNone | PyBool (b : bool).

(** The [target] argument: a name, an object, a list or tuple. *)
Inductive do_arg := DName (s : string) | DObj (i : nat) | DList (l : list do_arg).

Section Do.
  Context {S : Type}.
  Variable get : S -> string -> res nat.
  Variable default_action : S -> nat -> string.
  (** [Target.invoke] on an object. *)
  Variable invoke : nat -> string -> S -> res (pyval * S).

  (** core.py:136-139. *)
  Definition do_object (s : S) (i : nat) (action : option string) : res (pyval * S) :=
    let a := match action with Some a => a | None => default_action s i end in
    do! (_, s') <- invoke i a s; Ok (PyNone, s').

  Fixpoint core_do (s : S) (target : do_arg) (action : option string) : res (pyval * S) :=
    match target with
    | DName nm => do! i <- get s nm; do_object s i action
    | DObj i => do_object s i action
    | DList l =>
        (fix loop (l : list do_arg) (s : S) : res (pyval * S) :=
           match l with
           | [] => Ok (PyNone, s)
           | t :: l' => do! (_, s') <- core_do s t action; loop l' s'
           end) l s
    end.
End Do.

(** ** Target.invoke (core.py:264-297): evaluation of the whole core, then the attribute.
    [attr i a] is [getattr(self, a, None)] applied to the arguments. *)
Section InvokeTarget.
  Context {S : Type}.
  Variable evaluate : S -> res S.                            (* core.update_update_needity *)
  Variable attr : nat -> string -> option (S -> res (pyval * S)).
  Definition target_invoke (critical : bool) (i : nat) (a : string) (s : S) : res (pyval * S) :=
    do! s1 <- evaluate s;
    match attr i a with
    | None => if critical then Raise (PlainException "WrongAction") else Ok (PyNone, s1)
    | Some f => f s1
    end.
End InvokeTarget.

(** ** Declared actions (the [__actions__] class attributes). *)
Section Actions.
  Local Open Scope string_scope.
  Local Open Scope list_scope.
  (** core.py:175 *)
  Definition target_actions : list string := ["actlist"; "print"; "dependies"].
  (** core.py:305-307 *)
  Definition updatable_actions : list string :=
    target_actions ++ ["recurse_update"; "recurse_update_get_args"; "update"; "update_if_need"].
  (** core.py:399-400: the comma between the third and fourth literal is missing, so Python
      concatenates them. *)
  Definition routine_actions : list string :=
    ["recurse_update"; "recurse_update_get_args"; ("invoke_routine" ++ "update")%string; "actlist"].
  (** Methods of the classes (attributes found by getattr), core.py:174-423. *)
  Definition target_methods : list string :=
    ["to_name_if_needed"; "evaluate_update_needity"; "nullify_update_needity"; "trace_mode";
     "dependies"; "name"; "is_file"; "expand_globs"; "action_if_need"; "get_deplist"; "actlist";
     "print"; "hasaction"; "invoke"].
  Definition updatable_methods : list string :=
    target_methods ++
    ["recurse_update_get_args"; "update"; "recursive_update_needed_request";
     "invoke_function_or_method"; "update_if_need"; "recurse_update"].
  Definition routine_methods : list string := updatable_methods ++ ["invoke_routine"].
  (** core.py:261-262 [hasaction]. *)
  Definition hasaction (actions : list string) (act : string) : bool := smem String.eqb act actions.
End Actions.
