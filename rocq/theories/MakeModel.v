(** Model of licant/cache.py and licant/make.py: the file-information cache, modification
    times, the evaluation of file targets and the effect of their rules on the file system.

    Simplifications.  Time stamps are natural numbers (no file is dated before 1970).
    A path is a string; two different canonical paths are different files (no links).
    A file is regular, with a content, or a directory; permissions, sizes and the
    modification of a directory's own time stamp are left out.  Printing is left out. *)
From Verif Require Import PyBase PyPath SolverModel InvokerModel CoreModel.
Local Open Scope string_scope.
Local Open Scope list_scope.

Inductive node := Reg (content : string) | Dir.
Definition fsys := string -> option (nat * node).
Definition fs_set (fs : fsys) (p : string) (e : option (nat * node)) : fsys :=
  fun q => if String.eqb q p then e else fs q.

(** What [cat p] shows, if [p] is a regular file. *)
Definition contents (fs : fsys) (p : string) : option string :=
  match fs p with Some (_, Reg v) => Some v | _ => None end.

(** cache.py:8-14 [fileinfo]. *)
Record finfo := FI { fi_exist : bool; fi_mtime : nat }.
Definition stat (fs : fsys) (p : string) : finfo :=
  match fs p with Some (m, _) => FI true m | None => FI false 0 end.
Definition cache := list (string * finfo).

(** cache.py:16-17 [update_info]. *)
Definition update_info (fs : fsys) (ca : cache) (p : string) : cache := sset ca p (stat fs p).
(** cache.py:19-28 [get_info]. *)
Definition get_info (fs : fsys) (ca : cache) (p : string) : finfo * cache :=
  match sget ca p with
  | Some x => (x, ca)
  | None => let ca' := update_info fs ca p in
            (match sget ca' p with Some x => x | None => stat fs p end, ca')
  end.

(** What a rule does to the content of its target, given the contents of all files;
    [None]: it fails. *)
Definition buildfun := (string -> option string) -> option string.

(** Kinds of targets.  [MFile]: FileTarget with a rule (make.py:117-188).  [MSource]: the
    FileTarget made by [source] (211-221, 345-360).  [MDir]: DirectoryTarget (191-208).
    [MSet]: MakeFileTarget (83-114).  [MOther]: targets of core.py. *)
Inductive mkind :=
| MFile (force : bool) (build : buildfun)
| MSource
| MDir
| MSet
| MOther.

Section Make.
  Variable canon : string -> string.
  Variable kind : nat -> mkind.
  (** [update_if] of the targets of core.py. *)
  Variable other_if : nat -> res bool.

  Definition mstate : Type := core * cache.

  (** [mtime()]: make.py:143-145 (FileTarget), 197-198 (DirectoryTarget), 105-114
      (MakeFileTarget).  Targets of core.py have no such method.  Recursion through file
      sets is bounded by the fuel. *)
  Fixpoint mtime (fs : fsys) (fuel : nat) (c : core) (ca : cache) (i : nat) : res (nat * cache) :=
    match fuel with
    | 0 => OutOfFuel
    | S fuel' =>
        match kind i with
        | MFile _ _ | MSource => let '(x, ca') := get_info fs ca (t_name (obj c i)) in Ok (fi_mtime x, ca')
        | MDir => Ok (0, ca)
        | MOther => Raise (AttributeError "mtime")
        | MSet =>
            (fix loop (ds : list string) (maxtime : nat) (ca : cache) : res (nat * cache) :=
               match ds with
               | [] => Ok (maxtime, ca)
               | d :: ds' =>
                   do! j <- core_get canon c d;
                   do! (m, ca') <- mtime fs fuel' c ca j;
                   loop ds' (if Nat.ltb maxtime m then m else maxtime) ca'
               end) (t_deps (obj c i)) 0 ca
        end
    end.
  (** Enough for every acyclic nesting of file sets. *)
  Definition mt_fuel (c : core) : nat := S (List.length (c_heap c)).

  (** make.py:168-172: the loop over the dependencies ([is_file()] is True for every target
      that has [mtime], 102-103). *)
  Fixpoint max_mtime (fs : fsys) (c : core) (l : list nat) (maxtime : nat) (ca : cache) : res (nat * cache) :=
    match l with
    | [] => Ok (maxtime, ca)
    | j :: l' =>
        do! (m, ca') <- mtime fs (mt_fuel c) c ca j;
        max_mtime fs c l' (if Nat.ltb maxtime m then m else maxtime) ca'
    end.

  (** make.py:164-177 [FileTarget.internal_update_if]. *)
  Definition file_update_if (fs : fsys) (force : bool) (s : mstate) (i : nat) : res (bool * mstate) :=
    let '(c, ca) := s in
    let p := t_name (obj c i) in
    if force then Ok (true, (c, ca))
    else
      let '(x, ca1) := get_info fs ca p in
      if negb (fi_exist x) then Ok (true, (c, ca1))
      else
        do! (l, c1) <- get_deplist canon c i;
        do! (maxtime, ca2) <- max_mtime fs c1 l 0 ca1;
        let '(y, ca3) := get_info fs ca2 p in
        Ok (Nat.ltb (fi_mtime y) maxtime, (c1, ca3)).

  (** [update_if] of a target: make.py:134 dispatches to 164-177 or 192-195; a file set has
      the default of UpdatableTarget, core.py:313. *)
  Definition mk_update_if (fs : fsys) (s : mstate) (i : nat) : res (bool * mstate) :=
    match kind i with
    | MFile force _ => file_update_if fs force s i
    | MSource => file_update_if fs false s i          (* force=False, make.py:121 *)
    | MDir => let '(x, ca') := get_info fs (snd s) (t_name (obj (fst s) i)) in
              Ok (negb (fi_exist x), (fst s, ca'))
    | MSet => Ok (false, s)
    | MOther => do! b <- other_if i; Ok (b, s)
    end.

  (** core.py:336-347 with the file cache threaded through. *)
  Fixpoint mrec_need (fs : fsys) (fuel : nat) (s : mstate) (i : nat) : res (bool * mstate) :=
    match fuel with
    | 0 => OutOfFuel
    | S fuel' =>
        match t_class (obj (fst s) i) with
        | Plain => Raise (AttributeError "recursive_update_needed_request")
        | Updatable =>
            match t_need (obj (fst s) i) with
            | Some b => Ok (b, s)
            | None =>
                do! (u, s1) <- mk_update_if fs s i;
                if u then Ok (true, s1)
                else
                  do! (l, c2) <- get_deplist canon (fst s1) i;
                  (fix loop (l : list nat) (s : mstate) : res (bool * mstate) :=
                     match l with
                     | [] => Ok (false, s)
                     | j :: l' =>
                         do! (b, s') <- mrec_need fs fuel' s j;
                         if b then Ok (true, s') else loop l' s'
                     end) l (c2, snd s1)
            end
        end
    end.
  (** core.py:322-323, 212-213, 46-54. *)
  Definition meval_one (fs : fsys) (fuel : nat) (s : mstate) (i : nat) : res mstate :=
    match t_class (obj (fst s) i) with
    | Plain => Ok s
    | Updatable => do! (b, s') <- mrec_need fs fuel s i;
                   Ok (set_need (fst s') i (Some b), snd s')
    end.
  Fixpoint meval_all (fs : fsys) (fuel : nat) (ids : list nat) (s : mstate) : res mstate :=
    match ids with
    | [] => Ok s
    | i :: ids' => do! s' <- meval_one fs fuel s i; meval_all fs fuel ids' s'
    end.
  Definition mevaluate (fs : fsys) (fuel : nat) (s : mstate) : res mstate :=
    let c' := nullify (fst s) in meval_all fs fuel (dvalues (c_targets c')) (c', snd s).

  (** ** Running rules. *)

  (** The state that a build works on.  [w_base]: time when the build started; [w_now]: time
      of the latest write; [w_ran]: targets whose [build] was called, with success or not
      (not in the program; it records what happened). *)
  Record world := WD {
    w_fs : fsys;
    w_cache : cache;
    w_base : nat;
    w_now : nat;
    w_ran : list (string * bool) }.

  (** The files that target [i] names as dependencies, directly or through file sets. *)
  Inductive input (c : core) : nat -> nat -> Prop :=
  | input_file i d j : In d (t_deps (obj c i)) -> core_get canon c d = Ok j ->
      (kind j = MSource \/ exists f b, kind j = MFile f b) -> input c i j
  | input_set i d s j : In d (t_deps (obj c i)) -> core_get canon c d = Ok s ->
      kind s = MSet -> input c s j -> input c i j.

  (** Python's os.makedirs: the missing ancestors are created too. *)
  Fixpoint ancestors_fuel (n : nat) (p : string) : list string :=
    match n with
    | 0 => []
    | S n' => let d := dirname p in if String.eqb d p then [] else d :: ancestors_fuel n' d
    end.
  Definition ancestors (p : string) : list string := ancestors_fuel (String.length p) p.
  Definition makedirs (fs : fsys) (p : string) (m : nat) : fsys :=
    fun q => if String.eqb q p then Some (m, Dir)
             else match fs q with
                  | Some e => Some e
                  | None => if smem String.eqb q (ancestors p) then Some (m, Dir) else None
                  end.
  Definition is_reg (fs : fsys) (p : string) : bool :=
    match fs p with Some (_, Reg _) => true | _ => false end.

  (** Whether failing rules may leave an output behind. *)
  Variable partial_outputs : bool.

  (** [FileTarget.update] (make.py:179-182) for files and sources, [UpdatableTarget.update]
      (core.py:333-334) for file sets.
      A rule reads the contents of files and, if it succeeds, leaves the new content in its
      target.  The time stamp is later than the start of the build and not earlier than those
      of the declared inputs (the rule starts after these are finished).  A rule that fails
      returns False or raises; it leaves the target alone or deletes it, or
      ([partial_outputs]) leaves something there.  No rule touches other files.
      [build] of a source only warns (217-218) and its result is None. *)
  Inductive mk_update (c : core) (i : nat) (w : world) : tres -> world -> Prop :=
  | up_rule force b v m :
      kind i = MFile force b -> b (contents (w_fs w)) = Some v ->
      (w_base w < m)%nat ->
      (forall j mj nj, input c i j -> w_fs w (t_name (obj c j)) = Some (mj, nj) -> (mj <= m)%nat) ->
      let p := t_name (obj c i) in
      let fs' := fs_set (w_fs w) p (Some (m, Reg v)) in
      mk_update c i w RNotFalse
        (WD fs' (update_info fs' (w_cache w) p) (w_base w) (Nat.max (w_now w) m) (w_ran w ++ [(p, true)]))
  | up_rule_fails force b fs' now' r ca' :
      kind i = MFile force b -> b (contents (w_fs w)) = None ->
      let p := t_name (obj c i) in
      (fs' = w_fs w /\ now' = w_now w \/
       fs' = fs_set (w_fs w) p None /\ now' = w_now w \/
       partial_outputs = true /\ (exists m v, (w_base w < m)%nat /\
         fs' = fs_set (w_fs w) p (Some (m, Reg v)) /\ now' = Nat.max (w_now w) m)) ->
      (r = RFalse /\ ca' = update_info fs' (w_cache w) p \/ r = RExn /\ ca' = w_cache w) ->
      mk_update c i w r (WD fs' ca' (w_base w) now' (w_ran w ++ [(p, false)]))
  | up_source :
      kind i = MSource ->
      let p := t_name (obj c i) in
      mk_update c i w RNotFalse
        (WD (w_fs w) (update_info (w_fs w) (snd (get_info (w_fs w) (w_cache w) p)) p)
            (w_base w) (w_now w) (w_ran w ++ [(p, true)]))
  | up_set : kind i = MSet -> mk_update c i w RNotFalse w
  | up_other r w' : kind i = MOther -> mk_update c i w r w'.

  (** [DirectoryTarget.update_if_need] (make.py:200-204) with [DirectoryKeeper] (76-80):
      existence is looked up when the task runs, through the cache.  os.makedirs raises if
      the path exists or an ancestor is no directory. *)
  Inductive mk_dir (c : core) (i : nat) (w : world) : tres -> world -> Prop :=
  | dir_exists x ca' :
      get_info (w_fs w) (w_cache w) (t_name (obj c i)) = (x, ca') ->
      fi_exist x = true ->
      mk_dir c i w RNotFalse (WD (w_fs w) ca' (w_base w) (w_now w) (w_ran w))
  | dir_created x ca' m :
      let p := t_name (obj c i) in
      get_info (w_fs w) (w_cache w) p = (x, ca') ->
      fi_exist x = false -> w_fs w p = None -> existsb (is_reg (w_fs w)) (ancestors p) = false ->
      (w_base w < m)%nat ->
      let fs' := makedirs (w_fs w) p m in
      mk_dir c i w RNotFalse
        (WD fs' (update_info fs' ca' p) (w_base w) (Nat.max (w_now w) m) (w_ran w ++ [(p, true)]))
  | dir_raises x ca' :
      let p := t_name (obj c i) in
      get_info (w_fs w) (w_cache w) p = (x, ca') ->
      fi_exist x = false -> w_fs w p <> None \/ existsb (is_reg (w_fs w)) (ancestors p) = true ->
      mk_dir c i w RExn (WD (w_fs w) ca' (w_base w) (w_now w) (w_ran w ++ [(p, false)])).

  (** [update_if_need] of target number [k] of recurse_update (core.py:355-362, 378-386). *)
  Definition mk_task (c : core) (objs : list nat) (k : nat) (w : world) (r : tres) (w' : world) : Prop :=
    match kind (nth k objs (List.length (c_heap c))) with
    | MDir => mk_dir c (nth k objs (List.length (c_heap c))) w r w'
    | _ => task_behaviour c (mk_update c) objs k w r w'
    end.
End Make.

(** ** clean (make.py:91-97) *)
Section Clean.
  Variable canon : string -> string.
  Variable kind : nat -> mkind.
  (** make.py:160-162 [clr]: [rm -f {tgt}] removes a regular file and leaves a directory
      alone; 57-58 [update_info].  206-208: nothing for directories.  219, 358: sources have
      [clr = None]. *)
  Definition clr (c : core) (i : nat) (s : fsys * cache) : fsys * cache :=
    let p := t_name (obj c i) in
    match kind i with
    | MFile _ _ =>
        let fs' := if is_reg (fst s) p then fs_set (fst s) p None else fst s in
        (fs', update_info fs' (snd s) p)
    | _ => s
    end.
  Definition has_clr (i : nat) : bool := match kind i with MFile _ _ | MDir => true | _ => false end.
  (** make.py:278-283 [if_file_and_exist]. *)
  Definition if_file_and_exist (c : core) (i : nat) (s : fsys * cache) : bool * (fsys * cache) :=
    match kind i with
    | MFile _ _ | MSource | MDir =>
        let '(x, ca') := get_info (fst s) (snd s) (t_name (obj c i)) in (fi_exist x, (fst s, ca'))
    | _ => (false, s)
    end.
  Fixpoint clean_loop (c : core) (l : list nat) (s : fsys * cache) : fsys * cache :=
    match l with
    | [] => s
    | i :: l' =>
        let '(b, s1) := if_file_and_exist c i s in
        clean_loop c l' (if b && has_clr i then clr c i s1 else s1)
    end.
  Definition clean (c : core) (i : nat) (s : fsys * cache) : res (fsys * cache) :=
    do! (names, c1) <- depends_as_set canon c (ByName (t_name (obj c i))) true;
    do! ids <- mapM (core_get canon c1) names;
    Ok (clean_loop c1 ids s).
End Clean.
