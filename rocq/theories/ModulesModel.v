(** Model of licant/modules.py (the library of modules) and of collect_modules in
    licant/cxx_modules.py. *)
From Verif Require Import PyBase PyPath.
Local Open Scope string_scope.
Local Open Scope list_scope.

(** ** Values of options

    The keyword arguments of a module.  Elements of a list: strings, pairs of strings, submodule
    objects (modules.py:137-150) and anything else, known by its class name.  Tuples other than
    pairs of strings are not modelled.  [VOther] stands for a value that is not a string, a list,
    a toolchain or None, and cannot be iterated over or added to one of these. *)
Inductive elem : Type :=
| EStr (s : string)
| EPair (a b : string)
| ESub (name : string) (impl : option string)
| EOther (cls : string).

(** cxx_make.py:18-29.  A missing moc or uic (None) is written "None" by str.format. *)
Record toolchain : Type := TC {
  tc_cxx : string; tc_cc : string; tc_ld : string; tc_ar : string; tc_objdump : string;
  tc_objcopy : string; tc_moc : string; tc_uic : string }.

Inductive oval : Type :=
| VStr (s : string)
| VList (l : list elem)
| VTool (t : toolchain)
| VNone
| VOther (cls : string).

Definition opts := list (string * oval).

(** [for x in v] (a string yields its characters). *)
Fixpoint chars (s : string) : list elem :=
  match s with EmptyString => [] | String c s' => EStr (String c EmptyString) :: chars s' end.
Definition iter_oval (v : oval) : res (list elem) :=
  match v with
  | VStr s => Ok (chars s)
  | VList l => Ok l
  | _ => Raise (TypeError "object is not iterable")
  end.

(** ** Modules

    modules.py:10-17.  [m_impl] is the attribute impl that addimpl sets (26); [m_stack] is None
    for the module made by get (63).  The script and the directory are kept in the options only
    (16-17). *)
Record modrec : Type := MR {
  m_name : string; m_impl : option string; m_stack : option (list string); m_opts : opts }.

(** The values of ModuleLibrary.modules: a VariantModule with its dictionary impls
    (modules.py:20-26), or a plain Module, which the code tests for (36, 56) but never stores.
    Modules are indices into the heap. *)
Inductive entry : Type :=
| Stand (m : nat)
| Variant (impls : list (string * nat)).

(** modules.py:29-32, with the heap of all Module objects. *)
Record mlib : Type := ML {
  l_heap : list modrec; l_mods : list (string * entry); l_def : list (string * string) }.
Definition mlib0 : mlib := ML [] [] [].

(** Module.__init__, modules.py:11-17. *)
Definition mk_opts (script dir : oval) (kw : opts) : opts :=
  sset (sset kw "__script__" script) "__dir__" dir.

(** VariantModule.addimpl, modules.py:24-26, called on a module just created: the new object is
    put on the heap with its impl attribute, and into the dictionary of the variant module
    [name].  (A VariantModule is only reachable through the library.) *)
Definition addimpl (lib : mlib) (name impl : string) (impls : list (string * nat))
    (stack : option (list string)) (o : opts) : nat * mlib :=
  let id := List.length (l_heap lib) in
  (id, ML (l_heap lib ++ [MR name (Some impl) stack o])
          (sset (l_mods lib) name (Variant (sset impls impl id))) (l_def lib)).

(** register_impl, modules.py:34-45 (with the construction of the module in
    implementation, 123-129). *)
Definition register_impl (lib : mlib) (name impl : string) (stack : list string) (o : opts)
    : res mlib :=
  match sget (l_mods lib) name with
  | Some (Stand _) => Raise (SystemExit "Attempt to register the module again")
  | Some (Variant impls) => Ok (snd (addimpl lib name impl impls (Some stack) o))
  | None => Ok (snd (addimpl lib name impl [] (Some stack) o))
  end.

(** ModuleLibrary.get with an implementation, modules.py:47-68. *)
Definition get_impl (lib : mlib) (name impl : string) : res (nat * mlib) :=
  match sget (l_mods lib) name with
  | None => Raise (SystemExit "The missing module was requested")
  | Some (Stand _) => Raise (SystemExit "stand by module is deprecated")
  | Some (Variant impls) =>
      match sget impls impl with
      | Some m => Ok (m, lib)
      | None =>
          if String.eqb impl "__none__" then
            Ok (addimpl lib name impl impls None (mk_opts VNone VNone []))
          else Raise (SystemExit "Unregistred implementation")
      end
  end.

(** ModuleLibrary.get_default, modules.py:92-108. *)
Definition get_default (lib : mlib) (name : string) : res (nat * mlib) :=
  match sget (l_def lib) name with
  | None =>
      if shas (l_mods lib) name
      then Raise (SystemExit "Doesn`t have default impl of that module")
      else Raise (SystemExit "Unregistred module")
  | Some i => get_impl lib name i
  end.

(** ModuleLibrary.get, modules.py:47-68. *)
Definition get (lib : mlib) (name : string) (impl : option string) : res (nat * mlib) :=
  if shas (l_mods lib) name then
    match impl with None => get_default lib name | Some i => get_impl lib name i end
  else Raise (SystemExit "The missing module was requested").

(** [x.stack[-1]] *)
Definition stack_top (lib : mlib) (m : nat) : res string :=
  match nth_error (l_heap lib) m with
  | Some r =>
      match m_stack r with
      | Some s => match rev s with t :: _ => Ok t | [] => Raise (PlainException "IndexError") end
      | None => Raise (TypeError "'NoneType' object is not subscriptable")
      end
  | None => Raise (AttributeError "stack")
  end.

(** ModuleLibrary.set_defimpl, modules.py:70-81. *)
Definition set_defimpl (lib : mlib) (name impl : string) (force : bool) : res mlib :=
  match sget (l_def lib) name with
  | Some old =>
      if force then Ok (ML (l_heap lib) (l_mods lib) (sset (l_def lib) name impl))
      else
        do! (m1, lib1) <- get lib name (Some old);
        do! _ <- stack_top lib1 m1;
        do! (m2, lib2) <- get lib1 name (Some impl);
        do! _ <- stack_top lib2 m2;
        Raise (SystemExit "Default implementation for module setted twice")
  | None => Ok (ML (l_heap lib) (l_mods lib) (sset (l_def lib) name impl))
  end.

(** implementation and module, modules.py:114-134; module_default_implementation, 156-157.
    [below ++ [top]] is scriptq.stack, so last() is [top] and curdir() its directory
    (scripter.py:27-31). *)
Definition implementation (lib : mlib) (name impl : string) (default : bool)
    (below : list string) (top : string) (kw : opts) : res mlib :=
  do! lib1 <- register_impl lib name impl (below ++ [top])
                (mk_opts (VStr top) (VStr (dirname top)) kw);
  if default then set_defimpl lib1 name impl true else Ok lib1.
Definition module (lib : mlib) (name : string) (impl : option string) (default : bool)
    (below : list string) (top : string) (kw : opts) : res mlib :=
  match impl with
  | Some i => implementation lib name i default below top kw
  | None => implementation lib name "__default__" true below top kw
  end.

(** ** Histories: what scripts do with the library *)
Inductive libop : Type :=
| OModule (name : string) (impl : option string) (default : bool)
          (below : list string) (top : string) (kw : opts)
| OImplementation (name impl : string) (default : bool)
          (below : list string) (top : string) (kw : opts)
| ODefimpl (name impl : string)
| OSetDef (name impl : string) (force : bool)
| OGet (name : string) (impl : option string).

Definition lib_op (lib : mlib) (o : libop) : res mlib :=
  match o with
  | OModule n i d b t kw => module lib n i d b t kw
  | OImplementation n i d b t kw => implementation lib n i d b t kw
  | ODefimpl n i => set_defimpl lib n i true
  | OSetDef n i f => set_defimpl lib n i f
  | OGet n i => do! (_, lib1) <- get lib n i; Ok lib1
  end.
Fixpoint lib_run (lib : mlib) (h : list libop) : res mlib :=
  match h with
  | [] => Ok lib
  | o :: h' => do! lib1 <- lib_op lib o; lib_run lib1 h'
  end.

(** ** collect_modules, cxx_modules.py:346-429

    [c_dep] is mdepends, [c_queue] mdepends_default (a FIFO), [c_key] the counter of SortKey,
    [c_keys] the attribute _SortKey__sortkey of the modules, [c_inc] included_from. *)
Record cst : Type := CS {
  c_lib : mlib; c_dep : list (string * nat); c_queue : list string; c_key : nat;
  c_keys : list (nat * nat); c_inc : list (string * list string) }.

(** add_included_from, 362-366. *)
Definition add_included (inc : list (string * list string)) (name from : string) :=
  match sget inc name with
  | Some s => sset inc name (sadd String.eqb s from)
  | None => sset inc name [from]
  end.
(** specify_implementation, 368-371. *)
Definition specify (st : cst) (lib : mlib) (name : string) (m : nat) (from : string) : cst :=
  CS lib (sset (c_dep st) name m) (c_queue st) (S (c_key st)) (nset (c_keys st) m (c_key st))
     (add_included (c_inc st) name from).
(** request_implementation, 373-375. *)
Definition request (st : cst) (name from : string) : cst :=
  CS (c_lib st) (c_dep st) (c_queue st ++ [name]) (c_key st) (c_keys st)
     (add_included (c_inc st) name from).

Definition mod_name (lib : mlib) (m : nat) : string :=
  match nth_error (l_heap lib) m with Some r => m_name r | None => "" end.
Definition mod_opts (lib : mlib) (m : nat) : opts :=
  match nth_error (l_heap lib) m with Some r => m_opts r | None => [] end.

Fixpoint fold_res {A B} (f : A -> B -> res A) (l : list B) (a : A) : res A :=
  match l with
  | [] => Ok a
  | b :: l' => do! a' <- f a b; fold_res f l' a'
  end.

(** The body of the loop of the inner collect_modules, 382-407; [rec] is the recursive call. *)
Definition collect_item (rec : cst -> nat -> res cst) (m : nat) (st : cst) (md : elem)
    : res cst :=
  match md with
  | EStr n =>
      if shas (c_dep st) n then Ok st                                  (* 383-384 *)
      else Ok (request st n (mod_name (c_lib st) m))                   (* 386 *)
  | EPair n i =>
      do! (nm, lib) <- get (c_lib st) n (Some i);                      (* 389 *)
      if match sget (c_dep st) n with Some o => negb (Nat.eqb o nm) | None => false end
      then Raise (SystemExit "This module added early and it's different")   (* 391-398 *)
      else
        let st1 := specify st lib n nm (mod_name lib m) in             (* 400 *)
        if shas (mod_opts lib nm) "mdepends" then rec st1 nm           (* 402-404 *)
        else Ok st1
  | _ => Raise (SystemExit "Very strange mpdepend")                    (* 406-407 *)
  end.

(** The inner collect_modules, 377-407.  The trace output (378-379) is left out. *)
Fixpoint visit (fuel : nat) (st : cst) (m : nat) : res cst :=
  match fuel with
  | 0 => OutOfFuel
  | S f =>
      match sget (mod_opts (c_lib st) m) "mdepends" with
      | None => Raise (KeyError "mdepends")
      | Some v =>
          do! l <- iter_oval v;
          fold_res (collect_item (visit f) m) l st
      end
  end.

(** The loop 412-421. *)
Fixpoint drain (fuel : nat) (root : nat) (st : cst) : res cst :=
  match fuel with
  | 0 => OutOfFuel
  | S f =>
      match c_queue st with
      | [] => Ok st
      | n :: q =>
          let st0 := CS (c_lib st) (c_dep st) q (c_key st) (c_keys st) (c_inc st) in
          if shas (c_dep st) n then drain f root st0                   (* 414-415 *)
          else
            do! (dm, lib) <- get_default (c_lib st) n;                 (* 417 *)
            let st1 := specify st0 lib n dm (mod_name lib root) in     (* 418 *)
            do! st2 <- (if shas (mod_opts lib dm) "mdepends" then visit f st1 dm else Ok st1);
            drain f root st2
      end
  end.

(** sorted(…, key=…), 426-429: a stable sort; the key attribute of a module must be set. *)
Fixpoint insert_key (k : nat) (m : nat) (l : list (nat * nat)) : list (nat * nat) :=
  match l with
  | [] => [(k, m)]
  | (k', m') :: l' => if Nat.leb k' k then (k', m') :: insert_key k m l' else (k, m) :: l
  end.
Definition sort_keys (l : list (nat * nat)) : list (nat * nat) :=
  fold_left (fun acc km => insert_key (fst km) (snd km) acc) l [].
Fixpoint with_keys (keys : list (nat * nat)) (l : list nat) : res (list (nat * nat)) :=
  match l with
  | [] => Ok []
  | m :: l' =>
      match nget keys m with
      | None => Raise (AttributeError "_SortKey__sortkey")
      | Some k => do! r <- with_keys keys l'; Ok ((k, m) :: r)
      end
  end.
(** 423-424: every collected name must be in included_from. *)
Definition check_inc (st : cst) : res unit :=
  fold_res (fun _ n => if shas (c_inc st) n then Ok tt else Raise (KeyError n))
    (dkeys (c_dep st)) tt.

(** collect_modules, 346-429: the list of modules, with the library afterwards and the
    attribute included_from of the collected modules (by name). *)
Definition collect_modules (fuel : nat) (lib : mlib) (root : nat)
    : res (list nat * mlib * list (string * list string)) :=
  let st0 := CS lib [] [] 0 [] [] in
  do! st1 <- (if shas (mod_opts lib root) "mdepends" then visit fuel st0 root else Ok st0);
  do! st2 <- drain fuel root st1;
  do! _ <- check_inc st2;
  do! l <- with_keys (c_keys st2) (dvalues (c_dep st2));
  Ok (map snd (sort_keys l), c_lib st2, c_inc st2).
