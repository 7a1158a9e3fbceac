(** Model of the actions of the targets m, cxxm and binutils that licant registers itself:
    licant/modules.py:160-198, licant/cxx_modules.py:595-638, licant/cxx_make.py:286-296, 321-325.
    What is printed is kept as data. *)
From Verif Require Import PyBase PyPath SolverModel InvokerModel CoreModel CliModel ModulesModel.
Local Open Scope string_scope.
Local Open Scope list_scope.

(** sorted(l, key=key) for strings: stable, by character codes. *)
Section Sort.
  Context {A : Type}.
  Variable key : A -> string.
  Fixpoint sort_insert (x : A) (l : list A) : list A :=
    match l with
    | [] => [x]
    | y :: l' => if String.leb (key x) (key y) then x :: l else y :: sort_insert x l'
    end.
  Definition sort_by (l : list A) : list A := fold_right sort_insert [] l.
End Sort.

(** re.search for patterns of one character; longer patterns are left to [other].  [None]: re.error.
    Python's sre_parse: '*', '+', '?' have nothing to repeat, '(', ')', '[' and '\' are incomplete;
    '^', '$' and '|' match the empty string; '.' is any character but newline; the others (also
    '{', '}' and ']') stand for themselves. *)
Definition newline : ascii := Ascii.ascii_of_nat 10.
Fixpoint some_char (f : ascii -> bool) (s : string) : bool :=
  match s with EmptyString => false | String c s' => f c || some_char f s' end.
Definition one_of (c : ascii) (s : string) : bool := some_char (Ascii.eqb c) s.
Definition char_search (c : ascii) (s : string) : option bool :=
  if one_of c "*+?()[\" then None
  else if one_of c "^$|" then Some true
  else if Ascii.eqb c "."%char then Some (some_char (fun x => negb (Ascii.eqb x newline)) s)
  else Some (some_char (Ascii.eqb c) s).

Section Info.
  Variable other : string -> string -> option bool.
  Definition re_search (pat s : string) : option bool :=
    match pat with String c EmptyString => char_search c s | _ => other pat s end.

  Fixpoint filter_search (pat : string) (l : list string) : res (list string) :=
    match l with
    | [] => Ok []
    | m :: l' =>
        match re_search pat m with
        | None => Raise (PlainException "re.error")
        | Some b => do! r <- filter_search pat l'; Ok (if b then m :: r else r)
        end
    end.
  (** print_modules_list, modules.py:160-173: the lines (name, implementations). *)
  Definition print_modules_list (lib : mlib) (args : list string) : res (list (string * list string)) :=
    match l_mods lib with
    | [] => Ok []                                                       (* 161-163: a message only *)
    | _ =>
        let mkeys := sort_by (fun k => k) (map fst (l_mods lib)) in      (* 165 *)
        do! ks <- (match args with [] => Ok mkeys | a :: _ => filter_search a mkeys end);
        Ok (flat_map (fun k => match sget (l_mods lib) k with
                               | Some (Variant impls) => [(k, map fst impls)]
                               | _ => []
                               end) ks)
    end.
  (** print_module, modules.py:176-186: the module that is printed; None: the usage text. *)
  Definition print_module (lib : mlib) (args : list string) : res (option nat * mlib) :=
    match args with
    | [] => Ok (None, lib)
    | [n] => do! (m, l) <- get_default lib n; Ok (Some m, l)
    | n :: i :: _ => do! (m, l) <- get lib n (Some i); Ok (Some m, l)
    end.

  (** print_collect_list, cxx_modules.py:595-606: the lines (name, implementation); every module has
      the attribute impl (modules.py:24-26). *)
  Definition mod_impl (lib : mlib) (m : nat) : option string :=
    match nth_error (l_heap lib) m with Some r => m_impl r | None => None end.
  Definition print_collect_list (fuel : nat) (lib : mlib) (args : list string)
      : res (option (list (string * option string)) * mlib) :=
    match args with
    | [] => Ok (None, lib)
    | n :: _ =>
        do! (m, lib1) <- get lib n None;
        do! (ms, lib2, _) <- collect_modules fuel lib1 m;
        Ok (Some (map (fun x => (mod_name lib2 x, mod_impl lib2 x)) (sort_by (mod_name lib2) ms)), lib2)
    end.
  (** included_from, cxx_modules.py:617-626: the lines (name, included_from); the attribute is the
      one set at the end of collect_modules (424-425). *)
  Definition print_included_from (fuel : nat) (lib : mlib) (args : list string)
      : res (option (list (string * list string)) * mlib) :=
    match args with
    | [] => Ok (None, lib)
    | n :: _ =>
        do! (m, lib1) <- get lib n None;
        do! (ms, lib2, inc) <- collect_modules fuel lib1 m;
        Ok (Some (map (fun x => (mod_name lib2 x, match sget inc (mod_name lib2 x) with Some s => s | None => [] end))
                      (sort_by (mod_name lib2) ms)), lib2)
    end.
  (** print_finalopts, cxx_modules.py:609-614.  [finalopts i] is the attribute of the object [i]
      (among the targets that cxx_modules makes only those of [objects] have it, 563); [default] is
      licant.cli.default_target. *)
  Definition print_finalopts {V} (canon : string -> string) (finalopts : nat -> option V) (c : core) (default : option string)
      (args : list string) : res V :=
    let print nm :=
      do! i <- core_get canon c nm;
      match finalopts i with Some v => Ok v | None => Raise (AttributeError "finalopts") end in
    match args, default with
    | n :: _, _ => print n                                               (* 610-611 *)
    | [], Some n => print n                                              (* 613 *)
    | [], None =>                                                        (* core.py:78-82 with None *)
        match sget (c_targets c) "None" with
        | Some i => match finalopts i with Some v => Ok v | None => Raise (AttributeError "finalopts") end
        | None => Raise (TypeError "realpath")
        end
    end.
End Info.

(** disassembler(target, core=default_core(), *args), cxx_make.py:286-296, called with words: the
    first one becomes core.  The rest of the function is not reached. *)
Definition disassembler (words : list string) : res unit :=
  match words with
  | [] => Raise (PlainException "IndexError")                           (* 290: args[0] *)
  | _ :: _ => Raise (AttributeError "'str' object has no attribute 'get'")
  end.

(** The three targets as the command line sees them: modules.py:189-196, cxx_modules.py:629-636,
    cxx_make.py:321-323; core.py:190-198 puts the functions into the object and adds the actions. *)
Definition with_functions (fs : list (string * nat)) : tinfo :=
  TI false "action" (target_actions ++ map fst fs)
     (lookup (map (fun f => (fst f, ACallable (AR (snd f) None))) fs ++ target_attrs)).
Definition m_info : tinfo := with_functions [("list", 1); ("print", 1)].
Definition cxxm_info : tinfo := with_functions [("collect_modules", 1); ("included_from", 1); ("finalopts", 1)].
Definition binutils_info : tinfo := with_functions [("disasm", 1)].
