(** Model of licant/cxx_modules.py (options of modules, object paths, modmake, task) and of the
    rules of licant/cxx_make.py. *)
From Verif Require Import PyBase PyPath UtilModel FormatModel RegModel ModulesModel.
Local Open Scope string_scope.
Local Open Scope list_scope.

(** ** Toolchains, cxx_make.py:8-12, 35-81 *)
Definition standart_toolchain : toolchain :=
  TC "c++" "cc" "ld" "ar" "objdump" "objcopy" "moc" "uic".
Definition gcc_toolchain (prefix : string) : toolchain :=
  TC (prefix ++ "g++") (prefix ++ "gcc") (prefix ++ "ld") (prefix ++ "ar") (prefix ++ "objdump")
     (prefix ++ "objcopy") "moc" "uic".
Definition clang_toolchain : toolchain :=
  TC "clang++" "clang" "ld" "ar" "objdump" "objcopy" "moc" "uic".
Definition default_toolchain (name : string) : res toolchain :=
  if String.eqb name "clang" then Ok clang_toolchain
  else if String.eqb name "gcc" then Ok (gcc_toolchain "")
  else if String.eqb name "std" then Ok standart_toolchain
  else Raise (PlainException "unknown toolchain").

(** ** The option table, cxx_modules.py:23-155

    The functions 23-122 that combine a value of the base options with one of a module. *)
Inductive fkind : Type :=
| KBase | KLocal | KConcat | KStrconcat | KConcatSrcdir | KLocalSrcdir
| KConcatLocdir | KConcatLocdir2 | KLocalIf | KToSub.
(** class solver, 15-20. *)
Record field : Type := FD { f_type : string; f_merge : fkind; f_include : fkind; f_default : oval }.
(** cxx_module_field_list, 125-155.  [tool] is the value of default_toolchain(): for an unknown
    DEFAULT_TOOLCHAIN the call raises, and with it every use of the options. *)
Definition table (tool : toolchain) : list (string * field) :=
  [ ("srcdir", FD "str" KLocal KBase (VStr "."));
    ("depends", FD "list" KLocal KBase (VList []));
    ("objects", FD "list" KLocalSrcdir KConcatSrcdir (VList []));
    ("sources", FD "list" KLocalSrcdir KConcatSrcdir (VList []));
    ("qt_moc", FD "list" KLocalSrcdir KConcatSrcdir (VList []));
    ("qt_ui", FD "list" KLocalSrcdir KConcatSrcdir (VList []));
    ("libs", FD "list" KConcat KConcat (VList []));
    ("libdirs", FD "list" KConcat KConcat (VList []));
    ("target", FD "str" KLocalIf KBase (VStr "target"));
    ("include_paths", FD "list" KConcatLocdir KConcatLocdir (VList []));
    ("cxxstd", FD "str" KLocalIf KLocalIf (VStr "c++17"));
    ("ccstd", FD "str" KLocalIf KLocalIf (VStr "c11"));
    ("cxx_flags", FD "str" KStrconcat KStrconcat (VStr ""));
    ("cc_flags", FD "str" KStrconcat KStrconcat (VStr ""));
    ("ld_flags", FD "str" KStrconcat KStrconcat (VStr ""));
    ("modules", FD "list" KLocal KConcat (VList []));
    ("type", FD "str" KLocal KBase (VStr "objects"));
    ("builddir", FD "str" KLocalIf KBase (VStr "build"));
    ("toolchain", FD "toolchain" KLocalIf KBase (VTool tool));
    ("optimize", FD "str" KLocalIf KBase (VStr ""));
    ("include_modules", FD "list" KToSub KBase (VList []));
    ("defines", FD "list" KConcat KConcat (VList []));
    ("ldscripts", FD "list" KConcatLocdir KConcatLocdir (VList []));
    ("local_headers", FD "list" KConcatLocdir2 KConcatLocdir2 (VList []));
    ("mdepends", FD "list" KLocal KBase (VList []));
    ("debug", FD "str" KLocalIf KBase (VStr "-g")) ].

(** [v.__class__.__name__] *)
Definition cls (v : oval) : string :=
  match v with
  | VStr _ => "str" | VList _ => "list" | VTool _ => "toolchain" | VNone => "NoneType"
  | VOther c => c
  end.
(** [a + b] (a value of another class is not added to strings and lists). *)
Definition padd (a b : oval) : res oval :=
  match a, b with
  | VList x, VList y => Ok (VList (x ++ y))
  | VStr x, VStr y => Ok (VStr (x ++ y)%string)
  | _, _ => Raise (TypeError "unsupported operand type(s) for +")
  end.
Fixpoint map_res {A B} (f : A -> res B) (l : list A) : res (list B) :=
  match l with
  | [] => Ok []
  | a :: l' => do! b <- f a; do! r <- map_res f l'; Ok (b :: r)
  end.
(** An argument of os.path.join. *)
Definition path_arg (v : oval) : res string :=
  match v with VStr s => Ok s | _ => Raise (TypeError "expected str, bytes or os.PathLike object") end.
Definition path_elem (e : elem) : res string :=
  match e with EStr s => Ok s | _ => Raise (TypeError "expected str, bytes or os.PathLike object") end.
(** [o["__dir__"]] as the first argument of os.path.join. *)
Definition dir_of (o : opts) : res string :=
  match sget o "__dir__" with None => Raise (KeyError "__dir__") | Some v => path_arg v end.
(** [(e[0], e[1])]; a string is indexed by characters. *)
Definition pair_of (e : elem) : res (string * string) :=
  match e with
  | EPair a b => Ok (a, b)
  | EStr (String a (String b _)) => Ok (String a "", String b "")
  | EStr _ => Raise (PlainException "IndexError")
  | _ => Raise (TypeError "object is not subscriptable")
  end.
(** modules.py:137-150; of an object of another class only the class name is known. *)
Definition to_submodule (e : elem) : elem :=
  match e with
  | EStr n => ESub n None
  | EPair n i => ESub n (Some i)
  | ESub n i => ESub n i
  | EOther c => EOther c
  end.

(** special, modules.py:7 *)
Definition special (k : string) : bool := String.eqb k "__script__" || String.eqb k "__dir__".

Inductive mode : Type := Merge | Include.

Section Options.
  Variable home : string.
  Variable tool : toolchain.

  (** The lambdas of 58-60, 79-81: [os.path.join(__dir__, srcdir, expanduser(p))]. *)
  Definition srcdir_path (tlocal : opts) (e : elem) : res elem :=
    do! d <- dir_of tlocal;
    do! s <- path_arg (match sget tlocal "srcdir" with Some v => v | None => VStr "" end);
    do! p <- path_elem e;
    Ok (EStr (path_joins d [s; expanduser home p])).
  (** The lambda of 95-96. *)
  Definition locdir_path (tlocal : opts) (e : elem) : res elem :=
    do! d <- dir_of tlocal;
    do! p <- path_elem e;
    Ok (EStr (path_join d (expanduser home p))).
  (** The comprehension of 107-108. *)
  Definition locdir_pair (tlocal : opts) (e : elem) : res elem :=
    do! (a, b) <- pair_of e;
    do! d <- dir_of tlocal;
    Ok (EPair a (path_join d b)).

  (** 23-122; [local] is VNone if the module does not have the option. *)
  Definition combine (k : fkind) (base local : oval) (dflt : oval) (tlocal : opts) : res oval :=
    match k with
    | KBase => Ok base                                                 (* 23-24 *)
    | KLocal => match local with VNone => Ok dflt | _ => Ok local end  (* 27-30 *)
    | KConcat =>                                                       (* 33-38 *)
        padd (match base with VNone => VList [] | _ => base end)
             (match local with VNone => VList [] | _ => local end)
    | KStrconcat =>                                                    (* 41-44 *)
        match local with
        | VNone => Ok base
        | _ => do! b <- padd base (VStr " "); padd b local
        end
    | KConcatSrcdir =>                                                 (* 47-65 *)
        match local with
        | VNone => padd base (VList [])
        | _ => do! l <- iter_oval local; do! r <- map_res (srcdir_path tlocal) l;
               padd base (VList r)
        end
    | KLocalSrcdir =>                                                  (* 68-84 *)
        match local with
        | VNone => Ok (VList [])
        | _ => do! l <- iter_oval (match local with VStr s => VList [EStr s] | _ => local end);
               do! r <- map_res (srcdir_path tlocal) l;
               Ok (VList r)
        end
    | KConcatLocdir =>                                                 (* 87-99 *)
        match local with
        | VNone => Ok base
        | _ => do! l <- iter_oval (match local with VStr s => VList [EStr s] | _ => local end);
               do! r <- map_res (locdir_path tlocal) l;
               padd base (VList r)
        end
    | KConcatLocdir2 =>                                                (* 102-109 *)
        match local with
        | VNone => Ok base
        | _ => do! l <- iter_oval local; do! r <- map_res (locdir_pair tlocal) l;
               padd base (VList r)
        end
    | KLocalIf => match local with VNone => Ok base | _ => Ok local end   (* 112-113 *)
    | KToSub =>                                                        (* 116-122 *)
        do! l <- iter_oval (match local with VNone => VList [] | _ => local end);
        padd (match base with VNone => VList [] | _ => base end) (VList (map to_submodule l))
    end.

  (** CXXModuleOptions.check, 162-176. *)
  Definition check_item (kv : string * oval) : res unit :=
    let '(k, v) := kv in
    if special k then Ok tt
    else match sget (table tool) k with
         | None => Raise (SystemExit "Unresolved option")
         | Some f => if String.eqb (cls v) (f_type f) then Ok tt
                     else Raise (SystemExit "Option should be object of another type")
         end.
  Definition check (o : opts) : res unit := fold_res (fun _ kv => check_item kv) o tt.
  (** CXXModuleOptions.__init__, 199-203. *)
  Definition mk_options (kw : opts) : res opts := do! _ <- check kw; Ok kw.
  (** CXXModuleOptions.set_default_if_empty, 178-182. *)
  Definition set_default_if_empty (o : opts) : opts :=
    fold_left (fun o kf => if shas o (fst kf) then o else sset o (fst kf) (f_default (snd kf)))
      (table tool) o.
  (** CXXModuleOptions.merge, 184-197.  Lists are values here: where a combining function
      returns the list of the base options itself (88-89, 105-106), the two share it, which is
      visible only when modmake later appends to include_paths (465, 501): see DESIGN.md. *)
  Definition merge_item (md : mode) (other : opts) (r : opts) (kv : string * oval) : res opts :=
    let '(k, base) := kv in
    match sget (table tool) k with
    | None => Raise (KeyError k)
    | Some f =>
        do! v <- combine (match md with Merge => f_merge f | Include => f_include f end) base
                   (match sget other k with Some v => v | None => VNone end) (f_default f) other;
        Ok (r ++ [(k, v)])
    end.
  Definition merge (md : mode) (o other : opts) : res opts :=
    do! r <- fold_res (merge_item md other) o [];
    mk_options r.
End Options.

(** [o[k]] and uses of the value as a string or as a list of strings. *)
Definition oget (o : opts) (k : string) : res oval :=
  match sget o k with Some v => Ok v | None => Raise (KeyError k) end.
Definition ostr (o : opts) (k : string) : res string :=
  do! v <- oget o k;
  match v with VStr s => Ok s | _ => Raise (TypeError "expected str") end.
Definition olist (o : opts) (k : string) : res (list elem) :=
  do! v <- oget o k; iter_oval v.
Definition ostrs (o : opts) (k : string) : res (list string) :=
  do! l <- olist o k; map_res path_elem l.
Definition otool (o : opts) : res toolchain :=
  do! v <- oget o "toolchain";
  match v with VTool t => Ok t | _ => Raise (AttributeError "cxx") end.

(** ** Options of the rules, cxx_make.py:83-116 *)
Record cxxopts : Type := CO {
  co_tool : toolchain; co_inc : string; co_def : string; co_lds : string;
  co_cxx : string; co_cc : string; co_ld : string; co_srcs : string; co_opt : string }.
Definition execrule := "{opts.toolchain.cxx} {opts.ld_flags} -Wl,--start-group {srcs} {opts.ld_srcs_add} -Wl,--end-group -o {tgt} {opts.ldscripts}".
Definition dynlibrule := "{opts.toolchain.cxx} --shared {opts.ld_flags} -Wl,--start-group {srcs} {opts.ld_srcs_add} -Wl,--end-group -o {tgt} {opts.ldscripts}".
Definition statlibrule := "{opts.toolchain.ar} rcs {tgt} {srcs}".
Definition cxxobjrule := "{opts.toolchain.cxx} -c {src} -o {tgt} {opts.incopt} {opts.defopt} {opts.cxx_flags} {opts.optimize}".
Definition ccobjrule := "{opts.toolchain.cc} -c {src} -o {tgt} {opts.incopt} {opts.defopt} {opts.cc_flags} {opts.optimize}".
Definition cxxdeprule := "{opts.toolchain.cxx} -MM {src} > {tgt} {opts.incopt} {opts.defopt} {opts.cxx_flags}".
Definition ccdeprule := "{opts.toolchain.cc} -MM {src} > {tgt} {opts.incopt} {opts.defopt} {opts.cc_flags}".
Definition mocrule := "{opts.toolchain.moc} {src} > {tgt}".
Definition uicrule := "{opts.toolchain.uic} {src} > {tgt}".

(** ** The calls that register targets *)
Inductive rkind : Type := RDepend | RObject | RMoc | RUic | RLink.
(** [VSource p]: licant.make.source(p) (calls guarded by [if not has] are written like the
    others: source itself does nothing for a known path, make.py:214-215).
    [VRule kind tgt src deps rule opts force]: core.add(FileTarget(...)) of cxx_make.py; for a
    link [src] is the attribute srcs. *)
Inductive event : Type :=
| VSource (p : string)
| VCopy (src tgt : string)
| VFileset (name : string) (targets : list string)
| VRule (kind : rkind) (tgt src : string) (deps : list string) (rule : string) (o : cxxopts)
        (force : bool).

(** The attributes that Executor gives to str.format (make.py:31), as far as the rules use
    them; tgt is the canonical path (make.py:123). *)
Definition opts_obj (o : cxxopts) : pyobj :=
  PV "" [ ("toolchain", PV "" [ ("cxx", PV (tc_cxx (co_tool o)) []); ("cc", PV (tc_cc (co_tool o)) []);
                                ("ar", PV (tc_ar (co_tool o)) []); ("moc", PV (tc_moc (co_tool o)) []);
                                ("uic", PV (tc_uic (co_tool o)) []) ]);
          ("incopt", PV (co_inc o) []); ("defopt", PV (co_def o) []);
          ("ldscripts", PV (co_lds o) []); ("cxx_flags", PV (co_cxx o) []);
          ("cc_flags", PV (co_cc o) []); ("ld_flags", PV (co_ld o) []);
          ("ld_srcs_add", PV (co_srcs o) []); ("optimize", PV (co_opt o) []) ].
Definition command (cwd : string) (e : event) : fres :=
  match e with
  | VRule kind tgt src _ rule o _ =>
      format [ ("opts", opts_obj o); ("tgt", PV (realpath cwd tgt) []);
               (match kind with RLink => "srcs" | _ => "src" end, PV src []) ] rule
  | _ => FOk ""
  end.

(** cxx_make.py:124-126, 133-153, 202-222: the language of a source by its extension. *)
Inductive lang : Type := LCxx | LC | LAsm.
Definition mem (s : string) (l : list string) : bool := existsb (String.eqb s) l.
Definition lang_of (src : string) : res lang :=
  let ext := last (split_dot (basename src)) "" in
  if mem ext ["cpp"; "cxx"; "cc"] then Ok LCxx
  else if mem ext ["c"] then Ok LC
  else if mem ext ["asm"; "s"; "S"] then Ok LAsm
  else Raise (SystemExit "Unrecognized extention").

(** ** Object paths, cxx_modules.py:235-257 *)
(** [s.replace("..", "__")] *)
Fixpoint replace_dd (s : string) : string :=
  match s with
  | String a s' =>
      match s' with
      | String b t =>
          if Ascii.eqb a dot && Ascii.eqb b dot then String "_" (String "_" (replace_dd t))
          else String a (replace_dd s')
      | EmptyString => s
      end
  | EmptyString => ""
  end.
(** 242-244. *)
Definition with_prefix (prefix : option string) (s : string) : string :=
  match prefix with
  | Some pre => if String.eqb pre "" then s
                else let '(d, b) := path_split s in path_join d (pre ++ b)
  | None => s
  end.
Definition build_path (builddir ext : string) (prefix : option string) (s0 : string) : string :=
  let s := with_prefix prefix s0 in
  if isabs s then (builddir ++ changeext s ext)%string
  else normpath (path_join builddir (replace_dd (changeext s ext))).
Definition build_paths (srcs : list string) (builddir ext : string) (prefix : option string)
    : list string := map (build_path builddir ext prefix) srcs.

(** ** Making the targets of a module, cxx_modules.py:432-542 *)
(** What modmake returns first: strings (paths of objects), Target objects, and what
    [submodules_results += modmake(...)] (527) adds: a list and a CXXModuleOptions. *)
Inductive relem : Type :=
| RStr (s : string)
| RTarget (tgt : string)
| RList (l : list relem)
| ROpts (o : opts).

Section Modmake.
  Variable home : string.
  Variable tool : toolchain.
  Variable glob_ : string -> list string.          (* glob.glob *)
  Variable dfile : string -> option string.        (* text of a file, None if there is none *)

  Definition expand (l : list string) : list string :=
    flat_map (fun s => if has_star s then glob_ s else [s]) l.

  (** cxx_options_from_modopts, 209-232. *)
  Definition cxx_options (o : opts) : res cxxopts :=
    do! cxxstd <- ostr o "cxxstd";
    do! ccstd <- ostr o "ccstd";
    do! debug <- ostr o "debug";
    do! cxx_flags <- ostr o "cxx_flags";
    do! cc_flags <- ostr o "cc_flags";
    do! libdirs <- ostrs o "libdirs";
    do! libs <- ostrs o "libs";
    do! t <- otool o;
    do! inc <- ostrs o "include_paths";
    do! def <- ostrs o "defines";
    do! lds <- ostrs o "ldscripts";
    do! ld_flags <- ostr o "ld_flags";
    do! optimize <- ostr o "optimize";
    Ok (CO t (flag_prefix "-I" inc) (flag_prefix "-D" def) (flag_prefix "-T" lds)
          (String.concat " " ["-std=" ++ cxxstd; debug; cxx_flags])
          (String.concat " " ["-std=" ++ ccstd; debug; cc_flags])
          ld_flags
          (String.concat "" (map (fun l => " -L" ++ expanduser home l) libdirs) ++
           String.concat "" (map (fun l => " -l" ++ l) libs))
          optimize)%string.

  (** cxx_make.py:129-158 [object] and 193-234 [depend]. *)
  Definition object (src tgt : string) (o : cxxopts) (deps : list string) : res event :=
    do! l <- lang_of src;
    Ok (VRule RObject tgt src deps (match l with LCxx => cxxobjrule | _ => ccobjrule end) o false).
  Definition depend (src tgt : string) (o : cxxopts) (deps : list string) (force : bool) : res event :=
    do! l <- lang_of src;
    Ok (VRule RDepend tgt src deps (match l with LCxx => cxxdeprule | _ => ccdeprule end) o force).

  (** link_objects, 290-310. *)
  Fixpoint link_objects (srcs objs deps : list string) (o : cxxopts) (adddeps : list string)
      : res (list event) :=
    match srcs, objs, deps with
    | s :: srcs', ob :: objs', d :: deps' =>
        let r := cxx_read_depends (dfile d) in
        let headers := match r with Some h => h | None => [] end in
        let force := match r with Some _ => false | None => true end in
        do! e1 <- depend s d o ([s] ++ adddeps ++ headers) force;
        do! e2 <- object s ob o ([s; d] ++ adddeps ++ headers);
        do! es <- link_objects srcs' objs' deps' o adddeps;
        Ok ([VSource s] ++ map VSource headers ++ [e1; e2] ++ es)
    | _, _, _ => Ok []
    end.
  (** link_qt_moc and link_qt_ui, 313-322 (cxx_make.py:161-190). *)
  Definition link_qt (k : rkind) (rule : string) (srcs tgts : list string) (o : cxxopts)
      (adddeps : list string) : list event :=
    flat_map (fun st => [VSource (fst st); VRule k (snd st) (fst st) ([fst st] ++ adddeps) rule o false])
      (List.combine srcs tgts).

  (** include_modules, 445-455. *)
  Fixpoint include_modules (fuel : nat) (st : opts * mlib) (l : list elem) : res (opts * mlib) :=
    match fuel with
    | 0 => OutOfFuel
    | S f =>
        fold_res (fun st e =>
          match e with
          | ESub n i =>
              do! (m, lib) <- get (snd st) n i;
              do! o <- merge home tool Include (fst st) (mod_opts lib m);
              match sget (mod_opts lib m) "include_modules" with
              | Some v => do! l' <- iter_oval v; include_modules f (o, lib) l'
              | None => Ok (o, lib)
              end
          | _ => Raise (AttributeError "name")
          end) l st
    end.

  (** 437-461: the options a module is made with. *)
  Definition local_options (fuel : nat) (lib : mlib) (name : string) (impl : option string)
      (base : opts) : res (nat * opts * mlib) :=
    do! (m, lib1) <- get lib name impl;                                    (* 437 *)
    do! modopts <- mk_options tool (mod_opts lib1 m);                      (* 439 *)
    do! o1 <- merge home tool Merge base modopts;                          (* 440 *)
    do! im <- olist o1 "include_modules";
    do! (o2, lib2) <- include_modules fuel (o1, lib1) im;                  (* 457 *)
    do! (ms, lib3, _) <- collect_modules fuel lib2 m;                      (* 460-461 *)
    do! o3 <- fold_res (fun o i => merge home tool Include o (mod_opts lib3 i)) ms o2;
    Ok (m, o3, lib3).

  (** [o["include_paths"].append(p)] *)
  Definition append_path (o : opts) (p : string) : res opts :=
    do! v <- oget o "include_paths";
    match v with
    | VList l => Ok (sset o "include_paths" (VList (l ++ [EStr p])))
    | _ => Raise (AttributeError "append")
    end.
  (** 463-476. *)
  Definition local_headers (name : string) (o : opts) : res (opts * list event) :=
    do! l <- olist o "local_headers";
    do! pairs <- map_res pair_of l;
    do! b <- ostr o "builddir";
    do! o1 <- match l with [] => Ok o | _ => append_path o (b ++ "/__LOCAL_HEADERS__/")%string end;
    let path h := path_joins b ["__LOCAL_HEADERS__"; h] in
    Ok (o1, flat_map (fun hp => [VSource (snd hp); VCopy (snd hp) (path (fst hp))]) pairs
            ++ [VFileset (name ++ "__local_headers__")%string (map (fun hp => path (fst hp)) pairs)]).

  (** 491-504. *)
  Definition qt_ui_part (o : opts) (co : cxxopts) (adddeps : list string)
      : res (opts * cxxopts * list string * list event) :=
    do! ui <- olist o "qt_ui";
    match ui with
    | [] => Ok (o, co, adddeps, [])
    | _ =>
        do! b <- ostr o "builddir";
        let uidir := path_join b "ui" in
        do! l <- ostrs o "qt_ui";
        let uis := expand l in
        let hxx := build_paths uis uidir "h" (Some "ui_") in
        do! inc <- ostrs o "include_paths";
        do! o1 <- (if mem uidir inc then Ok o else append_path o uidir);
        do! co1 <- cxx_options o1;
        Ok (o1, co1, adddeps ++ hxx, link_qt RUic uicrule uis hxx co adddeps)
    end.
  (** 506-515: the additional sources, objects and dependency files. *)
  Definition qt_moc_part (o : opts) (co : cxxopts) (adddeps : list string)
      : res (list string * list string * list string * list event) :=
    do! b <- ostr o "builddir";
    do! l <- ostrs o "qt_moc";
    let mocs := expand l in
    match l with
    | [] => Ok ([], [], [], [])
    | _ =>
        let cxx := build_paths mocs b "h.cxx" None in
        Ok (cxx, build_paths mocs b "h.cxx.o" None, build_paths mocs b "h.cxx.d" None,
            link_qt RMoc mocrule mocs cxx co adddeps)
    end.

  (** 463-522: the objects of the module itself. *)
  Definition module_objects (name : string) (o : opts) : res (list string * opts * list event) :=
    do! (o1, ev1) <- local_headers name o;
    do! dl <- ostrs o1 "depends";
    let adddeps := (name ++ "__local_headers__")%string :: expand dl in           (* 476-483 *)
    do! sl <- ostrs o1 "sources";
    do! b <- ostr o1 "builddir";
    let srcs := expand sl in                                               (* 485-487 *)
    do! co <- cxx_options o1;                                              (* 489 *)
    do! (o2, co2, adddeps2, ev2) <- qt_ui_part o1 co adddeps;
    do! (msrcs, mobjs, mdeps, ev3) <- qt_moc_part o2 co2 adddeps2;
    let objs := build_paths srcs b "o" None ++ mobjs in
    do! ev4 <- link_objects (srcs ++ msrcs) objs (build_paths srcs b "d" None ++ mdeps)
                 co2 adddeps2;                                             (* 517 *)
    do! ol <- ostrs o2 "objects";                                          (* 519-522 *)
    Ok (objs ++ ol, o2, ev1 ++ ev2 ++ ev3 ++ ev4 ++ map VSource ol).

  (** [" ".join(srcs)] and [deps=srcs]. *)
  Definition rstrs (l : list relem) : res (list string) :=
    map_res (fun r => match r with RStr s => Ok s | _ => Raise (TypeError "expected str instance") end) l.
  Definition link (rule : string) (l : list relem) (o : opts) : res (list relem * list event) :=
    do! co <- cxx_options o;                                               (* 325-338 *)
    do! t <- ostr o "target";
    do! ss <- rstrs l;
    Ok ([RTarget t], [VRule RLink t (String.concat " " ss) ss rule co false]).
  (** 529-539. *)
  Definition finish (l : list relem) (o : opts) : res (list relem * list event) :=
    do! ty <- ostr o "type";
    if String.eqb ty "application" then link execrule l o
    else if String.eqb ty "shared_library" then link dynlibrule l o
    else if String.eqb ty "static_library" then link statlibrule l o
    else if String.eqb ty "objects" then Ok (l, [])
    else Raise (SystemExit "Wrong type of assemble").

  (** modmake, 436-539. *)
  Fixpoint modmake (fuel : nat) (lib : mlib) (name : string) (impl : option string) (base : opts)
      : res (list relem * opts * mlib * list event) :=
    match fuel with
    | 0 => OutOfFuel
    | S f =>
        do! (m, o, lib1) <- local_options f lib name impl base;
        do! (objs, o1, ev1) <- module_objects name o;
        do! subs <- olist o1 "modules";
        do! (rs, lib2, ev2) <-
          fold_res (fun st e =>
            let '(rs, lib, evs) := st in
            match e with
            | ESub n i =>
                do! (r, o', lib', ev) <- modmake f lib n i o1;
                Ok (rs ++ [RList r; ROpts o'], lib', evs ++ ev)            (* 527 *)
            | _ => Raise (AttributeError "name")
            end) subs ([], lib1, []);
        do! (r, ev3) <- finish (map RStr objs ++ rs) o1;
        Ok (r, o1, lib2, ev1 ++ ev2 ++ ev3)
    end.

  (** prepare_targets, 432-434, 541-542. *)
  Definition prepare_targets (fuel : nat) (lib : mlib) (name : string) (impl : option string)
      (kw : opts) : res (list relem * opts * mlib * list event) :=
    do! o <- mk_options tool kw;
    modmake fuel lib name impl (set_default_if_empty tool o).

  (** task, 545-563, called by application, shared_library, static_library and objects
      (566-579).  [below ++ [top]] is the stack of scripts, as in [module]; [default] is the
      argument of that name among the keyword arguments.  The result is what the call returns:
      the target of the link, or the fileset. *)
  Definition task (fuel : nat) (lib : mlib) (below : list string) (top : string) (name : string)
      (target : option string) (impl : option string) (type : string) (default : bool) (kw : opts)
      : res (list relem * opts * mlib * list event) :=
    if String.eqb type "objects" then
      do! lib1 <- module lib name impl default below top (("type", VStr type) :: kw);
      do! (r, o, lib2, ev) <- prepare_targets fuel lib1 name None [];
      do! ss <- rstrs r;                     (* FileSet: every dependency must be a string *)
      Ok (r, o, lib2, ev ++ [VFileset name ss])
    else
      let tgt := match target with Some t => t | None => name end in
      do! lib1 <- module lib (name ++ "__module")%string impl default below top
                    (("type", VStr type) :: ("target", VStr tgt) :: kw);
      prepare_targets fuel lib1 (name ++ "__module")%string None [].
End Modmake.
