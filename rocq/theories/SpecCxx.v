(** Vocabulary for the claims about C++ modules (C45-C49 and the following ones): which options
    there are and what kind of value each takes, what including a module may do, where sources
    come from.  The option names are listed again here, independently of the table of the
    model. *)
From Verif Require Import PyBase PyPath UtilModel ModulesModel CxxModel.
Local Open Scope string_scope.
Local Open Scope list_scope.

(** ** Kinds of options *)
Definition string_options : list string :=
  ["srcdir"; "target"; "cxxstd"; "ccstd"; "cxx_flags"; "cc_flags"; "ld_flags"; "type"; "builddir";
   "optimize"; "debug"].
Definition list_options : list string :=
  ["depends"; "objects"; "sources"; "qt_moc"; "qt_ui"; "libs"; "libdirs"; "include_paths"; "modules";
   "include_modules"; "defines"; "ldscripts"; "local_headers"; "mdepends"].
(** The value is of the declared type. *)
Inductive well_typed (k : string) : oval -> Prop :=
| wt_str s : In k string_options -> well_typed k (VStr s)
| wt_list l : In k list_options -> well_typed k (VList l)
| wt_tool t : k = "toolchain" -> well_typed k (VTool t).
(** All options except the two special ones are known and of the declared type. *)
Definition well_formed (o : opts) : Prop :=
  forall k v, In (k, v) o -> k <> "__script__" -> k <> "__dir__" -> well_typed k v.
(** No value is an object of some other class that is also called str, list or toolchain. *)
Definition true_classes (o : opts) : Prop :=
  forall k c, In (k, VOther c) o -> ~ In c ["str"; "list"; "toolchain"].

(** Options as a module gives them: a directory, lists of strings where paths are expected,
    pairs for the headers. *)
Definition path_options : list string :=
  ["objects"; "sources"; "qt_moc"; "qt_ui"; "include_paths"; "ldscripts"].
Definition has_dir (o : opts) : Prop := exists d, sget o "__dir__" = Some (VStr d).
Definition plain_paths (o : opts) : Prop :=
  (forall k l, In k path_options -> sget o k = Some (VList l) -> exists ps, l = map EStr ps) /\
  (forall l, sget o "local_headers" = Some (VList l) -> forall e, In e l -> exists a b, e = EPair a b).

(** ** Including modules *)
Definition fixed_options : list string :=
  ["target"; "type"; "builddir"; "toolchain"; "optimize"; "debug"; "srcdir"; "depends"; "mdepends";
   "include_modules"].
Definition growing_options : list string :=
  ["sources"; "objects"; "qt_moc"; "qt_ui"; "libs"; "libdirs"; "include_paths"; "defines"; "ldscripts";
   "modules"; "local_headers"].
Definition flag_options : list string := ["cxx_flags"; "cc_flags"; "ld_flags"].
Definition standard_options : list string := ["cxxstd"; "ccstd"].

(** The strings that the included modules give for an option, in order. *)
Definition strings_given (k : string) (incs : list opts) : list string :=
  flat_map (fun i => match sget i k with Some (VStr s) => [s] | _ => [] end) incs.
(** The lists that they give, one after the other. *)
Definition lists_given (k : string) (incs : list opts) : list elem :=
  flat_map (fun i => match sget i k with Some (VList l) => l | _ => [] end) incs.

(** ** Where sources come from *)
(** The members of a value that should be a list of strings (the members of a string are its
    characters). *)
Definition members (v : oval) (ps : list string) : Prop :=
  v = VList (map EStr ps) \/
  exists s, v = VStr s /\ ps = map (fun c => String c "") (list_ascii_of_string s).
(** The paths that a module with options [o] contributes for option [k]: each joined to the
    directory of the module and its srcdir. *)
Inductive contributes (home : string) (o : opts) (k : string) : list string -> Prop :=
| con_none : sget o k = None \/ sget o k = Some VNone -> contributes home o k []
| con_empty v : sget o k = Some v -> members v [] -> contributes home o k []
| con_paths v ps dir sub : sget o k = Some v -> members v ps ->
    sget o "__dir__" = Some (VStr dir) ->
    (sget o "srcdir" = Some (VStr sub) \/ (sget o "srcdir" = None /\ sub = "")) ->
    contributes home o k (map (fun p => path_joins dir [sub; expanduser home p]) ps).

(** The modules met when the submodules [l] are included one after the other, each followed by
    those it includes itself; the library changes only by the lookups. *)
Inductive walk : mlib -> list elem -> list opts -> mlib -> Prop :=
| walk_nil lib : walk lib [] [] lib
| walk_leaf lib n i m lib1 l os lib2 :
    get lib n i = Ok (m, lib1) -> sget (mod_opts lib1 m) "include_modules" = None ->
    walk lib1 l os lib2 -> walk lib (ESub n i :: l) (mod_opts lib1 m :: os) lib2
| walk_node lib n i m lib1 v sub os1 lib2 l os2 lib3 :
    get lib n i = Ok (m, lib1) -> sget (mod_opts lib1 m) "include_modules" = Some v ->
    iter_oval v = Ok sub -> walk lib1 sub os1 lib2 -> walk lib2 l os2 lib3 ->
    walk lib (ESub n i :: l) (mod_opts lib1 m :: os1 ++ os2) lib3.

(** The members of include_modules of a module. *)
Definition requested (o : opts) (l : list elem) : Prop :=
  sget o "include_modules" = Some (VList l) \/
  ((sget o "include_modules" = None \/ sget o "include_modules" = Some VNone) /\ l = []).

(** ** What is built *)
(** Names with a star stand for the files they match. *)
Inductive expands (glob_ : string -> list string) : list string -> list string -> Prop :=
| ex_nil : expands glob_ [] []
| ex_name s l r : ~ In "*"%char (list_ascii_of_string s) -> expands glob_ l r -> expands glob_ (s :: l) (s :: r)
| ex_star s l r : In "*"%char (list_ascii_of_string s) -> expands glob_ l r -> expands glob_ (s :: l) (glob_ s ++ r).
(** Sources compiled, with their objects, in order. *)
Definition compiled (ev : list event) : list (string * string) :=
  flat_map (fun e => match e with VRule RObject t s _ _ _ _ => [(s, t)] | _ => [] end) ev.
(** Links, with their inputs. *)
Definition linked (ev : list event) : list (string * list string) :=
  flat_map (fun e => match e with VRule RLink t _ d _ _ _ => [(t, d)] | _ => [] end) ev.

(** The text of an option and the strings in one. *)
Definition text (o : opts) (k s : string) : Prop := sget o k = Some (VStr s).
Definition texts (o : opts) (k : string) (ps : list string) : Prop :=
  exists v, sget o k = Some v /\ members v ps.
(** The language by the name of the source; a file without a dot counts as its own extension. *)
Definition written_in (exts : list string) (src : string) : Prop :=
  exists e, In e exts /\ (basename src = e \/ exists b, basename src = (b ++ "." ++ e)%string).
Definition cxx_source := written_in ["cpp"; "cxx"; "cc"].
Definition c_source := written_in ["c"; "asm"; "s"; "S"].
Definition each (pre : string) (l : list string) : string :=
  String.concat " " (map (fun x => pre ++ x)%string l).
(** The command that compiles [src] to [tgt] with options [o]. *)
Inductive compile_line (o : opts) (src tgt : string) : string -> Prop :=
| cl_cxx t inc def std dbg fl opt :
    cxx_source src -> sget o "toolchain" = Some (VTool t) ->
    texts o "include_paths" inc -> texts o "defines" def ->
    text o "cxxstd" std -> text o "debug" dbg -> text o "cxx_flags" fl -> text o "optimize" opt ->
    compile_line o src tgt
      (tc_cxx t ++ " -c " ++ src ++ " -o " ++ tgt ++ " " ++ each "-I" inc ++ " " ++ each "-D" def ++
       " -std=" ++ std ++ " " ++ dbg ++ " " ++ fl ++ " " ++ opt)%string
| cl_c t inc def std dbg fl opt :
    c_source src -> sget o "toolchain" = Some (VTool t) ->
    texts o "include_paths" inc -> texts o "defines" def ->
    text o "ccstd" std -> text o "debug" dbg -> text o "cc_flags" fl -> text o "optimize" opt ->
    compile_line o src tgt
      (tc_cc t ++ " -c " ++ src ++ " -o " ++ tgt ++ " " ++ each "-I" inc ++ " " ++ each "-D" def ++
       " -std=" ++ std ++ " " ++ dbg ++ " " ++ fl ++ " " ++ opt)%string.
(** The command that writes the dependency file [tgt] of [src]. *)
Inductive depend_line (o : opts) (src tgt : string) : string -> Prop :=
| dl_cxx t inc def std dbg fl :
    cxx_source src -> sget o "toolchain" = Some (VTool t) ->
    texts o "include_paths" inc -> texts o "defines" def ->
    text o "cxxstd" std -> text o "debug" dbg -> text o "cxx_flags" fl ->
    depend_line o src tgt
      (tc_cxx t ++ " -MM " ++ src ++ " > " ++ tgt ++ " " ++ each "-I" inc ++ " " ++ each "-D" def ++
       " -std=" ++ std ++ " " ++ dbg ++ " " ++ fl)%string
| dl_c t inc def std dbg fl :
    c_source src -> sget o "toolchain" = Some (VTool t) ->
    texts o "include_paths" inc -> texts o "defines" def ->
    text o "ccstd" std -> text o "debug" dbg -> text o "cc_flags" fl ->
    depend_line o src tgt
      (tc_cc t ++ " -MM " ++ src ++ " > " ++ tgt ++ " " ++ each "-I" inc ++ " " ++ each "-D" def ++
       " -std=" ++ std ++ " " ++ dbg ++ " " ++ fl)%string.
(** The command that links [objs] to [tgt]. *)
Inductive link_line (home : string) (o : opts) (objs : list string) (tgt : string) : string -> string -> Prop :=
| ll_app t fl dirs libs lds :
    sget o "toolchain" = Some (VTool t) -> text o "ld_flags" fl -> texts o "libdirs" dirs ->
    texts o "libs" libs -> texts o "ldscripts" lds ->
    link_line home o objs tgt "application"
      (tc_cxx t ++ " " ++ fl ++ " -Wl,--start-group " ++ String.concat " " objs ++ " " ++
       String.concat "" (map (fun d => " -L" ++ expanduser home d) dirs) ++
       String.concat "" (map (fun l => " -l" ++ l) libs) ++
       " -Wl,--end-group -o " ++ tgt ++ " " ++ each "-T" lds)%string
| ll_shared t fl dirs libs lds :
    sget o "toolchain" = Some (VTool t) -> text o "ld_flags" fl -> texts o "libdirs" dirs ->
    texts o "libs" libs -> texts o "ldscripts" lds ->
    link_line home o objs tgt "shared_library"
      (tc_cxx t ++ " --shared " ++ fl ++ " -Wl,--start-group " ++ String.concat " " objs ++ " " ++
       String.concat "" (map (fun d => " -L" ++ expanduser home d) dirs) ++
       String.concat "" (map (fun l => " -l" ++ l) libs) ++
       " -Wl,--end-group -o " ++ tgt ++ " " ++ each "-T" lds)%string
| ll_static t :
    sget o "toolchain" = Some (VTool t) ->
    link_line home o objs tgt "static_library" (tc_ar t ++ " rcs " ++ tgt ++ " " ++ String.concat " " objs)%string.

(** The rules for one source: the object and the dependency file are both made from the source,
    both depend on every header listed in the dependency file of the previous build ([headers]),
    all these are known as sources, and without a usable dependency file it is always made. *)
Definition wired (dfile : string -> option string) (ev : list event) (t s : string) (deps : list string) : Prop :=
  exists d extra headers rule o force,
    deps = [s; d] ++ extra ++ headers /\
    In (VRule RDepend d s ([s] ++ extra ++ headers) rule o force) ev /\
    ((cxx_read_depends (dfile d) = Some headers /\ force = false) \/
     (cxx_read_depends (dfile d) = None /\ headers = [] /\ force = true)) /\
    In (VSource s) ev /\ (forall h, In h headers -> In (VSource h) ev).

(** ** Paths of objects *)
Definition two_dots_free (s : string) : Prop := forall a b, s <> (a ++ ".." ++ b)%string.
(** An extension such as "o" or "h.cxx". *)
Definition object_ext (e : string) : Prop :=
  (exists c e', e = String c e' /\ c <> "."%char) /\ ~ In "/"%char (list_ascii_of_string e) /\ two_dots_free e.
(** The name of a file without directory and extension. *)
Definition stem (s : string) : string := fst (splitext (basename s)).
