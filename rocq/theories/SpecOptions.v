(** Vocabulary for C106: how the options a module is made with come from its own, from those of the
    modules it includes and from those of the collected modules. *)
From Verif Require Import PyBase PyPath UtilModel ModulesModel CxxModel SpecCxx.
Local Open Scope string_scope.
Local Open Scope list_scope.

(** The options nobody gives. *)
Definition initial_options (tool : toolchain) : opts :=
  map (fun k => (k, VList [])) list_options ++
  [("srcdir", VStr "."); ("target", VStr "target"); ("cxxstd", VStr "c++17"); ("ccstd", VStr "c11"); ("cxx_flags", VStr "");
   ("cc_flags", VStr ""); ("ld_flags", VStr ""); ("type", VStr "objects"); ("builddir", VStr "build"); ("optimize", VStr "");
   ("debug", VStr "-g"); ("toolchain", VTool tool)].

(** How a member of include_modules names a module: by its name, with an implementation, or as an
    object. *)
Inductive submodule_of : elem -> elem -> Prop :=
| sub_name n : submodule_of (EStr n) (ESub n None)
| sub_pair n i : submodule_of (EPair n i) (ESub n (Some i))
| sub_same n i : submodule_of (ESub n i) (ESub n i)
| sub_other c : submodule_of (EOther c) (EOther c).

(** The paths that a module gives for option [k], each joined to the directory of the module; a
    string is one path. *)
Inductive located (home : string) (k : string) (o : opts) : list string -> Prop :=
| lo_none : sget o k = None \/ sget o k = Some VNone -> located home k o []
| lo_empty : sget o k = Some (VList []) -> located home k o []
| lo_paths ps v dir : sget o k = Some v -> v = VList (map EStr ps) \/ (exists p, v = VStr p /\ ps = [p]) ->
    sget o "__dir__" = Some (VStr dir) -> located home k o (map (fun p => path_join dir (expanduser home p)) ps).

(** The headers that a module gives: the name for #include and the file, relative to the directory
    of the module.  A string counts as its first two characters. *)
Inductive header_in (dir : string) : elem -> elem -> Prop :=
| hi_pair a b : header_in dir (EPair a b) (EPair a (path_join dir b))
| hi_chars a b s : header_in dir (EStr (String a (String b s))) (EPair (String a "") (path_join dir (String b ""))).
Inductive headers (o : opts) : list elem -> Prop :=
| he_none : sget o "local_headers" = None \/ In (sget o "local_headers") [Some VNone; Some (VList []); Some (VStr "")] -> headers o []
| he_list l l' dir : sget o "local_headers" = Some (VList l) -> sget o "__dir__" = Some (VStr dir) ->
    Forall2 (header_in dir) l l' -> headers o l'.

(** Directories in the build directory that are added to the include paths [ps]: for local headers
    and for headers made from .ui files. *)
Definition added_paths (o : opts) (b : string) (ps extra : list string) : Prop :=
  exists e1 e2, extra = e1 ++ e2 /\
    ((sget o "local_headers" = Some (VList []) /\ e1 = []) \/
     (sget o "local_headers" <> Some (VList []) /\ e1 = [(b ++ "/__LOCAL_HEADERS__/")%string])) /\
    (((texts o "qt_ui" [] \/ In (path_join b "ui") (ps ++ e1)) /\ e2 = []) \/
     (~ texts o "qt_ui" [] /\ ~ In (path_join b "ui") (ps ++ e1) /\ e2 = [path_join b "ui"])).

(** A module with options [own] is made with the options [o], starting from [base], when the modules
    with options [others] are included one after the other. *)
Record made_with (home : string) (base own : opts) (others : list opts) (o : opts) : Prop := MadeWith {
  mw_raw : forall k l, In k ["libs"; "libdirs"; "defines"] -> sget base k = Some (VList l) ->
    sget o k = Some (VList (l ++ lists_given k (own :: others)));
  mw_flags : forall k s, In k flag_options -> sget base k = Some (VStr s) ->
    sget o k = Some (VStr (s ++ String.concat "" (map (fun x => " " ++ x)%string (strings_given k (own :: others)))));
  mw_standards : Forall true_classes (own :: others) -> forall k, In k standard_options -> sget base k <> None ->
    sget o k = last (map (fun s => Some (VStr s)) (strings_given k (own :: others))) (sget base k);
  mw_scripts : forall l, sget base "ldscripts" = Some (VList l) ->
    exists cs, Forall2 (located home "ldscripts") (own :: others) cs /\
      sget o "ldscripts" = Some (VList (l ++ map EStr (List.concat cs)));
  mw_headers : forall l, sget base "local_headers" = Some (VList l) ->
    exists cs, Forall2 headers (own :: others) cs /\ sget o "local_headers" = Some (VList (l ++ List.concat cs));
  mw_paths : forall ps, sget base "include_paths" = Some (VList (map EStr ps)) ->
    exists cs extra b, Forall2 (located home "include_paths") (own :: others) cs /\ text o "builddir" b /\
      sget o "include_paths" = Some (VList (map EStr ((ps ++ List.concat cs) ++ extra))) /\
      (sget base "local_headers" = Some (VList []) -> added_paths o b (ps ++ List.concat cs) extra);
  mw_chosen : forall k, In k ["builddir"; "target"; "optimize"; "debug"; "toolchain"] -> sget base k <> None ->
    sget o k = match sget own k with Some v => Some v | None => sget base k end;
  mw_own : forall k d, In (k, d) [("srcdir", VStr "."); ("type", VStr "objects"); ("depends", VList []); ("mdepends", VList [])] ->
    sget base k <> None -> sget o k = match sget own k with Some v => Some v | None => Some d end;
  mw_modules : true_classes own -> sget base "modules" <> None -> sget o "modules" = Some (VList (lists_given "modules" (own :: others))) }.
