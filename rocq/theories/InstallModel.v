(** Model of licant/install.py and of [recursive_glob] (licant/util.py:265-270).

    The calls that register targets go to the default core (registry 0) and are given as
    lists of [mop].  [walk] is os.walk (directories and the names of the files in them) and
    [fnmatch] is fnmatch.fnmatch, at the time of the calls; [cwd] and [home] as in PyPath.
    Printing is left out. *)
From Verif Require Import PyBase PyPath SolverModel InvokerModel CoreModel MakeModel RegModel SpecReg.
Local Open Scope string_scope.
Local Open Scope list_scope.

(** [s.split(":")] *)
Fixpoint split_colon (s : string) : list string :=
  match s with
  | EmptyString => [""]
  | String c s' =>
      if Ascii.eqb c ":" then "" :: split_colon s'
      else match split_colon s' with h :: t => String c h :: t | [] => [String c ""] end
  end.
(** [sub in s] *)
Definition within (sub s : string) : bool := match String.index 0 sub s with Some _ => true | None => false end.
Definition back_usr_local_bin : string := "\usr\local\bin".

(** os.environ, as far as it is read. *)
Record environ := ENV { e_path : option string; e_prefix : option string }.

(** install.py:15-44 [find_application_path]; the flag is error_in_install_library (8, 42).
    44: [path] may be unset. *)
Definition find_application_path (e : environ) : res (string * bool) :=
  match e_path e with
  | None => Raise (KeyError "PATH")                                  (* 18 *)
  | Some envout =>
      let path_list := split_colon envout in                         (* 19 *)
      match e_prefix e with
      | Some p => Ok (path_join p "bin", false)                      (* 21-22 *)
      | None =>
          if existsb (String.eqb "/usr/local/bin") path_list then Ok ("/usr/local/bin", false)   (* 24-25 *)
          else
            let p1 := find (within "/usr/bin") path_list in          (* 28-31 *)
            let p2 := find (within "/usr/local/bin") path_list in    (* 32-35 *)
            let p3 := find (within back_usr_local_bin) path_list in  (* 36-39 *)
            match p3, p2, p1 with
            | Some p, _, _ => Ok (p, false)
            | None, Some p, _ => Ok (p, true)                        (* 40-42: for-else *)
            | None, None, Some p => Ok (p, true)
            | None, None, None => Raise (UnboundLocalError "path")
            end
      end
  end.
(** 47-59, 62-71: the branches for Windows return the same. *)
Definition find_headers_path (e : environ) : string :=
  match e_prefix e with Some p => path_join p "include" | None => "/usr/local/include" end.
Definition find_libraries_path (e : environ) : string :=
  match e_prefix e with Some p => path_join p "lib" | None => "/usr/lib" end.

(** 74-76: what [import licant.install] computes. *)
Record places := PL { pl_bin : string; pl_include : string; pl_lib : string; pl_error : bool }.
Definition import_install (e : environ) : res places :=
  do! (p, err) <- find_application_path e;
  Ok (PL p (find_headers_path e) (find_libraries_path e) err).

Section Install.
  Variables (cwd home : string) (pl : places).
  Variable walk : string -> list (string * list string).
  Variable fnmatch : string -> string -> bool.

  (** The rule [cp {src} {tgt}] of make.py:242-257, for names that the shell takes literally. *)
  Definition cp (src : string) : buildfun := fun files => files (realpath cwd (expanduser home src)).
  Definition copy_op (tgt src : string) (adddeps : list string) : mop := OCopyFn tgt src adddeps (cp src).

  (** 79-87 [install_application]; the name returned is the last component. *)
  Definition install_application (src dst : string) (tgt : option string) : option (list mop * string) :=
    if pl_error pl then None
    else
      let apptgt := path_join (pl_bin pl) dst in
      let tgt := match tgt with None => apptgt | Some t => t end in
      Some ([copy_op apptgt src []; OSet tgt [apptgt] []], tgt).

  (** util.py:265-270 *)
  Definition recursive_glob (treeroot pattern : string) : list string :=
    flat_map (fun b => map (path_join (fst b)) (filter (fnmatch pattern) (snd b))) (walk treeroot).

  (** os.path.relpath, for a nonempty path. *)
  Definition components (p : string) : list string :=
    filter (fun x => negb (String.eqb x "")) (split_slash (abspath cwd p)).
  Fixpoint drop_common (a b : list string) : list string * list string :=
    match a, b with
    | x :: a', y :: b' => if String.eqb x y then drop_common a' b' else (a, b)
    | _, _ => (a, b)
    end.
  Definition relpath (p start : string) : string :=
    let '(rest, up) := drop_common (components p) (components start) in
    match (map (fun _ => "..") up ++ rest)%list with
    | [] => "."
    | x :: l => path_joins x l
    end.

  (** 90-107 [install_headers]: the calls, the name of the file set and the targets (copy
      returns the expanded name, make.py:257). *)
  Definition header_list (srcdir : string) (patterns : list string) : list string :=
    flat_map (recursive_glob (abspath cwd (abspath cwd srcdir))) patterns.
  Definition header_tgt (tgtdir srcdir h : string) : string :=
    path_joins (pl_include pl) [tgtdir; relpath h (abspath cwd srcdir)].
  Definition install_headers (tgtdir srcdir : string) (patterns adddeps : list string)
    : list mop * string * list string :=
    let headers := header_list srcdir patterns in
    let targets := map (fun h => expanduser home (header_tgt tgtdir srcdir h)) headers in
    let full := ("headers://" ++ abspath cwd srcdir)%string in
    (map OSourceFn headers ++
     map (fun h => copy_op (header_tgt tgtdir srcdir h) h adddeps) headers ++
     [OSet full targets []], full, targets).

  (** 110-120 [install_shared_library] *)
  Definition library_tgt (src : string) (newname : option string) : string :=
    path_join (pl_lib pl) (match newname with None => basename src | Some n => n end).
  Definition install_shared_library (src : string) (newname : option string) : option (list mop * string) :=
    if pl_error pl then None
    else Some ([copy_op (library_tgt src newname) src []], library_tgt src newname).

  (** 123-165 [install_library].  The argument libtgt is None, a list or a name. *)
  Inductive libs_arg := NoLibs | LibList (l : list string) | OneLib (s : string).
  Definition lib_list (a : libs_arg) : list string :=
    match a with NoLibs => [] | LibList l => l | OneLib s => [s] end.
  Definition lib_true (a : libs_arg) : bool :=                  (* 148: truth value *)
    match a with NoLibs => false | LibList [] => false | OneLib "" => false | _ => true end.
  Definition install_library (tgt hroot headers : string) (patterns : list string) (uninstall : option string)
             (libtgt : libs_arg) : option (list mop * string) :=
    if pl_error pl then None
    else
      let ltgt := map (fun l => library_tgt l None) (lib_list libtgt) in              (* 127-134 *)
      let copies := map (fun l => copy_op (library_tgt l None) l []) (lib_list libtgt) in
      let '(hops, htgt, rawtgts) := install_headers hroot headers patterns (lib_list libtgt) in   (* 136-146 *)
      let tgts := if lib_true libtgt then htgt :: ltgt else [htgt] in                 (* 148 *)
      (* 150-163: a MakeFileTarget without dependencies; its makefile, and so its default
         action, is MakeFileTarget.clean; weakdeps is stored and never read. *)
      let un := match uninstall with Some u => if String.eqb u "" then [] else [OSet u [] []] | None => [] end in
      Some (copies ++ hops ++ un ++ [OSet tgt tgts []], tgt).                         (* 165 *)
End Install.
