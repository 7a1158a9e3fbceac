(** Vocabulary for scripts with C++ modules: such a script says different things to processes
    that find different lists of headers. *)
From Verif Require Import PyBase PyPath SolverModel SpecGraph InvokerModel SpecTrace CoreModel SpecCore MakeModel UtilModel SpecMake
  RegModel CliModel SpecUtil SpecReg SpecProject SpecTrack.
Local Open Scope string_scope.
Local Open Scope list_scope.

(** A source that is compiled: paths as in the script of the source, the object and the list
    of headers; other dependencies; what the commands make of the files: the list of headers
    ([c++ -MM]) and the object ([c++ -c]). *)
Record cunit := CU {
  u_src : string; u_obj : string; u_dep : string; u_adds : list string;
  u_list : buildfun; u_comp : buildfun }.
(** A script: statements, and sources to be compiled. *)
Inductive item := IStmt (s : stmt) | IUnit (u : cunit).

(** The headers named in a list. *)
Definition listed (text : option string) : list string :=
  match cxx_read_depends text with Some h => h | None => [] end.
(** There is no list yet. *)
Definition unlisted (text : option string) : bool :=
  match cxx_read_depends text with Some _ => false | None => true end.

Section Cxx.
  Variables (cwd home : string) (glob_ : string -> list string).
  Notation path := (realpath cwd).

  (** The statements that a process executes when it finds the contents [s]. *)
  Definition item_stmts (s : ctx) (it : item) : list stmt :=
    match it with
    | IStmt st => [st]
    | IUnit u =>
        let text := s (path (u_dep u)) in
        [SSource (u_src u)] ++ map SSource (listed text) ++
        [SRule (unlisted text) (u_dep u) ([u_src u] ++ u_adds u ++ listed text) (u_list u);
         SRule false (u_obj u) ([u_src u; u_dep u] ++ u_adds u ++ listed text) (u_comp u)]
    end.
  Definition script_at (its : list item) (s : ctx) : list stmt := flat_map (item_stmts s) its.
  Definition project_at (its : list item) (s : ctx) : project := project_of cwd home glob_ (script_at its s).

  (** What is known of every list: nothing. *)
  Definition nothing : ctx := fun _ => None.
  Definition rules_in (its : list item) (p : string) : option buildfun :=
    match project_at its nothing p with Some (DRule _ _ b) => Some b | _ => None end.

  (** What is assumed of the script and of the commands in it. *)
  Record honest (its : list item) : Prop := {
    (** Nothing is declared twice; names of file sets are no absolute paths; sources and lists
        are single files. *)
    ho_once : NoDup (flat_map (declares cwd home glob_) (script_at its nothing));
    ho_names : forall nm, is_name (script_at its nothing) nm = true -> starts_slash nm = false;
    ho_files : forall u p, In (IUnit u) its -> In p [u_src u; u_dep u] ->
      has_star p = false /\ is_name (script_at its nothing) p = false;
    (** The list command looks at the source and at the headers that it lists, and lists
        something; the compiler looks at the same files. *)
    ho_list : forall u s s' v, In (IUnit u) its -> u_list u s = Some v ->
      s' (path (u_src u)) = s (path (u_src u)) ->
      (forall h, In h (listed (Some v)) -> s' (path h) = s (path h)) -> u_list u s' = Some v;
    ho_compile : forall u s s' v o, In (IUnit u) its -> u_list u s = Some v -> u_comp u s = Some o ->
      s' (path (u_src u)) = s (path (u_src u)) ->
      (forall h, In h (listed (Some v)) -> s' (path h) = s (path h)) -> u_comp u s' = Some o;
    ho_nonempty : forall u s v, In (IUnit u) its -> u_list u s = Some v -> v <> "";
    ho_headers : forall u s v h, In (IUnit u) its -> u_list u s = Some v -> In h (listed (Some v)) ->
      is_name (script_at its nothing) h = false;
    (** Headers made by rules are declared as dependencies. *)
    ho_generated : forall u s v h, In (IUnit u) its -> u_list u s = Some v -> In h (listed (Some v)) ->
      rules_in its (path h) <> None ->
      p_input (project_at its nothing) (path (u_dep u)) (path h) /\
      p_input (project_at its nothing) (path (u_obj u)) (path h);
    (** The other rules look at their declared dependencies. *)
    ho_others : forall st p ds f b, In (IStmt st) its -> rule_of cwd home glob_ st = Some (p, ds, (f, b)) ->
      forall s s', (forall q, p_input (project_at its nothing) p q -> s' q = s q) -> b s' = b s }.

  (** Lists that are empty: the shell makes the file before the command runs, and a command
      that fails or is killed early leaves it empty. *)
  Definition empty_list (its : list item) (p v : string) : Prop :=
    v = "" /\ exists u, In (IUnit u) its /\ p = path (u_dep u).
  (** Lists that are cut off somewhere. *)
  Definition cut_list (its : list item) (p v : string) : Prop :=
    exists u, In (IUnit u) its /\ p = path (u_dep u) /\ exists s w, u_list u s = Some (v ++ w)%string.

  (** Everything that happens around the script: files that no rule makes are edited, and
      processes read the script and make some declared target, up to any state of the build;
      rules that fail or are killed leave nothing in their files but [junk]. *)
  Inductive cxx_history (junk : string -> string -> Prop) (its : list item) : fsys -> nat -> Prop :=
  | ch_start fs now : dated fs now -> (forall p, rules_in its p <> None -> fs p = None) -> cxx_history junk its fs now
  | ch_outside fs now fs' now' : cxx_history junk its fs now -> track_outside (rules_in its) fs now fs' now' ->
      cxx_history junk its fs' now'
  | ch_process fs now exists_ x th kind c1 objs sv s fs' now' : cxx_history junk its fs now ->
      disk_ok cwd (present fs) exists_ -> in_order cwd home glob_ exists_ (script_at its (contents fs)) ->
      In x (flat_map (makes cwd home glob_) (script_at its (contents fs))) ->
      building cwd home exists_ glob_ true (script_at its (contents fs)) x th fs now kind c1 objs sv s ->
      leaves_junk junk (s_world s) -> left_by (rules_in its) junk c1 objs s fs' now' ->
      cxx_history junk its fs' now'.
End Cxx.
