(** Vocabulary for statements about registering targets: programs that call the functions
    of make.py, and which directories their outputs need. *)
From Verif Require Import PyBase PyPath SolverModel InvokerModel CoreModel SpecCore MakeModel RegModel SpecUtil.
Local Open Scope string_scope.
Local Open Scope list_scope.

(** [above a p]: [a] is a directory on the way to [p] (and not [p]). *)
Inductive above : string -> string -> Prop :=
| ab_dir p : dirname p <> p -> above (dirname p) p
| ab_up a p : above a p -> dirname a <> a -> above (dirname a) p.

(** Calls made by a build script. *)
Inductive mop :=
| OFtarget (tgt : string) (build : buildfun) (deps : list string)      (* MakeCore.ftarget, touch *)
| OCopy (src dst : string) (build : buildfun) (deps : list string)      (* MakeCore.copy *)
| OSource (src : string)                                                (* MakeCore.source *)
| OSet (name : string) (targets deps : list string)                     (* fileset *)
| OTarget (upd : bool) (name : string) (deps : list string)             (* Core.target, Core.updtarget *)
| OMakefile (force : bool) (tgt : string) (deps : list string) (build : buildfun)  (* licant.makefile, default core *)
| OCopyFn (tgt src : string) (adddeps : list string) (build : buildfun) (* licant.copy, default core *)
| OSourceFn (src : string).                                             (* licant.source *)

(** The calls of methods go to core [k], the others to the default core. *)
Definition mstep canon exists_ glob_ home fuel (k : nat) (st : regs) (o : mop) : res regs :=
  match o with
  | OFtarget tgt b deps => mc_ftarget canon exists_ glob_ home fuel st k tgt b deps
  | OCopy src dst b deps => mc_copy canon exists_ glob_ home fuel st k src dst b deps
  | OSource src => mc_source canon exists_ glob_ home fuel st k src
  | OSet nm ts deps => fileset canon exists_ glob_ fuel st k nm ts deps
  | OTarget u nm deps => plain_new canon exists_ glob_ fuel st k (if u then Updatable else Plain) MOther nm deps
  | OMakefile f tgt deps b => makefile canon exists_ glob_ fuel st 0 f tgt deps b
  | OCopyFn tgt src deps b => copy canon exists_ glob_ home fuel st 0 tgt src deps b
  | OSourceFn src => RegModel.source canon exists_ glob_ fuel st src
  end.
Fixpoint mrun canon exists_ glob_ home fuel (k : nat) (ops : list mop) (st : regs) : res regs :=
  match ops with
  | [] => Ok st
  | o :: ops' => do! st' <- mstep canon exists_ glob_ home fuel k st o;
                 mrun canon exists_ glob_ home fuel k ops' st'
  end.

(** The core in which the output of the call is registered. *)
Definition target_core (k : nat) (o : mop) : nat :=
  match o with OMakefile _ _ _ _ | OCopyFn _ _ _ _ | OSourceFn _ => 0 | _ => k end.

(** Paths for which the call arranges directories. *)
Definition outs (home : string) (o : mop) : list string :=
  match o with
  | OFtarget tgt _ _ => [expanduser home tgt]
  | OCopy _ dst _ _ => [expanduser home dst]
  | OMakefile _ tgt _ _ => [tgt]
  | OCopyFn tgt src _ _ => [expanduser home tgt; expanduser home src]
  | OSourceFn src => [src]
  | _ => []
  end.
(** Names that the call registers for something that is no directory. *)
Definition names (home : string) (o : mop) : list string :=
  match o with
  | OCopy src dst _ _ => [expanduser home (expanduser home src); expanduser home dst]
  | OSource src => [expanduser home src]
  | OSet nm _ _ | OTarget _ nm _ => [nm]
  | _ => outs home o
  end.

(** The directories that have to be made for the outputs of the script. *)
Definition missing_dir (cwd home : string) (ex : string -> bool) (ops : list mop) (a : string) : Prop :=
  ex a = false /\ exists o p, In o ops /\ In p (outs home o) /\ above a (realpath cwd p).

(** The disk: directories of existing files exist, the current directory exists, and
    [exists_] looks at the disk. *)
Definition disk_ok (cwd : string) (ex exists_ : string -> bool) : Prop :=
  (forall p, ex p = true -> ex (dirname p) = true) /\ ex (realpath cwd ".") = true /\
  (forall p, p <> "" -> exists_ p = ex (realpath cwd p)).

(** Outputs end in a file name and contain no star; no other target has the name of a
    directory that has to be made. *)
Definition script_ok (cwd home : string) (ex : string -> bool) (ops : list mop) : Prop :=
  has_star cwd = false /\
  (forall o p, In o ops -> In p (outs home o) -> file_name (basename p) /\ has_star p = false) /\
  (forall o nm, In o ops -> In nm (names home o) -> ~ missing_dir cwd home ex ops (realpath cwd nm)).

(** Targets whose update writes to the disk. *)
Definition makes_file (kd : mkind) : Prop :=
  match kd with MFile _ _ | MDir => True | _ => False end.

(** A file system, as os.path.exists sees it. *)
Definition present (fs : fsys) (p : string) : bool := match fs p with Some _ => true | None => false end.

(** A script that only calls licant.copy(target, source), for the default core. *)
Definition copies (l : list (string * string * buildfun)) : list mop :=
  map (fun x => let '(t, s, b) := x in OCopyFn t s [] b) l.

(** No name of the file [p] is registered. *)
Definition unheard canon (c : core) (p : string) : Prop :=
  forall nm i, In (nm, i) (c_targets c) -> canon nm <> p.
(** The operation registers a target under a name of the file [p]. *)
Definition adds_file canon (p : string) (o : cop) : Prop :=
  match o with OpNew _ n _ => canon n = p | _ => False end.
