(** Vocabulary for C++ scripts whose commands take time, cf. SpecFine and SpecCxxTrack. *)
From Verif Require Import PyBase PyPath SolverModel InvokerModel SpecTrace CoreModel SpecCore MakeModel UtilModel SpecMake
  RegModel CliModel SpecUtil SpecReg SpecProject SpecTrack SpecCxxTrack FineModel SpecFine.
Local Open Scope string_scope.
Local Open Scope list_scope.

(** Where the compiler succeeds, so does the list command. *)
Definition compiled_listed (its : list item) : Prop :=
  forall u s o, In (IUnit u) its -> u_comp u s = Some o -> exists v, u_list u s = Some v.

(** The files when the process is gone, cf. [left_by]: of the files that were being made,
    what was there before the command ran, nothing, or junk. *)
Definition fine_left (junk : string -> string -> Prop) kind c1 objs (s : state world) (h : list (state world)) (fs' : fsys) (now' : nat) : Prop :=
  w_now (s_world s) <= now' /\
  forall p, ~ being_made kind c1 objs s p /\ fs' p = w_fs (s_world s) p \/
    exists t f b, let i := nth t objs (List.length (c_heap c1)) in
      (busy (s_log s) t /\ kind i = MFile f b /\ t_need (obj c1 i) = Some true /\ p = t_name (obj c1 i)) /\
      ((exists s0, began (s :: h) t s0 /\ fs' p = w_fs (s_world s0) p) \/ fs' p = None \/
       exists m v, fs' p = Some (m, Reg v) /\ w_base (s_world s) < m <= now' /\ junk p v).

(** cf. [cxx_history]. *)
Inductive fine_cxx_history (cwd home : string) (glob_ : string -> list string) (junk : string -> string -> Prop) (its : list item) : fsys -> nat -> Prop :=
| fch_start fs now : dated fs now -> (forall p, rules_in cwd home glob_ its p <> None -> fs p = None) -> fine_cxx_history cwd home glob_ junk its fs now
| fch_outside fs now fs' now' : fine_cxx_history cwd home glob_ junk its fs now -> track_outside (rules_in cwd home glob_ its) fs now fs' now' ->
    fine_cxx_history cwd home glob_ junk its fs' now'
| fch_process fs now exists_ x th kind c1 objs sv n s h fs' now' : fine_cxx_history cwd home glob_ junk its fs now ->
    disk_ok cwd (present fs) exists_ -> in_order cwd home glob_ exists_ (script_at cwd its (contents fs)) ->
    In x (flat_map (makes cwd home glob_) (script_at cwd its (contents fs))) ->
    fine_building cwd home exists_ glob_ true (script_at cwd its (contents fs)) x th fs now kind c1 objs sv n (s :: h) ->
    leaves_junk junk (s_world s) -> fine_left junk kind c1 objs s h fs' now' ->
    fine_cxx_history cwd home glob_ junk its fs' now'.
