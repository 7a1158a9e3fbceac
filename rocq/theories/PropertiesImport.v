(** C81: the targets that [import licant] itself registers, and the files of a project. *)
From Verif Require Import PyBase PyPath InvokerModel CoreModel SpecCore MakeModel MakeEval SpecMake RegModel CliModel SpecUtil SpecReg RegExamples SpecProject
  ProjectExamples ImportProofs.
Local Open Scope string_scope.
Local Open Scope list_scope.

(** C81.  The full claim: a script in order remains one after [import licant], and means the
    same.  It is false: the built-in targets binutils, m, cxxm and l capture the files of
    those names.  Witness: a rule that needs the file m.  The script is in order by itself.
    With the import, the build of app never succeeds, and once a file app is there no
    evaluation (for any target) ends without an exception. *)
Theorem C81_refuted : exists cwd home glob_ argv0 l x,
  (forall built, disk_ok cwd (present (mfs built)) (on_path (mdisk_of built)) /\ in_order cwd home glob_ (on_path (mdisk_of built)) l /\
                 In x (flat_map (makes cwd home glob_) l)) /\
  (forall built partial th now kind c1 objs sv s,
     building cwd home (on_path (mdisk_of built)) glob_ partial (importing argv0 ++ l) x th (mfs built) now kind c1 objs sv s ->
     ~ succeeded objs s) /\
  (forall fuel st other_if fuel' th r,
     mrun (realpath cwd) (on_path (mdisk_of true)) glob_ home fuel 0 (map op_of (importing argv0 ++ l)) [empty_reg] = Ok st ->
     mevaluate (realpath cwd) (kind_of (reg st 0)) other_if (mfs true) fuel' (set_threads (fst (reg st 0)) th, []) <> Ok r).
Proof.
  exists "/w", "/h", no_glob, "make.py", mscript, "/w/app". split; [|split].
  - intros built. split; [apply mfs_ok|]. split; [apply mscript_ok|]. vm_compute. tauto.
  - intros. eapply m_never; eauto.
  - intros. now apply (m_raises fuel).
Qed.
Print Assumptions C81_refuted.
(** The building that never succeeds does start. *)
Example C81_witness_starts : exists kind c1 objs sv s,
  building "/w" "/h" (on_path (mdisk_of false)) no_glob false (importing "make.py" ++ mscript) "/w/app" 1 (mfs false) 1 kind c1 objs sv s /\
  List.length objs = 3.
Proof. exact m_starts. Qed.

(** A script that stays clear of the four names remains in order, so C77-C80 hold for it, and
    describes the same project, with the script itself as a further source. *)
Theorem C81_import_keeps_the_project_partial : forall cwd home glob_ exists_ argv0 l,
  in_order cwd home glob_ exists_ l -> clear_of_import cwd home glob_ argv0 l ->
  in_order cwd home glob_ exists_ (importing argv0 ++ l) /\
  forall p, project_of cwd home glob_ (importing argv0 ++ l) p =
    if String.eqb p (realpath cwd argv0) then Some DSource else project_of cwd home glob_ l p.
Proof. intros. split; [now apply importing_in_order|]. intros p. eapply project_import; eauto. Qed.
Print Assumptions C81_import_keeps_the_project_partial.
Example C81_case : in_order "/w" "/h" no_glob (on_path pdisk) pown /\ clear_of_import "/w" "/h" no_glob "make.py" pown.
Proof. split; [exact pown_ok|exact pown_clear]. Qed.
(** Any target without update_if_need among the direct or indirect dependencies excludes success. *)
Theorem C81_plain_target_excludes_success : forall cwd home exists_ glob_ partial l x th fs now kind c1 objs sv s,
  building cwd home exists_ glob_ partial l x th fs now kind c1 objs sv s ->
  (forall fuel st i, mrun (realpath cwd) exists_ glob_ home fuel 0 (map op_of l) [empty_reg] = Ok st ->
     core_get (realpath cwd) (fst (reg st 0)) x = Ok i ->
     coherent (realpath cwd) (fst (reg st 0)) /\ (exists nm, In (nm, i) (c_targets (fst (reg st 0)))) /\
     exists j, in_cone (realpath cwd) (fst (reg st 0)) i j /\ t_class (obj (fst (reg st 0)) j) = Plain /\ kind_of (reg st 0) j = MOther) ->
  ~ succeeded objs s.
Proof. exact plain_excludes_success. Qed.
Print Assumptions C81_plain_target_excludes_success.
