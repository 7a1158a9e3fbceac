(** The tests of the repository (tests/*.py), replayed in the model: each Example computes one
    run and checks what the test asserts.  These are tests of the model, not properties; they
    are the only expectations about the behaviour of the code that come with it. *)
From Coq Require Import Permutation.
From Verif Require Import PyBase PyPath SolverModel InvokerModel SpecTrace CoreModel CoreProofs MakeModel MakeExec InvokerExec RegModel CliModel SpecReg
  SpecProject RegExamples MakeExamples ProjectExamples TrackExamples FormatModel ModulesModel CxxModel ProgramsModel.
Local Open Scope string_scope.
Local Open Scope list_scope.

(** ** test_make_mechanic.py *)

(** Dictionaries of sets, compared without regard to order. *)
Definition same_set (a b : list string) : bool := forallb (fun x => mem x b) a && forallb (fun x => mem x a) b && Nat.eqb (List.length a) (List.length b).
Definition same_dict (a b : list (string * list string)) : bool :=
  Nat.eqb (List.length a) (List.length b) &&
  forallb (fun kv => match sget b (fst kv) with Some s => same_set (snd kv) s | None => false end) a.
(** 16-33 *)
Example test_invert_depends_dict :
  exists d, invert_depends_dictionary String.eqb [("a", ["b"; "c"]); ("b", ["c"]); ("c", ["d"]); ("d", [])] = Some d /\
  same_dict d [("a", []); ("b", ["a"]); ("c", ["a"; "b"]); ("d", ["c"])] = true.
Proof. eexists. split; [reflexivity|]. vm_compute. reflexivity. Qed.
(** 35-52 *)
Example test_invert_depends_dict_with_cycle :
  exists d, invert_depends_dictionary String.eqb [("a", ["b"; "c"]); ("b", ["c"]); ("c", ["d"]); ("d", ["a"])] = Some d /\
  same_dict d [("a", ["d"]); ("b", ["a"]); ("c", ["a"; "b"]); ("d", ["c"])] = true.
Proof. eexists. split; [reflexivity|]. vm_compute. reflexivity. Qed.

(** The scheduler takes the first worker that can move. *)
Section Auto.
  Context {W : Type}.
  Variable inv : nat -> list nat.
  Variable f : nat -> W -> option (tres * W).
  Fixpoint first_some (l : list choice) (s : state W) : option (state W) :=
    match l with
    | [] => None
    | c :: l' => match osched1 inv f c s with Some s' => Some s' | None => first_some l' s end
    end.
  Definition moves (n : nat) : list choice := CJoin :: flat_map (fun w => [CFin w; CGet w; CDrain w]) (seq 0 n).
  Fixpoint auto (fuel : nat) (s : state W) : state W :=
    match fuel with
    | 0 => s
    | S n => match first_some (moves (List.length (s_workers s))) s with Some s' => auto n s' | None => s end
    end.
End Auto.
Definition returned {W} (s : state W) : bool := match s_main s with MReturned => true | MJoin => false end.

(** 54-93: the functions raise unless what they need was called. *)
Definition five : list dtarget := [DT "a" ["b"; "c"]; DT "b" ["c"; "e"]; DT "c" []; DT "d" []; DT "e" []].
Definition five_task (k : nat) (w : list string) : option (tres * list string) :=
  match nth_error ["a"; "b"; "c"; "d"; "e"] k with
  | None => None
  | Some nm =>
      let need := if String.eqb nm "a" then ["c"; "b"] else if String.eqb nm "b" then ["c"; "e"] else [] in
      if forallb (fun x => mem x w) need then Some (RNotFalse, nm :: w) else Some (RExn, w)
  end.
Example test_InverseRecursiveSolver :
  exists sv, solver_init id_order five (Some 3%Z) = inr sv /\
  let s := auto (inv_of (sv_inv sv)) five_task 60 (init_state sv []) in
  returned s = true /\ s_error s = false /\ same_set (s_world s) ["a"; "b"; "c"; "d"; "e"] = true.
Proof. eexists. split; [vm_compute; reflexivity|]. vm_compute. auto. Qed.
(** 95-108 *)
Example test_uncorrect_task :
  exists d, solver_init id_order [DT "a" ["b"; "c"]; DT "b" ["c"; "z"]; DT "c" []; DT "d" []; DT "e" []] (Some 3%Z) = inl (UnknowTargetError d).
Proof. eexists. vm_compute. reflexivity. Qed.
(** 110-119; this method is replaced by the next one, which has the same name, and never run. *)
Example test_ciclyc_task_1 : solver_init id_order [DT "a" ["b"]; DT "b" ["a"]] (Some 1%Z) = inl NoOneNonDependableTarget.
Proof. vm_compute. reflexivity. Qed.
(** 121-131 *)
Example test_ciclyc_task_2 : exists lst, solver_init id_order [DT "a" ["b"]; DT "b" ["a"; "c"]; DT "c" []] (Some 1%Z) = inl (CircularDependencyError lst).
Proof. eexists. vm_compute. reflexivity. Qed.

(** ** Tests with a MakeCore: number 1, beside the default core. *)
Record ses := SE { se_regs : regs; se_fs : fsys; se_ca : cache; se_now : nat }.
Definition on_ses (o : option ses) (test : ses -> bool) : bool := match o with Some s => test s | None => false end.
Notation "s |> f" := (match s with Some x => f x | None => None end) (at level 50, left associativity, only parsing).
Notation canon := (realpath "/").
Definition call (o : mop) (s : ses) : option ses :=
  match mrun canon (fun p => present (se_fs s) (canon p)) no_glob "/h" 20 1 [o] (se_regs s) with
  | Ok st => Some (SE st (se_fs s) (se_ca s) (se_now s))
  | _ => None
  end.
(** [core.do(nm, action)]: the evaluation, then the action on the object. *)
Definition doing (nm : string) (act : (nat -> mkind) -> core -> nat -> world -> option world) (s : ses) : option ses :=
  let r := reg (se_regs s) 1 in
  match core_get canon (fst r) nm with
  | Ok i =>
      match mevaluate canon (kind_of r) no_other (se_fs s) 20 (fst r, se_ca s) with
      | Ok (c1, ca1) =>
          match act (kind_of r) c1 i (WD (se_fs s) ca1 (se_now s) (se_now s) []) with
          | Some w => Some (SE (lupd (se_regs s) 1 (c1, snd r)) (w_fs w) (w_cache w) (w_now w))
          | None => None
          end
      | _ => None
      end
  | _ => None
  end.
Definition update_if_need kind c i w : option world :=
  match fmake kind false no_fail c [i] 0 w with Some (RNotFalse, w') => Some w' | _ => None end.
(** [recurse_update] and [makefile], the default action: one thread. *)
Definition recurse kind c i w : option world :=
  match recurse_update canon c (fun l => l) id_order i (Some 1%Z) with
  | RuExec objs sv =>
      let s := auto (inv_of (sv_inv sv)) (fmake kind false no_fail c objs) 200 (init_state sv w) in
      if returned s && negb (s_error s) then Some (s_world s) else None
  | _ => None
  end.
(** [build] of a target made by touch (make.py:315-317): the file is written, and the cache is
    not told. *)
Definition build (kind : nat -> mkind) (c : core) (i : nat) (w : world) : option world :=
  match kind i with
  | MFile _ b => match b (contents (w_fs w)) with
                 | Some v => Some (WD (fs_set (w_fs w) (t_name (obj c i)) (Some (S (w_now w), Reg v))) (w_cache w) (w_base w) (S (w_now w)) (w_ran w))
                 | None => None
                 end
  | _ => None
  end.
(** [open(p, "w")], later than everything. *)
Definition write (p v : string) (s : ses) : option ses :=
  Some (SE (se_regs s) (fs_set (se_fs s) p (Some (S (se_now s), Reg v))) (se_ca s) (S (se_now s))).
Definition told (p : string) (s : ses) : option ses := Some (SE (se_regs s) (se_fs s) (update_info (se_fs s) (se_ca s) p) (se_now s)).
Definition begin (dirs : list string) : option ses :=
  Some (SE [empty_reg; empty_reg] (fun p => if mem p ("/" :: "/tmp" :: dirs) then Some (0, Dir) else None) [] 1).
Definition has_text (p v : string) (s : ses) : bool := match contents (se_fs s) p with Some x => String.eqb x v | None => false end.
Definition is_there (p : string) (s : ses) : bool := present (se_fs s) p.
Definition date (p : string) (s : ses) : nat := match se_fs s p with Some (m, _) => m | None => 0 end.
(** What the cache says about the date ([mtime()]). *)
Definition cached_date (p : string) (s : ses) : nat := fi_mtime (fst (get_info (se_fs s) (se_ca s) p)).
Definition deps_are (p : string) (ds : list string) (s : ses) : bool :=
  let c := fst (reg (se_regs s) 1) in
  match core_get canon c p with Ok i => if list_eq_dec string_dec (t_deps (obj c i)) ds then true else false | _ => false end.
Definition is_kind (p : string) (test : mkind -> bool) (s : ses) : bool :=
  match core_get canon (fst (reg (se_regs s) 1)) p with Ok i => test (kind_of (reg (se_regs s) 1) i) | _ => false end.
Definition cp (src : string) : buildfun := fun s => s src.
Definition const (v : string) : buildfun := fun _ => Some v.

(** test_copy.py:13-66 *)
Notation T1 := "/tmp/licant/test.txt". Notation T2 := "/tmp/licant/test2.txt".
Definition copy1 : option ses := begin ["/tmp/licant"] |> write T1 "test" |> call (OCopy T1 T2 (cp T1) []).
Definition copy2 : option ses := copy1 |> doing T2 update_if_need.
Definition copy3 : option ses := copy2 |> write T1 "tes222t".
Definition copy4 : option ses := copy3 |> told T1.
Definition copy5 : option ses := copy4 |> doing T2 update_if_need.
Example test_copy_core_object :
  on_ses copy1 (deps_are T2 [T1]) = true /\
  on_ses copy2 (is_there T2) = true /\
  on_ses copy3 (has_text T1 "tes222t") = true /\
  match copy2, copy3, copy4, copy5 with
  | Some s2, Some s3, Some s4, Some s5 =>
      cached_date T1 s2 = cached_date T1 s3 /\ cached_date T1 s3 <> cached_date T1 s4 /\ is_there T2 s5 = true /\ date T2 s2 <> date T2 s5
      /\ has_text T2 "tes222t" s5 = true
  | _, _, _, _ => False
  end.
Proof. vm_compute. repeat split; discriminate. Qed.
(** 68-87 *)
Definition twice : option ses := copy2 |> doing T2 update_if_need.
Example test_double_copy : match copy2, twice with Some a, Some b => cached_date T2 a = cached_date T2 b | _, _ => False end.
Proof. vm_compute. reflexivity. Qed.

(** test_ftarget.py:8-30 *)
Definition newline : string := String (Ascii.ascii_of_nat 10) "".
Notation F1 := "/tmp/licant/test/1.txt". Notation F2 := "/tmp/licant/test/2.txt".
Definition lalala : string := ("lalala" ++ newline)%string.
Definition ft : option ses := begin ["/tmp/licant"; "/tmp/licant/test"] |> call (OFtarget F1 (const lalala) []) |> call (OFtarget F2 (cp F1) [F1]) |> doing F2 recurse.
Example test_ftarget : on_ses ft (fun s => is_there F1 s && is_there F2 s && has_text F1 lalala s && has_text F2 lalala s) = true.
Proof. vm_compute. reflexivity. Qed.

(** test_core.py:60-81 *)
Definition touch0 : option ses := begin ["/tmp/licant"] |> call (OFtarget "/tmp/licant/test/a" (const "Hello") []) |> call (OFtarget "/tmp/licant/test/d" (const "Hello") []).
Definition touch1 : option ses := touch0 |> doing "/tmp/licant/test/a" recurse |> doing "/tmp/licant/test/d" recurse.
Definition touch2 : option ses := touch1 |> call (OCopy "/tmp/licant/test/a" "/tmp/licant/test/b" (cp "/tmp/licant/test/a") [])
  |> call (OCopy "/tmp/licant/test/a" "/tmp/licant/test/c" (cp "/tmp/licant/test/a") []).
Definition touch3 : option ses := touch2 |> doing "/tmp/licant/test/b" recurse |> doing "/tmp/licant/test/c" recurse.
Example test_makecore_touch :
  on_ses touch0 (is_kind "/tmp/licant/test" (fun k => match k with MDir => true | _ => false end)) = true /\
  on_ses touch1 (fun s => is_there "/tmp/licant/test/a" s && is_there "/tmp/licant/test/d" s) = true /\
  on_ses touch3 (fun s => is_there "/tmp/licant/test/b" s && is_there "/tmp/licant/test/c" s && has_text "/tmp/licant/test/c" "Hello" s) = true.
Proof. vm_compute. auto. Qed.
(** 83-88 *)
Example test_source : on_ses (begin [] |> write "/tmp/vasdvasdva.txt" "Hello" |> call (OSource "a.txt")) (fun _ => true) = true.
Proof. vm_compute. reflexivity. Qed.
(** 90-112 *)
Definition mcopy : option ses := begin ["/tmp/licant"; "/tmp/licant/test"] |> write "/tmp/licant/test/a.txt" "Hello" |> call (OSource "/tmp/a.txt")
  |> call (OCopy "/tmp/licant/test/a.txt" "/tmp/licant/test/build/b.txt" (cp "/tmp/licant/test/a.txt") [])
  |> call (OCopy "/tmp/licant/test/build/b.txt" "/tmp/licant/test/build/c.txt" (cp "/tmp/licant/test/build/b.txt") []).
Example test_core_copy :
  on_ses mcopy (fun s => deps_are "/tmp/licant/test/build/b.txt" ["/tmp/licant/test/a.txt"; "/tmp/licant/test/build"] s
                         && deps_are "/tmp/licant/test/build/c.txt" ["/tmp/licant/test/build/b.txt"; "/tmp/licant/test/build"] s) = true /\
  on_ses (mcopy |> doing "/tmp/licant/test/build/c.txt" recurse) (has_text "/tmp/licant/test/build/c.txt" "Hello") = true.
Proof. vm_compute. auto. Qed.
(** install_test.py:10-39 *)
Notation H1 := "/tmp/licant/include/test1.h". Notation H2 := "/tmp/licant/include/test2.h".
Definition inst : option ses := begin ["/tmp/licant"; "/tmp/licant/include"] |> write T1 "test" |> call (OFtarget H1 (const "test1") []) |> call (OFtarget H2 (const "test2") [])
  |> doing H1 build |> doing H2 build.
Example test_install_touch : on_ses inst (fun s => is_there H1 s && is_there H2 s && has_text H1 "test1" s && has_text H2 "test2" s) = true.
Proof. vm_compute. reflexivity. Qed.

(** ** test_core.py, targets without files *)
(** 8-15 (and test_routine.py:8-16): [action=foo(x)] calls foo at once; the action is None, and
    [do] ignores it. *)
Example test_core_object :
  target_invoke (S := core) (fun c => Ok c) (fun _ a => if String.eqb a "action" then None else Some (fun c => Ok (PyBool true, c))) false 0 "action" empty_core
  = Ok (PyNone, empty_core).
Proof. reflexivity. Qed.
(** 24-42: the update functions are counted. *)
Definition upd_regs : option mreg :=
  match mrun canon (fun _ => false) no_glob "/h" 20 1 [OTarget true "nonupdated" []; OTarget true "updated" []] [empty_reg; empty_reg] with
  | Ok st => Some (reg st 1) | _ => None end.
Definition upd_if (i : nat) : res bool := Ok (Nat.eqb i 1).
Example test_update :
  match upd_regs with
  | Some r => match mevaluate canon (kind_of r) upd_if (fun _ => None) 20 (fst r, []) with
              | Ok (c, _) => t_need (obj c 0) = Some false /\ t_need (obj c 1) = Some true /\
                             core_get canon c "nonupdated" = Ok 0 /\ core_get canon c "updated" = Ok 1
              | _ => False end
  | None => False end.
Proof. vm_compute. auto. Qed.
(** 44-58: two routines, two targets; each takes part in its own update and is needed. *)
Definition rt_regs : option mreg :=
  match mrun canon (fun _ => false) no_glob "/h" 20 1 [OTarget true "clean" []; OTarget true "make" []] [empty_reg; empty_reg] with
  | Ok st => Some (reg st 1) | _ => None end.
Example test_target_routine :
  match rt_regs with
  | Some r => List.length (c_targets (fst r)) = 2 /\
      match mevaluate canon (kind_of r) (fun _ => Ok true) (fun _ => None) 20 (fst r, []) with
      | Ok (c, _) => forall i, i < 2 -> exists sv, recurse_update canon c (fun l => l) id_order i (Some 1%Z) = RuExec [i] sv /\ t_need (obj c i) = Some true
      | _ => False end
  | None => False end.
Proof.
  vm_compute rt_regs. split; [reflexivity|]. vm_compute mevaluate.
  intros i Hi. assert (i = 0 \/ i = 1) as [->| ->] by lia; eexists; (split; [vm_compute; reflexivity|vm_compute; reflexivity]).
Qed.

(** ** test_default_core.py: processes with the default core *)
Definition process (l : list stmt) (x : string) (fs : fsys) : option world :=
  match mrun canon (fun p => present fs (canon p)) no_glob "/h" 20 0 (map op_of l) [empty_reg] with
  | Ok st =>
      match core_get canon (fst (reg st 0)) x with
      | Ok i =>
          match mevaluate canon (kind_of (reg st 0)) no_other fs 20 (set_threads (fst (reg st 0)) 4, []) with
          | Ok (c1, ca1) =>
              match recurse_update canon c1 (fun l => l) id_order i None with
              | RuExec objs sv =>
                  let s := auto (inv_of (sv_inv sv)) (fmake (kind_of (reg st 0)) false no_fail c1 objs) 300 (init_state sv (WD fs ca1 1 1 [])) in
                  if returned s && negb (s_error s) then Some (s_world s) else None
              | _ => None
              end
          | _ => None
          end
      | _ => None
      end
  | _ => None
  end.
Definition disk_with (p v : string) : fsys := fun q =>
  if mem q ["/"; "/tmp"; "/tmp/licant"] then Some (0, Dir) else if String.eqb q p then Some (1, Reg v) else if String.eqb q "/make.py" then Some (1, Reg "") else None.
Definition made (o : option world) (p v : string) : bool :=
  match o with Some w => match contents (w_fs w) p with Some x => String.eqb x v | None => false end | None => false end.
(** 14-27 *)
Example test_default_copy :
  made (process (importing "make.py" ++ [SCopy T2 T1 [] (cp T1)]) T2 (disk_with T1 "test")) T2 "test" = true.
Proof. vm_compute. reflexivity. Qed.
(** 29-44; the compiler leaves in the object what it was called with. *)
Notation A := "/tmp/licant/a.target".
Definition tsh (cmd p : string) : buildfun := fun s =>
  if String.eqb p A then s "/tmp/licant/build/tmp/licant/a.o"
  else match s "/tmp/licant/a.cpp" with Some v => Some (cmd ++ " # " ++ v)%string | None => None end.
Definition tcalls := ccalls_stmts tsh "/" "/h" standart_toolchain no_glob (fun _ => None) 20 mlib0
  [([], "/make.py", CTask "application" A None None false [("builddir", VStr "/tmp/licant/build"); ("sources", VList [EStr "/tmp/licant/a.cpp"])])].
Example test_module_build :
  match tcalls with
  | Ok (_, l) => made (process (importing "make.py" ++ l) A (disk_with "/tmp/licant/a.cpp" "int main() { return 0; }")) A
      "c++ -c /tmp/licant/a.cpp -o /tmp/licant/build/tmp/licant/a.o   -std=c++17 -g   # int main() { return 0; }" = true
  | _ => False
  end.
Proof. vm_compute. reflexivity. Qed.
