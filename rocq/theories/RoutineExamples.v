(** A scheduler for processes that run routines, and concrete processes: non-vacuity
    examples and witnesses for C96. *)
From Coq Require Import Permutation.
From Verif Require Import PyBase PyPath PathProofs SolverModel SpecGraph InvokerModel SpecTrace InvokerPath InvokerExec CoreModel SpecCore CoreProofs NeedProofs
  MakeModel MakeEval SpecMake MakeProofs MakeExec MakeExamples RegModel CliModel SpecUtil SpecReg RegExamples SpecProject ProjectExamples SpecRoutine.
Local Open Scope string_scope.
Local Open Scope list_scope.

(** As [fmake], with routines: [act y w] is what the function of routine [y] does. *)
Section RExec.
  Variables (kind : nat -> mkind) (on_fail : string -> leftover * bool) (act : string -> world -> tres * world) (c : core).
  Definition rmake (objs : list nat) (k : nat) (w : world) : option (tres * world) :=
    match nth_error objs k with
    | None => None
    | Some j =>
        match kind j, t_class (obj c j), t_need (obj c j) with
        | MOther, Updatable, Some true => Some (act (t_name (obj c j)) w)
        | _, _, _ => fmake kind false on_fail c objs k w
        end
    end.
  Lemma rmake_sound canon objs k w r w' : rmake objs k w = Some (r, w') -> mk_task canon kind false c objs k w r w'.
  Proof.
    unfold rmake. destruct (nth_error objs k) as [j|] eqn:Ej; [|discriminate].
    destruct (kind j) eqn:Ek; try apply fmake_sound.
    destruct (t_class (obj c j)) eqn:Ec; [apply fmake_sound|]. destruct (t_need (obj c j)) as [[|]|] eqn:En; try apply fmake_sound.
    intros [= E]. unfold mk_task, task_behaviour.
    rewrite (nth_error_nth _ _ (List.length (c_heap c)) Ej), Ek, Ec, En.
    now apply up_other.
  Qed.
  Lemma rmake_reaches canon sv objs cs w0 s :
    osched (inv_of (sv_inv sv)) (rmake objs) cs (init_state sv w0) = Some s ->
    exec_reaches sv (mk_task canon kind false c objs) w0 s.
  Proof. intros H. eapply osched_steps; [|constructor|exact H]. intros t w r w'. apply rmake_sound. Qed.
End RExec.

Definition all_other (_ : nat) : res bool := Ok true.
Definition do_routine cwd home exists_ glob_ (on_fail : string -> leftover * bool) act (l : list stmt) (x : string) (th : Z) (fs : fsys) (now : nat)
  (cs : list choice) : option ran :=
  match mrun (realpath cwd) exists_ glob_ home 20 0 (map op_of l) [empty_reg] with
  | Ok st =>
      match core_get (realpath cwd) (fst (reg st 0)) x with
      | Ok i =>
          match mevaluate (realpath cwd) (kind_of (reg st 0)) all_other fs 20 (set_threads (fst (reg st 0)) th, []) with
          | Ok (c1, ca1) =>
              match recurse_update (realpath cwd) c1 (fun l => l) id_order i None with
              | RuExec objs sv =>
                  match osched (inv_of (sv_inv sv)) (rmake (kind_of (reg st 0)) on_fail act c1 objs) cs (init_state sv (WD fs ca1 now now [])) with
                  | Some s => Some (RAN (kind_of (reg st 0)) c1 objs sv s)
                  | None => None
                  end
              | _ => None
              end
          | _ => None
          end
      | _ => None
      end
  | _ => None
  end.
Lemma do_routine_ok cwd home exists_ glob_ on_fail act l x th fs now cs r :
  do_routine cwd home exists_ glob_ on_fail act l x th fs now cs = Some r ->
  building cwd home exists_ glob_ false l x th fs now (rn_kind r) (rn_core r) (rn_objs r) (rn_solver r) (rn_state r).
Proof.
  unfold do_routine. intros H.
  destruct (mrun _ _ _ _ _ _ _ _) as [st| |] eqn:Er; try discriminate.
  destruct (core_get _ _ _) as [i| |] eqn:Ei; try discriminate.
  destruct (mevaluate _ _ _ _ _ _) as [[c1 ca1]| |] eqn:Ee; try discriminate.
  destruct (recurse_update _ _ _ _ _ _) as [| |objs sv|] eqn:Eu; try discriminate.
  destruct (osched _ _ _ _) as [s|] eqn:Es; try discriminate. injection H as <-. cbn [rn_kind rn_core rn_objs rn_solver rn_state].
  exists 20, st, i, all_other, 20, ca1, (fun l => l), id_order.
  split; [exact Er|]. split; [reflexivity|]. split; [exact Ei|]. split; [exact Ee|].
  split; [intros; apply Permutation_refl|]. split; [split; intros; apply Permutation_refl|]. split; [exact Eu|].
  eapply rmake_reaches; eauto.
Qed.

(** Which routines have begun, which are over. *)
Definition begun_test (r : ran) (y : string) : bool :=
  existsb (fun e => match e with EStart k => String.eqb (name_at (rn_core r) (rn_objs r) k) y | _ => false end) (s_log (rn_state r)).
Lemma begun_test_ok r y : begun_test r y = true -> begun (rn_core r) (rn_objs r) (rn_state r) y.
Proof.
  unfold begun_test. rewrite existsb_exists. intros (e & H & E). destruct e as [k| | | |]; try discriminate.
  exists k. split; [exact H|]. now apply String.eqb_eq.
Qed.
Definition none_test (names : list string) (r : ran) : bool :=
  forallb (fun e => negb (mem (name_at (rn_core r) (rn_objs r) (fst e)) names)) (ended (s_log (rn_state r))).
Lemma none_test_ok l names r : (forall y, is_routine l y -> In y names) -> none_test names r = true ->
  none_over l (rn_core r) (rn_objs r) (rn_state r).
Proof.
  intros Hn H y res Hy (k & Hk & E). unfold none_test in H. rewrite forallb_forall in H. specialize (H _ Hk). cbn [fst] in H.
  rewrite E in H. apply Hn, mem_In in Hy. now rewrite Hy in H.
Qed.

(** The script of ProjectExamples: routine test needs out/app. *)
Lemma ptest_wanted : wanted "/w" "/h" no_glob pscript "test".
Proof. right. exists ["out/app"]. apply in_app_iff. right. cbn. tauto. Qed.
Lemma ptest_only y : is_routine pscript y -> In y ["binutils"; "m"; "cxxm"; "l"; "test"].
Proof.
  intros [ds H]. apply in_app_iff in H. destruct H as [H|H].
  - cbn [importing In] in H. repeat (destruct H as [H|H]; [try discriminate; injection H as <- <-; cbn; tauto|]). destruct H.
  - cbn [pown In] in H. repeat (destruct H as [H|H]; [try discriminate; injection H as <- <-; cbn; tauto|]). destruct H.
Qed.
Definition keeps_act (_ : string) (w : world) : tres * world := (RNotFalse, w).
Notation prun_test := (do_routine "/w" "/h" (on_path pdisk) no_glob no_fail keeps_act pscript "test" 2 pfs 1).
Definition pbegun_test (r : ran) : bool :=
  begun_test r "test" && none_test ["binutils"; "m"; "cxxm"; "l"; "test"] r && all_ran_well r && String.eqb (text r "/w/out/app") "o:src+main" && negb (returned r).
Definition routine_choices : list choice :=
  [CGet 0; CGet 1; CFin 0; CFin 0; CFin 0; CFin 1; CFin 0; CFin 1; CFin 0; CFin 0; CFin 0].
Definition prun_check (cs : list choice) (test : ran -> bool) : bool := on_ran (prun_test cs) test.
Lemma prun_check_ok cs test : prun_check cs test = true -> exists r, test r = true /\
  building "/w" "/h" (on_path pdisk) no_glob false pscript "test" 2 pfs 1 (rn_kind r) (rn_core r) (rn_objs r) (rn_solver r) (rn_state r).
Proof.
  intros H. destruct (on_ran_ok (prun_test cs) test H) as (r & E & T). exists r. split; [exact T|exact (do_routine_ok _ _ _ _ _ _ _ _ _ _ _ _ _ E)].
Qed.
Lemma pbegun_test_ok : prun_check routine_choices pbegun_test = true.
Proof. vm_compute. reflexivity. Qed.
Lemma prun_begun : exists kind c1 objs sv s,
  building "/w" "/h" (on_path pdisk) no_glob false pscript "test" 2 pfs 1 kind c1 objs sv s /\
  none_over pscript c1 objs s /\ begun c1 objs s "test" /\ no_rule_failed pproj (s_world s) /\
  contents (w_fs (s_world s)) "/w/out/app" = Some "o:src+main".
Proof.
  destruct (prun_check_ok _ _ pbegun_test_ok) as (r & H & B). unfold pbegun_test in H.
  apply andb_prop in H. destruct H as [H _]. apply andb_prop in H. destruct H as [H H4].
  apply andb_prop in H. destruct H as [H H3]. apply andb_prop in H. destruct H as [H1 H2].
  exists (rn_kind r), (rn_core r), (rn_objs r), (rn_solver r), (rn_state r).
  split; [exact B|]. split; [exact (none_test_ok _ _ _ ptest_only H2)|].
  split; [now apply begun_test_ok|]. split; [now apply all_ran_well_ok|]. now apply text_eq.
Qed.

(** The script gen.py, of a process with two workers:
<<
    licant.source("in")
    makefile("out", ["in"], f)
    @licant.routine
    def gen(): ...                 # writes the file in
    @licant.routine(deps=["gen", "out"])
    def test(): ...
>> *)
Definition gscript : list stmt :=
  [SRule false "out" ["in"] (read1 "o:" "/w/in"); STarget true "gen" []; STarget true "test" ["gen"; "out"]].
Definition gdisk : list string := ["/"; "/w"; "/w/in"].
Definition gfs : fsys := fun p => if mem p ["/"; "/w"] then Some (0, Dir) else if String.eqb p "/w/in" then Some (1, Reg "old") else None.
Notation gproj := (project_of "/w" "/h" no_glob gscript).
Lemma gfs_ok : disk_ok "/w" (present gfs) (on_path gdisk).
Proof.
  apply present_ok; [|reflexivity..]. intros p. unfold present, gfs, on, gdisk, mem. cbn [existsb].
  destruct (String.eqb_spec p "/"), (String.eqb_spec p "/w"), (String.eqb_spec p "/w/in"); reflexivity.
Qed.
Lemma gscript_ok : in_order "/w" "/h" no_glob (on_path gdisk) gscript.
Proof. apply in_orderb_ok. vm_compute. reflexivity. Qed.
Definition gen_act (y : string) (w : world) : tres * world :=
  if String.eqb y "gen" then
    let m := S (Nat.max (w_base w) (w_now w)) in
    (RNotFalse, WD (fs_set (w_fs w) "/w/in" (Some (m, Reg "new"))) (w_cache w) (w_base w) m (w_ran w))
  else (RNotFalse, w).
Notation grun := (do_routine "/w" "/h" (on_path gdisk) no_glob no_fail gen_act gscript "test" 2 gfs 1).
Definition gbegun_test (r : ran) : bool :=
  begun_test r "test" && all_ran_well r && String.eqb (text r "/w/out") "o:old" && String.eqb (text r "/w/in") "new".
Definition gchoices : list choice := [CGet 0; CGet 1; CFin 1; CFin 1; CFin 0].
Definition grun_check (cs : list choice) (test : ran -> bool) : bool := on_ran (grun cs) test.
Lemma grun_check_ok cs test : grun_check cs test = true -> exists r, test r = true /\
  building "/w" "/h" (on_path gdisk) no_glob false gscript "test" 2 gfs 1 (rn_kind r) (rn_core r) (rn_objs r) (rn_solver r) (rn_state r).
Proof.
  intros H. destruct (on_ran_ok (grun cs) test H) as (r & E & T). exists r. split; [exact T|exact (do_routine_ok _ _ _ _ _ _ _ _ _ _ _ _ _ E)].
Qed.
Lemma gbegun_test_ok : grun_check gchoices gbegun_test = true.
Proof. vm_compute. reflexivity. Qed.
Lemma grun_begun : exists kind c1 objs sv s,
  building "/w" "/h" (on_path gdisk) no_glob false gscript "test" 2 gfs 1 kind c1 objs sv s /\ begun c1 objs s "test" /\
  no_rule_failed gproj (s_world s) /\ contents (w_fs (s_world s)) "/w/out" = Some "o:old" /\ contents (w_fs (s_world s)) "/w/in" = Some "new".
Proof.
  destruct (grun_check_ok _ _ gbegun_test_ok) as (r & H & B). unfold gbegun_test in H.
  apply andb_prop in H. destruct H as [H H4]. apply andb_prop in H. destruct H as [H H3]. apply andb_prop in H. destruct H as [H1 H2].
  exists (rn_kind r), (rn_core r), (rn_objs r), (rn_solver r), (rn_state r).
  split; [exact B|]. split; [now apply begun_test_ok|]. split; [now apply all_ran_well_ok|]. split; now apply text_eq.
Qed.
Lemma gproj_out : gproj "/w/out" = Some (DRule false ["/w/in"] (read1 "o:" "/w/in")).
Proof. vm_compute. reflexivity. Qed.
Lemma gproj_in : gproj "/w/in" = Some DSource.
Proof. vm_compute. reflexivity. Qed.
Lemma gproj_rule p f ds b : gproj p = Some (DRule f ds b) -> p = "/w/out" /\ b = read1 "o:" "/w/in".
Proof.
  destruct (String.eqb_spec p "/w/out") as [->|N]; [rewrite gproj_out; intros [= <- <- <-]; auto|]. intros H. exfalso. unfold project_of in H.
  assert (E : first_decl "/w" "/h" no_glob gscript gscript p = None).
  { cbn [first_decl gscript]. unfold decl_of. cbn [rule_of set_of].
    match goal with |- context [if String.eqb ?a p then ?d else None] =>
      let v := eval vm_compute in a in replace a with v by (vm_compute; reflexivity) end.
    destruct (String.eqb_spec "/w/out" p) as [E|_]; [congruence|]. reflexivity. }
  rewrite E in H. destruct (is_name gscript p); [discriminate|]. destruct (existsb _ _); discriminate.
Qed.
Lemma gproj_reads : reads_only gproj.
Proof.
  intros p f ds b HP s s' Hs. pose proof (gproj_rule _ _ _ _ HP) as [-> ->]. unfold read1.
  assert (I1 : p_input gproj "/w/out" "/w/in").
  { apply pi_file; [|left; exact gproj_in]. exists ["/w/in"]. split; [now left|]. right. eexists _, _. exact gproj_out. }
  now rewrite (Hs _ I1).
Qed.
Lemma gstart : routine_history "/w" "/h" no_glob gscript gfs 1.
Proof.
  apply rh_start.
  - intros p m n. unfold gfs. destruct (mem p _); [intros [= <- <-]; auto|]. destruct (String.eqb p "/w/in"); [intros [= <- <-]; auto|discriminate].
  - intros p (f & ds & b & H). apply gproj_rule in H. destruct H as [-> _]. reflexivity.
  - intros p m [H|(f & ds & b & H)] E.
    + unfold gfs in E. destruct (mem p ["/"; "/w"]) eqn:M.
      * apply mem_In in M. destruct M as [<-|[<-|[]]]; vm_compute in H; discriminate.
      * destruct (String.eqb p "/w/in"); discriminate.
    + apply gproj_rule in H. destruct H as [-> _]. discriminate.
Qed.
