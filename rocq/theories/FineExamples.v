(** A scheduler for executions whose calls take time, and a concrete one: non-vacuity
    examples for C99. *)
From Coq Require Import Permutation.
From Verif Require Import PyBase PyPath PathProofs SolverModel SpecGraph InvokerModel SpecTrace InvokerPath InvokerExec CoreModel SpecCore CoreProofs NeedProofs
  MakeModel MakeEval SpecMake MakeProofs MakeExec MakeExamples RegModel CliModel SpecUtil SpecReg RegExamples SpecProject ProjectExamples FineModel SpecFine FineBuild.
Local Open Scope string_scope.
Local Open Scope list_scope.

(** Either a move of the scheduler or: the rule that worker [w] runs puts [v] into its output. *)
Inductive move := Move (c : choice) | Scribble (w : nat) (v : string).

Definition busyb (l : list event) (t : nat) : bool :=
  existsb (Nat.eqb t) (started l) && negb (existsb (Nat.eqb t) (finished l)) && negb (existsb (Nat.eqb t) (raised l)).
Lemma busyb_ok l t : busyb l t = true -> busy l t.
Proof.
  assert (G : forall xs, existsb (Nat.eqb t) xs = true <-> In t xs).
  { intros xs. rewrite existsb_exists. split; [intros (y & Hy & E); apply Nat.eqb_eq in E; now subst|intros H; exists t; split; [exact H|apply Nat.eqb_refl]]. }
  unfold busyb, busy. rewrite !andb_true_iff, !negb_true_iff, G. intros ((H1 & H2) & H3).
  split; [exact H1|]. split; intros H; apply G in H; congruence.
Qed.

Section IExec.
  Variables (canon : string -> string) (kind : nat -> mkind) (sv : solver) (c1 : core) (objs : list nat).
  Local Notation f := (fmake kind false no_fail c1 objs).
  Local Notation o t := (nth t objs (List.length (c_heap c1))).

  Definition imove (m : move) (s : state world) : option (nat * state world) :=
    match m with
    | Move (CFin w) =>
        match s_main s, nth_error (s_workers s) w with
        | MJoin, Some (WRun t) =>
            match f t (s_world s) with
            | Some (RNotFalse, w') => if busyb (s_log s) t then Some (1, after_task w t RNotFalse (inv_of (sv_inv sv) t) (set_world w' s)) else None
            | _ => None
            end
        | _, _ => None
        end
    | Move c => match osched1 (inv_of (sv_inv sv)) (fun _ _ => None) c s with Some s' => Some (1, s') | None => None end
    | Scribble w v =>
        match s_main s, nth_error (s_workers s) w with
        | MJoin, Some (WRun t) =>
            match kind (o t), t_need (obj c1 (o t)) with
            | MFile _ _, Some true =>
                if busyb (s_log s) t
                then let x := s_world s in
                     Some (0, set_world (WD (fs_set (w_fs x) (t_name (obj c1 (o t))) (Some (0, Reg v))) (w_cache x) (w_base x) (w_now x) (w_ran x)) s)
                else None
            | _, _ => None
            end
        | _, _ => None
        end
    end.
  Fixpoint isched (ms : list move) (n : nat) (s : state world) (h : list (state world)) : option (nat * state world * list (state world)) :=
    match ms with
    | [] => Some (n, s, h)
    | m :: ms => match imove m s with Some (k, s') => isched ms (k + n) s' (s :: h) | None => None end
    end.

  Lemma good_call t w w' s h : mk_task canon kind false c1 objs t w RNotFalse w' -> w = s_world s -> busy (s_log s) t ->
    fine_task canon kind false c1 objs (s :: h) t w RNotFalse w'.
  Proof.
    unfold mk_task, fine_task, task_behaviour. intros T -> Bt.
    assert (G : mk_update canon kind false c1 (o t) (s_world s) RNotFalse w' -> fine_update canon kind false c1 t (s :: h) (o t) (s_world s) RNotFalse w').
    { intros U. assert (Hs : seen (s :: h) t (contents (w_fs (s_world s)))) by (intros q; exists s; split; [now left|auto]).
      remember RNotFalse as r eqn:Er. destruct U as [force b v m Hk Hb Hlt Hin p fs'|force b fs' now' r ca' Hk Hb p Hf' Hr|Hk p|Hk|r w' Hk].
      - eapply fu_rule; eauto.
      - destruct Hr as [[-> _]|[-> _]]; discriminate.
      - apply fu_plain; [congruence|now apply up_source].
      - apply fu_plain; [congruence|now apply up_set].
      - apply fu_plain; [congruence|now apply up_other]. }
    destruct (kind (o t)); try exact T; destruct (t_class (obj c1 (o t))); try exact T; destruct (t_need (obj c1 (o t))) as [[|]|]; try exact T; exact (G T).
  Qed.
  Lemma imove_ok m n s h k s' w0 : interleaved canon kind false sv c1 objs w0 n (s :: h) -> imove m s = Some (k, s') ->
    interleaved canon kind false sv c1 objs w0 (k + n) (s' :: s :: h).
  Proof.
    intros H E.
    assert (Pl : forall c, match osched1 (inv_of (sv_inv sv)) (fun _ _ => None) c s with Some s' => Some (1, s') | None => None end = Some (k, s') ->
              interleaved canon kind false sv c1 objs w0 (k + n) (s' :: s :: h)).
    { intros c. destruct (osched1 _ _ c s) as [s1|] eqn:E1; [|discriminate]. intros [= <- <-]. apply il_moves; [exact H|]. apply fm_plain.
      eapply osched1_step; [|exact E1]. intros; discriminate. }
    destruct m as [[w|w|w|]|w v]; try (eapply Pl; exact E); cbn [imove] in E.
    - destruct (s_main s) eqn:Em; [|discriminate]. destruct (nth_error (s_workers s) w) as [[| t | | ]|] eqn:Ew; try discriminate.
      destruct (f t (s_world s)) as [[[| |] w']|] eqn:Ef; try discriminate. destruct (busyb (s_log s) t) eqn:Eb; [|discriminate].
      assert (k = 1) as -> by congruence. assert (s' = after_task w t RNotFalse (inv_of (sv_inv sv) t) (set_world w' s)) as -> by congruence.
      apply il_moves; [exact H|]. apply fm_ends; [exact Em|exact Ew| |apply Permutation_refl].
      apply good_call; [|reflexivity|now apply busyb_ok]. now apply (fmake_sound canon kind false no_fail).
    - destruct (s_main s) eqn:Em; [|discriminate]. destruct (nth_error (s_workers s) w) as [[| t | | ]|] eqn:Ew; try discriminate.
      destruct (kind (o t)) as [fo b| | | |] eqn:Ek; try discriminate. destruct (t_need (obj c1 (o t))) as [[|]|] eqn:En; try discriminate.
      destruct (busyb (s_log s) t) eqn:Eb; [|discriminate]. injection E as <- <-.
      eapply (il_writes canon kind false sv c1 objs w0 n s h t fo b (Some (0, Reg v))); [exact H|exact Em|now apply busyb_ok|exact Ek|exact En].
  Qed.
  Lemma isched_ok w0 : forall ms n s h n' s' h', interleaved canon kind false sv c1 objs w0 n (s :: h) -> isched ms n s h = Some (n', s', h') ->
    interleaved canon kind false sv c1 objs w0 n' (s' :: h').
  Proof.
    induction ms as [|m ms IH]; intros n s h n' s' h' H E; cbn [isched] in E; [injection E as <- <- <-; exact H|].
    destruct (imove m s) as [[k s1]|] eqn:E1; [|discriminate]. eapply IH; [|exact E]. eapply imove_ok; eauto.
  Qed.
End IExec.

Record fine_ran := FR { fr_ran : ran; fr_moves : nat; fr_past : list (state world) }.
Definition fine_process cwd home exists_ glob_ (l : list stmt) (x : string) (th : Z) (fs : fsys) (now : nat) (ms : list move) : option fine_ran :=
  match mrun (realpath cwd) exists_ glob_ home 20 0 (map op_of l) [empty_reg] with
  | Ok st =>
      match core_get (realpath cwd) (fst (reg st 0)) x with
      | Ok i =>
          match mevaluate (realpath cwd) (kind_of (reg st 0)) no_other fs 20 (set_threads (fst (reg st 0)) th, []) with
          | Ok (c1, ca1) =>
              match recurse_update (realpath cwd) c1 (fun l => l) id_order i None with
              | RuExec objs sv =>
                  match isched (kind_of (reg st 0)) sv c1 objs ms 0 (init_state sv (WD fs ca1 now now [])) [] with
                  | Some (n, s, h) => Some (FR (RAN (kind_of (reg st 0)) c1 objs sv s) n h)
                  | None => None
                  end
              | _ => None
              end
          | _ => None
          end
      | _ => None
      end
  | _ => None
  end.
Lemma fine_process_ok cwd home exists_ glob_ l x th fs now ms r : fine_process cwd home exists_ glob_ l x th fs now ms = Some r ->
  fine_building cwd home exists_ glob_ false l x th fs now
    (rn_kind (fr_ran r)) (rn_core (fr_ran r)) (rn_objs (fr_ran r)) (rn_solver (fr_ran r)) (fr_moves r) (rn_state (fr_ran r) :: fr_past r).
Proof.
  unfold fine_process. intros H. destruct (mrun _ _ _ _ _ _ _ _) as [st| |] eqn:Er; try discriminate.
  destruct (core_get _ _ _) as [i| |] eqn:Ei; try discriminate.
  destruct (mevaluate _ _ _ _ _ _) as [[c1 ca1]| |] eqn:Ee; try discriminate.
  destruct (recurse_update _ _ _ _ _ _) as [| |objs sv|] eqn:Eu; try discriminate.
  destruct (isched _ _ _ _ _ _ _ _) as [[[n s] h]|] eqn:Es; [|discriminate]. injection H as <-. cbn [fr_ran fr_moves fr_past rn_kind rn_core rn_objs rn_solver rn_state].
  exists 20, st, i, no_other, 20, ca1, (fun l => l), id_order.
  split; [exact Er|]. split; [reflexivity|]. split; [exact Ei|]. split; [exact Ee|].
  split; [intros; apply Permutation_refl|]. split; [split; intros; apply Permutation_refl|]. split; [exact Eu|].
  eapply isched_ok; [|exact Es]. constructor.
Qed.

(** out/app of pscript, made by two workers.  The rules for out/a.h and out/lib/a.o run at the
    same time and scribble into their files, and the one for out/app puts something there
    before it is done, too. *)
Definition pmoves : list move :=
  map Move (firstn 7 pchoices) ++
  [Scribble 0 "half an object"; Scribble 1 "h"; Scribble 0 "more"] ++ map Move (firstn 3 (skipn 7 pchoices)) ++
  [Scribble 0 "half a program"] ++ map Move (skipn 10 pchoices).
Definition fine_run (ms : list move) : option fine_ran := fine_process "/w" "/h" (on_path pdisk) no_glob pscript "/w/out/app" 2 pfs 1 ms.
Definition fine_test (ms : list move) (test : fine_ran -> bool) : bool := match fine_run ms with Some r => test r | None => false end.
Lemma fine_test_ok ms test : fine_test ms test = true -> exists r, test r = true /\
  fine_building "/w" "/h" (on_path pdisk) no_glob false pscript "/w/out/app" 2 pfs 1
    (rn_kind (fr_ran r)) (rn_core (fr_ran r)) (rn_objs (fr_ran r)) (rn_solver (fr_ran r)) (fr_moves r) (rn_state (fr_ran r) :: fr_past r).
Proof.
  unfold fine_test. destruct (fine_run ms) as [r|] eqn:E; [|discriminate]. intros H. exists r. split; [exact H|].
  exact (fine_process_ok _ _ _ _ _ _ _ _ _ _ _ E).
Qed.
Definition fine_done_test (r : fine_ran) : bool :=
  fine (fr_ran r) && all_ran_well (fr_ran r) && (Nat.eqb (fr_moves r) 12 && String.eqb (text (fr_ran r) "/w/out/app") "o:src+main").
Lemma fine_done_ok : fine_test pmoves fine_done_test = true.
Proof. vm_compute. reflexivity. Qed.
Lemma fine_done : exists kind c1 objs sv h s,
  fine_building "/w" "/h" (on_path pdisk) no_glob false pscript "/w/out/app" 2 pfs 1 kind c1 objs sv 12 (s :: h) /\
  succeeded objs s /\ no_rule_failed pproj (s_world s) /\ contents (w_fs (s_world s)) "/w/out/app" = Some "o:src+main".
Proof.
  destruct (fine_test_ok _ _ fine_done_ok) as (r & H & B). unfold fine_done_test in H.
  apply andb_prop in H. destruct H as [H H2]. apply andb_prop in H. destruct H as [H H1]. apply andb_prop in H2. destruct H2 as [H2 H3].
  apply Nat.eqb_eq in H2. rewrite H2 in B.
  exists (rn_kind (fr_ran r)), (rn_core (fr_ran r)), (rn_objs (fr_ran r)), (rn_solver (fr_ran r)), (fr_past r), (rn_state (fr_ran r)).
  split; [exact B|]. split; [now apply fine_ok|]. split; [now apply all_ran_well_ok|]. now apply text_eq.
Qed.
(** The two files are half made; nothing else is different from what it would be. *)
Definition fine_middle_test (r : fine_ran) : bool :=
  let s := rn_state (fr_ran r) in let c1 := rn_core (fr_ran r) in
  let o t := nth t (rn_objs (fr_ran r)) (List.length (c_heap c1)) in
  let made t p := busyb (s_log s) t && match rn_kind (fr_ran r) (o t) with MFile _ _ => true | _ => false end
    && match t_need (obj c1 (o t)) with Some true => true | _ => false end && String.eqb p (t_name (obj c1 (o t))) in
  negb (returned (fr_ran r)) && all_ran_well (fr_ran r) && (made 7 "/w/out/lib/a.o" && made 6 "/w/out/a.h") &&
  (String.eqb (text (fr_ran r) "/w/out/lib/a.o") "more" && String.eqb (text (fr_ran r) "/w/out/a.h") "h").
Lemma fine_middle_ok : fine_test (firstn 10 pmoves) fine_middle_test = true.
Proof. vm_compute. reflexivity. Qed.
Lemma fine_middle : exists kind c1 objs sv n h s,
  fine_building "/w" "/h" (on_path pdisk) no_glob false pscript "/w/out/app" 2 pfs 1 kind c1 objs sv n (s :: h) /\
  s_main s = MJoin /\ no_rule_failed pproj (s_world s) /\
  being_made kind c1 objs s "/w/out/lib/a.o" /\ being_made kind c1 objs s "/w/out/a.h" /\
  contents (w_fs (s_world s)) "/w/out/lib/a.o" = Some "more" /\ contents (w_fs (s_world s)) "/w/out/a.h" = Some "h".
Proof.
  destruct (fine_test_ok _ _ fine_middle_ok) as (r & H & B). unfold fine_middle_test in H. cbv zeta in H.
  apply andb_prop in H. destruct H as [H H3]. apply andb_prop in H. destruct H as [H H2]. apply andb_prop in H. destruct H as [H H1].
  apply andb_prop in H2. destruct H2 as [M7 M6]. apply andb_prop in H3. destruct H3 as [T7 T6].
  exists (rn_kind (fr_ran r)), (rn_core (fr_ran r)), (rn_objs (fr_ran r)), (rn_solver (fr_ran r)), (fr_moves r), (fr_past r), (rn_state (fr_ran r)).
  split; [exact B|]. split; [unfold returned in H; destruct (s_main (rn_state (fr_ran r))); [reflexivity|discriminate]|]. split; [now apply all_ran_well_ok|].
  assert (G : forall t p, busyb (s_log (rn_state (fr_ran r))) t
     && match rn_kind (fr_ran r) (nth t (rn_objs (fr_ran r)) (List.length (c_heap (rn_core (fr_ran r))))) with MFile _ _ => true | _ => false end
     && match t_need (obj (rn_core (fr_ran r)) (nth t (rn_objs (fr_ran r)) (List.length (c_heap (rn_core (fr_ran r)))))) with Some true => true | _ => false end
     && String.eqb p (t_name (obj (rn_core (fr_ran r)) (nth t (rn_objs (fr_ran r)) (List.length (c_heap (rn_core (fr_ran r))))))) = true ->
     being_made (rn_kind (fr_ran r)) (rn_core (fr_ran r)) (rn_objs (fr_ran r)) (rn_state (fr_ran r)) p).
  { intros t p M. apply andb_prop in M. destruct M as [M M4]. apply andb_prop in M. destruct M as [M M3]. apply andb_prop in M. destruct M as [M1 M2].
    apply String.eqb_eq in M4. unfold being_made. cbv zeta.
    destruct (rn_kind (fr_ran r) (nth t _ _)) as [f b| | | |] eqn:Ek; try discriminate. exists t, f, b.
    split; [now apply busyb_ok|]. split; [exact Ek|]. split; [|exact M4].
    destruct (t_need (obj _ (nth t _ _))) as [[|]|]; [reflexivity|discriminate|discriminate]. }
  split; [exact (G 7 _ M7)|]. split; [exact (G 6 _ M6)|]. split; now apply text_eq.
Qed.

Lemma fine_start : fine_history "/w" "/h" no_glob pscript pfs 1.
Proof.
  apply fh_start.
  - intros p m n. unfold pfs. destruct (mem p _); [intros [= <- <-]; auto|].
    destruct (String.eqb p "/w/src.c"); [intros [= <- <-]; auto|]. destruct (String.eqb p "/w/a.h"); [intros [= <- <-]; auto|].
    destruct (String.eqb p "/w/main.c"); [intros [= <- <-]; auto|]. destruct (String.eqb p "/w/make.py"); [intros [= <- <-]; auto|discriminate].
  - intros p (f & ds & b & H). apply pproj_cases in H.
    destruct H as [[-> E]|[[-> E]|[[-> E]|[[-> E]|[_ E]]]]]; try discriminate; reflexivity.
  - intros p m [H|(f & ds & b & H)]; apply pproj_cases in H; destruct H as [[-> E]|[[-> E]|[[-> E]|[[-> E]|[Hp E]]]]]; try discriminate.
    destruct Hp as [<-|[<-|[<-|[<-|[]]]]]; discriminate.
Qed.
(** The build above has ended and src.c was changed since. *)
Lemma fine_edited : exists fs now, fine_history "/w" "/h" no_glob pscript fs now /\
  contents fs "/w/out/app" = Some "o:src+main" /\ contents fs "/w/src.c" = Some "new".
Proof.
  destruct fine_done as (kind & c1 & objs & sv & h & s & B & (Hm & Hs) & _ & Ht).
  destruct (script_atom "/w" "/h" pfs (on_path pdisk) no_glob pscript pfs_ok pscript_ok (only_settled _ pproj_reads_only) false _ _ _ _ _ _ _ _ _ _ papp_made B) as (a & _ & _ & Hn & _).
  exists (fs_set (w_fs (s_world s)) "/w/src.c" (Some (Datatypes.S (w_now (s_world s)), Reg "new"))), (Datatypes.S (w_now (s_world s))).
  assert (Ap : contents (fs_set (w_fs (s_world s)) "/w/src.c" (Some (Datatypes.S (w_now (s_world s)), Reg "new"))) "/w/out/app" = Some "o:src+main").
  { rewrite <- Ht. unfold contents, fs_set. reflexivity. }
  assert (Sc : contents (fs_set (w_fs (s_world s)) "/w/src.c" (Some (Datatypes.S (w_now (s_world s)), Reg "new"))) "/w/src.c" = Some "new") by reflexivity.
  split; [|split; [exact Ap|exact Sc]].
  eapply fh_outside; [eapply (fh_process "/w" "/h" no_glob pscript pfs 1); [exact fine_start|exact pfs_ok|exact pscript_ok|exact papp_made|exact B|exact (Hn Hm)]|].
  split; [lia|]. intros p. unfold fs_set. destruct (String.eqb_spec p "/w/src.c") as [->|]; [|left; reflexivity].
  right. right. left. split; [rewrite pproj_eq; reflexivity|]. exists (Datatypes.S (w_now (s_world s))), "new". split; [reflexivity|]. auto.
Qed.

(** The rule for out/lib/a.o (task 7) runs from the seventh move on. *)
Definition fine_long_test (r : fine_ran) : bool :=
  let c1 := rn_core (fr_ran r) in let o := nth 7 (rn_objs (fr_ran r)) (List.length (c_heap c1)) in
  busyb (s_log (rn_state (fr_ran r))) 7 && match rn_kind (fr_ran r) o with MFile _ _ => true | _ => false end &&
  String.eqb (t_name (obj c1 o)) "/w/out/lib/a.o" &&
  match nth_error (fr_past r) 2 with Some s1 => busyb (s_log s1) 7 | None => false end.
Lemma fine_long_ok : fine_test (firstn 10 pmoves) fine_long_test = true.
Proof. vm_compute. reflexivity. Qed.
Lemma fine_long : exists kind c1 objs sv n h s s1 f b,
  fine_building "/w" "/h" (on_path pdisk) no_glob false pscript "/w/out/app" 2 pfs 1 kind c1 objs sv n (s :: h) /\
  In s1 h /\ busy (s_log s) 7 /\ busy (s_log s1) 7 /\
  kind (nth 7 objs (List.length (c_heap c1))) = MFile f b /\ t_name (obj c1 (nth 7 objs (List.length (c_heap c1)))) = "/w/out/lib/a.o".
Proof.
  destruct (fine_test_ok _ _ fine_long_ok) as (r & H & B). unfold fine_long_test in H. cbv zeta in H.
  apply andb_prop in H. destruct H as [H H3]. apply andb_prop in H. destruct H as [H H2]. apply andb_prop in H. destruct H as [H H1].
  destruct (nth_error (fr_past r) 2) as [s1|] eqn:E1; [|discriminate].
  destruct (rn_kind (fr_ran r) _) as [f b| | | |] eqn:Ek; try discriminate.
  exists (rn_kind (fr_ran r)), (rn_core (fr_ran r)), (rn_objs (fr_ran r)), (rn_solver (fr_ran r)), (fr_moves r), (fr_past r), (rn_state (fr_ran r)), s1, f, b.
  split; [exact B|]. split; [eapply nth_error_In; exact E1|]. split; [now apply busyb_ok|]. split; [now apply busyb_ok|]. split; [exact Ek|].
  now apply String.eqb_eq.
Qed.
