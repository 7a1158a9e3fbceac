(** A scheduler for two processes side by side and two scripts in one directory:
    non-vacuity examples for C101. *)
From Coq Require Import Permutation Relations.
From Verif Require Import PyBase PyPath PathProofs SolverModel SpecGraph InvokerModel SpecTrace InvokerPath InvokerExec CoreModel SpecCore CoreProofs NeedProofs
  MakeModel MakeEval SpecMake MakeProofs MakeExec MakeExamples RegModel CliModel SpecUtil SpecReg RegExamples SpecProject ProjectExamples SpecCrowd SpecElsewhere.
Local Open Scope string_scope.
Local Open Scope list_scope.

Section Begin.
  Variables (cwd home : string) (glob_ : string -> list string) (exists_ : string -> bool) (l : list stmt).
  Definition begin_alone (x : string) (th : Z) (fs : fsys) (now : nat) : option proc :=
    match mrun (realpath cwd) exists_ glob_ home 20 0 (map op_of l) [empty_reg] with
    | Ok st =>
        match core_get (realpath cwd) (fst (reg st 0)) x with
        | Ok i =>
            match mevaluate (realpath cwd) (kind_of (reg st 0)) no_other fs 20 (set_threads (fst (reg st 0)) th, []) with
            | Ok (c1, ca1) =>
                match recurse_update (realpath cwd) c1 (fun l => l) id_order i None with
                | RuExec objs sv => Some (PR (kind_of (reg st 0)) c1 objs sv (init_state sv (WD fs ca1 now now [])))
                | _ => None
                end
            | _ => None
            end
        | _ => None
        end
    | _ => None
    end.
  Lemma begin_alone_ok x th fs now p : begin_alone x th fs now = Some p -> begins_alone cwd home exists_ glob_ l x th fs now p.
  Proof.
    unfold begin_alone. intros H.
    destruct (mrun _ _ _ _ _ _ _ _) as [st| |] eqn:Er; try discriminate.
    destruct (core_get _ _ _) as [i| |] eqn:Ei; try discriminate.
    destruct (mevaluate _ _ _ _ _ _) as [[c1 ca1]| |] eqn:Ee; try discriminate.
    destruct (recurse_update _ _ _ _ _ _) as [| |objs sv|] eqn:Eu; try discriminate. injection H as <-.
    exists ca1. split; [|reflexivity]. exists 20, st, i, no_other, 20, (fun l => l), id_order. cbn [pr_kind pr_core pr_objs pr_solver pr_state].
    split; [exact Er|]. split; [reflexivity|]. split; [exact Ei|]. split; [exact Ee|].
    split; [intros; apply Permutation_refl|]. split; [split; intros; apply Permutation_refl|]. exact Eu.
  Qed.
End Begin.

(** A test for processes that are apart. *)
Definition ownb (p : proc) : list string :=
  flat_map (fun j => match pr_kind p j with MFile _ _ | MSource | MDir => [t_name (obj (pr_core p) j)] | _ => [] end) (pr_objs p).
Definition changeb (p : proc) : list string :=
  flat_map (fun j => match pr_kind p j with
                     | MFile _ _ => [t_name (obj (pr_core p) j)]
                     | MDir => t_name (obj (pr_core p) j) :: ancestors (t_name (obj (pr_core p) j))
                     | _ => [] end) (pr_objs p).
Definition roadb (p : proc) : list string :=
  flat_map (fun j => match pr_kind p j with MDir => ancestors (t_name (obj (pr_core p) j)) | _ => [] end) (pr_objs p).
Definition madeb (p : proc) : list string :=
  flat_map (fun j => match pr_kind p j with MFile _ _ => [t_name (obj (pr_core p) j)] | _ => [] end) (pr_objs p).
Definition disjointb (a b : list string) : bool := forallb (fun q => negb (mem q b)) a.
Lemma disjointb_ok a b q : disjointb a b = true -> In q a -> ~ In q b.
Proof.
  unfold disjointb. rewrite forallb_forall. intros H Hq Hb. specialize (H q Hq). apply mem_In in Hb. rewrite Hb in H. discriminate H.
Qed.
Definition apartb (p1 p2 : proc) : bool := disjointb (ownb p2) (changeb p1) && disjointb (roadb p2) (madeb p1).
Lemma apartb_ok p1 p2 : apartb p1 p2 = true -> apart (pr_kind p1) (pr_core p1) (pr_objs p1) (pr_kind p2) (pr_core p2) (pr_objs p2).
Proof.
  unfold apartb. intros H. apply andb_prop in H. destruct H as [H1 H2]. split.
  - intros q (j & Hj & Hd & ->) (k & Hk & C).
    apply (disjointb_ok _ _ (t_name (obj (pr_core p2) j)) H1); apply in_flat_map.
    + exists j. split; [exact Hj|]. destruct (pr_kind p2 j); cbn in *; auto; contradiction.
    + exists k. split; [exact Hk|]. destruct C as [[(f & b & E) C]|[E C]]; rewrite E; [left; auto|]. destruct C as [C|C]; [left; auto|right; exact C].
  - intros q (k & Hk & E & Hq) j f b Hj Ek ->.
    apply (disjointb_ok _ _ (t_name (obj (pr_core p1) j)) H2); apply in_flat_map.
    + exists k. rewrite E. auto.
    + exists j. rewrite Ek. split; [exact Hj|now left].
Qed.

(** The scheduler: [true] for a step of the first process. *)
Definition move canon_ok (c : choice) (p : proc) (s : state world) : option (state world) :=
  osched1 (inv_of (sv_inv (pr_solver p))) (fmake (pr_kind p) false canon_ok (pr_core p) (pr_objs p)) c s.
Fixpoint both_move (p1 p2 : proc) (cs : list (bool * choice)) (s : state world * state world) : option (state world * state world) :=
  match cs with
  | [] => Some s
  | (true, c) :: cs => match move no_fail c p1 (fst s) with
                       | Some s1 => both_move p1 p2 cs (s1, at_now (w_fs (s_world s1)) (w_now (s_world s1)) (snd s)) | None => None end
  | (false, c) :: cs => match move no_fail c p2 (snd s) with
                        | Some s2 => both_move p1 p2 cs (at_now (w_fs (s_world s2)) (w_now (s_world s2)) (fst s), s2) | None => None end
  end.
Lemma move_step canon c p s s' : move no_fail c p s = Some s' ->
  step (inv_of (sv_inv (pr_solver p))) (mk_task canon (pr_kind p) false (pr_core p) (pr_objs p)) s s'.
Proof. intros H. eapply osched1_step; [|exact H]. intros t w r w'. apply fmake_sound. Qed.
Lemma both_move_ok canon p1 p2 cs : forall s s', beside canon false p1 p2 (fst s) (snd s) -> both_move p1 p2 cs s = Some s' ->
  beside canon false p1 p2 (fst s') (snd s').
Proof.
  induction cs as [|[[|] c] cs IH]; intros s s' H E; cbn [both_move] in E.
  - injection E as <-. exact H.
  - destruct (move no_fail c p1 (fst s)) as [s1|] eqn:E1; [|discriminate E]. eapply IH; [|exact E]. cbn [fst snd].
    eapply be_left; [exact H|]. now apply (move_step canon c).
  - destruct (move no_fail c p2 (snd s)) as [s2|] eqn:E1; [|discriminate E]. eapply IH; [|exact E]. cbn [fst snd].
    eapply be_right; [exact H|]. now apply (move_step canon c).
Qed.

(** A second script in the directory of [pscript]:
<<
    copy(tgt="gen/x", src="main.c")
>> *)
Definition qscript : list stmt := importing "make.py" ++ [SCopy "gen/x" "main.c" [] (read1 "" "/w/main.c")].
Notation qproj := (project_of "/w" "/h" no_glob qscript).
Lemma qscript_ok : in_order "/w" "/h" no_glob (on_path pdisk) qscript.
Proof. apply in_orderb_ok. vm_compute. reflexivity. Qed.
Lemma qscript_free : dirs_free "/w" "/h" qscript pfs.
Proof. apply dirs_freeb_ok. vm_compute. reflexivity. Qed.
Lemma qmade : In "/w/gen/x" (flat_map (makes "/w" "/h" no_glob) qscript).
Proof. apply mem_In. vm_compute. reflexivity. Qed.
Lemma qproj_eq p : qproj p =
  if String.eqb p "/w/gen/x" then Some (DRule false ["/w/main.c"] (read1 "" "/w/main.c")) else
  if mem p ["/w/main.c"; "/w/make.py"] then Some DSource else None.
Proof.
  destruct (String.eqb_spec p "/w/gen/x") as [->|N1]; [vm_compute; reflexivity|].
  unfold project_of.
  assert (E : first_decl "/w" "/h" no_glob qscript qscript p = None).
  { cbn [first_decl qscript importing app]. unfold decl_of. cbn [rule_of set_of].
    assert (X : forall a (d : option decl), a <> p -> (if String.eqb a p then d else None) = None).
    { intros a d Hn. now destruct (String.eqb_spec a p). }
    repeat match goal with |- context [if String.eqb ?a p then ?d else None] =>
      let v := eval vm_compute in a in replace a with v by (vm_compute; reflexivity); rewrite (X v d) by congruence end.
    reflexivity. }
  rewrite E.
  assert (Nm : (if is_name qscript p then None else if mem p ["/w/main.c"; "/w/make.py"] then Some DSource else None) =
               if mem p ["/w/main.c"; "/w/make.py"] then Some DSource else None).
  { destruct (is_name qscript p) eqn:En; [|reflexivity].
    assert (K : In p ["binutils"; "m"; "cxxm"; "l"]).
    { unfold is_name in En. cbn [existsb qscript importing app] in En. rewrite ?orb_true_iff in En.
      repeat match type of En with _ \/ _ => destruct En as [En|En] end; try discriminate; apply String.eqb_eq in En; subst; cbn; tauto. }
    repeat (destruct K as [<-|K]; [reflexivity|]). destruct K. }
  rewrite <- Nm. clear Nm. destruct (is_name qscript p); [reflexivity|].
  assert (M : existsb (fun d => String.eqb (meaning "/w" qscript d) p) (flat_map (mentions "/h" no_glob) qscript) =
              mem p (map (meaning "/w" qscript) (flat_map (mentions "/h" no_glob) qscript))).
  { induction (flat_map (mentions "/h" no_glob) qscript) as [|d ds IH]; [reflexivity|]. unfold mem in *. cbn [existsb map]. rewrite <- IH. f_equal. apply String.eqb_sym. }
  rewrite M. replace (map _ _) with ["/w/make.py"; "/w/main.c"; "/w/main.c"] by (vm_compute; reflexivity).
  unfold mem. cbn [existsb].
  destruct (String.eqb p "/w/main.c"), (String.eqb p "/w/make.py"); reflexivity.
Qed.
Lemma qproj_reads_only : reads_only qproj.
Proof.
  assert (O : qproj "/w/gen/x" = Some (DRule false ["/w/main.c"] (read1 "" "/w/main.c"))) by (rewrite qproj_eq; reflexivity).
  assert (I1 : p_input qproj "/w/gen/x" "/w/main.c").
  { apply pi_file; [|left; rewrite qproj_eq; reflexivity]. exists ["/w/main.c"]. split; [now left|]. right. eauto. }
  intros p f ds b HP s s' Hs. rewrite qproj_eq in HP.
  destruct (String.eqb_spec p "/w/gen/x") as [->|]; [|destruct (mem p _); discriminate HP].
  injection HP as <- <- <-. unfold read1. now rewrite (Hs _ I1).
Qed.
Lemma qstart : script_history "/w" "/h" no_glob qscript pfs 1.
Proof.
  apply sh_start.
  - intros p m n. unfold pfs. destruct (mem p _); [intros [= <- <-]; auto|].
    destruct (String.eqb p "/w/src.c"); [intros [= <- <-]; auto|]. destruct (String.eqb p "/w/a.h"); [intros [= <- <-]; auto|].
    destruct (String.eqb p "/w/main.c"); [intros [= <- <-]; auto|]. destruct (String.eqb p "/w/make.py"); [intros [= <- <-]; auto|discriminate].
  - intros p (f & ds & b & H). rewrite qproj_eq in H.
    destruct (String.eqb_spec p "/w/gen/x") as [->|]; [reflexivity|]. destruct (mem p _); discriminate H.
  - intros p m F. assert (K : In p ["/w/gen/x"; "/w/main.c"; "/w/make.py"]).
    { destruct F as [H|(f & ds & b & H)]; rewrite qproj_eq in H; destruct (String.eqb_spec p "/w/gen/x") as [->|]; try (now left);
        destruct (mem p _) eqn:Em; try discriminate H; apply mem_In in Em; now right. }
    destruct K as [<-|[<-|[<-|[]]]]; discriminate.
Qed.

Definition pq : option (proc * proc) :=
  match begin_alone "/w" "/h" no_glob (on_path pdisk) pscript "/w/out/app" 2 pfs 1,
        begin_alone "/w" "/h" no_glob (on_path pdisk) qscript "/w/gen/x" 1 pfs 1 with
  | Some p, Some q => Some (p, q) | _, _ => None end.
Definition pq_moves : list (bool * choice) :=
  map (pair true) (firstn 5 pchoices) ++ [(false, CGet 0); (false, CFin 0)] ++ map (pair true) (firstn 3 (skipn 5 pchoices)) ++
  [(false, CFin 0); (false, CFin 0)] ++ map (pair true) (skipn 8 pchoices) ++ [(false, CJoin)].
Definition state_fine (p : proc) (s : state world) : bool :=
  match s_main s with MReturned => true | MJoin => false end &&
  match exec_result (List.length (pr_objs p)) s with Ok b => b | _ => false end.
Lemma state_fine_ok p s : state_fine p s = true -> succeeded (pr_objs p) s.
Proof.
  unfold state_fine, succeeded. destruct (s_main s); [discriminate|]. cbn [andb].
  destruct (exec_result (List.length (pr_objs p)) s); try discriminate. intros ->. auto.
Qed.
Definition stext (s : state world) (p : string) : string := match w_fs (s_world s) p with Some (_, Reg v) => v | _ => "" end.
Lemma stext_eq s p v : v <> "" -> String.eqb (stext s p) v = true -> contents (w_fs (s_world s)) p = Some v.
Proof.
  intros N H. apply String.eqb_eq in H. unfold stext, contents in *. destruct (w_fs (s_world s) p) as [[m [v'|]]|]; congruence.
Qed.
Definition pq_test (p q : proc) (s : state world * state world) : bool :=
  state_fine p (fst s) && state_fine q (snd s) && (String.eqb (stext (fst s) "/w/out/app") "o:src+main" && String.eqb (stext (fst s) "/w/gen/x") "main").
Definition on_pq (o : option (proc * proc)) (test : proc -> proc -> bool) : bool := match o with Some (p, q) => test p q | None => false end.
Lemma on_pq_ok o test : on_pq o test = true -> exists p q, o = Some (p, q) /\ test p q = true.
Proof. destruct o as [[p q]|]; intros H; [eauto|discriminate H]. Qed.
Definition on_pair (o : option (state world * state world)) (test : state world * state world -> bool) : bool := match o with Some s => test s | None => false end.
Lemma on_pair_ok o test : on_pair o test = true -> exists s, o = Some s /\ test s = true.
Proof. destruct o as [s|]; intros H; [eauto|discriminate H]. Qed.
Lemma pq_ok : on_pq pq (fun p q => (apartb p q && apartb q p) &&
  on_pair (both_move p q pq_moves (pr_state p, pr_state q)) (pq_test p q)) = true.
Proof. vm_compute. reflexivity. Qed.
Lemma pq_done : exists p q s1 s2,
  begins_alone "/w" "/h" (on_path pdisk) no_glob pscript "/w/out/app" 2 pfs 1 p /\
  begins_alone "/w" "/h" (on_path pdisk) no_glob qscript "/w/gen/x" 1 pfs 1 q /\
  apart (pr_kind p) (pr_core p) (pr_objs p) (pr_kind q) (pr_core q) (pr_objs q) /\
  apart (pr_kind q) (pr_core q) (pr_objs q) (pr_kind p) (pr_core p) (pr_objs p) /\
  beside (realpath "/w") false p q s1 s2 /\ succeeded (pr_objs p) s1 /\ succeeded (pr_objs q) s2 /\
  contents (w_fs (s_world s1)) "/w/out/app" = Some "o:src+main" /\ contents (w_fs (s_world s1)) "/w/gen/x" = Some "main".
Proof.
  destruct (on_pq_ok _ _ pq_ok) as (p & q & E & H). apply andb_prop in H. destruct H as [A H]. apply andb_prop in A. destruct A as [A1 A2].
  destruct (on_pair_ok _ _ H) as (s & Es & T). unfold pq_test in T. apply andb_prop in T. destruct T as [T T2]. apply andb_prop in T. destruct T as [T T1].
  apply andb_prop in T2. destruct T2 as [T2 T3]. unfold pq in E.
  destruct (begin_alone "/w" "/h" no_glob (on_path pdisk) pscript "/w/out/app" 2 pfs 1) as [p'|] eqn:Ep; [|discriminate E].
  destruct (begin_alone "/w" "/h" no_glob (on_path pdisk) qscript "/w/gen/x" 1 pfs 1) as [q'|] eqn:Eq; [|discriminate E].
  injection E as E1 E2. subst p' q'. exists p, q, (fst s), (snd s).
  split; [exact (begin_alone_ok _ _ _ _ _ _ _ _ _ _ Ep)|]. split; [exact (begin_alone_ok _ _ _ _ _ _ _ _ _ _ Eq)|].
  split; [exact (apartb_ok _ _ A1)|]. split; [exact (apartb_ok _ _ A2)|].
  split; [exact (both_move_ok _ p q pq_moves (pr_state p, pr_state q) s (be_start _ _ _ _) Es)|].
  split; [exact (state_fine_ok _ _ T)|]. split; [exact (state_fine_ok _ _ T1)|].
  split; [apply stext_eq; [intros X; discriminate X|exact T2]|apply stext_eq; [intros X; discriminate X|exact T3]].
Qed.

(** Different files, the same new directory. *)
Definition pair_up (o1 o2 : option proc) : option (proc * proc) := match o1, o2 with Some p, Some q => Some (p, q) | _, _ => None end.
Lemma pair_up_ok o1 o2 p q : pair_up o1 o2 = Some (p, q) -> o1 = Some p /\ o2 = Some q.
Proof. unfold pair_up. destruct o1, o2; intros H; try discriminate H. injection H as -> ->. auto. Qed.
Notation begin_here x := (begin_alone "/w" "/h" no_glob (on_path pdisk) pscript x 1 pfs 1).
Notation hh := (pair_up (begin_here "/w/out/lib/a.o") (begin_here "/w/out/a.h")).
Definition hh_moves : list (bool * choice) := [(true, CGet 0); (false, CGet 0)] ++ repeat (true, CFin 0) 3 ++ [(false, CFin 0)].
Definition stuckb (s : state world) : bool :=
  match s_main s with MJoin => true | MReturned => false end && negb (s_released s) &&
  forallb (fun w => match w with WDead => true | _ => false end) (s_workers s).
Lemma stuckb_ok inv run s : stuckb s = true -> s_main s = MJoin /\ forall fs now s', ~ step inv run (at_now fs now s) s'.
Proof.
  unfold stuckb. rewrite !andb_true_iff, negb_true_iff. intros ((H1 & H2) & H3). split; [now destruct (s_main s)|].
  intros fs now s' H.
  assert (W : forall w x, nth_error (s_workers (at_now fs now s)) w = Some x -> x = WDead).
  { intros w x Hw. apply nth_error_In in Hw. rewrite forallb_forall in H3. specialize (H3 _ Hw). now destruct x. }
  remember (at_now fs now s) as a eqn:Ea. destruct H as [w a Hm Hw Hq|w a Hm Hw Hq|w t r world' order a Hm Hw Ht Ho|a Hm Hre].
  - discriminate (W _ _ Hw).
  - discriminate (W _ _ Hw).
  - discriminate (W _ _ Hw).
  - subst a. cbn in Hre. congruence.
Qed.
Definition rules_fine (s : state world) : bool := forallb (fun x => snd x || String.eqb (fst x) "/w/out" || String.eqb (fst x) "/w/out/lib") (w_ran (s_world s)).
Lemma rules_fine_ok s : rules_fine s = true -> no_rule_failed pproj (s_world s).
Proof.
  unfold rules_fine. rewrite forallb_forall. intros H q (f & ds & b & Hr) Hp. specialize (H _ Hp). cbn [fst snd orb] in H.
  apply orb_true_iff in H. destruct H as [H|H]; apply String.eqb_eq in H; subst q; rewrite pproj_eq in Hr; discriminate Hr.
Qed.
Definition hh_test (s : state world * state world) : bool := stuckb (snd s) && (rules_fine (fst s) && rules_fine (snd s)).
Lemma hh_test_ok s : hh_test s = true -> stuckb (snd s) = true /\ rules_fine (fst s) = true /\ rules_fine (snd s) = true.
Proof. unfold hh_test. rewrite !andb_true_iff. auto. Qed.
Definition hh_run (p q : proc) : bool := on_pair (both_move p q hh_moves (pr_state p, pr_state q)) hh_test.
Lemma hh_run_ok p q : hh_run p q = true -> exists s, both_move p q hh_moves (pr_state p, pr_state q) = Some s /\ hh_test s = true.
Proof. exact (on_pair_ok _ _). Qed.
Lemma hh_ok : on_pq hh hh_run = true.
Proof. vm_compute. reflexivity. Qed.
Lemma hh_begins1 p q : hh = Some (p, q) -> begins_alone "/w" "/h" (on_path pdisk) no_glob pscript "/w/out/lib/a.o" 1 pfs 1 p.
Proof. intros E. apply begin_alone_ok. exact (proj1 (pair_up_ok _ _ p q E)). Qed.
Lemma hh_begins2 p q : hh = Some (p, q) -> begins_alone "/w" "/h" (on_path pdisk) no_glob pscript "/w/out/a.h" 1 pfs 1 q.
Proof. intros E. apply begin_alone_ok. exact (proj2 (pair_up_ok _ _ p q E)). Qed.
Lemma hh_beside p q s : both_move p q hh_moves (pr_state p, pr_state q) = Some s -> beside (realpath "/w") false p q (fst s) (snd s).
Proof. intros E. exact (both_move_ok (realpath "/w") p q hh_moves (pr_state p, pr_state q) s (be_start _ _ _ _) E). Qed.
Lemma hh_stuck : exists p q s1 s2,
  begins_alone "/w" "/h" (on_path pdisk) no_glob pscript "/w/out/lib/a.o" 1 pfs 1 p /\
  begins_alone "/w" "/h" (on_path pdisk) no_glob pscript "/w/out/a.h" 1 pfs 1 q /\
  beside (realpath "/w") false p q s1 s2 /\
  no_rule_failed pproj (s_world s1) /\ no_rule_failed pproj (s_world s2) /\ s_main s2 = MJoin /\
  forall fs' now' s', ~ step (inv_of (sv_inv (pr_solver q))) (mk_task (realpath "/w") (pr_kind q) false (pr_core q) (pr_objs q)) (at_now fs' now' s2) s'.
Proof.
  destruct (on_pq_ok _ _ hh_ok) as (p & q & E & H).
  destruct (hh_run_ok _ _ H) as (s & Es & T). destruct (hh_test_ok _ T) as (T0 & T1 & T2). exists p, q, (fst s), (snd s).
  split; [exact (hh_begins1 p q E)|]. split; [exact (hh_begins2 p q E)|]. split; [exact (hh_beside p q s Es)|].
  split; [exact (rules_fine_ok _ T1)|]. split; [exact (rules_fine_ok _ T2)|]. exact (stuckb_ok _ _ _ T0).
Qed.
Lemma pamade : In "/w/out/lib/a.o" (flat_map (makes "/w" "/h" no_glob) pscript).
Proof. apply mem_In. vm_compute. reflexivity. Qed.
Lemma phmade : In "/w/out/a.h" (flat_map (makes "/w" "/h" no_glob) pscript).
Proof. apply mem_In. vm_compute. reflexivity. Qed.
(** The files of the two. *)
Lemma pcone_a y : p_cone pproj "/w/out/lib/a.o" y -> y = "/w/out/lib/a.o" \/ y = "/w/src.c".
Proof.
  intros H. apply clos_rt_rt1n in H. inversion H as [|z y' (ds & Hz & Hd) Hr]; subst; [now left|right].
  destruct Hd as [Hd|(f & b & Hd)]; rewrite pproj_eq in Hd; cbn in Hd; [discriminate Hd|]. injection Hd as <- <- <-. destruct Hz as [<-|[]].
  inversion Hr as [|z y' (ds & Hz & Hd) Hr']; subst; [reflexivity|].
  destruct Hd as [Hd|(f & b & Hd)]; rewrite pproj_eq in Hd; cbn in Hd; discriminate Hd.
Qed.
Lemma pcone_h y : p_cone pproj "/w/out/a.h" y -> y = "/w/out/a.h" \/ y = "/w/a.h".
Proof.
  intros H. apply clos_rt_rt1n in H. inversion H as [|z y' (ds & Hz & Hd) Hr]; subst; [now left|right].
  destruct Hd as [Hd|(f & b & Hd)]; rewrite pproj_eq in Hd; cbn in Hd; [discriminate Hd|]. injection Hd as <- <- <-. destruct Hz as [<-|[]].
  inversion Hr as [|z y' (ds & Hz & Hd) Hr']; subst; [reflexivity|].
  destruct Hd as [Hd|(f & b & Hd)]; rewrite pproj_eq in Hd; cbn in Hd; discriminate Hd.
Qed.
