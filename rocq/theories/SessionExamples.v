(** A scheduler for processes that make and clean several targets, and concrete ones:
    non-vacuity examples for C97. *)
From Coq Require Import Permutation.
From Verif Require Import PyBase PyPath PathProofs SolverModel SpecGraph InvokerModel SpecTrace InvokerPath InvokerExec CoreModel SpecCore CoreProofs NeedProofs
  MakeModel MakeEval SpecMake MakeProofs MakeExec MakeExamples RegModel CliModel SpecUtil SpecReg RegExamples SpecProject ProjectExamples SpecRoutine RoutineExamples SpecSession.
Local Open Scope string_scope.
Local Open Scope list_scope.

Section SExec.
  Variables (cwd home : string) (glob_ : string -> list string) (l : list stmt) (kind : nat -> mkind).
  Notation canon := (realpath cwd).

  (** The first step that can be taken, [n] times. *)
  Section Drive.
    Variables (inv : nat -> list nat) (f : nat -> world -> option (tres * world)).
    Fixpoint first (cs : list choice) (s : state world) : option (state world) :=
      match cs with
      | [] => None
      | c :: cs => match osched inv f [c] s with Some s' => Some s' | None => first cs s end
      end.
    Fixpoint drive (n : nat) (s : state world) : state world :=
      match n with
      | 0 => s
      | Datatypes.S n => match first [CGet 0; CGet 1; CFin 0; CFin 1; CDrain 0; CDrain 1; CJoin] s with Some s' => drive n s' | None => s end
      end.
    Lemma first_steps (run : nat -> world -> tres -> world -> Prop) : (forall t w r w', f t w = Some (r, w') -> run t w r w') ->
      forall cs s0 s s', steps inv run s0 s -> first cs s = Some s' -> steps inv run s0 s'.
    Proof.
      intros Hf. induction cs as [|c cs IH]; intros s0 s s' H E; [discriminate|]. cbn [first] in E.
      destruct (osched inv f [c] s) as [s1|] eqn:E1; [injection E as <-; eapply osched_steps; eauto|eauto].
    Qed.
    Lemma drive_steps (run : nat -> world -> tres -> world -> Prop) : (forall t w r w', f t w = Some (r, w') -> run t w r w') ->
      forall n s0 s, steps inv run s0 s -> steps inv run s0 (drive n s).
    Proof.
      intros Hf. induction n as [|n IH]; intros s0 s H; [exact H|]. cbn [drive]. destruct (first _ s) as [s1|] eqn:E; [|exact H].
      apply IH. eapply first_steps; eauto.
    Qed.
  End Drive.

  Definition do_making (n : nat) (c : core) (ca : cache) (x : string) (fs : fsys) (now : nat) : option ran :=
    match core_get canon c x with
    | Ok i =>
        match mevaluate canon kind no_other fs 20 (c, ca) with
        | Ok (c1, ca1) =>
            match recurse_update canon c1 (fun l => l) id_order i None with
            | RuExec objs sv => Some (RAN kind c1 objs sv (drive (inv_of (sv_inv sv)) (fmake kind false no_fail c1 objs) n (init_state sv (WD fs ca1 now now []))))
            | _ => None
            end
        | _ => None
        end
    | _ => None
    end.
  Lemma do_making_ok n c ca x fs now r : do_making n c ca x fs now = Some r ->
    making cwd false kind c ca x fs now (rn_core r) (rn_objs r) (rn_solver r) (rn_state r).
  Proof.
    unfold do_making. intros H.
    destruct (core_get _ _ _) as [i| |] eqn:Ei; try discriminate.
    destruct (mevaluate _ _ _ _ _ _) as [[c1 ca1]| |] eqn:Ee; try discriminate.
    destruct (recurse_update _ _ _ _ _ _) as [| |objs sv|] eqn:Eu; try discriminate. injection H as <-. cbn [rn_core rn_objs rn_solver rn_state].
    exists i, no_other, 20, ca1, (fun l => l), id_order.
    split; [exact Ei|]. split; [exact Ee|].
    split; [intros; apply Permutation_refl|]. split; [split; intros; apply Permutation_refl|]. split; [exact Eu|].
    apply drive_steps; [|constructor]. intros t w r w'. apply fmake_sound.
  Qed.

  Record session_state := SE { se_core : core; se_cache : cache; se_fs : fsys; se_now : nat; se_done : list (string * deed) }.
  Definition next (e : session_state) (x : string) : option session_state :=
    match do_making 100 (se_core e) (se_cache e) x (se_fs e) (se_now e) with
    | Some r =>
        match s_main (rn_state r), exec_result (List.length (rn_objs r)) (rn_state r) with
        | MReturned, Ok b =>
            if mem x (flat_map (makes cwd home glob_) l)
            then Some (SE (rn_core r) (w_cache (s_world (rn_state r))) (w_fs (s_world (rn_state r))) (w_now (s_world (rn_state r))) (se_done e ++ [(x, Made b)]))
            else None
        | _, _ => None
        end
    | None => None
    end.
  Definition sweep (e : session_state) (x : string) : option session_state :=
    match core_get canon (se_core e) x with
    | Ok i =>
        match mevaluate canon kind no_other (se_fs e) 20 (se_core e, se_cache e) with
        | Ok (c1, ca1) =>
            match depends_as_set canon c1 (ByName (t_name (obj c1 i))) true, clean canon kind c1 i (se_fs e, ca1) with
            | Ok (_, c2), Ok (fs2, ca2) =>
                if mem x (flat_map (makes cwd home glob_) l) then Some (SE c2 ca2 fs2 (se_now e) (se_done e ++ [(x, Cleaned)])) else None
            | _, _ => None
            end
        | _ => None
        end
    | _ => None
    end.
  (** [true]: to be made. *)
  Fixpoint do_turns (e : session_state) (xs : list (string * bool)) : option session_state :=
    match xs with
    | [] => Some e
    | (x, b) :: xs => match (if b then next e x else sweep e x) with Some e' => do_turns e' xs | None => None end
    end.
  Lemma do_turns_ok c0 fs0 now0 : forall xs e e', in_turn cwd home glob_ l kind c0 fs0 now0 (se_core e) (se_cache e) (se_fs e) (se_now e) (se_done e) ->
    do_turns e xs = Some e' -> in_turn cwd home glob_ l kind c0 fs0 now0 (se_core e') (se_cache e') (se_fs e') (se_now e') (se_done e').
  Proof.
    induction xs as [|[x m] xs IH]; intros e e' H E; [injection E as <-; exact H|]. cbn [do_turns] in E. destruct m.
    - destruct (next e x) as [e1|] eqn:E1; [|discriminate]. apply (IH e1); [|exact E]. unfold next in E1.
      destruct (do_making 100 _ _ _ _ _) as [r|] eqn:Er; [|discriminate]. destruct (s_main (rn_state r)) eqn:Em; [discriminate|].
      destruct (exec_result _ _) as [b| |] eqn:Eb; try discriminate. destruct (mem x _) eqn:Ex; [|discriminate].
      injection E1 as <-. cbn [se_core se_cache se_fs se_now se_done].
      eapply it_made; [exact H|now apply mem_In|apply le_n|eapply do_making_ok; exact Er|exact Em|exact Eb].
    - destruct (sweep e x) as [e1|] eqn:E1; [|discriminate]. apply (IH e1); [|exact E]. unfold sweep in E1.
      destruct (core_get _ _ _) as [i| |] eqn:Ei; try discriminate.
      destruct (mevaluate _ _ _ _ _ _) as [[c1 ca1]| |] eqn:Ee; try discriminate.
      destruct (depends_as_set _ _ _ _) as [[names c2]| |] eqn:Ed; try discriminate.
      destruct (clean _ _ _ _ _) as [[fs2 ca2]| |] eqn:Ec; try discriminate.
      destruct (mem x _) eqn:Ex; [|discriminate]. injection E1 as <-. cbn [se_core se_cache se_fs se_now se_done].
      eapply it_cleaned; [exact H|now apply mem_In|]. exists i, no_other, 20, c1, ca1, names. auto.
  Qed.
End SExec.

(** The script two.py, with two workers:
<<
    makefile("bad", ["in"], fails)
    makefile("out/a", ["in"], f)
    makefile("out/b", ["out/a"], g)
    licant.do("bad"); licant.do("out/a"); licant.do("out/b")
>> *)
Definition sscript : list stmt :=
  [SRule false "bad" ["in"] (fun _ => None); SRule false "out/a" ["in"] (read1 "a:" "/w/in"); SRule false "out/b" ["out/a"] (read1 "b:" "/w/out/a")].
Notation sproj := (project_of "/w" "/h" no_glob sscript).
Lemma sscript_ok : in_order "/w" "/h" no_glob (on_path gdisk) sscript.
Proof. apply in_orderb_ok. vm_compute. reflexivity. Qed.
Lemma sscript_free : dirs_free "/w" "/h" sscript gfs.
Proof. apply dirs_freeb_ok. vm_compute. reflexivity. Qed.
Definition on_session (xs : list (string * bool)) (test : regs -> session_state -> bool) : bool :=
  match mrun (realpath "/w") (on_path gdisk) no_glob "/h" 20 0 (map op_of sscript) [empty_reg] with
  | Ok st => match do_turns "/w" "/h" no_glob sscript (kind_of (reg st 0)) (SE (set_threads (fst (reg st 0)) 2) [] gfs 1 []) xs with
             | Some e => test st e
             | None => false
             end
  | _ => false
  end.
Lemma on_session_ok xs test : on_session xs test = true -> exists st e, test st e = true /\
  mrun (realpath "/w") (on_path gdisk) no_glob "/h" 20 0 (map op_of sscript) [empty_reg] = Ok st /\
  in_turn "/w" "/h" no_glob sscript (kind_of (reg st 0)) (set_threads (fst (reg st 0)) 2) gfs 1 (se_core e) (se_cache e) (se_fs e) (se_now e) (se_done e).
Proof.
  unfold on_session. destruct (mrun _ _ _ _ _ _ _ _) as [st| |] eqn:Er; try discriminate.
  destruct (do_turns _ _ _ _ _ _ _) as [e|] eqn:Ee; [|discriminate]. intros T. exists st, e. split; [exact T|]. split; [reflexivity|].
  eapply do_turns_ok; [|exact Ee]. constructor.
Qed.
Definition stext (e : session_state) (p : string) : string := match se_fs e p with Some (_, Reg v) => v | _ => "" end.
Lemma stext_eq e p v : v <> "" -> String.eqb (stext e p) v = true -> contents (se_fs e) p = Some v.
Proof. unfold stext, contents. intros Hv H. apply String.eqb_eq in H. destruct (se_fs e p) as [[m [u|]]|]; congruence. Qed.
Definition done_eq (a b : list (string * deed)) : bool :=
  if list_eq_dec (fun x y : string * deed => ltac:(repeat decide equality)) a b then true else false.
Lemma done_eq_ok a b : done_eq a b = true -> a = b.
Proof. unfold done_eq. destruct (list_eq_dec _ a b); [auto|discriminate]. Qed.
Definition stest (_ : regs) (e : session_state) : bool :=
  done_eq (se_done e) [("/w/bad", Made false); ("/w/out/a", Made true); ("/w/out/b", Made true)] && String.eqb (stext e "/w/out/a") "a:old" && String.eqb (stext e "/w/out/b") "b:a:old".
Lemma stest_ok : on_session [("/w/bad", true); ("/w/out/a", true); ("/w/out/b", true)] stest = true.
Proof. vm_compute. reflexivity. Qed.
Lemma sturns : exists st c ca fs now,
  mrun (realpath "/w") (on_path gdisk) no_glob "/h" 20 0 (map op_of sscript) [empty_reg] = Ok st /\
  in_turn "/w" "/h" no_glob sscript (kind_of (reg st 0)) (set_threads (fst (reg st 0)) 2) gfs 1 c ca fs now [("/w/bad", Made false); ("/w/out/a", Made true); ("/w/out/b", Made true)] /\
  contents fs "/w/out/a" = Some "a:old" /\ contents fs "/w/out/b" = Some "b:a:old".
Proof.
  destruct (on_session_ok _ _ stest_ok) as (st & e & H & R & T). unfold stest in H.
  apply andb_prop in H. destruct H as [H H3]. apply andb_prop in H. destruct H as [H1 H2]. apply done_eq_ok in H1. rewrite H1 in T.
  exists st, (se_core e), (se_cache e), (se_fs e), (se_now e). split; [exact R|]. split; [exact T|]. split; now apply stext_eq.
Qed.

(** Its project. *)
Lemma sproj_eq p : sproj p =
  if String.eqb p "/w/bad" then Some (DRule false ["/w/in"] (fun _ => None)) else
  if String.eqb p "/w/out/a" then Some (DRule false ["/w/in"] (read1 "a:" "/w/in")) else
  if String.eqb p "/w/out/b" then Some (DRule false ["/w/out/a"] (read1 "b:" "/w/out/a")) else
  if String.eqb p "/w/in" then Some DSource else None.
Proof.
  destruct (String.eqb_spec p "/w/bad") as [->|N1]; [vm_compute; reflexivity|].
  destruct (String.eqb_spec p "/w/out/a") as [->|N2]; [vm_compute; reflexivity|].
  destruct (String.eqb_spec p "/w/out/b") as [->|N3]; [vm_compute; reflexivity|].
  unfold project_of.
  assert (E : first_decl "/w" "/h" no_glob sscript sscript p = None).
  { cbn [first_decl sscript]. unfold decl_of. cbn [rule_of set_of].
    assert (X : forall a (d : option decl), a <> p -> (if String.eqb a p then d else None) = None).
    { intros a d Hn. now destruct (String.eqb_spec a p). }
    repeat match goal with |- context [if String.eqb ?a p then ?d else None] =>
      let v := eval vm_compute in a in replace a with v by (vm_compute; reflexivity); rewrite (X v d) by congruence end.
    reflexivity. }
  rewrite E. change (is_name sscript p) with false. cbv iota.
  assert (M : existsb (fun d => String.eqb (meaning "/w" sscript d) p) (flat_map (mentions "/h" no_glob) sscript) =
              mem p (map (meaning "/w" sscript) (flat_map (mentions "/h" no_glob) sscript))).
  { induction (flat_map (mentions "/h" no_glob) sscript) as [|d ds IH]; [reflexivity|]. unfold mem in *. cbn [existsb map]. rewrite <- IH. f_equal. apply String.eqb_sym. }
  rewrite M.
  replace (map _ _) with ["/w/in"; "/w/in"; "/w/out/a"] by (vm_compute; reflexivity).
  unfold mem. cbn [existsb]. destruct (String.eqb_spec p "/w/out/a"); [contradiction|]. now destruct (String.eqb p "/w/in").
Qed.
Lemma sproj_rule p f ds b : sproj p = Some (DRule f ds b) -> f = false /\
  (p = "/w/bad" /\ b = (fun _ => None) \/ p = "/w/out/a" /\ b = read1 "a:" "/w/in" \/ p = "/w/out/b" /\ b = read1 "b:" "/w/out/a").
Proof.
  rewrite sproj_eq. destruct (String.eqb_spec p "/w/bad"); [intros [= <- <- <-]; auto|].
  destruct (String.eqb_spec p "/w/out/a"); [intros [= <- <- <-]; auto 6|]. destruct (String.eqb_spec p "/w/out/b"); [intros [= <- <- <-]; auto 6|].
  destruct (String.eqb p "/w/in"); discriminate.
Qed.
Lemma sproj_source p : sproj p = Some DSource -> p = "/w/in".
Proof.
  rewrite sproj_eq. destruct (String.eqb p "/w/bad"); [discriminate|]. destruct (String.eqb p "/w/out/a"); [discriminate|].
  destruct (String.eqb p "/w/out/b"); [discriminate|]. destruct (String.eqb_spec p "/w/in"); [auto|discriminate].
Qed.
Lemma sproj_reads : reads_only sproj.
Proof.
  assert (I1 : p_input sproj "/w/out/a" "/w/in").
  { apply pi_file; [|left; rewrite sproj_eq; reflexivity]. exists ["/w/in"]. split; [now left|]. right. eexists _, _. rewrite sproj_eq. reflexivity. }
  assert (I2 : p_input sproj "/w/out/b" "/w/out/a").
  { apply pi_file; [|right; eexists _, _, _; rewrite sproj_eq; reflexivity]. exists ["/w/out/a"]. split; [now left|]. right. eexists _, _. rewrite sproj_eq. reflexivity. }
  intros p f ds b HP s s' Hs. destruct (sproj_rule _ _ _ _ HP) as [_ [[-> ->]|[[-> ->]|[-> ->]]]]; [reflexivity|..]; unfold read1.
  - now rewrite (Hs _ I1).
  - now rewrite (Hs _ I2).
Qed.
Lemma sstart : turn_history "/w" "/h" no_glob sscript gfs 1.
Proof.
  apply tu_start.
  - intros p m n. unfold gfs. destruct (mem p _); [intros [= <- <-]; auto|]. destruct (String.eqb p "/w/in"); [intros [= <- <-]; auto|discriminate].
  - intros p (f & ds & b & H). apply sproj_rule in H. destruct H as [_ [[-> _]|[[-> _]|[-> _]]]]; reflexivity.
  - intros p m [H|(f & ds & b & H)] E.
    + apply sproj_source in H. subst p. discriminate.
    + apply sproj_rule in H. destruct H as [_ [[-> _]|[[-> _]|[-> _]]]]; discriminate.
Qed.
Lemma ssteady x : steady sproj gfs x.
Proof.
  split.
  - intros p ds b _ H. apply sproj_rule in H. destruct H as [H _]. discriminate.
  - intros p _ H. apply sproj_source in H. subst p. discriminate.
Qed.
Lemma smade x : In x ["/w/bad"; "/w/out/a"; "/w/out/b"] -> In x (flat_map (makes "/w" "/h" no_glob) sscript).
Proof. intros H. replace (flat_map _ _) with ["/w/bad"; "/w/out/a"; "/w/out/b"] by (vm_compute; reflexivity). exact H. Qed.

(** The same script, with
<<
    licant.do("out/b"); licant.do("out/b", "clean"); licant.do("out/a"); licant.do("bad", "clean")
>> *)
Definition cdone : list (string * deed) := [("/w/out/b", Made true); ("/w/out/b", Cleaned); ("/w/out/a", Made true); ("/w/bad", Cleaned)].
Definition ctest (_ : regs) (e : session_state) : bool :=
  done_eq (se_done e) cdone && String.eqb (stext e "/w/out/a") "a:old" && match se_fs e "/w/out/b" with None => true | _ => false end.
Lemma ctest_ok : on_session [("/w/out/b", true); ("/w/out/b", false); ("/w/out/a", true); ("/w/bad", false)] ctest = true.
Proof. vm_compute. reflexivity. Qed.
Lemma cturns : exists st c ca fs now,
  mrun (realpath "/w") (on_path gdisk) no_glob "/h" 20 0 (map op_of sscript) [empty_reg] = Ok st /\
  in_turn "/w" "/h" no_glob sscript (kind_of (reg st 0)) (set_threads (fst (reg st 0)) 2) gfs 1 c ca fs now cdone /\
  contents fs "/w/out/a" = Some "a:old" /\ fs "/w/out/b" = None.
Proof.
  destruct (on_session_ok _ _ ctest_ok) as (st & e & H & R & T). unfold ctest in H.
  apply andb_prop in H. destruct H as [H H3]. apply andb_prop in H. destruct H as [H1 H2]. apply done_eq_ok in H1. rewrite H1 in T.
  exists st, (se_core e), (se_cache e), (se_fs e), (se_now e). split; [exact R|]. split; [exact T|]. split; [now apply stext_eq|].
  destruct (se_fs e "/w/out/b"); [discriminate|reflexivity].
Qed.
Lemma capart p : is_rule sproj p -> p_cone sproj "/w/out/a" p -> ~ p_cone sproj "/w/bad" p.
Proof.
  assert (G : forall a p, p_cone sproj a p -> sproj a <> None -> (a = "/w/out/a" \/ a = "/w/bad" \/ a = "/w/in") -> p = a \/ p = "/w/in").
  { intros a q H _. apply Operators_Properties.clos_rt_rt1n in H. induction H as [a|a b c0 (ds & Hb & Hd) _ IH]; intros Ha; [now left|].
    right. assert (E : b = "/w/in"); [|subst b; destruct IH as [IH|IH]; auto].
    rewrite sproj_eq in Hd.
    destruct Ha as [-> | [-> | ->]]; cbn in Hd; destruct Hd as [Hd|(f & bb & Hd)]; try discriminate; injection Hd; intros; subst; destruct Hb as [Hb|[]]; congruence. }
  intros (f & ds & b & Hr) H1 H2. apply sproj_rule in Hr. destruct Hr as [_ Hr].
  apply G in H1; [|rewrite sproj_eq; discriminate|auto]. apply G in H2; [|rewrite sproj_eq; discriminate|auto].
  destruct H1 as [-> | ->], H2 as [H2|H2]; try discriminate. destruct Hr as [[E _]|[[E _]|[E _]]]; discriminate.
Qed.
