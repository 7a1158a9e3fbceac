(** Lemmas: what [import licant] registers, and the statements of a script (C81). *)
From Coq Require Import Permutation.
From Verif Require Import PyBase PyPath PathProofs SolverModel SpecGraph InvokerModel InvokerThms InvokerPath SpecTrace CoreModel SpecCore CoreProofs NeedProofs RuProofs CoreThms
  ExtProofs MakeModel MakeEval SpecMake MakeProofs MakeFacts MakeTimes MakeExec RegModel CliModel SpecUtil UtilProofs SpecReg RegBuild RegExamples SpecProject ProjectProofs ProjectBuild ProjectExamples.
Local Open Scope string_scope.
Local Open Scope list_scope.

(** ** Scripts that stay clear of the built-in names *)
Section Import.
  Variables (cwd home : string) (glob_ : string -> list string) (exists_ : string -> bool) (argv0 : string) (l : list stmt).
  Notation canon := (realpath cwd).
  Notation mentions := (mentions home glob_).
  Notation declares := (declares cwd home glob_).
  Hypothesis ok : in_order cwd home glob_ exists_ l.
  Hypothesis clear : clear_of_import cwd home glob_ argv0 l.
  Let Hm := ci_mentions _ _ _ _ _ clear.
  Let Hn := ci_names _ _ _ _ _ clear.
  Let Hstar := ci_star _ _ _ _ _ clear.
  Let Hname := ci_script _ _ _ _ _ clear.
  Let Hdec := ci_output _ _ _ _ _ clear.
  Let Hbelow := ci_below _ _ _ _ _ clear.
  Let Habove := ci_above _ _ _ _ _ clear.
  Notation l' := (importing argv0 ++ l).

  Lemma built_in_slash nm : built_in nm -> starts_slash nm = false.
  Proof. intros [<-|[<-|[<-|[<-|[]]]]]; reflexivity. Qed.
  Lemma is_name_import nm : is_name l' nm = true <-> built_in nm \/ is_name l nm = true.
  Proof.
    unfold is_name at 1. rewrite existsb_app, orb_true_iff. fold (is_name l nm).
    assert (E : existsb (fun s => match s with SSet n _ | STarget _ n _ => String.eqb n nm | _ => false end) (importing argv0) = true <-> built_in nm).
    { cbn [existsb importing]. rewrite !orb_true_iff, !String.eqb_eq. unfold built_in. cbn [In]. intuition discriminate. }
    now rewrite E.
  Qed.
  Lemma is_name_other nm : ~ built_in nm -> is_name l' nm = is_name l nm.
  Proof.
    intros N. destruct (is_name l nm) eqn:E; [apply is_name_import; now right|]. destruct (is_name l' nm) eqn:E'; [|reflexivity].
    apply is_name_import in E'. destruct E'; [contradiction|congruence].
  Qed.
  Lemma meaning_import d : ~ built_in d -> meaning cwd l' d = meaning cwd l d.
  Proof. intros N. unfold meaning. now rewrite is_name_other. Qed.
  Lemma canon_not_built_in p : ~ built_in (canon p).
  Proof. intros H. apply built_in_slash in H. rewrite realpath_starts in H. discriminate. Qed.
  Lemma declared_not_built_in x : In x (flat_map declares l) -> ~ built_in x.
  Proof.
    intros H. apply in_flat_map in H. destruct H as (s & Hs & H). destruct s; cbn in H; try (destruct H; fail);
      destruct H as [<-|[]]; try apply canon_not_built_in; apply Hn; unfold is_name; apply existsb_exists; eexists; (split; [exact Hs|apply String.eqb_refl]).
  Qed.
  Lemma declares_import : flat_map declares l' = ["binutils"; "m"; "cxxm"; "l"] ++ flat_map declares l.
  Proof. reflexivity. Qed.
  Lemma first_import p : first_decl cwd home glob_ l' l' p = first_decl cwd home glob_ l l p.
  Proof.
    cbn [importing app first_decl]. assert (E : forall k, (forall s, In s k -> In s l) -> first_decl cwd home glob_ l' k p = first_decl cwd home glob_ l k p).
    { induction k as [|s k IH]; intros Hk; [reflexivity|]. cbn [first_decl]. rewrite IH by (intros x Hx; apply Hk; now right).
      assert (Ed : decl_of cwd home glob_ l' s p = decl_of cwd home glob_ l s p); [|now rewrite Ed].
      assert (Em : forall ds, incl ds (mentions s) -> map (meaning cwd l') ds = map (meaning cwd l) ds).
      { intros ds Hds. apply map_ext_in. intros d Hd. apply meaning_import. apply (Hm s d); [apply Hk; now left|now apply Hds]. }
      unfold decl_of. destruct s; cbn [rule_of set_of]; try reflexivity.
      - rewrite Em; [reflexivity|]. cbn. apply incl_refl.
      - rewrite Em; [reflexivity|]. intros d Hd. unfold SpecProject.mentions. apply in_app_iff. right. exact Hd.
      - rewrite Em; [reflexivity|]. cbn. apply incl_refl. }
    rewrite <- (E l); [reflexivity|auto].
  Qed.
  Lemma mentions_import : flat_map mentions l' = argv0 :: flat_map mentions l.
  Proof. reflexivity. Qed.
  Lemma project_import p : project_of cwd home glob_ l' p = if String.eqb p (canon argv0) then Some DSource else project_of cwd home glob_ l p.
  Proof.
    unfold project_of at 1. rewrite first_import. destruct (String.eqb_spec p (canon argv0)) as [->|N].
    - destruct (first_decl cwd home glob_ l l (canon argv0)) as [d|] eqn:E.
      + exfalso. apply Hdec.
        assert (G : forall k, (forall s, In s k -> In s l) -> first_decl cwd home glob_ l k (canon argv0) <> None -> In (canon argv0) (flat_map declares l)).
        { induction k as [|s k IH]; intros Hk F; [now elim F|]. cbn [first_decl] in F.
          destruct (decl_of cwd home glob_ l s (canon argv0)) eqn:Ed; [|apply IH; [intros x Hx; apply Hk; now right|exact F]].
          apply in_flat_map. exists s. split; [apply Hk; now left|]. apply makes_declares. unfold decl_of in Ed. unfold makes.
          destruct (rule_of cwd home glob_ s) as [[[q ds] b]|].
          - destruct (String.eqb_spec q (canon argv0)) as [->|]; [now left|discriminate].
          - destruct (set_of glob_ s) as [[q ds]|]; [|discriminate]. destruct (String.eqb_spec q (canon argv0)) as [->|]; [now left|discriminate]. }
        apply (G l); [auto|congruence].
      + rewrite is_name_other by apply canon_not_built_in.
        assert (E2 : is_name l (canon argv0) = false).
        { destruct (is_name l (canon argv0)) eqn:E2; [|reflexivity]. apply (io_names _ _ _ _ _ ok) in E2. rewrite realpath_starts in E2. discriminate. }
        rewrite E2, mentions_import. cbn [existsb]. rewrite meaning_import by apply Hname. unfold meaning at 1. rewrite (proj1 Hname), String.eqb_refl. reflexivity.
    - unfold project_of. destruct (first_decl cwd home glob_ l l p); [reflexivity|].
      assert (M : existsb (fun d => String.eqb (meaning cwd l' d) p) (flat_map mentions l') = existsb (fun d => String.eqb (meaning cwd l d) p) (flat_map mentions l)).
      { rewrite mentions_import. cbn [existsb]. rewrite meaning_import by apply Hname. unfold meaning at 1. rewrite (proj1 Hname).
        destruct (String.eqb_spec (canon argv0) p) as [E|_]; [congruence|]. cbn [orb].
        assert (G : forall ds, (forall d, In d ds -> ~ built_in d) -> existsb (fun d => String.eqb (meaning cwd l' d) p) ds = existsb (fun d => String.eqb (meaning cwd l d) p) ds).
        { induction ds as [|d ds IH]; intros H; [reflexivity|]. cbn [existsb]. rewrite (meaning_import d) by (apply H; now left). rewrite IH; [reflexivity|].
          intros x Hx. apply H. now right. }
        apply G. intros d Hd. apply in_flat_map in Hd. destruct Hd as (s & Hs & Hd). eauto. }
      rewrite M. destruct (in_dec string_dec p ["binutils"; "m"; "cxxm"; "l"]) as [B|B]; [|now rewrite is_name_other].
      rewrite (proj2 (is_name_import p) (or_introl B)). destruct (is_name l p); [reflexivity|].
      clear M. destruct (existsb _ _) eqn:E; [|reflexivity]. exfalso. apply existsb_exists in E. destruct E as (d & Hd & E). apply String.eqb_eq in E.
      apply in_flat_map in Hd. destruct Hd as (s & Hs & Hd). unfold meaning in E. destruct (is_name l d).
      + subst d. now apply (Hm s p Hs Hd).
      + apply (canon_not_built_in d). rewrite E. exact B.
  Qed.
  Lemma import_in s : In s l' -> (exists nm, built_in nm /\ s = STarget false nm []) \/ s = SSource argv0 \/ In s l.
  Proof.
    intros H. apply in_app_iff in H. destruct H as [H|H]; [|auto]. cbn in H.
    destruct H as [<-|[<-|[<-|[<-|[<-|[]]]]]]; auto; left; eexists; (split; [|reflexivity]); unfold built_in; cbn; tauto.
  Qed.
  Lemma importing_in_order : in_order cwd home glob_ exists_ l'.
  Proof.
    split.
    - apply ok.
    - intros s p Hs Hp. destruct (import_in s Hs) as [(nm & _ & ->)|[->|Hs']]; [destruct Hp|destruct Hp as [<-|[]]; exact Hstar|].
      now apply (io_star _ _ _ _ _ ok s).
    - rewrite declares_import. apply InvokerProofs.NoDup_app_iff. split; [|split].
      + repeat (constructor; [cbn; intuition discriminate|]). constructor.
      + apply ok.
      + intros x Hx Hx'. now apply (declared_not_built_in x Hx').
    - intros nm H. apply is_name_import in H. destruct H as [H|H]; [now apply built_in_slash|now apply (io_names _ _ _ _ _ ok)].
    - intros s d u ds Hs Hd Ht.
      assert (Nd : ~ built_in d).
      { destruct (import_in s Hs) as [(nm & _ & ->)|[->|Hs']]; [destruct Hd|destruct Hd as [<-|[]]; apply Hname|eauto]. }
      destruct (import_in _ Ht) as [(nm & Hb & E)|[E|Ht']]; [injection E as _ -> _; contradiction|discriminate|].
      destruct (import_in s Hs) as [(nm & _ & ->)|[->|Hs']]; [destruct Hd| |now apply (io_others _ _ _ _ _ ok s d u ds)].
      exfalso. destruct Hd as [<-|[]]. destruct Hname as [Hname' _]. unfold is_name in Hname'.
      assert (X : existsb (fun s => match s with SSet n _ | STarget _ n _ => String.eqb n argv0 | _ => false end) l = true).
      { apply existsb_exists. eexists. split; [exact Ht'|apply String.eqb_refl]. }
      congruence.
    - intros l1 s l2 d E Hd Hl.
      assert (Hs : In s l') by (rewrite E; apply in_app_iff; right; now left).
      destruct (import_in s Hs) as [(nm & _ & ->)|[->|_]]; [destruct Hd| |].
      { exfalso. destruct Hd as [<-|[]]. rewrite declares_import in Hl. rewrite (meaning_import argv0 (proj2 Hname)) in Hl.
        unfold meaning in Hl. rewrite (proj1 Hname) in Hl. apply in_app_iff in Hl. destruct Hl as [Hl|Hl]; [now apply (canon_not_built_in argv0)|contradiction]. }
      assert (Split : (exists l0, l1 = importing argv0 ++ l0 /\ l = l0 ++ s :: l2) \/ mentions s = [] \/ s = SSource argv0).
      { clear - E. cbn [importing app] in E. destruct l1 as [|s1 l1]; [injection E as <- _; right; left; reflexivity|]. injection E as <- E.
        destruct l1 as [|s1 l1]; [injection E as <- _; now right; right|]. injection E as <- E.
        destruct l1 as [|s1 l1]; [injection E as <- _; right; left; reflexivity|]. injection E as <- E.
        destruct l1 as [|s1 l1]; [injection E as <- _; right; left; reflexivity|]. injection E as <- E.
        destruct l1 as [|s1 l1]; [injection E as <- _; right; left; reflexivity|]. injection E as <- E.
        left. exists l1. auto. }
      destruct Split as [(l0 & -> & E0)|[E0|E0]].
      + rewrite flat_map_app. apply in_app_iff. right. assert (Hs' : In s l) by (rewrite E0; apply in_app_iff; right; now left).
        pose proof (Hm s d Hs' Hd) as Nd. rewrite (meaning_import d Nd) in *. rewrite declares_import in Hl. apply in_app_iff in Hl.
        assert (Nb : ~ built_in (meaning cwd l d)).
        { unfold meaning. destruct (is_name l d); [exact Nd|apply canon_not_built_in]. }
        destruct Hl as [Hl|Hl]; [contradiction|]. now apply (io_before _ _ _ _ _ ok l0 s l2 d).
      + rewrite E0 in Hd. destruct Hd.
      + subst s. exfalso. destruct Hd as [<-|[]]. rewrite declares_import in Hl. rewrite (meaning_import argv0 (proj2 Hname)) in Hl.
        unfold meaning in Hl. rewrite (proj1 Hname) in Hl. apply in_app_iff in Hl. destruct Hl as [Hl|Hl]; [now apply (canon_not_built_in argv0)|contradiction].
    - intros s d Hs Hd. destruct (import_in s Hs) as [(nm & _ & ->)|[->|Hs']]; [destruct Hd..|].
      assert (Nd : ~ built_in d) by (apply (Hm s d Hs'); unfold SpecProject.mentions; apply in_app_iff; now right).
      rewrite (meaning_import d Nd). rewrite declares_import.
      destruct (io_there _ _ _ _ _ ok s d Hs' Hd) as [H|[H|H]]; [left; apply in_app_iff; now right| |now right; right].
      right. left. apply in_map_iff in H. destruct H as (d' & E & H). apply in_map_iff. exists d'. split; [|cbn; now right].
      rewrite <- E. apply meaning_import. apply in_flat_map in H. destruct H as (s' & Hs1 & Hd'). apply (Hm s' d' Hs1). unfold SpecProject.mentions. apply in_app_iff. now left.
    - intros s p a Hs Hp Ha Hf.
      assert (Na : a <> canon argv0 -> is_file (project_of cwd home glob_ l) a).
      { intros N. unfold is_file, is_rule in *. rewrite project_import in Hf. destruct (String.eqb_spec a (canon argv0)); [contradiction|exact Hf]. }
      destruct (import_in s Hs) as [(nm & _ & ->)|[->|Hs']]; [destruct Hp| |].
      + destruct (string_dec a (canon argv0)) as [->|N]; [exact (Hbelow (SSource argv0) p (or_introl eq_refl) Hp Ha)|].
        destruct Hp as [<-|[]]. exact (Habove a Ha (Na N)).
      + destruct (string_dec a (canon argv0)) as [->|N]; [exact (Hbelow s p (or_intror Hs') Hp Ha)|].
        exact (io_files _ _ _ _ _ ok s p a Hs' Hp Ha (Na N)).
  Qed.
End Import.

(** ** A plain target among the dependencies *)
Lemma plain_excludes_success cwd home exists_ glob_ partial l x th fs now kind c1 objs sv s :
  building cwd home exists_ glob_ partial l x th fs now kind c1 objs sv s ->
  (forall fuel st i, mrun (realpath cwd) exists_ glob_ home fuel 0 (map op_of l) [empty_reg] = Ok st ->
     core_get (realpath cwd) (fst (reg st 0)) x = Ok i ->
     coherent (realpath cwd) (fst (reg st 0)) /\ (exists nm, In (nm, i) (c_targets (fst (reg st 0)))) /\
     exists j, in_cone (realpath cwd) (fst (reg st 0)) i j /\ t_class (obj (fst (reg st 0)) j) = Plain /\ kind_of (reg st 0) j = MOther) ->
  ~ succeeded objs s.
Proof.
  intros (fuel & st & i & other_if & fuel' & ca1 & order & so & Hr & -> & Hg & He & Ho & Hso & Hru & Hex) H [Hm Hres].
  destruct (H fuel st i Hr Hg) as (Hco0 & [nm Hi] & j & Hj & Hc & Hk). clear H.
  destruct (script_process cwd home exists_ glob_ l fuel st Hr th) as (cops & E & Pc).
  pose proof (process_ready (realpath cwd) _ _ Pc) as R.
  destruct (mevaluate_right (realpath cwd) _ other_if fs fuel' _ [] c1 ca1 R He) as ((Hw & Hf & Hx & Hy & Hnp) & S & _).
  assert (Hco : coherent (realpath cwd) c1) by (eapply coherent_static; [exact S|exact Hco0]).
  assert (Hth : ru_threads c1 None = Some th) by (unfold ru_threads; destruct S as (_ & <- & _); reflexivity).
  assert (Hi1 : resolves (realpath cwd) c1 (t_name (obj c1 i)) i).
  { apply (Hco nm). destruct S as (<- & _). exact Hi. }
  destruct (ru_exec_facts (realpath cwd) c1 Hw Hco Hnp i Hi1 order Ho so Hso None th Hth objs sv Hru) as (dts & _ & Hobjs & _ & Hs & Hlen & _).
  set (run := mk_task (realpath cwd) (kind_of (reg st 0)) partial c1 objs) in *.
  assert (Hreach : reach run sv s) by (eexists; exact Hex).
  destruct (exec_result_cases run so dts th sv Hso Hs s Hreach Hm) as [[_ F]|(_ & _ & F)]; [rewrite Hlen in F; congruence|].
  assert (Hj1 : In j objs) by (apply Hobjs; now apply (static_cone (realpath cwd) (set_threads (fst (reg st 0)) th) c1)).
  apply (In_nth _ _ (List.length (c_heap c1))) in Hj1. destruct Hj1 as (k & Hkl & Ek). rewrite <- Hlen in Hkl.
  destruct (exec_path run so dts th sv Hso Hs _ s Hex) as (P & _).
  assert (Hin : In (k, RNotFalse) (ended (s_log s))) by (apply ended_In; left; auto).
  assert (Hc1 : t_class (obj c1 j) = Plain).
  { destruct S as (_ & _ & _ & S4). destruct (S4 j) as (_ & _ & S5). rewrite <- S5. exact Hc. }
  clear - P Hin Hk Hc1 Ek. revert Hin. induction P as [w|l0 k' r' w w1 w2 _ IH Hrun]; [intros []|].
  intros Hin. apply in_app_iff in Hin. destruct Hin as [Hin|[[= -> ->]|[]]]; [auto|].
  unfold run, mk_task, task_behaviour in Hrun. rewrite Ek, Hk, Hc1 in Hrun. destruct Hrun. discriminate.
Qed.

(** ** The witness: a file called m *)
Definition mscript : list stmt := [SRule false "app" ["m"; "main.c"] (read1 "app:" "/w/main.c")].
Definition mdisk : list string := ["/"; "/w"; "/w/m"; "/w/main.c"; "/w/make.py"].
Definition mfs (built : bool) : fsys := fun p =>
  if mem p ["/"; "/w"] then Some (0, Dir) else
  if String.eqb p "/w/m" then Some (1, Reg "m") else
  if String.eqb p "/w/main.c" then Some (1, Reg "main") else
  if String.eqb p "/w/make.py" then Some (1, Reg "script") else
  if String.eqb p "/w/app" && built then Some (1, Reg "old") else None.
Definition mdisk_of (built : bool) : list string := (if built then ["/w/app"] else []) ++ mdisk.
Lemma mfs_ok built : disk_ok "/w" (present (mfs built)) (on_path (mdisk_of built)).
Proof.
  apply present_ok; [|destruct built; reflexivity..]. intros p. unfold present, mfs, on, mdisk_of, mdisk, mem. destruct built; cbn [existsb app];
  destruct (String.eqb_spec p "/"), (String.eqb_spec p "/w"), (String.eqb_spec p "/w/m"), (String.eqb_spec p "/w/main.c"), (String.eqb_spec p "/w/make.py"), (String.eqb_spec p "/w/app"); reflexivity.
Qed.
Lemma mscript_ok built : in_order "/w" "/h" no_glob (on_path (mdisk_of built)) mscript.
Proof. apply in_orderb_ok. destruct built; vm_compute; reflexivity. Qed.
Notation mread built fuel := (mrun (realpath "/w") (on_path (mdisk_of built)) no_glob "/h" fuel 0 (map op_of (importing "make.py" ++ mscript)) [empty_reg]).
Definition mst : regs := match mread true 20 with Ok st => st | _ => [] end.
Lemma mread_all built fuel st : mread built fuel = Ok st -> st = mst.
Proof.
  destruct fuel as [|[|n]].
  - destruct built; vm_compute; discriminate.
  - destruct built; vm_compute; discriminate.
  - assert (E : mread built (S (S n)) = Ok mst) by (destruct built; vm_compute; reflexivity). rewrite E. intros [= <-]. reflexivity.
Qed.
Lemma m_cone : exists i, core_get (realpath "/w") (fst (reg mst 0)) "/w/app" = Ok i /\
  coherent (realpath "/w") (fst (reg mst 0)) /\ (exists nm, In (nm, i) (c_targets (fst (reg mst 0)))) /\
  exists j, in_cone (realpath "/w") (fst (reg mst 0)) i j /\ t_class (obj (fst (reg mst 0)) j) = Plain /\ kind_of (reg mst 0) j = MOther.
Proof.
  exists 6. split; [vm_compute; reflexivity|]. split.
  { intros nm i H. left. vm_compute in H. repeat destruct H as [H|H]; try contradiction; injection H as <- <-; vm_compute; tauto. }
  split; [exists "/w/app"; vm_compute; tauto|]. exists 2. split; [|split; vm_compute; reflexivity].
  apply rt_step. exists "m". split; [vm_compute; tauto|]. left. vm_compute. tauto.
Qed.
(** Nothing is on the disk but the sources: no building of app ever succeeds. *)
Lemma m_never partial th now kind c1 objs sv s built :
  building "/w" "/h" (on_path (mdisk_of built)) no_glob partial (importing "make.py" ++ mscript) "/w/app" th (mfs built) now kind c1 objs sv s ->
  ~ succeeded objs s.
Proof.
  intros H. apply (plain_excludes_success _ _ _ _ _ _ _ _ _ _ _ _ _ _ _ H). intros fuel st i Hr Hg.
  rewrite (mread_all built fuel st Hr) in *. destruct m_cone as (i' & E & R). rewrite E in Hg. injection Hg as <-. exact R.
Qed.
(** app is on the disk: the evaluation raises. *)
Lemma m_raises fuel st other_if fuel' th r :
  mread true fuel = Ok st ->
  mevaluate (realpath "/w") (kind_of (reg st 0)) other_if (mfs true) fuel' (set_threads (fst (reg st 0)) th, []) <> Ok r.
Proof.
  intros Hr He. destruct r as [c1 ca1].
  destruct (script_process "/w" "/h" (on_path (mdisk_of true)) no_glob _ fuel st Hr th) as (cops & E & Pc).
  pose proof (process_ready (realpath "/w") _ _ Pc) as R.
  destruct (mevaluate_right (realpath "/w") _ other_if (mfs true) fuel' _ [] c1 ca1 R He) as (_ & _ & _ & N).
  rewrite (mread_all true fuel st Hr) in N.
  destruct (N "/w/app" 6) as ((b & Hb) & _); [vm_compute; tauto|vm_compute; reflexivity|]. vm_compute in Hb. discriminate.
Qed.

(** The script of ProjectExamples, without the import. *)
Lemma pown_ok : in_order "/w" "/h" no_glob (on_path pdisk) pown.
Proof. apply in_orderb_ok. vm_compute. reflexivity. Qed.
Lemma pown_clear : clear_of_import "/w" "/h" no_glob "make.py" pown.
Proof.
  assert (B : forall nm, built_in nm -> mem nm ["binutils"; "m"; "cxxm"; "l"] = true) by (intros; now apply mem_In).
  split.
  - intros s d Hs Hd Hb. apply B in Hb. cbn in Hs.
    repeat (destruct Hs as [<-|Hs]; [cbn in Hd; repeat (destruct Hd as [<-|Hd]; [discriminate|]); destruct Hd|]). destruct Hs.
  - intros nm Hn Hb. destruct Hb as [<-|[<-|[<-|[<-|[]]]]]; discriminate.
  - reflexivity.
  - split; [reflexivity|]. intros Hb. apply B in Hb. discriminate.
  - intros H. apply mem_In in H. vm_compute in H. discriminate.
  - intros s p Hs Hp Ha.
    assert (T : forallb (fun s => forallb (fun p => closed (realpath "/w" p) && negb (mem (realpath "/w" "make.py") (ups (realpath "/w" p)))) (places_of "/h" s)) (SSource "make.py" :: pown) = true) by (vm_compute; reflexivity).
    rewrite forallb_forall in T. specialize (T s Hs). rewrite forallb_forall in T. specialize (T p Hp). apply andb_prop in T. destruct T as [C T].
    apply (ups_ok _ _ C) in Ha. apply mem_In in Ha. now rewrite Ha in T.
  - intros a Ha Hf.
    assert (T : closed (realpath "/w" "make.py") && forallb (fun a => negb (is_fileb (project_of "/w" "/h" no_glob pown) a)) (ups (realpath "/w" "make.py")) = true) by (vm_compute; reflexivity).
    apply andb_prop in T. destruct T as [C T]. rewrite forallb_forall in T. apply (ups_ok _ _ C) in Ha. specialize (T a Ha). apply is_fileb_ok in Hf. now rewrite Hf in T.
Qed.
Lemma m_starts : exists kind c1 objs sv s,
  building "/w" "/h" (on_path (mdisk_of false)) no_glob false (importing "make.py" ++ mscript) "/w/app" 1 (mfs false) 1 kind c1 objs sv s /\
  List.length objs = 3.
Proof.
  pose (r := do_process "/w" "/h" (on_path (mdisk_of false)) no_glob MakeExamples.no_fail (importing "make.py" ++ mscript) "/w/app" 1 (mfs false) 1 []).
  assert (H : match r with Some q => List.length (rn_objs q) = 3 | None => False end) by (vm_compute; reflexivity).
  destruct r as [q|] eqn:E; [|destruct H]. exists (rn_kind q), (rn_core q), (rn_objs q), (rn_solver q), (rn_state q).
  split; [eapply do_process_ok; exact E|exact H].
Qed.
