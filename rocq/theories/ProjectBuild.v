(** Lemmas: builds of scripts in order (C77-C80). *)
From Coq Require Import Permutation.
From Verif Require Import PyBase PyPath PathProofs SolverModel SpecGraph InvokerModel SpecTrace InvokerProofs InvokerInv InvokerThms InvokerPath
  CoreModel SpecCore CoreProofs NeedProofs RuProofs CoreThms MakeModel MakeEval SpecMake MakeProofs MakeFacts MakeTimes MakeBuild MakeThms MakeClaims
  RegModel CliModel SpecUtil UtilProofs SpecReg RegProofs RegScript RegBuild RegTotal BuildSafe SpecProject ProjectProofs CliProofs.
Local Open Scope string_scope.
Local Open Scope list_scope.

Lemma stmts_total cwd home ex exists_ glob_ : disk_ok cwd ex exists_ -> forall l,
  exists f0, forall fuel st, f0 <= fuel -> exists st', mrun (realpath cwd) exists_ glob_ home fuel 0 (map op_of l) st = Ok st'.
Proof.
  intros disk. induction l as [|s l [f0 IH]]; [exists 0; cbn; eauto|].
  exists (f0 + 1 + list_max (map (fun p => depth cwd p + 2) (places_of home s))). intros fuel st Hf. cbn [map mrun].
  assert (Hn : forall p, In p (places_of home s) -> depth cwd p + 2 <= fuel).
  { intros p Hp. assert (L : list_max (map (fun p => depth cwd p + 2) (places_of home s)) <= fuel) by lia.
    apply list_max_le in L. rewrite Forall_forall in L. apply L. apply in_map_iff. now exists p. }
  assert (S : exists st1, mstep (realpath cwd) exists_ glob_ home fuel 0 st (op_of s) = Ok st1).
  { destruct s as [p|t ds b|t src ds b|nm ds|u nm ds]; cbn [op_of mstep places_of] in *.
    - eapply source_total; [exact disk|right; apply Hn; now left|lia].
    - eapply fnew_total; [exact disk|apply Hn; now left].
    - unfold copy. destruct (source_total cwd ex exists_ glob_ disk fuel st (expanduser home src)) as [st1 ->]; [right; apply Hn; right; now left|lia|].
      cbn [bind]. eapply fnew_total; [exact disk|apply Hn; now left].
    - eapply plain_total; [exact disk|lia].
    - eapply plain_total; [exact disk|lia]. }
  destruct S as [st1 ->]. cbn [bind]. apply IH. lia.
Qed.

Lemma static_path canon c c' j k : same_static c c' -> clos_trans nat (obj_dep canon c) j k -> clos_trans nat (obj_dep canon c') j k.
Proof.
  intros S H. induction H as [x y H|x y z _ IH1 _ IH2]; [|eapply t_trans; eauto]. apply t_step. now apply (static_obj_dep canon c c').
Qed.

Section Script.
  Variables (cwd home : string) (fs : fsys) (exists_ : string -> bool) (glob_ : string -> list string) (l : list stmt).
  Hypothesis disk : disk_ok cwd (present fs) exists_.
  Hypothesis ok : in_order cwd home glob_ exists_ l.
  Notation canon := (realpath cwd).
  Notation P := (project_of cwd home glob_ l).
  Notation declares := (declares cwd home glob_).
  Notation makes := (makes cwd home glob_).
  Notation inv := (inv cwd home (present fs) exists_ glob_ l).

  Lemma threads_inv r n : inv l r -> inv l (set_threads (fst r) n, snd r).
  Proof. destruct r as [c ks]. intros H. exact H. Qed.
  Section Started.
    Variables (fuel : nat) (st : regs).
    Hypothesis run : mrun canon exists_ glob_ home fuel 0 (map op_of l) [empty_reg] = Ok st.
    Lemma script_inv : inv l (reg st 0).
    Proof.
      eapply inv_weak. eapply (run_inv cwd home (present fs) exists_ glob_ disk l ok fuel l [] [empty_reg]); [reflexivity|exact run|cbn; lia|].
      apply inv_empty.
    Qed.
    Lemma script_process th : exists cops, set_threads (fst (reg st 0)) th = crun canon cops (new_core (Some th)) /\
      process_core canon (kind_of (reg st 0)) (set_threads (fst (reg st 0)) th).
    Proof.
      destruct (mrun_history canon exists_ glob_ home fuel 0 (map op_of l) 1 st run 0) as [cops E]. exists cops.
      rewrite E, set_threads_session. split; [reflexivity|constructor].
    Qed.
    Lemma declared_get x : In x (flat_map declares l) -> exists i, core_get canon (fst (reg st 0)) x = Ok i /\
      t_name (obj (fst (reg st 0)) i) = x /\ kind_of (reg st 0) i <> MDir /\ (exists nm, In (nm, i) (c_targets (fst (reg st 0)))) /\
      (In x (flat_map makes l) -> kind_of (reg st 0) i <> MOther).
    Proof.
      intros Hx. set (r := reg st 0). pose proof script_inv as I. fold r in I.
      assert (Ik := proj1 (proj2 I)). pose proof (Ik x Hx) as K.
      destruct (key_In r x K) as [i Hi]. exists i.
      assert (M : SpecProject.meaning cwd l x = x /\ (is_name l x = true \/ is_file P (canon x))).
      { destruct (is_name l x) eqn:Es; [split; [now apply meaning_name|now left]|].
        rewrite (meaning_file cwd l x Es). apply in_flat_map in Hx. destruct Hx as (s & Hs & Hx).
        unfold SpecProject.declares, SpecProject.makes in Hx. destruct (rule_of cwd home glob_ s) as [[[q ds] b]|] eqn:Er.
        - assert (Eq : x = q) by (destruct s; try discriminate; destruct Hx as [<-|[]]; reflexivity). subst q.
          assert (Cq : canon x = x).
          { destruct s; cbn in Er; try discriminate; injection Er as <- <- <-; apply realpath_idem. }
          rewrite Cq. split; [reflexivity|]. right. eapply rule_file; eauto.
        - exfalso. destruct (set_of glob_ s) as [[q ds]|] eqn:E2.
          + assert (Eq : x = q) by (destruct s; try discriminate; destruct Hx as [<-|[]]; reflexivity). subst q.
            pose proof (set_name glob_ l s x ds Hs E2). congruence.
          + destruct (other_of glob_ s) as [[[u q] ds]|] eqn:E3; [|destruct Hx]. destruct Hx as [<-|[]].
            pose proof (other_name glob_ l s u q ds Hs E3). congruence. }
      destruct M as [M1 M2].
      assert (N : kind_of r i <> MDir).
      { destruct M2 as [M2|M2]; [|eapply file_not_dir; eauto].
        destruct (kind_name cwd home (present fs) exists_ glob_ l ok r I x i Hi M2) as [-> | ->]; discriminate. }
      split; [|split; [|split; [exact N|split; [eauto|]]]].
      - apply get_resolves; [|now left]. eapply whole_wf; eauto.
      - rewrite <- M1. eapply (key_meaning cwd home (present fs) glob_ l false l r x i (incl_refl _)); [apply I|exact Hi|exact N].
      - intros Hm Ek. apply in_flat_map in Hm. destruct Hm as (s & Hs & Hm).
        destruct (other_kind cwd home (present fs) exists_ glob_ l r I x i Hi Ek) as (s' & u & ds & Hs' & E & _).
        assert (s = s').
        { eapply (once_same cwd home (present fs) exists_ glob_ l ok r I s s' x Hs Hs'); [now apply makes_declares|].
          rewrite (proj1 (declares_other cwd home glob_ s' u x ds E)). now left. }
        subst s'. destruct s; try discriminate. destruct Hm.
    Qed.

    Lemma script_evaluates th other_if ca : (forall i, exists b, other_if i = Ok b) -> exists f1, forall fuel', f1 <= fuel' -> exists c1 ca1,
      mevaluate canon (kind_of (reg st 0)) other_if fs fuel' (set_threads (fst (reg st 0)) th, ca) = Ok (c1, ca1).
    Proof.
      intros Ho. set (r := reg st 0). pose proof (threads_inv r th script_inv) as I.
      destruct (script_process th) as (cops & E & Pc). fold r in E, Pc. set (c := set_threads (fst r) th) in *.
      pose proof (process_ready canon _ _ Pc) as (Hw & Hf & _).
      pose proof (whole_healthy cwd home (present fs) exists_ glob_ disk l ok (c, snd r) I other_if (view fs ca) Ho) as Hh.
      change (kind_of (c, snd r)) with (kind_of r) in Hh. cbn [fst] in Hh.
      exists (S (List.length (c_heap c))). intros fuel' Hl.
      destruct (session_evaluates canon cops (Some th) c) with (update_if := puif canon (kind_of r) other_if (view fs ca) c) (fuel := fuel')
        as [c' Ec]; [rewrite E; constructor|exact Hh|lia|].
      pose proof (mevaluate_sim canon (kind_of r) other_if fs fuel' c ca Hf) as M. rewrite Ec in M.
      destruct M as (c1 & ca1 & M & _). eauto.
    Qed.

    Section Evaluated.
      Variables (th : Z) (other_if : nat -> res bool) (fuel' : nat) (c1 : core) (ca1 : cache).
      Hypothesis ev : mevaluate canon (kind_of (reg st 0)) other_if fs fuel' (set_threads (fst (reg st 0)) th, []) = Ok (c1, ca1).
      Lemma evaluated : ready canon c1 /\ same_static (set_threads (fst (reg st 0)) th) c1 /\ coherent canon c1 /\ ru_threads c1 None = Some th.
      Proof.
        destruct (script_process th) as (cops & E & Pc).
        pose proof (process_ready canon _ _ Pc) as R.
        destruct (mevaluate_right canon _ other_if fs fuel' _ [] c1 ca1 R ev) as (R1 & S & _).
        split; [exact R1|]. split; [exact S|]. split.
        - eapply coherent_static; [exact S|]. exact (whole_coherent cwd home (present fs) exists_ glob_ l _ (threads_inv _ th script_inv)).
        - unfold ru_threads. destruct S as (_ & <- & _). reflexivity.
      Qed.
      Lemma script_runs i order so : (exists nm, In (nm, i) (c_targets (fst (reg st 0)))) ->
        (forall k, Permutation k (order k)) -> fair_order so ->
        exists objs sv, recurse_update canon c1 order so i None = RuExec objs sv.
      Proof.
        intros [nm Hi] Ho Hso. destruct evaluated as ((Hw & _ & _ & _ & Hnp) & S & Hco & Hth).
        pose proof (threads_inv _ th script_inv) as I. set (r := (set_threads (fst (reg st 0)) th, snd (reg st 0))) in *.
        destruct (whole_cone cwd home (present fs) exists_ glob_ disk l ok r I i (ex_intro _ nm Hi)) as (_ & A & B).
        assert (Hi1 : resolves canon c1 (t_name (obj c1 i)) i).
        { apply (Hco nm). destruct S as (<- & _). exact Hi. }
        destruct (ru_cases canon c1 Hw Hco Hnp i Hi1 order Ho so Hso None th Hth)
          as [(x & _ & _ & Hn & _)|(_ & o & dts & _ & _ & _ & [(e & _ & _ & Hc)|(sv & E & _)])].
        - elim Hn. intros j d Hj Hd. apply (static_cone canon c1) with (c' := fst r) in Hj; [|now apply static_sym].
          assert (Ed : t_deps (obj c1 j) = t_deps (obj (fst r) j)).
          { destruct S as (_ & _ & _ & S4). destruct (S4 j) as (_ & E4 & _). symmetry. exact E4. }
          rewrite Ed in Hd. destruct (A j d Hj Hd) as [k Hk]. exists k. now apply (static_resolves canon (fst r) c1).
        - elim Hc. intros j Hj Hl. apply (static_cone canon c1) with (c' := fst r) in Hj; [|now apply static_sym].
          apply (B j Hj). apply (static_path canon c1 (fst r)); [now apply static_sym|exact Hl].
        - eauto.
      Qed.
    End Evaluated.
  End Started.

  Lemma made_get fuel st : mrun canon exists_ glob_ home fuel 0 (map op_of l) [empty_reg] = Ok st ->
    forall x, In x (flat_map makes l) -> exists i, core_get canon (fst (reg st 0)) x = Ok i /\
    t_name (obj (fst (reg st 0)) i) = x /\ kind_of (reg st 0) i <> MDir /\ kind_of (reg st 0) i <> MOther /\
    exists nm, In (nm, i) (c_targets (fst (reg st 0))).
  Proof.
    intros Hr x Hx. destruct (declared_get fuel st Hr x) as (i & A & B & C & D & E).
    - apply in_flat_map in Hx. destruct Hx as (s & Hs & Hx). apply in_flat_map. exists s. split; [exact Hs|now apply makes_declares].
    - exists i. auto 6.
  Qed.
  Lemma building_of partial x th now kind c1 objs sv s : In x (flat_map makes l) ->
    building cwd home exists_ glob_ partial l x th fs now kind c1 objs sv s ->
    exists c i other_if, implements canon kind P c i /\ build_of canon kind other_if partial c i fs now [] c1 objs s /\
      t_name (obj c i) = x /\ kind i <> MDir.
  Proof.
    intros Hx (fuel & st & i & other_if & fuel' & ca1 & order & so & Hr & -> & Hg & He & Ho & Hso & Hru & Hex).
    destruct (made_get fuel st Hr x Hx) as (i' & Hg' & Hn & Hk & Hko & nm & Hi). rewrite Hg in Hg'. injection Hg' as <-.
    pose proof (threads_inv _ th (script_inv fuel st Hr)) as I. set (r := (set_threads (fst (reg st 0)) th, snd (reg st 0))) in *.
    destruct (evaluated fuel st Hr th other_if fuel' c1 ca1 He) as (_ & _ & _ & Hth).
    destruct (script_process fuel st Hr th) as (cops & _ & Pc).
    exists (fst r), i, other_if. split; [|split; [|split; [exact Hn|exact Hk]]].
    - eapply (whole_implements cwd home (present fs) exists_ glob_ disk l ok r I); [exists nm; exact Hi|exact Hko].
    - split; [exact Pc|]. split; [exact (whole_coherent cwd home (present fs) exists_ glob_ l r I)|]. split; [exists nm; exact Hi|].
      split; [intros j y _ _ H; discriminate H|]. exists fuel', ca1, order, so, None, th, sv. auto 10.
  Qed.
  (** Reading the script, the evaluation and the set-up of the build succeed. *)
  Lemma building_under_way partial x th now order so other_if : (forall i, exists b, other_if i = Ok b) -> In x (flat_map makes l) -> (forall k, Permutation k (order k)) -> fair_order so ->
    exists f0, forall fuel, f0 <= fuel -> exists st, mrun canon exists_ glob_ home fuel 0 (map op_of l) [empty_reg] = Ok st /\
      exists f1, forall fuel', f1 <= fuel' -> exists i c1 ca1 objs sv,
      core_get canon (fst (reg st 0)) x = Ok i /\
      mevaluate canon (kind_of (reg st 0)) other_if fs fuel' (set_threads (fst (reg st 0)) th, []) = Ok (c1, ca1) /\
      recurse_update canon c1 order so i None = RuExec objs sv /\
      building cwd home exists_ glob_ partial l x th fs now (kind_of (reg st 0)) c1 objs sv (init_state sv (WD fs ca1 now now [])).
  Proof.
    intros Hoi Hx Ho Hso. destruct (stmts_total cwd home (present fs) exists_ glob_ disk l) as [f0 H0]. exists f0. intros fuel Hf.
    destruct (H0 fuel [empty_reg] Hf) as [st Hr]. exists st. split; [exact Hr|].
    destruct (script_evaluates fuel st Hr th other_if [] Hoi) as [f1 H1]. exists f1. intros fuel' Hf'.
    destruct (H1 fuel' Hf') as (c1 & ca1 & He). destruct (made_get fuel st Hr x Hx) as (i & Hg & _ & _ & _ & Hi).
    destruct (script_runs fuel st Hr th other_if fuel' c1 ca1 He i order so Hi Ho Hso) as (objs & sv & Hru).
    exists i, c1, ca1, objs, sv. split; [exact Hg|]. split; [exact He|]. split; [exact Hru|].
    exists fuel, st, i, other_if, fuel', ca1, order, so. repeat (split; [assumption || reflexivity|]). constructor.
  Qed.

  (** What a build has done: the calls made, and no directory target has failed. *)
  Lemma building_calls partial x th now kind c1 objs sv s : In x (flat_map makes l) -> dirs_free cwd home l fs ->
    building cwd home exists_ glob_ partial l x th fs now kind c1 objs sv s -> no_rule_failed P (s_world s) ->
    forall k r, In (k, r) (ended (s_log s)) -> r = RNotFalse.
  Proof.
    intros Hx Hfree Hb Hnf k r Hk. pose proof Hb as Hb'.
    destruct (building_of partial x th now kind c1 objs sv s Hx Hb) as (c & i & other_if & Him & Hbo & _ & _).
    destruct (build_run_log canon kind other_if partial P c i fs now [] c1 objs s Him Hbo) as (S & w0 & calls & R & _ & _ & El).
    destruct Hb' as (fuel & st & _ & other_if' & fuel' & ca1 & _ & _ & Hr & -> & _ & He & _).
    pose proof (threads_inv _ th (script_inv fuel st Hr)) as I. set (rg := (set_threads (fst (reg st 0)) th, snd (reg st 0))) in *.
    destruct (evaluated fuel st Hr th other_if' fuel' c1 ca1 He) as (_ & S' & _ & _).
    assert (Reg : forall j, in_cone canon c1 i j -> exists nm, In (nm, j) (c_targets (fst rg))).
    { intros j Hj. destruct (ro_reg _ _ _ _ _ _ _ _ _ _ _ R) as [nm Hi].
      destruct (cone_registered_name canon c1 i j (ex_intro _ nm Hi) Hj) as [nm' Hn]. exists nm'. destruct S' as (E' & _). unfold rg. cbn [fst]. rewrite E'. exact Hn. }
    assert (Nm : forall j, t_name (obj c1 j) = nm_of rg j) by (intros j; symmetry; exact (static_name (fst rg) c1 j S')).
    destruct (run_safe canon (kind_of (reg st 0)) partial P c1 i fs now w0) with (l := calls) (w := s_world s) as [F _].
    - intros j a Hj Hkd Ha Hn. destruct (Reg j Hj) as [nm Hn']. rewrite Nm in Ha.
      destruct (whole_dirs cwd home (present fs) exists_ glob_ disk l ok rg I a _ nm j Hn' Hkd Ha) as (d & D1 & D2 & D3).
      { unfold present. now rewrite Hn. }
      exists d. split; [apply (static_path canon (fst rg) c1); [exact S'|exact D1]|]. split; [exact D2|]. now rewrite Nm.
    - intros j a m v Hj Hkd Hn Ha. destruct (Reg j Hj) as [nm Hn']. rewrite Nm in Ha.
      destruct (whole_desc cwd home (present fs) exists_ glob_ l rg I nm j Hn') as (_ & _ & _ & C).
      change (kind_of rg j) with (kind_of (reg st 0) j) in C. rewrite Hkd in C. destruct C as (C1 & _ & (_ & s' & p & Hs & Hp & Hab) & _).
      apply (Hfree s' p a m v Hs Hp). eapply above_trans; [eapply ancestors_above; exact Ha|]. unfold nm_of. now rewrite C1.
    - exact R.
    - assert (Hin : In (nth k objs (List.length (c_heap c1)), r) calls).
      { rewrite El. apply in_map_iff. exists (k, r). auto. }
      destruct (F _ Hin) as [Hr'|[(f & b & Hkd) Hran]]; [exact Hr'|]. exfalso. cbn [fst] in *.
      pose proof (ro_cone _ _ _ _ _ _ _ _ _ _ _ R _ _ Hin) as Hj.
      destruct (ro_imp _ _ _ _ _ _ _ _ _ _ _ R _ Hj) as [_ HI]. rewrite Hkd in HI. destruct HI as (ds & HI & _).
      apply (Hnf (t_name (obj c1 (nth k objs (List.length (c_heap c1)))))); [|exact Hran]. exists f, ds, b. exact HI.
  Qed.

  Lemma building_goes_on partial x th now kind c1 objs sv s : In x (flat_map makes l) -> dirs_free cwd home l fs -> (1 <= th)%Z ->
    building cwd home exists_ glob_ partial l x th fs now kind c1 objs sv s -> no_rule_failed P (s_world s) ->
    succeeded objs s \/
    s_main s = MJoin /\ exists s', step (inv_of (sv_inv sv)) (mk_task canon kind partial c1 objs) s s'.
  Proof.
    intros Hx Hfree Ht Hb Hnf. pose proof (building_calls partial x th now kind c1 objs sv s Hx Hfree Hb Hnf) as E.
    destruct (building_of partial x th now kind c1 objs sv s Hx Hb) as (c & i' & other_if' & Him & Hbo & _ & _).
    destruct Hb as (fuel & st & i & other_if & fuel' & ca1 & order & so & Hr & -> & Hg & He & Ho & Hso & Hru & Hex).
    destruct (made_get fuel st Hr x Hx) as (i2 & Hg' & Hn & Hk & _ & nm & Hi). rewrite Hg in Hg'. injection Hg' as <-.
    destruct (evaluated fuel st Hr th other_if fuel' c1 ca1 He) as ((Hw & _ & _ & _ & Hnp) & S & Hco & Hth).
    assert (Hi1 : resolves canon c1 (t_name (obj c1 i)) i).
    { apply (Hco nm). destruct S as (<- & _). exact Hi. }
    destruct (ru_exec_facts canon c1 Hw Hco Hnp i Hi1 order Ho so Hso None th Hth objs sv Hru) as (dts & _ & _ & _ & Hs & Hlen & _).
    set (run := mk_task canon (kind_of (reg st 0)) partial c1 objs) in *.
    assert (Hreach : reach run sv s) by (eexists; exact Hex).
    destruct (s_main s) eqn:Em.
    - right. split; [reflexivity|].
      apply (progress run so dts th sv Hso Hs s); [now apply mk_tasks_end|exact Ht|exact Hreach|exact Em|].
      destruct (raised (s_log s)) as [|k rest] eqn:Er; [reflexivity|]. exfalso.
      assert (Hin : In (k, RExn) (ended (s_log s))).
      { apply ended_In. right. split; [reflexivity|]. apply raised_In. rewrite Er. now left. }
      apply E in Hin. discriminate.
    - left. split; [exact Em|]. rewrite <- Hlen.
      destruct (exec_result_cases run so dts th sv Hso Hs s Hreach Em) as [[F _]|(_ & F & _)]; [|exact F]. exfalso.
      destruct F as [k F]. assert (Hin : In (k, RFalse) (ended (s_log s))) by (apply ended_In; now left).
      apply E in Hin. discriminate.
  Qed.

  Lemma building_right x th now kind c1 objs sv s : In x (flat_map makes l) ->
    building cwd home exists_ glob_ false l x th fs now kind c1 objs sv s -> succeeded objs s ->
    reads_only P -> history canon P fs now ->
    forall p, is_file P p -> p_cone P x p -> right_content P (contents (w_fs (s_world s))) p (contents (w_fs (s_world s)) p).
  Proof.
    intros Hx Hb Hs Hro Hh p Hp Hc. destruct (building_of false x th now kind c1 objs sv s Hx Hb) as (c & i & other_if & Him & Hbo & Hn & Hk).
    eapply success_right; eauto. now rewrite Hn.
  Qed.
  Lemma building_history x th now kind c1 objs sv s : In x (flat_map makes l) ->
    building cwd home exists_ glob_ false l x th fs now kind c1 objs sv s -> history canon P fs now ->
    history canon P (w_fs (s_world s)) (w_now (s_world s)).
  Proof.
    intros Hx Hb Hh. destruct (building_of false x th now kind c1 objs sv s Hx Hb) as (c & i & other_if & Him & Hbo & Hn & Hk).
    eapply h_build; eauto.
  Qed.
  Lemma building_bounded partial x th now kind c1 objs sv s n : In x (flat_map makes l) ->
    building cwd home exists_ glob_ partial l x th fs now kind c1 objs sv s ->
    forall w0, nsteps (inv_of (sv_inv sv)) (mk_task canon kind partial c1 objs) n (init_state sv w0) s -> n <= 2 * List.length objs + 1.
  Proof.
    intros Hx (fuel & st & i & other_if & fuel' & ca1 & order & so & Hr & -> & Hg & He & Ho & Hso & Hru & Hex) w0 Hn.
    destruct (made_get fuel st Hr x Hx) as (i2 & Hg' & Hn' & Hk & _ & nm & Hi). rewrite Hg in Hg'. injection Hg' as <-.
    destruct (evaluated fuel st Hr th other_if fuel' c1 ca1 He) as ((Hw & _ & _ & _ & Hnp) & S & Hco & Hth).
    assert (Hi1 : resolves canon c1 (t_name (obj c1 i)) i).
    { apply (Hco nm). destruct S as (<- & _). exact Hi. }
    destruct (ru_exec_facts canon c1 Hw Hco Hnp i Hi1 order Ho so Hso None th Hth objs sv Hru) as (dts & _ & _ & _ & Hs & Hlen & _).
    rewrite <- Hlen. exact (steps_bounded _ so dts th sv Hso Hs n w0 s Hn).
  Qed.

  (** Names as written in the script. *)
  Lemma names_found fuel st s d : mrun canon exists_ glob_ home fuel 0 (map op_of l) [empty_reg] = Ok st ->
    In s l -> In d (mentions home glob_ s) ->
    exists i, core_get canon (fst (reg st 0)) d = Ok i /\ t_name (obj (fst (reg st 0)) i) = meaning cwd l d.
  Proof.
    intros Hr Hs Hd. pose proof (script_inv fuel st Hr) as I.
    assert (R : exists i, resolves canon (fst (reg st 0)) d i).
    { unfold SpecProject.mentions in Hd. apply in_app_iff in Hd. destruct Hd as [Hd|Hd].
      - apply known_resolves. destruct I as (_ & _ & Hsrc & _). eapply Hsrc; eauto.
      - eapply dep_registered; eauto. }
    destruct R as [i Hi]. exists i. split; [apply get_resolves; [eapply whole_wf; eauto|exact Hi]|].
    apply (dep_means cwd home (present fs) exists_ glob_ l ok (reg st 0) I s d i Hs Hd Hi).
  Qed.
End Script.

Lemma script_history_ok cwd home glob_ l fs now : script_history cwd home glob_ l fs now ->
  history (realpath cwd) (project_of cwd home glob_ l) fs now.
Proof.
  induction 1 as [fs now A B C|fs now fs' now' _ IH O|fs now exists_ x th kind c1 objs sv s _ IH D K X B].
  - now apply h_start.
  - eapply h_outside; eauto.
  - eapply building_history; eauto.
Qed.
Lemma script_right cwd home fs exists_ glob_ l : disk_ok cwd (present fs) exists_ -> in_order cwd home glob_ exists_ l ->
  forall x th now kind c1 objs sv s, In x (flat_map (makes cwd home glob_) l) ->
  building cwd home exists_ glob_ false l x th fs now kind c1 objs sv s -> succeeded objs s ->
  reads_only (project_of cwd home glob_ l) -> script_history cwd home glob_ l fs now ->
  forall p, is_file (project_of cwd home glob_ l) p -> p_cone (project_of cwd home glob_ l) x p ->
  right_content (project_of cwd home glob_ l) (contents (w_fs (s_world s))) p (contents (w_fs (s_world s)) p).
Proof. intros D K x th now kind c1 objs sv s X B Su R H. eapply building_right; eauto. now apply script_history_ok. Qed.
Lemma script_implements cwd home fs exists_ glob_ l : disk_ok cwd (present fs) exists_ -> in_order cwd home glob_ exists_ l ->
  forall fuel st, mrun (realpath cwd) exists_ glob_ home fuel 0 (map op_of l) [empty_reg] = Ok st ->
  forall i, (exists nm, In (nm, i) (c_targets (fst (reg st 0)))) -> kind_of (reg st 0) i <> MOther ->
  implements (realpath cwd) (kind_of (reg st 0)) (project_of cwd home glob_ l) (fst (reg st 0)) i.
Proof. intros D K fuel st Hr i. eapply whole_implements; eauto. eapply script_inv; eauto. Qed.
Lemma declared_found cwd home fs exists_ glob_ l : disk_ok cwd (present fs) exists_ -> in_order cwd home glob_ exists_ l ->
  forall fuel st, mrun (realpath cwd) exists_ glob_ home fuel 0 (map op_of l) [empty_reg] = Ok st ->
  forall x, In x (flat_map (declares cwd home glob_) l) ->
  exists i, core_get (realpath cwd) (fst (reg st 0)) x = Ok i /\ t_name (obj (fst (reg st 0)) i) = x.
Proof. intros D K fuel st Hr x Hx. edestruct declared_get as (i & A & B & _); eauto. Qed.
