(** Lemmas: the process after a successful build of a script with C++ modules (C84). *)
From Coq Require Import Permutation Relations.
From Verif Require Import PyBase PyPath PathProofs SolverModel SpecGraph InvokerModel SpecTrace CoreModel SpecCore MakeModel UtilModel SpecMake
  MakeFacts RegModel CliModel SpecUtil UtilProofs SpecReg SpecProject ProjectProofs ProjectBuild SpecTrack TrackProofs SpecCxxTrack CxxTrack IdleProofs.
Local Open Scope string_scope.
Local Open Scope list_scope.

Section Cxx.
  Variables (cwd home : string) (glob_ : string -> list string) (its : list item).
  Hypothesis ho : honest cwd home glob_ its.
  Notation path := (realpath cwd).
  Notation script := (script_at cwd its).
  Notation proj := (project_at cwd home glob_ its).
  Notation rules := (rules_in cwd home glob_ its).
  Notation rule_of := (rule_of cwd home glob_).
  Notation makes := (makes cwd home glob_).
  Notation name := (is_name (script nothing)).
  Notation mean := (meaning cwd (script nothing)).
  Notation expand := (expand_names glob_).

  Lemma listed_name u s v h : In (IUnit u) its -> u_list u s = Some v -> In h (listed (Some v)) -> mean h = path h.
  Proof. intros Hu Hv Hh. unfold meaning. now rewrite (ho_headers _ _ _ _ ho u s v h). Qed.

  (** A header that is newly listed is a source or was a dependency already. *)
  Lemma new_header s s' u v h p : In (IUnit u) its -> u_list u s' = Some v -> s' (path (u_dep u)) = Some v ->
    In h (listed (Some v)) -> p = path (u_dep u) \/ p = path (u_obj u) ->
    p_input (proj s) p (path h) \/ proj s' (path h) = Some DSource.
  Proof.
    intros Hu Hv Hs Hh Hp. destruct (rules (path h)) as [b|] eqn:Er.
    - left. apply (p_input_mono _ _ _ _ ho). destruct (ho_generated _ _ _ _ ho u s' v h Hu Hv Hh) as [A B]; [congruence|].
      destruct Hp as [->| ->]; [exact A|exact B].
    - right. pose proof (ho_headers _ _ _ _ ho u s' v h Hu Hv Hh) as Hn. pose proof (listed_no_star (Some v) h Hh) as Hst.
      destruct (mentioned_file cwd home glob_ its ho s' h) as [H|H]; [|exact Hn|exact H|].
      + apply in_flat_map. exists (dep_stmt cwd s' u). split; [now apply dep_stmt_In|]. apply in_app_iff. right. cbn [deps_of dep_stmt].
        apply in_expand; [|exact Hst]. rewrite Hs, !in_app_iff. right. now right.
      + exfalso. apply (is_rule_at _ _ _ _ ho) in H. congruence.
  Qed.

  (** The dependencies of a rule at different contents. *)
  Lemma expand_app a b : expand (a ++ b) = expand a ++ expand b.
  Proof. unfold expand_names. apply flat_map_app. Qed.
  Lemma dep_cases s s' p q : rules p <> None -> p_dep (proj s') p q ->
    p_dep (proj s) p q \/
    exists u h, In (IUnit u) its /\ (p = path (u_dep u) \/ p = path (u_obj u)) /\ In h (listed (s' (path (u_dep u)))) /\ q = mean h.
  Proof.
    intros Hp (ds & Hq & Hd). destruct (rules p) as [b|] eqn:Er; [|congruence].
    apply (rules_at _ _ _ _ ho s') in Er. destruct Er as (f & ds1 & Er).
    assert (E : ds1 = ds) by (destruct Hd as [Hd|(f' & b' & Hd)]; rewrite Er in Hd; congruence). subst ds1. clear Hd.
    destruct (proj_inv _ _ _ _ ho s' p _ Er) as [(st & ds0 & f0 & b0 & Hs & Hr & E)|[(st & ds0 & _ & _ & E)|(E & _)]]; try discriminate.
    injection E as -> -> <-. apply in_map_iff in Hq. destruct Hq as (d & <- & Hd).
    assert (L : forall h l, In h (expand (listed l)) -> In h (listed l)).
    { intros h l Hh. unfold expand_names in Hh. apply in_flat_map in Hh. destruct Hh as (y & Hy & Hh).
      rewrite (listed_no_star l y Hy) in Hh. destruct Hh as [<-|[]]. exact Hy. }
    destruct (rule_stmt cwd home glob_ its s' st p ds0 f0 b Hs Hr) as [Hi|[(u & Hu & -> & -> & ->)|(u & Hu & -> & -> & ->)]].
    - left. exists (map mean ds0). split; [now apply in_map|]. right. exists f0, b.
      apply (proj_rule _ _ _ _ ho s st); [now apply static_In|exact Hr].
    - assert (E : ds0 = expand (([u_src u] ++ u_adds u) ++ listed (s' (path (u_dep u))))) by (rewrite <- app_assoc; now injection Hr as <- _).
      rewrite E, expand_app in Hd. apply in_app_iff in Hd. destruct Hd as [Hd|Hd].
      + left. eexists. split; [|right; eexists _, _; now apply dep_decl]. apply in_map. rewrite app_assoc, expand_app. apply in_app_iff. now left.
      + right. exists u, d. auto.
    - assert (E : ds0 = expand (([u_src u; u_dep u] ++ u_adds u) ++ listed (s' (path (u_dep u))))) by (rewrite <- app_assoc; now injection Hr as <- _).
      rewrite E, expand_app in Hd. apply in_app_iff in Hd. destruct Hd as [Hd|Hd].
      + left. eexists. split; [|right; eexists _, _; now apply obj_decl]. apply in_map. rewrite app_assoc, expand_app. apply in_app_iff. now left.
      + right. exists u, d. auto.
  Qed.
  Lemma listed_dep s u h p : In (IUnit u) its -> p = path (u_dep u) \/ p = path (u_obj u) -> In h (listed (s (path (u_dep u)))) -> p_dep (proj s) p (mean h).
  Proof.
    intros Hu Hp Hh. pose proof (listed_no_star _ h Hh) as Hst. destruct Hp as [->| ->]; eexists.
    - split; [|right; eexists _, _; now apply dep_decl]. apply in_map, in_expand; [|exact Hst]. rewrite !in_app_iff. right. now right.
    - split; [|right; eexists _, _; now apply obj_decl]. apply in_map, in_expand; [|exact Hst]. rewrite !in_app_iff. right. now right.
  Qed.

  Theorem cxx_steady : steady rules proj.
  Proof.
    constructor.
    - intros s s' p ds H. apply (set_mono _ _ _ _ ho s'). now apply (set_mono _ _ _ _ ho s).
    - intros s s' p q (ds & Hq & Hd) Hf.
      assert (X : exists st ds0, In st (script s) /\ ds = map mean ds0 /\ incl ds0 (deps_of home glob_ st)).
      { destruct Hd as [Hd|(f & b & Hd)]; destruct (proj_inv _ _ _ _ ho s p _ Hd) as [(st & ds0 & f0 & b0 & Hs & Hr & E)|[(st & ds0 & Hs & Hr & E)|(E & _)]]; try discriminate.
        - exists st, ds0. injection E as ->. split; [exact Hs|]. split; [reflexivity|]. rewrite (proj2 (declares_set cwd home glob_ st _ _ Hr)). apply incl_refl.
        - exists st, ds0. injection E as _ -> _. split; [exact Hs|]. split; [reflexivity|]. rewrite (proj2 (declares_rule cwd home glob_ st _ _ _ Hr)). apply incl_refl. }
      destruct X as (st & ds0 & Hs & -> & Hi). apply in_map_iff in Hq. destruct Hq as (d & <- & Hd0).
      unfold meaning in *. destruct (name d) eqn:En.
      + exfalso. assert (Nf : forall t, name d = true -> ~ is_file (proj t) d).
        { intros t N [H|(f & ds' & b & H)]; destruct (proj_inv _ _ _ _ ho t d _ H) as [(st' & dd & f0 & b0 & _ & Hr & _)|[(st' & dd & _ & _ & E)|(_ & _ & Nn & _)]]; try discriminate; try congruence;
            (assert (C : path d = d) by (destruct st'; cbn in Hr; try discriminate; injection Hr as <- _ _; apply realpath_idem));
            pose proof (path_no_name _ _ _ _ ho d) as Y; rewrite C in Y; congruence. }
        now apply (Nf s').
      + apply (mentioned_file _ _ _ _ ho); [|exact En]. apply in_flat_map. exists st. split; [exact Hs|]. apply in_app_iff. right. now apply Hi.
    - intros s s' p q Hp Hsp Hin Hd. destruct (dep_cases s s' p q Hp Hd) as [H|(u & h & Hu & Hpu & Hh & ->)]; [exact H|].
      apply (listed_dep s u h p Hu Hpu). replace (s (path (u_dep u))) with (s' (path (u_dep u))); [exact Hh|].
      destruct Hpu as [->| ->]; [exact Hsp|]. apply Hin. now apply (obj_dep _ _ _ _ ho).
    - intros s s' p q Hp Hr Hin Hd. destruct (dep_cases s s' p q Hp Hd) as [H|(u & h & Hu & Hpu & Hh & ->)]; [now left|right].
      assert (X : exists v, u_list u s' = Some v /\ s' (path (u_dep u)) = Some v).
      { destruct Hpu as [->| ->]; [apply (Hr _ (dep_rule _ _ _ _ ho u Hu))|].
        apply (Hin _ (obj_dep _ _ _ _ ho s u Hu) _ (dep_rule _ _ _ _ ho u Hu)). }
      destruct X as (v & Hv & Hs). rewrite Hs in Hh. rewrite (listed_name u s' v h Hu Hv Hh).
      exact (new_header s s' u v h p Hu Hv Hs Hh Hpu).
  Qed.

  (** Only rules of the script itself are always run after success. *)
  Lemma forced_static s p ds b : (forall v, rules p = Some b -> s p = Some v -> v <> "" \/ forall u, In (IUnit u) its -> p <> path (u_dep u)) -> s p <> None ->
    proj s p = Some (DRule true ds b) -> exists st ds0, In (IStmt st) its /\ rule_of st = Some (p, ds0, (true, b)).
  Proof.
    intros Hne Hs H. assert (Er : rules p = Some b) by (apply (rules_at _ _ _ _ ho s); eauto).
    destruct (proj_inv _ _ _ _ ho s p _ H) as [(st & ds0 & f0 & b0 & Hst & Hr & E)|[(st & ds0 & _ & _ & E)|(E & _)]]; try discriminate.
    injection E as <- -> <-. destruct (rule_stmt cwd home glob_ its s st p ds0 _ b Hst Hr) as [Hi|[(u & Hu & -> & -> & ->)|(u & Hu & -> & -> & ->)]].
    - eauto.
    - exfalso. assert (Hu' : unlisted (s (path (u_dep u))) = true) by (unfold dep_stmt in Hr; cbn [SpecProject.rule_of] in Hr; congruence). destruct (s (path (u_dep u))) as [v|] eqn:E; [|congruence].
      destruct (Hne v Er eq_refl) as [Hv|Hv]; [|now apply (Hv u)]. apply listed_some in Hv. rewrite Hv in Hu'. discriminate Hu'.
    - exfalso. discriminate Hr.
  Qed.

  (** After success there is nothing to do for the next process. *)
  Theorem cxx_up_to_date fs now exists_ x th kind c1 objs sv s : cxx_history cwd home glob_ (empty_list cwd its) its fs now ->
    disk_ok cwd (present fs) exists_ -> in_order cwd home glob_ exists_ (script (contents fs)) ->
    In x (flat_map makes (script (contents fs))) ->
    building cwd home exists_ glob_ true (script (contents fs)) x th fs now kind c1 objs sv s -> succeeded objs s ->
    let fs' := w_fs (s_world s) in let P' := proj (contents fs') in
    (forall st p ds b, In (IStmt st) its -> rule_of st = Some (p, ds, (true, b)) -> ~ p_cone P' x p) ->
    (forall p, p_cone P' x p -> P' p = Some DSource -> contents fs' p <> None) -> ~ needs_update P' fs' x.
  Proof.
    intros Hh Hdisk Hord Hx Hb Hs fs' P' Hnf Hsrc.
    pose proof (cxx_success _ _ _ _ ho _ _ _ _ _ _ _ _ _ _ Hh Hdisk Hord Hx Hb Hs) as Hr. fold fs' in Hr.
    pose proof (cxx_tracking _ _ _ _ ho) as T. pose proof cxx_steady as St.
    assert (Nf : forall p ds b, p_cone P' x p -> P' p <> Some (DRule true ds b)).
    { intros p ds b Hp E.
      destruct (new_cone rules _ _ proj T St (contents fs) (contents fs') x p Hr Hp) as [Hc|Hc]; [|fold P' in Hc; congruence].
      assert (Er : rules p = Some b) by (apply (rules_at _ _ _ _ ho (contents fs')); eauto).
      destruct (Hr p Hc b Er) as (v & Ev & Sv).
      destruct (forced_static (contents fs') p ds b) as (st & ds0 & Hi & Hst); [|congruence|exact E|exact (Hnf st p ds0 b Hi Hst Hp)].
      intros v' _ Sv'. destruct (rules_cases _ _ _ _ ho p b Er) as [(st & dd & f & Hi & Hst)|[(u & Hu & -> & ->)|(u & Hu & -> & ->)]].
      - right. intros u Hu ->. assert (X : IUnit u = IStmt st) by (apply (once_item _ _ _ _ ho _ _ (path (u_dep u))); auto; [apply dep_idecl|now apply (stmt_idecl cwd home glob_ st _ dd (f, b))]).
        discriminate.
      - left. assert (v' = v) by congruence. subst v'. now apply (ho_nonempty _ _ _ _ ho u (contents fs')).
      - right. intros u' Hu' E'. symmetry in E'. now apply (dep_not_obj _ _ _ _ ho u' u) in E'. }
    destruct (building_of cwd home fs exists_ glob_ _ Hdisk Hord true x th now kind c1 objs sv s Hx Hb) as (c & i & oi & Him & Hbo & <- & Hk).
    exact (track_up_to_date path rules _ (empty_list cwd its) proj T St fs now kind oi c i [] c1 objs s (cxx_track_history _ _ _ _ fs now Hh) Him Hk Hbo Hs Nf Hsrc).
  Qed.
  (** The lists are all that a script depends on. *)
  Lemma script_same s s' : (forall u, In (IUnit u) its -> s' (path (u_dep u)) = s (path (u_dep u))) -> script s' = script s.
  Proof.
    intros H. unfold script_at. assert (G : forall k, incl k its -> flat_map (item_stmts cwd s') k = flat_map (item_stmts cwd s) k).
    { induction k as [|it k IH]; intros Hk; [reflexivity|]. cbn [flat_map]. rewrite IH by (intros z Hz; apply Hk; now right). f_equal.
      destruct it as [st|u]; [reflexivity|]. cbn [item_stmts]. rewrite H; [reflexivity|apply Hk; now left]. }
    apply G, incl_refl.
  Qed.
  Section Second.
    Variables (fs : fsys) (now : nat) (exists_ : string -> bool) (x : string) (th : Z) (kind : nat -> mkind) (c1 : core) (objs : list nat) (sv : solver) (s : state world).
    Hypothesis Hh : cxx_history cwd home glob_ (empty_list cwd its) its fs now.
    Hypothesis Hdisk : disk_ok cwd (present fs) exists_.
    Hypothesis Hord : in_order cwd home glob_ exists_ (script (contents fs)).
    Hypothesis Hx : In x (flat_map makes (script (contents fs))).
    Hypothesis Hb : building cwd home exists_ glob_ true (script (contents fs)) x th fs now kind c1 objs sv s.
    Hypothesis Hs : succeeded objs s.
    Notation fs' := (w_fs (s_world s)).
    Notation P' := (proj (contents fs')).
    Hypothesis Hnf : forall st p ds b, In (IStmt st) its -> rule_of st = Some (p, ds, (true, b)) -> ~ p_cone P' x p.
    Hypothesis Hsrc : forall p, p_cone P' x p -> P' p = Some DSource -> contents fs' p <> None.
    Theorem cxx_second_process fs2 exists_2 : disk_ok cwd (present fs2) exists_2 -> in_order cwd home glob_ exists_2 (script (contents fs2)) ->
      (forall u, In (IUnit u) its -> contents fs2 (path (u_dep u)) = contents fs' (path (u_dep u))) ->
      forall partial y th2 now2 kind2 c2 objs2 sv2 s2, In y (flat_map makes (script (contents fs2))) -> p_cone P' x y ->
      building cwd home exists_2 glob_ partial (script (contents fs2)) y th2 fs2 now2 kind2 c2 objs2 sv2 s2 ->
      forall p b, is_rule P' p -> In (p, b) (w_ran (s_world s2)) -> exists q, p_cone P' p q /\ is_file P' q /\ fs2 q <> fs' q.
    Proof.
      intros disk2 ok2 Hl partial y th2 now2 kind2 c2 objs2 sv2 s2 Hy Hxy Hb2 p b Hp Hr.
      pose proof (cxx_up_to_date fs now exists_ x th kind c1 objs sv s Hh Hdisk Hord Hx Hb Hs Hnf Hsrc) as N.
      pose proof (script_same (contents fs') (contents fs2) Hl) as E.
      assert (EP : P' = project_of cwd home glob_ (script (contents fs2))) by (unfold project_at; now rewrite E).
      rewrite EP in *.
      destruct (ran_needed cwd home fs2 exists_2 glob_ _ disk2 ok2 partial y th2 now2 kind2 c2 objs2 sv2 s2 Hy Hb2 p b Hp Hr) as [Hc Hn].
      apply needs_changed; [|exact Hn]. intros (q & Hq & Ho). apply N. exists q. split; [|exact Ho].
      eapply rt_trans; [exact Hxy|]. eapply rt_trans; eauto.
    Qed.
    Theorem cxx_second_process_idle exists_2 : disk_ok cwd (present fs') exists_2 -> in_order cwd home glob_ exists_2 (script (contents fs')) ->
      forall partial th2 now2 kind2 c2 objs2 sv2 s2,
      building cwd home exists_2 glob_ partial (script (contents fs')) x th2 fs' now2 kind2 c2 objs2 sv2 s2 ->
      w_fs (s_world s2) = fs' /\ w_ran (s_world s2) = [].
    Proof.
      intros disk2 ok2 partial th2 now2 kind2 c2 objs2 sv2 s2 Hb2.
      pose proof (cxx_up_to_date fs now exists_ x th kind c1 objs sv s Hh Hdisk Hord Hx Hb Hs Hnf Hsrc) as N.
      assert (Hx' : In x (flat_map makes (script (contents fs')))) by (rewrite (makes_same cwd home glob_ its); now rewrite (makes_same cwd home glob_ its) in Hx).
      destruct (idle_building cwd home fs' exists_2 glob_ _ disk2 ok2 partial x th2 now2 kind2 c2 objs2 sv2 s2 Hx' Hb2 N) as (A & B & _). auto.
    Qed.
  End Second.
End Cxx.
