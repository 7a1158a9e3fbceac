(** Lemmas: scripts with C++ sources, used by the command line (C92). *)
From Coq Require Import Relations.
From Verif Require Import PyBase PyPath PathProofs SolverModel SpecGraph InvokerModel SpecTrace CoreModel SpecCore MakeModel UtilModel SpecMake
  RegModel CliModel SpecUtil SpecReg SpecProject ProjectProofs ProjectBuild SpecTrack TrackProofs SpecCxxTrack CxxTrack IdleProofs CxxIdle
  CommandModel SpecCommand CommandProofs SpecCxxCommand.
Local Open Scope string_scope.
Local Open Scope list_scope.

(** ** Commands do no needless work *)
Section Agree.
  Variables P P' : project.
  Hypothesis agree : forall p, P' p = P p.
  Lemma agree_back p : P p = P' p.
  Proof. symmetry. apply agree. Qed.
  Lemma input_agree p q : p_input P' p q -> p_input P p q.
  Proof.
    induction 1 as [p q (ds & Hd & H) Hf|p t ds' q (ds & Hd & H) Hs _ IH].
    - apply pi_file; [|now apply (file_agree P P' agree)]. exists ds. split; [exact Hd|]. now rewrite <- agree.
    - apply (pi_set _ _ t ds'); [|rewrite <- agree; exact Hs|exact IH]. exists ds. split; [exact Hd|]. now rewrite <- agree.
  Qed.
  Lemma needs_agree fs p : needs_update P' fs p -> needs_update P fs p.
  Proof.
    intros (q & Hc & Ho). exists q. split; [now apply (cone_agree P P' agree)|]. unfold outdated in *. unfold is_file, is_rule in *. rewrite agree in Ho.
    destruct Ho as [H|[H|[H (z & Hz & Hn)]]]; [auto|auto|]. right. right. split; [exact H|]. exists z. split; [now apply input_agree|exact Hn].
  Qed.
End Agree.

Lemma fs_entry_dec (a b : option (nat * node)) : a = b \/ a <> b.
Proof. destruct (a : option (nat * node)) as [[m [v|]]|], b as [[m' [v'|]]|]; try (right; congruence); try (now left);
  destruct (Nat.eq_dec m m') as [<-|]; try (right; congruence); try (now left); destruct (string_dec v v') as [<-|]; try (right; congruence); now left. Qed.

Section Commands.
  Variables (cwd home : string) (fs : fsys) (exists_ : string -> bool) (glob_ : string -> list string) (l : list stmt).
  Hypothesis disk : disk_ok cwd (present fs) exists_.
  Hypothesis ok : in_order cwd home glob_ exists_ l.
  Notation P := (project_of cwd home glob_ l).
  Notation makes := (makes cwd home glob_).
  Notation meaning := (meaning cwd).
  Notation calls := (calls_for cwd home glob_ l).

  Lemma command_idle other partial default ws x th now kind c1 objs sv s : calls default ws x "makefile" -> In (meaning l x) (flat_map makes l) ->
    commanded cwd home exists_ glob_ partial other l default ws th fs now kind c1 objs sv s -> ~ needs_update P fs (meaning l x) ->
    w_fs (s_world s) = fs /\ w_ran (s_world s) = [] /\ (forall k r, In (EFinish k r) (s_log s) -> r = RNotFalse) /\ forall k, ~ In (ERaise k) (s_log s).
  Proof.
    intros Hc Hx H N. destruct (command_building cwd home fs exists_ glob_ l disk ok other partial default ws x th now kind c1 objs sv s Hc Hx H) as (l' & _ & Hio & Hp & Hm & Hb).
    rewrite <- Hm in Hx. apply (idle_building cwd home fs exists_ glob_ l' disk Hio partial (meaning l x) th now kind c1 objs sv s Hx Hb).
    intros H'. apply N. exact (needs_agree _ _ Hp fs _ H').
  Qed.
  Lemma command_needed other partial default ws x th now kind c1 objs sv s : calls default ws x "makefile" -> In (meaning l x) (flat_map makes l) ->
    commanded cwd home exists_ glob_ partial other l default ws th fs now kind c1 objs sv s ->
    forall p b, is_rule P p -> In (p, b) (w_ran (s_world s)) -> p_cone P (meaning l x) p /\ needs_update P fs p.
  Proof.
    intros Hc Hx H p b Hr Hi. destruct (command_building cwd home fs exists_ glob_ l disk ok other partial default ws x th now kind c1 objs sv s Hc Hx H) as (l' & _ & Hio & Hp & Hm & Hb).
    rewrite <- Hm in Hx. apply (rule_agree _ _ Hp) in Hr.
    destruct (ran_needed cwd home fs exists_ glob_ l' disk Hio partial (meaning l x) th now kind c1 objs sv s Hx Hb p b Hr Hi) as [A B].
    split; [exact (cone_agree _ _ Hp _ _ A)|exact (needs_agree _ _ Hp fs _ B)].
  Qed.
  Lemma command_exactly other partial default ws x th now kind c1 objs sv s : calls default ws x "makefile" -> In (meaning l x) (flat_map makes l) ->
    commanded cwd home exists_ glob_ partial other l default ws th fs now kind c1 objs sv s -> succeeded objs s ->
    forall p, is_rule P p -> In p (map fst (w_ran (s_world s))) <-> p_cone P (meaning l x) p /\ needs_update P fs p.
  Proof.
    intros Hc Hx H Hs p Hr. destruct (command_building cwd home fs exists_ glob_ l disk ok other partial default ws x th now kind c1 objs sv s Hc Hx H) as (l' & _ & Hio & Hp & Hm & Hb).
    rewrite <- Hm in Hx. apply (rule_agree _ _ Hp) in Hr.
    rewrite (ran_exactly cwd home fs exists_ glob_ l' disk Hio partial (meaning l x) th now kind c1 objs sv s Hx Hb Hs p Hr).
    pose proof (agree_back _ _ Hp) as Hq. split; intros [A B].
    - split; [exact (cone_agree _ _ Hp _ _ A)|exact (needs_agree _ _ Hp fs _ B)].
    - split; [exact (cone_agree _ _ Hq _ _ A)|exact (needs_agree _ _ Hq fs _ B)].
  Qed.
End Commands.

(** Without words, the default target is made. *)
Lemma building_default cwd home fs exists_ glob_ l : disk_ok cwd (present fs) exists_ -> in_order cwd home glob_ exists_ l ->
  forall other partial x th now kind c1 objs sv s, In (meaning cwd l x) (flat_map (makes cwd home glob_) l) ->
  building cwd home exists_ glob_ partial l (meaning cwd l x) th fs now kind c1 objs sv s <->
  commanded cwd home exists_ glob_ partial other l (Some x) [] th fs now kind c1 objs sv s.
Proof.
  intros D K other partial x th now kind c1 objs sv s Hx.
  split; intros (fuel & st & i & other_if & fuel' & ca1 & order & so & Hr & Ek & H).
  - destruct H as (Hg & He & Hrest). destruct (meaning_get cwd home fs exists_ glob_ l D K fuel st Hr x Hx) as (i' & Hgx & Hgm & _ & _ & _ & Hno).
    rewrite Hgm in Hg. injection Hg as ->. exists fuel, st, i, other_if, fuel', ca1, order, so. split; [exact Hr|]. split; [exact Ek|]. split; [|exact Hrest].
    destruct (info_make st other i Hno) as (_ & Hdf & Ha). unfold mcli, dispatch. rewrite get_threads, Hgx. cbn [bind]. rewrite He. cbn [bind].
    rewrite Ek, Hdf, (proj2 (Ha "makefile" (or_introl eq_refl))). reflexivity.
  - destruct H as (Hm & Hrest). destruct (meaning_get cwd home fs exists_ glob_ l D K fuel st Hr x Hx) as (i' & Hgx & Hgm & _ & _ & _ & Hno).
    unfold mcli, dispatch in Hm. rewrite get_threads, Hgx in Hm. cbn [bind] in Hm.
    destruct (mevaluate (realpath cwd) kind other_if fs fuel' (set_threads (fst (reg st 0)) th, [])) as [[c2 ca2]| |] eqn:Ev; cbn [bind] in Hm; try discriminate.
    destruct (check_call _ _ _) eqn:Ec; cbn [bind] in Hm; try discriminate. injection Hm as -> _ -> ->.
    exists fuel, st, i, other_if, fuel', ca1, order, so. auto 10.
Qed.

Section Cxx.
  Variables (cwd home : string) (glob_ : string -> list string) (its : list item).
  Hypothesis ho : honest cwd home glob_ its.
  Notation path := (realpath cwd).
  Notation script := (script_at cwd its).
  Notation proj := (project_at cwd home glob_ its).
  Notation rules := (rules_in cwd home glob_ its).
  Notation rule_of := (rule_of cwd home glob_).
  Notation makes := (makes cwd home glob_).
  Notation junk := (empty_list cwd its).
  Notation past := (cxx_commands cwd home glob_ junk its).
  Notation calls s := (calls_for cwd home glob_ (script s)).
  Notation mean s := (meaning cwd (script s)).

  Lemma commands_track fs now : past fs now -> track_history rules junk proj path fs now.
  Proof.
    induction 1 as [fs now Hd Hf|fs now fs' now' _ IH Ho|fs now exists_ other default ws x th kind c1 objs sv s fs' now' _ IH Hdisk Hord Hc Hx Hb Hj Hl
      |fs now exists_ other default ws x th fs' _ IH Hdisk Hord Hc Hx Hb].
    - now apply th_start.
    - eapply th_outside; eauto.
    - destruct (command_of cwd home fs exists_ glob_ _ Hdisk Hord other true default ws x th now kind c1 objs sv s Hc Hx Hb) as (c & i & oi & Him & Hbo & _ & _).
      eapply th_build; eauto.
    - eapply th_outside; [exact IH|]. split; [reflexivity|]. intros p.
      destruct (clean_removes cwd home fs exists_ glob_ _ Hdisk Hord other default ws x th fs' Hc Hx Hb) as [_ H].
      destruct (fs_entry_dec (fs' p) (fs p)) as [E|E]; [auto|]. right. left. apply (H p E).
  Qed.

  Section Command.
    Variables (fs : fsys) (now : nat) (exists_ : string -> bool) (other : nat -> tinfo) (default : option string) (ws : list string) (x : string) (th : Z)
      (kind : nat -> mkind) (c1 : core) (objs : list nat) (sv : solver) (s : state world).
    Hypothesis Hh : past fs now.
    Hypothesis Hdisk : disk_ok cwd (present fs) exists_.
    Hypothesis Hord : in_order cwd home glob_ exists_ (script (contents fs)).
    Hypothesis Hc : calls (contents fs) default ws x "makefile".
    Hypothesis Hx : In (mean (contents fs) x) (flat_map makes (script (contents fs))).
    Hypothesis Hb : commanded cwd home exists_ glob_ true other (script (contents fs)) default ws th fs now kind c1 objs sv s.
    Hypothesis Hs : succeeded objs s.
    Notation fs' := (w_fs (s_world s)).
    Notation s' := (contents fs').
    Notation P' := (proj s').
    Theorem command_right_now p : p_cone (proj (contents fs)) (mean (contents fs) x) p -> right_now rules s' p.
    Proof.
      destruct (command_of cwd home fs exists_ glob_ _ Hdisk Hord other true default ws x th now kind c1 objs sv s Hc Hx Hb) as (c & i & oi & Him & Hbo & <- & Hk).
      exact (track_success path rules _ junk proj (cxx_tracking _ _ _ _ ho) fs now kind oi c i [] c1 objs s (commands_track fs now Hh) Him Hk Hbo Hs p).
    Qed.
    Theorem command_unit u : In (IUnit u) its -> p_cone (proj (contents fs)) (mean (contents fs) x) (path (u_obj u)) ->
      exists l o, s' (path (u_dep u)) = Some l /\ u_list u s' = Some l /\ s' (path (u_obj u)) = Some o /\ u_comp u s' = Some o /\
        forall h, In h (listed (Some l)) -> p_input P' (path (u_obj u)) (path h).
    Proof.
      intros Hu Hp.
      assert (Hp' : p_cone (proj (contents fs)) (mean (contents fs) x) (path (u_dep u))).
      { eapply rt_trans; [exact Hp|]. apply rt_step. eexists. split; [|right; eexists _, _; now apply obj_decl].
        destruct (dep_file _ _ _ _ ho u Hu) as [Hst Hn]. apply in_map_iff. exists (u_dep u). split; [unfold meaning; now rewrite Hn|].
        apply in_expand; [right; now left|exact Hst]. }
      destruct (command_right_now _ Hp' _ (dep_rule _ _ _ _ ho u Hu)) as (l & El & Sl). destruct (command_right_now _ Hp _ (obj_rule _ _ _ _ ho u Hu)) as (o & Eo & So).
      exists l, o. split; [exact Sl|]. split; [exact El|]. split; [exact So|]. split; [exact Eo|].
      intros h Hin. apply obj_input; [exact ho|exact Hu| |now apply (listed_no_star (Some l))|now apply (ho_headers _ _ _ _ ho u s' l)].
      rewrite Sl. rewrite !in_app_iff. auto.
    Qed.
    Hypothesis Hnf : forall st p ds b, In (IStmt st) its -> rule_of st = Some (p, ds, (true, b)) -> ~ p_cone P' (mean (contents fs) x) p.
    Hypothesis Hsrc : forall p, p_cone P' (mean (contents fs) x) p -> P' p = Some DSource -> s' p <> None.
    Theorem command_up_to_date : ~ needs_update P' fs' (mean (contents fs) x).
    Proof.
      pose proof command_right_now as Hr. pose proof (cxx_tracking _ _ _ _ ho) as T. pose proof (cxx_steady _ _ _ _ ho) as St.
      assert (Nf : forall p ds b, p_cone P' (mean (contents fs) x) p -> P' p <> Some (DRule true ds b)).
      { intros p ds b Hp E.
        destruct (new_cone rules _ _ proj T St (contents fs) s' _ p Hr Hp) as [Hcn|Hcn]; [|congruence].
        assert (Er : rules p = Some b) by (apply (rules_at _ _ _ _ ho s'); eauto).
        destruct (Hr p Hcn b Er) as (v & Ev & Sv).
        destruct (forced_static _ _ _ _ ho s' p ds b) as (st & ds0 & Hi & Hst); [|congruence|exact E|exact (Hnf st p ds0 b Hi Hst Hp)].
        intros v' _ Sv'. destruct (rules_cases _ _ _ _ ho p b Er) as [(st & dd & f & Hi & Hst)|[(u & Hu & -> & ->)|(u & Hu & -> & ->)]].
        - right. intros u Hu ->. assert (X : IUnit u = IStmt st) by (apply (once_item _ _ _ _ ho _ _ (path (u_dep u))); auto; [apply dep_idecl|now apply (stmt_idecl cwd home glob_ st _ dd (f, b))]).
          discriminate.
        - left. assert (v' = v) by congruence. subst v'. now apply (ho_nonempty _ _ _ _ ho u s').
        - right. intros u' Hu' E'. symmetry in E'. now apply (dep_not_obj _ _ _ _ ho u' u) in E'. }
      destruct (command_of cwd home fs exists_ glob_ _ Hdisk Hord other true default ws x th now kind c1 objs sv s Hc Hx Hb) as (c & i & oi & Him & Hbo & En & Hk).
      rewrite <- En in *.
      exact (track_up_to_date path rules _ junk proj T St fs now kind oi c i [] c1 objs s (commands_track fs now Hh) Him Hk Hbo Hs Nf Hsrc).
    Qed.
    (** The next command. *)
    Theorem next_command fs2 exists_2 : disk_ok cwd (present fs2) exists_2 -> in_order cwd home glob_ exists_2 (script (contents fs2)) ->
      (forall u, In (IUnit u) its -> contents fs2 (path (u_dep u)) = s' (path (u_dep u))) ->
      forall partial other2 default2 ws2 y th2 now2 kind2 c2 objs2 sv2 s2, calls (contents fs2) default2 ws2 y "makefile" ->
      In (mean (contents fs2) y) (flat_map makes (script (contents fs2))) -> p_cone P' (mean (contents fs) x) (mean (contents fs2) y) ->
      commanded cwd home exists_2 glob_ partial other2 (script (contents fs2)) default2 ws2 th2 fs2 now2 kind2 c2 objs2 sv2 s2 ->
      forall p b, is_rule P' p -> In (p, b) (w_ran (s_world s2)) -> exists q, p_cone P' p q /\ is_file P' q /\ fs2 q <> fs' q.
    Proof.
      intros disk2 ok2 Hl partial other2 default2 ws2 y th2 now2 kind2 c2 objs2 sv2 s2 Hc2 Hy Hxy Hb2 p b Hp Hr.
      pose proof command_up_to_date as N. pose proof (script_same cwd its s' (contents fs2) Hl) as E.
      assert (EP : P' = project_of cwd home glob_ (script (contents fs2))) by (unfold project_at; now rewrite E).
      rewrite EP in *.
      destruct (command_needed cwd home fs2 exists_2 glob_ _ disk2 ok2 other2 partial default2 ws2 y th2 now2 kind2 c2 objs2 sv2 s2 Hc2 Hy Hb2 p b Hp Hr) as [Hcn Hn].
      apply needs_changed; [|exact Hn]. intros (q & Hq & Ho). apply N. exists q. split; [|exact Ho].
      eapply rt_trans; [exact Hxy|]. eapply rt_trans; eauto.
    Qed.
    Theorem next_command_idle exists_2 : disk_ok cwd (present fs') exists_2 -> in_order cwd home glob_ exists_2 (script s') ->
      forall partial other2 default2 ws2 y th2 now2 kind2 c2 objs2 sv2 s2, calls s' default2 ws2 y "makefile" ->
      In (mean s' y) (flat_map makes (script s')) -> p_cone P' (mean (contents fs) x) (mean s' y) ->
      commanded cwd home exists_2 glob_ partial other2 (script s') default2 ws2 th2 fs' now2 kind2 c2 objs2 sv2 s2 ->
      w_fs (s_world s2) = fs' /\ w_ran (s_world s2) = [].
    Proof.
      intros disk2 ok2 partial other2 default2 ws2 y th2 now2 kind2 c2 objs2 sv2 s2 Hc2 Hy Hxy Hb2.
      destruct (command_idle cwd home fs' exists_2 glob_ _ disk2 ok2 other2 partial default2 ws2 y th2 now2 kind2 c2 objs2 sv2 s2 Hc2 Hy Hb2) as (A & B & _); [|auto].
      intros (q & Hq & Ho). apply command_up_to_date. exists q. split; [|exact Ho]. eapply rt_trans; [exact Hxy|exact Hq].
    Qed.
  End Command.
End Cxx.
