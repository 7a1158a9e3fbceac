(** Lemmas: builds that run routines (C96).  The script is compared with the one in which
    routines are file sets. *)
From Coq Require Import Permutation.
From Verif Require Import PyBase PyPath PathProofs SolverModel SpecGraph InvokerModel SpecTrace InvokerProofs InvokerInv InvokerThms InvokerPath
  CoreModel SpecCore CoreProofs NeedProofs RuProofs CoreThms MakeModel MakeEval SpecMake MakeProofs MakeFacts MakeTimes MakeBuild MakeThms MakeClaims
  RegModel CliModel SpecUtil UtilProofs SpecReg RegProofs RegScript RegBuild RegTotal BuildSafe SpecProject ProjectProofs CliProofs ProjectBuild SpecRoutine.
Local Open Scope string_scope.
Local Open Scope list_scope.

(** ** Routines as file sets *)
Definition tame (s : stmt) : stmt := match s with STarget true nm ds => SSet nm ds | _ => s end.
Definition tamed (l : list stmt) : list stmt := map tame l.

Section Tame.
  Variables (cwd home : string) (glob_ : string -> list string).
  Notation canon := (realpath cwd).
  Notation declares := (declares cwd home glob_).
  Notation makes := (makes cwd home glob_).
  Notation mentions := (mentions home glob_).
  Lemma tame_rule s : rule_of cwd home glob_ (tame s) = rule_of cwd home glob_ s.
  Proof. now destruct s as [| | | |[|] nm ds]. Qed.
  Lemma tame_declares s : declares (tame s) = declares s.
  Proof. now destruct s as [| | | |[|] nm ds]. Qed.
  Lemma tame_deps s : deps_of home glob_ (tame s) = deps_of home glob_ s.
  Proof. now destruct s as [| | | |[|] nm ds]. Qed.
  Lemma tame_sources s : sources_of home (tame s) = sources_of home s.
  Proof. now destruct s as [| | | |[|] nm ds]. Qed.
  Lemma tame_mentions s : mentions (tame s) = mentions s.
  Proof. unfold SpecProject.mentions. now rewrite tame_deps, tame_sources. Qed.
  Lemma tame_places s : places_of home (tame s) = places_of home s.
  Proof. now destruct s as [| | | |[|] nm ds]. Qed.
  Lemma tamed_name l nm : is_name (tamed l) nm = is_name l nm.
  Proof. unfold is_name, tamed. induction l as [|s l IH]; [reflexivity|]. cbn [map existsb]. rewrite IH. now destruct s as [| | | |[|] ? ?]. Qed.
  Lemma tamed_meaning l d : meaning cwd (tamed l) d = meaning cwd l d.
  Proof. unfold meaning. now rewrite tamed_name. Qed.
  Lemma tamed_flat {A} (f : stmt -> list A) l : (forall s, f (tame s) = f s) -> flat_map f (tamed l) = flat_map f l.
  Proof. intros H. unfold tamed. induction l as [|s l IH]; [reflexivity|]. cbn [map flat_map]. now rewrite H, IH. Qed.
  Lemma tamed_In l s : In s (tamed l) -> exists s0, In s0 l /\ tame s0 = s.
  Proof. intros H. apply in_map_iff in H. destruct H as (s0 & E & H). eauto. Qed.
  Lemma In_tamed l s : In s l -> In (tame s) (tamed l).
  Proof. apply in_map. Qed.

  Variables (exists_ : string -> bool) (l : list stmt).
  Hypothesis ok : in_order cwd home glob_ exists_ l.
  Notation P := (project_of cwd home glob_ l).
  Notation P' := (project_of cwd home glob_ (tamed l)).

  Lemma tamed_first p l0 : (forall ds, ~ In (STarget true p ds) l0) ->
    first_decl cwd home glob_ (tamed l) (tamed l0) p = first_decl cwd home glob_ l l0 p.
  Proof.
    unfold tamed at 2. induction l0 as [|s l0 IH]; intros H; [reflexivity|]. cbn [map first_decl].
    rewrite IH by (intros ds Hd; apply (H ds); now right).
    assert (E : decl_of cwd home glob_ (tamed l) (tame s) p = decl_of cwd home glob_ l s p); [|now rewrite E].
    assert (M : forall ds, map (meaning cwd (tamed l)) ds = map (meaning cwd l) ds) by (intros ds; apply map_ext; intros d; apply tamed_meaning).
    destruct s as [q|f t ds b|t q ds b|nm ds|[|] nm ds]; unfold decl_of; cbn [tame rule_of set_of fst snd]; rewrite ?M; try reflexivity.
    destruct (String.eqb_spec nm p) as [->|n]; [|reflexivity]. exfalso. apply (H ds). now left.
  Qed.
  Lemma tamed_same p : ~ is_routine l p -> P' p = P p.
  Proof.
    intros H. unfold project_of. rewrite tamed_first by (intros ds Hd; apply H; now exists ds). rewrite tamed_name.
    rewrite (tamed_flat mentions) by exact tame_mentions.
    assert (E : existsb (fun d => String.eqb (meaning cwd (tamed l) d) p) (flat_map mentions l) = existsb (fun d => String.eqb (meaning cwd l d) p) (flat_map mentions l)).
    { induction (flat_map mentions l) as [|d ds IH]; [reflexivity|]. cbn [existsb]. now rewrite IH, tamed_meaning. }
    now rewrite E.
  Qed.
  Lemma routine_name y : is_routine l y -> is_name l y = true.
  Proof. intros (ds & H). apply existsb_exists. exists (STarget true y ds). split; [exact H|apply String.eqb_refl]. Qed.
  Lemma routine_none y : is_routine l y -> P y = None.
  Proof.
    intros H. unfold project_of. rewrite (first_none cwd home glob_ l), (routine_name y H); [reflexivity|].
    destruct H as (ds & H). intros Hm. apply in_flat_map in Hm. destruct Hm as (s & Hs & Hm).
    assert (s = STarget true y ds).
    { pose proof (io_once _ _ _ _ _ ok) as N. pose proof (makes_declares cwd home glob_ s y Hm) as Hd. clear - N H Hs Hd.
      induction l as [|a l0 IH]; [destruct H|]. cbn [flat_map] in N. assert (N0 : NoDup (flat_map declares l0)).
      { clear - N. induction (declares a) as [|z k IHk]; [exact N|]. cbn in N. inversion N. auto. }
      destruct H as [->|H], Hs as [->|Hs]; auto.
      - exfalso. apply (nodup_disj _ _ y N); [now left|]. apply in_flat_map. eauto.
      - exfalso. apply (nodup_disj _ _ y N); [exact Hd|]. apply in_flat_map. exists (STarget true y ds). split; [exact H|now left]. }
    subst s. destruct Hm.
  Qed.
  Lemma routine_set y ds : In (STarget true y ds) l -> P' y = Some (DSet (map (meaning cwd l) (expand_names glob_ ds))).
  Proof.
    intros H. unfold project_of.
    erewrite (first_once cwd home glob_ (tamed l) (tamed l) (SSet y ds) y); [reflexivity|exact (In_tamed l _ H)| |reflexivity|].
    - rewrite (tamed_flat declares) by exact tame_declares. exact (io_once _ _ _ _ _ ok).
    - unfold decl_of. cbn [rule_of set_of]. rewrite String.eqb_refl. do 2 f_equal. apply map_ext. intros d. apply tamed_meaning.
  Qed.
  Lemma is_routine_dec y : {is_routine l y} + {~ is_routine l y}.
  Proof.
    destruct (existsb (fun s => match s with STarget true n _ => String.eqb n y | _ => false end) l) eqn:E.
    - left. apply existsb_exists in E. destruct E as (s & Hs & E). destruct s as [| | | |[|] nm ds]; try discriminate.
      apply String.eqb_eq in E. subst. now exists ds.
    - right. intros (ds & H). assert (T : existsb (fun s => match s with STarget true n _ => String.eqb n y | _ => false end) l = true); [|congruence].
      apply existsb_exists. exists (STarget true y ds). split; [exact H|apply String.eqb_refl].
  Qed.
  Lemma tamed_rule p f ds b : P' p = Some (DRule f ds b) <-> P p = Some (DRule f ds b).
  Proof.
    destruct (is_routine_dec p) as [R|R]; [|now rewrite (tamed_same p R)].
    rewrite (routine_none p R). destruct R as (ds' & R). rewrite (routine_set p ds' R). split; discriminate.
  Qed.
  Lemma tamed_source p : P' p = Some DSource <-> P p = Some DSource.
  Proof.
    destruct (is_routine_dec p) as [R|R]; [|now rewrite (tamed_same p R)].
    rewrite (routine_none p R). destruct R as (ds' & R). rewrite (routine_set p ds' R). split; discriminate.
  Qed.
  Lemma tamed_is_rule p : is_rule P' p <-> is_rule P p.
  Proof. split; intros (f & ds & b & H); exists f, ds, b; now apply tamed_rule. Qed.
  Lemma tamed_file p : is_file P' p <-> is_file P p.
  Proof. unfold is_file. now rewrite tamed_source, tamed_is_rule. Qed.

  (** Nothing but routines depends on routines. *)
  Lemma first_decl_In l0 p dc : first_decl cwd home glob_ l l0 p = Some dc -> exists s, In s l0 /\ decl_of cwd home glob_ l s p = Some dc.
  Proof.
    induction l0 as [|s l0 IH]; [discriminate|]. cbn [first_decl]. destruct (decl_of cwd home glob_ l s p) as [d|] eqn:E.
    - intros H. injection H as ->. exists s. split; [now left|exact E].
    - intros H. destruct (IH H) as (s' & A & B). exists s'. split; [now right|exact B].
  Qed.
  Lemma mention_no_routine s d : In s l -> In d (mentions s) -> other_of glob_ s = None -> ~ is_routine l (meaning cwd l d).
  Proof.
    intros Hs Hd Ho R. pose proof (routine_name _ R) as N. unfold meaning in *. destruct (is_name l d) eqn:E.
    - destruct R as (ds & R). destruct (io_others _ _ _ _ _ ok s d true ds Hs Hd R) as [_ X]. contradiction.
    - rewrite (canon_no_name cwd home exists_ glob_ l ok d) in N. discriminate.
  Qed.
  Lemma dep_no_routine p q : p_dep P p q -> ~ is_routine l q.
  Proof.
    intros (ds & Hq & H).
    assert (G : exists s, In s l /\ other_of glob_ s = None /\ ds = map (meaning cwd l) (deps_of home glob_ s)).
    { assert (F : forall dc, P p = Some dc -> dc <> DSource -> exists s, In s l /\ decl_of cwd home glob_ l s p = Some dc).
      { intros dc E N. unfold project_of in E. destruct (first_decl cwd home glob_ l l p) as [d|] eqn:Ef.
        - injection E as ->. now apply first_decl_In.
        - destruct (is_name l p); [discriminate|]. destruct (existsb _ _); [|discriminate]. congruence. }
      destruct H as [H|(f & b & H)]; (destruct (F _ H) as (s & Hs & E); [discriminate|]); exists s; (split; [exact Hs|]);
        destruct s as [r|f' t ds' b'|t r ds' b'|nm ds'|u nm ds']; unfold decl_of in E; cbn [rule_of set_of other_of fst snd] in E |- *; try discriminate;
        (split; [reflexivity|]); destruct (String.eqb _ p); try discriminate; injection E; intros; subst; reflexivity. }
    destruct G as (s & Hs & Ho & ->). apply in_map_iff in Hq. destruct Hq as (d & <- & Hd).
    apply (mention_no_routine s d Hs); [|exact Ho]. now apply deps_mentioned.
  Qed.
  Lemma tamed_dep p q : ~ is_routine l p -> p_dep P' p q <-> p_dep P p q.
  Proof. intros H. unfold p_dep. now rewrite (tamed_same p H). Qed.
  Lemma tamed_cone p q : ~ is_routine l p -> p_cone P' p q <-> p_cone P p q /\ ~ is_routine l q.
  Proof.
    intros Hp. split.
    - intros H. apply Operators_Properties.clos_rt_rtn1 in H. induction H as [|y z Hyz _ [IH1 IH2]]; [split; [apply rt_refl|exact Hp]|].
      apply (tamed_dep y z IH2) in Hyz. split; [eapply rt_trans; [exact IH1|now apply rt_step]|now apply (dep_no_routine y)].
    - intros [H _]. apply Operators_Properties.clos_rt_rt1n in H. revert Hp. induction H as [p|p y z Hy _ IH]; intros Hp; [apply rt_refl|].
      eapply rt_trans; [apply rt_step; now apply (tamed_dep p y Hp)|]. apply IH. now apply (dep_no_routine p).
  Qed.
  Lemma tamed_input p q : ~ is_routine l p -> p_input P' p q <-> p_input P p q.
  Proof.
    intros Hp. split; intros H; revert Hp; induction H as [p q Hd Hf|p s ds q Hd Hs _ IH]; intros Hp.
    - apply pi_file; [now apply tamed_dep|now apply tamed_file].
    - apply (tamed_dep p s Hp) in Hd. pose proof (dep_no_routine p s Hd) as N. rewrite (tamed_same s N) in Hs.
      eapply pi_set; eauto.
    - apply pi_file; [now apply tamed_dep|now apply tamed_file].
    - pose proof (dep_no_routine p s Hd) as N. rewrite <- (tamed_same s N) in Hs. eapply pi_set; [apply tamed_dep; eauto|exact Hs|auto].
  Qed.
  Lemma rule_no_routine p : is_file P p -> ~ is_routine l p.
  Proof. intros H R. apply routine_none in R. destruct H as [H|(f & ds & b & H)]; congruence. Qed.
  Lemma tamed_reads : reads_only P -> reads_only P'.
  Proof.
    intros H p f ds b HP s s' E. apply tamed_rule in HP. apply (H p f ds b HP). intros q Hq. apply E. apply tamed_input; [|exact Hq].
    apply rule_no_routine. right. exists f, ds, b. exact HP.
  Qed.
  Lemma tamed_right src p v : right_content P' src p v -> right_content P src p v.
  Proof.
    induction 1 as [p HP|p f ds b s v HP _ IH Hb].
    - apply rc_source. now apply tamed_source.
    - apply tamed_rule in HP. eapply rc_rule; [exact HP| |exact Hb]. intros q Hq. apply IH. apply tamed_input; [|exact Hq].
      apply rule_no_routine. right. exists f, ds, b. exact HP.
  Qed.
  Lemma tamed_faithful fs : faithful P' fs <-> faithful P fs.
  Proof.
    split; intros H p f ds b m v HP E Hin.
    - apply (H p f ds b m v); [now apply tamed_rule|exact E|]. intros q Hq. apply Hin. apply tamed_input; [|exact Hq].
      apply rule_no_routine. right. exists f, ds, b. exact HP.
    - apply tamed_rule in HP. apply (H p f ds b m v HP E). intros q Hq. apply Hin. apply tamed_input; [|exact Hq].
      apply rule_no_routine. right. exists f, ds, b. exact HP.
  Qed.
  Lemma tamed_no_dirs fs : no_dirs P' fs <-> no_dirs P fs.
  Proof. split; intros H p m Hp; apply H; now apply tamed_file. Qed.
  Lemma tamed_needs fs p : ~ is_routine l p -> needs_update P' fs p <-> needs_update P fs p.
  Proof.
    intros Hp.
    assert (O : forall q, ~ is_routine l q -> outdated P' fs q <-> outdated P fs q).
    { intros q Hq. unfold outdated. rewrite tamed_file, tamed_is_rule, (tamed_same q Hq).
      split; (intros [A|[A|(A & x & Hx & B)]]; [now left|now right; left|right; right; split; [exact A|]; exists x; split; [now apply tamed_input|exact B]]). }
    split; intros (q & Hc & Ho).
    - apply (tamed_cone p q Hp) in Hc. destruct Hc as [Hc Hq]. exists q. split; [exact Hc|now apply O].
    - assert (Hq : ~ is_routine l q).
      { apply Operators_Properties.clos_rt_rtn1 in Hc. destruct Hc as [|y z Hyz _]; [exact Hp|now apply (dep_no_routine y)]. }
      exists q. split; [apply tamed_cone; auto|now apply O].
  Qed.

  Lemma tamed_ok : in_order cwd home glob_ exists_ (tamed l).
  Proof.
    assert (Dd : flat_map declares (tamed l) = flat_map declares l) by (apply tamed_flat; exact tame_declares).
    split.
    - exact (io_cwd _ _ _ _ _ ok).
    - intros s p Hs Hp. apply tamed_In in Hs. destruct Hs as (s0 & Hs & <-). rewrite tame_places in Hp. exact (io_star _ _ _ _ _ ok s0 p Hs Hp).
    - rewrite Dd. exact (io_once _ _ _ _ _ ok).
    - intros nm H. rewrite tamed_name in H. exact (io_names _ _ _ _ _ ok nm H).
    - intros s d u ds Hs Hd Ht. exfalso. apply tamed_In in Hs. destruct Hs as (s0 & Hs & <-). rewrite tame_mentions in Hd.
      apply tamed_In in Ht. destruct Ht as (t & Ht & Et). destruct t as [| | | |[|] nm ds']; try discriminate. injection Et as <- <- <-.
      destruct (io_others _ _ _ _ _ ok s0 nm false ds' Hs Hd Ht) as [X _]. discriminate.
    - intros l1 s l2 d E Hd Hl. apply map_eq_app in E. destruct E as (k1 & k2 & El & <- & E2).
      destruct k2 as [|s0 k2]; [discriminate|]. cbn [map] in E2. injection E2 as <- <-.
      rewrite tame_mentions in Hd. rewrite tamed_meaning in *. rewrite Dd in Hl.
      change (map tame k1) with (tamed k1). rewrite (tamed_flat declares) by exact tame_declares.
      eapply (io_before _ _ _ _ _ ok); eauto.
    - intros s d Hs Hd. apply tamed_In in Hs. destruct Hs as (s0 & Hs & <-). rewrite tame_deps in Hd. rewrite Dd, tamed_meaning.
      rewrite (tamed_flat (sources_of home)) by exact tame_sources.
      rewrite (map_ext (meaning cwd (tamed l)) (meaning cwd l)) by apply tamed_meaning.
      exact (io_there _ _ _ _ _ ok s0 d Hs Hd).
    - intros s p a Hs Hp Ha Hf. apply tamed_In in Hs. destruct Hs as (s0 & Hs & <-). rewrite tame_places in Hp.
      apply (io_files _ _ _ _ _ ok s0 p a Hs Hp Ha). now apply tamed_file.
  Qed.
End Tame.

(** ** The registry with routines as file sets *)
Definition tkind (r : mreg) (i : nat) : mkind :=
  match kind_of r i with
  | MOther => match t_class (obj (fst r) i) with Updatable => MSet | Plain => MOther end
  | k => k
  end.
Definition treg (r : mreg) : mreg := (fst r, map (tkind r) (seq 0 (List.length (snd r)))).
Lemma treg_kind r i : i < List.length (snd r) -> kind_of (treg r) i = tkind r i.
Proof.
  intros H. unfold kind_of at 1, treg. cbn [snd].
  rewrite (nth_indep _ MOther (tkind r 0)) by now rewrite map_length, seq_length.
  rewrite map_nth, seq_nth by exact H. reflexivity.
Qed.

Section Registry.
  Variables (cwd home : string) (ex exists_ : string -> bool) (glob_ : string -> list string) (l : list stmt).
  Hypothesis ok : in_order cwd home glob_ exists_ l.
  Notation inv := (inv cwd home ex exists_ glob_).
  Notation canon := (realpath cwd).
  Lemma tamed_D a : D cwd home ex l a -> D cwd home ex (tamed l) a.
  Proof.
    intros (A & s & p & Hs & Hp & B). split; [exact A|]. exists (tame s), p. split; [now apply In_tamed|]. split; [now rewrite tame_places|exact B].
  Qed.
  Lemma tamed_dirs K o ds : dirs cwd home ex l K o ds -> dirs cwd home ex (tamed l) K o ds.
  Proof.
    intros (a & b & dd & A & B & C). exists a, b, dd. split; [exact A|]. split; [exact B|]. intros d Hd. destruct (C d Hd) as (C1 & C2 & C3 & C4).
    split; [exact C1|]. split; [now apply tamed_D|]. split; [now rewrite tamed_name|exact C4].
  Qed.
  Lemma treg_inv r : inv l l r -> inv (tamed l) (tamed l) (treg r).
  Proof.
    intros ((L & N & V) & Hk & Hs & Hd). split; [split; [|split]|split; [|split]].
    - cbn [treg fst snd]. rewrite map_length, seq_length. exact L.
    - exact N.
    - intros nm i Hi. destruct (V nm i Hi) as (A & B & Cl & C). split; [exact A|]. split; [exact B|].
      rewrite treg_kind by (rewrite L; exact A). unfold tkind. change (fst (treg r)) with (fst r). change (keys (treg r)) with (keys r).
      destruct (kind_of r i) as [f b| | | |].
      + split; [exact Cl|]. destruct C as (C1 & C2 & s & ds & C3 & C4 & C5). split; [exact C1|]. split; [now rewrite tamed_name|].
        exists (tame s), ds. split; [now apply In_tamed|]. split; [now rewrite tame_rule|now apply tamed_dirs].
      + split; [exact Cl|]. destruct C as (C1 & C2 & C3 & C4). split; [exact C1|]. split; [now rewrite tamed_name|].
        split; [now apply (tamed_source cwd home glob_ exists_ l ok)|now apply tamed_dirs].
      + split; [exact Cl|]. destruct C as (C1 & C2 & C3 & C4 & C5 & C6). split; [exact C1|]. split; [now rewrite tamed_name|].
        split; [now apply tamed_D|]. split; [now apply tamed_dirs|]. auto.
      + split; [exact Cl|]. destruct C as (C1 & s & ds & C2 & C3 & C4). split; [exact C1|]. exists s, ds.
        split; [|auto]. destruct s; try discriminate. exact (In_tamed l _ C2).
      + destruct C as (C1 & s & u & ds & C2 & C3 & C4 & C5). rewrite C5. destruct s as [| | | |u' nm' ds']; try discriminate. injection C3 as -> -> <-.
        destruct u; cbv iota.
        * split; [intros _; exact C5|]. split; [exact C1|]. exists (SSet nm ds'), (expand_names glob_ ds'). split; [exact (In_tamed l _ C2)|auto].
        * split; [intros F; now elim F|]. split; [exact C1|]. exists (STarget false nm ds'), false, (expand_names glob_ ds').
          split; [exact (In_tamed l _ C2)|auto].
    - intros x Hx. rewrite (tamed_flat (declares cwd home glob_)) in Hx by exact (tame_declares cwd home glob_). exact (Hk x Hx).
    - intros s d Hs' Hd'. apply tamed_In in Hs'. destruct Hs' as (s0 & Hs0 & <-). rewrite tame_sources in Hd'. exact (Hs s0 d Hs0 Hd').
    - intros s d Hs' Hd'. apply tamed_In in Hs'. destruct Hs' as (s0 & Hs0 & <-). rewrite tame_deps in Hd'. exact (Hd s0 d Hs0 Hd').
  Qed.
End Registry.

(** ** Builds *)
Lemma task_path_In {W} (run run' : nat -> W -> tres -> W -> Prop) cl w w' :
  (forall k r w w', In (k, r) cl -> run k w r w' -> run' k w r w') -> task_path run cl w w' -> task_path run' cl w w'.
Proof.
  intros H P. induction P as [w|cl t r w w1 w2 _ IH Hr]; [constructor|].
  econstructor; [apply IH; intros k r' x y Hk; apply H; apply in_app_iff; now left|].
  apply H; [apply in_app_iff; right; now left|exact Hr].
Qed.

Section Routine.
  Variables (cwd home : string) (fs : fsys) (exists_ : string -> bool) (glob_ : string -> list string) (l : list stmt).
  Hypothesis disk : disk_ok cwd (present fs) exists_.
  Hypothesis ok : in_order cwd home glob_ exists_ l.
  Notation canon := (realpath cwd).
  Notation P := (project_of cwd home glob_ l).
  Notation P' := (project_of cwd home glob_ (tamed l)).
  Notation declares := (declares cwd home glob_).
  Notation makes := (makes cwd home glob_).
  Notation wanted := (wanted cwd home glob_ l).
  Notation inv := (inv cwd home (present fs) exists_ glob_).

  Lemma wanted_declared x : wanted x -> In x (flat_map declares l).
  Proof.
    intros [H|(ds & H)].
    - apply in_flat_map in H. destruct H as (s & Hs & H). apply in_flat_map. exists s. split; [exact Hs|now apply makes_declares].
    - apply in_flat_map. exists (STarget true x ds). split; [exact H|]. now left.
  Qed.
  (** What is asked for can be updated. *)
  Lemma wanted_class r x i : inv l l r -> wanted x -> core_get canon (fst r) x = Ok i -> In (x, i) (c_targets (fst r)) ->
    t_class (obj (fst r) i) = Updatable.
  Proof.
    intros I Hx Hg Hi. destruct (proj2 (proj2 (proj1 I)) x i Hi) as (_ & _ & Cl & C). destruct (kind_of r i) eqn:Ek; try (apply Cl; discriminate).
    destruct C as (C1 & s & u & ds & C2 & C3 & C4 & C5). destruct s as [| | | |u' nm' ds']; try discriminate. injection C3 as -> -> <-.
    destruct Hx as [Hx|(ds & Hx)].
    - exfalso. apply in_flat_map in Hx. destruct Hx as (s & Hs & Hm).
      assert (s = STarget u x ds').
      { eapply (once_same cwd home (present fs) exists_ glob_ l ok r I s _ x Hs C2); [now apply makes_declares|]. now left. }
      subst s. destruct Hm.
    - assert (E : STarget true x ds = STarget u x ds').
      { eapply (once_same cwd home (present fs) exists_ glob_ l ok r I _ _ x Hx C2); now left. }
      injection E as <- _. exact C5.
  Qed.

  Section Registered.
    Variable r : mreg.
    Hypothesis I : inv l l r.
    Notation c := (fst r).
    Notation kind := (kind_of r).
    Notation kind' := (kind_of (treg r)).
    Lemma named_len nm j : In (nm, j) (c_targets c) -> j < List.length (snd r).
    Proof. intros H. destruct I as ((L & _ & V) & _). rewrite L. now apply (V nm). Qed.
    Lemma kind_same nm j : In (nm, j) (c_targets c) -> kind j <> MOther -> kind' j = kind j.
    Proof. intros H Hk. rewrite treg_kind by (eapply named_len; eauto). unfold tkind. destruct (kind j); congruence. Qed.
    Lemma kind_dir nm j : In (nm, j) (c_targets c) -> kind' j = MDir <-> kind j = MDir.
    Proof.
      intros H. rewrite treg_kind by (eapply named_len; eauto). unfold tkind. destruct (kind j); try (split; congruence).
      destruct (t_class (obj c j)); split; discriminate.
    Qed.
    Lemma routine_kind nm j : In (nm, j) (c_targets c) -> t_class (obj c j) = Updatable -> kind j = MOther <-> is_routine l (nm_of r j).
    Proof.
      intros H Hc. destruct (whole_desc cwd home (present fs) exists_ glob_ l r I nm j H) as (_ & Hn & Cl & C). split.
      - intros E. rewrite E in C. destruct C as (C1 & s & u & ds & C2 & C3 & C4 & C5). destruct s as [| | | |u' nm' ds']; try discriminate.
        injection C3 as -> -> <-. rewrite Hc in C5. destruct u; [|discriminate]. unfold nm_of. rewrite C1. now exists ds'.
      - intros R. pose proof (routine_name l _ R) as N. unfold nm_of in *.
        destruct (kind j) as [f b| | | |] eqn:Ek.
        + destruct C as (C1 & _). rewrite C1, (canon_no_name cwd home exists_ glob_ l ok) in N. discriminate.
        + destruct C as (C1 & _). rewrite C1, (canon_no_name cwd home exists_ glob_ l ok) in N. discriminate.
        + destruct C as (C1 & _). rewrite C1, (canon_no_name cwd home exists_ glob_ l ok) in N. discriminate.
        + destruct C as (C1 & s & ds & C2 & C3 & C4). destruct R as (ds' & R). rewrite C1 in R. destruct s as [| | |nm' ds0|]; try discriminate. injection C3 as -> <-.
          pose proof (once_same cwd home (present fs) exists_ glob_ l ok r I _ _ nm C2 R) as E. discriminate E; now left.
        + reflexivity.
    Qed.

    Variables (c1 c1' : core).
    Hypothesis S : same_static c c1.
    Hypothesis S' : same_static c c1'.
    Lemma input_back j k : input canon kind' c1' j k -> (exists nm, In (nm, j) (c_targets c)) -> kind j <> MOther -> input canon kind c1 j k.
    Proof.
      assert (G : forall d j, In d (t_deps (obj c1' j)) -> In d (t_deps (obj c1 j))).
      { intros d j0 H. destruct S as (_ & _ & _ & A). destruct S' as (_ & _ & _ & B). destruct (A j0) as (_ & <- & _), (B j0) as (_ & -> & _). exact H. }
      assert (Gc : forall d j, In d (t_deps (obj c1' j)) -> In d (t_deps (obj c j))).
      { intros d j0 H. destruct S' as (_ & _ & _ & B). destruct (B j0) as (_ & -> & _). exact H. }
      assert (R : forall d k, core_get canon c1' d = Ok k -> core_get canon c d = Ok k /\ core_get canon c1 d = Ok k).
      { intros d k0 H. split; rewrite <- H.
        - apply static_get. exact S'.
        - rewrite <- (static_get canon c c1 d S). now apply static_get. }
      assert (W : wf_core c) by (eapply whole_wf; eauto).
      assert (Nm : forall d k, core_get canon c d = Ok k -> exists nm, In (nm, k) (c_targets c)).
      { intros d k0 H. apply (get_resolves canon c d k0 W) in H. now apply (resolves_value canon c d k0). }
      intros H. induction H as [j d k Hd Hg Hk|j d s k Hd Hg Hk _ IH]; intros [nm Hn] Hj; destruct (R _ _ Hg) as [R1 R2]; destruct (Nm _ _ R1) as [nm' Hn'].
      - apply (input_file canon kind c1 j d k); [now apply G|exact R2|].
        destruct (kind k) eqn:Ek; [right; eauto|now left|..]; exfalso; rewrite treg_kind in Hk by (eapply named_len; eauto); unfold tkind in Hk; rewrite Ek in Hk;
          try (destruct (t_class (obj c k))); destruct Hk as [Hk|(f & b & Hk)]; discriminate.
      - assert (Hs : kind s <> MOther).
        { destruct (dep_of cwd home (present fs) exists_ glob_ l ok r I nm j s Hn) as [_ X]; [|now apply X].
          exists d. split; [now apply Gc|now apply get_resolves]. }
        apply (input_set canon kind c1 j d s k); [now apply G|exact R2|rewrite <- (kind_same nm' s Hn' Hs); exact Hk|]. apply IH; [eauto|exact Hs].
    Qed.
    Lemma task_back partial j w x w' : (exists nm, In (nm, j) (c_targets c)) -> kind j <> MOther -> t_need (obj c1 j) = t_need (obj c1' j) ->
      obj_task canon kind partial c1 j w x w' -> obj_task canon kind' partial c1' j w x w'.
    Proof.
      intros Hn Hj En T. assert (Ek : kind' j = kind j) by (destruct Hn as [nm Hn]; now apply (kind_same nm)).
      assert (Enm : t_name (obj c1 j) = t_name (obj c1' j)) by (rewrite <- (static_name c c1 j S); now apply static_name).
      assert (Ecl : t_class (obj c1' j) = t_class (obj c1 j)).
      { destruct S as (_ & _ & _ & A). destruct S' as (_ & _ & _ & B). destruct (A j) as (_ & _ & <-), (B j) as (_ & _ & <-). reflexivity. }
      assert (In' : forall k, input canon kind' c1' j k -> input canon kind c1 j k /\ t_name (obj c1' k) = t_name (obj c1 k)).
      { intros k Hk. split; [now apply input_back|]. rewrite <- (static_name c c1 k S). symmetry. now apply static_name. }
      assert (U : mk_update canon kind partial c1 j w x w' -> mk_update canon kind' partial c1' j w x w').
      { clear T. intros H. destruct H as [force b v m Hk Hb Hm Hi p fs'|force b fs' now' x ca' Hk Hb p Hf Hr|Hk p|Hk|x w' Hk].
        - unfold p, fs', p. rewrite Enm. apply (up_rule canon kind' partial c1' j w force b v m); [now rewrite Ek|exact Hb|exact Hm|].
          intros k mk nk Hk' E. destruct (In' k Hk') as [K1 K2]. rewrite K2 in E. exact (Hi k mk nk K1 E).
        - unfold p in *. rewrite Enm in *. apply (up_rule_fails canon kind' partial c1' j w force b fs' now' x ca'); [now rewrite Ek|exact Hb|exact Hf|exact Hr].
        - unfold p. rewrite Enm. apply up_source. now rewrite Ek.
        - apply up_set. now rewrite Ek.
        - contradiction. }
      unfold obj_task in *. rewrite Ek, Ecl, <- En. destruct (kind j) eqn:Ekj; try (destruct (t_class (obj c1 j)); [exact T|]; destruct (t_need (obj c1 j)) as [[|]|]; auto; fail).
      destruct T as [y ca' Hg He|y ca' m p Hg He Hf Ha Hm fs'|y ca' p Hg He Hf].
      - rewrite Enm in Hg. exact (dir_exists c1' j w y ca' Hg He).
      - unfold fs', p in *. rewrite Enm in *. exact (dir_created c1' j w y ca' m Hg He Hf Ha Hm).
      - unfold p in *. rewrite Enm in *. exact (dir_raises c1' j w y ca' Hg He Hf).
    Qed.
  End Registered.

  (** A build in which no routine has ended is one of the tamed script. *)
  Lemma routine_run partial x th now kind c1 objs sv s : wanted x ->
    building cwd home exists_ glob_ partial l x th fs now kind c1 objs sv s -> none_over l c1 objs s ->
    exists r i c1' w0 calls, inv l l r /\ kind = kind_of r /\ same_static (fst r) c1 /\ same_static (fst r) c1' /\
      (exists nm, In (nm, i) (c_targets (fst r))) /\ nm_of r i = x /\ kind_of (treg r) i <> MDir /\ kind_of (treg r) i <> MOther /\
      run_of canon (kind_of (treg r)) partial P' c1' i fs now calls w0 (s_world s) /\
      (succeeded objs s -> forall j, in_cone canon (fst r) i j -> In (j, RNotFalse) calls) /\
      (forall k, In (EStart k) (s_log s) -> in_cone canon (fst r) i (nth k objs (List.length (c_heap c1))) /\
         forall d, obj_dep canon (fst r) (nth k objs (List.length (c_heap c1))) d -> In (d, RNotFalse) calls) /\
      calls = map (fun x => (nth (fst x) objs (List.length (c_heap c1)), snd x)) (ended (s_log s)).
  Proof.
    intros Hx (fuel & st & i & other_if & fuel' & ca1 & order & so & Hr & -> & Hg & He & Ho & Hso & Hru & Hex) Hno.
    destruct (declared_get cwd home fs exists_ glob_ l disk ok fuel st Hr x (wanted_declared x Hx)) as (i' & Hg' & Hn & Hk & [nm Hi] & _).
    rewrite Hg in Hg'. injection Hg' as <-.
    pose proof (threads_inv cwd home fs exists_ glob_ l _ th (script_inv cwd home fs exists_ glob_ l disk ok fuel st Hr)) as I.
    destruct (evaluated cwd home fs exists_ glob_ l disk ok fuel st Hr th other_if fuel' c1 ca1 He) as (_ & _ & _ & Hth).
    destruct (script_process cwd home exists_ glob_ l fuel st Hr th) as (cops & Ec & Pc).
    set (r := (set_threads (fst (reg st 0)) th, snd (reg st 0))) in *. set (kd := kind_of (reg st 0)) in *.
    change (set_threads (fst (reg st 0)) th) with (fst r) in Ec, Pc, He.
    assert (Ix : In (x, i) (c_targets (fst r))).
    { assert (R : resolves canon (fst r) x i) by (apply get_resolves; [eapply whole_wf; eauto|exact Hg]).
      pose proof (whole_coherent cwd home (present fs) exists_ glob_ l r I nm i Hi) as Hc.
      destruct (whole_desc cwd home (present fs) exists_ glob_ l r I nm i Hi) as (_ & Q & _). unfold nm_of in Q.
      change (t_name (obj (fst r) i) = x) in Hn. now rewrite Hn in Q. }
    assert (Hcl : t_class (obj (fst r) i) = Updatable) by (eapply wanted_class; eauto).
    assert (Ri : exists nm, In (nm, i) (c_targets (fst r))) by eauto.
    assert (Bo : build_of canon kd other_if partial (fst r) i fs now [] c1 objs s).
    { split; [exact Pc|]. split; [exact (whole_coherent cwd home (present fs) exists_ glob_ l r I)|]. split; [exact Ri|].
      split; [intros j y _ _ H; discriminate H|]. exists fuel', ca1, order, so, None, th, sv. auto 10. }
    destruct (build_facts_log canon kd other_if partial (fst r) i fs now [] c1 objs s Bo)
      as (Hrd & Hr1 & S & Hco & _ & Hnd & ca2 & calls & V & Pa & Nd & Hc & Hd & Hs & Hst & El & _).
    (* the registry with the routines as file sets *)
    pose proof (treg_inv cwd home (present fs) exists_ glob_ l ok r I) as I'.
    pose proof (tamed_ok cwd home glob_ exists_ l ok) as ok'.
    set (kd' := kind_of (treg r)) in *. set (no_if := fun _ : nat => @Ok bool false).
    pose proof (whole_healthy cwd home (present fs) exists_ glob_ disk (tamed l) ok' (treg r) I' no_if (view fs []) (fun _ => ex_intro _ false eq_refl)) as Hh.
    change (fst (treg r)) with (fst r) in Hh. fold kd' in Hh.
    destruct (session_evaluates canon cops (Some th) (fst r)) with (update_if := puif canon kd' no_if (view fs []) (fst r)) (fuel := Datatypes.S (List.length (c_heap (fst r))))
      as [c' Ec']; [rewrite Ec; constructor|exact Hh|lia|].
    pose proof (mevaluate_sim canon kd' no_if fs (Datatypes.S (List.length (c_heap (fst r)))) (fst r) [] (proj1 (proj2 Hrd))) as M.
    rewrite Ec' in M. destruct M as (c1' & ca1' & M & _).
    destruct (mevaluate_right canon kd' no_if fs _ (fst r) [] c1' ca1' Hrd M) as (Hrd' & S' & _ & N').
    change (view fs []) with (stat fs) in N'.
    assert (Nm : forall j, in_cone canon (fst r) i j -> exists nm, In (nm, j) (c_targets (fst r))).
    { intros j Hj. exact (cone_registered_name canon (fst r) i j Ri Hj). }
    assert (Hki : kd' i <> MOther).
    { unfold kd'. rewrite treg_kind by (eapply named_len; eauto). unfold tkind. rewrite Hcl. destruct (kind_of r i); discriminate. }
    assert (Him : implements canon kd' P' (fst r) i).
    { exact (whole_implements cwd home (present fs) exists_ glob_ disk (tamed l) ok' (treg r) I' i Ri Hki). }
    assert (Tot : forall k, in_cone canon (fst r) i k -> exists u, puif canon kd' no_if (stat fs) (fst r) k = Ok u).
    { intros k Hk'. destruct (Nm k Hk') as [nm' Hn']. apply (N' nm' k Hn'). exact (proj1 (Him k Hk')). }
    assert (Need' : forall j, in_cone canon (fst r) i j -> exists b, t_need (obj c1' j) = Some b /\
       (b = true <-> (kd' j <> MDir /\ needs_update P' fs (nm_of r j)) \/ dir_missing canon kd' (fst r) fs j)).
    { intros j Hj. destruct (Nm j Hj) as [nm' Hn']. destruct (N' nm' j Hn' (proj1 (Him j Hj))) as (_ & b & Eb & E). exists b. split; [exact Eb|].
      rewrite E. exact (below_outdated canon kd' no_if P' (fst r) i (proj1 Hrd) Him fs j Hj Tot). }
    assert (Same : forall j, in_cone canon (fst r) i j -> kd j <> MOther -> t_need (obj c1 j) = t_need (obj c1' j)).
    { intros j Hj Hkj. destruct (Nm j Hj) as [nm' Hn']. pose proof (proj1 (Him j Hj)) as Hcj.
      destruct (Hnd j Hj Hcj) as (_ & b & Eb & E). destruct (Need' j Hj) as (b' & Eb' & E'). rewrite Eb, Eb'. f_equal.
      assert (Sub : forall k, in_cone canon (fst r) j k -> in_cone canon (fst r) i k) by (intros k Hk'; eapply rt_trans; eauto).
      assert (Himj : implements canon kd P (fst r) j).
      { exact (whole_implements cwd home (present fs) exists_ glob_ disk l ok r I j (ex_intro _ nm' Hn') Hkj). }
      rewrite (below_outdated canon kd other_if P (fst r) j (proj1 Hrd) Himj fs j (rt_refl _ _ _)) in E
        by (intros k Hk'; apply (Hnd k (Sub k Hk')); exact (proj1 (Himj k Hk'))).
      assert (NR : ~ is_routine l (nm_of r j)) by (intros R; apply Hkj; now apply (routine_kind r I nm' j Hn' Hcj)).
      rewrite (tamed_needs cwd home glob_ exists_ l ok fs _ NR) in E'.
      assert (DM : dir_missing canon kd' (fst r) fs j <-> dir_missing canon kd (fst r) fs j).
      { split; intros (k & K1 & K2 & K3); exists k; (split; [exact K1|split; [|exact K3]]); destruct (Nm k (Sub k K1)) as [nk Hnk]; now apply (kind_dir r I nk k Hnk). }
      assert (DD : kd' j <> MDir <-> kd j <> MDir) by (split; intros H E0; apply H; now apply (kind_dir r I nm' j Hn')).
      rewrite DM, DD in E'. unfold nm_of in E'. rewrite <- E' in E. destruct b, b'; try reflexivity; [symmetry; now apply E|now apply E]. }
    assert (Fw : forall j, in_cone canon c1' i j -> in_cone canon (fst r) i j) by (intros j; apply static_cone; now apply static_sym).
    assert (Bk : forall j, in_cone canon (fst r) i j -> in_cone canon c1' i j) by (intros j; now apply static_cone).
    exists r, i, c1', (WD fs ca2 now now []), calls.
    split; [exact I|]. split; [reflexivity|]. split; [exact S|]. split; [exact S'|]. split; [exact Ri|]. split; [exact Hn|].
    split; [intros E; apply Hk; now apply (kind_dir r I nm i Hi)|]. split; [exact Hki|].
    split; [|split; [exact Hs|split; [exact Hst|exact El]]].
    constructor.
    - exact (proj1 Hrd').
    - eapply coherent_static; [exact S'|exact Hco].
    - exists nm. destruct S' as (<- & _). exact Hi.
    - eapply static_implements; [exact S'|exact Him].
    - intros j Hj. destruct (Need' j (Fw j Hj)) as (b & Eb & E). exists b. split; [exact Eb|]. rewrite E. unfold nm_of. rewrite (static_name (fst r) c1' j S').
      assert (DM : dir_missing canon kd' (fst r) fs j <-> dir_missing canon kd' c1' fs j).
      { split; intros (k & K1 & K2 & K3); exists k.
        - split; [now apply (static_cone canon (fst r) c1')|]. split; [exact K2|]. now rewrite <- (static_name (fst r) c1' k S').
        - split; [apply (static_cone canon c1' (fst r)); [now apply static_sym|exact K1]|]. split; [exact K2|]. now rewrite (static_name (fst r) c1' k S'). }
      now rewrite DM.
    - cbn. auto.
    - cbn [w_cache]. intros j Hj Hkj. rewrite <- (static_name (fst r) c1' j S'). apply V; [exact (Fw j Hj)|].
      destruct (Nm j (Fw j Hj)) as [nm' Hn']. unfold kd' in Hkj. rewrite treg_kind in Hkj by (eapply named_len; eauto). unfold tkind in Hkj.
      change (kd j) with (kind_of r j). destruct (kind_of r j); try exact Logic.I; try exact Hkj. now destruct (t_class (obj (fst r) j)).
    - eapply task_path_In; [|exact Pa]. intros j x0 w w' Hin T. pose proof (Hc j x0 Hin) as Hj. destruct (Nm j Hj) as [nm' Hn'].
      assert (Hkj : kd j <> MOther).
      { intros E. rewrite El in Hin. apply in_map_iff in Hin. destruct Hin as ([k y] & Ek & Hin). cbn [fst snd] in Ek. injection Ek as <- <-.
        set (j := nth k objs (List.length (c_heap c1))) in *.
        apply (Hno (nm_of r j) y).
        - now apply (routine_kind r I nm' j Hn' (proj1 (Him j Hj))).
        - exists k. split; [exact Hin|]. unfold name_at. fold j. unfold nm_of. symmetry. exact (static_name (fst r) c1 j S). }
      apply (task_back r I c1 c1' S S' partial j w x0 w' (ex_intro _ nm' Hn') Hkj (Same j Hj Hkj) T).
    - exact Nd.
    - intros j x0 Hin. apply Bk. eapply Hc; eauto.
    - intros l1 j x0 l2 E d Hjd. apply (Hd l1 j x0 l2 E). apply (static_obj_dep canon c1' (fst r)); [now apply static_sym|exact Hjd].
  Qed.
End Routine.
