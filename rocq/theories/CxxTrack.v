(** Lemmas: the scripts of C++ modules track the headers that the compiler reads. *)
From Coq Require Import Permutation Relations.
From Verif Require Import PyBase PyPath PathProofs SolverModel SpecGraph InvokerModel SpecTrace CoreModel SpecCore MakeModel UtilModel SpecMake
  MakeFacts RegModel CliModel SpecUtil UtilProofs SpecReg SpecProject ProjectProofs ProjectBuild SpecTrack TrackProofs SpecCxxTrack.
Local Open Scope string_scope.
Local Open Scope list_scope.

(** ** Names in lists *)
Lemma findall_chars s : forall cur h, forallb name_char (list_ascii_of_string cur) = true ->
  In h (findall s cur) -> forallb name_char (list_ascii_of_string h) = true.
Proof.
  induction s as [|a s IH]; intros cur h Hc; cbn [findall].
  - destruct cur; intros H; [destruct H|destruct H as [<-|[]]; exact Hc].
  - destruct (name_char a) eqn:Ea.
    + apply IH. rewrite UtilProofs.list_ascii_app, forallb_app, Hc. cbn. now rewrite Ea.
    + destruct cur as [|c cur]; [apply IH; reflexivity|]. intros [<-|H]; [exact Hc|]. now apply (IH "" h).
Qed.
Lemma listed_no_star text h : In h (listed text) -> has_star h = false.
Proof.
  unfold listed, cxx_read_depends. destruct text as [t|]; [|intros []]. destruct (String.eqb t ""); [intros []|].
  intros H. assert (Hin : In h (findall t "")) by (revert H; generalize (findall t ""); intros l; destruct l as [|x [|y l]]; cbn; tauto).
  apply findall_chars in Hin; [|reflexivity]. unfold has_star. induction (list_ascii_of_string h) as [|a k IH]; [reflexivity|].
  cbn [existsb forallb] in *. apply andb_prop in Hin. destruct Hin as [Ha Hk]. rewrite (IH Hk), orb_false_r.
  destruct (Ascii.eqb_spec "*" a) as [<-|]; [discriminate Ha|reflexivity].
Qed.
Lemma listed_some v : v <> "" -> unlisted (Some v) = false.
Proof. intros H. unfold unlisted, cxx_read_depends. apply String.eqb_neq in H. now rewrite H. Qed.

Lemma nodup_flat {A B} (f : A -> list B) l a b x : NoDup (flat_map f l) -> In a l -> In b l -> In x (f a) -> In x (f b) -> a = b.
Proof.
  induction l as [|a0 l IH]; intros N Ha Hb Hx Hy; [destruct Ha|]. cbn [flat_map] in N.
  assert (N' : NoDup (flat_map f l)) by (clear - N; induction (f a0); [exact N|cbn in N; inversion N; auto]).
  destruct Ha as [<-|Ha], Hb as [<-|Hb]; [reflexivity| | |now apply IH].
  - exfalso. apply (nodup_disj _ _ x N Hx). apply in_flat_map. eauto.
  - exfalso. apply (nodup_disj _ _ x N Hy). apply in_flat_map. eauto.
Qed.

Section Cxx.
  Variables (cwd home : string) (glob_ : string -> list string) (its : list item).
  Hypothesis ho : honest cwd home glob_ its.
  Notation path := (realpath cwd).
  Notation script := (script_at cwd its).
  Notation proj := (project_at cwd home glob_ its).
  Notation rules := (rules_in cwd home glob_ its).
  Notation rule_of := (rule_of cwd home glob_).
  Notation set_of := (set_of glob_).
  Notation declares := (declares cwd home glob_).
  Notation makes := (makes cwd home glob_).
  Notation mentions := (mentions home glob_).
  Notation name := (is_name (script nothing)).
  Notation mean := (meaning cwd (script nothing)).

  (** ** The script at different contents *)
  Lemma script_In s st : In st (script s) <-> exists it, In it its /\ In st (item_stmts cwd s it).
  Proof. unfold script_at. apply in_flat_map. Qed.
  Lemma flat_map_flat {A B C} (f : A -> list B) (g : B -> list C) l : flat_map g (flat_map f l) = flat_map (fun a => flat_map g (f a)) l.
  Proof. induction l as [|a l IH]; [reflexivity|]. cbn. now rewrite flat_map_app, IH. Qed.
  Lemma sources_nothing {C} (g : stmt -> list C) l : (forall p, g (SSource p) = []) -> flat_map g (map SSource l) = [].
  Proof. intros H. induction l as [|a l IH]; [reflexivity|]. cbn. now rewrite H, IH. Qed.
  Lemma flat_stmts {C} (g : stmt -> list C) s : (forall p, g (SSource p) = []) ->
    (forall f t ds b, g (SRule f t ds b) = g (SRule false t [] b)) -> flat_map g (script s) = flat_map g (script nothing).
  Proof.
    intros H1 H2. unfold script_at. rewrite !flat_map_flat. apply flat_map_ext. intros [st|u]; [reflexivity|].
    cbn [item_stmts]. rewrite !flat_map_app, !sources_nothing by exact H1. cbn [flat_map].
    f_equal. f_equal. f_equal; [|f_equal]; (etransitivity; [apply H2|symmetry; apply H2]).
  Qed.
  Lemma declares_same s : flat_map declares (script s) = flat_map declares (script nothing).
  Proof. apply flat_stmts; reflexivity. Qed.
  Lemma makes_same s : flat_map makes (script s) = flat_map makes (script nothing).
  Proof. apply flat_stmts; reflexivity. Qed.
  Lemma name_same s nm : is_name (script s) nm = name nm.
  Proof.
    unfold is_name. set (f := fun st => match st with SSet n _ | STarget _ n _ => String.eqb n nm | _ => false end).
    assert (E : forall l, existsb f l = existsb (fun b => b) (flat_map (fun st => match st with SSet _ _ | STarget _ _ _ => [f st] | _ => [] end) l)).
    { induction l as [|st l IH]; [reflexivity|]. cbn [existsb flat_map]. rewrite existsb_app, IH. destruct st; cbn; rewrite ?orb_false_r; reflexivity. }
    rewrite !E. f_equal. apply flat_stmts; reflexivity.
  Qed.
  Lemma mean_same s d : meaning cwd (script s) d = mean d.
  Proof. unfold meaning. now rewrite name_same. Qed.
  Lemma map_mean s ds : map (meaning cwd (script s)) ds = map mean ds.
  Proof. apply map_ext, mean_same. Qed.
  Lemma once s : NoDup (flat_map declares (script s)).
  Proof. rewrite declares_same. apply (ho_once _ _ _ _ ho). Qed.
  Lemma path_no_name p : name (path p) = false.
  Proof. destruct (name (path p)) eqn:E; [|reflexivity]. apply (ho_names _ _ _ _ ho) in E. now rewrite realpath_starts in E. Qed.

  (** ** The project at different contents *)
  Lemma proj_rule s st p ds f b : In st (script s) -> rule_of st = Some (p, ds, (f, b)) -> proj s p = Some (DRule f (map mean ds) b).
  Proof.
    intros Hs Hr. unfold project_at, project_of.
    rewrite (first_once cwd home glob_ (script s) (script s) st p (DRule f (map mean ds) b)); [reflexivity|exact Hs|apply once| |].
    - now apply (declares_rule cwd home glob_ st p ds (f, b)).
    - unfold decl_of. now rewrite Hr, String.eqb_refl, map_mean.
  Qed.
  Lemma proj_set s st nm ds : In st (script s) -> set_of st = Some (nm, ds) -> proj s nm = Some (DSet (map mean ds)).
  Proof.
    intros Hs Hr. unfold project_at, project_of.
    rewrite (first_once cwd home glob_ (script s) (script s) st nm (DSet (map mean ds))); [reflexivity|exact Hs|apply once| |].
    - now apply (declares_set cwd home glob_ st nm ds).
    - unfold decl_of. now rewrite (set_no_rule cwd home glob_ st _ Hr), Hr, String.eqb_refl, map_mean.
  Qed.
  Lemma first_decl_In l l0 p d : first_decl cwd home glob_ l l0 p = Some d -> exists st, In st l0 /\ decl_of cwd home glob_ l st p = Some d.
  Proof.
    induction l0 as [|st l0 IH]; cbn [first_decl]; [discriminate|]. destruct (decl_of cwd home glob_ l st p) as [d'|] eqn:E.
    - intros [= ->]. exists st. split; [now left|exact E].
    - intros H. destruct (IH H) as (st' & A & B). exists st'. split; [now right|exact B].
  Qed.
  Lemma decl_inv s st p d : decl_of cwd home glob_ (script s) st p = Some d ->
    (exists ds f b, rule_of st = Some (p, ds, (f, b)) /\ d = DRule f (map mean ds) b) \/
    (exists ds, set_of st = Some (p, ds) /\ d = DSet (map mean ds)).
  Proof.
    unfold decl_of. destruct (rule_of st) as [[[q ds] [f b]]|] eqn:Er.
    - destruct (String.eqb_spec q p) as [->|]; [|discriminate]. intros [= <-]. left. exists ds, f, b. now rewrite map_mean.
    - destruct (set_of st) as [[q ds]|] eqn:Es; [|discriminate]. destruct (String.eqb_spec q p) as [->|]; [|discriminate].
      intros [= <-]. right. exists ds. now rewrite map_mean.
  Qed.
  Lemma proj_inv s p d : proj s p = Some d ->
    (exists st ds f b, In st (script s) /\ rule_of st = Some (p, ds, (f, b)) /\ d = DRule f (map mean ds) b) \/
    (exists st ds, In st (script s) /\ set_of st = Some (p, ds) /\ d = DSet (map mean ds)) \/
    (d = DSource /\ ~ In p (flat_map makes (script nothing)) /\ name p = false /\
     exists e, In e (flat_map mentions (script s)) /\ mean e = p).
  Proof.
    unfold project_at, project_of. destruct (first_decl cwd home glob_ (script s) (script s) p) as [d'|] eqn:E.
    - intros [= ->]. destruct (first_decl_In _ _ _ _ E) as (st & Hs & Hd).
      destruct (decl_inv s st p d Hd) as [(ds & f & b & A & B)|(ds & A & B)]; [left|right; left]; eauto 8.
    - rewrite name_same. destruct (name p) eqn:Ep; [discriminate|].
      destruct (existsb (fun e => String.eqb (meaning cwd (script s) e) p) (flat_map mentions (script s))) eqn:Ex; [|discriminate].
      intros [= <-]. right. right. split; [reflexivity|]. split; [|split; [reflexivity|]].
      + intros H. rewrite <- (makes_same s) in H. apply in_flat_map in H. destruct H as (st & Hs & H).
        unfold SpecProject.makes in H. destruct (rule_of st) as [[[q ds] [f b]]|] eqn:Er.
        * destruct H as [->|[]]. pose proof (proj_rule s st p ds f b Hs Er) as X. unfold project_at, project_of in X.
          rewrite E, name_same, Ep, Ex in X. discriminate.
        * destruct (set_of st) as [[q ds]|] eqn:Es; [|destruct H]. destruct H as [->|[]].
          pose proof (proj_set s st p ds Hs Es) as X. unfold project_at, project_of in X. rewrite E, name_same, Ep, Ex in X. discriminate.
      + apply existsb_exists in Ex. destruct Ex as (e & He & Em). apply String.eqb_eq in Em. exists e. now rewrite mean_same in Em.
  Qed.
  Lemma proj_source s e p : In e (flat_map mentions (script s)) -> mean e = p -> name p = false ->
    ~ In p (flat_map makes (script nothing)) -> proj s p = Some DSource.
  Proof.
    intros He Em Np Hn. unfold project_at, project_of. rewrite (first_none cwd home glob_ (script s) (script s)) by now rewrite makes_same.
    rewrite name_same, Np.
    assert (E : existsb (fun e => String.eqb (meaning cwd (script s) e) p) (flat_map mentions (script s)) = true).
    { apply existsb_exists. exists e. split; [exact He|]. rewrite mean_same, Em. apply String.eqb_refl. }
    now rewrite E.
  Qed.
  (** A path that is mentioned is a file. *)
  Lemma mentioned_file s d : In d (flat_map mentions (script s)) -> name d = false -> is_file (proj s) (path d).
  Proof.
    intros Hd Nd. assert (Em : mean d = path d) by (unfold meaning; now rewrite Nd).
    destruct (in_dec string_dec (path d) (flat_map makes (script nothing))) as [Hin|Hout].
    - right. rewrite <- (makes_same s) in Hin. apply in_flat_map in Hin. destruct Hin as (st & Hs & H). unfold SpecProject.makes in H.
      destruct (rule_of st) as [[[q ds] [f b]]|] eqn:Er.
      + destruct H as [->|[]]. exists f, (map mean ds), b. now apply (proj_rule s st).
      + exfalso. destruct (set_of st) as [[q ds]|] eqn:Es; [|destruct H]. destruct H as [->|[]].
        pose proof (set_name glob_ (script s) st _ ds Hs Es) as X. rewrite name_same, path_no_name in X. discriminate.
    - left. eapply proj_source; eauto. apply path_no_name.
  Qed.

  (** ** Units *)
  Definition dep_stmt (s : ctx) (u : cunit) : stmt :=
    SRule (unlisted (s (path (u_dep u)))) (u_dep u) ([u_src u] ++ u_adds u ++ listed (s (path (u_dep u)))) (u_list u).
  Definition obj_stmt (s : ctx) (u : cunit) : stmt :=
    SRule false (u_obj u) ([u_src u; u_dep u] ++ u_adds u ++ listed (s (path (u_dep u)))) (u_comp u).
  Lemma dep_stmt_In s u : In (IUnit u) its -> In (dep_stmt s u) (script s).
  Proof. intros H. apply script_In. exists (IUnit u). split; [exact H|]. cbn [item_stmts]. rewrite !in_app_iff. right. right. now left. Qed.
  Lemma obj_stmt_In s u : In (IUnit u) its -> In (obj_stmt s u) (script s).
  Proof. intros H. apply script_In. exists (IUnit u). split; [exact H|]. cbn [item_stmts]. rewrite !in_app_iff. right. right. right. now left. Qed.
  Notation expand := (expand_names glob_).
  Lemma dep_decl s u : In (IUnit u) its -> proj s (path (u_dep u)) =
    Some (DRule (unlisted (s (path (u_dep u)))) (map mean (expand ([u_src u] ++ u_adds u ++ listed (s (path (u_dep u)))))) (u_list u)).
  Proof. intros H. now apply (proj_rule s (dep_stmt s u)); [apply dep_stmt_In|]. Qed.
  Lemma obj_decl s u : In (IUnit u) its -> proj s (path (u_obj u)) =
    Some (DRule false (map mean (expand ([u_src u; u_dep u] ++ u_adds u ++ listed (s (path (u_dep u)))))) (u_comp u)).
  Proof. intros H. now apply (proj_rule s (obj_stmt s u)); [apply obj_stmt_In|]. Qed.
  Lemma in_expand d l : In d l -> has_star d = false -> In d (expand l).
  Proof. intros H Hs. unfold expand_names. apply in_flat_map. exists d. split; [exact H|]. rewrite Hs. now left. Qed.
  (** What the rules of units depend on. *)
  Lemma unit_input s u d l p f b st : In (IUnit u) its -> In st (script s) -> deps_of home glob_ st = expand l ->
    proj s p = Some (DRule f (map mean (expand l)) b) -> In d l -> has_star d = false -> name d = false -> p_input (proj s) p (path d).
  Proof.
    intros Hu Hst Ed Ep Hd Hs Hn. apply pi_file.
    - exists (map mean (expand l)). split; [|right; eauto]. apply in_map_iff. exists d.
      split; [unfold meaning; now rewrite Hn|now apply in_expand].
    - apply mentioned_file; [|exact Hn]. apply in_flat_map. exists st. split; [exact Hst|]. apply in_app_iff. right. rewrite Ed. now apply in_expand.
  Qed.
  Lemma dep_input s u d : In (IUnit u) its -> In d ([u_src u] ++ u_adds u ++ listed (s (path (u_dep u)))) ->
    has_star d = false -> name d = false -> p_input (proj s) (path (u_dep u)) (path d).
  Proof. intros Hu Hd Hs Hn. eapply (unit_input s u d _ _ _ _ (dep_stmt s u)); eauto; [now apply dep_stmt_In|reflexivity|now apply dep_decl]. Qed.
  Lemma obj_input s u d : In (IUnit u) its -> In d ([u_src u; u_dep u] ++ u_adds u ++ listed (s (path (u_dep u)))) ->
    has_star d = false -> name d = false -> p_input (proj s) (path (u_obj u)) (path d).
  Proof. intros Hu Hd Hs Hn. eapply (unit_input s u d _ _ _ _ (obj_stmt s u)); eauto; [now apply obj_stmt_In|reflexivity|now apply obj_decl]. Qed.

  (** The rules of the script. *)
  Lemma rule_stmt s st p ds f b : In st (script s) -> rule_of st = Some (p, ds, (f, b)) ->
    In (IStmt st) its \/
    (exists u, In (IUnit u) its /\ p = path (u_dep u) /\ b = u_list u /\ st = dep_stmt s u) \/
    (exists u, In (IUnit u) its /\ p = path (u_obj u) /\ b = u_comp u /\ st = obj_stmt s u).
  Proof.
    intros H Hr. apply script_In in H. destruct H as ([st'|u] & Hi & H); cbn [item_stmts] in H.
    - destruct H as [->|[]]. now left.
    - right. rewrite !in_app_iff in H. destruct H as [[<-|[]]|[H|[<-|[<-|[]]]]].
      + discriminate.
      + apply in_map_iff in H. destruct H as (h & <- & _). discriminate.
      + left. exists u. cbn in Hr. injection Hr as <- _ _ <-. auto.
      + right. exists u. cbn in Hr. injection Hr as <- _ _ <-. auto.
  Qed.
  Lemma static_In s st : In (IStmt st) its -> In st (script s).
  Proof. intros H. apply script_In. exists (IStmt st). split; [exact H|now left]. Qed.
  Lemma rules_at s p b : rules p = Some b <-> exists f ds, proj s p = Some (DRule f ds b).
  Proof.
    unfold rules_in.
    assert (M : forall s s' f ds, proj s p = Some (DRule f ds b) -> exists f' ds', proj s' p = Some (DRule f' ds' b)).
    { intros s1 s2 f ds H. destruct (proj_inv s1 p _ H) as [(st & ds0 & f0 & b0 & Hs & Hr & E)|[(st & ds0 & _ & _ & E)|(E & _)]]; try discriminate.
      injection E as -> -> <-. destruct (rule_stmt s1 st p ds0 f0 b Hs Hr) as [Hi|[(u & Hu & -> & -> & _)|(u & Hu & -> & -> & _)]].
      - exists f0, (map mean ds0). apply (proj_rule s2 st); [now apply static_In|exact Hr].
      - eexists _, _. now apply dep_decl.
      - eexists _, _. now apply obj_decl. }
    split.
    - destruct (proj nothing p) as [[|f ds b'|ds]|] eqn:E; try discriminate. intros [= ->]. eapply M. exact E.
    - intros (f & ds & H). destruct (M s nothing f ds H) as (f' & ds' & E). now rewrite E.
  Qed.

  (** More lists, more dependencies. *)
  Lemma listed_nothing p : listed (nothing p) = [].
  Proof. reflexivity. Qed.
  Lemma mentions_mono s : incl (flat_map mentions (script nothing)) (flat_map mentions (script s)).
  Proof.
    intros e He. apply in_flat_map in He. destruct He as (st & Hs & He). apply script_In in Hs. destruct Hs as (it & Hi & Hs).
    apply in_flat_map.
    destruct it as [st'|u].
    - exists st. split; [apply script_In; now exists (IStmt st')|exact He].
    - cbn [item_stmts] in Hs. rewrite listed_nothing in Hs. cbn in Hs.
      assert (Incl : forall a b c : list string, incl (expand (a ++ b)) (expand (a ++ b ++ c))).
      { intros a b c x Hx. unfold expand_names in *. rewrite app_assoc, flat_map_app. apply in_app_iff. now left. }
      destruct Hs as [<-|[<-|[<-|[]]]].
      + exists (SSource (u_src u)). split; [|exact He]. apply script_In. exists (IUnit u). split; [exact Hi|now left].
      + exists (dep_stmt s u). split; [now apply dep_stmt_In|]. cbn in He |- *. rewrite app_nil_r in He.
        apply (Incl [u_src u] (u_adds u)). exact He.
      + exists (obj_stmt s u). split; [now apply obj_stmt_In|]. cbn in He |- *. rewrite app_nil_r in He.
        apply (Incl [u_src u; u_dep u] (u_adds u)). exact He.
  Qed.
  Lemma is_rule_at s p : is_rule (proj s) p <-> rules p <> None.
  Proof.
    split.
    - intros (f & ds & b & H). assert (E : rules p = Some b) by (apply (rules_at s); eauto). congruence.
    - intros H. destruct (rules p) as [b|] eqn:E; [|congruence]. apply (rules_at s) in E. destruct E as (f & ds & E). now exists f, ds, b.
  Qed.
  Lemma is_file_mono s q : is_file (proj nothing) q -> is_file (proj s) q.
  Proof.
    intros [H|H]; [|right; apply is_rule_at; now apply (is_rule_at nothing)].
    left. destruct (proj_inv nothing q _ H) as [(st & ds & f & b & _ & _ & E)|[(st & ds & _ & _ & E)|(_ & Hn & Nq & e & He & Em)]]; try discriminate.
    eapply proj_source; eauto. now apply mentions_mono.
  Qed.
  Lemma set_mono s p ds : proj nothing p = Some (DSet ds) <-> proj s p = Some (DSet ds).
  Proof.
    assert (M : forall s s', proj s p = Some (DSet ds) -> proj s' p = Some (DSet ds)).
    { intros s1 s2 H. destruct (proj_inv s1 p _ H) as [(st & ds0 & f0 & b0 & _ & _ & E)|[(st & ds0 & Hs & Es & E)|(E & _)]]; try discriminate.
      injection E as ->. apply (proj_set s2 st); [|exact Es]. apply script_In in Hs. destruct Hs as ([st'|u] & Hi & Hs).
      - destruct Hs as [->|[]]. now apply static_In.
      - exfalso. cbn [item_stmts] in Hs. rewrite !in_app_iff in Hs. destruct Hs as [[<-|[]]|[Hs|[<-|[<-|[]]]]]; try discriminate.
        apply in_map_iff in Hs. destruct Hs as (h & <- & _). discriminate. }
    split; apply M.
  Qed.
  Lemma p_dep_mono s p q : p_dep (proj nothing) p q -> p_dep (proj s) p q.
  Proof.
    intros (ds & Hq & [H|(f & b & H)]); [exists ds; split; [exact Hq|left; now apply set_mono]|].
    destruct (proj_inv nothing p _ H) as [(st & ds0 & f0 & b0 & Hs & Hr & E)|[(st & ds0 & _ & _ & E)|(E & _)]]; try discriminate.
    injection E as -> -> <-. apply in_map_iff in Hq. destruct Hq as (d & <- & Hd).
    assert (Incl : forall a b c : list string, incl (expand (a ++ b)) (expand (a ++ b ++ c))).
    { intros a b' c' x Hx. unfold expand_names in *. rewrite app_assoc, flat_map_app. apply in_app_iff. now left. }
    destruct (rule_stmt nothing st p ds0 f0 b Hs Hr) as [Hi|[(u & Hu & -> & -> & ->)|(u & Hu & -> & -> & ->)]].
    - exists (map mean ds0). split; [now apply in_map|]. right. exists f0, b. apply (proj_rule s st); [now apply static_In|exact Hr].
    - eexists. split; [|right; eexists _, _; now apply dep_decl]. apply in_map.
      cbn in Hr. injection Hr as <- <-. rewrite app_nil_r in Hd. apply (Incl [u_src u] (u_adds u)). exact Hd.
    - eexists. split; [|right; eexists _, _; now apply obj_decl]. apply in_map.
      cbn in Hr. injection Hr as <-. rewrite app_nil_r in Hd. apply (Incl [u_src u; u_dep u] (u_adds u)). exact Hd.
  Qed.
  Lemma p_input_mono s p q : p_input (proj nothing) p q -> p_input (proj s) p q.
  Proof.
    induction 1 as [p q Hd Hf|p t ds q Hd Ht _ IH].
    - apply pi_file; [now apply p_dep_mono|now apply is_file_mono].
    - eapply pi_set; [now apply p_dep_mono; exact Hd|apply set_mono; exact Ht|exact IH].
  Qed.

  (** ** What the rules read *)
  Definition reads (p : string) (s : ctx) (q : string) : Prop :=
    (exists u, In (IUnit u) its /\ p = path (u_dep u) /\
       (q = path (u_src u) \/ exists v h, u_list u s = Some v /\ In h (listed (Some v)) /\ q = path h)) \/
    (exists u, In (IUnit u) its /\ p = path (u_obj u) /\
       (q = path (u_src u) \/ q = path (u_dep u) \/ exists h, In h (listed (s (path (u_dep u)))) /\ q = path h)) \/
    (exists st ds fb, In (IStmt st) its /\ rule_of st = Some (p, ds, fb) /\ p_input (proj nothing) p q).

  (** Each output has one rule. *)
  Lemma once_stmt s st st' x : In st (script s) -> In st' (script s) -> In x (declares st) -> In x (declares st') -> st = st'.
  Proof.
    intros A B C D. exact (nodup_flat declares _ st st' x (once s) A B C D).
  Qed.
  Lemma decl_of_dep u : declares (dep_stmt nothing u) = [path (u_dep u)].
  Proof. reflexivity. Qed.
  Lemma decl_of_obj u : declares (obj_stmt nothing u) = [path (u_obj u)].
  Proof. reflexivity. Qed.
  Lemma dep_not_obj u u' : In (IUnit u) its -> In (IUnit u') its -> path (u_dep u) <> path (u_obj u').
  Proof.
    intros H H' E. assert (X : dep_stmt nothing u = obj_stmt nothing u').
    { apply (once_stmt nothing _ _ (path (u_dep u))); [now apply dep_stmt_In|now apply obj_stmt_In|rewrite decl_of_dep; now left|rewrite decl_of_obj, E; now left]. }
    discriminate.
  Qed.
  Definition idecl (it : item) : list string := flat_map declares (item_stmts cwd nothing it).
  Lemma once_item it it' x : In it its -> In it' its -> In x (idecl it) -> In x (idecl it') -> it = it'.
  Proof.
    intros A B C D. pose proof (ho_once _ _ _ _ ho) as N. unfold script_at in N. rewrite flat_map_flat in N.
    exact (nodup_flat idecl its it it' x N A B C D).
  Qed.
  Lemma dep_idecl u : In (path (u_dep u)) (idecl (IUnit u)).
  Proof. unfold idecl. cbn. now left. Qed.
  Lemma obj_idecl u : In (path (u_obj u)) (idecl (IUnit u)).
  Proof. unfold idecl. cbn. right. now left. Qed.
  Lemma stmt_idecl st p ds fb : rule_of st = Some (p, ds, fb) -> In p (idecl (IStmt st)).
  Proof. intros H. unfold idecl. cbn. rewrite app_nil_r. destruct (declares_rule cwd home glob_ st p ds fb H) as [-> _]. now left. Qed.

  Lemma reads_dep u s q : In (IUnit u) its -> reads (path (u_dep u)) s q ->
    q = path (u_src u) \/ exists v h, u_list u s = Some v /\ In h (listed (Some v)) /\ q = path h.
  Proof.
    intros Hu [(u' & Hu' & E & H)|[(u' & Hu' & E & _)|(st & ds & fb & Hi & Hr & _)]].
    - assert (X : IUnit u = IUnit u') by (apply (once_item _ _ (path (u_dep u))); auto; [apply dep_idecl|rewrite E; apply dep_idecl]).
      injection X as <-. exact H.
    - now apply dep_not_obj in E.
    - assert (X : IUnit u = IStmt st) by (apply (once_item _ _ (path (u_dep u))); auto; [apply dep_idecl|now apply (stmt_idecl st _ ds fb)]).
      discriminate.
  Qed.
  Lemma reads_obj u s q : In (IUnit u) its -> reads (path (u_obj u)) s q ->
    q = path (u_src u) \/ q = path (u_dep u) \/ exists h, In h (listed (s (path (u_dep u)))) /\ q = path h.
  Proof.
    intros Hu [(u' & Hu' & E & _)|[(u' & Hu' & E & H)|(st & ds & fb & Hi & Hr & _)]].
    - symmetry in E. now apply dep_not_obj in E.
    - assert (X : IUnit u = IUnit u') by (apply (once_item _ _ (path (u_obj u))); auto; [apply obj_idecl|rewrite E; apply obj_idecl]).
      injection X as <-. exact H.
    - assert (X : IUnit u = IStmt st) by (apply (once_item _ _ (path (u_obj u))); auto; [apply obj_idecl|now apply (stmt_idecl st _ ds fb)]).
      discriminate.
  Qed.
  Lemma reads_static st p ds fb s q : In (IStmt st) its -> rule_of st = Some (p, ds, fb) -> reads p s q -> p_input (proj nothing) p q.
  Proof.
    intros Hi Hr [(u' & Hu' & -> & _)|[(u' & Hu' & -> & H)|(st' & ds' & fb' & _ & _ & H)]]; [| |exact H].
    - assert (X : IUnit u' = IStmt st) by (apply (once_item _ _ (path (u_dep u'))); auto; [apply dep_idecl|now apply (stmt_idecl st _ ds fb)]).
      discriminate.
    - assert (X : IUnit u' = IStmt st) by (apply (once_item _ _ (path (u_obj u'))); auto; [apply obj_idecl|now apply (stmt_idecl st _ ds fb)]).
      discriminate.
  Qed.
  Lemma rules_cases p b : rules p = Some b ->
    (exists st ds f, In (IStmt st) its /\ rule_of st = Some (p, ds, (f, b))) \/
    (exists u, In (IUnit u) its /\ p = path (u_dep u) /\ b = u_list u) \/
    (exists u, In (IUnit u) its /\ p = path (u_obj u) /\ b = u_comp u).
  Proof.
    intros H. apply (rules_at nothing) in H. destruct H as (f & ds & H).
    destruct (proj_inv nothing p _ H) as [(st & ds0 & f0 & b0 & Hs & Hr & E)|[(st & ds0 & _ & _ & E)|(E & _)]]; try discriminate.
    injection E as -> -> <-. destruct (rule_stmt nothing st p ds0 f0 b Hs Hr) as [Hi|[(u & Hu & -> & -> & _)|(u & Hu & -> & -> & _)]]; eauto 8.
  Qed.
  Lemma dep_rule u : In (IUnit u) its -> rules (path (u_dep u)) = Some (u_list u).
  Proof. intros H. apply (rules_at nothing). eexists _, _. now apply dep_decl. Qed.
  Lemma obj_rule u : In (IUnit u) its -> rules (path (u_obj u)) = Some (u_comp u).
  Proof. intros H. apply (rules_at nothing). eexists _, _. now apply obj_decl. Qed.
  Lemma src_file u : In (IUnit u) its -> has_star (u_src u) = false /\ name (u_src u) = false.
  Proof. intros H. apply (ho_files _ _ _ _ ho u); [exact H|now left]. Qed.
  Lemma dep_file u : In (IUnit u) its -> has_star (u_dep u) = false /\ name (u_dep u) = false.
  Proof. intros H. apply (ho_files _ _ _ _ ho u); [exact H|right; now left]. Qed.
  Lemma dep_src s u : In (IUnit u) its -> p_input (proj s) (path (u_dep u)) (path (u_src u)).
  Proof. intros H. destruct (src_file u H). apply dep_input; auto. now left. Qed.
  Lemma obj_src s u : In (IUnit u) its -> p_input (proj s) (path (u_obj u)) (path (u_src u)).
  Proof. intros H. destruct (src_file u H). apply obj_input; auto. now left. Qed.
  Lemma obj_dep s u : In (IUnit u) its -> p_input (proj s) (path (u_obj u)) (path (u_dep u)).
  Proof. intros H. destruct (dep_file u H). apply obj_input; auto. right. now left. Qed.

  Theorem cxx_tracking : tracking rules reads (empty_list cwd its) proj.
  Proof.
    constructor.
    - intros s p b. apply rules_at.
    - intros p b v s s' Hb Hv Hr Hs.
      destruct (rules_cases p b Hb) as [(st & ds & f & Hi & Er)|[(u & Hu & -> & ->)|(u & Hu & -> & ->)]].
      + assert (R : forall s0 q, reads p s0 q <-> p_input (proj nothing) p q).
        { intros s0 q. split; [now apply (reads_static st p ds (f, b))|]. intros H. right. right. eauto 6. }
        split; [|intros q Hq; apply R; now apply R in Hq].
        rewrite <- Hv. apply (ho_others _ _ _ _ ho st p ds f b Hi Er). intros q Hq. apply Hs. now apply R.
      + assert (S1 : s' (path (u_src u)) = s (path (u_src u))) by (apply Hs; left; exists u; auto).
        assert (S2 : forall h, In h (listed (Some v)) -> s' (path h) = s (path h)) by (intros h Hh; apply Hs; left; exists u; eauto 8).
        assert (E : u_list u s' = Some v) by now apply (ho_list _ _ _ _ ho u s).
        split; [exact E|]. intros q Hq. apply (reads_dep u s' q Hu) in Hq. left. exists u. split; [exact Hu|]. split; [reflexivity|].
        rewrite E in Hq. now rewrite Hv.
      + assert (S1 : s' (path (u_src u)) = s (path (u_src u))) by (apply Hs; right; left; exists u; auto).
        assert (S3 : s' (path (u_dep u)) = s (path (u_dep u))) by (apply Hs; right; left; exists u; auto).
        assert (S2 : forall h, In h (listed (s (path (u_dep u)))) -> s' (path h) = s (path h)) by (intros h Hh; apply Hs; right; left; exists u; eauto 8).
        destruct (Hr (path (u_dep u)) ltac:(right; left; exists u; auto) _ (dep_rule u Hu)) as (l & El & Sl).
        split.
        * apply (ho_compile _ _ _ _ ho u s s' l v Hu El Hv S1). intros h Hh. apply S2. now rewrite Sl.
        * intros q Hq. apply (reads_obj u s' q Hu) in Hq. right. left. exists u. split; [exact Hu|]. split; [reflexivity|]. now rewrite S3 in Hq.
    - intros p b v s0 s ds Hb Hv Hr Hp Hd Hs q Hq.
      destruct (rules_cases p b Hb) as [(st & ds' & f & Hi & Er)|[(u & Hu & -> & ->)|(u & Hu & -> & ->)]].
      + apply p_input_mono. now apply (reads_static st p ds' (f, b) s0).
      + apply (reads_dep u s0 q Hu) in Hq. destruct Hq as [->|(v' & h & E & Hh & ->)]; [now apply dep_src|].
        rewrite E in Hv. injection Hv as ->. apply dep_input; [exact Hu| |now apply (listed_no_star (Some v))|].
        * rewrite !in_app_iff, Hp. right. now right.
        * now apply (ho_headers _ _ _ _ ho u s0 v).
      + assert (Rd : reads (path (u_obj u)) s0 (path (u_dep u))) by (right; left; exists u; auto).
        destruct (Hr _ Rd _ (dep_rule u Hu)) as (l & El & Sl).
        assert (E : s (path (u_dep u)) = s0 (path (u_dep u))) by (apply Hs; [exact Rd|now apply obj_dep]).
        apply (reads_obj u s0 q Hu) in Hq. destruct Hq as [->|[->|(h & Hh & ->)]]; [now apply obj_src|now apply obj_dep|].
        apply obj_input; [exact Hu| |now apply (listed_no_star (s0 (path (u_dep u))))|].
        * rewrite !in_app_iff, E. right. now right.
        * rewrite Sl in Hh. now apply (ho_headers _ _ _ _ ho u s0 l).
    - intros p s s' q Hp Hin Hq Hr. destruct (rules p) as [b|] eqn:Hb; [|congruence].
      destruct (rules_cases p b Hb) as [(st & ds' & f & Hi & Er)|[(u & Hu & -> & ->)|(u & Hu & -> & ->)]].
      + apply p_input_mono. now apply (reads_static st p ds' (f, b) s).
      + apply (reads_dep u s q Hu) in Hq. destruct Hq as [->|(v' & h & E & Hh & ->)]; [now apply dep_src|].
        apply p_input_mono. now apply (ho_generated _ _ _ _ ho u s v' h).
      + apply (reads_obj u s q Hu) in Hq. destruct Hq as [->|[->|(h & Hh & ->)]]; [now apply obj_src|now apply obj_dep|].
        destruct (Hin (path (u_dep u)) (obj_dep s' u Hu) _ (dep_rule u Hu)) as (l & El & Sl). rewrite Sl in Hh.
        apply p_input_mono. now apply (ho_generated _ _ _ _ ho u s l h).
    - intros p v s ds b (-> & u & Hu & ->) Hp. rewrite (dep_decl s u Hu), Hp. discriminate.
  Qed.

  Lemma cxx_track_history fs now : cxx_history cwd home glob_ (empty_list cwd its) its fs now ->
    track_history rules (empty_list cwd its) proj path fs now.
  Proof.
    induction 1 as [fs now Hd Hf|fs now fs' now' _ IH Ho|fs now exists_ x th kind c1 objs sv s fs' now' _ IH Hdisk Hord Hx Hb Hj Hl].
    - now apply th_start.
    - eapply th_outside; eauto.
    - destruct (building_of cwd home fs exists_ glob_ _ Hdisk Hord true x th now kind c1 objs sv s Hx Hb) as (c & i & oi & Him & Hbo & _ & _).
      eapply th_build; eauto.
  Qed.

  Theorem cxx_success fs now exists_ x th kind c1 objs sv s : cxx_history cwd home glob_ (empty_list cwd its) its fs now ->
    disk_ok cwd (present fs) exists_ -> in_order cwd home glob_ exists_ (script (contents fs)) ->
    In x (flat_map makes (script (contents fs))) ->
    building cwd home exists_ glob_ true (script (contents fs)) x th fs now kind c1 objs sv s -> succeeded objs s ->
    forall p, p_cone (proj (contents fs)) x p -> right_now rules (contents (w_fs (s_world s))) p.
  Proof.
    intros Hh Hdisk Hord Hx Hb Hs. destruct (building_of cwd home fs exists_ glob_ _ Hdisk Hord true x th now kind c1 objs sv s Hx Hb) as (c & i & oi & Him & Hbo & <- & Hk).
    exact (track_success path rules reads (empty_list cwd its) proj cxx_tracking fs now kind oi c i [] c1 objs s (cxx_track_history fs now Hh) Him Hk Hbo Hs).
  Qed.
  (** The files of a unit. *)
  Theorem cxx_unit fs now exists_ x th kind c1 objs sv s u : cxx_history cwd home glob_ (empty_list cwd its) its fs now ->
    disk_ok cwd (present fs) exists_ -> in_order cwd home glob_ exists_ (script (contents fs)) ->
    In x (flat_map makes (script (contents fs))) ->
    building cwd home exists_ glob_ true (script (contents fs)) x th fs now kind c1 objs sv s -> succeeded objs s ->
    In (IUnit u) its -> p_cone (proj (contents fs)) x (path (u_obj u)) ->
    let s' := contents (w_fs (s_world s)) in
    exists l o, s' (path (u_dep u)) = Some l /\ u_list u s' = Some l /\ s' (path (u_obj u)) = Some o /\ u_comp u s' = Some o /\
      forall h, In h (listed (Some l)) -> p_input (proj s') (path (u_obj u)) (path h).
  Proof.
    intros Hh Hdisk Hord Hx Hb Hs Hu Hp s'. pose proof (cxx_success _ _ _ _ _ _ _ _ _ _ Hh Hdisk Hord Hx Hb Hs) as R.
    assert (Hp' : p_cone (proj (contents fs)) x (path (u_dep u))).
    { eapply rt_trans; [exact Hp|]. apply rt_step. eexists. split; [|right; eexists _, _; now apply obj_decl].
      destruct (dep_file u Hu) as [Hst Hn]. apply in_map_iff. exists (u_dep u). split; [unfold meaning; now rewrite Hn|].
      apply in_expand; [right; now left|exact Hst]. }
    destruct (R _ Hp' _ (dep_rule u Hu)) as (l & El & Sl). destruct (R _ Hp _ (obj_rule u Hu)) as (o & Eo & So).
    exists l, o. split; [exact Sl|]. split; [exact El|]. split; [exact So|]. split; [exact Eo|].
    intros h Hin. apply obj_input; [exact Hu| |now apply (listed_no_star (Some l))|now apply (ho_headers _ _ _ _ ho u s' l)].
    fold s' in Sl. rewrite Sl. rewrite !in_app_iff. auto.
  Qed.
End Cxx.
