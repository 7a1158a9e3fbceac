(** javac, dex and objcopy (C88). *)
From Coq Require Import Permutation Relations.
From Verif Require Import PyBase PyPath PathProofs SolverModel SpecGraph InvokerModel SpecTrace CoreModel SpecCore MakeModel UtilModel SpecMake
  RegModel CliModel SpecUtil SpecReg SpecProject ProjectProofs ProjectBuild IdleProofs JavaModel SpecJava.
Local Open Scope string_scope.
Local Open Scope list_scope.

Section Script.
  Variables (cwd home : string) (glob_ : string -> list string) (exists_ : string -> bool).
  Variables (srcs : list string) (calls : list (jcall * buildfun)).
  Notation l := (jscript srcs calls).
  Notation P := (project_of cwd home glob_ l).
  Hypothesis ok : in_order cwd home glob_ exists_ l.
  Lemma jstmt_cases s : In s l -> (exists p, s = SSource p) \/
    exists c b, In (c, b) calls /\ In s (jstmts c b) /\ exists ds, s = SRule false (output_name c) ds b /\
      (dex_told c -> incl (input_names c) ds).
  Proof.
    unfold jscript. intros H. apply in_app_or in H as [H|H]; [apply in_map_iff in H as (p & <- & _); left; eauto|].
    apply in_flat_map in H as ([c b] & Hc & H). cbn [fst snd] in H. pose proof H as H0.
    destruct c as [ss t o ds|s0 t o ds|tl t s0 fm ss]; cbn in H.
    - apply in_app_or in H as [H|[<-|[]]]; [apply in_map_iff in H as (p & <- & _); left; eauto|].
      right. exists (JJavac ss t o ds), b. split; [exact Hc|]. split; [exact H0|]. eexists. split; [reflexivity|]. intros _. cbn. intros x Hx. apply in_or_app. now right.
    - destruct H as [<-|[]]. right. exists (JDex s0 t o ds), b. split; [exact Hc|]. split; [exact H0|]. eexists. split; [reflexivity|]. cbn. intros Hd x [<-|[]]. exact Hd.
    - destruct H as [<-|[]]. right. exists (JObjcopy tl t s0 fm ss), b. split; [exact Hc|]. split; [exact H0|]. eexists. split; [reflexivity|]. intros _ x Hx. exact Hx.
  Qed.
  Lemma no_names nm : is_name l nm = false.
  Proof.
    destruct (is_name l nm) eqn:E; [|reflexivity]. unfold is_name in E. apply existsb_exists in E as (s & Hs & E).
    apply jstmt_cases in Hs as [(p & ->)|(c & b & _ & _ & ds & -> & _)]; discriminate.
  Qed.
  Lemma first_rule l0 p f ds b : first_decl cwd home glob_ l l0 p = Some (DRule f ds b) ->
    exists s ds0, In s l0 /\ rule_of cwd home glob_ s = Some (p, ds0, (f, b)) /\ ds = map (meaning cwd l) ds0.
  Proof.
    induction l0 as [|s l0 IH]; intros H; [discriminate|]. cbn [first_decl] in H.
    destruct (decl_of cwd home glob_ l s p) as [d|] eqn:E.
    - injection H as ->. unfold decl_of in E. destruct (rule_of cwd home glob_ s) as [[[q ds0] [f0 b0]]|] eqn:Er.
      + destruct (String.eqb_spec q p) as [->|]; [|discriminate]. injection E as <- <- <-. exists s, ds0. split; [now left|]. auto.
      + destruct (set_of glob_ s) as [[q ds0]|]; [|discriminate]. destruct (String.eqb q p); discriminate.
    - destruct (IH H) as (s' & ds0 & Hs & H'). exists s', ds0. split; [now right|exact H'].
  Qed.
  Lemma first_source l0 p : first_decl cwd home glob_ l l0 p <> Some DSource.
  Proof.
    induction l0 as [|s l0 IH]; [discriminate|]. cbn [first_decl].
    destruct (decl_of cwd home glob_ l s p) eqn:Ed; [|exact IH]. intros E. injection E as ->.
    unfold decl_of in Ed. destruct (rule_of cwd home glob_ s) as [[[q ds] b]|]; [destruct (String.eqb q _); discriminate|].
    destruct (set_of glob_ s) as [[q ds]|]; [destruct (String.eqb q _); discriminate|discriminate].
  Qed.
  Lemma file_or_source s n : In s l -> In n (deps_of home glob_ s) -> is_file P (realpath cwd n).
  Proof.
    intros Hs Hn. assert (E : meaning cwd l n = realpath cwd n) by (unfold meaning; now rewrite no_names).
    destruct (first_decl cwd home glob_ l l (realpath cwd n)) as [d|] eqn:Ef.
    - right. assert (Hp : P (realpath cwd n) = Some d) by (unfold project_of; now rewrite Ef).
      destruct d as [|f ds b|ds]; [| now exists f, ds, b |].
      + now apply first_source in Ef.
      + exfalso. assert (G : forall l0, incl l0 l -> first_decl cwd home glob_ l l0 (realpath cwd n) <> Some (DSet ds)).
        { induction l0 as [|s0 l0 IH]; intros Hi H; [discriminate|]. cbn [first_decl] in H.
          destruct (decl_of cwd home glob_ l s0 (realpath cwd n)) eqn:Ed; [|apply IH; [intros x Hx; apply Hi; now right|exact H]]. injection H as ->.
          destruct (jstmt_cases s0 (Hi s0 (or_introl eq_refl))) as [(p & ->)|(c & b & _ & _ & ds0 & -> & _)]; cbn in Ed; [discriminate|].
          unfold decl_of in Ed. cbn in Ed. destruct (String.eqb _ _); discriminate. }
        apply (G l); [intros x Hx; exact Hx|exact Ef].
    - left. unfold project_of. rewrite Ef, no_names.
      replace (existsb _ _) with true; [reflexivity|]. symmetry. apply existsb_exists. exists n. rewrite E. split; [|apply String.eqb_refl].
      apply in_flat_map. exists s. split; [exact Hs|]. apply in_or_app. now right.
  Qed.
  Hypothesis honest : forall c b, In (c, b) calls -> looks_at_inputs cwd c b.
  Hypothesis told : forall c b, In (c, b) calls -> dex_told c.
  Hypothesis plain : forall c b n, In (c, b) calls -> In n (input_names c) -> has_star n = false.
  Lemma jscript_reads : reads_only P.
  Proof.
    intros p f ds b Hp s s' Hs. unfold project_of in Hp.
    destruct (first_decl cwd home glob_ l l p) as [d|] eqn:Ef; [|rewrite no_names in Hp; destruct (existsb _ _); discriminate].
    injection Hp as ->. pose proof Ef as Ef'. apply first_rule in Ef as (st & ds0 & Hst & Er & ->).
    destruct (jstmt_cases st Hst) as [(q & ->)|(c & b' & Hc & _ & ds1 & -> & Hi)]; [discriminate|].
    cbn in Er. injection Er as <- <- <- <-. specialize (Hi (told _ _ Hc)).
    apply (honest _ _ Hc). intros n Hn. apply Hs.
    assert (He : In n (expand_names glob_ ds1)).
    { unfold expand_names. apply in_flat_map. exists n. split; [now apply Hi|]. rewrite (plain _ _ _ Hc Hn). now left. }
    apply pi_file.
    - eexists. split; [|right; eexists _, _; unfold project_of; rewrite Ef'; reflexivity].
      apply in_map_iff. exists n. split; [unfold meaning; now rewrite no_names|exact He].
    - apply (file_or_source (SRule false (output_name c) ds1 b') n Hst). exact He.
  Qed.
End Script.

(** A rule that depends on nothing does not run when its file is there. *)
Lemma alone_does_nothing cwd home fs exists_ glob_ l : disk_ok cwd (present fs) exists_ -> in_order cwd home glob_ exists_ l ->
  forall partial x th now kind c1 objs sv s, In x (flat_map (makes cwd home glob_) l) ->
  building cwd home exists_ glob_ partial l x th fs now kind c1 objs sv s ->
  forall tgt b, In (SRule false tgt [] b) l -> fs (realpath cwd tgt) <> None -> ~ In (realpath cwd tgt) (map fst (w_ran (s_world s))).
Proof.
  intros Hd Ho partial x th now kind c1 objs sv s Hx Hb tgt b Ht Hf Hr.
  apply in_map_iff in Hr as ([p r] & E & Hr). cbn in E. subst p.
  assert (HP : project_of cwd home glob_ l (realpath cwd tgt) = Some (DRule false [] b)).
  { apply (P_rule cwd home exists_ glob_ l Ho (SRule false tgt [] b) _ [] (false, b) Ht). reflexivity. }
  destruct (ran_needed cwd home fs exists_ glob_ l Hd Ho partial x th now kind c1 objs sv s Hx Hb (realpath cwd tgt) r (ex_intro _ _ (ex_intro _ _ (ex_intro _ _ HP))) Hr) as [_ (q & Hq & Hout)].
  assert (E : q = realpath cwd tgt).
  { apply clos_rt_rt1n_iff in Hq. destruct Hq as [|y z (ds & Hy & Hds)]; [reflexivity|]. destruct Hds as [E|(f & b0 & E)]; rewrite HP in E; [discriminate|].
    injection E as <- <- <-. destruct Hy. }
  subst q. destruct Hout as [[_ H]|[(ds & b0 & H)|[_ (q & Hi & _)]]].
  - contradiction.
  - rewrite HP in H. discriminate.
  - revert HP. destruct Hi as [p q (ds & Hq' & [E|(f & b0 & E)]) _|p s0 ds2 q (ds & Hq' & [E|(f & b0 & E)]) _ _]; intros HP; rewrite HP in E; try discriminate; injection E as <- <- <-; destruct Hq'.
Qed.

Lemma javac_missing cwd home glob_ e e' ss srcs tgt o b :
  in_order cwd home glob_ e (jscript ss [(JJavac srcs tgt o [], b)]) -> in_order cwd home glob_ e' (jscript ss [(JJavac srcs tgt o [], b)]).
Proof.
  intros H. split; try apply H. intros s d Hs Hd.
  assert (E : In d srcs).
  { unfold jscript in Hs. cbn [flat_map fst snd jstmts app] in Hs. rewrite app_nil_r in Hs. apply in_app_iff in Hs. destruct Hs as [Hs|Hs].
    - apply in_map_iff in Hs. destruct Hs as (x & <- & _). destruct Hd.
    - apply in_app_iff in Hs. destruct Hs as [Hs|[<-|[]]]; [apply in_map_iff in Hs; destruct Hs as (x & <- & _); destruct Hd|].
      cbn [deps_of] in Hd. unfold expand_names in Hd. apply in_flat_map in Hd. destruct Hd as (x & Hx & Hd).
      assert (S : has_star x = false).
      { apply (io_star _ _ _ _ _ H (SSource x)); [|now left]. unfold jscript. cbn [flat_map fst snd jstmts app]. rewrite app_nil_r.
        apply in_app_iff. right. apply in_app_iff. left. now apply in_map. }
      rewrite S in Hd. destruct Hd as [<-|[]]. exact Hx. }
  right. left. apply in_map. apply in_flat_map. exists (SSource d). split; [|now left].
  unfold jscript. cbn [flat_map fst snd jstmts app]. rewrite app_nil_r. apply in_app_iff. right. apply in_app_iff. left. now apply in_map.
Qed.
