(** Lemmas: successful builds, repeated builds, histories. *)
From Coq Require Import Permutation.
From Verif Require Import PyBase PyPath SolverModel SpecGraph InvokerModel SpecTrace InvokerProofs InvokerInv
  InvokerThms InvokerPath CoreModel SpecCore CoreProofs NeedProofs RuProofs CoreThms MakeModel MakeEval SpecMake
  MakeProofs MakeFacts MakeBuild MakeStatus.

Lemma view_other fs fs' ca q : fs' q = fs q -> view fs' ca q = view fs ca q.
Proof. unfold view, stat. now intros ->. Qed.
Lemma stat_other fs fs' q : fs' q = fs q -> stat fs' q = stat fs q.
Proof. unfold stat. now intros ->. Qed.
Lemma stat_exists fs q : fi_exist (stat fs q) = true <-> fs q <> None.
Proof. unfold stat. destruct (fs q) as [[m n]|]; simpl; split; congruence. Qed.
Lemma stat_missing fs q : fs q = None -> stat fs q = FI false 0.
Proof. unfold stat. now intros ->. Qed.

Section Success.
  Variable canon : string -> string.
  Variable kind : nat -> mkind.
  Variable P : project.
  Variables (c : core) (i : nat) (fs : fsys) (now : nat) (w0 : world).
  Local Notation nm j := (t_name (obj c j)).
  Local Notation cone := (in_cone canon c i).
  Local Notation run_of := (run_of canon kind false P c i fs now).

  Definition all_done (l : list (nat * tres)) : Prop := forall j r, In (j, r) l -> r = RNotFalse.
  Lemma success_all_done l w : run_of l w0 w -> (forall j, cone j -> In (j, RNotFalse) l) -> all_done l.
  Proof.
    intros R H j r Hj. pose proof (H j (ro_cone _ _ _ _ _ _ _ _ _ _ _ R j r Hj)) as Hj'.
    pose proof (ro_nodup _ _ _ _ _ _ _ _ _ _ _ R) as Nd. clear - Nd Hj Hj'.
    induction l as [|[k r'] l IH]; [destruct Hj|]. simpl in Nd. inversion Nd as [|? ? N1 N2]; subst.
    destruct Hj as [Hj|Hj], Hj' as [Hj'|Hj']; auto.
    - congruence.
    - injection Hj as -> ->. exfalso. apply N1. apply in_map_iff. now exists (j, RNotFalse).
    - injection Hj' as -> ->. exfalso. apply N1. apply in_map_iff. now exists (j, r).
  Qed.

  Lemma makedirs_other g p m q : q <> p -> ~ In q (ancestors p) -> makedirs g p m q = g q.
  Proof.
    intros H1 H2. unfold makedirs. apply String.eqb_neq in H1. rewrite H1. destruct (g q); [reflexivity|].
    destruct (smem String.eqb q (ancestors p)) eqn:E; [|reflexivity].
    apply (smem_In String.eqb string_eqb_spec') in E. contradiction.
  Qed.
  Lemma makedirs_there g p m q : g q <> None -> q <> p -> makedirs g p m q = g q.
  Proof.
    intros H1 H2. unfold makedirs. apply String.eqb_neq in H2. rewrite H2. now destruct (g q).
  Qed.

  (** The file cache during a build without failures. *)
  Lemma run_cache l w : run_of l w0 w -> all_done l ->
    (forall j, cone j -> file_kind (kind j) -> view (w_fs w) (w_cache w) (nm j) = stat (w_fs w) (nm j)) /\
    (forall j, cone j -> kind j = MDir ->
       (view (w_fs w) (w_cache w) (nm j) = stat (w_fs w) (nm j) \/
        view (w_fs w) (w_cache w) (nm j) = stat fs (nm j)) /\
       (In j (map fst l) -> view (w_fs w) (w_cache w) (nm j) = stat (w_fs w) (nm j) /\ w_fs w (nm j) <> None)).
  Proof.
    intros R. pattern l, w. revert l w R. apply run_ind; cbv beta.
    - intros R _. destruct (ro_start _ _ _ _ _ _ _ _ _ _ _ R) as (E & _).
      pose proof (ro_view _ _ _ _ _ _ _ _ _ _ _ R) as V. rewrite <- E in V.
      split.
      + intros j Hj Hk. apply V; [exact Hj|]. destruct Hk as [Hk|(f & b & Hk)]; now rewrite Hk.
      + intros j Hj Hk. split; [|intros []]. left. apply V; [exact Hj|]. now rewrite Hk.
    - intros l w1 k r w R IH R' T Hk Hnk _ Hall.
      assert (Hall1 : all_done l) by (intros j r0 H; apply (Hall j r0); apply in_app_iff; now left).
      assert (Hr : r = RNotFalse) by (apply (Hall k r); apply in_app_iff; right; now left).
      destruct (IH Hall1) as [IF ID]. clear IH.
      pose proof (ro_imp _ _ _ _ _ _ _ _ _ _ _ R) as Him.
      pose proof (task_call canon kind P c i fs now w0 l w1 k r w R Hk T) as C.
      assert (Inj : forall j, cone j -> j <> k -> nm j <> nm k).
      { intros j Hj Hne E. apply Hne. now apply (run_inj canon kind P c i fs now w0 l w1 j k R). }
      assert (Own : forall j, cone j -> file_kind (kind j) -> j <> k -> w_fs w (nm j) = w_fs w1 (nm j)).
      { intros j Hj Hf Hne. apply (run_own canon kind false P c i fs now w0 l w1 k r w (nm j) R Hk T).
        - now apply (file_kind_p canon kind P c i Him j Hj).
        - now apply Inj. }
      (* directories other than the one being made *)
      assert (DirSame : forall j, cone j -> kind j = MDir ->
                 (view (w_fs w) (w_cache w) (nm j) = view (w_fs w1) (w_cache w1) (nm j)) ->
                 w_fs w (nm j) = w_fs w1 (nm j) -> (j <> k) ->
         (view (w_fs w) (w_cache w) (nm j) = stat (w_fs w) (nm j) \/
          view (w_fs w) (w_cache w) (nm j) = stat fs (nm j)) /\
         (In j (map fst (l ++ [(k, r)])) -> view (w_fs w) (w_cache w) (nm j) = stat (w_fs w) (nm j) /\ w_fs w (nm j) <> None)).
      { intros j Hj Hkj Ev Ef Hne. destruct (ID j Hj Hkj) as [A B].
        rewrite Ev, Ef, (stat_other _ _ _ Ef). split; [exact A|]. rewrite map_app, in_app_iff. simpl.
        intros [H|[H|[]]]; [auto|congruence]. }
      destruct C as [Hd Hn _ ->|f b v m Ek Hn _ Hb Hm Ht Ef Ec Er|f b Ek Hn Hr' Ef Er|Ek Hn _ Ef V1 V2 Er
                    |Ek Hn _ ->|Ek _ Ef Er V Hx|m ca' Ek _ Hf Ef Hm Hx V Vs Ec Er|Ek Hr' _ _ _]; try congruence.
      + split; [exact IF|]. intros j Hj Hkj. apply DirSame; auto. intros ->. congruence.
      + split.
        * intros j Hj Hfj. rewrite Ec, view_update_info. destruct (String.eqb_spec (nm j) (nm k)) as [E|n]; [now rewrite E|].
          assert (Hne : j <> k) by congruence.
          rewrite (view_other _ _ _ _ (Own j Hj Hfj Hne)), (stat_other _ _ _ (Own j Hj Hfj Hne)). auto.
        * intros j Hj Hkj. assert (Hne : j <> k) by congruence. specialize (Inj j Hj Hne).
          assert (E : w_fs w (nm j) = w_fs w1 (nm j)) by (rewrite Ef; now apply fs_set_neq).
          apply DirSame; auto. rewrite Ec, view_update_info. apply String.eqb_neq in Inj. rewrite Inj.
          now apply view_other.
      + split.
        * intros j Hj Hfj. rewrite Ef. destruct (Nat.eq_dec j k) as [->|Hne]; [exact V1|].
          rewrite V2 by (now apply Inj). auto.
        * intros j Hj Hkj. assert (Hne : j <> k) by congruence. apply DirSame; auto; [|now rewrite Ef].
          rewrite Ef. now apply V2, Inj.
      + split; [exact IF|]. intros j Hj Hkj. apply DirSame; auto. intros ->. congruence.
      + split.
        * intros j Hj Hfj. rewrite Ef, V. auto.
        * intros j Hj Hkj. destruct (Nat.eq_dec j k) as [->|Hne].
          -- rewrite Ef, V. destruct (ID k Hj Hkj) as [[A|A] _].
             ++ split; [now left|]. intros _. split; [exact A|]. rewrite A in Hx. now apply stat_exists.
             ++ assert (Hfs : fs (nm k) <> None) by (apply stat_exists; now rewrite <- A).
                assert (Hkeep : w_fs w1 (nm k) = fs (nm k))
                  by (apply (run_dir_kept canon kind false P c i fs now w0 l w1 R k Hj Hkj Hfs)).
                assert (A' : view (w_fs w1) (w_cache w1) (nm k) = stat (w_fs w1) (nm k))
                  by (rewrite A; symmetry; now apply stat_other).
                split; [now left|]. intros _. split; [exact A'|]. congruence.
          -- apply DirSame; auto; [|now rewrite Ef]. now rewrite Ef.
      + split.
        * intros j Hj Hfj. assert (Hne : j <> k) by (intros ->; destruct Hfj as [E|(f & b & E)]; congruence).
          rewrite Ec, view_update_info. specialize (Inj j Hj Hne). apply String.eqb_neq in Inj. rewrite Inj.
          assert (E := Own j Hj Hfj Hne). rewrite (view_other _ _ _ _ E), (stat_other _ _ _ E), V. auto.
        * intros j Hj Hkj. destruct (Nat.eq_dec j k) as [->|Hne].
          -- assert (Ev : view (w_fs w) (w_cache w) (nm k) = stat (w_fs w) (nm k))
               by (rewrite Ec, view_update_info; now rewrite String.eqb_refl).
             split; [now left|]. intros _. split; [exact Ev|]. rewrite Ef. unfold makedirs.
             rewrite String.eqb_refl. discriminate.
          -- specialize (Inj j Hj Hne).
             assert (Ev : view (w_fs w) (w_cache w) (nm j) = view (w_fs w) ca' (nm j)).
             { rewrite Ec, view_update_info. apply String.eqb_neq in Inj. now rewrite Inj. }
             destruct (w_fs w1 (nm j)) as [e|] eqn:E1.
             ++ assert (E : w_fs w (nm j) = w_fs w1 (nm j)).
                { rewrite Ef. apply makedirs_there; [congruence|exact Inj]. }
                apply DirSame; auto. rewrite Ev, (view_other _ _ _ _ E). apply V.
             ++ assert (Hnl : ~ In j (map fst l)).
                { intros H. destruct (ID j Hj Hkj) as [_ B]. destruct (B H) as [_ B']. congruence. }
                assert (Hfs : fs (nm j) = None).
                { destruct (fs (nm j)) eqn:E; [|reflexivity]. exfalso.
                  assert (w_fs w1 (nm j) = fs (nm j)).
                  { apply (run_dir_kept canon kind false P c i fs now w0 l w1 R j Hj Hkj). congruence. }
                  congruence. }
                split.
                ** rewrite Ev. unfold view at 1 2. destruct (sget ca' (nm j)) as [x|] eqn:Es; [|now left].
                   right. destruct (ID j Hj Hkj) as [A _]. specialize (V (nm j)). unfold view in V at 1.
                   rewrite Es in V. rewrite V. destruct A as [A|A]; rewrite A; [|reflexivity].
                   rewrite !stat_missing; auto.
                ** rewrite map_app, in_app_iff. simpl. intros [H|[H|[]]]; [contradiction|congruence].
  Qed.

  Section Done.
    Variables (l : list (nat * tres)) (w : world).
    Hypothesis R : run_of l w0 w.
    Hypothesis Hsucc : forall j, cone j -> In (j, RNotFalse) l.

    Lemma done_dirs j : cone j -> kind j = MDir -> w_fs w (nm j) <> None.
    Proof.
      intros Hj Hk. apply (run_cache l w R (success_all_done l w R Hsucc)); auto.
      apply in_map_iff. exists (j, RNotFalse). auto.
    Qed.
    Lemma done_cache : cache_current canon kind c i (w_fs w) (w_cache w).
    Proof.
      intros j x Hj Hk Hs.
      assert (E : view (w_fs w) (w_cache w) (nm j) = stat (w_fs w) (nm j)).
      { destruct (run_cache l w R (success_all_done l w R Hsucc)) as [A B].
        destruct (kind j) as [f b| | | |] eqn:Ek; try contradiction.
        - apply A; [exact Hj|]. right. eauto.
        - apply A; [exact Hj|]. now left.
        - apply B; auto. apply in_map_iff. exists (j, RNotFalse). auto. }
      unfold view in E. now rewrite Hs in E.
    Qed.

    (** A target that did not need an update: nothing at or below it was touched. *)
    Lemma idle_below j : cone j -> kind j <> MDir -> t_need (obj c j) = Some false ->
      ~ needs_update P fs (nm j) /\
      forall q, p_cone P (nm j) q -> is_file P q -> w_fs w q = fs q.
    Proof.
      intros Hj Hkj Hn. destruct (ro_need _ _ _ _ _ _ _ _ _ _ _ R j Hj) as (b & Eb & E).
      rewrite Hn in Eb. injection Eb as <-.
      assert (N1 : ~ needs_update P fs (nm j)) by (intros H; assert (false = true) by (apply E; auto); discriminate).
      assert (N2 : ~ dir_missing canon kind c fs j) by (intros H; assert (false = true) by (apply E; auto); discriminate).
      split; [exact N1|]. intros q Hq Hf.
      pose proof (ro_imp _ _ _ _ _ _ _ _ _ _ _ R) as Him. pose proof (ro_wf _ _ _ _ _ _ _ _ _ _ _ R) as Hw.
      destruct (p_cone_obj canon kind P c i Hw Him j q Hj Hkj Hq) as (k & Hk & Hkk & <-).
      assert (Hck : cone k) by (eapply rt_trans; eauto).
      destruct Hf as [Hf|Hf]; [now apply (run_source canon kind false P c i fs now w0 l w R)|].
      destruct (rule_kind canon kind P c i Him k Hck Hf) as (f & b & ds & Ek & _).
      assert (Hnk : t_need (obj c k) = Some false).
      { destruct (ro_need _ _ _ _ _ _ _ _ _ _ _ R k Hck) as ([|] & Ebk & E'); [|exact Ebk]. exfalso.
        destruct (proj1 E' eq_refl) as [[_ (x & Hx & Ho)]|(x & Hx & Hkx & Hfx)].
        - apply N1. exists x. split; [eapply rt_trans; eauto|exact Ho].
        - apply N2. exists x. split; [eapply rt_trans; eauto|auto]. }
      destruct (run_status canon kind P c i fs now w0 l w R k f b Hck Ek) as [A|_ _ A _|m v _ A|r _ _ A]; try congruence.
    Qed.

    Lemma done_up_to_date :
      (forall j f b, cone j -> kind j = MFile f b -> f = false) ->
      (forall j, cone j -> kind j = MSource -> fs (nm j) <> None) ->
      forall j, cone j -> kind j <> MDir -> ~ needs_update P (w_fs w) (nm j).
    Proof.
      intros Hnf Hsrc j Hj Hkj (q & Hq & Ho).
      pose proof (ro_imp _ _ _ _ _ _ _ _ _ _ _ R) as Him. pose proof (ro_wf _ _ _ _ _ _ _ _ _ _ _ R) as Hw.
      destruct (p_cone_obj canon kind P c i Hw Him j q Hj Hkj Hq) as (k & Hk & Hkk & <-).
      assert (Hck : cone k) by (eapply rt_trans; eauto).
      assert (Hrule : is_rule P (nm k) -> exists f b, kind k = MFile f b /\
         ((t_need (obj c k) = Some false) \/
          t_need (obj c k) = Some true /\ exists m v, w_fs w (nm k) = Some (m, Reg v) /\
            (forall x mx nx, input canon kind c k x -> w_fs w (nm x) = Some (mx, nx) -> mx <= m))).
      { intros Hr. destruct (rule_kind canon kind P c i Him k Hck Hr) as (f & b & ds & Ek & _).
        exists f, b. split; [exact Ek|].
        destruct (ro_need _ _ _ _ _ _ _ _ _ _ _ R k Hck) as ([|] & Ebk & _); [right|now left].
        split; [exact Ebk|].
        destruct (run_contents canon kind P c i fs now w0 l w R k f b Hck Ek (Hsucc k Hck) Ebk) as (m & v & A & _ & _ & B & _).
        eauto. }
      destruct Ho as [[[Hf|Hf] Hno]|[(ds & b & Hr)|(Hr & y & Hin & Hnew)]].
      - rewrite (run_source canon kind false P c i fs now w0 l w R _ Hf) in Hno.
        apply (Hsrc k Hck); [|exact Hno].
        destruct (Him k Hck) as [_ HI]. destruct (kind k) as [f b| | | |]; try congruence.
        + destruct HI as (ds & HI & _). congruence.
        + destruct HI as (ds & HI & _). congruence.
        + contradiction.
      - destruct (Hrule Hf) as (f & b & Ek & [Hn|(_ & m & v & E & _)]); [|congruence].
        destruct (idle_below k Hck Hkk Hn) as [N S]. apply N. exists (nm k). split; [apply rt_refl|].
        left. split; [now right|]. rewrite <- (S (nm k)); [exact Hno|apply rt_refl|now right].
      - destruct (rule_kind canon kind P c i Him k Hck) as (f & b' & ds' & Ek & HP & _); [exists true, ds, b; exact Hr|].
        specialize (Hnf k f b' Hck Ek). congruence.
      - destruct (Hrule Hr) as (f & b & Ek & [Hn|(_ & m & v & E & Hd)]).
        + destruct (idle_below k Hck Hkk Hn) as [N S]. apply N. exists (nm k). split; [apply rt_refl|].
          right. right. split; [exact Hr|]. exists y. split; [exact Hin|].
          destruct Hnew as (mq & nq & mp & np & A & B & C). exists mq, nq, mp, np.
          rewrite <- (S (nm k)), <- (S y); auto; [now apply p_input_below|now apply (p_input_file P (nm k))|apply rt_refl|now right].
        + destruct (p_input_obj canon kind P c i Hw Him _ _ Hin k Hck Hkk eq_refl) as (x & Hx & <-).
          destruct Hnew as (mq & nq & mp & np & A & B & C). specialize (Hd x mq nq Hx A).
          rewrite E in B. injection B as -> _. lia.
    Qed.
  End Done.

  (** A build that finds nothing to do. *)
  Lemma run_nothing l w : run_of l w0 w ->
    (forall j, cone j -> kind j <> MDir -> ~ needs_update P fs (nm j)) ->
    (forall j, cone j -> kind j = MDir -> fs (nm j) <> None) ->
    w_fs w = fs /\ w_ran w = [] /\
    (forall j, cone j -> kind j = MDir -> view fs (w_cache w) (nm j) = stat fs (nm j)).
  Proof.
    intros R. pattern l, w. revert l w R. apply run_ind; cbv beta.
    - intros R _ _. destruct (ro_start _ _ _ _ _ _ _ _ _ _ _ R) as (E & _ & _ & E').
      split; [exact E|]. split; [exact E'|]. intros j Hj Hk.
      apply (ro_view _ _ _ _ _ _ _ _ _ _ _ R); [exact Hj|]. now rewrite Hk.
    - intros l w1 k r w R IH R' T Hk Hnk _ Hup Hdir. destruct (IH Hup Hdir) as (E & Er & Ev).
      assert (Hn : t_need (obj c k) = Some false).
      { destruct (ro_need _ _ _ _ _ _ _ _ _ _ _ R k Hk) as ([|] & Eb & E0); [|exact Eb]. exfalso.
        destruct (proj1 E0 eq_refl) as [[A B]|(x & Hx & Hkx & Hfx)]; [now apply (Hup k)|].
        apply (Hdir x); auto. eapply rt_trans; eauto. }
      pose proof (task_call canon kind P c i fs now w0 l w1 k r w R Hk T) as C.
      destruct C as [Hd _ _ ->|f b v m Ek Hn' _ Hb Hm Ht Ef Ec Er'|f b Ek Hn' Hr' Ef Er'|Ek Hn' _ Ef V1 V2 Er'
                    |Ek Hn' _ ->|Ek _ Ef Er' V Hx|m ca' Ek _ Hf Ef Hm Hx V Vs Ec Er'|Ek Hr' _ Hx _]; try congruence.
      + auto.
      + split; [congruence|]. split; [congruence|]. intros j Hj Hkj. rewrite E in V. rewrite V. auto.
      + rewrite E in Hf. now destruct (Hdir k Hk Ek).
      + rewrite E, (Ev k Hk Ek) in Hx. exfalso. apply (Hdir k Hk Ek).
        destruct (fs (nm k)) as [[m n]|] eqn:Ek'; [|reflexivity]. unfold stat in Hx. rewrite Ek' in Hx. discriminate.
  Qed.
End Success.

(** ** Histories (C30) *)
Section History.
  Variable canon : string -> string.
  Variable P : project.
  Hypothesis Hro : reads_only P.

  (** A file that is not older than its inputs has the content that they ask for. *)
  Definition faithful (fs : fsys) : Prop :=
    forall p f ds b m v, P p = Some (DRule f ds b) -> fs p = Some (m, Reg v) ->
    (forall q, p_input P p q -> exists mq nq, fs q = Some (mq, nq) /\ mq <= m) ->
    b (contents fs) = Some v.
  Definition no_dirs (fs : fsys) : Prop := forall p m, is_file P p -> fs p <> Some (m, Dir).

  Lemma run_faithful kind c i fs now l w0 w : dated fs now -> faithful fs ->
    run_of canon kind false P c i fs now l w0 w -> faithful (w_fs w).
  Proof.
    intros Hda Hf R p f ds b m v HP Ep Hin.
    pose proof (ro_imp _ _ _ _ _ _ _ _ _ _ _ R) as Him. pose proof (ro_wf _ _ _ _ _ _ _ _ _ _ _ R) as Hw.
    assert (Hfile : is_file P p) by (right; exists f, ds, b; exact HP).
    (* a file with an old date is as before *)
    assert (Old : forall q mq nq, is_file P q -> w_fs w q = Some (mq, nq) -> mq <= now -> w_fs w q = fs q).
    { intros q mq nq Hq Eq Hle.
      destruct (run_frame canon kind false P c i fs now w0 l w R q) as
        [E|[(j & _ & Hj & -> & (f' & b' & Ek) & _)|(_ & (j & _ & Hj & Hk & Ej) & _)]].
      - exact E.
      - destruct (run_status canon kind P c i fs now w0 l w R j f' b' Hj Ek) as [_ A _|_ _ A _|m' v' _ _ A B _ _|r _ _ _ A _ _]; auto.
        + rewrite Eq in A. injection A as -> _. lia.
        + destruct A as [A|A]; [exact A|congruence].
      - exfalso. destruct (Him j Hj) as [_ HI]. rewrite Hk in HI. now apply (proj1 HI q). }
    destruct (Nat.le_gt_cases m now) as [Hle|Hgt].
    - assert (E := Old p m (Reg v) Hfile Ep Hle).
      assert (Es : forall q, p_input P p q -> w_fs w q = fs q).
      { intros q Hq. destruct (Hin q Hq) as (mq & nq & Eq & Hmq).
        apply (Old q mq nq); [now apply (p_input_file P p)|exact Eq|lia]. }
      rewrite (Hro p f ds b HP (contents (w_fs w)) (contents fs)).
      + apply (Hf p f ds b m v HP); [congruence|]. intros q Hq.
        destruct (Hin q Hq) as (mq & nq & Eq & Hmq). exists mq, nq. rewrite <- (Es q Hq). auto.
      + intros q Hq. unfold contents. now rewrite (Es q Hq).
    - destruct (run_frame canon kind false P c i fs now w0 l w R p) as
        [E|[(j & Hjl & Hj & -> & (f' & b' & Ek) & Hn)|(_ & (j & _ & Hj & Hk & Ej) & _)]].
      + rewrite E in Ep. specialize (Hda p m (Reg v) Ep). lia.
      + assert (Eb : b' = b).
        { destruct (Him j Hj) as [_ HI]. rewrite Ek in HI. destruct HI as (ds' & HI & _). congruence. }
        subst b'.
        destruct (run_status canon kind P c i fs now w0 l w R j f' b Hj Ek) as [A _ _|_ A _ _|m' v' A B E _ _ _|r _ _ _ A _ _].
        * contradiction.
        * congruence.
        * destruct (run_contents canon kind P c i fs now w0 l w R j f' b Hj Ek A B) as (m2 & v2 & E2 & _ & Hb & _).
          rewrite Ep in E2. injection E2 as _ ->. now apply Hb.
        * destruct A as [A|A]; [|congruence]. rewrite A in Ep. specialize (Hda _ m (Reg v) Ep). lia.
      + exfalso. destruct (Him j Hj) as [_ HI]. rewrite Hk in HI. now apply (proj1 HI p).
  Qed.

  Lemma run_no_dirs kind c i fs now l w0 w : no_dirs fs ->
    run_of canon kind false P c i fs now l w0 w -> no_dirs (w_fs w).
  Proof.
    intros Hn R p m Hp E.
    pose proof (ro_imp _ _ _ _ _ _ _ _ _ _ _ R) as Him.
    destruct (run_frame canon kind false P c i fs now w0 l w R p) as
        [E'|[(j & Hjl & Hj & -> & (f' & b' & Ek) & Hn')|(_ & (j & _ & Hj & Hk & Ej) & _)]].
    - apply (Hn p m Hp). congruence.
    - destruct (run_status canon kind P c i fs now w0 l w R j f' b' Hj Ek) as [_ A _|_ _ A _|m' v' _ _ A _ _ _|r _ _ _ [A|A] _ _];
        try (apply (Hn _ m Hp); congruence); congruence.
    - destruct (Him j Hj) as [_ HI]. rewrite Hk in HI. now apply (proj1 HI p).
  Qed.

  Lemma outside_ok fs now fs' now' : dated fs now -> faithful fs -> no_dirs fs -> outside_step P fs now fs' now' ->
    dated fs' now' /\ faithful fs' /\ no_dirs fs'.
  Proof.
    intros Hd Hf Hn [Hle Hs]. split; [|split].
    - intros p m n E. destruct (Hs p) as [G|[G|[(_ & m' & v & G & L)|(_ & m' & n' & G & L)]]]; rewrite G in E.
      + specialize (Hd p m n E). lia.
      + discriminate.
      + injection E as -> _. lia.
      + injection E as -> _. lia.
    - intros p f ds b m v HP E Hin.
      assert (Ep : fs' p = fs p).
      { destruct (Hs p) as [G|[G|[(G & _)|(G & _)]]]; [exact G|congruence|congruence|].
        exfalso. apply G. right. exists f, ds, b. exact HP. }
      assert (Hm : m <= now) by (apply (Hd p m (Reg v)); congruence).
      assert (Es : forall q, p_input P p q -> fs' q = fs q).
      { intros q Hq. destruct (Hin q Hq) as (mq & nq & Eq & Hmq).
        destruct (Hs q) as [G|[G|[(_ & m' & v' & G & L)|(G & _)]]]; [exact G|congruence| |].
        - rewrite G in Eq. injection Eq as -> _. lia.
        - exfalso. apply G. now apply (p_input_file P p). }
      rewrite (Hro p f ds b HP (contents fs') (contents fs)).
      + apply (Hf p f ds b m v HP); [congruence|]. intros q Hq.
        destruct (Hin q Hq) as (mq & nq & Eq & Hmq). exists mq, nq. rewrite <- (Es q Hq). auto.
      + intros q Hq. unfold contents. now rewrite (Es q Hq).
    - intros p m Hp E. destruct (Hs p) as [G|[G|[(_ & m' & v & G & L)|(G & _)]]].
      + apply (Hn p m Hp). congruence.
      + congruence.
      + congruence.
      + contradiction.
  Qed.
  Lemma history_ok fs now : history canon P fs now -> dated fs now /\ faithful fs /\ no_dirs fs.
  Proof.
    induction 1 as [fs now Hd Hr Hn|fs now fs' now' _ (Hd & Hf & Hn) Ho|fs now kind other_if c i ca c1 objs s _ (Hd & Hf & Hn) Him Hb].
    - split; [exact Hd|]. split; [|exact Hn]. intros p f ds b m v HP E. rewrite Hr in E; [discriminate|].
      exists f, ds, b. exact HP.
    - eapply outside_ok; eauto.
    - destruct (build_run canon kind other_if false P c i fs now ca c1 objs s Him Hb) as (_ & w0 & l & R & _).
      split; [now apply (run_times canon kind false P c1 i fs now w0 l (s_world s) R)|]. split.
      + eapply run_faithful; eauto.
      + eapply run_no_dirs; eauto.
  Qed.

  (** After success every file of the cone has the right content. *)
  Lemma inputs_in_prefix kind c i fs now l w0 w : run_of canon kind false P c i fs now l w0 w ->
    forall j k, input canon kind c j k -> forall l1 l2 r, l = l1 ++ (j, r) :: l2 -> In (k, RNotFalse) l1.
  Proof.
    intros R j k Hk'. pose proof (ro_wf _ _ _ _ _ _ _ _ _ _ _ R) as Hw.
    induction Hk' as [j d k Hdd Hg Hkk|j d s k Hdd Hg Hkk Hin IH]; intros l1 l2 r El.
    - apply (ro_deps _ _ _ _ _ _ _ _ _ _ _ R l1 j r l2 El). exists d. split; [exact Hdd|]. now apply get_resolves.
    - assert (Ds : In (s, RNotFalse) l1).
      { apply (ro_deps _ _ _ _ _ _ _ _ _ _ _ R l1 j r l2 El). exists d. split; [exact Hdd|now apply get_resolves]. }
      apply in_split in Ds. destruct Ds as (a & b & ->). apply in_app_iff. left.
      rewrite <- app_assoc in El. simpl in El. apply (IH a (b ++ (j, r) :: l2) RNotFalse El).
  Qed.

  (** So has, at any time, every file whose own call has succeeded. *)
  Lemma done_contents kind c i fs now l w0 w : dated fs now -> faithful fs -> no_dirs fs ->
    run_of canon kind false P c i fs now l w0 w ->
    forall j, In (j, RNotFalse) l -> file_kind (kind j) ->
      right_content P (contents (w_fs w)) (t_name (obj c j)) (contents (w_fs w) (t_name (obj c j))).
  Proof.
    intros Hd Hf Hnd R.
    pose proof (ro_imp _ _ _ _ _ _ _ _ _ _ _ R) as Him. pose proof (ro_wf _ _ _ _ _ _ _ _ _ _ _ R) as Hw.
    assert (G : forall n l1 j l2, l = l1 ++ (j, RNotFalse) :: l2 -> List.length l1 < n -> file_kind (kind j) ->
      right_content P (contents (w_fs w)) (t_name (obj c j)) (contents (w_fs w) (t_name (obj c j)))).
    { induction n as [|n IH]; intros l1 j l2 El Hlen Hk; [lia|].
      assert (Hl : In (j, RNotFalse) l) by (rewrite El; apply in_app_iff; right; now left).
      assert (Hj : in_cone canon c i j).
      { exact (ro_cone _ _ _ _ _ _ _ _ _ _ _ R j _ Hl). }
      assert (Hkd : kind j <> MDir) by (intros E; destruct Hk as [Hk|(f & b & Hk)]; congruence).
      assert (Hin : forall q, p_input P (t_name (obj c j)) q -> right_content P (contents (w_fs w)) q (contents (w_fs w) q)).
      { intros q Hq. destruct (p_input_obj canon kind P c i Hw Him _ _ Hq j Hj Hkd eq_refl) as (k & Hk' & <-).
        destruct (input_cone canon kind c i Hw j k Hj Hk') as [_ Hfk].
        pose proof (inputs_in_prefix kind c i fs now l w0 w R j k Hk' l1 l2 RNotFalse El) as Hl1.
        apply in_split in Hl1. destruct Hl1 as (a & b & ->).
        apply (IH a k (b ++ (j, RNotFalse) :: l2)); [now rewrite El, <- app_assoc| |exact Hfk].
        rewrite app_length in Hlen. simpl in Hlen. lia. }
      destruct (Him j Hj) as [_ HI]. destruct Hk as [Hk|(f & b & Hk)]; rewrite Hk in HI.
      - apply rc_source. apply HI.
      - destruct HI as (ds & HP & _).
        assert (Hfin : exists m v, w_fs w (t_name (obj c j)) = Some (m, Reg v) /\ b (contents (w_fs w)) = Some v).
        { destruct (ro_need _ _ _ _ _ _ _ _ _ _ _ R j Hj) as ([|] & Hn & _).
          - destruct (run_contents canon kind P c i fs now w0 l w R j f b Hj Hk Hl Hn) as (m & v & E & _ & Hb & _).
            exists m, v. auto.
          - destruct (idle_below canon kind P c i fs now w0 l w R j Hj Hkd Hn) as [N S].
            assert (Hsame : w_fs w (t_name (obj c j)) = fs (t_name (obj c j)))
              by (apply S; [apply rt_refl|right; exists f, ds, b; exact HP]).
            assert (Hfile : is_file P (t_name (obj c j))) by (right; exists f, ds, b; exact HP).
            destruct (fs (t_name (obj c j))) as [[m [v|]]|] eqn:E.
            + exists m, v. split; [exact Hsame|].
              assert (Hsq : forall q, p_input P (t_name (obj c j)) q -> w_fs w q = fs q).
              { intros q Hq. apply S; [now apply p_input_below|now apply (p_input_file P (t_name (obj c j)))]. }
              rewrite (Hro _ f ds b HP (contents (w_fs w)) (contents fs))
                by (intros q Hq; unfold contents; now rewrite (Hsq q Hq)).
              apply (Hf _ f ds b m v HP E). intros q Hq.
              destruct (fs q) as [[mq nq]|] eqn:Eq.
              * exists mq, nq. split; [reflexivity|]. destruct (Nat.le_gt_cases mq m) as [Hle|Hgt]; [exact Hle|].
                exfalso. apply N. exists (t_name (obj c j)). split; [apply rt_refl|]. right. right.
                split; [exists f, ds, b; exact HP|]. exists q. split; [exact Hq|]. exists mq, nq, m, (Reg v). auto.
              * exfalso. apply N. exists q. split; [now apply p_input_below|]. left.
                split; [now apply (p_input_file P (t_name (obj c j)))|exact Eq].
            + exfalso. now apply (Hnd _ m Hfile).
            + exfalso. apply N. exists (t_name (obj c j)). split; [apply rt_refl|]. left. auto. }
        destruct Hfin as (m & v & E & Hb).
        replace (contents (w_fs w) (t_name (obj c j))) with (Some v) by (unfold contents; now rewrite E).
        eapply rc_rule; [exact HP| |exact Hb]. exact Hin. }
    intros j Hj Hk. apply in_split in Hj. destruct Hj as (l1 & l2 & El).
    apply (G (S (List.length l1)) l1 j l2 El); [lia|exact Hk].
  Qed.
  Lemma success_contents kind c i fs now l w0 w : dated fs now -> faithful fs -> no_dirs fs ->
    run_of canon kind false P c i fs now l w0 w -> (forall j, in_cone canon c i j -> In (j, RNotFalse) l) ->
    forall j, in_cone canon c i j -> file_kind (kind j) ->
      right_content P (contents (w_fs w)) (t_name (obj c j)) (contents (w_fs w) (t_name (obj c j))).
  Proof. intros Hd Hf Hnd R Hs j Hj. exact (done_contents kind c i fs now l w0 w Hd Hf Hnd R j (Hs j Hj)). Qed.

  (** The right content is determined by the sources. *)
  Lemma right_content_fun src src' p v : right_content P src p v ->
    (forall q, p_cone P p q -> P q = Some DSource -> src q = src' q) ->
    forall v', right_content P src' p v' -> v = v'.
  Proof.
    induction 1 as [p HP|p f ds b s v HP _ IH Hb]; intros Hs v' H'.
    - destruct H' as [p _|p f ds b s v HP' _ _]; [|congruence]. apply Hs; [apply rt_refl|exact HP].
    - destruct H' as [p HP'|p f' ds' b' s' v' HP' Hin' Hb']; [congruence|].
      rewrite HP in HP'. injection HP' as <- <- <-.
      rewrite <- Hb, <- Hb'. apply (Hro p f ds b HP). intros q Hq. apply (IH q Hq); [|now apply Hin'].
      intros x Hx. apply Hs. eapply rt_trans; [apply p_input_below; exact Hq|exact Hx].
  Qed.
End History.
