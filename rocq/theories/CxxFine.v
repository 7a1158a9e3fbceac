(** Lemmas: C++ scripts whose commands take time (C99). *)
From Verif Require Import PyBase PyPath SolverModel SpecGraph InvokerModel SpecTrace CoreModel SpecCore MakeModel UtilModel SpecMake
  RegModel CliModel SpecUtil SpecReg SpecProject SpecTrack SpecCxxTrack CxxTrack FineModel SpecFine FineProofs FineBuild SpecCxxFine.
Local Open Scope string_scope.
Local Open Scope list_scope.

Section CxxFine.
  Variables (cwd home : string) (glob_ : string -> list string) (its : list item).
  Hypothesis ho : honest cwd home glob_ its.
  Hypothesis hc : compiled_listed its.
  Notation path := (realpath cwd).
  Notation script := (script_at cwd its).
  Notation proj := (project_at cwd home glob_ its).
  Notation rules := (rules_in cwd home glob_ its).

  Lemma script_ext s s' : (forall q, s q = s' q) -> script s = script s'.
  Proof. intros E. unfold script_at. apply flat_map_ext. intros [st|u]; [reflexivity|]. cbn. now rewrite E. Qed.

  Theorem cxx_settled s0 : reads_settled (proj s0).
  Proof.
    intros p f ds b Hp. assert (Hb : rules p = Some b) by (apply (rules_at cwd home glob_ its ho s0); eauto).
    assert (Hh : forall u s v, In (IUnit u) its -> u_list u s = Some v -> forall h, In h (listed (Some v)) -> forall q, q = path (u_dep u) \/ q = path (u_obj u) ->
              p_input (proj s0) q (path h) \/ ~ is_rule (proj s0) (path h)).
    { intros u s v Hu Hv h Hin q Hq. destruct (rules (path h)) eqn:E.
      - left. destruct (ho_generated _ _ _ _ ho u s v h Hu Hv Hin) as [G1 G2]; [now rewrite E|].
        destruct Hq as [->| ->]; now apply (p_input_mono cwd home glob_ its ho).
      - right. intros H. now apply (is_rule_at cwd home glob_ its ho) in H. }
    destruct (rules_cases cwd home glob_ its ho p b Hb) as [(st & ds' & f' & Hi & Er)|[(u & Hu & -> & ->)|(u & Hu & -> & ->)]].
    - intros s s' Hs. apply (ho_others _ _ _ _ ho st p ds' f' b Hi Er). intros q Hq. apply Hs. left. now apply (p_input_mono cwd home glob_ its ho).
    - assert (G : forall s s' v, (forall q, p_input (proj s0) (path (u_dep u)) q \/ ~ is_rule (proj s0) q -> s q = s' q) -> u_list u s = Some v -> u_list u s' = Some v).
      { intros s s' v Hs Hv. apply (ho_list _ _ _ _ ho u s s' v Hu Hv).
        - symmetry. apply Hs. left. now apply (dep_src cwd home glob_ its ho).
        - intros h Hin. symmetry. apply Hs. eapply Hh; eauto. }
      intros s s' Hs. destruct (u_list u s) as [v|] eqn:E; [symmetry; now apply (G s)|].
      destruct (u_list u s') as [v|] eqn:E'; [|reflexivity]. assert (Hx : u_list u s = Some v) by (apply (G s'); [intros q Hq; symmetry; now apply Hs|exact E']). congruence.
    - assert (G : forall s s' o, (forall q, p_input (proj s0) (path (u_obj u)) q \/ ~ is_rule (proj s0) q -> s q = s' q) -> u_comp u s = Some o -> u_comp u s' = Some o).
      { intros s s' o Hs Ho. destruct (hc u s o Hu Ho) as (v & Hv). apply (ho_compile _ _ _ _ ho u s s' v o Hu Hv Ho).
        - symmetry. apply Hs. left. now apply (obj_src cwd home glob_ its ho).
        - intros h Hin. symmetry. apply Hs. eapply Hh; eauto. }
      intros s s' Hs. destruct (u_comp u s) as [v|] eqn:E; [symmetry; now apply (G s)|].
      destruct (u_comp u s') as [v|] eqn:E'; [|reflexivity]. assert (Hx : u_comp u s = Some v) by (apply (G s'); [intros q Hq; symmetry; now apply Hs|exact E']). congruence.
  Qed.

  Theorem fine_cxx_histories junk fs now : fine_cxx_history cwd home glob_ junk its fs now -> cxx_history cwd home glob_ junk its fs now.
  Proof.
    induction 1 as [fs now Hd Hr|fs now fs' now' _ IH Ho|fs now exists_ x th kind c1 objs sv n s h fs' now' _ IH Hdisk Hord Hx Hb Hj [Hnow Hl]].
    - now apply ch_start.
    - eapply ch_outside; eauto.
    - destruct (script_atom cwd home fs exists_ glob_ _ Hdisk Hord (cxx_settled _) true x th now kind c1 objs sv n s h Hx Hb)
        as (a & Ba & (Es & (_ & Eb & En & Er) & Ef) & _ & _ & _ & _ & Hm).
      assert (La : s_log a = s_log s) by (now rewrite Es).
      set (fs1 := fun p => match fs' p with Some e => Some e | None => w_fs (s_world a) p end).
      apply (ch_outside cwd home glob_ junk its fs1 now').
      + eapply ch_process; eauto.
        * intros p m v Hp Hv Hlt. destruct (Ef p) as [E|(t & f & b & Bt & Hk & _ & Hq)].
          -- apply (Hj p m v); [now rewrite Er|now rewrite E|now rewrite Eb].
          -- destruct (Hm t f b Bt Hk) as (_ & Hran & _). rewrite <- Hq in Hran. exfalso. apply (Hran false). now rewrite Er.
        * split; [now rewrite <- En|]. intros p. unfold fs1. destruct (fs' p) as [e|] eqn:E; [|now left].
          destruct (Hl p) as [[Nm Ep]|(t & f & b & (Bt & Hk & Hn & Hq) & Hc)].
          -- left. rewrite <- E, Ep. destruct (Ef p) as [->|Hbm]; [reflexivity|now elim Nm].
          -- destruct (Hm t f b Bt Hk) as (Hrule & Hran & Hend & Hbeg). rewrite <- Hq in Hrule, Hend, Hbeg.
             destruct Hc as [(s0 & B0 & E0)|[E0|(m & v & E0 & Hmm & Hjk)]].
             ++ left. rewrite <- E, E0. now apply Hbeg.
             ++ congruence.
             ++ right. split; [now apply (is_rule_at cwd home glob_ its ho (contents fs))|]. split.
                ** split; [exists t; split; [rewrite La; apply Bt|now symmetry]|]. rewrite La. exact Hend.
                ** exists m, v. rewrite <- E, E0, <- Eb. auto.
      + split; [apply le_n|]. intros p. unfold fs1. destruct (fs' p); auto.
  Qed.

  Section Success.
    Variables (fs : fsys) (now : nat) (exists_ : string -> bool) (x : string) (th : Z) (kind : nat -> mkind) (c1 : core) (objs : list nat) (sv : solver)
      (n : nat) (s : state world) (h : list (state world)).
    Hypothesis Hh : fine_cxx_history cwd home glob_ (empty_list cwd its) its fs now.
    Hypothesis Hdisk : disk_ok cwd (present fs) exists_.
    Hypothesis Hord : in_order cwd home glob_ exists_ (script (contents fs)).
    Hypothesis Hx : In x (flat_map (makes cwd home glob_) (script (contents fs))).
    Hypothesis Hb : fine_building cwd home exists_ glob_ true (script (contents fs)) x th fs now kind c1 objs sv n (s :: h).
    Hypothesis Hs : succeeded objs s.

    Lemma fine_cxx_atom : exists a, building cwd home exists_ glob_ true (script (contents fs)) x th fs now kind c1 objs sv a /\ succeeded objs a /\
      forall q, contents (w_fs (s_world a)) q = contents (w_fs (s_world s)) q.
    Proof.
      destruct (script_atom cwd home fs exists_ glob_ _ Hdisk Hord (cxx_settled _) true x th now kind c1 objs sv n s h Hx Hb)
        as (a & Ba & (Es & _ & Ef) & Hq & _).
      exists a. split; [exact Ba|]. split; [now apply (same_result objs s a Es)|].
      intros q. unfold contents. destruct (Ef q) as [->|H]; [reflexivity|]. exfalso. exact (Hq (proj1 Hs) q H).
    Qed.
    Theorem fine_cxx_right p b : p_cone (proj (contents fs)) x p -> rules p = Some b ->
      exists v, b (contents (w_fs (s_world s))) = Some v /\ contents (w_fs (s_world s)) p = Some v.
    Proof.
      intros Hp Hr. destruct fine_cxx_atom as (a & Ba & Sa & E).
      destruct (cxx_success cwd home glob_ its ho fs now exists_ x th kind c1 objs sv a (fine_cxx_histories _ _ _ Hh) Hdisk Hord Hx Ba Sa p Hp b Hr) as (v & E1 & E2).
      exists v. rewrite <- E. split; [|exact E2]. rewrite <- E1.
      destruct (proj1 (rules_at cwd home glob_ its ho nothing p b) Hr) as (f & ds & HP).
      apply (cxx_settled nothing p f ds b HP). intros q _. symmetry. apply E.
    Qed.
    Theorem fine_cxx_unit u : In (IUnit u) its -> p_cone (proj (contents fs)) x (path (u_obj u)) ->
      let s' := contents (w_fs (s_world s)) in
      exists l o, s' (path (u_dep u)) = Some l /\ u_list u s' = Some l /\ s' (path (u_obj u)) = Some o /\ u_comp u s' = Some o /\
        forall h, In h (listed (Some l)) -> p_input (proj s') (path (u_obj u)) (path h).
    Proof.
      intros Hu Hp s'. destruct fine_cxx_atom as (a & Ba & Sa & E).
      destruct (cxx_unit cwd home glob_ its ho fs now exists_ x th kind c1 objs sv a u (fine_cxx_histories _ _ _ Hh) Hdisk Hord Hx Ba Sa Hu Hp)
        as (l & o & E1 & _ & E3 & _ & Hl).
      destruct (fine_cxx_right _ _ Hp (obj_rule cwd home glob_ its ho u Hu)) as (o' & Eo & So).
      exists l, o. unfold s'. rewrite <- !E. split; [exact E1|].
      assert (Hsame : forall p b, rules p = Some b -> b (contents (w_fs (s_world s))) = b (contents (w_fs (s_world a)))).
      { intros p b Hr. destruct (proj1 (rules_at cwd home glob_ its ho nothing p b) Hr) as (f & ds & HP).
        apply (cxx_settled nothing p f ds b HP). intros q _. symmetry. apply E. }
      pose proof (cxx_unit cwd home glob_ its ho fs now exists_ x th kind c1 objs sv a u (fine_cxx_histories _ _ _ Hh) Hdisk Hord Hx Ba Sa Hu Hp)
        as (l2 & o2 & F1 & F2 & F3 & F4 & _). assert (l2 = l) as -> by congruence. assert (o2 = o) as -> by congruence.
      split; [rewrite (Hsame _ _ (dep_rule cwd home glob_ its ho u Hu)); exact F2|]. split; [exact E3|].
      split; [rewrite (Hsame _ _ (obj_rule cwd home glob_ its ho u Hu)); exact F4|].
      intros h0 Hin. unfold project_at. rewrite <- (script_ext _ _ E). now apply Hl.
    Qed.
  End Success.
End CxxFine.
