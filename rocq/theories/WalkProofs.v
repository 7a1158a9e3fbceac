(** Lemmas: what the functions that walk through directories find. *)
From Verif Require Import PyBase PyPath PathProofs UtilProofs SolverModel InvokerModel InvokerProofs CoreModel MakeModel RegModel SpecUtil SpecReg InstallModel SpecInstall
  InstallProofs WalkModel SpecWalk ScriptModel SpecScript.
Local Open Scope string_scope.
Local Open Scope list_scope.

Lemma entry_induction (P : entry -> Prop) :
  P EFile -> P ELink -> (forall l, (forall n e, In (n, e) l -> P e) -> P (EDir l)) -> forall e, P e.
Proof.
  intros Hf Hl Hd. fix IH 1. intros [| |l]; [exact Hf|exact Hl|]. apply Hd.
  revert l. fix IHl 1. intros [|[n e] l] m x H; [destruct H|]. destruct H as [H|H].
  - injection H as _ <-. apply IH.
  - exact (IHl l m x H).
Qed.

(** ** The files of a walk, as lists of names *)
Definition sel (keep : string -> string -> bool) (w : list (string * list string)) : list string :=
  flat_map (fun b => map (path_join (fst b)) (filter (keep (fst b)) (snd b))) w.
Definition file_names (l : list (string * entry)) : list string :=
  map fst (filter (fun ne => is_file_entry (snd ne)) l).
Fixpoint found (keep : list string -> string -> bool) (e : entry) : list (list string) :=
  match e with
  | EDir l =>
      map (fun n => [n]) (filter (keep []) (file_names l)) ++
      flat_map (fun ne => map (cons (fst ne)) (found (fun ds => keep (fst ne :: ds)) (snd ne))) l
  | _ => []
  end.

Lemma flat_map_concat {A B C} (f : A -> list B) (g : B -> list C) l : flat_map g (flat_map f l) = flat_map (fun x => flat_map g (f x)) l.
Proof. induction l as [|x l IH]; [reflexivity|]. cbn. now rewrite flat_map_app, IH. Qed.
Lemma map_flat_map {A B C} (f : A -> list B) (g : B -> C) l : map g (flat_map f l) = flat_map (fun x => map g (f x)) l.
Proof. induction l as [|x l IH]; [reflexivity|]. cbn. now rewrite map_app, IH. Qed.
Lemma flat_map_ext_in {A B} (f g : A -> list B) l : (forall x, In x l -> f x = g x) -> flat_map f l = flat_map g l.
Proof.
  intros H. induction l as [|x l IH]; [reflexivity|]. cbn. rewrite (H x), IH; [reflexivity| |now left].
  intros y Hy. apply H. now right.
Qed.

Lemma sel_found e : forall d keep, sel keep (walk_entry d e) = map (path_joins d) (found (fun ds => keep (path_joins d ds)) e).
Proof.
  induction e as [| |l IH] using entry_induction; intros d keep; [reflexivity|reflexivity|].
  cbn [walk_entry found]. unfold sel at 1. cbn [flat_map fst snd]. fold (sel keep).
  rewrite map_app, map_map, map_flat_map. cbn [path_joins fold_left]. f_equal.
  change (flat_map (fun b => map (path_join (fst b)) (filter (keep (fst b)) (snd b)))) with (sel keep).
  unfold sel. rewrite flat_map_concat. apply flat_map_ext_in. intros [n x] Hx. cbn [fst snd].
  rewrite map_map. etransitivity; [exact (IH n x Hx (path_join d n) keep)|]. reflexivity.
Qed.

Lemma file_names_in l n : In n (file_names l) <-> In (n, EFile) l.
Proof.
  unfold file_names. rewrite in_map_iff. split.
  - intros ([m e] & <- & H). apply filter_In in H. destruct H as [H E]. now destruct e.
  - intros H. exists (n, EFile). split; [reflexivity|]. apply filter_In. now split.
Qed.

Lemma found_spec e : forall keep ns,
  In ns (found keep e) <-> exists ds f, ns = ds ++ [f] /\ file_at e ns /\ keep ds f = true.
Proof.
  induction e as [| |l IH] using entry_induction; intros keep ns.
  - split; [intros []|]. intros (ds & f & _ & H & _). inversion H.
  - split; [intros []|]. intros (ds & f & _ & H & _). inversion H.
  - cbn [found]. rewrite in_app_iff, in_map_iff, in_flat_map. split.
    + intros [(n & <- & Hn)|([n x] & Hx & H)].
      * apply filter_In in Hn. destruct Hn as [Hn K]. apply file_names_in in Hn. exists [], n. repeat split; [now constructor|exact K].
      * cbn [fst snd] in H. apply in_map_iff in H. destruct H as (m & <- & Hm). apply (IH n x Hx) in Hm.
        destruct Hm as (ds & f & -> & Hf & K). exists (n :: ds), f. repeat split; [|exact K]. now apply fa_below with x.
    + intros (ds & f & E & Hf & K). inversion Hf as [l' n Hn E1 E2|l' n x m Hx Hm E1 E2]; subst l'; rewrite <- E2 in *; clear E2.
      * left. exists n. split; [reflexivity|]. destruct ds as [|d ds]; [|destruct ds; discriminate]. injection E as ->.
        apply filter_In. split; [now apply file_names_in|exact K].
      * right. exists (n, x). split; [exact Hx|]. cbn [fst snd]. apply in_map_iff.
        destruct ds as [|d ds]; cbn in E; injection E as -> E; [subst m; inversion Hm|].
        exists m. split; [reflexivity|]. apply (IH d x Hx). exists ds, f. now repeat split.
Qed.

Lemma nodup_flat {A B} (f : A -> list B) l : NoDup l -> (forall x, In x l -> NoDup (f x)) ->
  (forall x y z, In x l -> In y l -> In z (f x) -> In z (f y) -> x = y) -> NoDup (flat_map f l).
Proof.
  intros Hl Hf Hd. induction Hl as [|a l Ha Hl IH]; [constructor|]. cbn. apply NoDup_app_iff. split; [|split].
  - apply Hf. now left.
  - apply IH; [intros x Hx; apply Hf; now right|]. intros x y z Hx Hy. apply Hd; now right.
  - intros z Hz Hz'. apply in_flat_map in Hz'. destruct Hz' as (b & Hb & Hz').
    apply Ha. rewrite (Hd a b z); [exact Hb|now left|now right|exact Hz|exact Hz'].
Qed.

Lemma nodup_fst {A B} (l : list (A * B)) : NoDup (map fst l) -> NoDup l.
Proof. apply NoDup_map_inv. Qed.
Lemma fst_one {A B} (l : list (A * B)) n x y : NoDup (map fst l) -> In (n, x) l -> In (n, y) l -> x = y.
Proof.
  intros N. induction l as [|[m z] l IH]; [intros []|]. cbn in N. inversion N as [|? ? Hm Nl]; subst. intros [H|H] [H'|H'].
  - congruence.
  - injection H as -> ->. exfalso. apply Hm. now apply (in_map fst) in H'.
  - injection H' as -> ->. exfalso. apply Hm. now apply (in_map fst) in H.
  - now apply IH.
Qed.
Lemma file_names_nodup l : NoDup (map fst l) -> NoDup (file_names l).
Proof.
  unfold file_names. induction l as [|[m z] l IH]; intros N; [constructor|]. cbn in N. inversion N as [|? ? Hm Nl]; subst. cbn.
  destruct (is_file_entry z); [|now apply IH]. cbn. constructor; [|now apply IH].
  intros H. apply Hm. apply in_map_iff in H. destruct H as (y & <- & H). apply filter_In in H. destruct H as [H _]. now apply in_map.
Qed.
Lemma found_cons keep e : ~ In [] (found keep e).
Proof. intros H. apply found_spec in H. destruct H as (ds & f & E & _). destruct ds; discriminate. Qed.
Lemma found_nodup e : proper_tree e -> forall keep, NoDup (found keep e).
Proof.
  induction e as [| |l IH] using entry_induction; intros P keep; [constructor|constructor|].
  inversion P as [| |l' N Pl]; subst. cbn [found]. apply NoDup_app_iff. split; [|split].
  - apply FinFun.Injective_map_NoDup; [intros a b H; congruence|]. apply NoDup_filter. now apply file_names_nodup.
  - apply nodup_flat.
    + now apply nodup_fst.
    + intros [n x] Hx. cbn [fst snd]. apply FinFun.Injective_map_NoDup; [intros a b H; congruence|].
      apply (IH n x Hx). now apply (Pl n x).
    + intros [n x] [m y] z Hx Hy Hz Hz'. cbn [fst snd] in *. apply in_map_iff in Hz, Hz'.
      destruct Hz as (a & <- & _), Hz' as (b & E & _). injection E as -> ->. f_equal. eapply fst_one; eauto.
  - intros z Hz Hz'. apply in_map_iff in Hz. destruct Hz as (n & <- & _). apply in_flat_map in Hz'.
    destruct Hz' as ([m y] & Hy & Hz'). cbn [fst snd] in Hz'. apply in_map_iff in Hz'. destruct Hz' as (a & E & Ha). injection E as -> ->.
    now apply found_cons in Ha.
Qed.

Lemma before_map {A B} (f : A -> B) l x y : before l x y -> before (map f l) (f x) (f y).
Proof. intros (a & b & c & ->). exists (map f a), (map f b), (map f c). rewrite map_app. cbn [map]. now rewrite map_app. Qed.
Lemma before_app {A} (a l b : list A) x y : before l x y -> before (a ++ l ++ b) x y.
Proof.
  intros (p & q & r & ->). exists (a ++ p), q, (r ++ b). rewrite <- !app_assoc. cbn [app]. now rewrite <- !app_assoc.
Qed.
Lemma before_split {A} (a b : list A) x y : In x a -> In y b -> before (a ++ b) x y.
Proof.
  intros Hx Hy. apply in_split in Hx, Hy. destruct Hx as (p & q & ->), Hy as (r & s & ->).
  exists p, (q ++ r), s. rewrite <- !app_assoc. cbn. rewrite <- ?app_assoc. reflexivity.
Qed.
Lemma found_order e : proper_tree e -> forall keep ds f k g, k <> [] ->
  In (ds ++ [f]) (found keep e) -> In (ds ++ k ++ [g]) (found keep e) -> before (found keep e) (ds ++ [f]) (ds ++ k ++ [g]).
Proof.
  induction e as [| |l IH] using entry_induction; intros P keep ds f k g Hk Hf Hg; [destruct Hf|destruct Hf|].
  inversion P as [| |l' N Pl]; subst. cbn [found] in *. apply in_app_iff in Hf, Hg.
  destruct ds as [|d ds].
  - cbn [app] in *. destruct k as [|k0 k]; [congruence|]. apply before_split.
    + destruct Hf as [Hf|Hf]; [exact Hf|]. exfalso. apply in_flat_map in Hf. destruct Hf as ([n x] & _ & Hf). cbn [fst snd] in Hf.
      apply in_map_iff in Hf. destruct Hf as (a & E & Ha). injection E as -> ->. now apply found_cons in Ha.
    + destruct Hg as [Hg|Hg]; [|exact Hg]. exfalso. apply in_map_iff in Hg. destruct Hg as (n & E & _). destruct k; discriminate.
  - assert (Hf' : In ((d :: ds) ++ [f]) (flat_map (fun ne => map (cons (fst ne)) (found (fun ds => keep (fst ne :: ds)) (snd ne))) l)).
    { destruct Hf as [Hf|Hf]; [|exact Hf]. exfalso. apply in_map_iff in Hf. destruct Hf as (n & E & _). destruct ds; discriminate. }
    assert (Hg' : In ((d :: ds) ++ k ++ [g]) (flat_map (fun ne => map (cons (fst ne)) (found (fun ds => keep (fst ne :: ds)) (snd ne))) l)).
    { destruct Hg as [Hg|Hg]; [|exact Hg]. exfalso. apply in_map_iff in Hg. destruct Hg as (n & E & _). destruct ds, k; discriminate. }
    clear Hf Hg. apply in_flat_map in Hf', Hg'. destruct Hf' as ([n x] & Hx & Hf), Hg' as ([m y] & Hy & Hg). cbn [fst snd] in *.
    apply in_map_iff in Hf, Hg. destruct Hf as (a & E & Ha), Hg as (b & E' & Hb). injection E as -> ->. injection E' as -> ->.
    assert (x = y) by (eapply fst_one; eauto). subst y.
    pose proof (IH d x Hx (proj2 (Pl d x Hx)) (fun ds => keep (d :: ds)) ds f k g Hk Ha Hb) as B.
    apply in_split in Hx. destruct Hx as (l1 & l2 & ->). rewrite flat_map_app. cbn [flat_map fst snd].
    rewrite app_assoc. apply before_app. apply (before_map (cons d)) in B. exact B.
Qed.

(** ** Paths *)
Lemma proper_ends y : proper y -> ends_slash y = false.
Proof.
  intros (Hn & _ & _ & Hy). destruct (ends_slash y) eqn:E; [|reflexivity]. destruct (ends_slash_inv _ E) as [q ->].
  exfalso. clear - Hy. induction q as [|c q IH]; cbn in Hy; [now destruct Hy|destruct Hy; auto].
Qed.
Lemma join_proper a y : a <> "" -> proper y -> path_join a y = (a ++ (if ends_slash a then "" else "/") ++ y)%string /\
  path_join a y <> "" /\ ends_slash (path_join a y) = false.
Proof.
  intros Ha Hy. pose proof (proper_ends _ Hy) as He. destruct Hy as (Hn & _ & _ & Hy).
  assert (E : path_join a y = (a ++ (if ends_slash a then "" else "/") ++ y)%string).
  { unfold path_join. rewrite (no_slash_starts y Hy). destruct a as [|c a]; [congruence|]. now destruct (ends_slash (String c a)). }
  split; [exact E|]. rewrite E. split; [destruct a; [congruence|discriminate]|].
  destruct y as [|c y]; [congruence|]. rewrite <- app_str_assoc, ends_slash_app. exact He.
Qed.
Lemma joins_form l : forall a, a <> "" -> Forall proper l -> l <> [] ->
  path_joins a l = (a ++ (if ends_slash a then "" else "/") ++ String.concat "/" l)%string.
Proof.
  induction l as [|x l IH]; intros a Ha Hl Hn; [congruence|]. inversion Hl as [|? ? Hx Hl']; subst.
  destruct (join_proper a x Ha Hx) as (E & Ne & En). cbn [path_joins fold_left]. fold (path_joins (path_join a x) l).
  destruct l as [|y l]; [cbn; exact E|]. rewrite (IH _ Ne Hl'), En, E by discriminate. rewrite concat_cons, !app_str_assoc. reflexivity.
Qed.
Lemma app_cancel (a b c : string) : (a ++ b = a ++ c)%string -> b = c.
Proof. induction a as [|x a IH]; cbn; [auto|]. intros [= H]. auto. Qed.
Lemma joins_inj a l k : a <> "" -> Forall proper l -> Forall proper k -> l <> [] -> k <> [] ->
  path_joins a l = path_joins a k -> l = k.
Proof.
  intros Ha Hl Hk Nl Nk. rewrite !joins_form by assumption. intros E. apply app_cancel, app_cancel in E.
  assert (Q : forall x, Forall proper x -> Forall no_slash x) by (intros x; apply Forall_impl; intros s (_ & _ & _ & H); exact H).
  rewrite <- (split_concat l Nl (Q _ Hl)), <- (split_concat k Nk (Q _ Hk)). now rewrite E.
Qed.

Lemma file_at_cons e ns : file_at e ns -> ns <> [].
Proof. intros H; inversion H; discriminate. Qed.
Lemma file_at_names e ns : proper_tree e -> file_at e ns -> Forall file_name ns.
Proof.
  intros P H. induction H as [l n Hn|l n e ns Hn Hf IH]; inversion P as [| |l' N Pl]; subst.
  - constructor; [now apply (Pl n EFile)|constructor].
  - destruct (Pl n e Hn) as [F Pe]. constructor; [exact F|now apply IH].
Qed.
Lemma file_at_proper e ns : proper_tree e -> file_at e ns -> Forall proper ns.
Proof. intros P H. eapply Forall_impl; [|exact (file_at_names e ns P H)]. intros s; apply file_name_proper. Qed.

(** ** find_recursive *)
Definition keeps (pattern : string) (hide : option string) (d f : string) : bool := negb (hidden hide d) && within pattern f.
Lemma find_sel disk root pattern hide :
  find_recursive disk root pattern hide = sel (keeps pattern hide) (walk disk root).
Proof.
  unfold find_recursive, sel. apply flat_map_ext_in. intros [d fs] _. cbn [fst snd]. unfold keeps.
  destruct (hidden hide d); cbn [negb andb].
  - replace (filter (fun _ => false) fs) with (@nil string); [reflexivity|]. induction fs; auto.
  - reflexivity.
Qed.
Lemma walk_at disk root e : root <> "" -> disk root = Some e -> walk disk root = walk_entry root e.
Proof. intros Hr Hd. unfold walk. destruct (String.eqb_spec root ""); [congruence|]. now rewrite Hd. Qed.
Lemma find_found disk root e pattern hide : root <> "" -> disk root = Some e ->
  find_recursive disk root pattern hide = map (path_joins root) (found (fun ds => keeps pattern hide (path_joins root ds)) e).
Proof. intros Hr Hd. rewrite find_sel, (walk_at _ _ _ Hr Hd). apply sel_found. Qed.
Lemma keeps_spec pattern hide d f : keeps pattern hide d f = true <->
  occurs pattern f /\ forall h, hide = Some h -> ~ occurs h d.
Proof.
  unfold keeps. rewrite Bool.andb_true_iff, Bool.negb_true_iff, within_spec. destruct hide as [h|]; cbn [hidden].
  - rewrite within_no. split; [intros [A B]; split; [exact B|intros h' [= <-]; exact A]|intros [A B]; split; [now apply B|exact A]].
  - split; [intros [_ B]; split; [exact B|discriminate]|intros [A _]; split; [reflexivity|exact A]].
Qed.
Lemma find_exactly disk root e pattern hide p : root <> "" -> disk root = Some e ->
  (In p (find_recursive disk root pattern hide) <->
   exists ds f, p = path_joins root (ds ++ [f]) /\ file_at e (ds ++ [f]) /\ occurs pattern f /\
     forall h, hide = Some h -> ~ occurs h (path_joins root ds)).
Proof.
  intros Hr Hd. rewrite (find_found _ _ _ _ _ Hr Hd), in_map_iff. split.
  - intros (ns & <- & H). apply found_spec in H. destruct H as (ds & f & -> & Hf & K). apply keeps_spec in K. exists ds, f. tauto.
  - intros (ds & f & -> & Hf & K). exists (ds ++ [f]). split; [reflexivity|]. apply found_spec. exists ds, f. split; [reflexivity|].
    split; [exact Hf|]. apply keeps_spec. tauto.
Qed.
Lemma find_none disk root pattern hide : (root = "" \/ forall l, disk root <> Some (EDir l)) -> find_recursive disk root pattern hide = [].
Proof.
  intros H. unfold find_recursive, walk. destruct (String.eqb_spec root ""); [reflexivity|].
  destruct H as [H|H]; [congruence|]. destruct (disk root) as [[| |l]|]; try reflexivity. now destruct (H l).
Qed.
Lemma nodup_map_on {A B} (f : A -> B) l : NoDup l -> (forall x y, In x l -> In y l -> f x = f y -> x = y) -> NoDup (map f l).
Proof.
  intros N H. induction N as [|a l Ha N IH]; [constructor|]. cbn. constructor.
  - intros Hi. apply in_map_iff in Hi. destruct Hi as (b & E & Hb). apply Ha. rewrite <- (H b a); [exact Hb|now right|now left|exact E].
  - apply IH. intros x y Hx Hy. apply H; now right.
Qed.
Lemma sel_nodup root e keep : root <> "" -> proper_tree e -> NoDup (sel keep (walk_entry root e)).
Proof.
  intros Hr P. rewrite sel_found. apply nodup_map_on; [now apply found_nodup|].
  intros x y Hx Hy. apply found_spec in Hx, Hy. destruct Hx as (dx & fx & _ & Hx & _), Hy as (dy & fy & _ & Hy & _).
  apply joins_inj; try (eapply file_at_proper; eassumption); try (eapply file_at_cons; eassumption). exact Hr.
Qed.
Lemma find_once disk root e pattern hide : root <> "" -> disk root = Some e -> proper_tree e ->
  NoDup (find_recursive disk root pattern hide).
Proof. intros Hr Hd P. rewrite find_sel, (walk_at _ _ _ Hr Hd). now apply sel_nodup. Qed.
Lemma find_top_down disk root e pattern hide ds f k g : root <> "" -> disk root = Some e -> proper_tree e ->
  k <> [] -> file_at e (ds ++ [f]) -> file_at e (ds ++ k ++ [g]) ->
  In (path_joins root (ds ++ [f])) (find_recursive disk root pattern hide) ->
  In (path_joins root (ds ++ k ++ [g])) (find_recursive disk root pattern hide) ->
  before (find_recursive disk root pattern hide) (path_joins root (ds ++ [f])) (path_joins root (ds ++ k ++ [g])).
Proof.
  intros Hr Hd P Hk Ff Fg. rewrite (find_found _ _ _ _ _ Hr Hd). intros If Ig.
  assert (B : forall ns, file_at e ns -> In (path_joins root ns) (map (path_joins root)
      (found (fun ds => keeps pattern hide (path_joins root ds)) e)) -> In ns (found (fun ds => keeps pattern hide (path_joins root ds)) e)).
  { intros ns Fn H. apply in_map_iff in H. destruct H as (m & E & Hm).
    assert (Fm : file_at e m) by (apply found_spec in Hm; destruct Hm as (? & ? & _ & Hm & _); exact Hm).
    replace ns with m; [exact Hm|]. eapply joins_inj; [exact Hr| | | | |exact E];
      try (eapply file_at_proper; eassumption); eapply file_at_cons; eassumption. }
  apply before_map. apply found_order; auto.
Qed.
Lemma occurs_app h a b : occurs h a -> occurs h (a ++ b)%string.
Proof. intros (x & y & ->). exists x, (y ++ b)%string. now rewrite !app_str_assoc. Qed.
Lemma joins_extend root ds k : root <> "" -> Forall proper (ds ++ k) -> exists t, path_joins root (ds ++ k) = (path_joins root ds ++ t)%string.
Proof.
  intros Hr H. assert (J : forall k a, a <> "" -> Forall proper k -> exists t, path_joins a k = (a ++ t)%string).
  { clear. induction k as [|x k IH]; intros a Ha Hk; [exists ""; cbn; now rewrite app_str_nil|].
    inversion Hk as [|? ? Hx Hk']; subst. destruct (join_proper a x Ha Hx) as (E & Ne & _).
    destruct (IH _ Ne Hk') as [t Et]. cbn [path_joins fold_left]. unfold path_joins in Et. rewrite Et, E, !app_str_assoc. now eexists. }
  assert (Q : path_joins root ds <> "").
  { apply Forall_app in H. destruct H as [H _]. destruct (J ds root Hr H) as [t ->]. destruct root; [congruence|discriminate]. }
  unfold path_joins. rewrite fold_left_app. apply Forall_app in H. apply J; tauto.
Qed.
Lemma find_hidden_below disk root e pattern h ds k p : root <> "" -> disk root = Some e -> proper_tree e ->
  occurs h (path_joins root ds) -> file_at e (ds ++ k) -> In p (find_recursive disk root pattern (Some h)) -> p <> path_joins root (ds ++ k) \/ k = [].
Proof.
  intros Hr Hd P Ho Fk Hp. destruct k as [|k0 k]; [now right|]. left. intros ->.
  apply (find_exactly _ _ _ _ _ _ Hr Hd) in Hp. destruct Hp as (d' & f & E & Ff & _ & Hh). specialize (Hh h eq_refl). apply Hh. clear Hh.
  assert (E' : ds ++ k0 :: k = d' ++ [f]).
  { apply (joins_inj root); auto; try (eapply file_at_proper; eassumption); eapply file_at_cons; eassumption. }
  destruct (exists_last (l := k0 :: k)) as (k' & g & Ek); [discriminate|]. rewrite Ek, app_assoc in E'. apply app_inj_tail in E'. destruct E' as [<- <-].
  assert (F : Forall proper (ds ++ k')).
  { pose proof (file_at_proper e _ P Ff) as Q. apply Forall_app in Q. tauto. }
  destruct (joins_extend root ds k' Hr F) as [t ->]. now apply occurs_app.
Qed.

(** A name without slashes occurs in a path if it occurs in a component. *)
Lemma occurs_nil h : occurs h "" -> h = "".
Proof. intros (a & b & E). destruct a, h; try discriminate; reflexivity. Qed.
Lemma occurs_cons h c s : occurs h (String c s) <-> (exists b, String c s = (h ++ b)%string) \/ occurs h s.
Proof.
  split.
  - intros (a & b & E). destruct a as [|x a]; [left; now exists b|]. injection E as -> E. right. now exists a, b.
  - intros [(b & E)|(a & b & E)]; [exists "", b; exact E|]. exists (String c a), b. now rewrite E.
Qed.
Lemma no_slash_in s : no_slash s <-> ~ In "/"%char (list_ascii_of_string s).
Proof.
  induction s as [|c s IH]; cbn; [tauto|]. rewrite IH. unfold slash. split; [intros [A B] [C|C]; auto|].
  intros H. split; [intros E; apply H; now left|]. intros C; apply H; now right.
Qed.
Lemma prefix_slash h : forall a b t, no_slash h -> (a ++ String slash b = h ++ t)%string -> exists u, a = (h ++ u)%string.
Proof.
  induction h as [|c h IH]; intros a b t Hh E; [now exists a|]. cbn in Hh. destruct Hh as [Hc Hh].
  destruct a as [|x a]; cbn in E; injection E as Ec E; [congruence|]. subst x. destruct (IH a b t Hh E) as [u ->]. now exists u.
Qed.
Lemma occurs_slash h a b : h <> "" -> no_slash h -> (occurs h (a ++ String slash b)%string <-> occurs h a \/ occurs h b).
Proof.
  intros Hn Hh. split.
  - induction a as [|c a IH].
    + cbn [String.append]. rewrite occurs_cons. intros [(t & E)|H]; [|now right].
      destruct h as [|x h]; [congruence|]. cbn in E. injection E as E _. cbn in Hh. destruct Hh as [Hx _]. congruence.
    + cbn [String.append]. rewrite occurs_cons. intros [(t & E)|H].
      * left. change (String c (a ++ String slash b)) with (String c a ++ String slash b)%string in E.
        destruct (prefix_slash h _ _ _ Hh E) as [u Eu]. exists "", u. exact Eu.
      * destruct (IH H) as [Q|Q]; [left|now right]. apply occurs_cons. now right.
  - intros [H|(x & y & ->)]; [now apply occurs_app|]. exists (a ++ String slash x)%string, y. rewrite !app_str_assoc. reflexivity.
Qed.
Lemma occurs_concat h l : h <> "" -> no_slash h -> (occurs h (String.concat "/" l) <-> exists x, In x l /\ occurs h x).
Proof.
  intros Hn Hh. induction l as [|x l IH].
  - split; [intros H; cbn in H; apply occurs_nil in H; congruence|]. intros (y & [] & _).
  - destruct l as [|y l].
    + cbn. split; [intros H; exists x; auto|]. intros (z & [<-|[]] & H). exact H.
    + rewrite concat_cons, (occurs_slash h _ _ Hn Hh), IH. split.
      * intros [H|(z & Hz & H)]; [exists x; split; [now left|exact H]|exists z; split; [now right|exact H]].
      * intros (z & [<-|Hz] & H); [now left|right; now exists z].
Qed.
Lemma occurs_joins h root ds : h <> "" -> no_slash h -> root <> "" -> Forall proper ds ->
  (occurs h (path_joins root ds) <-> occurs h root \/ exists d, In d ds /\ occurs h d).
Proof.
  intros Hn Hh Hr Hd. destruct ds as [|d ds].
  - cbn. split; [now left|]. intros [H|(x & [] & _)]. exact H.
  - rewrite joins_form by (assumption || discriminate). rewrite <- (occurs_concat h (d :: ds) Hn Hh).
    set (c := String.concat "/" (d :: ds)). destruct (ends_slash root) eqn:E.
    + apply ends_slash_inv in E. destruct E as [q ->]. cbn [String.append]. rewrite app_str_assoc. cbn [String.append].
      rewrite !(occurs_slash h _ _ Hn Hh). split; [intros [H|H]; auto|]. intros [[H|H]|H]; auto. apply occurs_nil in H. congruence.
    + cbn [String.append]. now rewrite (occurs_slash h _ _ Hn Hh).
Qed.
Lemma find_by_component disk root e pattern h p : root <> "" -> disk root = Some e -> proper_tree e ->
  h <> "" -> ~ In "/"%char (list_ascii_of_string h) ->
  (In p (find_recursive disk root pattern (Some h)) <->
   exists ds f, p = path_joins root (ds ++ [f]) /\ file_at e (ds ++ [f]) /\ occurs pattern f /\
     ~ occurs h root /\ forall d, In d ds -> ~ occurs h d).
Proof.
  intros Hr Hd P Hn Hh. apply no_slash_in in Hh. rewrite (find_exactly _ _ _ _ _ _ Hr Hd).
  assert (Q : forall ds f, file_at e (ds ++ [f]) -> ((forall h', Some h = Some h' -> ~ occurs h' (path_joins root ds)) <->
    ~ occurs h root /\ forall d, In d ds -> ~ occurs h d)).
  { intros ds f Ff. apply file_at_proper, Forall_app in Ff; [|exact P]. destruct Ff as [Fd _].
    pose proof (occurs_joins h root ds Hn Hh Hr Fd) as O. split.
    - intros H. specialize (H h eq_refl). rewrite O in H. split; [tauto|]. intros d Hdd Ho. apply H. right. now exists d.
    - intros [A B] h' [= <-]. rewrite O. intros [H|(d & Hdd & H)]; [tauto|now apply (B d)]. }
  split; intros (ds & f & E & Ff & Ho & H); exists ds, f; (split; [exact E|]; split; [exact Ff|]; split; [exact Ho|]); now apply (Q ds f Ff).
Qed.

(** ** recursive_glob, install_headers *)
Lemma glob_sel w fnmatch root pattern : recursive_glob w fnmatch root pattern = sel (fun _ => fnmatch pattern) (w root).
Proof. reflexivity. Qed.
Lemma glob_exactly disk fnmatch root e pattern p : root <> "" -> disk root = Some e ->
  (In p (recursive_glob (walk disk) fnmatch root pattern) <->
   exists ds f, p = path_joins root (ds ++ [f]) /\ file_at e (ds ++ [f]) /\ fnmatch pattern f = true).
Proof.
  intros Hr Hd. rewrite glob_sel, (walk_at _ _ _ Hr Hd), sel_found, in_map_iff. split.
  - intros (ns & <- & H). apply found_spec in H. destruct H as (ds & f & -> & Hf & K). exists ds, f. tauto.
  - intros (ds & f & -> & Hf & K). exists (ds ++ [f]). split; [reflexivity|]. apply found_spec. exists ds, f. tauto.
Qed.
Lemma glob_once disk fnmatch root e pattern : root <> "" -> disk root = Some e -> proper_tree e ->
  NoDup (recursive_glob (walk disk) fnmatch root pattern).
Proof. intros Hr Hd P. rewrite glob_sel, (walk_at _ _ _ Hr Hd). now apply sel_nodup. Qed.

Lemma abspath_starts cwd p : starts_slash cwd = true -> starts_slash (abspath cwd p) = true.
Proof. intros H. unfold abspath. rewrite normpath_starts, join_starts, H. now rewrite Bool.orb_true_r. Qed.
Lemma abspath_idem cwd p : starts_slash cwd = true -> abspath cwd (abspath cwd p) = abspath cwd p.
Proof.
  intros H. unfold abspath at 1. unfold path_join. rewrite (abspath_starts cwd p H). unfold abspath. apply normpath_idem.
Qed.
Lemma starts_not_empty s : starts_slash s = true -> s <> "".
Proof. now destruct s. Qed.
Lemma concat_starts l : Forall proper l -> starts_slash (String.concat "/" l) = false.
Proof.
  intros H. rewrite <- (rev_involutive l). apply (concat_head _ true). apply Forall_rev in H. induction H; constructor; assumption.
Qed.
Lemma joins_join a l : Forall proper l -> l <> [] -> path_joins a l = path_join a (String.concat "/" l).
Proof.
  intros H Hn. destruct a as [|c a].
  - assert (J : forall b, path_join "" b = b) by (intros b; unfold path_join; now destruct (starts_slash b)).
    destruct l as [|x l]; [congruence|]. change (path_joins "" (x :: l)) with (path_joins (path_join "" x) l).
    rewrite !J. now apply joins_concat.
  - rewrite joins_form by (assumption || discriminate). unfold path_join. rewrite (concat_starts _ H).
    now destruct (ends_slash (String c a)).
Qed.
Lemma header_tgt_place cwd pl tgtdir srcdir ns : starts_slash cwd = true -> Forall file_name ns -> ns <> [] ->
  header_tgt cwd pl tgtdir srcdir (path_joins (abspath cwd srcdir) ns) = path_joins (pl_include pl) (tgtdir :: ns).
Proof.
  intros Hc Hf Hn. assert (Hp : Forall proper ns) by (eapply Forall_impl; [|exact Hf]; intros s; apply file_name_proper).
  destruct ns as [|x l]; [congruence|]. unfold header_tgt. rewrite (joins_join (abspath cwd srcdir) (x :: l) Hp Hn).
  rewrite (relpath_below cwd srcdir x l Hc Hf).
  change (path_joins (pl_include pl) (tgtdir :: x :: l)) with (path_joins (path_join (pl_include pl) tgtdir) (x :: l)).
  rewrite (joins_join _ (x :: l) Hp Hn). reflexivity.
Qed.

Section Headers.
  Variables (cwd home : string) (pl : places) (disk : string -> option entry) (fnmatch : string -> string -> bool).
  Variables (tgtdir srcdir : string) (patterns adddeps : list string) (e : entry).
  Hypothesis Hc : starts_slash cwd = true.
  Hypothesis Hd : disk (abspath cwd srcdir) = Some e.
  Hypothesis P : proper_tree e.
  Let D := abspath cwd srcdir.

  Lemma headers_in h : In h (header_list cwd (walk disk) fnmatch srcdir patterns) <->
    exists ds f pat, h = path_joins D (ds ++ [f]) /\ file_at e (ds ++ [f]) /\ In pat patterns /\ fnmatch pat f = true.
  Proof.
    unfold header_list. rewrite (abspath_idem cwd srcdir Hc), in_flat_map.
    assert (Dn : D <> "") by (apply starts_not_empty, abspath_starts, Hc). split.
    - intros (pat & Hp & H). apply (glob_exactly _ _ _ _ _ _ Dn Hd) in H. destruct H as (ds & f & H). exists ds, f, pat. tauto.
    - intros (ds & f & pat & H). exists pat. split; [tauto|]. apply (glob_exactly _ _ _ _ _ _ Dn Hd). exists ds, f. tauto.
  Qed.
  Lemma headers_copied ops full targets : install_headers cwd home pl (walk disk) fnmatch tgtdir srcdir patterns adddeps = (ops, full, targets) ->
    forall t s a b, In (OCopyFn t s a b) ops <->
      a = adddeps /\ b = cp cwd home s /\
      exists ds f pat, file_at e (ds ++ [f]) /\ In pat patterns /\ fnmatch pat f = true /\
        s = path_joins D (ds ++ [f]) /\ t = path_joins (pl_include pl) (tgtdir :: ds ++ [f]).
  Proof.
    intros [= <- _ _] t s a b. rewrite !in_app_iff, !in_map_iff. split.
    - intros [(h & E & _)|[(h & E & Hh)|[E|[]]]]; [discriminate| |discriminate].
      unfold copy_op in E. injection E as <- <- <- <-. split; [reflexivity|]. split; [reflexivity|].
      apply headers_in in Hh. destruct Hh as (ds & f & pat & -> & Ff & Hp & Hm). exists ds, f, pat. repeat (split; [assumption|]).
      split; [reflexivity|]. apply header_tgt_place; [exact Hc|now apply (file_at_names e)|destruct ds; discriminate].
    - intros (-> & -> & ds & f & pat & Ff & Hp & Hm & -> & ->). right. left. exists (path_joins D (ds ++ [f])). split.
      + unfold copy_op. f_equal. apply header_tgt_place; [exact Hc|now apply (file_at_names e)|destruct ds; discriminate].
      + apply headers_in. exists ds, f, pat. tauto.
  Qed.
  Lemma headers_once : NoDup patterns -> (forall p q f, In p patterns -> In q patterns -> fnmatch p f = true -> fnmatch q f = true -> p = q) ->
    NoDup (header_list cwd (walk disk) fnmatch srcdir patterns).
  Proof.
    intros N U. assert (Dn : D <> "") by (apply starts_not_empty, abspath_starts, Hc).
    unfold header_list. rewrite (abspath_idem cwd srcdir Hc). apply nodup_flat; [exact N| |].
    - intros p _. now apply (glob_once _ _ _ e).
    - intros p q h Hp Hq Ip Iq. apply (glob_exactly _ _ _ _ _ _ Dn Hd) in Ip, Iq.
      destruct Ip as (ds & f & -> & Ff & Mf), Iq as (ds' & g & E & Fg & Mg).
      assert (E' : ds ++ [f] = ds' ++ [g]).
      { apply (joins_inj D); auto; try (eapply file_at_proper; eassumption); eapply file_at_cons; eassumption. }
      apply app_inj_tail in E'. destruct E' as [_ ->]. now apply (U p q g).
  Qed.
End Headers.

(** ** Patterns *)
Lemma glob_match_spec p : forall s, glob_match p s = true <-> stands_for p s.
Proof.
  induction p as [|c p IH]; intros s; cbn [glob_match].
  - destruct s; split; intros H; try discriminate; [exact sf_nil|reflexivity|inversion H].
  - destruct (Ascii.eqb_spec c "*") as [->|Hs].
    + split.
      * induction s as [|x s IHs]; intros H.
        -- rewrite Bool.orb_false_r in H. apply IH in H. exact (sf_star "" p "" H).
        -- apply Bool.orb_true_iff in H. destruct H as [H|H].
           ++ apply IH in H. exact (sf_star "" p _ H).
           ++ specialize (IHs H). inversion IHs as [|a q t Ht E1 E2| |? ? ? X]; subst; [exact (sf_star (String x a) p t Ht)|congruence].
      * intros H. inversion H as [|a q t Ht E1 E2| |? ? ? X]; subst; [|congruence]. apply IH in Ht. clear H.
        induction a as [|x a IHa]; cbn [String.append].
        -- destruct t; cbn; now rewrite Ht.
        -- cbn. rewrite IHa. apply Bool.orb_true_r.
    + destruct s as [|x s].
      * split; [discriminate|]. intros H. inversion H; subst. congruence.
      * rewrite Bool.andb_true_iff, Bool.orb_true_iff, IH. split.
        -- intros [[E|E] H]; apply Ascii.eqb_eq in E; subst; [now constructor|]. now constructor.
        -- intros H. inversion H as [|a q t Ht E1 E2|? ? ? Ht|? ? ? X Ht]; subst; [congruence| |]; split; auto.
           right. apply Ascii.eqb_refl.
Qed.
Lemma literal_stands p : literal p -> forall s, stands_for p s <-> s = p.
Proof.
  induction p as [|c p IH]; intros L s.
  - split; [intros H; now inversion H|]. intros ->. constructor.
  - destruct (L c (or_introl eq_refl)) as [C1 C2]. assert (Lp : literal p) by (intros x Hx; apply L; now right). split.
    + intros H. inversion H as [|? ? ? ? E|? ? ? ? E|? ? ? ? Ht]; subst; try congruence. f_equal. now apply IH.
    + intros ->. apply sf_char; [exact C1|]. now apply IH.
Qed.
Lemma suffix_stands ext s : literal ext -> (glob_match (String "*" ext) s = true <-> exists a, s = (a ++ ext)%string).
Proof.
  intros L. rewrite glob_match_spec. split.
  - intros H. inversion H as [|a q t Ht E1 E2| |? ? ? X]; subst; [|congruence]. apply (literal_stands ext L) in Ht. subst t. now exists a.
  - intros [a ->]. constructor. now apply literal_stands.
Qed.

(** ** execute_recursive *)
Section Scripts.
  Context {G : Type}.
  Variable files : G -> string -> option (prog G).
  Variable find : G -> string -> string -> option string -> list string.
  Variable registry : list (string * string).
  Variable tunnel_there : G -> string -> bool.
  Variable link : string -> string -> G -> G.

  Lemma run_local en p : local p -> forall s,
    match run find registry tunnel_there link en p s with
    | SDone s' | SRaise _ s' => q_trace s' = q_trace s /\ q_stack s' = q_stack s
    | SNoFuel => False
    end.
  Proof.
    induction p as [|x|k IH|g k IH|k IH|q k IH|r q hi k IH|lib h k IH|b IHb h IHh k IHk]; cbn [local]; intros L s; try tauto.
    - cbn. tauto.
    - cbn. tauto.
    - apply IH, L.
    - exact (IH L (put_g g s)).
    - apply IH, L.
    - destruct L as (Lb & Lh & Lk). cbn [run]. specialize (IHb Lb s).
      destruct (run find registry tunnel_there link en b s) as [s1|x s1|]; cbn [sbind]; [| |destruct IHb].
      + specialize (IHk Lk s1). destruct IHb as [E1 E2]. rewrite <- E1, <- E2. exact IHk.
      + specialize (IHh x (Lh x) s1). destruct (run find registry tunnel_there link en (h x) s1) as [s2|y s2|]; cbn [sbind]; [| |destruct IHh].
        * specialize (IHk Lk s2). destruct IHb as [E1 E2], IHh as [E3 E4]. rewrite <- E1, <- E2, <- E3, <- E4. exact IHk.
        * destruct IHb as [E1 E2], IHh as [E3 E4]. now rewrite E3, E4.
  Qed.

  Lemma enter_all_local fuel l : (forall g path p, In path l -> files g path = Some p -> local p) -> forall s,
    all_started l s (enter_all (enter files find registry tunnel_there link (S fuel)) l s).
  Proof.
    induction l as [|x l IH]; intros L s; [cbn; now rewrite app_nil_r|].
    remember (enter files find registry tunnel_there link (S fuel)) as en eqn:Een. cbn [enter_all].
    replace (en x s) with (enter files find registry tunnel_there link (S fuel) x s) by now rewrite Een. cbn [enter].
    change (files (q_g (note (EvStart x) (push x s))) x) with (files (q_g s) x).
    destruct (files (q_g s) x) as [p|] eqn:Ep; [|now exists [], x, l].
    pose proof (run_local (enter files find registry tunnel_there link fuel) p (L _ _ _ (or_introl eq_refl) Ep) (note (EvStart x) (push x s))) as R.
    destruct (run find registry tunnel_there link (enter files find registry tunnel_there link fuel) p (note (EvStart x) (push x s))) as [s2|y s2|];
      cbn [sbind]; [| |destruct R]; destruct R as [Rt Rs]; cbn in Rt, Rs.
    - assert (L' : forall g path p, In path l -> files g path = Some p -> local p) by (intros g path q Hq; apply L; now right).
      specialize (IH L' (pop s2)). unfold all_started in *. cbn [pop q_trace q_stack] in IH. rewrite Rt, Rs in IH.
      destruct (enter_all en l (pop s2)) as [s3|z s3|]; [| |exact IH].
      + destruct IH as [E1 E2]. rewrite E1, E2, <- app_assoc. now split.
      + destruct IH as (l1 & q & l2 & -> & E). exists (x :: l1), q, l2. split; [reflexivity|]. now rewrite E, <- app_assoc.
    - exists [], x, l. split; [reflexivity|]. exact Rt.
  Qed.
End Scripts.
