(** A rule that reads the output of another rule without declaring it: the assumption in
    C99. *)
From Coq Require Import Permutation.
From Verif Require Import PyBase PyPath PathProofs SolverModel SpecGraph InvokerModel SpecTrace InvokerPath InvokerExec CoreModel SpecCore CoreProofs NeedProofs
  MakeModel MakeEval SpecMake MakeProofs MakeFacts MakeTimes MakeBuild MakeClaims MakeClean MakeExec MakeExamples RegModel CliModel SpecUtil SpecReg RegExamples SpecProject ProjectProofs ProjectBuild ProjectExamples
  TrackExamples FineModel SpecFine FineBuild FineExamples.
Local Open Scope string_scope.
Local Open Scope list_scope.

(** The script
<<
    makefile("x", [], x_rule)    # writes "full"
    makefile("y", [], y_rule)    # copies x
    fileset("all", ["x", "y"])
>> *)
Definition ux : buildfun := fun _ => Some "full".
Definition uy : buildfun := fun s => match s "/w/x" with Some v => Some ("y:" ++ v)%string | None => Some "y:" end.
Definition uscript : list stmt := [SRule false "x" [] ux; SRule false "y" [] uy; SSet "all" ["x"; "y"]].
Definition udisk : list string := ["/"; "/w"].
Definition ufs : fsys := fun p => if mem p udisk then Some (0, Dir) else None.
Lemma ufs_ok : disk_ok "/w" (present ufs) (on_path udisk).
Proof.
  apply present_ok; [|vm_compute; reflexivity..]. intros p. unfold present, ufs, on, udisk, mem. cbn [existsb].
  destruct (String.eqb_spec p "/"), (String.eqb_spec p "/w"); reflexivity.
Qed.
Lemma uscript_ok : in_order "/w" "/h" no_glob (on_path udisk) uscript.
Proof. apply in_orderb_ok. vm_compute. reflexivity. Qed.
Lemma uall : In "all" (flat_map (makes "/w" "/h" no_glob) uscript).
Proof. vm_compute. tauto. Qed.
Notation uproj := (project_of "/w" "/h" no_glob uscript).
Lemma urules p f ds b : uproj p = Some (DRule f ds b) -> p = "/w/x" /\ b = ux \/ p = "/w/y" /\ b = uy.
Proof.
  intros H. assert (Hm : is_rule uproj p) by now exists f, ds, b. apply rule_makes in Hm. revert Hm H.
  assert (E : flat_map (makes "/w" "/h" no_glob) uscript = ["/w/x"; "/w/y"; "all"]) by (vm_compute; reflexivity). rewrite E.
  intros [<-|[<-|[<-|[]]]]; vm_compute; intros [= _ _ <-]; auto.
Qed.

(** What there can be in the two files if rules read and write at one moment. *)
Definition u_inv (f : fsys) : Prop := (contents f "/w/x" = None \/ contents f "/w/x" = Some "full") /\ contents f "/w/y" <> Some "y:half".
Lemma u_set f p e : u_inv f -> (p = "/w/x" -> forall m v, e = Some (m, Reg v) -> v = "full") -> (p = "/w/y" -> forall m v, e = Some (m, Reg v) -> v <> "y:half") ->
  u_inv (fs_set f p e).
Proof.
  intros [H1 H2] Hx Hy. unfold u_inv, contents, fs_set in *. split.
  - destruct (String.eqb_spec "/w/x" p) as [<-|_]; [|exact H1]. destruct e as [[m [v|]]|]; auto. right. now rewrite (Hx eq_refl m v eq_refl).
  - destruct (String.eqb_spec "/w/y" p) as [<-|_]; [|exact H2]. destruct e as [[m [v|]]|]; try discriminate. intros [= E]. now apply (Hy eq_refl m v eq_refl).
Qed.
Lemma u_dirs f p m : u_inv f -> u_inv (makedirs f p m).
Proof.
  intros H. assert (G : forall q, contents (makedirs f p m) q = contents f q \/ contents (makedirs f p m) q = None).
  { intros q. unfold contents, makedirs. destruct (String.eqb q p); [now right|]. destruct (f q); [now left|]. destruct (smem _ _ _); [now right|now left]. }
  destruct H as [H1 H2]. split; [destruct (G "/w/x") as [->| ->]; auto|destruct (G "/w/y") as [->| ->]; [exact H2|discriminate]].
Qed.
Lemma u_task canon kind c i c1 j w r w' : implements canon kind uproj c i -> in_cone canon c i j -> same_static c c1 ->
  obj_task canon kind false c1 j w r w' -> u_inv (w_fs w) -> u_inv (w_fs w').
Proof.
  intros Him Hj Hst T H. destruct (Him j Hj) as [_ K].
  assert (D : kind j = MDir -> mk_dir c1 j w r w' -> u_inv (w_fs w')).
  { intros _ M. destruct M; cbn [w_fs]; auto. now apply u_dirs. }
  assert (U : kind j <> MOther -> mk_update canon kind false c1 j w r w' -> u_inv (w_fs w')).
  { intros N M. destruct M as [force b v m Hk Hb Hlt Hin p fs'|force b fs' now' r ca' Hk Hb p Hf Hr|Hk p|Hk|r w' Hk]; cbn [w_fs]; auto; [| |now elim N].
    - unfold fs', p. rewrite Hk in K. destruct K as (ds & K & _). rewrite (static_name c c1 j Hst) in K. apply urules in K.
      apply u_set; [exact H| |]; intros Ep m' v' [= _ <-]; rewrite Ep in K; destruct K as [[E ->]|[E ->]]; try discriminate.
      + now injection Hb.
      + unfold uy in Hb. destruct H as [[Hx|Hx] _]; rewrite Hx in Hb; injection Hb as <-; discriminate.
    - destruct Hf as [[-> _]|[[-> _]|[E _]]]; [exact H| |discriminate]. apply u_set; [exact H| |]; intros; discriminate. }
  unfold obj_task in T. destruct (kind j) eqn:Ek; try contradiction; [| |now apply D|]; (destruct (t_class (obj c1 j)); [destruct T as [_ ->]; exact H|]);
    (destruct (t_need (obj c1 j)) as [[|]|]; [|destruct T as [_ ->]; exact H..]); (apply U; [discriminate|exact T]).
Qed.
Lemma u_atomic x th now kind c1 objs sv a : In x (flat_map (makes "/w" "/h" no_glob) uscript) ->
  building "/w" "/h" (on_path udisk) no_glob false uscript x th ufs now kind c1 objs sv a -> contents (w_fs (s_world a)) "/w/y" <> Some "y:half".
Proof.
  intros Hx B. destruct (building_of "/w" "/h" ufs (on_path udisk) no_glob uscript ufs_ok uscript_ok false x th now _ _ _ _ _ Hx B) as (c & i & oi & Him & Hbo & _).
  destruct (build_facts _ _ _ _ _ _ _ _ _ _ _ _ Hbo) as (_ & _ & S & _ & _ & _ & ca1 & l & _ & Pa & _ & Hc & _).
  assert (G : forall w0 w, task_path (obj_task (realpath "/w") kind false c1) l w0 w -> u_inv (w_fs w0) -> u_inv (w_fs w)).
  { clear Pa. intros w0 w H. induction H as [w|l t r w0 w w' H IH T]; intros H0; [exact H0|].
    eapply (u_task (realpath "/w") kind c i c1 t w r w' Him); [apply (Hc t r), in_app_iff; right; now left|exact S|exact T|].
    apply IH; [intros j r' Hj; apply (Hc j r'), in_app_iff; now left|exact H0]. }
  apply (G _ _ Pa). split; [left; reflexivity|discriminate].
Qed.

(** Two workers: y is copied from x while x is half made. *)
Definition umoves : list move :=
  [Move (CGet 0); Move (CGet 1); Scribble 0 "half"; Move (CFin 1); Move (CFin 0); Move (CFin 0); Move CJoin].
Definition urun (ms : list move) := fine_process "/w" "/h" (on_path udisk) no_glob uscript "all" 2 ufs 1 ms.
Definition u_test (r : fine_ran) : bool := fine (fr_ran r) && String.eqb (text (fr_ran r) "/w/y") "y:half".
Definition u_run_test (ms : list move) : bool := match urun ms with Some r => u_test r | None => false end.
Lemma u_run_ok ms : u_run_test ms = true -> exists kind c1 objs sv n s h,
  fine_building "/w" "/h" (on_path udisk) no_glob false uscript "all" 2 ufs 1 kind c1 objs sv n (s :: h) /\
  succeeded objs s /\ contents (w_fs (s_world s)) "/w/y" = Some "y:half".
Proof.
  unfold u_run_test. destruct (urun ms) as [r|] eqn:E; [|discriminate]. intros H. apply andb_prop in H. destruct H as [H1 H2].
  do 7 eexists. split; [exact (fine_process_ok _ _ _ _ _ _ _ _ _ _ _ E)|]. split; [exact (fine_ok _ H1)|]. apply text_eq; [discriminate|exact H2].
Qed.
Lemma u_ok : u_run_test umoves = true.
Proof. vm_compute. reflexivity. Qed.
