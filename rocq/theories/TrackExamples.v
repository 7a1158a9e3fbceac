(** A C++ script whose header is edited between two processes. *)
From Coq Require Import Permutation Relations.
From Verif Require Import PyBase PyPath PathProofs SolverModel SpecGraph InvokerModel SpecTrace InvokerExec CoreModel SpecCore MakeModel UtilModel SpecMake
  MakeFacts MakeBuild MakeClaims MakeClean RegModel CliModel SpecUtil UtilProofs SpecReg RegExamples MakeExec MakeExamples SpecProject ProjectProofs ProjectBuild ProjectExamples
  SpecTrack TrackProofs SpecCxxTrack CxxTrack.
From Verif Require Import InvokerExec.
Local Open Scope string_scope.
Local Open Scope list_scope.

(** What a build does when failing rules leave nothing behind, it also does otherwise. *)
Lemma mk_task_partial canon kind partial c objs k w r w' :
  mk_task canon kind false c objs k w r w' -> mk_task canon kind partial c objs k w r w'.
Proof.
  assert (U : forall i w r w', mk_update canon kind false c i w r w' -> mk_update canon kind partial c i w r w').
  { intros i w1 r1 w1' H. destruct H; [eapply up_rule; eauto| |now apply up_source|now apply up_set|now apply up_other].
    eapply up_rule_fails; eauto. destruct H1 as [A|[A|[A _]]]; [now left|right; now left|discriminate]. }
  unfold mk_task. destruct (kind (nth k objs (List.length (c_heap c)))); try (unfold task_behaviour;
    destruct (t_class _); [auto|destruct (t_need _) as [[|]|]; auto]). auto.
Qed.
Lemma steps_mono {W} inv (run run' : nat -> W -> tres -> W -> Prop) s s' : (forall k w r w', run k w r w' -> run' k w r w') ->
  steps inv run s s' -> steps inv run' s s'.
Proof.
  intros H. induction 1 as [s|s1 s2 s3 _ IH St]; [apply steps_refl|]. eapply steps_snoc; [exact IH|].
  destruct St; [now apply step_get|now apply step_drain|eapply step_finish; eauto|now apply step_join].
Qed.
Lemma building_partial cwd home exists_ glob_ partial l x th fs now kind c1 objs sv s :
  building cwd home exists_ glob_ false l x th fs now kind c1 objs sv s -> building cwd home exists_ glob_ partial l x th fs now kind c1 objs sv s.
Proof.
  intros (fuel & st & i & oi & fuel' & ca1 & order & so & A & B & C & D & E & F & G & X).
  exists fuel, st, i, oi, fuel', ca1, order, so. repeat (split; [assumption|]). eapply steps_mono; [|exact X].
  intros k w r w'. apply mk_task_partial.
Qed.

(** Files that the script does not make are left alone, if there are no directories to make. *)
Definition dirless cwd home exists_ glob_ (l : list stmt) : bool :=
  match mrun (realpath cwd) exists_ glob_ home 20 0 (map op_of l) [empty_reg] with
  | Ok st => forallb (fun k => match k with MDir => false | _ => true end) (snd (reg st 0))
  | _ => false
  end.
Lemma rule_makes cwd home glob_ l p : is_rule (project_of cwd home glob_ l) p -> In p (flat_map (makes cwd home glob_) l).
Proof.
  intros (f & ds & b & H). unfold project_of in H. destruct (in_dec string_dec p (flat_map (makes cwd home glob_) l)) as [|N]; [assumption|].
  rewrite (first_none cwd home glob_ l l p N) in H. destruct (is_name l p); [discriminate|]. destruct (existsb _ _); discriminate.
Qed.
Lemma option_fs_dec (a b : option (nat * node)) : {a = b} + {a <> b}.
Proof. decide equality. decide equality; [decide equality; apply string_dec|apply Nat.eq_dec]. Qed.
Lemma ran_frame cwd home exists_ glob_ on_fail l x th fs now cs r : do_process cwd home exists_ glob_ on_fail l x th fs now cs = Some r ->
  disk_ok cwd (present fs) exists_ -> in_order cwd home glob_ exists_ l -> In x (flat_map (makes cwd home glob_) l) ->
  dirless cwd home exists_ glob_ l = true ->
  forall p, ~ In p (flat_map (makes cwd home glob_) l) -> w_fs (s_world (rn_state r)) p = fs p.
Proof.
  intros Hr Hd Ho Hx Hdl p Hp.
  assert (Hk : forall j, rn_kind r j <> MDir).
  { unfold do_process in Hr. unfold dirless in Hdl. destruct (mrun _ _ _ _ _ _ _ _) as [st| |]; try discriminate.
    destruct (core_get _ _ _) as [i| |]; try discriminate. destruct (mevaluate _ _ _ _ _ _) as [[c1 ca1]| |]; try discriminate.
    destruct (recurse_update _ _ _ _ _ _) as [| |objs sv|]; try discriminate.
    destruct (osched _ _ _ _) as [s|]; try discriminate. injection Hr as <-. cbn [rn_kind]. intros j. unfold kind_of.
    rewrite forallb_forall in Hdl. destruct (nth_in_or_default j (snd (reg st 0)) MOther) as [H| ->]; [|discriminate].
    intros E. specialize (Hdl _ H). now rewrite E in Hdl. }
  pose proof (do_process_ok _ _ _ _ _ _ _ _ _ _ _ _ Hr) as B.
  destruct (building_of cwd home fs exists_ glob_ l Hd Ho false x th now _ _ _ _ _ Hx B) as (c & i & oi & Him & Hbo & _).
  destruct (option_fs_dec (w_fs (s_world (rn_state r)) p) (fs p)) as [E|N]; [exact E|exfalso].
  destruct (build_frame _ _ _ _ _ _ _ _ _ _ _ _ Hbo) with (p := p) as (j & Hj & [(-> & (f & b & Ek) & _)|(Ek & _)]); [|exact N| |now apply (Hk j)].
  - intros j Hj E. destruct (Him j Hj) as [_ H]. now rewrite E in H.
  - destruct (Him j Hj) as [_ H]. rewrite Ek in H. destruct H as (ds & H & _). apply Hp, rule_makes. now exists f, ds, b.
Qed.

(** The script
<<
    makefile("gen.h", ["gen.txt"], copy)
    module with source a.c, builddir ".", depends on gen.h: list a.d, object a.o
    makefile("app", ["a.o"], link)
>>
    a.c includes gen.h, and also a.h if its text is "a"; a.h includes b.h if its text is "b". *)
Definition xlist : buildfun := fun s =>
  match s "/w/a.c", s "/w/gen.h" with
  | Some t, Some _ =>
      if String.eqb t "a" then
        match s "/w/a.h" with
        | Some u => if String.eqb u "b" then match s "/w/b.h" with Some _ => Some "a.o: a.c gen.h a.h b.h" | None => None end
                    else Some "a.o: a.c gen.h a.h"
        | None => None
        end
      else Some "a.o: a.c gen.h"
  | _, _ => None
  end.
Definition xcomp : buildfun := fun s =>
  match s "/w/a.c", s "/w/gen.h" with
  | Some t, Some g =>
      if String.eqb t "a" then
        match s "/w/a.h" with
        | Some u => if String.eqb u "b" then match s "/w/b.h" with Some v => Some ("o:" ++ g ++ ",b," ++ v)%string | None => None end
                    else Some ("o:" ++ g ++ "," ++ u)%string
        | None => None
        end
      else Some ("o:" ++ g ++ ";" ++ t)%string
  | _, _ => None
  end.
Definition xunit : cunit := CU "a.c" "a.o" "a.d" ["m__local_headers__"] xlist xcomp.
Definition xits : list item :=
  [IStmt (SRule false "gen.h" ["gen.txt"] (read1 "" "/w/gen.txt")); IStmt (SSet "m__local_headers__" ["gen.h"]);
   IUnit xunit; IStmt (SRule false "app" ["a.o"] (read1 "app:" "/w/a.o"))].
Notation xscript := (script_at "/w" xits).
Notation xproj := (project_at "/w" "/h" no_glob xits).
Definition xdisk : list string := ["/"; "/w"; "/w/a.c"; "/w/a.h"; "/w/b.h"; "/w/gen.txt"].
Definition xfs : fsys := fun p =>
  if mem p ["/"; "/w"] then Some (0, Dir) else
  if String.eqb p "/w/a.c" then Some (1, Reg "a") else
  if String.eqb p "/w/a.h" then Some (1, Reg "x") else
  if String.eqb p "/w/b.h" then Some (1, Reg "y") else
  if String.eqb p "/w/gen.txt" then Some (1, Reg "g") else None.
Lemma xfs_ok : disk_ok "/w" (present xfs) (on_path xdisk).
Proof.
  apply present_ok; [|reflexivity..]. intros p. unfold present, xfs, on, xdisk, mem. cbn [existsb].
  destruct (String.eqb_spec p "/"), (String.eqb_spec p "/w"), (String.eqb_spec p "/w/a.c"), (String.eqb_spec p "/w/a.h"), (String.eqb_spec p "/w/b.h"), (String.eqb_spec p "/w/gen.txt"); reflexivity.
Qed.

(** The lists name headers of the project. *)
Lemma xlist_inv s v : xlist s = Some v ->
  exists t g, s "/w/a.c" = Some t /\ s "/w/gen.h" = Some g /\
    ((t <> "a" /\ v = "a.o: a.c gen.h") \/
     (t = "a" /\ exists u, s "/w/a.h" = Some u /\ ((u <> "b" /\ v = "a.o: a.c gen.h a.h") \/
        (u = "b" /\ exists w, s "/w/b.h" = Some w /\ v = "a.o: a.c gen.h a.h b.h")))).
Proof.
  unfold xlist. destruct (s "/w/a.c") as [t|]; [|discriminate]. destruct (s "/w/gen.h") as [g|]; [|discriminate].
  intros H. exists t, g. split; [reflexivity|]. split; [reflexivity|].
  destruct (String.eqb_spec t "a") as [->|N]; [|left; split; [exact N|congruence]]. right. split; [reflexivity|].
  destruct (s "/w/a.h") as [u|]; [|discriminate]. exists u. split; [reflexivity|].
  destruct (String.eqb u "b") eqn:E; [apply String.eqb_eq in E|left; split; [now apply String.eqb_neq|congruence]]. right. split; [exact E|].
  destruct (s "/w/b.h") as [w|]; [|discriminate]. exists w. split; [reflexivity|congruence].
Qed.
Lemma listed1 : listed (Some "a.o: a.c gen.h") = ["gen.h"]. Proof. reflexivity. Qed.
Lemma listed2 : listed (Some "a.o: a.c gen.h a.h") = ["gen.h"; "a.h"]. Proof. reflexivity. Qed.
Lemma listed3 : listed (Some "a.o: a.c gen.h a.h b.h") = ["gen.h"; "a.h"; "b.h"]. Proof. reflexivity. Qed.
Lemma xlist_headers s v : xlist s = Some v -> v <> "" /\ incl (listed (Some v)) ["gen.h"; "a.h"; "b.h"].
Proof.
  intros H. destruct (xlist_inv s v H) as (t & g & _ & _ & [(_ & ->)|(_ & u & _ & [(_ & ->)|(_ & w & _ & ->)])]); split; try discriminate;
    [rewrite listed1|rewrite listed2|rewrite listed3]; intros x Hx; cbn in *; tauto.
Qed.
Lemma rp_gen : realpath "/w" "gen.h" = "/w/gen.h". Proof. vm_compute. reflexivity. Qed.
Lemma rp_a : realpath "/w" "a.h" = "/w/a.h". Proof. vm_compute. reflexivity. Qed.
Lemma rp_b : realpath "/w" "b.h" = "/w/b.h". Proof. vm_compute. reflexivity. Qed.
Lemma rp_c : realpath "/w" "a.c" = "/w/a.c". Proof. vm_compute. reflexivity. Qed.
Lemma rp_d : realpath "/w" "a.d" = "/w/a.d". Proof. vm_compute. reflexivity. Qed.
Lemma rp_o : realpath "/w" "a.o" = "/w/a.o". Proof. vm_compute. reflexivity. Qed.
Lemma xboth s s' v : xlist s = Some v -> s' "/w/a.c" = s "/w/a.c" -> (forall h, In h (listed (Some v)) -> s' (realpath "/w" h) = s (realpath "/w" h)) ->
  xlist s' = xlist s /\ xcomp s' = xcomp s.
Proof.
  intros H H1 H2. assert (G : s' "/w/gen.h" = s "/w/gen.h").
  { pose proof (H2 "gen.h") as A. rewrite rp_gen in A. apply A.
    destruct (xlist_inv s v H) as (t & g & _ & _ & [(_ & ->)|(_ & u & _ & [(_ & ->)|(_ & w & _ & ->)])]); rewrite ?listed1, ?listed2, ?listed3; now left. }
  destruct (xlist_inv s v H) as (t & g & Et & Eg & [(N & ->)|(-> & u & Eu & [(N & ->)|(-> & w & Ew & ->)])]);
    unfold xlist, xcomp; rewrite H1, G, Et, Eg; cbn [String.eqb Ascii.eqb Bool.eqb].
  - apply String.eqb_neq in N. now rewrite N.
  - pose proof (H2 "a.h") as A. rewrite rp_a, ?listed2, ?listed3 in A. specialize (A ltac:(right; now left)). apply String.eqb_neq in N. rewrite A, Eu, N. split; reflexivity.
  - pose proof (H2 "a.h") as A. rewrite rp_a, ?listed2, ?listed3 in A. specialize (A ltac:(right; now left)).
    pose proof (H2 "b.h") as B. rewrite rp_b, ?listed2, ?listed3 in B. specialize (B ltac:(right; right; now left)). rewrite A, B. split; reflexivity.
Qed.
Lemma xorder : in_order "/w" "/h" no_glob (on_path xdisk) (xscript nothing).
Proof. apply in_orderb_ok. vm_compute. reflexivity. Qed.
Lemma xits_unit u : In (IUnit u) xits -> u = xunit.
Proof. intros [H|[H|[H|[H|[]]]]]; try discriminate. now injection H. Qed.
Lemma xdep p q f ds b : xproj nothing p = Some (DRule f ds b) -> In q ds -> is_file (xproj nothing) q -> p_input (xproj nothing) p q.
Proof. intros H Hq Hf. apply pi_file; [|exact Hf]. exists ds. split; [exact Hq|]. right. eauto. Qed.
Lemma xgen p f ds b : xproj nothing p = Some (DRule f ds b) -> In "m__local_headers__" ds -> p_input (xproj nothing) p "/w/gen.h".
Proof.
  intros H Hq. assert (S : xproj nothing "m__local_headers__" = Some (DSet ["/w/gen.h"])) by (vm_compute; reflexivity).
  eapply pi_set; [exists ds; split; [exact Hq|]; right; eauto|exact S|]. apply pi_file.
  - exists ["/w/gen.h"]. split; [now left|]. now left.
  - right. eexists _, _, _. vm_compute. reflexivity.
Qed.
Lemma xhonest : honest "/w" "/h" no_glob xits.
Proof.
  constructor.
  - exact (io_once _ _ _ _ _ xorder).
  - exact (io_names _ _ _ _ _ xorder).
  - intros u p Hu. apply xits_unit in Hu. subst u. cbn [u_src u_dep xunit]. intros [<-|[<-|[]]]; split; reflexivity.
  - intros u s s' v Hu. apply xits_unit in Hu. subst u. cbn [u_src u_list xunit]. rewrite rp_c. intros H H1 H2.
    destruct (xboth s s' v H H1 H2) as [-> _]. exact H.
  - intros u s s' v o Hu. apply xits_unit in Hu. subst u. cbn [u_src u_list u_comp xunit]. rewrite rp_c. intros H Ho H1 H2.
    destruct (xboth s s' v H H1 H2) as [_ ->]. exact Ho.
  - intros u s v Hu. apply xits_unit in Hu. subst u. cbn [u_list xunit]. intros H. now apply (xlist_headers s).
  - intros u s v h Hu. apply xits_unit in Hu. subst u. cbn [u_list xunit]. intros H Hh. apply (xlist_headers s v H) in Hh.
    destruct Hh as [<-|[<-|[<-|[]]]]; reflexivity.
  - intros u s v h Hu. apply xits_unit in Hu. subst u. cbn [u_list u_dep u_obj xunit]. intros H Hh Hr. apply (xlist_headers s v H) in Hh.
    destruct Hh as [<-|[<-|[<-|[]]]]; [|exfalso; apply Hr; vm_compute; reflexivity..].
    rewrite rp_gen, rp_d, rp_o. split; (eapply xgen; [vm_compute; reflexivity|cbn; tauto]).
  - intros st p ds f b Hi Hr s s' Hs.
    destruct Hi as [Hi|[Hi|[Hi|[Hi|[]]]]]; try discriminate; injection Hi as <-; try discriminate.
    + assert (E : rule_of "/w" "/h" no_glob (SRule false "gen.h" ["gen.txt"] (read1 "" "/w/gen.txt")) = Some ("/w/gen.h", ["gen.txt"], (false, read1 "" "/w/gen.txt"))) by (vm_compute; reflexivity).
      rewrite E in Hr. injection Hr as <- _ _ <-. unfold read1. rewrite (Hs "/w/gen.txt"); [reflexivity|].
      eapply xdep; [vm_compute; reflexivity|now left|left; vm_compute; reflexivity].
    + assert (E : rule_of "/w" "/h" no_glob (SRule false "app" ["a.o"] (read1 "app:" "/w/a.o")) = Some ("/w/app", ["a.o"], (false, read1 "app:" "/w/a.o"))) by (vm_compute; reflexivity).
      rewrite E in Hr. injection Hr as <- _ _ <-. unfold read1. rewrite (Hs "/w/a.o"); [reflexivity|].
      eapply xdep; [vm_compute; reflexivity|now left|right; eexists _, _, _; vm_compute; reflexivity].
Qed.

(** A first process is killed while it makes the list and leaves it empty; a second one
    finishes; then a.h is edited so that it includes b.h. *)
Notation xbuild disk fs now cs := (do_process "/w" "/h" (on_path disk) no_glob no_fail (xscript (contents fs)) "/w/app" 1 fs now cs).
Definition out_fs (o : option ran) (fs : fsys) : fsys := match o with Some r => w_fs (s_world (rn_state r)) | None => fs end.
Definition out_now (o : option ran) : nat := match o with Some r => w_now (s_world (rn_state r)) | None => 0 end.
Definition xmade : list string := ["/w/gen.h"; "m__local_headers__"; "/w/a.d"; "/w/a.o"; "/w/app"].
Lemma xmakes s : flat_map (makes "/w" "/h" no_glob) (xscript s) = xmade.
Proof. rewrite makes_same. vm_compute. reflexivity. Qed.

Definition xcs1 : list choice := [CGet 0; CFin 0; CFin 0; CFin 0; CFin 0].
Definition xcs2 : list choice := [CGet 0; CFin 0; CFin 0; CFin 0; CFin 0; CFin 0; CFin 0; CFin 0; CJoin].
Definition xcs3 : list choice := [CGet 0; CFin 0; CFin 0; CFin 0; CFin 0; CFin 0; CFin 0; CFin 0; CFin 0; CJoin].
Notation xr1 := (xbuild xdisk xfs 1 xcs1).
Definition xnow1 : nat := S (out_now xr1).
Definition xfs1 : fsys := fs_set (out_fs xr1 xfs) "/w/a.d" (Some (xnow1, Reg "")).
Definition xdisk1 : list string := xdisk ++ ["/w/gen.h"; "/w/a.d"].
Notation xr2 := (xbuild xdisk1 xfs1 xnow1 xcs2).
Definition xnow2 : nat := S (out_now xr2).
Definition xfs2 : fsys := fs_set (out_fs xr2 xfs1) "/w/a.h" (Some (xnow2, Reg "b")).
Definition xdisk2 : list string := xdisk1 ++ ["/w/a.o"; "/w/app"].
Notation xr3 := (xbuild xdisk2 xfs2 xnow2 xcs3).

Lemma is_some_ok {A} (o : option A) : is_some o = true -> exists a, o = Some a.
Proof. destruct o; [eauto|discriminate]. Qed.
(** Which files there are after such a process. *)
Lemma xpresent disk disk' fs now cs (fs' : fsys) : disk_ok "/w" (present fs) (on_path disk) -> (forall p, present fs p = on disk p) ->
  in_orderb "/w" "/h" no_glob (on_path disk) (xscript (contents fs)) = true ->
  dirless "/w" "/h" (on_path disk) no_glob (xscript (contents fs)) = true ->
  is_some (xbuild disk fs now cs) = true ->
  forallb (fun p => Bool.eqb (present fs' p) (on disk' p)) (xmade ++ ["/w/a.h"]) = true ->
  (forall p, ~ In p (xmade ++ ["/w/a.h"]) -> fs' p = out_fs (xbuild disk fs now cs) fs p /\ on disk' p = on disk p) ->
  forall p, present fs' p = on disk' p.
Proof.
  intros Hd Hp Ho Hl Hs Ht Hn p. apply is_some_ok in Hs. destruct Hs as [r Er]. rewrite Er in Hn. cbn [out_fs] in Hn.
  destruct (in_dec string_dec p (xmade ++ ["/w/a.h"])) as [Hin|Hout].
  - rewrite forallb_forall in Ht. apply Bool.eqb_prop. now apply Ht.
  - destruct (Hn p Hout) as [E ->]. unfold present in *. rewrite E.
    rewrite (ran_frame _ _ _ _ _ _ _ _ _ _ _ _ Er Hd (in_orderb_ok _ _ _ _ _ Ho)); [apply Hp|rewrite xmakes; cbn; tauto|exact Hl|].
    rewrite xmakes. intros H. apply Hout, in_or_app. now left.
Qed.
Lemma xpresent0 p : present xfs p = on xdisk p.
Proof.
  unfold present, xfs, on, xdisk, mem. cbn [existsb].
  destruct (String.eqb_spec p "/"), (String.eqb_spec p "/w"), (String.eqb_spec p "/w/a.c"), (String.eqb_spec p "/w/a.h"), (String.eqb_spec p "/w/b.h"), (String.eqb_spec p "/w/gen.txt"); reflexivity.
Qed.
Lemma not_eqb (p a : string) l : ~ In p l -> In a l -> String.eqb p a = false /\ String.eqb a p = false.
Proof. intros H Ha. split; apply String.eqb_neq; intros ->; contradiction. Qed.
Lemma xpresent1 p : present xfs1 p = on xdisk1 p.
Proof.
  revert p. apply (xpresent xdisk xdisk1 xfs 1 xcs1); [exact xfs_ok|exact xpresent0|vm_compute; reflexivity..|].
  intros p Hp. unfold xfs1, fs_set. rewrite (proj1 (not_eqb p "/w/a.d" _ Hp ltac:(cbn; tauto))). split; [reflexivity|].
  unfold on, xdisk1. rewrite existsb_app. cbn [existsb].
  rewrite (proj1 (not_eqb p "/w/a.d" _ Hp ltac:(cbn; tauto))), (proj1 (not_eqb p "/w/gen.h" _ Hp ltac:(cbn; tauto))). now rewrite !orb_false_r.
Qed.
Lemma xdisk1_ok : disk_ok "/w" (present xfs1) (on_path xdisk1).
Proof. apply present_ok; [exact xpresent1|vm_compute; reflexivity..]. Qed.
Lemma xpresent2 p : present xfs2 p = on xdisk2 p.
Proof.
  revert p. apply (xpresent xdisk1 xdisk2 xfs1 xnow1 xcs2); [exact xdisk1_ok|exact xpresent1|vm_compute; reflexivity..|].
  intros p Hp. unfold xfs2, fs_set. rewrite (proj1 (not_eqb p "/w/a.h" _ Hp ltac:(cbn; tauto))). split; [reflexivity|].
  unfold on, xdisk2. rewrite existsb_app. cbn [existsb].
  rewrite (proj1 (not_eqb p "/w/a.o" _ Hp ltac:(cbn; tauto))), (proj1 (not_eqb p "/w/app" _ Hp ltac:(cbn; tauto))). now rewrite !orb_false_r.
Qed.
Lemma xdisk2_ok : disk_ok "/w" (present xfs2) (on_path xdisk2).
Proof. apply present_ok; [exact xpresent2|vm_compute; reflexivity..]. Qed.
Lemma xmade_in s : In "/w/app" (flat_map (makes "/w" "/h" no_glob) (xscript s)).
Proof. rewrite xmakes. cbn. tauto. Qed.
Lemma xorder0 : in_order "/w" "/h" no_glob (on_path xdisk) (xscript (contents xfs)).
Proof. apply in_orderb_ok. vm_compute. reflexivity. Qed.
Lemma xorder1 : in_order "/w" "/h" no_glob (on_path xdisk1) (xscript (contents xfs1)).
Proof. apply in_orderb_ok. vm_compute. reflexivity. Qed.
Lemma xorder2 : in_order "/w" "/h" no_glob (on_path xdisk2) (xscript (contents xfs2)).
Proof. apply in_orderb_ok. vm_compute. reflexivity. Qed.
Lemma xrules p : rules_in "/w" "/h" no_glob xits p <> None -> In p xmade.
Proof.
  intros H. apply (is_rule_at _ _ _ _ xhonest nothing) in H. apply rule_makes in H. now rewrite xmakes in H.
Qed.
Lemma xstart junk : cxx_history "/w" "/h" no_glob junk xits xfs 1.
Proof.
  apply ch_start.
  - intros p m n. unfold xfs. destruct (mem p _); [intros [= <- <-]; auto|].
    destruct (String.eqb p "/w/a.c"); [intros [= <- <-]; auto|]. destruct (String.eqb p "/w/a.h"); [intros [= <- <-]; auto|].
    destruct (String.eqb p "/w/b.h"); [intros [= <- <-]; auto|]. destruct (String.eqb p "/w/gen.txt"); [intros [= <- <-]; auto|discriminate].
  - intros p Hp. apply xrules in Hp. destruct Hp as [<-|[<-|[<-|[<-|[<-|[]]]]]]; reflexivity.
Qed.
Lemma no_junk junk r : all_ran_well r = true -> leaves_junk junk (s_world (rn_state r)).
Proof. unfold all_ran_well. rewrite forallb_forall. intros H p m v Hp. specialize (H _ Hp). discriminate. Qed.
(** A test for running rules. *)
Definition runningb (r : ran) (p : string) : bool :=
  let nm k := t_name (obj (rn_core r) (nth k (rn_objs r) (List.length (c_heap (rn_core r))))) in
  existsb (fun k => String.eqb (nm k) p) (started (s_log (rn_state r))) &&
  forallb (fun k => negb (String.eqb (nm k) p)) (finished (s_log (rn_state r)) ++ raised (s_log (rn_state r))).
Lemma runningb_ok r p : runningb r p = true -> running (rn_core r) (rn_objs r) (rn_state r) p.
Proof.
  unfold runningb. intros H. apply andb_prop in H. destruct H as [A B]. apply existsb_exists in A. destruct A as (k & Hk & E). apply String.eqb_eq in E.
  split; [now exists k|]. rewrite forallb_forall in B. intros k' Hk'. specialize (B k' ltac:(apply in_or_app; exact Hk')).
  apply negb_true_iff in B. now apply String.eqb_neq.
Qed.
Section Steps.
  Variable junk : string -> string -> Prop.
  Variables (disk : list string) (fs : fsys) (now : nat) (cs : list choice) (r : ran).
  Hypothesis Hr : xbuild disk fs now cs = Some r.
  Hypothesis Hh : cxx_history "/w" "/h" no_glob junk xits fs now.
  Hypothesis Hd : disk_ok "/w" (present fs) (on_path disk).
  Hypothesis Ho : in_order "/w" "/h" no_glob (on_path disk) (xscript (contents fs)).
  Hypothesis Ht : all_ran_well r = true.
  Lemma step_building : building "/w" "/h" (on_path disk) no_glob true (xscript (contents fs)) "/w/app" 1 fs now
    (rn_kind r) (rn_core r) (rn_objs r) (rn_solver r) (rn_state r).
  Proof. apply building_partial. exact (do_process_ok _ _ _ _ _ _ _ _ _ _ _ _ Hr). Qed.
  Lemma step_left fs' now' : left_by (rules_in "/w" "/h" no_glob xits) junk (rn_core r) (rn_objs r) (rn_state r) fs' now' ->
    cxx_history "/w" "/h" no_glob junk xits fs' now'.
  Proof.
    intros H. eapply ch_process; [exact Hh|exact Hd|exact Ho|apply xmade_in|exact step_building|now apply no_junk|exact H].
  Qed.
  Lemma step_killed m v : junk "/w/a.d" v -> runningb r "/w/a.d" = true -> w_base (s_world (rn_state r)) < m -> w_now (s_world (rn_state r)) <= m ->
    cxx_history "/w" "/h" no_glob junk xits (fs_set (w_fs (s_world (rn_state r))) "/w/a.d" (Some (m, Reg v))) m.
  Proof.
    intros Hj H1 H2 H3. apply step_left. split; [exact H3|]. intros p. unfold fs_set.
    destruct (String.eqb_spec p "/w/a.d") as [->|N]; [|now left]. right. split; [vm_compute; discriminate|]. split; [now apply runningb_ok|].
    exists m, v. split; [reflexivity|]. split; [auto|exact Hj].
  Qed.
  Lemma step_edit v : cxx_history "/w" "/h" no_glob junk xits
    (fs_set (w_fs (s_world (rn_state r))) "/w/a.h" (Some (S (w_now (s_world (rn_state r))), Reg v))) (S (w_now (s_world (rn_state r)))).
  Proof.
    apply (ch_outside _ _ _ _ _ (w_fs (s_world (rn_state r))) (w_now (s_world (rn_state r)))).
    - apply step_left. split; [auto|]. intros p. now left.
    - split; [auto|]. intros p. unfold fs_set. destruct (String.eqb_spec p "/w/a.h") as [->|N]; [|now left].
      right. right. split; [vm_compute; reflexivity|]. eexists _, _. split; [reflexivity|]. auto.
  Qed.
End Steps.
Lemma xr1_ok : on_ran xr1 (fun r => all_ran_well r && runningb r "/w/a.d" && Nat.ltb (w_base (s_world (rn_state r))) (S (w_now (s_world (rn_state r))))) = true.
Proof. vm_compute. reflexivity. Qed.
Lemma xempty : empty_list "/w" xits "/w/a.d" "".
Proof. split; [reflexivity|]. exists xunit. split; [cbn; tauto|]. cbn [u_dep xunit]. now rewrite rp_d. Qed.
Lemma xkilled : cxx_history "/w" "/h" no_glob (empty_list "/w" xits) xits xfs1 xnow1.
Proof.
  destruct (on_ran_ok _ _ xr1_ok) as (r & Er & T). apply andb_prop in T. destruct T as [T T3]. apply andb_prop in T. destruct T as [T1 T2].
  apply Nat.ltb_lt in T3. unfold xfs1, xnow1. rewrite Er. cbn [out_fs out_now].
  pose proof (step_killed (empty_list "/w" xits) xdisk xfs 1 xcs1 r Er) as H.
  exact (H (xstart _) xfs_ok xorder0 T1 (S (w_now (s_world (rn_state r)))) "" xempty T2 T3 (Nat.le_succ_diag_r _)).
Qed.
Lemma xkilled_list : contents xfs1 "/w/a.d" = Some "".
Proof. vm_compute. reflexivity. Qed.
Lemma xr2_ok : on_ran xr2 all_ran_well = true.
Proof. vm_compute. reflexivity. Qed.
Lemma xedited : cxx_history "/w" "/h" no_glob (empty_list "/w" xits) xits xfs2 xnow2.
Proof.
  destruct (on_ran_ok _ _ xr2_ok) as (r & Er & T). unfold xfs2, xnow2. rewrite Er. cbn [out_fs out_now].
  exact (step_edit _ xdisk1 xfs1 xnow1 xcs2 r Er xkilled xdisk1_ok xorder1 T "b").
Qed.
Lemma xedited_files : contents xfs2 "/w/a.d" = Some "a.o: a.c gen.h a.h" /\ contents xfs2 "/w/a.o" = Some "o:g,x" /\ contents xfs2 "/w/a.h" = Some "b".
Proof. vm_compute. auto. Qed.
(** The third process. *)
Lemma xr3_ok : on_ran xr3 (fun r => fine r && String.eqb (text r "/w/a.d") "a.o: a.c gen.h a.h b.h" && String.eqb (text r "/w/a.o") "o:g,b,y") = true.
Proof. vm_compute. reflexivity. Qed.
Lemma xremade : exists kind c1 objs sv s,
  building "/w" "/h" (on_path xdisk2) no_glob true (xscript (contents xfs2)) "/w/app" 1 xfs2 xnow2 kind c1 objs sv s /\ succeeded objs s /\
  contents (w_fs (s_world s)) "/w/a.d" = Some "a.o: a.c gen.h a.h b.h" /\ contents (w_fs (s_world s)) "/w/a.o" = Some "o:g,b,y".
Proof.
  destruct (on_ran_ok _ _ xr3_ok) as (r & Er & T). apply andb_prop in T. destruct T as [T T3]. apply andb_prop in T. destruct T as [T1 T2].
  exists (rn_kind r), (rn_core r), (rn_objs r), (rn_solver r), (rn_state r).
  split; [exact (step_building xdisk2 xfs2 xnow2 xcs3 r Er)|]. split; [exact (fine_ok r T1)|].
  split; (apply text_eq; [discriminate|assumption]).
Qed.
Lemma xcone : p_cone (xproj (contents xfs2)) "/w/app" "/w/a.o" /\ p_cone (xproj (contents xfs2)) "/w/app" "/w/a.d".
Proof.
  assert (A : p_dep (xproj (contents xfs2)) "/w/app" "/w/a.o").
  { exists ["/w/a.o"]. split; [now left|]. right. eexists _, _. vm_compute. reflexivity. }
  assert (B : p_dep (xproj (contents xfs2)) "/w/a.o" "/w/a.d").
  { eexists. split; [|right; eexists _, _; vm_compute; reflexivity]. right. now left. }
  split; [now apply rt_step|]. eapply rt_trans; apply rt_step; eassumption.
Qed.

(** The same, but the first process leaves a list that is cut off: a.h is missing. *)
Definition yfs1 : fsys := fs_set (out_fs xr1 xfs) "/w/a.d" (Some (xnow1, Reg "a.o: a.c gen.h")).
Definition ycs2 : list choice := [CGet 0; CFin 0; CFin 0; CFin 0; CFin 0; CFin 0; CFin 0; CFin 0; CJoin].
Notation yr2 := (xbuild xdisk1 yfs1 xnow1 ycs2).
Definition ynow2 : nat := S (out_now yr2).
Definition yfs2 : fsys := fs_set (out_fs yr2 yfs1) "/w/a.h" (Some (ynow2, Reg "b")).
Notation yr3 := (xbuild xdisk2 yfs2 ynow2 ycs2).
Lemma ypresent1 p : present yfs1 p = on xdisk1 p.
Proof.
  rewrite <- xpresent1. unfold present, yfs1, xfs1, fs_set. now destruct (String.eqb p "/w/a.d").
Qed.
Lemma ydisk1_ok : disk_ok "/w" (present yfs1) (on_path xdisk1).
Proof. apply present_ok; [exact ypresent1|vm_compute; reflexivity..]. Qed.
Lemma yorder1 : in_order "/w" "/h" no_glob (on_path xdisk1) (xscript (contents yfs1)).
Proof. apply in_orderb_ok. vm_compute. reflexivity. Qed.
Lemma ypresent2 p : present yfs2 p = on xdisk2 p.
Proof.
  revert p. apply (xpresent xdisk1 xdisk2 yfs1 xnow1 ycs2); [exact ydisk1_ok|exact ypresent1|vm_compute; reflexivity..|].
  intros p Hp. unfold yfs2, fs_set. rewrite (proj1 (not_eqb p "/w/a.h" _ Hp ltac:(cbn; tauto))). split; [reflexivity|].
  unfold on, xdisk2. rewrite existsb_app. cbn [existsb].
  rewrite (proj1 (not_eqb p "/w/a.o" _ Hp ltac:(cbn; tauto))), (proj1 (not_eqb p "/w/app" _ Hp ltac:(cbn; tauto))). now rewrite !orb_false_r.
Qed.
Lemma ydisk2_ok : disk_ok "/w" (present yfs2) (on_path xdisk2).
Proof. apply present_ok; [exact ypresent2|vm_compute; reflexivity..]. Qed.
Lemma yorder2 : in_order "/w" "/h" no_glob (on_path xdisk2) (xscript (contents yfs2)).
Proof. apply in_orderb_ok. vm_compute. reflexivity. Qed.
Lemma ycut : cut_list "/w" xits "/w/a.d" "a.o: a.c gen.h".
Proof.
  exists xunit. split; [cbn; tauto|]. cbn [u_dep u_list xunit]. split; [now rewrite rp_d|].
  exists (fun _ => Some "a"), " a.h". vm_compute. reflexivity.
Qed.
Lemma ykilled : cxx_history "/w" "/h" no_glob (cut_list "/w" xits) xits yfs1 xnow1.
Proof.
  destruct (on_ran_ok _ _ xr1_ok) as (r & Er & T). apply andb_prop in T. destruct T as [T T3]. apply andb_prop in T. destruct T as [T1 T2].
  apply Nat.ltb_lt in T3. unfold yfs1, xnow1. rewrite Er. cbn [out_fs out_now].
  pose proof (step_killed (cut_list "/w" xits) xdisk xfs 1 xcs1 r Er) as H.
  exact (H (xstart _) xfs_ok xorder0 T1 (S (w_now (s_world (rn_state r)))) "a.o: a.c gen.h" ycut T2 T3 (Nat.le_succ_diag_r _)).
Qed.
Lemma yr2_ok : on_ran yr2 all_ran_well = true.
Proof. vm_compute. reflexivity. Qed.
Lemma yedited : cxx_history "/w" "/h" no_glob (cut_list "/w" xits) xits yfs2 ynow2.
Proof.
  destruct (on_ran_ok _ _ yr2_ok) as (r & Er & T). unfold yfs2, ynow2. rewrite Er. cbn [out_fs out_now].
  exact (step_edit _ xdisk1 yfs1 xnow1 ycs2 r Er ykilled ydisk1_ok yorder1 T "b").
Qed.
Lemma yr3_ok : on_ran yr3 (fun r => fine r && String.eqb (text r "/w/a.o") "o:g,x" &&
  match xcomp (contents (w_fs (s_world (rn_state r)))) with Some v => String.eqb v "o:g,b,y" | None => false end) = true.
Proof. vm_compute. reflexivity. Qed.
Lemma ycone : p_cone (xproj (contents yfs2)) "/w/app" "/w/a.o".
Proof. apply rt_step. exists ["/w/a.o"]. split; [now left|]. right. eexists _, _. vm_compute. reflexivity. Qed.
Lemma ystale : exists kind c1 objs sv s,
  building "/w" "/h" (on_path xdisk2) no_glob true (xscript (contents yfs2)) "/w/app" 1 yfs2 ynow2 kind c1 objs sv s /\ succeeded objs s /\
  contents (w_fs (s_world s)) "/w/a.o" <> xcomp (contents (w_fs (s_world s))).
Proof.
  destruct (on_ran_ok _ _ yr3_ok) as (r & Er & T). apply andb_prop in T. destruct T as [T T3]. apply andb_prop in T. destruct T as [T1 T2].
  exists (rn_kind r), (rn_core r), (rn_objs r), (rn_solver r), (rn_state r).
  split; [exact (step_building xdisk2 yfs2 ynow2 ycs2 r Er)|]. split; [exact (fine_ok r T1)|].
  pose proof (text_eq r "/w/a.o" "o:g,x" ltac:(discriminate) T2) as E. rewrite E.
  destruct (xcomp _) as [v|]; [|discriminate]. apply String.eqb_eq in T3. subst v. discriminate.
Qed.
Lemma cut_lists_fail : exists cwd home glob_ its exists_ fs now x th kind c1 objs sv s u,
  honest cwd home glob_ its /\ cxx_history cwd home glob_ (cut_list cwd its) its fs now /\ disk_ok cwd (present fs) exists_ /\
  in_order cwd home glob_ exists_ (script_at cwd its (contents fs)) /\ In x (flat_map (makes cwd home glob_) (script_at cwd its (contents fs))) /\
  building cwd home exists_ glob_ true (script_at cwd its (contents fs)) x th fs now kind c1 objs sv s /\ succeeded objs s /\
  In (IUnit u) its /\ p_cone (project_at cwd home glob_ its (contents fs)) x (realpath cwd (u_obj u)) /\
  contents (w_fs (s_world s)) (realpath cwd (u_obj u)) <> u_comp u (contents (w_fs (s_world s))).
Proof.
  destruct ystale as (kind & c1 & objs & sv & s & B & Su & N).
  exists "/w", "/h", no_glob, xits, (on_path xdisk2), yfs2, ynow2, "/w/app", 1%Z, kind, c1, objs, sv, s, xunit.
  split; [exact xhonest|]. split; [exact yedited|]. split; [exact ydisk2_ok|]. split; [exact yorder2|]. split; [apply xmade_in|].
  split; [exact B|]. split; [exact Su|]. split; [cbn; tauto|]. cbn [u_obj u_comp xunit]. rewrite rp_o. split; [exact ycone|exact N].
Qed.
