(** C87: the actions of the built-in targets m (list, print), cxxm (collect_modules, ...) and
    binutils (disasm) from the command line.  [m_info], [cxxm_info] and [binutils_info] are these
    targets as the command line sees them; [lists_modules h sel lines]: [lines] are the modules
    that [sel] selects, in alphabetical order. *)
From Verif Require Import PyBase PyPath SolverModel InvokerModel CoreModel SpecCore CliModel ModulesModel SpecModules ModulesProofs
  CollectProofs CxxProofs InfoModel SpecInfo InfoProofs.
From Coq Require Import Sorted Permutation.
Local Open Scope string_scope.
Local Open Scope list_scope.

(** "m list" prints every module. *)
Theorem C87_list_all :
  forall other h lib, lib_run mlib0 h = Ok lib ->
  forall canon u fuel info c default nm k, cli canon u fuel info c default [nm; "list"] = Ok k ->
  fst (core_has canon c nm) = true -> info (k_obj k) = m_info ->
  k_act k = "list" /\ exists lines, print_modules_list other lib (k_args k) = Ok lines /\ lists_modules h (fun _ => True) lines.
Proof.
  intros other h lib Hh canon u fuel info c default nm k Hk Hr Hi.
  apply cli_no_word in Hk as [E ->]; [|exact Hr|now rewrite Hi]. split; [exact E|]. now apply list_all.
Qed.
Print Assumptions C87_list_all.
(** "m list PATTERN" looks only at the first character of the pattern ([other] is re.search for
    longer patterns: it is never asked). *)
Theorem C87_list_first_character :
  forall other h lib, lib_run mlib0 h = Ok lib ->
  forall canon u fuel info c default nm ch rest k, cli canon u fuel info c default [nm; "list"; String ch rest] = Ok k ->
  info (k_obj k) = m_info -> ~ In ch special_chars ->
  k_act k = "list" /\ exists lines, print_modules_list other lib (k_args k) = Ok lines /\
    lists_modules h (fun n => occurs (String ch "") n) lines.
Proof.
  intros other h lib Hh canon u fuel info c default nm ch rest k Hk Hi Hc.
  apply cli_word in Hk as [E ->]; [|now rewrite Hi]. split; [exact E|]. cbn [CliModel.chars].
  apply (list_char other h lib Hh ch _ (some_char (Ascii.eqb ch))); [intros n; now apply plain_search|intros n; apply eqb_char_occurs].
Qed.
Print Assumptions C87_list_first_character.
(** Patterns that start with an anchor list everything; with an operator or a bracket they raise. *)
Theorem C87_list_special :
  forall other h lib, lib_run mlib0 h = Ok lib ->
  forall canon u fuel info c default nm ch rest k, cli canon u fuel info c default [nm; "list"; String ch rest] = Ok k ->
  info (k_obj k) = m_info ->
  (In ch ["^"; "$"; "|"]%char -> exists lines, print_modules_list other lib (k_args k) = Ok lines /\ lists_modules h (fun _ => True) lines) /\
  (In ch ["*"; "+"; "?"; "("; ")"; "["; "\"]%char -> (exists n, known_name h n) ->
     print_modules_list other lib (k_args k) = Raise (PlainException "re.error")).
Proof.
  intros other h lib Hh canon u fuel info c default nm ch rest k Hk Hi.
  apply cli_word in Hk as [E ->]; [|now rewrite Hi]. cbn [CliModel.chars]. split.
  - intros Hc. apply (list_char other h lib Hh ch _ (fun _ => true)); [|tauto].
    intros n. destruct Hc as [<-|[<-|[<-|[]]]]; reflexivity.
  - intros Hc (n & Hn). apply (hi_names _ _ (history_ok _ _ Hh)) in Hn. unfold print_modules_list.
    destruct (l_mods lib) as [|e l] eqn:El; [discriminate|]. set (ks := sort_by _ _).
    assert (ks <> []).
    { intros Ek. assert (Hin : In (fst e) ks) by (eapply Permutation_in; [apply sort_perm|now left]). rewrite Ek in Hin. destruct Hin. }
    destruct ks as [|x ks]; [congruence|]. cbn. 
    assert (Es : char_search ch x = None) by (destruct Hc as [<-|[<-|[<-|[<-|[<-|[<-|[<-|[]]]]]]]]; reflexivity).
    now rewrite Es.
Qed.
Print Assumptions C87_list_special.
(** "m print NAME" and "cxxm collect_modules NAME" look for a module whose name is the first
    character: they end the program, unless there is such a module. *)
Theorem C87_print_and_collect_fail :
  forall h lib, lib_run mlib0 h = Ok lib -> no_short_names h ->
  forall canon u fuel info c default nm act w k, cli canon u fuel info c default [nm; act; w] = Ok k -> w <> "" ->
  (info (k_obj k) = m_info -> act = "print" -> k_act k = "print" /\ ends (print_module lib (k_args k))) /\
  (info (k_obj k) = cxxm_info -> act = "collect_modules" -> k_act k = "collect_modules" /\ forall f, ends (print_collect_list f lib (k_args k))).
Proof.
  intros h lib Hh Hs canon u fuel info c default nm act w k Hk Hw. split; intros Hi ->;
    (apply cli_word in Hk as [E ->]; [|now rewrite Hi]); (split; [exact E|]).
  - now apply (short_print h).
  - intros f. now apply (short_collect f h).
Qed.
Print Assumptions C87_print_and_collect_fail.
(** For a module whose name is one character, collect_modules prints what collect_modules of
    cxx_modules.py gives, in alphabetical order. *)
Theorem C87_collect_one_character_partial :
  forall fuel lib ch m lib1 ms lib2 inc, get lib (String ch "") None = Ok (m, lib1) ->
  collect_modules fuel lib1 m = Ok (ms, lib2, inc) ->
  exists lines, print_collect_list fuel lib (CliModel.chars (String ch "")) = Ok (Some lines, lib2) /\
    in_alphabetical_order (map fst lines) /\ Permutation lines (map (fun x => (mod_name lib2 x, mod_impl lib2 x)) ms).
Proof.
  intros fuel lib ch m lib1 ms lib2 inc Hg Hc. cbn. rewrite Hg. cbn [bind]. rewrite Hc. cbn [bind].
  eexists. split; [reflexivity|]. split.
  - rewrite map_map. cbn. apply (sorted_map (mod_name lib2)). apply sort_sorted.
  - apply Permutation_map. symmetry. apply sort_perm.
Qed.
Print Assumptions C87_collect_one_character_partial.
(** "cxxm included_from NAME" and "cxxm finalopts NAME" also take the first character for the name. *)
Theorem C87_included_from_and_finalopts_fail :
  forall canon u fuel info c default nm act w k, cli canon u fuel info c default [nm; act; w] = Ok k -> w <> "" ->
  info (k_obj k) = cxxm_info ->
  (act = "included_from" -> k_act k = "included_from" /\
     forall h lib, lib_run mlib0 h = Ok lib -> no_short_names h -> forall f, ends (print_included_from f lib (k_args k))) /\
  (act = "finalopts" -> k_act k = "finalopts" /\
     forall V (finalopts : nat -> option V) c' d,
     (forall ch, sget (c_targets c') (String ch "") = None /\ sget (c_targets c') (canon (String ch "")) = None) ->
     ends (print_finalopts canon finalopts c' d (k_args k))).
Proof.
  intros canon u fuel info c default nm act w k Hk Hw Hi. split; intros ->;
    (apply cli_word in Hk as [E ->]; [|now rewrite Hi]); (split; [exact E|]); destruct w as [|ch w]; try congruence.
  - intros h lib Hh Hs f. cbn. apply ends_bind. now apply (short_get h).
  - intros V fo c' d Hn. cbn. unfold core_get. destruct (Hn ch) as [-> ->]. eexists. reflexivity.
Qed.
Print Assumptions C87_included_from_and_finalopts_fail.
(** For a module whose name is one character the modules that collect_modules gives are listed in
    alphabetical order, with all modules that ask for them explicitly and no others but the root
    and modules that ask for them. *)
Theorem C87_included_from_one_character_partial :
  forall fuel h lib ch m lib1 ms lib2 inc, lib_run mlib0 h = Ok lib -> get lib (String ch "") None = Ok (m, lib1) ->
  collect_modules fuel lib1 m = Ok (ms, lib2, inc) ->
  exists lines, print_included_from fuel lib (CliModel.chars (String ch "")) = Ok (Some lines, lib2) /\
    in_alphabetical_order (map fst lines) /\ Permutation (map fst lines) (map (mod_name lib2) ms) /\
    (forall n s x, In (n, s) lines -> In x s -> named lib2 m x \/
       exists q, (q = m \/ In q ms) /\ named lib2 q x /\ (wants lib2 q (EStr n) \/ exists i, wants lib2 q (EPair n i))) /\
    (forall n s q i x, In (n, s) lines -> q = m \/ In q ms -> named lib2 q x -> wants lib2 q (EPair n i) -> In x s).
Proof.
  intros fuel h lib ch m lib1 ms lib2 inc Hh Hg Hc. cbn. rewrite Hg. cbn [bind]. rewrite Hc. cbn [bind].
  pose proof (hi_wf _ _ (history_ok _ _ Hh)) as W.
  assert (W1 : wf_lib lib1 /\ nth_error (l_heap lib1) m <> None).
  { pose proof (get_none lib (String ch "")) as Gn. destruct (sget (l_def lib) (String ch "")) as [i|].
    - rewrite Gn, get_some in Hg. destruct (get_impl_lext _ _ _ _ _ W Hg) as [L Hi]. split; [apply L|].
      destruct (wf_obj _ (le_wf _ _ L) _ _ _ Hi) as (r & Er & _). congruence.
    - destruct Gn as [msg Gn]. congruence. }
  destruct W1 as [W1 Hm].
  pose proof (final_inc_sound fuel lib1 m ms lib2 inc W1 Hm Hc) as Sound.
  pose proof (final_inc_explicit fuel lib1 m ms lib2 inc W1 Hm Hc) as Expl.
  eexists. split; [reflexivity|]. split; [|split; [|split]].
  - rewrite map_map. cbn. apply (sorted_map (mod_name lib2)). apply sort_sorted.
  - rewrite map_map. cbn. apply Permutation_map. symmetry. apply sort_perm.
  - intros n s x Hl Hx. apply in_map_iff in Hl as (y & E & _). injection E as <- <-.
    destruct (sget inc (mod_name lib2 y)) as [s|] eqn:Es; [|destruct Hx]. exact (Sound _ _ _ Es Hx).
  - intros n s q i x Hl Hq Hn Hwn. apply in_map_iff in Hl as (y & E & _). injection E as <- <-.
    destruct (Expl q _ i x Hq Hn Hwn) as (s' & -> & Hs'). exact Hs'.
Qed.
Print Assumptions C87_included_from_one_character_partial.
(** What finalopts prints belongs to a registered target: the one of the first character or the
    default one. *)
Theorem C87_finalopts_of_a_target :
  forall V canon (finalopts : nat -> option V) c d w v, print_finalopts canon finalopts c d (CliModel.chars w) = Ok v ->
  exists n i, (sget (c_targets c) n = Some i \/ sget (c_targets c) (canon n) = Some i) /\ finalopts i = Some v /\
    match w with String ch _ => n = String ch "" | EmptyString => d = Some n \/ (d = None /\ n = "None") end.
Proof.
  intros V canon fo c d w v H.
  assert (K : forall nm, (do! i <- core_get canon c nm; match fo i with Some v => Ok v | None => Raise (AttributeError "finalopts") end) = Ok v ->
    exists i, (sget (c_targets c) nm = Some i \/ sget (c_targets c) (canon nm) = Some i) /\ fo i = Some v).
  { intros nm E. apply bind_ok in E as (i & Ei & E). exists i. unfold core_get in Ei.
    destruct (fo i) as [v'|] eqn:Ev; [injection E as <-|discriminate]. split; [|reflexivity].
    destruct (sget (c_targets c) nm); [injection Ei as <-; auto|]. destruct (sget (c_targets c) (canon nm)); [injection Ei as <-; auto|discriminate]. }
  destruct w as [|ch w]; cbn in H.
  - destruct d as [n|].
    + destruct (K n H) as (i & Hi & Hv). exists n, i. auto.
    + destruct (sget (c_targets c) "None") as [i|] eqn:Ei; [|discriminate]. exists "None", i.
      destruct (fo i) as [v'|] eqn:Ev; [injection H as <-|discriminate]. auto.
  - destruct (K (String ch "") H) as (i & Hi & Hv). exists (String ch ""), i. auto.
Qed.
Print Assumptions C87_finalopts_of_a_target.
(** "binutils disasm ..." never succeeds. *)
Theorem C87_disasm_raises :
  forall canon u fuel info c default ws k, cli canon u fuel info c default ws = Ok k ->
  info (k_obj k) = binutils_info -> k_act k = "disasm" -> exists e, disassembler (k_args k) = Raise e.
Proof. intros. destruct (k_args k); cbn; eauto. Qed.
Print Assumptions C87_disasm_raises.

(** A library with two modules and a core with the targets "m" and "cxxm". *)
Definition h_two : list libop :=
  [OModule "net" None false [] "/p/x.py" [("mdepends", VList [EStr "gui_n"])]; OImplementation "gui_n" "qt" true [] "/p/x.py" [];
   OImplementation "gui_n" "gtk" false [] "/p/x.py" []; OModule "io" None false [] "/p/x.py" []].
Definition info_core : core := crun (fun x => x) [OpNew Plain "m" []; OpNew Plain "cxxm" []; OpNew Plain "binutils" []] (new_core None).
Definition infos (i : nat) : tinfo := match i with 0 => m_info | 1 => cxxm_info | _ => binutils_info end.
Notation run_words ws := (cli (fun x => x) (fun _ => Ok true) 9 infos info_core None ws).
Definition lib_two : mlib := Eval vm_compute in match lib_run mlib0 h_two with Ok l => l | _ => mlib0 end.
Lemma two_ok : lib_run mlib0 h_two = Ok lib_two.
Proof. reflexivity. Qed.

(** The wish: "m list net" lists the modules in whose name "net" occurs, "m print net" prints the
    registered module "net". *)
Theorem C87_list_refuted :
  forall other, exists h lib canon u fuel info c default k lines,
    lib_run mlib0 h = Ok lib /\ info (k_obj k) = m_info /\ cli canon u fuel info c default ["m"; "list"; "net"] = Ok k /\
    print_modules_list other lib (k_args k) = Ok lines /\ ~ lists_modules h (fun n => occurs "net" n) lines.
Proof.
  intros other. exists h_two, lib_two, (fun x => x), (fun _ => Ok true), 9, infos, info_core, None. do 2 eexists.
  split; [exact two_ok|]. split; [|split; [vm_compute; reflexivity|]]; [reflexivity|]. split; [vm_compute; reflexivity|].
  intros (_ & _ & H & _). destruct (proj1 (H "gui_n") (or_introl eq_refl)) as [_ (a & b & E)].
  do 5 (destruct a as [|? a]; cbn in E; [discriminate E|injection E as _ E]). destruct a; discriminate E.
Qed.
Print Assumptions C87_list_refuted.
Theorem C87_print_refuted :
  exists h lib canon u fuel info c default k m msg,
    lib_run mlib0 h = Ok lib /\ get lib "net" None = Ok (m, lib) /\ info (k_obj k) = m_info /\
    cli canon u fuel info c default ["m"; "print"; "net"] = Ok k /\ print_module lib (k_args k) = Raise (SystemExit msg).
Proof.
  exists h_two, lib_two, (fun x => x), (fun _ => Ok true), 9, infos, info_core, None. do 3 eexists.
  split; [exact two_ok|]. split; [vm_compute; reflexivity|]. split; [|split; [vm_compute; reflexivity|]]; [reflexivity|]. vm_compute. reflexivity.
Qed.
Print Assumptions C87_print_refuted.

Example C87_list_case : forall other,
  exists k, run_words ["m"; "list"] = Ok k /\ infos (k_obj k) = m_info /\
  print_modules_list other lib_two (k_args k) = Ok [("gui_n", ["qt"; "gtk"]); ("io", ["__default__"]); ("net", ["__default__"])].
Proof. intros. eexists. split; [vm_compute; reflexivity|]. split; [reflexivity|]. vm_compute. reflexivity. Qed.
Example C87_list_word_case : forall other,
  exists k, run_words ["m"; "list"; "ixyz"] = Ok k /\ infos (k_obj k) = m_info /\ ~ In "i"%char special_chars /\
  print_modules_list other lib_two (k_args k) = Ok [("gui_n", ["qt"; "gtk"]); ("io", ["__default__"])].
Proof.
  intros. eexists. split; [vm_compute; reflexivity|]. split; [reflexivity|]. split; [|vm_compute; reflexivity].
  cbn. intuition discriminate.
Qed.
Example C87_special_case : forall other,
  exists k, run_words ["m"; "list"; "*io"] = Ok k /\ print_modules_list other lib_two (k_args k) = Raise (PlainException "re.error").
Proof. intros. eexists. split; vm_compute; reflexivity. Qed.
Example C87_fail_case :
  no_short_names h_two /\ exists k, run_words ["cxxm"; "collect_modules"; "net"] = Ok k /\ infos (k_obj k) = cxxm_info.
Proof.
  split; [|eexists; split; [vm_compute; reflexivity|reflexivity]].
  intros n (o & i & c & Ho & Hr). destruct Ho as [<-|[<-|[<-|[<-|[]]]]]; cbn in Hr; injection Hr as <- _ _; discriminate.
Qed.
Example C87_collect_case :
  exists lib m lib1 ms lib2 inc, lib_run mlib0 (OModule "n" None false [] "/p/x.py" [("mdepends", VList [EStr "net"; EStr "io"])] :: h_two) = Ok lib /\
    get lib "n" None = Ok (m, lib1) /\ collect_modules 9 lib1 m = Ok (ms, lib2, inc) /\
    print_collect_list 9 lib ["n"] = Ok (Some [("gui_n", Some "qt"); ("io", Some "__default__"); ("net", Some "__default__")], lib2).
Proof. do 6 eexists. split; [reflexivity|]. split; [reflexivity|]. split; vm_compute; reflexivity. Qed.
Example C87_disasm_case :
  exists k, run_words ["binutils"; "disasm"; "a.o"] = Ok k /\ infos (k_obj k) = binutils_info /\ k_act k = "disasm".
Proof. eexists. split; [vm_compute; reflexivity|]. split; reflexivity. Qed.
Example C87_included_from_case :
  exists lib m lib1 ms lib2 inc, lib_run mlib0 (OModule "n" None false [] "/p/x.py" [("mdepends", VList [EStr "net"; EStr "io"])] :: h_two) = Ok lib /\
    get lib "n" None = Ok (m, lib1) /\ collect_modules 9 lib1 m = Ok (ms, lib2, inc) /\
    print_included_from 9 lib ["n"] = Ok (Some [("gui_n", ["net"; "n"]); ("io", ["n"]); ("net", ["n"])], lib2).
Proof. do 6 eexists. split; [reflexivity|]. split; [reflexivity|]. split; vm_compute; reflexivity. Qed.
Example C87_finalopts_case :
  exists k, run_words ["cxxm"; "finalopts"; "binutils"] = Ok k /\ infos (k_obj k) = cxxm_info /\
    ends (print_finalopts (fun x => x) (fun i => Some i) info_core None (k_args k)) /\
    print_finalopts (fun x => x) (fun i => Some i) info_core (Some "binutils") [] = Ok 2 /\
    print_finalopts (fun x => x) (fun i => Some i) info_core None (CliModel.chars "msk") = Ok 0.
Proof. eexists. split; [vm_compute; reflexivity|]. split; [reflexivity|]. split; [|split; vm_compute; reflexivity]. eexists. vm_compute. reflexivity. Qed.
