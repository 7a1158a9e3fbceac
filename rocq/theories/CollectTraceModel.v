(** Model of collect_modules (cxx_modules.py:346-429) with the output of lines 378-379, which
    ModulesModel leaves out: with the runtime option trace a line is printed each time the
    mdepends of a module are gone through.  Here the names in these lines are collected. *)
From Verif Require Import PyBase PyPath ModulesModel.
Local Open Scope string_scope.
Local Open Scope list_scope.

(** The body of the loop, 382-407. *)
Definition item_t (rec : cst -> nat -> res (cst * list string)) (m : nat) (a : cst * list string) (md : elem)
    : res (cst * list string) :=
  let '(st, tr) := a in
  match md with
  | EStr n =>
      if shas (c_dep st) n then Ok (st, tr)                              (* 383-384 *)
      else Ok (request st n (mod_name (c_lib st) m), tr)                 (* 386 *)
  | EPair n i =>
      do! (nm, lib) <- get (c_lib st) n (Some i);                        (* 389 *)
      if match sget (c_dep st) n with Some o => negb (Nat.eqb o nm) | None => false end
      then Raise (SystemExit "This module added early and it's different")   (* 391-398 *)
      else
        let st1 := specify st lib n nm (mod_name lib m) in               (* 400 *)
        if shas (mod_opts lib nm) "mdepends"
        then do! (st2, t) <- rec st1 nm; Ok (st2, tr ++ t)               (* 402-404 *)
        else Ok (st1, tr)
  | _ => Raise (SystemExit "Very strange mpdepend")                      (* 406-407 *)
  end.
(** The inner collect_modules, 377-407. *)
Fixpoint visit_t (fuel : nat) (st : cst) (m : nat) : res (cst * list string) :=
  match fuel with
  | 0 => OutOfFuel
  | S f =>
      match sget (mod_opts (c_lib st) m) "mdepends" with
      | None => Raise (KeyError "mdepends")
      | Some v =>
          do! l <- iter_oval v;
          fold_res (item_t (visit_t f) m) l (st, [mod_name (c_lib st) m])   (* 378-379 *)
      end
  end.
(** The loop 412-421. *)
Fixpoint drain_t (fuel : nat) (root : nat) (a : cst * list string) : res (cst * list string) :=
  match fuel with
  | 0 => OutOfFuel
  | S f =>
      let '(st, tr) := a in
      match c_queue st with
      | [] => Ok (st, tr)
      | n :: q =>
          let st0 := CS (c_lib st) (c_dep st) q (c_key st) (c_keys st) (c_inc st) in
          if shas (c_dep st) n then drain_t f root (st0, tr)             (* 414-415 *)
          else
            do! (dm, lib) <- get_default (c_lib st) n;                   (* 417 *)
            let st1 := specify st0 lib n dm (mod_name lib root) in       (* 418 *)
            do! (st2, t) <- (if shas (mod_opts lib dm) "mdepends" then visit_t f st1 dm else Ok (st1, []));
            drain_t f root (st2, tr ++ t)
      end
  end.
(** collect_modules, 346-429. *)
Definition collect_modules_t (fuel : nat) (lib : mlib) (root : nat)
    : res ((list nat * mlib * list (string * list string)) * list string) :=
  let st0 := CS lib [] [] 0 [] [] in
  do! a <- (if shas (mod_opts lib root) "mdepends" then visit_t fuel st0 root else Ok (st0, []));
  do! (st2, tr) <- drain_t fuel root a;
  do! _ <- check_inc st2;
  do! l <- with_keys (c_keys st2) (dvalues (c_dep st2));
  Ok ((map snd (sort_keys l), c_lib st2, c_inc st2), tr).
