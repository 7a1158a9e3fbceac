(** What the options --clang_toolchain and --gcc_toolchain are meant to choose.  Independent of
    ToolModel's functions; only the names of the calls are shared. *)
From Verif Require Import PyBase PyPath ModulesModel CxxModel ToolModel.
Local Open Scope string_scope.
Local Open Scope list_scope.

(** The compilers that a name stands for. *)
Inductive compilers : string -> toolchain -> Prop :=
| cc_std : compilers "std" (TC "c++" "cc" "ld" "ar" "objdump" "objcopy" "moc" "uic")
| cc_gcc : compilers "gcc" (TC "g++" "gcc" "ld" "ar" "objdump" "objcopy" "moc" "uic")
| cc_clang : compilers "clang" (TC "clang++" "clang" "ld" "ar" "objdump" "objcopy" "moc" "uic").
(** What the flags (clang, gcc) ask for. *)
Definition asked (f : bool * bool) : option string :=
  match f with (_, true) => Some "gcc" | (true, false) => Some "clang" | _ => None end.
(** [decided f l n]: after the calls [l] the name is [n], where [f] are the flags that the process
    was started with: the latest call that asks for something decides. *)
Definition asks (f : bool * bool) (a : pcall) : option string :=
  match a with PSet n => Some n | PParse _ => asked f end.
Inductive decided (f : bool * bool) : list pcall -> string -> Prop :=
| dc_start : decided f [] "std"
| dc_asks l a n m : decided f l m -> asks f a = Some n -> decided f (l ++ [a]) n
| dc_silent l a n : decided f l n -> asks f a = None -> decided f (l ++ [a]) n.
(** [flags] are those of the first call of parse. *)
Definition first_flags (flags_of : list string -> res (bool * bool)) (l : list pcall) (f : bool * bool) : Prop :=
  (exists l1 argv l2, l = l1 ++ PParse argv :: l2 /\ (forall a, ~ In (PParse a) l1) /\ flags_of argv = Ok f) \/
  (forall a, ~ In (PParse a) l).
(** The programs that a toolchain names for compiling, archiving and generating. *)
Definition programs (t : toolchain) : list string := [tc_cxx t; tc_cc t; tc_ar t; tc_moc t; tc_uic t].
(** The command [c] starts one of these programs. *)
Definition starts (t : toolchain) (c : string) : Prop := exists p rest, In p (programs t) /\ c = (p ++ " " ++ rest)%string.
