(** Model of licant/cxx_make.py:276-283. *)
From Verif Require Import PyBase ModulesModel.
Local Open Scope string_scope.

(** make_gcc_binutils.  objcopy, moc and uic are the defaults of toolchain (cxx_make.py:19-21);
    None is written "None" by str.format. *)
Definition make_gcc_binutils (pref : string) : toolchain :=
  TC (pref ++ "-g++") (pref ++ "-gcc") (pref ++ "-ld") (pref ++ "-ar") (pref ++ "-objdump") "objcopy" "None" "None".
