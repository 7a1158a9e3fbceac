(** Model of licant/java_make.py and of objcopy in licant/cxx_make.py:299-318. *)
From Verif Require Import PyBase PyPath FormatModel MakeModel RegModel ModulesModel SpecProject.
Local Open Scope string_scope.
Local Open Scope list_scope.

(** java_make.py:18-26 [java_toolchain] (no dx) and [android_toolchain]; 6-15 [java_options]: the
    default of toolchain is None. *)
Record jtool : Type := JT { jt_javac : string; jt_dx : option string }.
Record jopts : Type := JO { jo_tool : option jtool; jo_flags : string }.
Definition javacrule := "{opts.toolchain.javac} {opts.javac_flags} {srcs}".
Definition dexrule := "{opts.toolchain.dx} --dex --output {tgt} {src}".
Definition jtool_obj (t : option jtool) : pyobj :=
  match t with
  | None => PV "None" []
  | Some t => PV "" (("javac", PV (jt_javac t) []) :: match jt_dx t with Some d => [("dx", PV d [])] | None => [] end)
  end.
(** cxx_make.py:301 *)
Definition objcopyrule := "{opts.toolchain.objcopy} -O {opts.format} {opts.sections_str} {opts.src} {opts.tgt}".

(** The calls javac(srcs, tgt, opts, deps) (java_make.py:29-45), dex(src, tgt, opts, deps) (48-63)
    and objcopy(toolchain, tgt, src, format, sections).  Messages are left out. *)
Inductive jcall : Type :=
| JJavac (srcs : list string) (tgt : string) (o : jopts) (deps : list string)
| JDex (src tgt : string) (o : jopts) (deps : list string)
| JObjcopy (tool : toolchain) (tgt src format : string) (sections : list string).
(** The command, as Executor formats it when the rule runs (make.py:31); the attribute tgt is the
    canonical path (make.py:123), objcopy's opts.tgt is as given. *)
Definition jcommand (cwd : string) (c : jcall) : fres :=
  match c with
  | JJavac srcs tgt o _ =>
      format [("opts", PV "" [("toolchain", jtool_obj (jo_tool o)); ("javac_flags", PV (jo_flags o) [])]);
              ("tgt", PV (realpath cwd tgt) []); ("srcs", PV (String.concat " " srcs) [])] javacrule
  | JDex src tgt o _ =>
      format [("opts", PV "" [("toolchain", jtool_obj (jo_tool o)); ("javac_flags", PV (jo_flags o) [])]);
              ("tgt", PV (realpath cwd tgt) []); ("src", PV src [])] dexrule
  | JObjcopy tool tgt src fmt sections =>
      format [("opts", PV "" [("toolchain", PV "" [("objcopy", PV (tc_objcopy tool) [])]); ("format", PV fmt []);
                              ("sections_str", PV (String.concat " " (map (fun s => "-j " ++ s)%string sections)) []);
                              ("src", PV src []); ("tgt", PV tgt [])]);
              ("tgt", PV (realpath cwd tgt) [])] objcopyrule
  end.
(** What the call registers, as statements of a script; [b] is what the command does. *)
Definition jstmts (c : jcall) (b : buildfun) : list stmt :=
  match c with
  | JJavac srcs tgt _ deps => map SSource srcs ++ [SRule false tgt (deps ++ srcs) b]
  | JDex _ tgt _ deps => [SRule false tgt deps b]
  | JObjcopy _ tgt src _ _ => [SRule false tgt [src] b]
  end.
