# Formal model of mirmik/licant in Rocq (Coq 8.16.1)

The development in `rocq/` models the Python code of `/repo/licant` and proves (or refutes, with a
witness) the properties of `properties.jsonl`.  `MANIFEST.json` lists, per property, the theorems.

Contents: 1. trusted base; 2. how Python is modelled; 3. files; 4. what is modelled and what is not, per
source file; 5. assumptions about the world; 6. findings; 7. how the theorems were tested.

## 1. Trusted base

1. **Coq's kernel** (8.16.1), including `vm_compute`, which evaluates the concrete witnesses.
2. **Assumptions.**  `Print Assumptions` stands beneath every property theorem.  For every one of them it
   prints `Closed under the global context`: no axiom of ours, none of the standard library
   (no functional extensionality, no excluded middle, no proof irrelevance).  Only the standard library is
   imported; `coqchk` lists the axioms of `Coq.ssr.ssrunder`, which the standard library itself loads and
   which no theorem uses.
3. **The reading of the code.**  The code was not run.  Every definition of a `*Model.v` file (and of `RegModel.v`,
   `MakeExec.v`) cites the lines it models.  A theorem is about the model; section 4 says which code
   has a model, section 5 what the model takes for granted about Python, the shell, the file system and
   the event loop.
4. **The statements.**  They use the vocabulary of `Spec*.v`, which is independent of the
   definitions in the models wherever that was possible (graphs, traces, projects, scripts, paths).

## 2. How Python is modelled

Shallow embedding: a Python function becomes a total Gallina function that follows it branch by
branch.

| Python | Model |
|---|---|
| dict | insertion-ordered association list (`PyBase.dict`): `d[k] = v` updates in place or appends |
| iteration over a set | an arbitrary permutation, universally quantified in the theorems |
| object identity | index in a heap list |
| str | `string` (bytes) |
| exception, `exit(-1)` | value `Raise e` of the result type `res` (`SystemExit` is one of the exceptions) |
| unbounded recursion | fuel; running out of fuel is the separate value `OutOfFuel`; theorems either exclude it ("for every large enough fuel") or show it for every fuel (non-termination) |
| asyncio event loop | transition system (`InvokerModel.step`) whose steps are the stretches of code between awaits that really suspend; any runnable coroutine may go next |
| `asyncio.to_thread` | a call starts in one step and ends in a later one; what it does to the world happens when it ends |
| file system | `path -> option (mtime * (Dir or Reg content))` and a clock |
| a rule of a file target | a function from the contents of files to the new content, or failure (`None`); a failing rule leaves the old file, removes it, or (`partial = true`) leaves anything |
| a build script | a list of registration calls (`RegModel.mop`, `SpecProject.stmt`), or an interaction tree (`ScriptModel`) where the order of script executions matters |
| options of C++ modules | insertion-ordered dict of `oval` (str, list, toolchain, None, other class) |

## 3. Files

`PyBase.v`, `PyPath.v`: dict, results, os.path (posixpath: join, split, normpath, realpath without links, expanduser, relpath).

| Area | Model | Vocabulary | Lemmas | Property theorems |
|---|---|---|---|---|
| solver constructor | SolverModel | SpecGraph | DfsProofs, InvertProofs, SolverProofs | PropertiesSolver (C01, C02, C15) |
| execution | InvokerModel | SpecTrace | InvokerInv, InvokerProofs, InvokerThms, InvokerExec, InvokerPath | PropertiesInvoker, PropertiesExec (C03–C14) |
| registry, need, recurse_update, do | CoreModel | SpecCore | CoreProofs, NeedProofs, RuProofs, CoreThms, ExtProofs | PropertiesCore (C16–C26, C63) |
| file targets, cache, builds, clean | MakeModel, MakeEval, MakeExec | SpecMake | MakeProofs, MakeFacts, MakeTimes, MakeStatus, MakeBuild, MakeClean, MakeClaims, MakeThms | PropertiesMake (C27–C34, C37, C38, C40) |
| registration calls | RegModel | SpecReg | RegProofs, RegTotal, RegCopy, RegBuild, RegScript | PropertiesReg (C33, C39, C65) |
| shell, processes, format | ShellModel, ProcessModel, FormatModel | SpecShell, SpecProcess | ShellProofs, ProcessProofs, Utf8Proofs | PropertiesUtil (C35, C36, C53) |
| util.py | UtilModel | SpecUtil | UtilProofs, PathProofs | PropertiesUtil (C50–C52, C64) |
| modules | ModulesModel | SpecModules | ModulesProofs, CollectProofs, CollectTerm | PropertiesModules (C41–C44, C66) |
| C++ modules | CxxModel | SpecCxx | CxxProofs, CxxPaths, CxxMakeProofs | PropertiesCxx (C45–C49, C67–C70) |
| command line | CliModel | SpecCli | CliProofs | PropertiesCli (C54–C56, C71–C74) |
| scripts, libraries | ScriptModel, LibsModel | SpecScript, SpecLibs | ScriptProofs, LibsProofs | PropertiesScript, PropertiesLibs (C57–C60) |
| install | InstallModel | SpecInstall | InstallProofs | PropertiesInstall (C61, C62, C75, C76) |
| whole scripts | (the models above) | SpecProject | ProjectProofs, BuildSafe, ProjectBuild, ImportProofs | PropertiesProject, PropertiesImport (C77–C81) |
| scripts that compile | (the models above) | SpecTrack, SpecCxxTrack, SpecCxxScript | TrackProofs, CxxTrack, CxxItems | PropertiesTrack (C82, C83) |
| needless work | (the models above) | SpecMake, SpecProject, SpecCxxTrack | IdleProofs, CxxIdle | PropertiesIdle (C84) |
| edited scripts | (the models above) | SpecEdit | EditProofs | PropertiesEdit (C85) |
| toolchain options | ToolModel | SpecTool | ToolProofs | PropertiesTool (C86) |
| informational actions | InfoModel | SpecInfo | InfoProofs | PropertiesInfo (C87) |
| javac, dex, objcopy | JavaModel | SpecJava | JavaProofs, JavaExamples | PropertiesJava (C88) |
| several C++ calls in one script | ProgramsModel | SpecPrograms | TwiceProofs, ProgramsProofs, ProgramsExamples | PropertiesPrograms (C89) |
| the command line on a registry of files | CommandModel | SpecCommand | CommandProofs, CommandExamples | PropertiesCommand (C90) |
| Ctrl-C | InterruptModel | SpecTrace, SpecMake, SpecProject, SpecCommand | InterruptProofs, InterruptBuild, InterruptExamples | PropertiesInterrupt (C91) |
| the command line of C++ projects | CommandModel, CxxModel | SpecCxxCommand | CxxCommandProofs, CxxCommandExamples | PropertiesCxxCommand (C92) |
| trees of directories | WalkModel | SpecWalk | WalkProofs | PropertiesWalk (C93) |
| installing end to end | (InstallModel, WalkModel, CommandModel) | SpecInstalled | InstalledProofs, InstalledExamples, InstalledEdits | PropertiesInstalled (C94) |
| cores of a script | (RegModel) | SpecMakeCore | MakeCoreProofs, MakeCoreBuild, MakeCoreExamples | PropertiesMakeCore (C95) |
| routines end to end | (RegModel, MakeModel) | SpecRoutine | RoutineProofs, RoutineBuild, RoutineExamples | PropertiesRoutine (C96) |
| several builds and cleanings in one process | (RegModel, MakeModel) | SpecSession | SessionProofs, SessionExamples | PropertiesSession (C97) |
| the argument core of C++ calls | CoreArgModel | (SpecInstall) | CoreArgProofs | PropertiesCoreArg (C98) |
| calls that take time | FineModel | SpecFine, SpecCxxFine | FineProofs, FineBuild, FineExamples, FineUndeclared, CxxFine, CxxFineExamples | PropertiesFine (C99) |
| builds that are not alone | | SpecCrowd | CrowdProofs, CrowdBuild, CrowdExamples | PropertiesCrowd (C100) |
| files elsewhere change | | SpecElsewhere | ElsewhereProofs, ElsewhereBuild, ElsewhereExamples | PropertiesElsewhere (C101) |
| C++ builds while files elsewhere change | | SpecAround | AroundProofs, AroundExamples | PropertiesAround (C104) |
| order of collected modules | | SpecOrder | OrderProofs | PropertiesOrder (C105) |
| options a module is made with | | SpecOptions | OptionsProofs | PropertiesOptions (C106) |
| passes through collected modules | CollectTraceModel | SpecCollectTrace | CollectTraceProofs | PropertiesCollectTrace (C107) |
| tools of a toolchain | CrossModel | SpecCross | | PropertiesCross (C108) |
| kinds of programs | KindModel | SpecCxx | | PropertiesKind (C109) |
| what compiling waits for | CxxModel | SpecCxx | | PropertiesDepends (C110) |
| the decorator routine | DecorModel | SpecDecor | DecorProofs | PropertiesDecor (C102) |
| the package | PackageModel | in PropertiesPackage | | PropertiesPackage (C103) |

`*Examples.v` hold the concrete cases used as witnesses and as non-vacuity examples.
`tools/manifest.py` regenerates `MANIFEST.json` from the theorem names and `tools/notes.json`.

## 4. Modelled code

"Modelled" means: every branch has a counterpart, except printing and messages, which are left out everywhere
unless stated.

| File | Modelled | Not modelled |
|---|---|---|
| solver.py | everything: targets, runtimes, invoker, workers, checks, exec | trace printing, `__str__`; KeyboardInterrupt strikes between statements only (InterruptModel) |
| core.py | NoneDictionary, Core.add/get/has/exist, depends_as_set (with its cache), need evaluation, do, target, updtarget, Target (globs, deplist cache, invoke, action_if_need), UpdatableTarget, recurse_update, Routine, the decorator `routine` (DecorModel; a decorated function registers what `updtarget` does, C102, so other models use OTarget) | `trace_mode` output; pathlib arguments (`to_name_if_needed` is the identity on names) |
| make.py | do_execute (as ProcessModel + FormatModel + ShellModel), Executor, DirectoryKeeper, MakeFileTarget, FileTarget, DirectoryTarget, source, dirkeep, copy, makefile, fileset, clean, MakeCore | messages; `fcntl`; `__lt__`/`__gt__` |
| cache.py | everything | – |
| util.py | invert_depends_dictionary, queue, changeext, flag_prefix, cxx_read_depends, find_recursive, recursive_glob, get_actions, canonical_path and its memo, error, error_exception | cutinvoke, deprecated, colours, random_string |
| modules.py | Module, VariantModule, ModuleLibrary, module, implementation, submodule, print_modules_list, print_module | re.search for patterns longer than one character (a parameter) |
| cxx_modules.py | option table and combining functions, CXXModuleOptions, build_paths, link_objects, Qt, collect_modules, print_collect_list, included_from, print_finalopts, prepare_targets, task, application, shared_library, static_library, objects, static_and_shared, library (KindModel) | virtual (broken: `core.target(tgt=…)`) |
| cxx_make.py | toolchains, make_gcc_binutils, options, object, depend, qt_moc, qt_uic, executable, dynamic_library, static_library, objcopy | disassembler beyond its first error, CxxCore (only attributes) |
| cli.py | parse (memo, toolchain options), execute_with_default_action, __cliexecute, cliexecute | argparse itself (a parameter), help texts |
| scripter.py, libs.py | script stack, execute, execute_recursive, include, init, tunnels | printing of library lists |
| licant_libs.py | everything except optparse (a parameter) | – |
| install.py | everything (os.walk is modelled in WalkModel; fnmatch there, for patterns without brackets) | – |
| \_\_init\_\_.py | directory, execute, execute_recursive; the targets that the import registers; `__all__`, the attribute store, system (PackageModel) | about, mtime |
| java_make.py | javac, dex and their options (messages are left out; what a command does is a function of files that writes the target) | – |
| \_\_main\_\_.py | – | not modelled |

Simplifications stated at the definitions, collected here:

* Text is ASCII/bytes; `\w` of other letters, Unicode case and JSON escapes beyond `\uXXXX` below 128 are outside.
* Two different canonical paths are different files: no symbolic or hard links, no mount points.
* The glob result and os.path.exists are those at the time of the registrations; the disk does not change while a script is read.
* Lists are values: where CXXModuleOptions.merge returns the list of the base options itself, the two share it in Python;
  this is visible only when modmake later appends to include_paths (cxx_modules.py:465, 501).
* `licant.make.source` calls guarded by `if not has(...)` in cxx_modules are modelled as unconditional events; source itself checks again.
* Values of options of other classes are known by their class name only; an element of a list of another class is `EOther`.
* ScriptModel: scripts that overwrite the names of scripter.py in its own namespace are outside.
* Registries of libraries: JSON objects with string values only.
* Killing licant itself is "the process stops after some step": effects of a call happen at its end. Ctrl-C (C91): the calls that threads have begun come to their end, do not begin, or have their commands killed, each in one go and in any order; the signal arrives while the event loop waits or between two statements of a worker.

## 5. Assumptions about the world

* **Clock.** A build writes files with time stamps later than the time the process started, and two edits or builds are
  separated in time (`dated fs now`, strict clock in `SpecMake`); equal time stamps would not be noticed by licant, as its test is `>`.
* **Rules.** A rule ends, and (`reads_only`) its result depends on the contents of its declared dependencies only.
  For C++ sources (C82) this is weakened: the list command and the compiler look at the source and at the headers that the list
  names (`SpecCxxTrack.honest`), which need not be declared; headers made by rules must be.
* **Nobody else writes** to the tree during a build. C100 is about builds for which this is not so: what they leave is put right by the next undisturbed build, provided that the calls of rules do not overlap with edits of their inputs. Changes of files and directories that no target taking part is about, and that no rule looks at, do not matter (C101, C104).
* **Event loop.** asyncio runs one coroutine at a time and switches only at an await that suspends; queues are unbounded, so `put` never does.
* **Threads.** In the models of builds, calls in worker threads read and write at one moment, when they end. For rules this is justified by C99: executions in which each input is read at any moment of the call and the output is scribbled into meanwhile lead to the same states, also for C++ commands that read headers the script does not mention. Directories, sources and file sets are handled at one moment in both.
* Not expressible: real time, performance, Python's recursion limit (a RecursionError appears as non-termination), signals, encodings.

## 6. Findings

Theorems named `…_refuted` show by a witness that the code violates the property.  Traced through the code:

Execution and core
* C11 a what_to_do that raises ends its worker's step without task_done: exec() hangs for ever, for every graph and thread count (solver.py:126–143).
* C12 count_of_threads <= 0: no worker, exec() hangs; reachable from the command line by `-j 0` (C72).
* C17 `has()` inserts an alias for the canonical name that survives a re-registration (core.py:86–96).
* C20 cached_deplist is never invalidated: after a re-registration the old dependency is asked.
* C21 an unregistered dependency or a cycle anywhere in the registry breaks every action on every target.
* C22 recurse_update called without an evaluation raises in each task and so hangs; a plain Target among the dependencies excludes success.
* C24 TypeError on a core without `runtime["threads"]`; C25 core.do drops results; C63 missing comma in `Routine.__actions__`; C74 arguments of a routine are kept.

Files
* C30, C32 a failing rule that leaves a torn output with a fresh date makes the next build believe it; a rule that ran only because its directory was missing and failed is not rerun.
* C33 a target whose name is that of a missing directory replaces it; a trailing slash.
* C34, C37 the file cache of a process is stale after edits: clean leaves files, a second build in one process rebuilds nothing.
* C35 names are not quoted for the shell; C36 output larger than a pipe blocks for ever (wait before read), a background process holds the pipe, non-UTF-8 output raises.
* C39 copy into another core than the default one leaves the source unregistered there; C40 a missing source only warns; C65 a leftover output turns a dependency into a source.
* C81 `import licant` registers the plain targets binutils, m, cxxm and l: a project file of that relative name is captured; its dependents hang at first, and raise AttributeError (which breaks every action) once built.

C++ modules
* C82 a list of headers that is cut off (c++ -MM interrupted after it has written something) is believed by later processes: edits of the missing headers go unnoticed.  An empty list is remade.
* C84 a registered source that does not exist is no error: its update does nothing and succeeds, and everything that depends on it is made again by every process.
* C85 targets do not depend on the script: a changed command, or a dependency left out, is not noticed, and the process succeeds with the old file.
* C86 `--clang_toolchain` and `--gcc_toolchain` never reach C++ modules: default_toolchain() is evaluated when licant is imported (cxx_modules.py:145, default arguments in cxx_make.py), before the command line is read.
* C98 `core=` of application, shared_library, static_library and objects is ignored, except for the file set of objects, which then cannot be built.
* C44 explicit requests in a cycle recurse for ever; C46 the root's sources can count twice; C47 submodules cannot be used at all; C48 object files of different sources collide or leave the build directory; C49 element types are unchecked; C52 names with `+` are cut; C66 included_from is wrong; C67 impl is ignored without default; C68 nested include_modules given by name raise, self-inclusion does not end.

Command line, scripts, libraries, installation
* C55 one extra word is spread into characters, two raise TypeError; C54 words after a routine are always arguments; C56 a failed build exits with 0; C71 options are parsed once per process.
* C87 `m list PATTERN` filters by the first character of the pattern, `m print NAME` and `cxxm collect_modules NAME` look up that character, `binutils disasm` raises whatever is given (its first word becomes `core`).
* C88 dex does not depend on its source unless told (stale output); the default options of javac and dex raise when the rule runs; the command of javac does not name its target.
* C89 two programs with a common source and one build directory have one object with two rules; which one counts depends on whether the object existed when the script was read, so a program is first built with the options of the other one and later with its own. static_and_shared always declares its objects twice.
* C90 what a word of the command line means depends on the disk: `build` is the directory build of the script if that does not exist when the script is read, else the action build of the default target
* C91 if a command killed by Ctrl-C leaves a half-written output, the next build takes it for finished; if Ctrl-C strikes inside a worker before `task_done`, the worker swallows it and the build hangs (proved as a property of the code)
* C108 make_gcc_binutils has no moc and uic, so that Qt rules call None, and its objcopy is that of the host; C109 static_and_shared with a target makes both libraries one file.
* C110 the option depends of a required module is dropped: not even its own objects wait for the files it lists.
* C58 catching the exit of a nested script leaves its entry on the stack; a tunnel without a slash raises FileNotFoundError.
* C59 `-r` removes nothing; C60 an interrupted write leaves an unreadable registry; licant-libs without arguments raises AttributeError (`parser.help`).
* C61 PATH without exactly /usr/local/bin disables installing or raises UnboundLocalError; C62 uninstall removes nothing; C75 install_application without tgt breaks everything; C76 two libraries sharing a header directory share the file set.

## 7. Testing the model and the theorems

`RepoTests.v` replays the tests of the repository (tests/*.py) in the model: each Example computes one run and checks what the
test asserts.  These are tests of the model, not proofs of properties.

`seeded/LOG.jsonl` records the wrong programs: one definition of a model edited in a scratch copy, the theorems that then
fail, and theorems that were tightened because nothing failed.  Survivors that remain are edits that no property speaks about
(for example upper-case hexadecimal digits in JSON escapes).
