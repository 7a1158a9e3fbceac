{"id": "C01", "title": "Solver accepts exactly the schedulable inputs", "statement": "InverseRecursiveSolver(targets) is constructed without an exception if and only if the list is non-empty, every dependency names a target of the list, and no target depends on itself through a chain of dependencies.", "quantifier": "every list of DependableTarget (any size, any names including repeated ones, any dependency sets) and every iteration order of Python's sets", "why_tests_cant": "a test tries a handful of graphs; acceptance of a cyclic graph or rejection of an acyclic one can hide in any graph shape or any set-iteration order", "anchors": ["licant/solver.py:InverseRecursiveSolver.__init__", "licant/solver.py:connectivity_check", "licant/solver.py:dfs", "licant/solver.py:collect_depends_of_targets", "licant/util.py:invert_depends_dictionary"]}
{"id": "C02", "title": "Solver rejections tell the truth", "statement": "UnknowTargetError is raised exactly when some dependency names no target; otherwise NoOneNonDependableTarget exactly when every target has a dependency; a CircularDependencyError carries a list that really is a chain of dependencies that returns to an earlier element; a ConnectivityError carries exactly the targets that cannot be reached from the dependency-free ones. TypeError, DoubleDependsError and the internal assertion never occur for DependableTarget inputs with string dependencies.", "quantifier": "every list of targets and every set-iteration order", "why_tests_cant": "which exception is raised and with which payload depends on the whole graph and on hash order", "anchors": ["licant/solver.py:InverseRecursiveSolver", "licant/solver.py:CircularDependencyError", "licant/solver.py:ConnectivityError", "licant/solver.py:double_depends_check"]}
{"id": "C03", "title": "Dependencies finish before a target starts", "statement": "In every execution of exec(), when what_to_do of a target is called, what_to_do of each of its dependencies has already returned, and none of them returned False or raised.", "quantifier": "every accepted dependency graph, every number of threads, every interleaving, every set of task results, every prefix of the execution", "why_tests_cant": "interleavings of workers cannot be enumerated by tests", "anchors": ["licant/solver.py:TaskInvoker.worker", "licant/solver.py:DependableTargetRuntime.doit", "licant/solver.py:decrease_inverse_deps_count"]}
{"id": "C04", "title": "Every target runs at most once, and exactly once on success", "statement": "exec() never calls what_to_do of a target twice; when exec() returns True every target's what_to_do was called and returned.", "quantifier": "every accepted graph, number of threads, interleaving and task results", "why_tests_cant": "double enqueueing or a lost target shows only under particular interleavings and diamond shapes", "anchors": ["licant/solver.py:TaskInvoker.worker", "licant/solver.py:decrease_inverse_deps_count", "licant/solver.py:InverseRecursiveSolver.exec"]}
{"id": "C05", "title": "Parallelism never exceeds the requested number of threads", "statement": "At every moment at most count_of_threads calls of what_to_do are in progress.", "quantifier": "every graph, every thread count, every prefix of every interleaving", "why_tests_cant": "schedule-dependent", "anchors": ["licant/solver.py:TaskInvoker.start", "licant/solver.py:TaskInvoker.worker"]}
{"id": "C06", "title": "After a failure nothing new is started", "statement": "Once a what_to_do has returned False, no further what_to_do is called in that exec(); in particular nothing that depends, directly or not, on the failed target is ever run.", "quantifier": "every graph, thread count, interleaving and every point at which the failure happens", "why_tests_cant": "the failing worker enqueues the dependents of the failed target before it raises the error flag; whether somebody picks them up depends on the interleaving", "anchors": ["licant/solver.py:TaskInvoker.worker", "licant/solver.py:TaskInvoker.release_queue", "licant/solver.py:DependableTargetRuntime.doit"]}
{"id": "C07", "title": "exec() reports failure faithfully", "statement": "When exec() returns, it returns True if no executed what_to_do returned False and False otherwise.", "quantifier": "every graph, thread count, interleaving, task results", "why_tests_cant": "schedule-dependent error flag", "anchors": ["licant/solver.py:InverseRecursiveSolver.exec", "licant/solver.py:TaskInvoker.worker"]}
{"id": "C08", "title": "exec() always comes to an end when tasks do", "statement": "For an accepted graph and at least one thread, if every what_to_do returns (does not raise), exec() cannot get stuck and cannot run forever: from every reachable state some step is possible until it returns, and the number of steps is bounded.", "quantifier": "every accepted graph, every thread count >= 1, every interleaving, every mixture of successes and failures", "why_tests_cant": "deadlocks and lost wake-ups are schedule-dependent; a test that hangs is not evidence for all schedules", "anchors": ["licant/solver.py:TaskInvoker.start", "licant/solver.py:TaskInvoker.worker", "licant/solver.py:TaskInvoker.release_queue"]}
{"id": "C09", "title": "exec() returns only when nothing is running", "statement": "At the moment exec() returns, no what_to_do is in progress and the ready queue is empty - also after a failure.", "quantifier": "every graph, thread count, interleaving", "why_tests_cant": "schedule-dependent", "anchors": ["licant/solver.py:TaskInvoker.start", "licant/solver.py:InverseRecursiveSolver.exec"]}
{"id": "C10", "title": "Internal sanity checks of the solver never fire", "statement": "None of the asserts of the solver (dependency counter not negative; queue empty, counters zero and all targets done at success) fails, and task_done is never called too often.", "quantifier": "every accepted graph, thread count, interleaving", "why_tests_cant": "an assertion that fails under one schedule kills a worker and hangs the build", "anchors": ["licant/solver.py:decrease_inverse_deps_count", "licant/solver.py:InverseRecursiveSolver.exec", "licant/solver.py:TaskInvoker.release_queue"]}
{"id": "C11", "title": "A raising task must not hang the build", "statement": "If some what_to_do raises an exception, exec() should still come to an end (by raising or returning False).", "quantifier": "every graph, thread count, interleaving in which a task raises", "why_tests_cant": "a hang is the absence of an event in an unbounded execution", "anchors": ["licant/solver.py:TaskInvoker.worker", "licant/solver.py:TaskInvoker.start"]}
{"id": "C12", "title": "exec() ends for every requested thread count", "statement": "For every integer count_of_threads, including 0 and negative numbers (licant -j 0), exec() comes to an end or the constructor rejects the number.", "quantifier": "every integer thread count, every graph, every interleaving", "why_tests_cant": "a hang is the absence of an event in an unbounded execution", "anchors": ["licant/solver.py:TaskInvoker.__init__", "licant/solver.py:TaskInvoker.start", "licant/cli.py:cliexecute"]}
{"id": "C13", "title": "Workers do not give up early", "statement": "As long as no task has failed, a worker leaves its work loop only when every target is done; while a ready target is queued, any idle worker may take it. So requested parallelism is not silently lost.", "quantifier": "every accepted graph, thread count, interleaving", "why_tests_cant": "a worker retiring early only costs parallelism under particular timings and no functional test notices", "anchors": ["licant/solver.py:TaskInvoker.worker"]}
{"id": "C14", "title": "The outcome does not depend on the schedule", "statement": "If the actions of targets that do not depend on each other commute and none fails, then every complete execution, with any number of threads, ends in the same final state: the one obtained by running the targets one after another in dependency order.", "quantifier": "every accepted graph, every two thread counts and interleavings, every initial state", "why_tests_cant": "requires comparing all pairs of interleavings", "anchors": ["licant/solver.py:InverseRecursiveSolver.exec", "licant/solver.py:TaskInvoker.worker"]}
{"id": "C15", "title": "invert_depends_dictionary is relation inversion", "statement": "For a dictionary whose dependency sets mention only its own keys, the result has exactly the same keys and t is in result[d] iff d is in input[t]; inverting twice gives the original relation; a dependency that is not a key raises KeyError.", "quantifier": "every dictionary of sets", "why_tests_cant": "holds for every dictionary, tests sample two", "anchors": ["licant/util.py:invert_depends_dictionary"]}
{"id": "C16", "title": "Target registry lookups", "statement": "After core.add(t), core.get(t.tgt) is t until another target of the same name is added; adding a target leaves every lookup of a name that neither equals nor canonicalises to the new name unchanged; a name not registered directly is looked up by its canonical path; core.get ends the program iff neither the name nor its canonical path is registered; core.has(n) is True exactly when core.get(n) would succeed.", "quantifier": "every sequence of add/has/get operations, every name, every canonicalisation function", "why_tests_cant": "quantifies over all operation histories", "anchors": ["licant/core.py:Core.add", "licant/core.py:Core.get", "licant/core.py:Core.has"]}
{"id": "C17", "title": "Asking core.has(name) changes nothing observable", "statement": "Inserting a core.has(name) query anywhere in a sequence of registrations does not change what later core.get calls return.", "quantifier": "every history of add/has/get", "why_tests_cant": "the effect shows only in particular histories: query by a non-canonical name followed by a re-registration", "anchors": ["licant/core.py:Core.has", "licant/core.py:Core.get", "licant/make.py:MakeCore.source"]}
{"id": "C18", "title": "depends_as_set is the transitive dependency closure", "statement": "core.depends_as_set(t, incroot) terminates on every registry, also a cyclic one, and returns the strictly sorted list of exactly the names reachable from t by one or more dependency steps, plus t itself when incroot; it ends the program iff a reachable name is not registered.", "quantifier": "every registry (any dependency graph, cyclic or not) and root", "why_tests_cant": "all graphs", "anchors": ["licant/core.py:Core.depends_as_set", "licant/core.py:Core.depends_as_set_impl"]}
{"id": "C19", "title": "depends_as_set never serves stale results", "statement": "A depends_as_set query returns the closure with respect to the registry at the time of the call, whatever queries and registrations happened before.", "quantifier": "every history of add and depends_as_set calls", "why_tests_cant": "caches go stale only along particular histories", "anchors": ["licant/core.py:Core.depends_as_set", "licant/core.py:Core.depends_as_set_lazy_cache"]}
{"id": "C20", "title": "A target needs updating iff something below it is out of date", "statement": "After update_update_needity, need_update of an updatable target is True iff its own update_if holds or update_if holds for some target reachable through dependencies, and False otherwise - never None.", "quantifier": "every acyclic registry, every update_if valuation, every order of registration", "why_tests_cant": "all graphs and valuations", "anchors": ["licant/core.py:Core.update_update_needity", "licant/core.py:UpdatableTarget.recursive_update_needed_request", "licant/core.py:UpdatableTarget.evaluate_update_needity"]}
{"id": "C21", "title": "Unrelated registrations do not affect or break a build", "statement": "Whether and how core.do(t) works depends only on t's own dependency cone: broken or cyclic targets elsewhere in the registry have no effect.", "quantifier": "every registry and target", "why_tests_cant": "depends on the rest of the registry, which tests keep small", "anchors": ["licant/core.py:Target.invoke", "licant/core.py:Core.evaluate_update_needity"]}
{"id": "C22", "title": "recurse_update updates exactly what is out of date in the cone", "statement": "t.recurse_update() calls update() of exactly the targets of t's dependency cone (t included) whose need_update is True - each once, after the updates of its dependencies - and of no other target; on success none is missed.", "quantifier": "every acyclic registry, alias spelling of names, need valuation, thread count, interleaving", "why_tests_cant": "graphs x schedules", "anchors": ["licant/core.py:UpdatableTarget.recurse_update", "licant/core.py:UpdatableTarget.update_if_need"]}
{"id": "C23", "title": "recurse_update rejects exactly cyclic cones and unregistered names", "statement": "t.recurse_update() hands the solver a well-formed problem: it never raises UnknowTargetError; it ends the program iff a name in the cone is unregistered and otherwise raises a solver error iff the cone contains a dependency cycle.", "quantifier": "every registry with distinct target names, every target", "why_tests_cant": "all graphs", "anchors": ["licant/core.py:UpdatableTarget.recurse_update"]}
{"id": "C24", "title": "The default action of an updatable target works on a fresh core", "statement": "core.do(name) of a registered UpdatableTarget on a Core whose runtime does not define 'threads' performs the recursive update.", "quantifier": "every core and updatable target", "why_tests_cant": "configuration-dependent: the test-suite only uses explicit actions", "anchors": ["licant/core.py:UpdatableTarget.recurse_update_get_args", "licant/core.py:UpdatableTarget.recurse_update", "licant/solver.py:TaskInvoker.__init__"]}
{"id": "C25", "title": "core.do reports the outcome of the action", "statement": "The caller of core.do(target, action) (and licant.do) can tell from the return value whether the action failed.", "quantifier": "every target, action, outcome", "why_tests_cant": "must hold for every outcome", "anchors": ["licant/core.py:Core.do", "licant/core.py:do", "licant/core.py:Routine.invoke_routine"]}
{"id": "C26", "title": "core.do on a list acts on each element in order", "statement": "core.do([t1,...,tn], a) has exactly the effect of core.do(t1,a); ...; core.do(tn,a), also for nested lists, stopping at the first exception; with action None each target's own default_action is used.", "quantifier": "every (nested) list of targets, action, initial state", "why_tests_cant": "all lists", "anchors": ["licant/core.py:Core.do", "licant/core.py:Target.invoke"]}
{"id": "C27", "title": "When a file target is out of date", "statement": "FileTarget is out of date iff force is set, or the file does not exist, or some file dependency (file, or non-directory file set) has an mtime strictly greater than its own; a directory target iff it does not exist.", "quantifier": "every dependency list and every file-system state", "why_tests_cant": "all mtime configurations", "anchors": ["licant/make.py:FileTarget.internal_update_if", "licant/make.py:DirectoryTarget.internal_update_if", "licant/make.py:MakeFileTarget.mtime"]}
{"id": "C28", "title": "A second build does nothing", "statement": "After a successful recurse_update whose rules create their targets, with no forced target and all sources present, a new evaluation finds need_update False for every target of the cone, so a second recurse_update runs no rule - in the same process and in a new one.", "quantifier": "every acyclic registry of sources, rules, file sets and directories, every initial file system, thread count and interleaving", "why_tests_cant": "mtime relations after a parallel build depend on the schedule", "anchors": ["licant/make.py:FileTarget", "licant/core.py:UpdatableTarget.recurse_update", "licant/cache.py:FileCache"]}
{"id": "C29", "title": "Files that are up to date are not touched", "statement": "recurse_update leaves every file unchanged (content, mtime, existence) unless its target is in the cone and need_update was True.", "quantifier": "every registry, file system, schedule, every prefix of the execution", "why_tests_cant": "frame property over all states and schedules", "anchors": ["licant/core.py:UpdatableTarget.update_if_need", "licant/make.py:FileTarget.update"]}
{"id": "C30", "title": "Incremental builds are correct", "statement": "For deterministic rules and strictly advancing time, after any history of source edits, file deletions, complete, failed and killed builds (each in a new process), a successful build of t leaves in every file of t's cone exactly the content a clean build from the current sources would produce.", "quantifier": "every rule graph, every history of edits, deletions and builds, every schedule and crash point", "why_tests_cant": "unbounded histories times schedules times crash points", "anchors": ["licant/make.py:FileTarget.internal_update_if", "licant/core.py:UpdatableTarget.recursive_update_needed_request", "licant/core.py:UpdatableTarget.recurse_update"]}
{"id": "C31", "title": "A killed or failed build is resumed without loss", "statement": "If the process dies at any point of a build (or the build fails), then in the next process every file target of the cone that needed an update and whose rule did not complete still needs an update.", "quantifier": "every graph of files, sources and file sets, every initial file system, schedule and crash point (rules write their file atomically at completion, time advances strictly)", "why_tests_cant": "crash points", "anchors": ["licant/make.py:FileTarget.internal_update_if", "licant/core.py:UpdatableTarget.recursive_update_needed_request"]}
{"id": "C32", "title": "The output of a failed rule is not taken for up to date", "statement": "If the rule of a target fails in one run, the next run runs that rule again.", "quantifier": "every rule, also one that leaves a partial output behind", "why_tests_cant": "history property; depends on what the failing command leaves behind", "anchors": ["licant/make.py:FileTarget.update", "licant/make.py:do_execute", "licant/make.py:FileTarget.internal_update_if"]}
{"id": "C33", "title": "Directories exist before rules write into them", "statement": "For MakeCore.copy, touch and ftarget every missing ancestor directory of the output has a directory target, each depends on its missing parent, the file depends on the nearest one, and so in every execution the directory has been created when the rule starts.", "quantifier": "every output path and every set of existing directories, every schedule", "why_tests_cant": "all path depths x existing prefixes x schedules", "anchors": ["licant/make.py:MakeCore.dirkeep", "licant/make.py:MakeCore.makedir", "licant/make.py:MakeCore.touch", "licant/make.py:MakeCore.copy", "licant/make.py:MakeCore.ftarget"]}
{"id": "C34", "title": "clean removes exactly the generated files of the cone", "statement": "target.clean() deletes every existing generated file in the dependency cone of the target, itself included, and no source file, no directory and nothing outside the cone.", "quantifier": "every registry, cone and file system (names the shell takes as one word)", "why_tests_cant": "all graphs and file systems", "anchors": ["licant/make.py:MakeFileTarget.clean", "licant/make.py:FileTarget.clr", "licant/make.py:DirectoryTarget.clr", "licant/make.py:if_file_and_exist", "licant/make.py:source"]}
{"id": "C35", "title": "Rules act on the named files only, whatever the file name", "statement": "The commands rm -f {tgt} and cp {src} {tgt} act on exactly the target's own files for every file name.", "quantifier": "every file name", "why_tests_cant": "all strings", "anchors": ["licant/make.py:FileTarget.clr", "licant/make.py:MakeCore.copy", "licant/make.py:do_execute"]}
{"id": "C36", "title": "A rule ends when its command ends", "statement": "do_execute returns once the command has produced its output and exited, however much it prints, and returns True iff the exit status is 0.", "quantifier": "every amount of output on stdout and stderr, every pipe capacity", "why_tests_cant": "depends on output volume versus pipe capacity; unbounded", "anchors": ["licant/make.py:do_execute"]}
{"id": "C37", "title": "File information is current", "statement": "mtime() and is_exist() of a file target report the file's state at the time of the last update_info (or first query) of that path; in particular two builds in one process notice edits made in between.", "quantifier": "every history of file-system changes, queries and update_info calls", "why_tests_cant": "cache histories", "anchors": ["licant/cache.py:FileCache", "licant/make.py:FileTarget.mtime", "licant/make.py:FileTarget.is_exist"]}
{"id": "C38", "title": "mtime of a file set", "statement": "mtime() of a file set is the largest mtime of its members (0 for none), members being file targets or nested file sets.", "quantifier": "every nesting of file sets and every mtime assignment", "why_tests_cant": "all nestings", "anchors": ["licant/make.py:MakeFileTarget.mtime"]}
{"id": "C39", "title": "Targets created for a given core are usable in that core", "statement": "licant.copy(tgt, src, core=c) registers in c everything needed to build tgt in c.", "quantifier": "every core c, paths, file-system state", "why_tests_cant": "the default core hides the difference in tests", "anchors": ["licant/make.py:copy", "licant/make.py:source", "licant/make.py:dirkeep", "licant/core.py:Target.expand_globs"]}
{"id": "C40", "title": "A missing source makes the build fail", "statement": "If a source file in the cone does not exist, recurse_update does not report success.", "quantifier": "every cone with a missing source", "why_tests_cant": "combination of all graphs with missing sources", "anchors": ["licant/make.py:source", "licant/make.py:FileTarget.warn_if_not_exist", "licant/solver.py:TaskInvoker.worker"]}
{"id": "C41", "title": "Module library lookups", "statement": "After module(name, impl=i, ...), mlibrary.get(name, i) is the last module registered under (name, i); other names and implementations are unaffected; a module registered without impl becomes the default; the last default declaration wins; lookups of unregistered names or implementations end the program, except that '__none__' of a registered name yields an empty module, the same one each time.", "quantifier": "every history of registrations, default declarations and lookups", "why_tests_cant": "all histories", "anchors": ["licant/modules.py:ModuleLibrary", "licant/modules.py:module", "licant/modules.py:implementation", "licant/modules.py:module_default_implementation"]}
{"id": "C42", "title": "collect_modules yields exactly the needed modules", "statement": "When collect_modules(root) succeeds, its result contains every module named in mdepends of root or of a collected module, contains only modules reachable that way, each name at most once, and the implementation is the one explicitly requested or, if only requested by name, the default.", "quantifier": "every module library and root, including string cycles and mixtures of explicit and default requests", "why_tests_cant": "all module graphs", "anchors": ["licant/cxx_modules.py:collect_modules", "licant/modules.py:ModuleLibrary.get_default"]}
{"id": "C43", "title": "Conflicting implementation requests are reported", "statement": "If two different implementations of a module are demanded explicitly by root or collected modules, or an explicit demand contradicts an implementation already collected, collect_modules ends the program instead of picking one silently.", "quantifier": "every module library and root", "why_tests_cant": "all module graphs and traversal orders", "anchors": ["licant/cxx_modules.py:collect_modules"]}
{"id": "C44", "title": "collect_modules comes to an end on every module graph", "statement": "collect_modules(root) terminates on every library, cyclic or not.", "quantifier": "every module library and root", "why_tests_cant": "non-termination is not observable by a finite test", "anchors": ["licant/cxx_modules.py:collect_modules"]}
{"id": "C45", "title": "Including a module cannot change what is built", "statement": "Merging an included module ('include') never changes target, type, builddir, toolchain, optimize, debug, srcdir, depends, mdepends or include_modules of the including module, and only appends to sources, objects, libs, libdirs, include_paths, defines, ldscripts, modules and the flag strings; cxxstd and ccstd are overridden by the last included module that sets them.", "quantifier": "every pair of option sets and every sequence of includes", "why_tests_cant": "all option sets", "anchors": ["licant/cxx_modules.py:CXXModuleOptions.merge", "licant/cxx_modules.py:cxx_module_field_list"]}
{"id": "C46", "title": "Every collected module contributes its sources exactly once, from its own directory", "statement": "The sources of an application are its own sources followed by the sources of each collected module in collection order, each path joined to the directory (and srcdir) of the module that declared it.", "quantifier": "every module library, root and source lists", "why_tests_cant": "all graphs and lists", "anchors": ["licant/cxx_modules.py:prepare_targets", "licant/cxx_modules.py:concat_add_srcdir", "licant/cxx_modules.py:local_add_srcdir"]}
{"id": "C47", "title": "Submodules given in 'modules' contribute their objects", "statement": "For a module with modules=[m1,...], the object lists of the submodules are appended to the module's own objects.", "quantifier": "every module with a non-empty modules option", "why_tests_cant": "every nesting", "anchors": ["licant/cxx_modules.py:prepare_targets.modmake"]}
{"id": "C48", "title": "Object paths stay inside the build directory and do not collide", "statement": "build_paths maps every source to a path inside builddir with the requested extension, and two different sources to different paths.", "quantifier": "every list of source paths, build directory and extension", "why_tests_cant": "all strings", "anchors": ["licant/cxx_modules.py:build_paths", "licant/util.py:changeext"]}
{"id": "C49", "title": "Option checking", "statement": "CXXModuleOptions(**opts) is accepted iff every option except __script__ and __dir__ is in the option table and its value has the declared type; merging accepted options yields accepted options.", "quantifier": "every option dictionary", "why_tests_cant": "all dictionaries", "anchors": ["licant/cxx_modules.py:CXXModuleOptions.check", "licant/cxx_modules.py:CXXModuleOptions.merge"]}
{"id": "C50", "title": "licant.util.queue is a FIFO queue", "statement": "For every sequence of put/get/empty calls the answers are those of an unbounded FIFO queue; get on an empty queue raises.", "quantifier": "every operation sequence", "why_tests_cant": "unbounded histories", "anchors": ["licant/util.py:queue"]}
{"id": "C51", "title": "canonical_path is computed once and idempotent", "statement": "canonical_path(p) always returns the value first computed for p; two spellings of the same path give the same canonical path, and the canonical path of a canonical path is itself.", "quantifier": "every sequence of queries, every path (no symbolic links)", "why_tests_cant": "all strings and histories", "anchors": ["licant/util.py:canonical_path", "licant/util.py:DefaultDictLazy"]}
{"id": "C52", "title": "Dependency files are read back exactly", "statement": "cxx_read_depends of a file written as 'obj: src h1 h2 ... \\' yields exactly [h1, h2, ...] in order, with any line continuation layout.", "quantifier": "every list of header names and every layout", "why_tests_cant": "all strings and layouts", "anchors": ["licant/util.py:cxx_read_depends", "licant/util.py:cxx_read_depends_pattern"]}
{"id": "C53", "title": "Rule templates are filled literally", "statement": "rule.format(**target.__dict__) replaces each {field} by the value of the field, leaves everything else unchanged, does not interpret braces inside values, and raises if a field is missing.", "quantifier": "every template and every assignment of values", "why_tests_cant": "all strings", "anchors": ["licant/make.py:do_execute", "licant/cxx_make.py:options"]}
{"id": "C54", "title": "Command line dispatch", "statement": "With no arguments the default action of the default target runs; 'target' runs that target's default action; 'target action' runs that action if it is declared; a first word that is no target but an action of the default target runs that; anything else ends the program with an error and runs nothing.", "quantifier": "every registry, default and argument list", "why_tests_cant": "all argument lists", "anchors": ["licant/cli.py:__cliexecute", "licant/cli.py:execute_with_default_action", "licant/core.py:Target.hasaction"]}
{"id": "C55", "title": "Command line arguments reach the action", "statement": "'licant target action a1 ... an' calls the action with the n arguments a1 ... an.", "quantifier": "every argument list", "why_tests_cant": "all argument lists", "anchors": ["licant/cli.py:__cliexecute", "licant/core.py:Target.invoke"]}
{"id": "C56", "title": "A failed build yields a non-zero exit status", "statement": "licant.ex(...) ends with a non-zero exit status (or an exception, or a false return value) when the requested build fails.", "quantifier": "every failing build", "why_tests_cant": "every failure path", "anchors": ["licant/cli.py:cliexecute"]}
{"id": "C57", "title": "Each library is included at most once", "statement": "Whatever the include calls in the executed scripts, also mutually recursive ones, the script of a library is executed at most once per library name, and the first path given wins.", "quantifier": "every set of scripts and include graph", "why_tests_cant": "all include graphs", "anchors": ["licant/libs.py:include", "licant/scripter.py:ScriptQueue"]}
{"id": "C58", "title": "Script-relative paths", "statement": "While a script executed by licant.execute/include runs, directory() is the directory of that script, and after it returns directory() is what it was before; nested scripts are resolved relative to the including script.", "quantifier": "every nesting of scripts", "why_tests_cant": "all nestings", "anchors": ["licant/scripter.py:ScriptQueue.execute", "licant/scripter.py:ScriptQueue.curdir", "licant/__init__.py:directory"]}
{"id": "C59", "title": "licant-libs manages the registry of libraries", "statement": "licant-libs name path records name -> absolute path and keeps all other entries; licant-libs -r name removes exactly that entry; user entries take precedence over system ones.", "quantifier": "every registry content, name and path", "why_tests_cant": "all registries", "anchors": ["licant/licant_libs.py:licant_libs_utility", "licant/licant_libs.py:add_record", "licant/libs.py:merge_two_dicts"]}
{"id": "C60", "title": "An interrupted licant-libs update does not lose the registry", "statement": "If licant-libs is killed at any point while updating, the registry file afterwards holds the old or the new registry.", "quantifier": "every crash point and registry content", "why_tests_cant": "crash points", "anchors": ["licant/licant_libs.py:licant_libs_utility"]}
{"id": "C61", "title": "The installation directory is found when PATH offers one", "statement": "If PREFIX is set, or PATH contains a */usr/local/bin or */usr/bin entry, install_application uses that directory and is not disabled.", "quantifier": "every PATH and PREFIX", "why_tests_cant": "all environments", "anchors": ["licant/install.py:find_application_path", "licant/install.py:install_application"]}
{"id": "C62", "title": "The uninstall target removes what was installed", "statement": "install_library(..., uninstall=u) registers a target u whose default action deletes every file installed by the library.", "quantifier": "every library and file-system state", "why_tests_cant": "all header sets", "anchors": ["licant/install.py:install_library", "licant/make.py:MakeFileTarget.clean"]}
{"id": "C63", "title": "Declared actions of routines", "statement": "The actions advertised by a Routine (hasaction) are methods it really has and include update, recurse_update and invoke_routine.", "quantifier": "every action name", "why_tests_cant": "all names", "anchors": ["licant/core.py:Routine.__actions__", "licant/core.py:Target.hasaction"]}
{"id": "C64", "title": "POSIX path helpers obey their laws", "statement": "normpath is idempotent and yields no empty, '.' or inner '..' components; join/split/splitext/dirname/basename satisfy the documented laws (split then join restores the path up to separators; root+ext is the path).", "quantifier": "every path string", "why_tests_cant": "all strings", "anchors": ["licant/util.py:changeext", "licant/cxx_modules.py:build_paths", "licant/make.py:FileTarget.__init__"]}
{"id": "C65", "title": "Leftover outputs do not change what a script means", "statement": "If a target with a rule is registered for a file, every dependency on that file means that target, whichever outputs of former builds are on the disk.", "quantifier": "every script, every file-system state", "why_tests_cant": "tests start from one state of the disk; the effect needs an output left over from a former build and a particular order of registration", "anchors": ["licant/core.py:Target.expand_globs", "licant/core.py:Core.has", "licant/make.py:source", "licant/make.py:copy"]}
{"id": "C66", "title": "included_from names the modules that ask for a module", "statement": "After collect_modules(root), included_from of a collected module is the set of names of those among root and the collected modules that have it in mdepends.", "quantifier": "every module library and root", "why_tests_cant": "all module graphs and traversal orders", "anchors": ["licant/cxx_modules.py:collect_modules.add_included_from", "licant/cxx_modules.py:included_from"]}
{"id": "C67", "title": "A task builds the module it declares", "statement": "application(name, ...), shared_library, static_library and objects build a target from exactly the options given in the call.", "quantifier": "every library, name, implementation name, default flag and option set", "why_tests_cant": "all states of the module library before the call", "anchors": ["licant/cxx_modules.py:task", "licant/modules.py:module", "licant/modules.py:ModuleLibrary.get"]}
{"id": "C68", "title": "include_modules is followed through included modules", "statement": "A module includes the modules named in its include_modules and, through them, those named in theirs, and making it comes to an end.", "quantifier": "every module library and nesting of include_modules", "why_tests_cant": "all nestings, including cycles", "anchors": ["licant/cxx_modules.py:prepare_targets.include_modules", "licant/modules.py:submodule"]}
{"id": "C69", "title": "Every command line reflects the final options of the module", "statement": "Each compile, dependency, moc, uic and link command is the template for the language and target type, filled with the compiler, include paths, defines, standards, flags, libraries and scripts of the options the module is finally made with.", "quantifier": "every module, option set and list of sources", "why_tests_cant": "all options and sources", "anchors": ["licant/cxx_modules.py:cxx_options_from_modopts", "licant/cxx_make.py:object", "licant/cxx_make.py:depend", "licant/cxx_make.py:executable"]}
{"id": "C70", "title": "Objects depend on the headers they include", "statement": "The rule of an object has the source, its dependency file and every header listed in that file as dependencies; all of them are registered, and the dependency file is remade when it is missing or empty.", "quantifier": "every module, every content of the dependency files", "why_tests_cant": "all contents of files left by former builds", "anchors": ["licant/cxx_modules.py:link_objects", "licant/util.py:cxx_read_depends"]}
{"id": "C71", "title": "Each licant.ex obeys its own argv", "statement": "When a process calls licant.ex several times, each call runs the command given by its own argv.", "quantifier": "every sequence of calls", "why_tests_cant": "the parsed options are process-global and survive between calls; tests call it once", "anchors": ["licant/cli.py:parse", "licant/cli.py:cliexecute"]}
{"id": "C72", "title": "The -j option reaches every build", "statement": "Every build started by a command uses the number of threads given on the command line (the number of CPUs without -j), whatever the action passes.", "quantifier": "every registry, command and thread argument", "why_tests_cant": "all registries and actions", "anchors": ["licant/cli.py:cliexecute", "licant/core.py:UpdatableTarget.recurse_update"]}
{"id": "C73", "title": "From the command line to the update methods", "statement": "'licant', 'licant target' and 'licant routine a1 ... an' on a healthy registry call the update methods of exactly the out-of-date targets of that target's cone, each at most once, dependencies first, and all of them when the build succeeds.", "quantifier": "every healthy registry, command line, iteration order, schedule and thread count", "why_tests_cant": "all registries and schedules", "anchors": ["licant/cli.py:__cliexecute", "licant/core.py:Target.invoke", "licant/core.py:UpdatableTarget.recurse_update"]}
{"id": "C74", "title": "Arguments of routines", "statement": "A routine invoked with arguments passes exactly these to its function, and routines that run as dependencies are called without arguments.", "quantifier": "every registry, argument list and sequence of invocations", "why_tests_cant": "depends on the history of invocations in the process", "anchors": ["licant/core.py:Routine.invoke_routine", "licant/core.py:Routine.update"]}
{"id": "C75", "title": "An installed application is usable without naming its target", "statement": "After install_application(src, dst) the registry has a target whose default action copies src to the installation directory.", "quantifier": "every src, dst, earlier registration and file-system state", "why_tests_cant": "all registries", "anchors": ["licant/install.py:install_application", "licant/make.py:fileset"]}
{"id": "C76", "title": "A library installs its own headers at their relative paths", "statement": "The target of install_library depends on the copies of its own headers, each at its path relative to the header directory below include/hroot.", "quantifier": "every header tree, header root and sequence of install_library calls", "why_tests_cant": "all header trees and scripts", "anchors": ["licant/install.py:install_headers", "licant/install.py:install_library"]}
{"id": "C77", "title": "A script registers the project it describes", "statement": "If a script of source, makefile, copy, fileset and routine statements declares nothing twice, declares things before mentioning them and mentions only declared or existing files, then every target it registers has the rule and the dependencies that the script states, and every declared or mentioned name is found.", "quantifier": "every script in order, working directory, disk and glob result", "why_tests_cant": "all scripts", "anchors": ["licant/make.py:makefile", "licant/make.py:copy", "licant/make.py:source", "licant/make.py:fileset", "licant/make.py:FileTarget.__init__", "licant/core.py:Core.add", "licant/core.py:Core.get"]}
{"id": "C78", "title": "Reading a script and preparing a build always succeed", "statement": "For a script in order, registration, the evaluation of what is out of date and the construction of the solver end without an exception, for every declared target.", "quantifier": "every script in order, disk state, declared target, thread count and set order", "why_tests_cant": "termination for all scripts", "anchors": ["licant/make.py:FileTarget.__init__", "licant/core.py:UpdatableTarget.recurse_update", "licant/core.py:UpdatableTarget.evaluate_update_needity"]}
{"id": "C79", "title": "From the script to the files", "statement": "After any sequence of edits and of processes that read the script and make some declared target (finished, failed or killed at any point), a build that returns True leaves in every file needed by its target the content that the rules give, computed from the current sources.", "quantifier": "every script in order, history, schedule and thread count", "why_tests_cant": "all histories and schedules", "anchors": ["licant/make.py:makefile", "licant/make.py:copy", "licant/make.py:fileset", "licant/core.py:UpdatableTarget.recurse_update", "licant/solver.py:InverseRecursiveSolver.exec"]}
{"id": "C80", "title": "A build whose rules do not fail ends with True", "statement": "For a script in order, with at least one thread, as long as no rule has failed the build either has returned True or can make a step; it makes at most 2n+1 steps for n targets; creating directories never fails.", "quantifier": "every script in order, schedule, thread count and disk without a file where a directory is needed", "why_tests_cant": "deadlocks in all schedules", "anchors": ["licant/make.py:DirectoryTarget", "licant/solver.py:InverseRecursiveSolver.exec"]}
{"id": "C81", "title": "Built-in targets do not capture files of the project", "statement": "What import licant registers itself (the targets binutils, m, cxxm and l and the script as a source) changes nothing about the project that a script describes: a script in order remains in order and describes the same files and rules.", "quantifier": "every script in order, name of the script, disk", "why_tests_cant": "all scripts and names", "anchors": ["licant/modules.py:189-198", "licant/cxx_modules.py:628-638", "licant/libs.py:112-123", "licant/cxx_make.py:320-326", "licant/scripter.py:10", "licant/make.py:source", "licant/make.py:FileTarget.internal_update_if"]}
{"id": "C82", "title": "Objects follow their headers", "statement": "After any sequence of edits, deletions and processes (finished, failed or killed at any point) of a script with C++ sources, a build that returns True leaves every list of headers and every object it needs as the commands would make them from the current files, although the dependencies on headers are only those that an earlier process has found in the lists; and the next process will see the headers as dependencies.", "quantifier": "every honest script, history, schedule and thread count; list commands that are interrupted leave an empty list or nothing", "why_tests_cant": "the dependencies that a process sees depend on all earlier processes; all histories and schedules", "anchors": ["licant/cxx_modules.py:link_objects", "licant/util.py:cxx_read_depends", "licant/cxx_make.py:depend", "licant/cxx_make.py:object", "licant/make.py:FileTarget"]}
{"id": "C83", "title": "Lists of headers change nothing but dependencies", "statement": "What application, shared_library, static_library and objects register does not depend on the lists of headers, except for the dependencies and the force flag of the rules for lists and objects and for the headers registered as sources; list and object of a source are made with the same options.", "quantifier": "every library of modules, call, and contents of the lists", "why_tests_cant": "all module libraries and all contents of files", "anchors": ["licant/cxx_modules.py:task", "licant/cxx_modules.py:prepare_targets", "licant/cxx_modules.py:link_objects", "licant/cxx_make.py:depend", "licant/cxx_make.py:object"]}
{"id": "C84", "title": "No needless work", "statement": "A process runs the rules of only those files of its target that are missing, forced, or older than something they depend on, or that depend, directly or indirectly, on such a file; after success, of exactly these. After a successful process that met no forced rule and no missing source, a process for the same target runs nothing and changes no file; if files are changed in between, only rules whose file, or something that it depends on, was changed run. This also holds when the first process found new lists of headers. What depends on a forced rule or on a source that does not exist is made again by every process.", "quantifier": "every script, disk, target, schedule, number of threads, and change between the processes; processes may be stopped at any time", "why_tests_cant": "all scripts, disks, schedules and changes of files", "anchors": ["licant/make.py:FileTarget.internal_update_if", "licant/make.py:DirectoryTarget.update_if_need", "licant/core.py:UpdatableTarget.update_if_need", "licant/core.py:UpdatableTarget.recurse_update", "licant/cxx_modules.py:link_objects"]}
{"id": "C85", "title": "Scripts that are edited", "statement": "Between processes the script may be edited, or its patterns may come to stand for other files. If each file that the new version makes does not exist, is out of date with respect to the new version, has its old command and still depends on all that it depended on, or has its old command and was up to date, then a process of the new version that succeeds leaves every file of its target with the content that a build from scratch gives, no matter how many edits, changes of sources, failed and killed processes came before. This is so if everything that the new version makes is removed first, and if every rule names the script and the script is newer. Otherwise edits are not noticed: the process succeeds and the file made by the old version stays.", "quantifier": "every two scripts, disk, history of processes, edits and changes, target, schedule and number of threads", "why_tests_cant": "all histories of edited scripts", "anchors": ["licant/make.py:FileTarget.internal_update_if", "licant/core.py:UpdatableTarget.recursive_update_needed_request", "licant/core.py:UpdatableTarget.recurse_update"]}
{"id": "C86", "title": "Toolchain options of the command line", "statement": "After any calls of parse and set_default_toolchain, options() has the toolchain that the latest call asked for, where each call of parse asks for what the flags of the first one say (gcc before clang), and raises for an unknown name. C++ modules, and the functions of cxx_make called without options, do not see the choice: every command of theirs starts a program of the toolchain given in the call, or of the standard one. So --gcc_toolchain and --clang_toolchain do not change how modules are compiled.", "quantifier": "every sequence of calls, library of modules and call", "why_tests_cant": "all sequences of calls, all libraries of modules", "anchors": ["licant/cxx_make.py:set_default_toolchain", "licant/cxx_make.py:default_toolchain", "licant/cxx_make.py:options", "licant/cxx_make.py:object", "licant/cli.py:parse", "licant/cxx_modules.py:cxx_module_field_list"]}
{"id": "C87", "title": "Informational actions on the command line", "statement": "'m list' prints every registered module in alphabetical order with its implementations. 'm list PATTERN' looks only at the first character of the pattern: it prints the modules whose name contains it, everything for an anchor, and raises for an operator or bracket. 'm print NAME', 'cxxm collect_modules NAME' and 'cxxm included_from NAME' look for a module whose name is one character and end the program if there is none; 'cxxm finalopts NAME' does the same with targets. 'binutils disasm' always raises. So the actions do not do what their words say.", "quantifier": "every library of modules, registry and word", "why_tests_cant": "all libraries and words", "anchors": ["licant/modules.py:print_modules_list", "licant/modules.py:print_module", "licant/cxx_modules.py:print_collect_list", "licant/cxx_modules.py:included_from", "licant/cxx_modules.py:print_finalopts", "licant/cxx_make.py:disassembler", "licant/cli.py:__cliexecute"]}
{"id": "C88", "title": "javac, dex and objcopy", "statement": "The commands of javac, dex and objcopy name their inputs and options as intended, but javac's does not name its target, and without a toolchain (the default) or, for dex, with one made by java_toolchain, formatting the command raises. After a successful process of a script of such calls all files are right, if dex is told that it depends on its source. By default it is not told: then its output is never made again while it exists, and is stale after a change of the source.", "quantifier": "every script of such calls, options, history of processes and edits", "why_tests_cant": "all scripts, interleavings and histories", "anchors": ["licant/java_make.py:javac", "licant/java_make.py:dex", "licant/cxx_make.py:objcopy"]}
{"id": "C89", "title": "Several programs in one script", "statement": "A script of any number of calls of module, application, shared_library, static_library, objects and static_and_shared is, on every disk, a script whose only dependence on the disk are the header lists of its sources (so that C82 to C84 apply to it, if it is in order). A source compiled by two calls with the same build directory has one object for both, which then has two rules. Which one counts: the last one, if the object did not exist when the script was read; if it existed, the last one at the first place where its relative path is a dependency. The property wished for, that each program is built with its own options, is false: a program is built with the options of another one, and after an edit of the source with its own.", "quantifier": "every script of such calls, every disk; every pair of tasks; every script with two rules for a file", "why_tests_cant": "all scripts, disks and options; which rule counts depends on the disk when the script is read", "anchors": ["licant/cxx_modules.py:task", "licant/cxx_modules.py:static_and_shared", "licant/cxx_modules.py:build_paths", "licant/make.py:FileTarget.__init__", "licant/core.py:Core.add"]}
{"id": "C90", "title": "From the command line to the files", "statement": "On a registry of files, what licant.ex calls is what the words of the command line ask for. For a script in order and words that name a declared file or file set (alone, with makefile or clean, or by the default target): the command starts; it is a build of the script, or of the script followed by a mention of the word; when it succeeds, after any history of edits and commands, killed ones and cleaning ones included, every file needed by the target has the right content; with at least one thread it goes on until it succeeds or a rule fails; with -j0 or less it hangs and touches no file. The action clean always succeeds, and removes exactly the regular files that rules of the target and its dependencies make. The property wished for, that the meaning of a word depends on the script only, is false: a word is an action of the default target or a directory, depending on what exists on disk.", "quantifier": "every script in order, every disk, every default target, word and number of threads, every history of edits and commands", "why_tests_cant": "all scripts, disks, histories and schedules; states in the middle of a build and killed builds included", "anchors": ["licant/cli.py:cliexecute", "licant/cli.py:__cliexecute", "licant/core.py:Core.has", "licant/core.py:Target.invoke", "licant/make.py:MakeFileTarget.makefile", "licant/make.py:MakeFileTarget.clean", "licant/make.py:FileTarget.clr"]}
{"id": "C91", "title": "Ctrl-C during a build", "statement": "After Ctrl-C no further task is started. If no command is killed, the effect is that of killing the process a bit later: some state of the same execution has the same world. In builds by a script only targets of the rules that were running change, at most as many as there are threads. If rules whose commands are killed leave no output, the files after Ctrl-C are as after some history of edits and builds, so that the next command that succeeds leaves the right content in every file that its target needs. If the exception is raised inside a worker coroutine before its task is reported, the worker swallows it: no further task is started and exec never returns. The property wished for, that the next build is right whatever the killed commands leave behind, is false: a half-written output is taken for finished and linked.", "quantifier": "every graph, script in order, disk, history and schedule, every state in which the signal arrives, every subset of the running calls that come to their end, do not begin or are killed, in every order", "why_tests_cant": "all schedules and all moments of the signal; which of the running calls still have effects is up to the operating system", "anchors": ["licant/solver.py:TaskInvoker.run_until_complete", "licant/solver.py:TaskInvoker.worker", "licant/solver.py:TaskInvoker.release_queue", "licant/cli.py:cliexecute", "licant/make.py:do_execute"]}
{"id": "C92", "title": "The command line of a C++ project", "statement": "Without words, licant.ex builds the default target, exactly as a build of the script. A command that makes a target runs a rule only if its file is needed and out of date, has run all of these when it has succeeded, and changes nothing if nothing is out of date. For a script with C++ sources, after any history of edits, commands that make (finished, failed, or killed while a list of headers was made) and commands that clean, a successful command leaves in every file that the target needs what its rule makes of the files as they are now, and every object is what the compiler makes of its source and the headers that this includes now; the next command for any part of it then runs only rules that depend on something that was changed since, and none if nothing was changed.", "quantifier": "every script of statements and C++ sources, every disk, default target, word and number of threads, every history of edits and commands, every schedule", "why_tests_cant": "each process reads a different script, depending on the lists that earlier ones left; all histories, schedules and killed processes", "anchors": ["licant/cli.py:cliexecute", "licant/cxx_make.py:object", "licant/cxx_make.py:depend", "licant/cxx_modules.py:task", "licant/make.py:MakeFileTarget.makefile", "licant/make.py:MakeFileTarget.clean", "licant/core.py:UpdatableTarget.recurse_update"]}
{"id": "C93", "title": "Files in trees of directories", "statement": "find_recursive(root, pattern, hide) finds each file below the root whose name contains the pattern and whose directory, written with the root, does not contain hide; it finds nothing else, nothing twice, what lies in a directory before what lies deeper, and nothing at all below a hidden directory or if the root is missing, empty or no directory. execute_recursive starts the scripts found, each once and in this order, until one raises. install_headers copies exactly the files that match a pattern, to the same place below the target directory. What is found does not depend on where the tree lies, and a pattern like \".g.py\" finds only files that end in it (both false).", "quantifier": "every tree of files, directories and links, in every order of listing; every root, pattern and hidden name; every set of scripts", "why_tests_cant": "all trees of any depth and all names, with any order of the directory listings", "anchors": ["licant/util.py:find_recursive", "licant/util.py:recursive_glob", "licant/scripter.py:ScriptQueue.execute_recursive", "licant/install.py:install_headers"]}
{"id": "C94", "title": "What a command installs", "statement": "A script calls install_library or install_application, among other things. After any history of edits of sources and commands (finished, failed or killed), a command for the installation target that succeeds leaves every header below the directory that matches a pattern, at any depth, and every library (or the application) at its place of installation, with the content that the original has then; originals that the script itself makes are made first. The same holds if headers were added in between. A header that was deleted is not there any more afterwards (false).", "quantifier": "every script around the calls, tree of headers, set of patterns and libraries, places of installation, history, thread count and interleaving", "why_tests_cant": "all histories, trees and interleavings, from the call to the content of the files", "anchors": ["licant/install.py:install_library", "licant/install.py:install_headers", "licant/install.py:install_shared_library", "licant/install.py:install_application", "licant/make.py:copy", "licant/cli.py:cliexecute"]}
{"id": "C95", "title": "A core of one's own", "statement": "A script makes an object of class MakeCore and calls its methods ftarget, touch, copy, source, target and updtarget, fileset with core=, and functions for the default core in between. If everything a target depends on is declared in the same core (and the calls are in order as in C77), the core holds the project that the calls describe, core.do starts a build without an exception with the number of threads in runtime or 1, the build cannot hang and fails only if a rule fails, and after any history of edits and such builds a build that succeeds leaves the right content in every file the target needs. Dependencies that merely exist need no declaration, as in the default core (false). A file set may have the name of an output directory (false).", "quantifier": "every list of calls in order, directory contents, spelling of the paths, number of cores, runtime, history, thread count and interleaving", "why_tests_cant": "all scripts, histories and interleavings, from the calls to the content of the files", "anchors": ["licant/make.py:MakeCore", "licant/make.py:fileset", "licant/core.py:Core", "licant/core.py:Target.expand_globs", "licant/core.py:UpdatableTarget.recurse_update"]}
{"id": "C96", "title": "Routines find their files", "statement": "A script in order declares routines with files and file sets among their dependencies; nothing is known about what their functions do to the disk. A process asked for a routine (or for a file) starts without an exception, cannot hang and fails only if a rule fails, up to the moment a routine ends. After any history of edits, of builds and of processes that ran routines, every file that a routine needs, directly or not, has the right content at the moment its function starts. Making files never runs a routine, and what routines did to sources or other files in earlier processes does no harm to later builds. A routine that depends on another routine as well as on files always finds right files (false).", "quantifier": "every script in order, directory contents, history, thread count, interleaving and effect of the routines", "why_tests_cant": "all scripts, histories and interleavings, with functions whose effect is unknown", "anchors": ["licant/core.py:Routine", "licant/core.py:Core.routine_do", "licant/core.py:UpdatableTarget.recurse_update", "licant/core.py:UpdatableTarget.recursive_update_needed_request"]}
{"id": "C97", "title": "Several builds and cleanings in one process", "statement": "A process reads a script in order and then makes and cleans any number of declared targets one after the other, with one registry and one cache of file dates, while nobody else writes the files; builds that return False do not stop it. Each target made with success has the right content in every file it needs, from then on, until a file made for it is cleaned: after each later build and at every moment of one, whatever its result. Cleaning a target removes exactly the files that rules make for it, and is always possible. The next build always starts without an exception, cannot hang and fails only if a rule fails. What has been made with success (and not cleaned) is left alone while other targets are made, and making it again writes and runs nothing, provided that none of its rules are always run and that its sources exist. Processes of this kind, finished or killed, may come before any other build and do no harm to it.", "quantifier": "every script in order, directory contents, history, sequence of builds and cleanings and their results, thread count and interleaving", "why_tests_cant": "all scripts, all sequences of builds and all their interleavings, with a cache that is never emptied", "anchors": ["licant/core.py:Core.do", "licant/core.py:Target.invoke", "licant/core.py:UpdatableTarget.recurse_update", "licant/cache.py:FileCache", "licant/make.py:MakeFileTarget.clean"]}
{"id": "C98", "title": "C++ targets for a given core", "statement": "application, shared_library, static_library and objects called with core=c register the target and everything it needs in c, where it can be built.", "quantifier": "every call, module library, registries and number of cores", "why_tests_cant": "all calls and registries; tests use the default core", "anchors": ["licant/cxx_modules.py:task", "licant/cxx_modules.py:prepare_targets", "licant/cxx_modules.py:application", "licant/cxx_modules.py:objects"]}
{"id": "C99", "title": "It does not matter when rules read and write", "statement": "Calls of rules take time: each input is read at some moment of the call while other workers' rules run, and until its end a rule may put anything into its output. At every moment the state is one that would be reached with calls that read and write at one moment, except for the files whose rules are running; what a running rule reads does not change; at the end of a build there is no difference, so files are right, and a build neither hangs nor takes more moves.", "quantifier": "every script and project whose rules read only what they depend on and files that no rule makes (C++ scripts included), target, number of threads, schedule, moments of reading and intermediate outputs", "why_tests_cant": "all interleavings of reads and writes of concurrent subprocesses", "anchors": ["licant/solver.py:DependableTarget.doit", "licant/make.py:FileTarget.update", "licant/make.py:Executor", "licant/solver.py:InverseRecursiveSolver"]}
{"id": "C100", "title": "Builds that are not alone can be repaired by building again", "statement": "While a process builds, sources are edited, files are deleted and other processes make targets of the same tree, mixed in any order and killed at any time. Each process calls its targets in an order it could have had alone and does not hang; a build that then runs undisturbed and succeeds leaves every file of its target's cone as the sources ask for.", "quantifier": "every project or script whose rules read only what they depend on, any number of processes, targets and threads, every interleaving with edits and deletions, and all undisturbed builds between and after them", "why_tests_cant": "all interleavings of several processes and edits", "anchors": ["licant/solver.py:InverseRecursiveSolver", "licant/make.py:FileTarget.internal_update_if", "licant/make.py:DirectoryKeeper", "licant/core.py:UpdatableTarget.recurse_update"]}
{"id": "C101", "title": "Builds are not disturbed by what happens elsewhere", "statement": "While a process builds, anything may happen to files that do not belong to the targets taking part. The process makes the same calls in the same order with the same results as if it were alone, leaves the same files, does not hang, and when it returns True every file of its target's cone is as the sources ask for. Two processes in one directory that change nothing the other has to do with are each as if alone.", "quantifier": "every script in order whose rules read only what they depend on, any target and number of threads, every interleaving with changes elsewhere or with the steps of a second process of the same or another script", "why_tests_cant": "all interleavings with arbitrary foreign changes", "anchors": ["licant/solver.py:InverseRecursiveSolver", "licant/make.py:DirectoryKeeper", "licant/make.py:FileTarget", "licant/cache.py:FileCache", "licant/core.py:UpdatableTarget.recurse_update"]}
{"id": "C102", "title": "The decorator routine does what it says", "statement": "A script of decorated functions (with or without arguments, or by a call) registers exactly what the same calls of updtarget would; under every name the routine of the last statement is found, with its dependencies and its function; the decorated names still are the functions; nothing is raised.", "quantifier": "every list of statements about functions with existing keywords, any dependencies, files on disk and state before", "why_tests_cant": "all scripts, all forms of the decorator, repeated names", "anchors": ["licant/core.py:Core.routine", "licant/core.py:Core.routine_do", "licant/core.py:Routine.__init__", "licant/core.py:routine"]}
{"id": "C103", "title": "The package provides what it advertises", "statement": "from a package import * works exactly if every name of __all__ is an attribute or a module of it. An attribute of the store is what was last stored under its name, and raises before that. system returns exactly if the command's status is 0.", "quantifier": "every list of names, every sequence of stores, every status", "why_tests_cant": "no test imports everything; all sequences of stores", "anchors": ["licant/__init__.py:__all__", "licant/__init__.py:attribute", "licant/__init__.py:import_attribute", "licant/__init__.py:system"]}
{"id": "C104", "title": "C++ builds are not disturbed by what happens elsewhere", "statement": "While a process builds a C++ script, anything may happen to files that neither belong to the targets taking part nor are headers that the sources include. The process behaves as if it were alone, and when it returns True every list of headers and every object is what the commands make of the files that are there then. The same holds for any script whose rules look at more than they declare, and for two processes side by side that spare what the other one looks at.", "quantifier": "every script in order, every set of files containing what the commands of an undisturbed build look at, any target and number of threads, every interleaving with changes of other files or with a second process", "why_tests_cant": "all interleavings with arbitrary foreign changes; which headers matter depends on contents", "anchors": ["licant/solver.py:InverseRecursiveSolver", "licant/make.py:FileTarget", "licant/cxx_make.py:object", "licant/util.py:cxx_read_depends", "licant/cxx_make.py:depend", "licant/core.py:UpdatableTarget.recurse_update"]}
{"id": "C105", "title": "Collected modules are in the order of the requests", "statement": "In the list that collect_modules returns, a module that asks for an implementation of another one comes before the module it gets, also when several modules ask for the same one. Where modules are asked for by name only, each module comes after one that asks for it, unless the application asks for it itself. A module asked for by name may come before some of those that ask for it.", "quantifier": "every library of modules made by any history of registrations, every module to start from, every collection that succeeds", "why_tests_cant": "all module graphs with any mixture of requests; modules are re-keyed when asked for again", "anchors": ["licant/cxx_modules.py:collect_modules", "licant/cxx_modules.py:prepare_targets"]}
{"id": "C106", "title": "Every option of a made module is accounted for", "statement": "The options a module is made with come from the defaults, the module itself, the modules it includes and the collected modules, in this order: libraries, library directories, defines, scripts, headers and include paths are those of all of them, paths relative to the directory of the module that gives them; flags are joined by blanks; the last standard wins; build directory, target, optimisation, debug flags, toolchain, source directory, type and dependencies are those of the module alone. Include paths get the directories for local headers and generated headers, once each and only when needed.", "quantifier": "every library of modules, every module and every set of base options with which making it succeeds", "why_tests_cant": "all module graphs and option sets; the options interact through three sources of modules", "anchors": ["licant/cxx_modules.py:CXXModuleOptions.merge", "licant/cxx_modules.py:cxx_module_field_list", "licant/cxx_modules.py:concat_add_locdir", "licant/cxx_modules.py:prepare_targets.modmake", "licant/cxx_modules.py:CXXModuleOptions.set_default_if_empty"]}
{"id": "C107", "title": "Collecting goes through each module once", "statement": "While the modules of an application are collected, the mdepends of each module are gone through once.", "quantifier": "every library of modules and every module from which collecting succeeds", "why_tests_cant": "all module graphs; the cost grows with the number of paths, which small examples do not show", "anchors": ["licant/cxx_modules.py:collect_modules", "licant/cxx_modules.py:specify_implementation", "licant/cxx_modules.py:request_implementation"]}
{"id": "C108", "title": "A build calls only the tools of its toolchain", "statement": "Every command of an application, library or set of objects, also those for the sources of the modules it includes or requires, calls a tool of the toolchain given with it, or of the default one if none is given, whatever toolchains the other modules have. With a gcc toolchain for a prefix every tool called has this prefix.", "quantifier": "every library of modules, every set of options with a toolchain and every call of application, shared_library, static_library and objects that succeeds", "why_tests_cant": "all module graphs and toolchains; a build with a wrong tool succeeds on the host", "anchors": ["licant/cxx_make.py:toolchain", "licant/cxx_make.py:gcc_toolchain", "licant/cxx_make.py:make_gcc_binutils", "licant/cxx_modules.py:task", "licant/cxx_modules.py:cxx_options_from_modopts"]}
{"id": "C109", "title": "A call makes the kind of program it names", "statement": "A successful call of application, shared_library, static_library or library links exactly once, into the given target or else the file named like the program, with the command line of its kind, whatever kinds and targets the modules it uses declare; any other kind is rejected. objects links nothing and ends with the file set of its objects. static_and_shared makes two files.", "quantifier": "every library of modules, every set of options and every call that succeeds, without an implementation name or with default", "why_tests_cant": "all module graphs and options; the modules of a program can have kinds and targets of their own", "anchors": ["licant/cxx_modules.py:task", "licant/cxx_modules.py:prepare_targets", "licant/cxx_modules.py:library", "licant/cxx_modules.py:executable", "licant/cxx_modules.py:dynlib", "licant/cxx_modules.py:statlib", "licant/cxx_modules.py:static_and_shared"]}
{"id": "C110", "title": "What is needed for compiling is made before", "statement": "Every rule of a program or set of objects that compiles a source, lists its headers or generates a source depends on its source, on the set of the copied local headers, which has every copy, on every file listed in depends, with patterns expanded, and, uic itself excepted, on every header that uic generates. This holds for the depends of the program and for those of the modules it requires.", "quantifier": "every library of modules, every set of options and every call of application, shared_library, static_library and objects that succeeds", "why_tests_cant": "a missing dependency shows only under some schedules of the workers and some states of the disk", "anchors": ["licant/cxx_modules.py:prepare_targets", "licant/cxx_modules.py:link_objects", "licant/cxx_modules.py:link_qt_moc", "licant/cxx_modules.py:link_qt_ui", "licant/cxx_modules.py:cxx_module_field_list"]}
