{
 "C01": "iff, for every list of targets and every iteration order of Python sets",
 "C02": "exactness of each error, and no other error can occur",
 "C15": "any key type with decidable equality; includes the involution and the KeyError iff",
 "C03": "for every reachable state of the asyncio transition system, every task behaviour and thread count",
 "C04": "at most once in every execution; exactly once when exec() returns True",
 "C05": "number of calls in progress, read off the trace",
 "C06": "nothing starts after a False; transitive dependents of the failed target never start",
 "C07": "returned value decided exactly by whether a what_to_do returned False",
 "C08": "progress in every reachable state plus a bound of 2n+1 scheduling steps",
 "C09": "also after a failure",
 "C10": "depcount assert, task_done ValueError, and the three asserts of exec()",
 "C11": "REFUTED: a raising what_to_do makes exec() hang, for every graph and thread count (theorems C11_raise_*)",
 "C12": "REFUTED: with count_of_threads <= 0 exec() hangs at once, for every graph",
 "C13": "no worker leaves before everything is done; an idle worker can take any queued target",
 "C14": "every complete execution ends in the state of any sequential dependency order, given commuting independent actions",
 "C16": "every canonicalisation function and history of add/has/depends_as_set",
 "C17": "REFUTED: has() inserts an alias that survives re-registration; invisible as long as the canonical name is not registered again",
 "C18": "every registry, cyclic or not; list strictly sorted, members exactly the closure, exit iff something reachable is unregistered",
 "C19": "answer equals that of a core never asked before (the cache is written under a key that is never read)",
 "C20": "for registrations followed by any number of evaluations; totality on healthy registries; REFUTED for a target registered again between evaluations (cached_deplist)",
 "C21": "REFUTED: an unregistered dependency or a cycle outside the cone breaks every action; what holds: recurse_update's input and out-of-dateness in the cone are unaffected by unrelated registrations",
 "C22": "after an evaluation: exact set, once, dependency order; REFUTED for recurse_update called directly without evaluation (hangs)",
 "C23": "five iffs; distinct target names",
 "C24": "REFUTED: TypeError on every core without runtime['threads']; works when threads is set",
 "C25": "REFUTED: core.do drops the result of the action. An action that the target does not have is no error either (C25_unknown_action).",
 "C26": "nested lists, any state and exceptions",
 "C63": "REFUTED: missing comma in Routine.__actions__; the other declared actions exist",
 "C27": "single target and whole build; any registry with a truthful cache",
 "C28": "same process and new process (any registry for the same project)",
 "C29": "any reachable state, also with partial outputs; directories created where nothing was are the only other change",
 "C30": "any history of edits, deletions, complete, failed and killed builds; REFUTED when failing rules leave partial outputs",
 "C31": "any reachable state of the build; flags of the next process",
 "C32": "holds for targets that were out of date, rules leaving no partial output; REFUTED otherwise (two witnesses)",
 "C34": "exactly the generated regular files of the cone; REFUTED with a stale file cache",
 "C37": "cache laws over all histories; REFUTED: edits between two builds of one process are not noticed",
 "C38": "any acyclic nesting",
 "C40": "REFUTED: build of a missing source only warns; holds if some rule cannot do without the source",
 "C50": "answers of every call sequence are those of a list-based FIFO; get on empty raises",
 "C51": "holds for every path while the current directory does not change; with os.chdir between queries the memo is stale (REFUTED part)",
 "C52": "exact for names made of [A-Za-z0-9_/.-]; REFUTED for other characters, e.g. '+': c++/v1 is cut into pieces",
 "C53": "templates made of literal text, doubled braces and {field}; exactly the templates that format accepts; missing name raises KeyError, missing attribute AttributeError, positions IndexError",
 "C64": "normpath, realpath, dirname, basename, join, splitext, changeext over all strings",
 "C33": "for every script of the modelled calls, every disk and every schedule, provided outputs end in a file name without '*' and no other target has the name of a missing directory; both provisos are needed (REFUTED without them)",
 "C39": "REFUTED: with any core but the default one the source is not registered in that core (theorem for all arguments and a witness); in the default core everything the copies need is registered",
 "C65": "REFUTED: a leftover output on the disk turns a dependency into a plain source and its rule is no longer used; holds when the target is registered before anything mentions the file",
 "C35": "REFUTED: names are not quoted, so a blank or ';' makes rm act on other files; holds for names made of [A-Za-z0-9_./-+,:@%=] (sources not starting with '-'); copying to an existing directory copies into it, and the status of several commands is that of the last one",
 "C36": "REFUTED: do_execute waits for the command before reading its pipes, so more output than a pipe holds blocks for ever, as does a background process; output that is not UTF-8 raises. Returns in every schedule iff the output fits (exact for commands without background processes); the printed text and the result are then right",
 "C41": "over every history of module/implementation/default/lookup calls; also that registering never fails and that different (name, impl) are different objects",
 "C42": "includes string-valued mdepends (taken character by character) and the creation of __none__ modules on the way",
 "C43": "stated as: a result has no contradiction; every failure of a library with proper mdepends ends the program",
 "C44": "refuted by two modules that request each other's implementation explicitly (RecursionError in CPython); proved: terminates when there is no cycle of explicit requests, and never succeeds when a collected module is on one",
 "C66": "refuted: the root is named for every module found by name, and a request by name for a module already collected is not recorded; proved: everything named except the root asks for it, and every explicit request is recorded",
 "C45": "for every sequence of includes; also for the whole of modmake (includes and collected modules); C45_standards needs that no included value is of a foreign class called str",
 "C46": "own sources, then those of included modules, then those of collected modules, each joined to the directory and srcdir of its module; exactly these are compiled and linked; refuted: a collected module that requires the root by name makes the root's sources count twice",
 "C47": "refuted for every module with a non-empty modules option: given by name AttributeError, as objects the result contains a nested list and the options, so linking and filesets raise TypeError",
 "C48": "proved inside the build directory for relative sources, and for absolute ones without '..' and a non-empty builddir; collisions only between sources of the same directory that differ in the extension (sources without '..'); refuted in general by a.c/a.cpp, ../x.c and __/x.c, /a.c and a.c, /../x.c, x..c",
 "C49": "acceptance is exact when no value is of a foreign class with the same name (refuted without); merging well-formed options with plain elements succeeds and is well-formed; refuted: elements of lists are not checked, so accepted options can fail to merge",
 "C67": "proved for calls without impl or with default=True; refuted otherwise: the default implementation is built, or the program ends if there is none",
 "C68": "refuted: names in include_modules of an included module raise AttributeError, and a module that includes itself is included for ever; proved: whenever a module is made, all nested includes are submodule objects and are walked in order",
 "C69": "for modules without submodules (C47); asm sources are compiled with the C compiler and cc_flags",
 "C70": "for modules without submodules; which names are read from a dependency file is C52",
 "C54": "exactly which command lines run something, and what; every other one exits with an error. REFUTED corner: a word after a routine's name is always an argument, even if it names a declared action",
 "C55": "REFUTED: one extra word is spread into its characters, two or more raise TypeError; routines receive the words, a one-character word arrives",
 "C56": "REFUTED: the result of the command is dropped, so a failed build exits with status 0; proved: exit status of every other case, including 255 for errors of licant and 1 for Ctrl-C",
 "C71": "REFUTED: the options parsed first are kept for the whole process; proved: the first argv rules all later calls",
 "C72": "every command, every registry; 0 and negative numbers included",
 "C73": "composition of the command line, invoke and recurse_update with the theorems on builds",
 "C74": "REFUTED: arguments stored by an invocation are reused when the routine later runs as a dependency; proved for routines never invoked with arguments before",
 "C57": "every program of scripts (interaction trees over any script globals), every include graph; termination for scripts that only include a finite set of libraries",
 "C58": "REFUTED: when a script catches the exit of a script it included, the stack of scripts keeps an entry and directory() is wrong from then on; proved for scripts that let such exceptions pass",
 "C59": "add, add-directory and precedence proved on the JSON text itself (ASCII registries); REFUTED for -r, which never removes anything (proved for every registry)",
 "C60": "REFUTED: the file is truncated and rewritten in place; proved: every interrupted write leaves an unreadable file, after which licant-libs and all includes fail",
 "C61": "REFUTED: with PATH=/usr/bin:/bin the directory is found but installing is disabled; proved when PREFIX is set or an entry is exactly /usr/local/bin, and exactly what happens otherwise (disabled, or UnboundLocalError on import)",
 "C62": "REFUTED: the uninstall target never removes anything (proved for every library, registry and disk)",
 "C75": "REFUTED: without tgt the file set depends on itself and no action of any target works any more (proved for every registry)",
 "C76": "relative header paths proved; REFUTED for two libraries with one header directory, where the first installs the headers of the second",
 "C77": "For scripts made of source, makefile, copy and fileset calls and of other targets (core.target, core.updtarget, routines) on the default core, including what import licant registers; in_order is the explicit condition. Scripts that break it: C33, C39, C40, C81 refutations.",
 "C78": "The hypotheses are those of C77; reading ends for any script of these statements.",
 "C79": "Rules are functions of the contents of their declared inputs (reads_only); failing rules leave no torn output (partial = false), see C30 and C32 for what happens otherwise; times: a build writes with dates later than the time it started, see DESIGN.md.",
 "C80": "Rules end (a rule that never returns is not modelled). dirs_free: no regular file where a directory has to be.",
 "C81": "The full claim is refuted: a file called binutils, m, cxxm or l that a rule depends on is taken for the built-in target of that name; the first build hangs, later evaluations raise AttributeError. The positive theorem holds for scripts clear of the four names.",
 "C82": "Assumptions in the record honest: the list command looks at the source and at the headers it lists and lists at least something, the compiler looks at nothing else; generated headers are declared dependencies (local_headers, depends). Headers that are not listed (system headers, which -MM omits; a new file earlier in the include path) are outside. An interrupted list command may leave an empty list; if it may leave the beginning of a list, the claim is false (C82_cut_lists_refuted). The script is in order for each process.",
 "C83": "Proved for task, which the four functions call. The meaning of shell commands is a parameter.",
 "C84": "C84_exceptions: forced rules and registered sources that do not exist. With headers the assumptions are those of C82, and changes in between must leave the lists alone.",
 "C85": "The property as wished, for all edits, is false: C85_object_left_out_refuted, C85_changed_command_refuted. C85_edited_script holds under the stated condition on each file.",
 "C86": "The property as wished, that the options choose the compilers of modules, is false: C86_option_ignored_refuted.",
 "C87": "The property as wished, that words are passed on whole, is false: C87_list_refuted, C87_print_refuted. C87_collect_one_character_partial is about names of one character only, the others fail by C87_print_and_collect_fail; C87_included_from_one_character_partial and C87_included_from_and_finalopts_fail say the same for included_from and finalopts.",
 "C88": "The property as wished, that files are right with the default dependencies of dex, is false: C88_dex_stale_refuted. C88_files_are_right assumes that commands read only the files they name as input, and do write their target.",
 "C89": "The property as wished, that every program is made with its own options, is false when two programs compile a common source in one build directory: C89_shared_source_refuted. C89_same_object is about calls without submodules and qt_moc. static_and_shared always declares the objects twice, so it is never in order, and C82 to C84 do not cover it; C89_last_rule_counts and C89_first_rule_if_existing say what its registry holds.",
 "C90": "The property as wished, that the meaning of a word depends on the script only, is false: C90_word_depends_on_disk_refuted. The other theorems are about commands that make or clean a declared file or file set; clr is in C90_clr_of_a_file and C90_clr_spares_sources; the words recurse_update, update, build and the like are covered by C90_only_what_is_asked only. cf_default_action asks that the action is not the name of a file or directory of the script.",
 "C91": "The property as wished, that the next build is right whatever killed commands leave behind, is false: C91_half_written_output_refuted. The signal strikes while the event loop waits (interrupted), or in a worker coroutine between two statements before task_done (caught); inside a statement, or while the script is read, is not modelled. A call still running either comes to its end, never begins, or its commands are killed, in one go each.",
 "C92": "The histories and hypotheses are those of C82 and C84, with commands instead of builds and with cleaning commands. A list command that is killed leaves an empty list or nothing (cut lists: C82_cut_lists_refuted). Idleness asks that no forced rule and no missing source is needed, as in C84.",
 "C93": "Exact contents, no duplicates and order of the files found, for all trees (os.walk is modelled; links to directories are not entered). hide is compared with the whole path, so C93_anywhere_refuted: a project below a directory whose name contains hide loses all its scripts; C93_extension_refuted: backups such as x.g.py~ are executed too. The scripts that are started must not start others (C93_scripts_started); fnmatch is modelled without brackets (C93_patterns), and a parameter of the theorems about headers.",
 "C94": "Composition of C93 (which files), C47/C75 (what is declared) and C86/C85 (what commands leave). The places are absolute, the script is in order (C77) and its functions read only their inputs. C94_removed_header_stays_refuted: a successful install after the deletion of a header leaves its old copy below the include directory.",
 "C95": "C77-C80 for cores other than the default core, where directories are registered by dirkeep under relative names and has() adds names. C95_existing_dependency_refuted: expand_globs indexes existing dependencies in the default core only, so recurse_update raises for a target of a MakeCore that depends on an undeclared existing file. C95_directory_name_refuted: dirkeep takes a file set called like the missing directory for the directory.",
 "C96": "C79 and C80 for processes that run routines. Proved by taking routines for file sets: up to the end of the first routine, such a process is a build of that other script. C96_after_another_routine_refuted: what is out of date is decided before anything runs, so a routine that writes a source makes a file stale which a second routine, depending on both, then finds out of date although nothing failed.",
 "C97": "C79 and C80 for processes that call core.do more than once. Cleanings (core.do(x, 'clean')) may come in between. The main invariant is that what the file cache says about every registered target is true between builds, also after cleanings and after builds that returned False (a build in which an update method raised does not return, C11). Assumed: runtime['threads'] is set and files are not edited between the builds of one process (C37_second_build_refuted shows that such edits are missed).",
 "C98": "False for every core but the default one, whatever the call: prepare_targets ignores its argument core, so programs and libraries are registered in the default core only, and of objects the given core gets a file set whose objects it does not know, so that no build of it can start. With the default core the call is the one that C77 to C92 are about.",
 "C99": "Proved by simulation in both directions: all other theorems about builds, whose calls act at one moment, therefore also hold for calls that take time. Directories, sources and file sets are handled at one moment. Processes of fine_history end or are killed while no rule is running; those of fine_cxx_history are killed at any moment and leave old contents, nothing or junk (empty lists). C99_declarations_matter: without the assumption on reads the simulation fails.",
 "C100": "The part about hanging is false: two processes that begin at once both find a directory missing, os.makedirs raises in the second one and it waits for ever (C100_two_at_once_refuted); proved is that a process goes on unless something was raised in it. Calls read and write at one moment here; if they take time, an edit between a rule's reading and its end is never noticed again (C100_edit_during_a_call_refuted). Dates of changed files are assumed to be later than all earlier ones.",
 "C101": "Belonging to a target includes the directories it needs: two processes whose files are all different but need a common missing directory do disturb each other, the second one waits for ever (C101_different_files_refuted). Calls happen at one moment each.",
 "C102": "Only for functions made by def or lambda: other objects given to routine(...) are dropped silently (C102_callables_refuted, C102_other_objects_are_dropped), and the keywords core and dependable, which the comment of routine names, raise TypeError (C102_documented_refuted). The names of the routines are relative (a routine named like an absolute path may be replaced by a source).",
 "C103": "Of licant itself the property is false: four names of __all__ do not exist, so from licant import * raises AttributeError (C103_licant_star_refuted, C103_missing_names). The lists of names are transcribed from __init__.py.",
 "C104": "Generalises C101 from declared inputs to a set of files that contains all that the commands look at. For C++ scripts the set is that of the headers listed in states of the undisturbed build, whose commands are assumed not to fail. Keeping off the files of the targets alone is not enough, since headers belong to no target before the first list is read (C104_headers_refuted). Calls happen at one moment each.",
 "C105": "The order of the list is that of the sort keys, which a module gets anew each time it is asked for explicitly. The first part holds for requests that name an implementation (C105_explicit_requests_partial); for requests by name it is false (C105_by_name_refuted), and the weaker order of C105_requests_by_name holds.",
 "C106": "C46 is about sources, objects and the files of Qt; this claim is about all other options, the final include_paths included. For the standards no value may be an object of a class that is itself called str.",
 "C107": "Holds where all requests are by name, except that the root is gone through again when something asks for it (C107_by_name_partial). With requests for implementations a module is gone through once for each path to it: 2(n+1) modules give 2^(n+1)-1 passes (C107_each_once_refuted). C107_what_is_gone_through says exactly what is gone through in general; the passes are those printed under the runtime option trace.",
 "C108": "C108_tools holds for every rule; the prefix is in C108_prefix for compilers, linkers and archivers. For the other tools it is false (C108_binutils_refuted): make_gcc_binutils leaves moc and uic out, so that None is called, and objcopy is the one of the host.",
 "C109": "Programs in C109_one_link, sets of objects in C109_objects, library in C109_library. The sentence about static_and_shared is false when a target is given (C109_two_files_refuted): both libraries are then one file.",
 "C110": "C110_program holds for the depends of the program itself. The last sentence is false for required modules (C110_modules_refuted): their depends are dropped, and not even the objects of their own sources wait for the files."
}