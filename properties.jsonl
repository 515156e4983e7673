{"id": "C01", "title": "A process is started only for a service that is allowed to run", "statement": "Whenever finit forks the main process of a service, task, run or tty, then at that moment the stanza is declared for the current runlevel, is not marked removed, carries no block (not stopped by the user, not crashed, not missing, not conflicting, not in restart delay), its if:<cond> guard holds, it is not a tty during bootstrap, respawning is not inhibited (/mnt/norespawn, /tmp/norespawn) and its command exists.", "quantifier": "every configuration, every interleaving of initctl requests, child exits, timer expiries, condition changes, runlevel changes and reloads, and every main-process start in that history", "why_tests_cant": "tests drive a few fixed scenarios; a forbidden start needs a particular order of timers, exits and requests", "anchors": ["src/service.c:service_step", "src/service.c:service_start", "src/svc.c:svc_enabled"]}
{"id": "C02", "title": "Dependencies gate the launch", "statement": "A stanza leaves the waiting state towards its pre: script or its start only at a moment when every condition in its <...> list is on, no runlevel change or reload is in its stop phase, respawning is not inhibited, and the conflict check found nothing. (False in the stronger form 'the main process is forked only while the conditions are on': conditions are not re-checked after a pre: script or after waiting for a run task.)", "quantifier": "every configuration and every event history", "why_tests_cant": "dependency races depend on when a condition drops relative to script exits and run tasks", "anchors": ["src/service.c:service_step", "src/cond.c:cond_get_agg"]}
{"id": "C03", "title": "Combined condition is the weakest of its members", "statement": "The state of a comma separated condition list is off as soon as one member is off, flux if no member is off and some member is in flux, and on exactly when every member is on; the empty list is on; the order and repetition of members do not matter.", "quantifier": "every list of condition names and every condition store", "why_tests_cant": "tests use one or two conditions; the law is over all lists and all stores", "anchors": ["src/cond.c:cond_get_agg", "src/cond.c:cond_get_path"]}
{"id": "C04", "title": "Reload puts regular conditions in flux and leaves one-shot conditions alone", "statement": "After a reconfiguration every condition that was asserted with a generation reads flux until it is asserted again, one-shot conditions stay on, conditions that were off stay off, and asserting a condition makes it read on. The law holds as long as the 32-bit generation counter does not wrap; at the wrap every condition reads off.", "quantifier": "every store, every condition name, every sequence of assert, clear, one-shot and reload operations", "why_tests_cant": "needs every history of operations and the wrap-around of the counter", "anchors": ["src/cond-w.c:cond_set_noupdate", "src/cond-w.c:cond_set_oneshot_noupdate", "src/cond-w.c:cond_reload", "src/cond.c:cond_get"]}
{"id": "C05", "title": "Conditions are independent of each other", "statement": "Asserting or clearing one condition does not change the state of any other condition, and the condition store behaves like a map from condition names to states under every operation sequence. True for names that fit the path buffer; names that agree on their first 43 characters are the same condition (refuted in general).", "quantifier": "every pair of condition names and every operation sequence", "why_tests_cant": "aliasing needs adversarially chosen long names", "anchors": ["src/cond.c:cond_path", "src/cond-w.c:cond_set_path"]}
{"id": "C06", "title": "At most one main process per service", "statement": "For stanzas that do not detach and are stopped by a signal, finit never has two main processes of one stanza alive at the same time, whatever the order of crashes, restarts, stops and reloads, provided readiness sockets can be created. Every living main process belongs to a registered stanza that is running, paused or stopping and knows its process id, except those of stanzas for runlevel S alone. Refuted when a readiness socket cannot be created and when a stop: script exits with 1.", "quantifier": "every configuration in that class and every event history in which the kernel reports exits of children", "why_tests_cant": "duplicate instances appear only under particular races", "anchors": ["src/service.c:service_start", "src/service.c:service_stop", "src/service.c:service_monitor", "src/service.c:service_step"]}
{"id": "C07", "title": "run stanzas are serialised", "statement": "While a run stanza's process is alive and being waited for, no other main process is started.", "quantifier": "every configuration and history", "why_tests_cant": "depends on all interleavings of starts and exits", "anchors": ["src/service.c:service_start", "src/service.c:service_monitor"]}
{"id": "C08", "title": "A stopping process is eventually force-killed", "statement": "Whenever a stanza with a live process is in the stopping state, a SIGKILL timer with its configured delay is pending, or SIGKILL has been sent since it entered that state, or an initctl request for it has come in since. When the timer runs out SIGKILL is sent to that process and nothing else happens. True for stanzas without a ready: script that are stopped by a signal. Refuted without these exceptions: a second initctl stop, or a ready: script collected while the service is stopping, cancels the pending SIGKILL for good.", "quantifier": "every configuration and history", "why_tests_cant": "timer cancellation races", "anchors": ["src/service.c:svc_set_state", "src/service.c:service_kill", "src/service.c:service_script_del"]}
{"id": "C09", "title": "Stopping sends exactly the configured signal to the right process", "statement": "When a running or paused non-sysv service without stop: script and with a live process is told to stop or restart, finit sends SIGCONT if it is paused, then the configured stop signal to that process, puts the service in the stopping state and arms the kill timer with the configured delay, in this order and before anything else. Whatever the reason, a stanza with a process enters the stopping state only right after its configured signal, its stop: script or its sysv stop command.", "quantifier": "every service record and world state satisfying the hypothesis", "why_tests_cant": "must hold for every state", "anchors": ["src/service.c:service_stop", "src/service.c:svc_set_state"]}
{"id": "C10", "title": "A crashing service is restarted at most restart-max times in a row", "statement": "A service whose process keeps dying is restarted at most its configured maximum number of times, plus once for each crash that has been forgiven since (one every periodic interval while it runs); below the maximum it is restarted when its restart delay is over, and once the maximum is reached it is blocked as crashed and not started again until an initctl request for it or a reload of the configuration. True for maxima up to 127 when every start succeeds; the counter is a signed 8-bit value, so larger maxima are never reached although the manual allows 255 (refuted).", "quantifier": "every maximum and every number of consecutive crashes", "why_tests_cant": "a test would have to crash hundreds of times; the bound is for every maximum", "anchors": ["src/service.c:service_retry"]}
{"id": "C11", "title": "A service stopped by the user stays stopped", "statement": "After initctl stop the service is not started again until initctl start, restart or reload of it, or a configuration reload re-registers it.", "quantifier": "every history that contains none of these events", "why_tests_cant": "must hold over arbitrary histories of timers, exits, conditions and runlevel changes", "anchors": ["src/api.c:stop", "src/api.c:start", "src/service.c:service_register", "src/service.c:service_step"]}
{"id": "C12", "title": "Signals are never sent to PID 1, to everybody, or to the wrong process group", "statement": "Every kill(2) issued by service supervision targets a process id greater than 1, or the process group of one, provided forks succeed and pid files name real processes. Refuted in general: a failed fork of a pre: script followed by a restart timer and a reload issues kill(-1, SIGSTOP).", "quantifier": "every configuration, history and fork failure", "why_tests_cant": "requires fault injection at exactly the right point", "anchors": ["src/service.c:service_step", "src/service.c:service_pre_script", "src/service.c:service_retry", "src/service.c:service_kill"]}
{"id": "C13", "title": "Stanza life-cycle follows the documented state machine", "statement": "Every state change of a stanza is an edge of the documented life-cycle graph, or one of the enumerated exceptions (restart-timer and pid-file promotion to running).", "quantifier": "every configuration and history", "why_tests_cant": "tests only visit some edges; absence of other edges is universal", "anchors": ["src/service.c:service_step", "src/service.c:svc_set_state", "doc/state-machine.md"]}
{"id": "C14", "title": "Runlevel specification denotes the listed levels", "statement": "A runlevel specification without '!' denotes exactly the digits 0-9 and S/s written before the closing bracket, a leading '!' denotes all of 1-9 and S except the listed ones, no specification denotes 2, 3 and 4; levels outside 0..9,S never become members.", "quantifier": "every specification string and every level", "why_tests_cant": "infinitely many strings", "anchors": ["src/conf.c:conf_parse_runlevels", "src/svc.h:svc_in_runlevel"]}
{"id": "C15", "title": "initctl addressing selects exactly the named stanzas", "statement": "NAME selects all instances of NAME, NAME:ID exactly the instance with that id, JOB all instances with that job number and JOB:ID the first of them with that id; a request with several words acts on each word independently and in order; unknown names act on nothing. Two stanzas share a job number exactly when they run the same program. (Refuted: a name that starts with a digit is taken for a job number, so that another stanza is acted on; numbers beyond an int wrap around and numbers beyond a long make finit loop for ever.)", "quantifier": "every set of stanzas, every history of registrations and every request whose names do not start with a digit and whose job numbers fit an int", "why_tests_cant": "unbounded inputs, and a non-terminating loop cannot be observed by a passing test", "anchors": ["src/svc.c:svc_parse_jobstr", "src/svc.c:tokstr", "src/svc.c:svc_new", "src/svc.c:svc_find", "src/svc.c:svc_find_by_jobid", "src/util.c:sanitize", "src/api.c:do_find"]}
{"id": "C16", "title": "Conflicting services are not started together", "statement": "A service with conflict:a,b,... is not started while any of the named services is active. True for a single name; with several names only the first registered one is looked at (refuted in general).", "quantifier": "every conflict list and registry", "why_tests_cant": "needs all combinations of registered and active names", "anchors": ["src/svc.c:svc_conflicts"]}
{"id": "C17", "title": "if: guards mean what they say", "statement": "if:<a,!b> admits a stanza exactly when every plain condition is not off and every negated condition is not on; if:name,!name at load time admits it exactly when every plain name is registered and every negated one is not. (Refuted for guards of 130 characters or more, which are cut short.)", "quantifier": "every guard of less than 130 characters and every registry/condition store", "why_tests_cant": "all guards and stores", "anchors": ["src/svc.c:svc_ifthen"]}
{"id": "C18", "title": "Instance identity is unique", "statement": "Registering stanzas never yields two records with the same NAME:ID; re-registering an existing NAME:ID updates that record in place and leaves all other records untouched; lookups return the record that was registered.", "quantifier": "every sequence of registrations and removals", "why_tests_cant": "histories of any length", "anchors": ["src/svc.c:svc_new", "src/svc.c:svc_find", "src/service.c:service_register"]}
{"id": "C19", "title": "run/task result conditions reflect the exit status", "statement": "When a run or task completes, <TYPE/NAME/success> is asserted exactly when it exited normally with status 0 and <TYPE/NAME/failure> otherwise, and neither is asserted at any other time. (Proved for run/task stanzas without scripts of their own. Refuted with a pre: script: a task whose pre: script was killed and that never ran can be reported as a success. Also refuted: that success and failure never hold together.)", "quantifier": "every exit status and every history", "why_tests_cant": "all 2^16 statuses and all histories", "anchors": ["src/service.c:svc_set_state", "src/service.c:service_monitor"]}
{"id": "C20", "title": "Stop phase precedes start phase on runlevel change and reload", "statement": "During a runlevel change or reload no stanza leaves the waiting state until every stopping process has been collected. (Stanzas that already passed the waiting state when the change begins are not held back: refuted for those.)", "quantifier": "every configuration and history", "why_tests_cant": "interleavings of slow stops with other events", "anchors": ["src/sm.c:sm_step", "src/service.c:service_step", "src/svc.c:svc_stop_completed"]}
{"id": "C21", "title": "Runlevel machine bookkeeping", "statement": "The current and previous runlevel are those of the last change; the runlevel only changes to the level asked for last, a level is asked for only by a request or at the end of booting, and is one of 0-9; a shutdown is executed only in runlevel 0 or 6 (or when the emergency timer of a shutdown runs out).", "quantifier": "every history", "why_tests_cant": "all histories", "anchors": ["src/sm.c:sm_step", "src/sm.c:sm_runlevel", "src/sm.c:sm_reload"]}
{"id": "C22", "title": "Requests are refused in runlevels S, 0 and 6", "statement": "In runlevels S, 0 and 6 the requests start, stop, restart, reload, reboot, halt, poweroff and suspend change nothing; a runlevel request is ignored in 0 and 6 and only changes the configured level in S.", "quantifier": "every request and every state", "why_tests_cant": "every request in every state", "anchors": ["src/api.c:api_cb", "src/private.h:IS_RESERVED_RUNLEVEL"]}
{"id": "C23", "title": "Signals to PID 1 request the documented action", "statement": "SIGHUP does what `initctl reload' does, SIGUSR2 what `initctl poweroff' does and SIGTERM what `initctl reboot' does, in every state; all are ignored in runlevels S, 0 and 6. (SIGUSR1 only restarts the API socket.)", "quantifier": "every signal and runlevel", "why_tests_cant": "finite but never exercised exhaustively; combined with every state", "anchors": ["src/sig.c"]}
{"id": "C24", "title": "Reboot, halt and poweroff select the right final action", "statement": "After reboot/halt/poweroff through the API or runlevel 0/6 the recorded final action is the requested one and the requested runlevel is 6 for reboot and 0 otherwise.", "quantifier": "every sequence of requests", "why_tests_cant": "sequences of requests", "anchors": ["src/api.c:do_reboot", "src/api.c:api_cb", "src/sig.c"]}
{"id": "C25", "title": "Logins are disabled in single-user mode and while shutting down", "statement": "Whenever finit is idle in runlevel 1, 0 or 6 the no-login file exists, and in every other level it does not. (Refuted: entering one such level from another removes the file.)", "quantifier": "every sequence of runlevel changes", "why_tests_cant": "sequences of changes", "anchors": ["src/sm.c:nologin"]}
{"id": "C26", "title": "Later configuration overrides earlier by file name", "statement": "The configuration files read are exactly those files, in directory and name order, that are not overridden: a file in the system directories is skipped exactly when a later directory lists the same base name; the user's files are never skipped.", "quantifier": "every content of the four directories", "why_tests_cant": "all file lists", "anchors": ["src/conf.c:conf_reload"]}
{"id": "C27", "title": "Template instantiation replaces every %i", "statement": "Loading foo@bar.conf replaces every occurrence of %i by bar and changes nothing else, for instance names without a percent sign.", "quantifier": "every line and instance name", "why_tests_cant": "unbounded strings", "anchors": ["src/conf.c:instantiate", "src/conf.c:is_template"]}
{"id": "C28", "title": "Resource limits change only the addressed limit", "statement": "rlimit [soft|hard] RESOURCE VALUE changes exactly the addressed field(s) of the addressed resource; malformed lines change nothing.", "quantifier": "every line and limit table", "why_tests_cant": "all lines", "anchors": ["src/conf.c:conf_parse_rlimit"]}
{"id": "C29", "title": "Condition list in a stanza is parsed faithfully", "statement": "<a,b> and <!a,b> yield exactly the conditions a and b; the '!' switches SIGHUP support off for a service and marks a run/task as run-once; a too long list (192 characters) leaves the previous list in place.", "quantifier": "every condition string", "why_tests_cant": "all strings", "anchors": ["src/conf.c:conf_parse_cond"]}
{"id": "C30", "title": "Environment assignments are trimmed key/value pairs", "statement": "key=value lines yield the key and value with surrounding white space removed and one level of quotes removed; everything after the first '=' belongs to the value.", "quantifier": "every line", "why_tests_cant": "all strings", "anchors": ["src/conf.c:conf_parse_env", "src/util.h:unquote"]}
{"id": "C31", "title": "PID file arguments denote the documented paths", "statement": "pid:NAME, pid:/path, pid:!NAME and pid:!/path select the documented pid file path and ownership.", "quantifier": "every argument that fits the buffers", "why_tests_cant": "all strings", "anchors": ["src/pid.c:pid_file_parse", "src/pid.c:pid_file_set"]}
{"id": "C32", "title": "Signal names mean the right signals", "statement": "halt:NAME and initctl signal accept exactly the names of signal(7), with or without SIG and in any case, and translate them to the right number; number to name and back is the identity; finit sends only signals 1 to 31. (Refuted: the two commands accept the same names.)", "quantifier": "every string and every number", "why_tests_cant": "table completeness and rejection of all other strings", "anchors": ["src/sig.c:sig_num", "src/sig.c:sig_name", "src/util.c:str2sig", "src/util.c:sig2str", "src/service.c:parse_sighalt", "src/initctl.c:do_signal", "src/api.c:do_signal"]}
{"id": "C33", "title": "Kill delay and script timeouts stay in range", "statement": "kill:N sets the delay to N seconds when 1<=N<=300 and leaves it unchanged otherwise; pre:/post: timeouts are accepted exactly for 0..3600 seconds.", "quantifier": "every argument", "why_tests_cant": "all strings", "anchors": ["src/service.c:parse_killdelay", "src/service.c:parse_script"]}
{"id": "C34", "title": "Hook conditions appear exactly when the hook phase has been reached", "statement": "The condition of a hook phase (hook/mount/all ... hook/sys/shutdown) is on exactly when that hook has been run since conditions became available, and otherwise off: never in flux, not affected by reloads, other hooks or other conditions. Hooks outside that range set no condition.", "quantifier": "every sequence of hook runs, callbacks, reloads and other uses of conditions", "why_tests_cant": "all sequences", "anchors": ["src/plugin.c:plugin_run_hook", "src/plugin.h"]}
{"id": "C35", "title": "A dead process is accounted exactly once", "statement": "Collecting a child clears it from the one record that owned it, leaves the pid of all other records alone (unless they get a new process meanwhile), and a second report of the same pid changes nothing unless the number was used again.", "quantifier": "every registry, pid and status", "why_tests_cant": "all registries and histories", "anchors": ["src/service.c:service_monitor", "src/svc.c:svc_find_by_pid"]}
{"id": "C36", "title": "Size arguments are multiplied by their suffix", "statement": "N, Nk, NM and NG denote N, N*1000, N*1000^2 and N*1000^3 as long as the product fits an int; otherwise the result wraps (refuted in general).", "quantifier": "every string", "why_tests_cant": "all numbers", "anchors": ["src/util.c:strtobytes"]}
{"id": "C37", "title": "Log rotation keeps at most the configured number of files and never reorders them", "statement": "After any sequence of writes and rotations exactly the newest configured number of old versions are there, each under its number, newest first. (Refuted for two versions with gzip: a stale FILE.2.gz stays for ever.)", "quantifier": "every sequence of writes and rotations, every count, with and without gzip", "why_tests_cant": "all counts and gaps", "anchors": ["src/logrotate.c:logrotate"]}
{"id": "C38", "title": "Network conditions follow interface state", "statement": "After any sequence of messages from the kernel, lost messages, reloads and other conditions, net/IF/exist, up and running are on exactly when the last message about IF said so, and messages for IF never change the conditions of another interface. net/route/default follows the last message about a default route. (Refuted: that it says whether there is a default route.)", "quantifier": "every sequence of netlink reads, overruns with dumps, reloads and other uses of conditions", "why_tests_cant": "all sequences", "anchors": ["plugins/netlink.c"]}
{"id": "C39", "title": "Device conditions are reference counted", "statement": "A device condition is tracked while at least one stanza uses it; it is on from the creation of the node until its removal and dropped with its last user. (Refuted: never dropped; off when the node was there first or came with its directory; in flux after a reload.)", "quantifier": "every sequence of registrations, removals, inotify events and reloads", "why_tests_cant": "leak needs long histories", "anchors": ["src/devmon.c"]}
{"id": "C40", "title": "No service record is used after it was freed", "statement": "When a stanza is removed from the configuration its memory is given back; no timer that was set for it and no child that ends later reaches that memory. Holds when no stanza has a ready: script and none is for runlevel S alone; each of the two restrictions is needed (a ready: script can outlive its removed service; a task for runlevel S with a pre: script can be given up with its SIGKILL timer set).", "quantifier": "every history of stanzas coming and going, children ending and timers firing, in the class of configurations without circular dependencies, and every moment at which the memory is given back", "why_tests_cant": "needs sanitiser plus exact timing", "anchors": ["src/service.c:service_script_del", "src/service.c:service_unregister", "src/svc.c:svc_gc"]}
{"id": "C41", "title": "A service reported running has a process", "statement": "A stanza in the running state has a live process, and the end of that process takes it out of that state at once. Two exceptions, both shown to happen: its restart timer, set before a reload or a wait, made it running without a process; or it lost the right to run (its if: condition) while running, and then its process ended.", "quantifier": "every history", "why_tests_cant": "race between restart delay, reload and slow stops", "anchors": ["src/service.c:service_retry", "src/service.c:service_register"]}
{"id": "C42", "title": "Command line words are split with quotes respected", "statement": "Splitting a stanza yields words separated by blanks, never splits inside quotes, and consumes the whole line.", "quantifier": "every line", "why_tests_cant": "all strings", "anchors": ["src/service.c:parse_args", "src/service.c:parse_cmdline_args"]}
{"id": "C43", "title": "Path normalisation cannot be made to climb", "statement": "A normalised pid file path never contains '/../' or '//' and never starts with '../'; a path that needs no normalisation is unchanged. (A '..' at the very end may survive, and an absolute path may become relative.)", "quantifier": "every path string", "why_tests_cant": "all strings, several interacting rewriting loops", "anchors": ["src/util.c:de_dotdot", "src/pid.c:pid_file_set"]}
{"id": "C44", "title": "The argument vector of a program is the words of its command line", "statement": "A started program gets the command and the space separated words of its stanza, in order, provided there are at most 62 of at most 63 characters; longer ones are cut, later ones dropped, arguments with unterminated quotes dropped.", "quantifier": "every command line whose words do not start with a quote", "why_tests_cant": "all strings and counts", "anchors": ["src/service.c:parse_cmdline_args"]}
{"id": "C45", "title": "A stanza without name: is named after its program", "statement": "The name is the last component of the program's path; only a program in the root directory keeps its slash.", "quantifier": "every program path", "why_tests_cant": "all strings", "anchors": ["src/service.c:parse_name"]}
{"id": "C46", "title": "What waits for a run stanza waits for a living process", "statement": "While other stanzas may not start because a run stanza is being run, that stanza is registered and its process is alive. Exception, refuting the property in general: a run stanza for runlevel S alone with a pre: script is given up as soon as that script ends; when its process has ended no service is started any more.", "quantifier": "every history in the class of C06", "why_tests_cant": "depends on the order of child ends, start attempts and deletions", "anchors": ["src/service.c:service_monitor", "src/service.c:service_start", "src/svc.c:svc_clean_bootstrap"]}
{"id": "C47", "title": "Between events nothing is left to do", "statement": "Whenever finit waits for the next event, and no runlevel change or reload is being carried out: a stanza that may run and has all its conditions is not halted, waiting or paused (unless a step of all stanzas is scheduled already); a stanza that must not run, or lost a condition, is down or its process was asked to end and has not ended yet; a running stanza has all its conditions. Exceptions, refuting the property in general: stanzas with if: guards or conflicts, condition names of more than 43 characters, and what the restart timer made running.", "quantifier": "every history of events in the class of C06 without conflict stanzas, without inhibited starts and with condition names of less than 43 characters, and every stanza without an if: guard", "why_tests_cant": "a missed wake-up shows only for one order of events; it must be excluded for all of them", "anchors": ["src/service.c:service_step", "src/cond-w.c:cond_update", "src/sm.c:sm_step", "src/service.c:service_worker"]}
{"id": "C48", "title": "A reload disturbs only what changed", "statement": "Reading the configuration again changes neither state nor process of any stanza. Marked as changed are the stanzas whose entry was edited, the new ones, and those that wait for a stanza that will be restarted; to be deleted are only those for which the configuration has no entry that can be taken; all others keep their settings and their marks. Later SIGHUP is sent only to a process whose stanza is marked, or was asked to reload, since it was started or last told (or whose halt: signal is SIGHUP); and a running stanza stops running only because a condition is being re-established, its process ended, it may not run, it lost a condition, it is marked and cannot be reloaded, or by request. When the reload is over no running stanza is still marked: each was restarted or told. Exceptions, refuting stronger forms: a stanza that waits for one that waits for an edited one is not marked when it stands before it in the configuration; and when the configuration is read again, unedited, while a marked service is paused, its mark is taken off, and it goes on running without ever being told of the edit.", "quantifier": "every history of events (what is read may be any configuration); the last part for histories in the class of C06; nobody sends SIGHUP by hand", "why_tests_cant": "a service restarted without need shows only for particular edits, orders of stanzas and earlier reloads", "anchors": ["src/conf.c:conf_reload", "src/service.c:service_register", "src/service.c:service_update_rdeps", "src/service.c:service_reload", "src/service.c:service_step", "src/svc.c:svc_mark"]}
{"id": "C49", "title": "Readiness is announced when, and only when, it was reported", "statement": "When a service with a pid file writes it, and is not being stopped, pid/NAME is asserted before anything else, and service/NAME/ready in the same event; a service that notifies is announced ready as soon as it does. When the pid file goes, pid/NAME and service/NAME/ready are withdrawn; when a deleted stanza is disposed of, so is its pid/NAME, unless a stanza of that name is registered again. Nothing else asserts a condition: each assertion is a readiness report, a pid file event of a service that is not being stopped, the user's, or (by path) the confirmation after a reload or a pause, which only running and unchanged stanzas get. Exceptions, refuting stronger forms: a service that cannot report its readiness and whose command line was edited is announced ready while it is being stopped; and any reload asserts pid/NAME for a notifying service that never wrote a pid file.", "quantifier": "every history of events, the statements on what follows in the same event and the only-when part for histories in the class of C06", "why_tests_cant": "an announcement too many, or one that comes for a stanza in the wrong state, shows only in particular orders of pid file events, reloads and stops", "anchors": ["plugins/pidfile.c:pidfile_callback", "plugins/pidfile.c:pidfile_reconf", "src/service.c:service_ready", "src/service.c:service_notify_cb", "src/service.c:service_notify_reconf", "src/service.c:service_step", "src/svc.c:svc_gc"]}
{"id": "C50", "title": "Requests take effect at once", "statement": "When the user asks for a halted stanza to be started, restarted or reloaded, and nothing but an earlier stop, crash or the like keeps it from running, the first thing that happens is that it leaves the halted state. When the user asks for a running stanza to be reloaded, the first thing that happens is SIGHUP to its process, if it takes SIGHUP; if it cannot be reloaded, or its command line was edited, its stop signal is sent and the timer for SIGKILL is armed.", "quantifier": "every history of events, and every stanza in every runlevel but S, 0 and 6; reload: no runlevel change is in progress", "why_tests_cant": "what a request does depends on the state the stanza was left in by everything that happened before", "anchors": ["src/api.c:do_start", "src/api.c:do_restart", "src/api.c:do_reload", "src/service.c:service_step", "src/service.c:service_reload"]}
{"id": "C51", "title": "What is taken out of the configuration goes away", "statement": "When bootstrap is over and no change of runlevel and no reload is in progress, every registered stanza was in the configuration as it was last read (or is built in), and none is still waiting to be deleted. Every living main process belongs to such a stanza, but for processes of stanzas for runlevel S alone: a reload does not end while something that was taken out still runs.", "quantifier": "every history of events in the class of acyclic, unambiguous configurations; for processes: stop by signal, and readiness sockets can be created", "why_tests_cant": "a stanza can be taken out in any state, with its process starting, stopping, crashed or ignoring signals, and during a change of runlevel", "anchors": ["src/sm.c:sm_step", "src/service.c:service_stop", "src/svc.c:svc_mark_dynamic", "src/svc.c:svc_clean_dynamic", "src/service.c:service_unregister", "src/conf.c:conf_reload"]}
{"id": "C52", "title": "Bootstrap waits for its tasks, but not for ever", "statement": "Bootstrap is left because everything is complete only when each run and task stanza that may start in runlevel S, has no active conflict and does not itself wait for the end of bootstrap, has been started and its process has ended (or was declared with <!> not to be waited for). It is left because of the timeout only at the 121st check (one per second), and after 121 checks it has been left whatever the tasks do. It is left at the first check that finds everything complete, and once; the same check then asks for the runlevel of the kernel command line, or else the configured one, and never asks for one before.", "quantifier": "every history of events, without restriction", "why_tests_cant": "tasks can end, fail, hang, be stopped or be taken out of the configuration at any moment between checks", "anchors": ["src/sm.c:sm_check_bootstrap", "src/service.c:service_completed", "src/service.c:service_runtask_clean", "src/conf.c:conf_parse_cond", "src/sm.c:sm_runlevel"]}
{"id": "C53", "title": "A tmpfiles.d line does what it says, and nothing else", "statement": "With --create, a line makes the directory, file, pipe, device, link or copy its type asks for at its path, with the mode, user, group, content, target or device number it gives or the documented defaults; what is there already is left as it is unless the type truncates or carries a '+'; nothing is removed but, with a '+', what is at the path. With --remove, nothing is made and exactly what r, R and D lines name is removed. No file is changed that is not the path of the line or matches it.", "quantifier": "every line of up to six words and an argument, every state of the file system, both options", "why_tests_cant": "lines are free text and what they do depends on what is in the file system at that moment", "anchors": ["src/tmpfiles.c:tmpfiles", "src/tmpfiles.c:parse_mm", "src/tmpfiles.c:is_dir_empty", "src/tmpfiles.c:rmrf", "src/tmpfiles.c:glob_do"]}
{"id": "C54", "title": "The argument of a tmpfiles.d line is written with its escapes replaced", "statement": "What is written to the file is the argument with every escape sequence (letters, octal, hexadecimal) replaced by the byte it stands for, every other character as it is; the argument is read up to its end and not beyond.", "quantifier": "every argument", "why_tests_cant": "the escapes overlap and end at places that depend on the next characters; an over-read needs one particular last character", "anchors": ["src/tmpfiles.c:write_arg", "src/tmpfiles.c:write_hex", "src/tmpfiles.c:write_num"]}
{"id": "C55", "title": "Of the tmpfiles.d files of one name exactly the last is read", "statement": "Among all files found, in the order of their directories, a file is read if and only if no later one has the same name; so one file of every name is read, and only one, and a file in /etc replaces its namesakes.", "quantifier": "every list of files", "why_tests_cant": "any number of files and namesakes in any directories", "anchors": ["src/tmpfiles.c:main"]}
{"id": "C56", "title": "run-parts runs every script of a directory once, in the order of the names", "statement": "Of the entries of the directory exactly those are run that are executable, no directory, no backup file and, if so asked, called S... or K...; one after the other in the order of their names, with the argument given or, for S and K names with a number, start and stop. The result is 0 if and only if all were successful; so is the exit status of the runparts program. The shell takes the command as that file with that argument.", "quantifier": "every directory, every argument, every behaviour of the scripts, which may change the files as they run, less than eight million entries", "why_tests_cant": "scripts change what later ones find; the names, their order and the exit statuses are the user's", "anchors": ["src/runparts.c:run_parts", "src/runparts.c:main"]}
{"id": "C57", "title": "Hook scripts are run once at their hook, and told which it is", "statement": "When a hook point with scripts is reached the scripts in the directory of its name are run, once, with FINIT_HOOK_NAME set to its name and, from hook/sys/shutdown on, FINIT_SHUTDOWN to what the system is brought down for; all other variables are as they were.", "quantifier": "every hook point, before and after the plugins are loaded and conditions are available, every environment", "why_tests_cant": "two mechanisms run the same scripts, and which one does depends on the phase of the boot", "anchors": ["src/plugin.c:plugin_script_run", "src/plugin.c:plugin_run_hook", "src/runparts.c:run_env", "plugins/hook-scripts.c", "src/sig.c:do_shutdown"]}
{"id": "C58", "title": "The output of a service goes where its log option says", "statement": "With a log option the output of a service goes to /dev/null, to the console, to the file it names or else to the system log, with the tag and priority it names last or the defaults name:id and daemon.info; without the option it is not logged. The same holds after the stanza was edited. No option makes process 1 crash.", "quantifier": "every list of options in every spelling, every earlier registration, each of the programs that can take the output", "why_tests_cant": "options combine freely and the record they are kept in outlives the registration", "anchors": ["src/service.c:parse_log", "src/service.c:redirect", "src/service.c:lredirect", "src/service.c:service_register"]}
{"id": "C59", "title": "A message is logged with the facility and level asked for", "statement": "A priority is FACILITY.LEVEL or LEVEL, by the names of syslog, and sets exactly what it names; everything else is refused. A message that starts with <0> to <7> is logged with that level in the same facility, without the prefix; every other message as it is. A message on the command line is logged whole, or cut, but never overruns its buffer.", "quantifier": "every priority string, every message, every list of arguments", "why_tests_cant": "strings are free text; an over-run needs arguments of particular lengths", "anchors": ["src/logit.c:parse_prio", "src/logit.c:parse_level", "src/logit.c:main", "src/log.c:log_parse"]}
{"id": "C60", "title": "The settings of a control group are written to the files of that group", "statement": "Each setting CONTROLLER.PROPERTY:VALUE of a group or service is written, whole and in order, to the file of that name in the directory of the group, mem standing for memory, and no setting reaches a file outside that directory. A service runs in a directory of its own in the group it names, or in system, with exactly the settings of its present stanza.", "quantifier": "every list of settings, every text, every group name and earlier registration", "why_tests_cant": "the text is free, and a path that leads out of the directory needs a particular mix of dots, slashes and colons", "anchors": ["src/cgroup.c:cgset", "src/cgroup.c:group_init", "src/cgroup.c:cgroup_service", "src/service.c:parse_cgroup"]}
{"id": "C61", "title": "After a reload the control groups are those of the configuration", "statement": "After every history of configurations, a reload makes each group that has a line, with the settings of its last line, and the groups init, system and user. It removes exactly the groups that earlier configurations had and the new one does not have; init, system and user are never removed.", "quantifier": "every sequence of configurations, every outcome of the removals", "why_tests_cant": "what is removed depends on all earlier configurations and on which removals failed", "anchors": ["src/cgroup.c:cgroup_mark_all", "src/cgroup.c:cgroup_add", "src/cgroup.c:cgroup_cleanup", "src/cgroup.c:cgroup_del", "src/cgroup.c:cgroup_config", "src/conf.c:conf_parse_cgroup"]}
{"id": "C62", "title": "The condition sys/pwr/ac tells whether there is mains power", "statement": "Started with any set of power supplies, and after any sequence of kernel events, the condition sys/pwr/ac is set if and only if a mains supply is online or there is none; no event corrupts memory.", "quantifier": "every set of supplies, every sequence of kernel events of any content", "why_tests_cant": "the daemon counts events; that the count stays right depends on all of them", "anchors": ["src/keventd.c:init", "src/keventd.c:main", "src/keventd.c:is_ac", "src/keventd.c:check_online"]}
{"id": "C63", "title": "A tty line starts the getty it describes on the devices it names", "statement": "A tty line runs the getty program it names, or else finit's own, with the other words of the line as arguments in their order, on the device named first, or for @console once on each console of the kernel with the device in place of @console. The words noclear, nowait, nologin and passenv may be anywhere and have their effect. Each device has its own service, named after it, also after a reload; a line without a device is refused.", "quantifier": "every line of any words in any order, every set of programs, device nodes and consoles", "why_tests_cant": "the meaning of a word depends on which programs and devices exist, and on the words before it", "anchors": ["src/tty.c:tty_parse_args", "src/tty.c:tty_canonicalize", "src/tty.c:tty_atcon", "src/service.c:service_register", "src/svc.c:svc_find_by_tty"]}
{"id": "C64", "title": "getty shows the issue file with its escapes replaced, then the prompt", "statement": "Before each login finit's getty shows the text of the issue file, or a greeting if there is none, with every escape replaced by what it stands for, everything else unchanged, and then the node name and the prompt. Escapes about the distribution are taken from os-release, the version falling back to the code name; without os-release, and on Alpine, they stand for what uname says. What is shown never depends on anything else.", "quantifier": "every issue file, every os-release, every machine and terminal", "why_tests_cant": "a test shows some escapes of some distribution; a missing key may happen to show nothing when the memory is clean", "anchors": ["src/getty.c:issue", "src/getty.c:parseln", "src/getty.c:osrel"]}
{"id": "C65", "title": "The name typed at the prompt is what login gets", "statement": "The first line typed that is not blank is handed to login whole and never as an option, whatever it begins with; blank lines prompt again, and login is not started before a line is complete. A line that is too long is cut and does no harm.", "quantifier": "every sequence of characters typed, every limit on the length of login names", "why_tests_cant": "the boundary is one character beyond the limit of the system, and what is overwritten depends on the stack", "anchors": ["src/getty.c:get_logname", "src/getty.c:exec_login", "src/getty.c:getty"]}
{"id": "C66", "title": "reboot, halt, poweroff and shutdown end the system the way they are asked to", "statement": "The command does what the last option asks for, or else what its name says: the system ends by a reboot, halted or powered off, in the runlevel for it and at the latest after the time given. Where init does not answer it is told by a signal instead, to the same effect; with --force or in a rescue shell the kernel is told directly. An unknown option or a wrong time does nothing, suspend does not end the system, and the command learns whether its request was accepted.", "quantifier": "every name of the command, every sequence of options, every state of init: running, changing runlevel, or not answering", "why_tests_cant": "the request and the signal that follows it race with the state machine; a test cannot halt the machine it runs on in each state of init", "anchors": ["src/reboot.c:reboot_main", "src/reboot.c:transform", "src/api.c:do_reboot", "src/initctl.c:do_cmd", "src/sig.c:sigusr2_cb", "src/sig.c:sigterm_cb", "src/sm.c:sm_runlevel"]}
{"id": "C67", "title": "utmp tells what happened last on each line, wtmp everything that happened", "statement": "After any history of starts, prompts, logins and ends on any terminals, utmp has one record of each line used, telling the process and the user there now, and one record of the runlevel telling the last change; records of different lines do not disturb each other, and no one is shown on a line after the session has ended. wtmp gets a record of every event, with its line, and nothing in it is changed.", "quantifier": "every history of events on any number of terminals with any names", "why_tests_cant": "which records collide depends on the names of all terminals in use together", "anchors": ["src/utmp-api.c:utmp_set", "src/utmp-api.c:set_getty", "src/utmp-api.c:utmp_set_runlevel", "src/utmp-api.c:utmp_set_dead", "src/exec.c:utmp_set_init", "src/service.c:service_cleanup"]}
{"id": "C68", "title": "At shutdown every process left is told to exit and then killed, but for those to be spared", "statement": "When the system ends each process that is still there is told to exit, and killed if it is still there after the wait. The kernel's own processes, init, processes whose name begins with @, debuggers and initctl get no signal, and nobody else is spared.", "quantifier": "every set of processes at the end and after the wait, with any command lines", "why_tests_cant": "whether a process is spared depends on any text in its command line, and on what else runs at that moment", "anchors": ["src/sig.c:do_iterate_proc", "src/sig.c:kill_cb", "src/sig.c:do_wait", "src/sig.c:do_shutdown"]}
{"id": "C69", "title": "At shutdown everything that can be unmounted is, but for what must be kept", "statement": "The unmounting ends, and then nothing is mounted that could be unmounted, in whatever order and however deep file systems were mounted over each other; the root, the kernel's file systems and /run with what is below are not touched. All tmpfs are unmounted before swap is turned off.", "quantifier": "every list of mounts, every kernel for which an umount takes away one mount or fails", "why_tests_cant": "what can be unmounted depends on all the other mounts and on each umount before it", "anchors": ["src/mount.c:is_protected", "src/mount.c:unmount_tmpfs", "src/mount.c:unmount_regular", "src/mount.c:iterator"]}
{"id": "C70", "title": "The time survives a reboot and is never before the earliest one allowed", "statement": "At boot the clock is set from the hardware clock, or from the file of the last shutdown if there is no such clock or its time is not valid, and otherwise to the earliest time allowed; it is never before that. A valid time is saved at shutdown in both places; one that is not valid never replaces a saved one.", "quantifier": "every time of the clocks and in the file, with and without a hardware clock, saves and restores in any order", "why_tests_cant": "tests run on machines with a hardware clock that is right", "anchors": ["plugins/rtc.c:rtc_restore", "plugins/rtc.c:file_restore", "plugins/rtc.c:rtc_save", "plugins/rtc.c:file_save", "plugins/rtc.c:time_set"]}
{"id": "C71", "title": "Lines of a key and a value, as in os-release, are read as they are written", "statement": "The value of a key is what follows the separators, without its quotes; a line for a key whose name only begins or ends the same is another one; of several lines for a key the last counts; a line with a key and no value does no harm.", "quantifier": "every line, key and set of separators", "why_tests_cant": "lines come from files that others write, and any text may be in them", "anchors": ["src/helpers.h:fgetval", "src/getty.c:get_val", "src/getty.c:osrel", "src/initctl.c:sourcerc"]}
{"id": "C72", "title": "Each module named in modules-load.d is loaded by a task of its own, as its file says", "statement": "For each line that names a module there is one task, in the order of files and lines, with the arguments of the line and with the runlevels, the program and the index set before in the same file. The index tells the tasks apart, so that none takes the place of another. A line that is not understood is skipped. Only files named *.conf are read.", "quantifier": "every set of files with any lines", "why_tests_cant": "the index goes on from file to file, so that it depends on all lines that come before", "anchors": ["plugins/modules-load.c:modules_load", "plugins/modules-load.c:load", "plugins/modules-load.c:module_filter"]}
{"id": "C73", "title": "The shell of maintenance mode is given to who knows the password of root", "statement": "Where root has a password, the bundled sulogin starts a shell only after it was typed, however often a wrong one was typed before, and Ctrl-D goes on without a shell. Where root is locked or has no password a key press is enough. Whatever else is in passwd and shadow makes no difference.", "quantifier": "every content of passwd and shadow, every input, every crypt function", "why_tests_cant": "the order and the form of the lines in shadow, and what is typed, are not bounded", "anchors": ["src/sulogin.c:get_passwd", "src/sulogin.c:main"]}
{"id": "C74", "title": "The watchdog is fed until it is handed over or the system is to be reset", "statement": "The bundled watchdog daemon feeds the watchdog for ever while there is no signal. At SIGTERM it gives the device back safely. At SIGPWR it cuts the time short, and from then on the watchdog is never turned off, so that the system is reset once the daemon is told to end.", "quantifier": "every sequence of steps of the daemon and signals between any of them", "why_tests_cant": "signals arrive between any two instructions", "anchors": ["src/watchdog.c:loop", "src/watchdog.c:main", "src/watchdog.c:sighandler"]}
{"id": "C75", "title": "Boot removes what the last boot left in /tmp, /var/run and /var/lock, and nothing else", "statement": "Whatever is in /tmp, /var/run and /var/lock is removed at boot, directories after their contents, unless a tmpfs is mounted there. No file that is not in one of them is removed, whatever links there are.", "quantifier": "every tree of files, directories and links in these directories, every table of mounts", "why_tests_cant": "the trees have any depth and users leave any links in /tmp", "anchors": ["plugins/bootmisc.c:clean", "plugins/bootmisc.c:bootclean", "plugins/bootmisc.c:is_tmpfs"]}
{"id": "C76", "title": "Every device that is there at boot has its driver asked for, once", "statement": "Where there are kernel modules and /sys is mounted, the alias named by each uevent and modalias file below /sys/devices is given to modprobe, whole, once and in the order the files are found in, and nothing else is. Whatever happens, it is init that goes on with the boot.", "quantifier": "every set of files below /sys/devices and every content of them", "why_tests_cant": "the devices of a system, their number and the length of their aliases are not bounded", "anchors": ["plugins/modprobe.c:coldplug", "plugins/modprobe.c:scan_alias", "plugins/modprobe.c:scan_uevent", "plugins/modprobe.c:scan_modalias", "plugins/modprobe.c:modprobe"]}
{"id": "C77", "title": "Plugins are called after those they depend on", "statement": "Every plugin in the directory of plugins is loaded once, in whatever order the files are found. At each hook the callbacks of all plugins that have one are called, once each, and that of a plugin after those of all plugins it depends on, unless they depend on each other in a circle.", "quantifier": "every set of plugins, every dependency between them without circles, every order of the files", "why_tests_cant": "the order of files in a directory is not fixed, and dependencies are resolved by recursion", "anchors": ["src/plugin.c:plugin_register", "src/plugin.c:load_one", "src/plugin.c:check_plugin_depends", "src/plugin.c:load_plugins", "src/plugin.c:plugin_run_hook"]}
{"id": "C78", "title": "Kernel parameters are what the administrator set", "statement": "At boot a kernel parameter gets the value of /etc/sysctl.conf, else that of the last file in /etc/sysctl.d that sets it, or /run/sysctl.d, else that of the vendor in /usr/lib/sysctl.d and alike. No other parameter is changed, and none in rescue mode.", "quantifier": "every set of files in the seven places and everything they set", "why_tests_cant": "which files there are, and what they set, is up to distributions and administrators", "anchors": ["plugins/procps.c:setup"]}
