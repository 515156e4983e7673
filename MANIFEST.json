{
 "claims": [
  {
   "property": "C01",
   "status": "proved",
   "theorems": [
    "start_gate"
   ],
   "note": "Unrestricted histories."
  },
  {
   "property": "C02",
   "status": "proved",
   "theorems": [
    "waiting_gate",
    "start_chain",
    "start_conditions_refuted"
   ],
   "note": "Conditions are checked when the stanza leaves the waiting state; start_conditions_refuted shows they may be off again when the process is started after a pre: script."
  },
  {
   "property": "C03",
   "status": "proved",
   "theorems": [
    "cond_agg_weakest",
    "cond_agg_set",
    "cond_agg_empty"
   ],
   "note": ""
  },
  {
   "property": "C04",
   "status": "proved",
   "theorems": [
    "reload_flux",
    "reload_wrap_refuted"
   ],
   "note": "full statement needs fewer than 2^32-2 reloads; reload_wrap_refuted shows the wrap"
  },
  {
   "property": "C05",
   "status": "proved",
   "theorems": [
    "cond_store_refines",
    "cond_independent",
    "cond_clash",
    "cond_independent_refuted"
   ],
   "note": "names up to 43 characters; refuted beyond"
  },
  {
   "property": "C06",
   "status": "proved",
   "theorems": [
    "one_main",
    "one_process",
    "main_known",
    "process_forgotten",
    "one_main_socket_refuted",
    "one_main_script_refuted"
   ],
   "note": "Tame histories, stopping by signal, sockets that can be created; the two refutations show why."
  },
  {
   "property": "C07",
   "status": "proved",
   "theorems": [
    "run_serialised"
   ],
   "note": "Unrestricted histories."
  },
  {
   "property": "C08",
   "status": "proved",
   "theorems": [
    "kill_pending",
    "kill_timer",
    "kill_pending_request_refuted",
    "kill_pending_ready_refuted"
   ],
   "note": "Tame histories without ready: scripts, stopping by signal, positive kill delays (killdelay_range); refuted without the exceptions in the statement."
  },
  {
   "property": "C09",
   "status": "proved",
   "theorems": [
    "stop_request",
    "restart_request",
    "stop_signal"
   ],
   "note": "Unrestricted histories."
  },
  {
   "property": "C10",
   "status": "proved",
   "theorems": [
    "crash_limit",
    "crash_retry",
    "crash_given_up",
    "crash_limit_refuted"
   ],
   "note": "Tame histories, limits up to 127, every start succeeds; the manual promises limits up to 255, crash_limit_refuted shows that 200 is never reached."
  },
  {
   "property": "C11",
   "status": "proved",
   "theorems": [
    "user_stop",
    "user_block"
   ],
   "note": "Tame histories."
  },
  {
   "property": "C12",
   "status": "proved",
   "theorems": [
    "kill_target",
    "kill_target_refuted",
    "signal_request"
   ],
   "note": "Proved with the exceptions named in the statement; kill_target_refuted shows that kill(0) and kill(-1) do happen."
  },
  {
   "property": "C13",
   "status": "proved",
   "theorems": [
    "lifecycle_edges",
    "lifecycle_during",
    "lifecycle_refuted",
    "after_stop"
   ],
   "note": "For tame histories, apart from the restart timer; lifecycle_refuted shows the exception happens."
  },
  {
   "property": "C14",
   "status": "proved",
   "theorems": [
    "runlevels_plain",
    "runlevels_not",
    "runlevels_default",
    "runlevels_range",
    "runlevels_refuted",
    "cmdline_runlevel"
   ],
   "note": "Every string without ':' and without a '!' after the first level; runlevels_refuted shows what those two do."
  },
  {
   "property": "C15",
   "status": "proved",
   "theorems": [
    "job_request",
    "job_find",
    "job_distinct",
    "job_numbers",
    "job_digit_refuted",
    "job_overflow_refuted",
    "job_shared_refuted"
   ],
   "note": "Names not starting with a digit, job numbers that fit an int; the records are taken not to change while the request runs."
  },
  {
   "property": "C16",
   "status": "partial",
   "theorems": [
    "conflict_gate",
    "conflict_refuted"
   ],
   "note": "Proved for the first registered one of the names; refuted for the others (conflict_refuted)."
  },
  {
   "property": "C17",
   "status": "proved",
   "theorems": [
    "if_conditions",
    "if_names",
    "if_other_time",
    "if_long_refuted"
   ],
   "note": "Guards shorter than 130 characters."
  },
  {
   "property": "C18",
   "status": "proved",
   "theorems": [
    "identity_unique",
    "find_by_identity",
    "register_in_place"
   ],
   "note": "Unrestricted histories."
  },
  {
   "property": "C19",
   "status": "proved",
   "theorems": [
    "task_reported",
    "task_result",
    "task_result_pre_refuted",
    "task_result_both_refuted"
   ],
   "note": "Tame histories in which run/task stanzas have no pre:, post: or stop: script and nobody asserts run/ or task/ conditions by hand. task_result_pre_refuted: with a pre: script the report can be false. task_result_both_refuted: success and failure can hold together."
  },
  {
   "property": "C20",
   "status": "proved",
   "theorems": [
    "stop_phase",
    "start_phase",
    "stop_phase_start_refuted"
   ],
   "note": "Stop phase unrestricted, start phase for tame histories; stop_phase_start_refuted: a stanza already past the waiting state is not held back."
  },
  {
   "property": "C21",
   "status": "proved",
   "theorems": [
    "runlevel_books",
    "runlevel_change",
    "runlevel_asked"
   ],
   "note": "Bookkeeping for unrestricted histories; which level is entered for tame ones."
  },
  {
   "property": "C22",
   "status": "proved",
   "theorems": [
    "request_refused",
    "runlevel_refused",
    "runlevel_while_booting"
   ],
   "note": "Unrestricted histories; suspend is not modelled."
  },
  {
   "property": "C23",
   "status": "proved",
   "theorems": [
    "signal_requests",
    "request_refused"
   ],
   "note": "SIGUSR1 only restarts the API socket and is outside the model."
  },
  {
   "property": "C24",
   "status": "proved",
   "theorems": [
    "final_action_latest",
    "final_action_requested",
    "final_action_heard",
    "runlevel_heard"
   ],
   "note": "Unrestricted histories."
  },
  {
   "property": "C25",
   "status": "partial",
   "theorems": [
    "nologin_partial",
    "nologin_refuted"
   ],
   "note": "Missing: a change between two restricted levels, where the claim is false (nologin_refuted)."
  },
  {
   "property": "C26",
   "status": "proved",
   "theorems": [
    "conf_chosen",
    "conf_dangling_refuted"
   ],
   "note": "conf_chosen: exactly which files are parsed and in which order, for every content of the four directories. conf_dangling_refuted records that an unreadable override still removes the system's file."
  },
  {
   "property": "C27",
   "status": "proved",
   "theorems": [
    "template_replaces",
    "template_ends",
    "template_fits",
    "template_refuted"
   ],
   "note": "Names without '%'; termination and memory safety for every name."
  },
  {
   "property": "C28",
   "status": "proved",
   "theorems": [
    "rlimit_set",
    "rlimit_frame",
    "rlimit_names_inverse"
   ],
   "note": "Every line and table."
  },
  {
   "property": "C29",
   "status": "proved",
   "theorems": [
    "conditions_listed",
    "conditions_too_long"
   ],
   "note": "Every condition string."
  },
  {
   "property": "C30",
   "status": "proved",
   "theorems": [
    "env_assignment",
    "env_set_assignment",
    "env_no_assignment",
    "env_key",
    "env_assignment_refuted"
   ],
   "note": "Names that do not start with 'set'; env_assignment_refuted shows why."
  },
  {
   "property": "C31",
   "status": "partial",
   "theorems": [
    "pid_name",
    "pid_path",
    "pid_path_refuted"
   ],
   "note": "Names that fit and paths below /run or /var/run; refuted for other paths and long names."
  },
  {
   "property": "C32",
   "status": "proved",
   "theorems": [
    "halt_signal",
    "initctl_signal",
    "api_signal",
    "signal_roundtrip",
    "signal_tables_refuted"
   ],
   "note": "For every string. The two tables of names differ in POLL, IOT and CLD."
  },
  {
   "property": "C33",
   "status": "proved",
   "theorems": [
    "killdelay_range",
    "script_timeout",
    "script_no_timeout",
    "script_timeout_range",
    "script_timeout_refuted"
   ],
   "note": "pre:, post:, ready: and cleanup: scripts; stop: and reload: with a time-out write through a null pointer (script_timeout_refuted)."
  },
  {
   "property": "C34",
   "status": "proved",
   "theorems": [
    "hook_reached",
    "hook_none"
   ],
   "note": "Full, for every sequence of hook runs, callbacks and other uses of conditions outside hook/. The stepping of services that follows a hook is in the service model."
  },
  {
   "property": "C35",
   "status": "proved",
   "theorems": [
    "reap_unknown",
    "reap_once",
    "reap_others"
   ],
   "note": "Tame histories."
  },
  {
   "property": "C36",
   "status": "proved",
   "theorems": [
    "size_suffixes",
    "size_suffixes_refuted"
   ],
   "note": "Products that fit an int."
  },
  {
   "property": "C37",
   "status": "proved",
   "theorems": [
    "rotate_zipped",
    "rotate_plain",
    "rotate_small",
    "rotate_two_refuted"
   ],
   "note": "The newest num versions, in order, for num >= 3 with gzip, any num without, and num = 1. rotate_two_refuted: with gzip and num = 2 a stale FILE.2.gz is kept for ever and three versions are there. Assumed: rename only fails for want of a source, gzip does not overwrite."
  },
  {
   "property": "C38",
   "status": "proved",
   "theorems": [
    "net_links",
    "net_route",
    "net_route_believed",
    "net_route_lost",
    "net_route_refuted"
   ],
   "note": "net_links: for every history of netlink reads (messages, lost messages with the two dumps that follow), reloads and other conditions, net/IF/exist|up|running are exactly what the kernel last said about IF. net_route: net/route/default follows the last message about a default route while no interface goes down. net_route_believed: in every history it is what a small separate account of messages and re-checks says. net_route_lost: when the interface of the default route loses its link and the kernel lists no other default route, it is off. net_route_refuted: with two default routes, deleting one turns the condition off although one remains."
  },
  {
   "property": "C39",
   "status": "proved",
   "theorems": [
    "dev_tracked",
    "dev_condition",
    "dev_release_refuted",
    "dev_late_refuted",
    "dev_scan_refuted",
    "dev_reload_refuted"
   ],
   "note": "dev_tracked: tracked exactly from the first registration on; dev_condition: what the condition of a device is after every history. As stated (dropped with the last user) false of the code: dev_release_refuted. dev_late_refuted, dev_scan_refuted, dev_reload_refuted: three ways a present device has its condition off or in flux."
  },
  {
   "property": "C40",
   "status": "proved",
   "theorems": [
    "memory_safe",
    "memory_ready_refuted",
    "memory_boot_refuted"
   ],
   "note": "memory_safe: for tame histories without ready: scripts and without stanzas for runlevel S alone. Both restrictions are needed: memory_ready_refuted, memory_boot_refuted exhibit the two uses after free."
  },
  {
   "property": "C41",
   "status": "proved",
   "theorems": [
    "running_process",
    "running_entered",
    "running_lost",
    "running_process_refuted",
    "running_guard_refuted"
   ],
   "note": "Tame histories. running_process: with the two exceptions of the statement; running_process_refuted and running_guard_refuted show that both happen, and that the stanza then stays running without a process and without a timer. running_entered: at the moment a stanza becomes running it has a process, with the same exceptions. running_lost: the end of the process is noticed in the same event."
  },
  {
   "property": "C42",
   "status": "proved",
   "theorems": [
    "stanza_words",
    "stanza_words_keep",
    "stanza_words_plain"
   ],
   "note": "Every line."
  },
  {
   "property": "C43",
   "status": "proved",
   "theorems": [
    "no_climbing",
    "clean_path_kept",
    "dotdot_resolved",
    "dotdot_resolved_root",
    "no_climbing_end_refuted"
   ],
   "note": "Every string."
  },
  {
   "property": "C44",
   "status": "partial",
   "theorems": [
    "command_args",
    "command_args_quoted",
    "command_args_refuted",
    "command_args_quoted_refuted"
   ],
   "note": "Plain and quoted arguments of at most 63 characters, at most 62 of them; refuted for long arguments, unterminated quotes, several blanks inside quotes and mixed quotes."
  },
  {
   "property": "C45",
   "status": "proved",
   "theorems": [
    "derived_name",
    "derived_name_plain",
    "derived_name_refuted"
   ],
   "note": "Except programs in the root directory."
  },
  {
   "property": "C46",
   "status": "proved",
   "theorems": [
    "run_alive",
    "run_alive_refuted"
   ],
   "note": "run_alive: for the class of C06, with the exception of records given up while they had a process (only for runlevel S alone, see process_forgotten); run_alive_refuted exhibits that exception: the boot hangs."
  },
  {
   "property": "C47",
   "status": "proved",
   "theorems": [
    "settled_between_events",
    "wanted_started",
    "unwanted_stopped",
    "lost_stopped",
    "settled_paused_refuted",
    "settled_conflict_refuted",
    "settled_guard_refuted",
    "settled_longname_refuted"
   ],
   "note": "For every tame history (class of C06) without conflict stanzas and without inhibited starts, condition names shorter than 43 characters, stanzas without if: guard. settled_paused_refuted: the excuse of a scheduled step is needed. settled_conflict_refuted, settled_guard_refuted, settled_longname_refuted: the three restrictions are needed, in each a stanza that may run stays halted or waiting and nothing is scheduled."
  },
  {
   "property": "C48",
   "status": "proved",
   "theorems": [
    "reload_disturbs_only_changed",
    "reload_completes",
    "removed_only_if_missing",
    "hup_only_if_changed",
    "running_left_for_a_reason",
    "edits_acted_upon",
    "dependants_marked_refuted",
    "edit_reaches_refuted"
   ],
   "note": "The first three for every history, hup_only_if_changed for every history without a SIGHUP by hand, running_left_for_a_reason for the tame ones (class of C06). CoreSpecE.v says what reading the configuration may change (reloaded) and computes from the log alone who was touched since it was started. dependants_marked_refuted: marks are passed on in the order of the stanzas, so a dependant of a dependant may be left out (it stops later, when its condition goes). edits_acted_upon is about the histories of C47. edit_reaches_refuted: a second reload while a marked service is paused takes its mark off, so that it never gets to know of the edit."
  },
  {
   "property": "C49",
   "status": "proved",
   "theorems": [
    "pidfile_announces",
    "pidfile_means_ready",
    "notify_means_ready",
    "pidfile_gone_withdraws",
    "pidfile_gone_unready",
    "deleted_withdraws",
    "asserted_only_if_reported",
    "confirmed_only_if_running",
    "ready_while_stopping_refuted",
    "pid_without_pidfile_refuted"
   ],
   "note": "pidfile_announces, notify_means_ready, pidfile_gone_withdraws and deleted_withdraws are about every history, the others about the tame ones (class of C06). CoreSpecF.v names the conditions of a stanza and lists the reports that justify asserting one. ready_while_stopping_refuted: a notify:none service whose command line was edited is stopped by the reload and announced ready after that. pid_without_pidfile_refuted: the reload confirms pid/NAME for every running unchanged service, also for one that never wrote a pid file."
  },
  {
   "property": "C50",
   "status": "proved",
   "theorems": [
    "start_request",
    "restart_starts",
    "reload_starts",
    "reload_tells",
    "reload_restarts"
   ],
   "note": "About every history. CoreSpecG.v says what it means that a request is answered (the first log entry after it) and what a stanza is without its block. The requests to stop, and to restart a running stanza, are stop_request and restart_request (C09)."
  },
  {
   "property": "C51",
   "status": "proved",
   "theorems": [
    "removed_is_gone",
    "removed_process_gone"
   ],
   "note": "The class is tame (CoreTame.v); removed_process_gone also asks for the class of C06 (sockets_work, signal_stop). While bootstrap lasts, a stanza whose if: guard fails may stay registered and marked; it goes at the first change of runlevel."
  },
  {
   "property": "C52",
   "status": "proved",
   "theorems": [
    "boot_waits",
    "boot_complete",
    "boot_timeout",
    "boot_ends",
    "boot_once",
    "boot_resumes",
    "boot_asks"
   ],
   "note": "No class of histories: any events. The mark of <!> is a configuration flag shared with SIGHUP support of services and is never cleared on a run or task, so declared_nowait speaks of any configuration given so far. A check is an event; that one comes every second is the timer's business."
  },
  {
   "property": "C53",
   "status": "partial",
   "theorems": [
    "line_makes",
    "line_keeps",
    "line_spares",
    "line_clears",
    "line_both",
    "line_frame",
    "copy_refuted",
    "copy_over_refuted",
    "link_replace_refuted",
    "file_mode_refuted",
    "device_zero_refuted",
    "blanks_refuted"
   ],
   "note": "Proved but for five cases that are false of the code: C does the opposite of what it should for directories that are there, L+ does not replace a file, f ignores mode and owner, devices with number 0 are not made, extra blanks become part of the argument. That operations succeed is not modelled."
  },
  {
   "property": "C54",
   "status": "partial",
   "theorems": [
    "argument_written",
    "argument_means",
    "argument_end",
    "argument_overrun_refuted",
    "hex_refuted",
    "write_many_refuted"
   ],
   "note": "argument_written for all texts in which no \\x is followed by 8 or 9 (hex_refuted). argument_end: the end of the argument is overrun if and only if it ends in a lone backslash. write_many_refuted: with several files only the first gets everything."
  },
  {
   "property": "C55",
   "status": "proved",
   "theorems": [
    "read_last_one",
    "read_every_name",
    "read_once"
   ],
   "note": "Every list."
  },
  {
   "property": "C56",
   "status": "partial",
   "theorems": [
    "parts_scripts",
    "parts_result",
    "runparts_fails",
    "runparts_exit_refuted",
    "parts_shell",
    "parts_shell_refuted"
   ],
   "note": "parts_scripts and parts_result in full. Two clauses are false of the code: the exit status of the program is the sum of the statuses cut to a byte, so that it may be 0 although scripts failed (runparts_exit_refuted; runparts_fails is the other direction); names with blanks or other characters the shell knows are not run as that file (parts_shell_refuted; parts_shell for plain names)."
  },
  {
   "property": "C57",
   "status": "partial",
   "theorems": [
    "script_environment",
    "hook_script",
    "hook_once",
    "hook_down",
    "hook_never_refuted"
   ],
   "note": "For all hooks but hook/net/down and hook/svc/plugin, whose scripts are never run once the plugins are loaded (hook_never_refuted)."
  },
  {
   "property": "C58",
   "status": "partial",
   "theorems": [
    "log_goes",
    "log_goes_logit",
    "log_off",
    "log_terminates",
    "log_edit_refuted",
    "log_null_refuted",
    "log_file_refuted",
    "log_tool_refuted"
   ],
   "note": "Proved for new stanzas and options of any number and spelling that fit in the record. False of the code: after an edit earlier options stay in force (log_edit_refuted), an option without its value makes process 1 read through a null pointer (log_null_refuted), file names with one of := or of 64 characters and more are cut (log_file_refuted), a count above 99 is cut and without a program files are not written (log_tool_refuted)."
  },
  {
   "property": "C59",
   "status": "partial",
   "theorems": [
    "prio_exact",
    "prio_number_refuted",
    "level_prefix",
    "level_other",
    "fallback_pair",
    "fallback_refuted",
    "message_whole",
    "message_overrun_refuted"
   ],
   "note": "In full for the logit program but for long messages on the command line, which overrun the buffer (message_overrun_refuted). finit's own fallback: all pairs of names but authpriv, mark and none; false for authpriv and for single names (fallback_refuted). The tables are those of glibc; string_match() of libite is modelled from its documentation."
  },
  {
   "property": "C60",
   "status": "partial",
   "theorems": [
    "settings_written",
    "settings_inside",
    "settings_inside_refuted",
    "service_settings",
    "service_settings_refuted",
    "service_sticky_refuted",
    "service_outside_refuted"
   ],
   "note": "Proved for settings of names without slashes and values without quotes and commas, whose files have names shorter than 256 characters, and for stanzas that are new and shorter than 128 characters. False of the code: '../cgroup.procs:1' is written outside the directory (settings_inside_refuted); settings of 128 to 143 characters are cut (service_settings_refuted), kept when the stanza has none any more (service_sticky_refuted), and a service may name a directory outside the control groups (service_outside_refuted)."
  },
  {
   "property": "C61",
   "status": "partial",
   "theorems": [
    "groups_configured",
    "groups_default",
    "groups_only",
    "groups_dropped",
    "groups_removed",
    "groups_default_refuted"
   ],
   "note": "Proved for lines shorter than 200 characters. False of the code: once a configuration has a line for init, system or user, the group is removed when that line goes (groups_default_refuted); groups_default is for histories without such a line."
  },
  {
   "property": "C62",
   "status": "partial",
   "theorems": [
    "power_condition",
    "power_repeat_refuted",
    "power_added_refuted",
    "power_overrun_refuted"
   ],
   "note": "Proved for all sequences of events of any content shorter than the buffer in which events of mains supplies report a change of state. False of the code otherwise: an event that repeats the state is counted again, and the condition stays set without power (power_repeat_refuted); a supply that is added is not seen (power_added_refuted); an event that fills the buffer overruns it (power_overrun_refuted)."
  },
  {
   "property": "C63",
   "status": "partial",
   "theorems": [
    "tty_starts",
    "tty_refused",
    "tty_term_refuted",
    "tty_id_refuted",
    "tty_long_refuted"
   ],
   "note": "Proved for lines of less than 64 words and devices of less than 32 characters. False of the code: a terminal type that is the name of a program is run in place of getty (tty_term_refuted); two devices may get the same identity (tty_id_refuted); a longer device name is cut, and not found again on reload (tty_long_refuted). Lines with notty or rescue are not covered."
  },
  {
   "property": "C64",
   "status": "partial",
   "theorems": [
    "issue_shown",
    "issue_shown_plain",
    "issue_default",
    "issue_undefined_refuted",
    "issue_backslash_refuted"
   ],
   "note": "Proved for every issue file whose escapes have their key in os-release. False of the code: a key that is not in os-release leaves its field unwritten, so memory never written is shown, for instance the greeting without PRETTY_NAME (issue_undefined_refuted); a backslash at the end of a line is not shown (issue_backslash_refuted)."
  },
  {
   "property": "C65",
   "status": "partial",
   "theorems": [
    "login_name",
    "login_waits",
    "login_overrun_refuted"
   ],
   "note": "Proved for lines up to the limit. False of the code: each longer line makes getty write a zero behind its buffer (login_overrun_refuted)."
  },
  {
   "property": "C66",
   "status": "partial",
   "theorems": [
    "reboot_asks",
    "reboot_fallback",
    "reboot_forced",
    "reboot_suspend",
    "reboot_bad",
    "halt_busy_refuted",
    "halt_fallback_refuted",
    "reboot_nack_refuted",
    "suspend_timeout_refuted"
   ],
   "note": "Proved but for these. False of the code: a halt while finit waits for services, or where it does not answer, becomes a power-off, because the fallback signal is the one for it (halt_busy_refuted, halt_fallback_refuted); the three requests are always answered as failed, which is why the signal is sent at all (reboot_nack_refuted); suspend with a time ends the system after it is resumed (suspend_timeout_refuted)."
  },
  {
   "property": "C67",
   "status": "partial",
   "theorems": [
    "utmp_lines",
    "utmp_runlevel",
    "wtmp_log",
    "utmp_serial_refuted",
    "utmp_gone_refuted",
    "wtmp_gone_refuted"
   ],
   "note": "Proved for terminals whose names differ in their first four characters (after pts/). False of the code: all serial ports share one record (utmp_serial_refuted); the end of a session changes nothing in utmp (utmp_gone_refuted), and its record in wtmp does not name the line (wtmp_gone_refuted)."
  },
  {
   "property": "C68",
   "status": "partial",
   "theorems": [
    "shutdown_told",
    "shutdown_name_refuted"
   ],
   "note": "Proved, where a tool is known by its name anywhere in the first word of its command line. False of the code: nobody else is spared; a program below a directory with initctl in its name is (shutdown_name_refuted)."
  },
  {
   "property": "C69",
   "status": "partial",
   "theorems": [
    "unmounted",
    "unmounted_tmpfs",
    "unmount_tmpfs_refuted",
    "unmount_static_refuted"
   ],
   "note": "Proved for every kernel and all mounts; for tmpfs only those whose source is called so. False of the code: other tmpfs are left until after swap is off (unmount_tmpfs_refuted); one directory in the list lacks its first slash (unmount_static_refuted)."
  },
  {
   "property": "C70",
   "status": "partial",
   "theorems": [
    "clock_restored",
    "clock_saved",
    "clock_hw_kept",
    "clock_file_refuted",
    "clock_lost_refuted"
   ],
   "note": "Proved for the hardware clock and the earliest time. False of the code: the file is never used (clock_file_refuted); a time that is not valid empties it (clock_lost_refuted)."
  },
  {
   "property": "C71",
   "status": "partial",
   "theorems": [
    "value_read",
    "value_other",
    "value_last",
    "value_crash_refuted",
    "osrel_crash_refuted"
   ],
   "note": "Proved for all lines with a value. False of the code: a key with no value is harmless; a null pointer is read (value_crash_refuted, osrel_crash_refuted for os-release)."
  },
  {
   "property": "C72",
   "status": "partial",
   "theorems": [
    "modules_tasks",
    "modules_default",
    "modules_line",
    "modules_skipped",
    "modules_clash_refuted",
    "modules_noindex_refuted",
    "modules_crash_refuted",
    "modules_any_refuted"
   ],
   "note": "Proved for lines in the documented form; tasks are distinct where no file sets the index. False of the code: the index after 'set index' in another file (modules_clash_refuted), 'set noindex' followed by a blank (modules_noindex_refuted), a setting with no value (modules_crash_refuted), only *.conf is read (modules_any_refuted)."
  },
  {
   "property": "C73",
   "status": "partial",
   "theorems": [
    "maintenance_only",
    "maintenance_given",
    "maintenance_left",
    "maintenance_locked",
    "maintenance_none",
    "maintenance_other_refuted",
    "maintenance_open_refuted",
    "maintenance_crash_refuted"
   ],
   "note": "Proved where root is the first line of shadow, or its password is in passwd. False of the code: it is the first account of shadow that counts, be it another one (maintenance_other_refuted) or locked (maintenance_open_refuted); a line without colon crashes (maintenance_crash_refuted)."
  },
  {
   "property": "C74",
   "status": "partial",
   "theorems": [
    "watchdog_fed",
    "watchdog_kept",
    "watchdog_handover",
    "watchdog_safe",
    "watchdog_reset",
    "watchdog_reset_done",
    "watchdog_both_refuted"
   ],
   "note": "Proved for all sequences in which the daemon gets on between SIGPWR and SIGTERM. False of the code where it does not: the watchdog is turned off (watchdog_both_refuted)."
  },
  {
   "property": "C75",
   "status": "partial",
   "theorems": [
    "stale_removed",
    "stale_only",
    "stale_link_refuted"
   ],
   "note": "All that is in the directories is removed, and nothing else where no link in them leads to a directory. False of the code where one does: all below that directory is removed (stale_link_refuted)."
  },
  {
   "property": "C76",
   "status": "partial",
   "theorems": [
    "coldplug_loaded",
    "coldplug_once",
    "coldplug_order",
    "coldplug_only",
    "coldplug_clone_refuted",
    "coldplug_long_refuted"
   ],
   "note": "Proved where modprobe can be started and lines are shorter than 255 characters. False of the code otherwise: without modprobe the boot goes on in a child of init (coldplug_clone_refuted), long aliases are cut off (coldplug_long_refuted)."
  },
  {
   "property": "C77",
   "status": "proved",
   "theorems": [
    "plugins_loaded",
    "plugins_called",
    "plugins_order",
    "plugins_missing_refuted"
   ],
   "note": "For plugins in one directory whose files are named as they are. Also shown: a plugin is called although what it depends on is not there (plugins_missing_refuted)."
  },
  {
   "property": "C78",
   "status": "partial",
   "theorems": [
    "sysctl_conf",
    "sysctl_etc",
    "sysctl_run",
    "sysctl_other",
    "sysctl_rescue",
    "sysctl_vendor_refuted",
    "sysctl_long_refuted"
   ],
   "note": "Proved where no vendor file sets the parameter and paths have 140 characters at most. False of the code otherwise: the files of the vendor are applied after those of the administrator (sysctl_vendor_refuted), a file with a long path is not read (sysctl_long_refuted)."
  }
 ]
}