# A formal model of finit in Coq 8.16.1

`/repo` holds finit (an init daemon written in C).  This directory holds a
Gallina model of the parts of finit that are logic, and machine-checked
theorems about that model.  `properties.jsonl` lists the properties,
`MANIFEST.json` maps each one to the theorems that settle it, and
`seeded/LOG.jsonl` records the edits of the model that were tried against the
theorems.

## Layout

`rocq/theories/` is split by role, never mixing proofs into models:

| file name | role |
|-----------|------|
| `*Model.v`, `*Types.v`, `CStr.v` | executable Gallina functions, each citing file and lines in `/repo` |
| `*Spec*.v`, `CoreTame.v` | small, independent specification used by the statements |
| `*Props*.v` | the property theorems only, each closed by `exact lemma`, followed by `Print Assumptions`, with an `Example` that meets the hypotheses |
| all others | lemmas and proofs |

The models, and the C code behind them:

| model | code | theorems in |
|-------|------|-------------|
| `CoreTypes`, `CoreModel` | `service.c`, `svc.c`, `sm.c`, the handlers of `api.c` and `sig.c`, `pid.c`, `pidfile.c` plugin, parts of `conf.c`, `finit.c` | `CoreProps`, `CorePropsB` ... `CorePropsM` |
| `CondModel` | `cond.c`, `cond-w.c` | `CondProps` |
| `CStr`, `ParseModel` | libc string functions used; parsers of `service.c`, `conf.c`, `pid.c`, `util.c`, `cond.c` | `ParseProps` |
| `NameModel` | signal tables of `sig.c` and `util.c`; job strings and `if:` of `svc.c`, `api.c` | `NameProps` |
| `NetModel` | `plugins/netlink.c` | `NetProps` |
| `DevModel` | `devmon.c` | `DevProps` |
| `HookModel` | hook conditions of `plugin.c` | `HookProps` |
| `ConfModel` | choice of files in `conf.c` | `ConfProps` |
| `RotModel` | `logrotate.c` | `RotProps` |
| `TmpModel` | `tmpfiles.c` | `TmpProps` |
| `PartModel` | `runparts.c`, hook scripts of `plugin.c` | `PartProps` |
| `LogModel` | log option and redirection of `service.c`, `log.c` (priorities), `logit.c` (without rotation, see `RotModel`) | `LogProps` |
| `CgModel` | `cgroup.c`: settings, groups of services, mark and sweep of the top-level groups (not: set-up at boot, events of empty groups); `parse_cgroup`, `conf_parse_cgroup` | `CgProps` |
| `KevModel` | `keventd.c`: scan of the supplies and kernel events (not: the socket and the logging) | `KevProps` |
| `TtyModel` | `tty.c`: words of a tty line, devices, consoles; the tty part of `service_register` (not: getty itself, shells without a tty) | `TtyProps` |
| `GetModel` | `getty.c`: the issue file, os-release (as pairs of key and value), the login name, arguments of login (not: terminal settings, sessions, utmp) | `GetProps` |
| `RebModel` | `reboot.c`; `do_reboot` of `api.c`, `sigusr2_cb`, `sigterm_cb`, `sm_runlevel` as far as the end of the system is concerned (options as getopt_long gives them) | `RebProps` |
| `UtmModel` | `utmp-api.c` with `pututline` of glibc (not: rotation of the files) | `UtmProps` |
| `EndModel` | `do_iterate_proc`, `do_wait` and their use in `do_shutdown` of `sig.c`; `mount.c`, over any kernel; `rtc.c` with times as seconds (not: calendar arithmetic, time zones) | `EndProps` |
| `ModModel` | `fgetval` of `helpers.h`; `modules-load.c`, with files as the lines `fparseln` hands out and with their tasks (not: registering them, see `ParseModel`) | `ModProps` |
| `SulModel` | `sulogin.c`, over any `crypt` (not: terminal settings, the shell) | `SulProps` |
| `WdtModel` | `watchdog.c`, its steps with signals between them (not: time, a device that fails) | `WdtProps` |
| `BootModel` | `plugins/bootmisc.c` `clean`, with `nftw(3)` (not: directories reached twice, removal that fails) | `BootProps` |
| `PlugModel` | `plugins/modprobe.c`, from the files nftw(3) finds (not: chomp of an empty line, a fork that fails) | `PlugProps` |
| `DepModel` | `plugin.c`: loading with dependencies, the order of callbacks (not: names that differ from the file, several directories, I/O callbacks) | `DepProps` |
| `SctlModel` | `plugins/procps.c`, with the files as what they set (not: sysctl(8) itself, a redirection that is cut off) | `SctlProps` |

## The central model: service supervision

The heart of finit is one single-threaded event loop.  Every event (an initctl
request, a reaped child, an expired timer, an asserted condition, a runlevel
request, a configuration reload) runs C code to completion before the next one
is looked at, so there is no preemption to model: a history is a list of
events.  The model has

* `svc`: one record per `svc_t`, configuration part and mutable part;
* `core`: all services, the condition store, the runlevel machine, the
  processes the kernel knows, pending timers, and answers of the environment
  still to be given (fork results, script exit codes);
* `world` = `core` + log.  Each externally visible effect (fork, kill, state
  change, condition change, reboot) is appended to the log together with the
  complete `core` at that moment.  Properties of the form "whenever finit does
  X, Y holds" are statements about all log entries of all histories.

C functions that call each other recursively (`service_step` -> `svc_set_state`
-> `cond_set` -> `cond_update` -> `service_step`, `service_kill` ->
`service_monitor` -> `sm_step` -> ...) become bodies parameterised by the
recursive call, closed by recursion on fuel.  Exhausted fuel is a distinct
outcome (`None`) and never counts as a normal result: `history n evs ... w`
says that the run returned `w`, and every theorem is about histories that do
return.  A memory error of the C code (a freed record that is reached again) is
a log entry of its own, `EUaf`, not an ordinary result.

The environment is adversarial: the fork oracle may fail at any fork, a
process may die at any time with any status, timers fire in any order,
scripts return any exit code, the configuration read may be anything.

### How the theorems about histories are proved

1. `CoreLib`: a weakest-precondition calculus for the state-and-log monad.
2. `CoreMicro`: the model's run is cut into about sixty kinds of micro steps
   (one update or one log entry each), with what is known at that point;
   `CoreExec` proves, by induction on fuel, that every event of the model is a
   sequence of such steps.  `calm` marks steps that happen outside the
   recursion through conditions.
3. `CoreCalm`, `CoreAny`: `inv_reach` and `reach_ind`: an invariant that every
   micro step keeps holds after every prefix of every history.
4. Each property has an invariant: `CoreLog`, `CoreProof*` (C01, C02, C07, C12,
   C13, C16, C18, C20-C25, C35), `CoreConf`, `CoreIdent`, `CoreOne` (C06),
   `CoreKill` (C08), `CoreStay` (C11), `CoreMoment`, `CoreHalt` (C09, C24),
   `CoreGrow`, `CoreAct`, `CoreCrash` (C10), `CoreTask`, `CoreTaskB` (C19),
   `CoreReap*` (C35), `CoreMem` (C40), `CoreRun` (C46), `CoreLive` (C41),
   `CoreSettle`, `CoreSettleB` (C47: not an invariant of micro steps, since it
   fails in mid-event, but a postcondition of every event, by induction on fuel
   with the set of stanzas that may still have something to do), `CoreReload*`
   (C48: one pass over the model shows that nothing happens between the
   beginning and the end of reading the configuration; then an invariant ties
   the marks on the stanzas to what the log says was edited), `CoreKeep` (C49),
   `CoreReq` (C50), `CoreGone` (C51), `CoreBoot`, `CoreBootB`, `CoreBootC` (C52).
5. `CoreSlice`, `CoreSide`: for properties that relate two log entries of one
   stanza, the run as seen by that stanza alone.

### The class of histories

Most theorems about histories assume `tame evs` (`CoreTame.v`), which speaks
about the configuration and the kernel only:

* no circular dependencies between stanzas: with one, the C code recurses until
  its stack ends, and no history returns;
* no `type:forking` daemons: the owner of their process is found by a pid file;
* a NAME:ID does not change from run/task to service or back on a reload;
* only run and task stanzas are for runlevel S alone;
* the kernel reports the end of every child.

What else a theorem needs is written in its statement (for instance
`sockets_work`, `signal_stop`, `no_ready`), each with a refutation next to it
when it is really needed.

## Properties and how they are settled

| id | model | shape of proof |
|----|-------|----------------|
| C01, C02, C07, C13, C20 | Core | invariant over the log, by induction on fuel and on the event list |
| C03, C04, C05 | Cond | refinement to a map from names to {off, generation, one-shot}; aliasing and wrap as witnesses |
| C06, C08, C11, C12, C35, C40, C46 | Core | inductive invariants on the reachable states, with computed counter-example histories for the forms that are false |
| C09, C12, C22, C23, C50 | Core | what one request does in every reachable state, and log invariants |
| C10 | Core | counting argument along the log of one stanza |
| C14, C27-C31, C33, C36, C42-C45 | Parse | structural induction on strings and lists against a declarative spec |
| C15, C17, C32 | Name | induction on lists of records; tables swept completely and lifted to all strings |
| C16 | Core | one name: log invariant; several names: refuted |
| C18 | Core | invariant, and a frame theorem for re-registration |
| C19 | Core | log invariant: each result is preceded by the end of that very run |
| C21, C24 | Core | the runlevel machine against the log |
| C25 | Core | proved for changes from an unrestricted level, refuted between restricted ones |
| C26, C34, C37, C38, C39 | own small models | refinement to a small reference, by induction over operation lists |
| C41 | Core | log invariant with two exceptions, both shown to happen |
| C47 | Core | postcondition of every event, by induction on fuel and on the event list; four refutations show that each restriction is needed |
| C48 | Core | frame theorem for one reading of the configuration, and an invariant that relates the marks to a function of the log |
| C49 | Core | what one event does in every reachable state, and the reason carried by each micro step that asserts a condition |
| C51 | Core | invariant over micro steps: stanzas are marked for deletion only while the configuration is read, and the edge back to normal operation is taken only when none is marked |
| C52 | Core | closure of every function under two relations (the counter is left alone and nothing is announced; what counts as done has run); the check itself by symbolic execution; counting by induction over events |
| C53, C54, C55 | Tmp | a line is a list of effects; each type of line against the effect it promises, by cases; the escapes against an inductive relation, by induction on the argument; which files are read by induction on the list |
| C56, C57 | Part | induction over the sorted list of entries, in a world that depends on the commands run so far; hook points by cases |
| C58, C59 | Log | the tokenizer by induction on a grammar of options; priorities against a relation over the tables, which are swept completely where a name may match another |
| C60, C61 | Cg | settings by induction on the list, `..` by where a component can begin; mark and sweep: the groups after the lines are characterised by the last line for each name, the sweep is a filter, then induction on the history |
| C62 | Kev | invariant, counter = number of supplies online, by induction on a relation between states and messages |
| C63 | Tty | induction on the words, against relations for options, program, arguments and device |
| C64 | Get | induction on the issue file, against relations for escapes and lines |
| C65 | Get | induction on the characters typed |
| C66 | Reb | induction on the options; cases of the state of finit |
| C67 | Utm | invariant over histories: records have distinct keys, each comes from an event |
| C68 | End | cases of the command line, against a relation |
| C69 | End | induction on the number of mounts; an umount that works takes one away |
| C70 | End | cases of the clocks |
| C71 | Mod | cut and skip lemmas, against a relation between lines and values |
| C72 | Mod | induction on lines and files, against a relation that reads them line by line |
| C73 | Sul | induction on the input, against what was typed |
| C74 | Wdt | invariants of the steps, one without SIGPWR, one without SIGTERM, one after both |
| C75 | Boot | induction on the tree, against what is inside |
| C76 | Plug | induction on the files, and on the characters for fgets(3) |
| C77 | Dep | induction on the fuel with an invariant: what is being loaded is of a higher level |
| C78 | Sctl | induction on what is set, the last one counts |

When a property is false of the code as written the theorem is called
`..._refuted`; it exhibits a concrete history or input, checked by
computation, and a restricted positive theorem is proved next to it.

## What the refutations say about finit

* C02: the conditions may be gone when the process is started, if they go while
  the pre: script runs.
* C04, C05: the generation counter wraps after 2^32 reloads; condition names
  are cut at 43 characters, so that two names can be one.
* C06: two processes of one service: when its readiness socket cannot be made,
  and when a stop: script exits with 1.
* C08: a second request while stopping, and the end of a ready: script, cancel
  the SIGKILL timer.
* C10: a restart limit above 127 is never reached (an 8-bit counter).
* C12, C13, C41: the restart timer survives a reload, and takes a waiting
  service for a running one; `initctl signal` then signals process group 0 or
  every process.
* C41: a running service whose if: condition no longer allows it, and whose
  process then ends, stays running without a process.
* C14, C30, C27, C31, C33, C36, C43, C44, C45: corner cases of the parsers: ':'
  in a runlevel list, variables whose name starts with "set", '%' at the end of
  a template's instance, pid files elsewhere moved below /run, a time-out on
  stop: or reload: writes through a null pointer, sizes overflow an int, ".." at
  the end of a path, long or quoted arguments.
* C15: names that start with a digit cannot be addressed, job numbers wrap, and
  one above 2^63 makes finit loop for ever.
* C16: of several names in conflict: only the first registered one counts.
* C17: an if: guard of 130 characters or more is cut short.
* C19: a task can be reported a success without having been run (pre: script
  killed the second time), and success and failure can hold together.
* C20: a stanza that is past its pre: script starts while others are stopped.
* C25: from runlevel 1 to 0 logins are enabled again.
* C26: a dangling link hides the file it overrides, and nothing is read.
* C32: the two signal tables do not agree on signal 29.
* C37: with gzip and two versions, three are kept, and the third never changes.
* C38: deleting one of two default routes turns net/route/default off.
* C39: devices are never untracked (strcmp for strncmp), a condition goes into
  flux on reload and stays there, nodes that are there already are not seen.
* C40: a freed record is reached by the end of a ready: script, and by a
  SIGKILL timer of a bootstrap task with a pre: script.
* C46: a bootstrap run stanza with a pre: script is forgotten while it runs, and
  nothing is started any more.
* C47: nobody wakes a stanza when its if: guard comes true, when the rival it was
  in conflict with crashed, or when the condition it waits for is set by another
  name that is cut to the same 43 characters.
* C48: a stanza that waits for one that waits for an edited one is not marked
  changed when it comes first in the configuration.  A second reload while an
  edited service is paused takes its mark off: it is never told of the edit.
* C49: a notify:none service whose command line was edited is announced ready
  while it is being stopped; any reload asserts pid/NAME for a notify:s6 service
  that never wrote a pid file.
* C53: a C line copies into a directory that is not empty and leaves an empty
  one alone; L+ does not replace a file; f ignores the mode and the owner;
  devices with major or minor number 0 are not made; blanks before the argument
  become part of it, even in the examples in the source.
* C54: \x8. and \x9. are not read as hexadecimal; an argument that ends in a
  backslash is read past its end; w with several matches writes the whole text
  to the first file only.
* C56: two scripts that fail with 128 make runparts succeed; a script with a blank
  in its name is not run, another file may be.
* C57: the scripts of hook/net/down and hook/svc/plugin are never run.
* C58: after log:null was replaced by log:/file the output still goes to
  /dev/null; `log:prio` without a value crashes process 1; a file name is cut at
  '=' and ':' and after 63 characters; a count of 100 files becomes 10.
* C59: logit overruns its buffer when a word follows one of 512 characters; finit's
  fallback takes authpriv for auth, and sets facility or level to -1 when only the
  other is named.
* C60: the setting `../cgroup.procs:1` is written outside the group's directory;
  settings of 128 to 143 characters are cut without a message; settings stay when
  the stanza no longer has any; `cgroup.../../tmp` names a directory anywhere.
* C61: after a `cgroup user` line was taken out, the group user is removed.
* C62: a second report of the same state is counted again, so the condition stays
  set after the supply was unplugged; a supply that is added is not seen; an event
  of 1024 bytes or more makes the daemon write after its buffer.
* C63: `tty /dev/tty1 38400 screen` runs screen if that is installed; /dev/tty1 and
  /dev/pts/1 have the same identity; names of devices are cut after 31 characters.
* C64: escapes whose key is not in os-release show memory that was never written; a
  backslash at the end of a line is lost.
* C65: a login name longer than the limit makes getty write behind its buffer.
* C66: halt becomes power-off while finit waits for services, and where it does not
  answer; requests are always answered as failed; suspend with -t ends the system.
* C67: serial ports share a record in utmp; ended sessions stay in utmp, and their end
  has no line in wtmp.
* C68: a program is spared for `initctl` or `gdbserver` anywhere in its path.
* C69: tmpfs with another source are not unmounted before swapoff; `dev/.static/dev`
  lacks its slash.
* C70: without a hardware clock the saved time is never restored, and it is lost when
  the clock is not valid at a save.
* C71: a key with no value, as `VERSION_ID=` in os-release, crashes getty.
* C72: `set index` in one file makes tasks of the next replace its tasks; a blank after
  `set noindex` undoes it; `set index` with no value crashes init; all files are read.
* C73: sulogin checks the password of the first account in shadow, and none if that is
  locked.
* C74: SIGTERM right after SIGPWR turns the watchdog off.
* C75: the removal of old files at boot follows links out of /tmp.
* C76: without modprobe a child of init goes on with the boot; long aliases are cut off.
* C77: a plugin is called although one it depends on is missing.
* C78: sysctl files of the vendor override those of the administrator; files with long
  paths are not read.

## Trusted base

* Coq's kernel (8.16.1), with its `vm_compute` and `lia`'s reflexive checkers
  run by the kernel.  No `native_compute`, no plugins of our own.
* `Print Assumptions` says "Closed under the global context" for every theorem
  named in `MANIFEST.json`: no axioms are used, neither ours nor the standard
  library's.  The libraries loaded do contain the seven parameters of the
  module type-like interface `Coq.ssr.ssrunder` (loaded by `ZifyBool`, through
  ssreflect); no theorem depends on them.
* The reading of the C code: each definition cites the lines it models.  The
  code is not executed here.
* Assumptions on the environment built into the model: `fork` returns -1 or
  the pid (> 1) of a process that does not exist; `malloc`/`strdup` succeed;
  condition files are only written by finit (and by `initctl cond`, which goes
  through the events `EvCondSet` and `EvCondClear`); each callback of the event
  loop runs to completion; signals are delivered between callbacks.
* Library functions whose source is not in `/repo` (libite: `paste`, `basenm`,
  `strlcpy`, `strtonum`; libuev's timers; gzip) are modelled from their
  documentation; each such place says so.

## Simplifications of the central model

Each is stated where it is made.  The main ones: wall-clock time is not
modelled (timers fire at arbitrary moments, the delays are recorded); script
and stop commands that finit waits for return an exit code from the oracle;
`name` and `id` are not cut to their buffer sizes in CoreModel; of the contents
of a stanza only the settings that supervision looks at are in `cfg` (the
parsers produce them, the registration `reg` takes them as given); suspend,
`initctl switch-root`-like requests and the emergency shell's interaction are
not modelled beyond their effect on respawning.

## Not modelled

The contents of the forked children (rlimits, exec, what is not in LogModel and CgModel),
console output and progress printing, D-Bus/udev integration, the
terminal settings of getty, mounting at boot and fsck, the initctl command
line front end beyond its request format and job strings.
