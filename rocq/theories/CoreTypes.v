(** Data of the service supervisor: svc_t (src/svc.h:117-236), the globals of
    src/sm.c, src/service.c and src/finit.c, and the part of the kernel that
    they observe (which processes exist).

    A record is addressed by a number, [s_key], that plays the part of its
    memory address: fresh for every svc_new() and never reused. *)
From Coq Require Import List String ZArith Bool.
From Verif Require Import CondModel.
Import ListNotations.

(** svc_type_t, src/svc.h:45-57 *)
Inductive sty := TService | TTask | TRun | TTty | TSysv.

(** svc_state_t, src/svc.h:59-71, in the order of the enum *)
Inductive sst :=
  | Halted | Done | Dead | Cleanup | Teardown | Stopping
  | Setup | Paused | Waiting | Starting | Running.

Definition st_num (s : sst) : nat :=
  match s with
  | Halted => 0 | Done => 1 | Dead => 2 | Cleanup => 3 | Teardown => 4
  | Stopping => 5 | Setup => 6 | Paused => 7 | Waiting => 8 | Starting => 9
  | Running => 10
  end.

Definition st_eqb (a b : sst) : bool := Nat.eqb (st_num a) (st_num b).

(** svc_block_t, src/svc.h:73-81 *)
Inductive blk := BNone | BMissing | BCrashing | BUser | BBusy | BRestarting | BConflict.

Definition blk_num (b : blk) : nat :=
  match b with
  | BNone => 0 | BMissing => 1 | BCrashing => 2 | BUser => 3 | BBusy => 4
  | BRestarting => 5 | BConflict => 6
  end.
Definition blk_eqb (a b : blk) : bool := Nat.eqb (blk_num a) (blk_num b).

(** svc_notify_t (src/svc.h:90-95) and oncrash actions (src/svc.h:83-87) *)
Inductive notif := NfNone | NfPid | NfSystemd | NfS6.
Inductive ocrash := OcIgnore | OcReboot | OcScript.

(** The four functions that are ever stored in timer_cb (src/service.c:
    service_kill, service_retry, service_kill_script, service_script_kill). *)
Inductive tcb := TcKill | TcRetry | TcKillScript | TcScriptKill.

(** timer + timer_cb: no callback set; armed with a delay in milliseconds;
    or [TmStale], callback set but the one-shot timer is not running (it has
    fired, or uev_timer_init refused a negative delay). *)
Inductive tmr := TmNone | TmArmed (cb : tcb) (ms : Z) | TmStale (cb : tcb).

(** status word of waitpid(): normal exit with a code, or killed by a signal *)
Inductive wstat := Exited (rc : Z) | Signaled (sig : Z).
Definition wifexited (w : wstat) : bool := match w with Exited _ => true | _ => false end.
Definition wexitstatus (w : wstat) : Z := match w with Exited rc => rc | Signaled _ => 0%Z end.

(** shutop_t, src/sig.h:60-64 *)
Inductive shut := ShutOff | ShutHalt | ShutReboot.

(** sm_state_t, src/sm.c:42-52 *)
Inductive smst :=
  | SmBootstrap | SmBootstrapWait | SmRunning
  | SmRlChange | SmRlWait | SmRlClean
  | SmReChange | SmReWait | SmReClean.
Definition sm_num (s : smst) : nat :=
  match s with
  | SmBootstrap => 0 | SmBootstrapWait => 1 | SmRunning => 2
  | SmRlChange => 3 | SmRlWait => 4 | SmRlClean => 5
  | SmReChange => 6 | SmReWait => 7 | SmReClean => 8
  end.
Definition sm_eqb (a b : smst) : bool := Nat.eqb (sm_num a) (sm_num b).

(** What a stanza configures, after parsing (src/service.c:1659-2083).  Lists
    that the C code keeps as comma separated strings are already split. *)
Record cfg := mkCfg {
  c_name : string; c_id : string; c_type : sty;
  c_levels : N;                         (* bit l = runlevel l, bit 10 = S *)
  c_cond : list string;                 (* <cond,...> *)
  c_conflict : list string;             (* conflict:name,... *)
  c_if : list (bool * string);          (* if:<[!]cond,...>; true = negated *)
  c_ifconf : list (bool * string);      (* if:[!]ident,...; true = negated *)
  c_args : string;                      (* command line *)
  c_pre : bool; c_post : bool; c_ready : bool; c_cleanup : bool;
  c_stop : bool; c_reload : bool;       (* which scripts are declared *)
  c_sighup : bool;                      (* daemon or tty without <!>, run/task with <!> *)
  c_forking : bool; c_manual : bool; c_respawn : bool;
  c_notify : notif;
  c_killdelay : Z;
  c_pre_tmo : Z; c_post_tmo : Z; c_ready_tmo : Z; c_cleanup_tmo : Z;
  c_restart_max : Z;
  c_oncrash : ocrash;
  c_sighalt : Z
}.

Definition set_c_sighup (v : bool) (r : cfg) : cfg :=
  mkCfg (c_name r) (c_id r) (c_type r) (c_levels r) (c_cond r) (c_conflict r) (c_if r) (c_ifconf r) (c_args r) (c_pre r) (c_post r) (c_ready r) (c_cleanup r) (c_stop r) (c_reload r) v (c_forking r) (c_manual r) (c_respawn r) (c_notify r) (c_killdelay r) (c_pre_tmo r) (c_post_tmo r) (c_ready_tmo r) (c_cleanup_tmo r) (c_restart_max r) (c_oncrash r) (c_sighalt r).

(** A stanza in the configuration: its settings, restart_tmo, whether its
    file (or env file) changed since the last (re)load, and whether it comes
    from a plugin instead of a file. *)
Record reg := mkReg { r_cfg : cfg; r_tmo : Z; r_changed : bool; r_static : bool }.

Record svc := mkSvc {
  s_key : nat; (* address of the record *)
  s_cf : cfg; (* configuration part *)
  s_state : sst; (* state *)
  s_block : blk; (* block *)
  s_pid : Z; (* pid *)
  s_oldpid : Z; (* oldpid *)
  s_dirty : bool; (* dirty *)
  s_adirty : bool; (* args_dirty *)
  s_removed : bool; (* removed *)
  s_protect : bool; (* protect *)
  s_starting : bool; (* starting *)
  s_started : bool; (* started *)
  s_status : wstat; (* status, from waitpid() *)
  s_once : Z; (* once, 8 bits *)
  s_rcnt : Z; (* restart_cnt, signed 8 bits *)
  s_rtot : Z; (* restart_tot *)
  s_rtmo : Z; (* restart_tmo *)
  s_rsaved : Z; (* restart_saved *)
  s_timer : tmr; (* timer and timer_cb *)
  s_killed : bool (* ghost: SIGKILL sent by service_kill since the record last entered STOPPING *)
}.

Definition set_s_key (v : nat) (r : svc) : svc :=
  mkSvc v (s_cf r) (s_state r) (s_block r) (s_pid r) (s_oldpid r) (s_dirty r) (s_adirty r) (s_removed r) (s_protect r) (s_starting r) (s_started r) (s_status r) (s_once r) (s_rcnt r) (s_rtot r) (s_rtmo r) (s_rsaved r) (s_timer r) (s_killed r).
Definition set_s_cf (v : cfg) (r : svc) : svc :=
  mkSvc (s_key r) v (s_state r) (s_block r) (s_pid r) (s_oldpid r) (s_dirty r) (s_adirty r) (s_removed r) (s_protect r) (s_starting r) (s_started r) (s_status r) (s_once r) (s_rcnt r) (s_rtot r) (s_rtmo r) (s_rsaved r) (s_timer r) (s_killed r).
Definition set_s_state (v : sst) (r : svc) : svc :=
  mkSvc (s_key r) (s_cf r) v (s_block r) (s_pid r) (s_oldpid r) (s_dirty r) (s_adirty r) (s_removed r) (s_protect r) (s_starting r) (s_started r) (s_status r) (s_once r) (s_rcnt r) (s_rtot r) (s_rtmo r) (s_rsaved r) (s_timer r) (s_killed r).
Definition set_s_block (v : blk) (r : svc) : svc :=
  mkSvc (s_key r) (s_cf r) (s_state r) v (s_pid r) (s_oldpid r) (s_dirty r) (s_adirty r) (s_removed r) (s_protect r) (s_starting r) (s_started r) (s_status r) (s_once r) (s_rcnt r) (s_rtot r) (s_rtmo r) (s_rsaved r) (s_timer r) (s_killed r).
Definition set_s_pid (v : Z) (r : svc) : svc :=
  mkSvc (s_key r) (s_cf r) (s_state r) (s_block r) v (s_oldpid r) (s_dirty r) (s_adirty r) (s_removed r) (s_protect r) (s_starting r) (s_started r) (s_status r) (s_once r) (s_rcnt r) (s_rtot r) (s_rtmo r) (s_rsaved r) (s_timer r) (s_killed r).
Definition set_s_oldpid (v : Z) (r : svc) : svc :=
  mkSvc (s_key r) (s_cf r) (s_state r) (s_block r) (s_pid r) v (s_dirty r) (s_adirty r) (s_removed r) (s_protect r) (s_starting r) (s_started r) (s_status r) (s_once r) (s_rcnt r) (s_rtot r) (s_rtmo r) (s_rsaved r) (s_timer r) (s_killed r).
Definition set_s_dirty (v : bool) (r : svc) : svc :=
  mkSvc (s_key r) (s_cf r) (s_state r) (s_block r) (s_pid r) (s_oldpid r) v (s_adirty r) (s_removed r) (s_protect r) (s_starting r) (s_started r) (s_status r) (s_once r) (s_rcnt r) (s_rtot r) (s_rtmo r) (s_rsaved r) (s_timer r) (s_killed r).
Definition set_s_adirty (v : bool) (r : svc) : svc :=
  mkSvc (s_key r) (s_cf r) (s_state r) (s_block r) (s_pid r) (s_oldpid r) (s_dirty r) v (s_removed r) (s_protect r) (s_starting r) (s_started r) (s_status r) (s_once r) (s_rcnt r) (s_rtot r) (s_rtmo r) (s_rsaved r) (s_timer r) (s_killed r).
Definition set_s_removed (v : bool) (r : svc) : svc :=
  mkSvc (s_key r) (s_cf r) (s_state r) (s_block r) (s_pid r) (s_oldpid r) (s_dirty r) (s_adirty r) v (s_protect r) (s_starting r) (s_started r) (s_status r) (s_once r) (s_rcnt r) (s_rtot r) (s_rtmo r) (s_rsaved r) (s_timer r) (s_killed r).
Definition set_s_protect (v : bool) (r : svc) : svc :=
  mkSvc (s_key r) (s_cf r) (s_state r) (s_block r) (s_pid r) (s_oldpid r) (s_dirty r) (s_adirty r) (s_removed r) v (s_starting r) (s_started r) (s_status r) (s_once r) (s_rcnt r) (s_rtot r) (s_rtmo r) (s_rsaved r) (s_timer r) (s_killed r).
Definition set_s_starting (v : bool) (r : svc) : svc :=
  mkSvc (s_key r) (s_cf r) (s_state r) (s_block r) (s_pid r) (s_oldpid r) (s_dirty r) (s_adirty r) (s_removed r) (s_protect r) v (s_started r) (s_status r) (s_once r) (s_rcnt r) (s_rtot r) (s_rtmo r) (s_rsaved r) (s_timer r) (s_killed r).
Definition set_s_started (v : bool) (r : svc) : svc :=
  mkSvc (s_key r) (s_cf r) (s_state r) (s_block r) (s_pid r) (s_oldpid r) (s_dirty r) (s_adirty r) (s_removed r) (s_protect r) (s_starting r) v (s_status r) (s_once r) (s_rcnt r) (s_rtot r) (s_rtmo r) (s_rsaved r) (s_timer r) (s_killed r).
Definition set_s_status (v : wstat) (r : svc) : svc :=
  mkSvc (s_key r) (s_cf r) (s_state r) (s_block r) (s_pid r) (s_oldpid r) (s_dirty r) (s_adirty r) (s_removed r) (s_protect r) (s_starting r) (s_started r) v (s_once r) (s_rcnt r) (s_rtot r) (s_rtmo r) (s_rsaved r) (s_timer r) (s_killed r).
Definition set_s_once (v : Z) (r : svc) : svc :=
  mkSvc (s_key r) (s_cf r) (s_state r) (s_block r) (s_pid r) (s_oldpid r) (s_dirty r) (s_adirty r) (s_removed r) (s_protect r) (s_starting r) (s_started r) (s_status r) v (s_rcnt r) (s_rtot r) (s_rtmo r) (s_rsaved r) (s_timer r) (s_killed r).
Definition set_s_rcnt (v : Z) (r : svc) : svc :=
  mkSvc (s_key r) (s_cf r) (s_state r) (s_block r) (s_pid r) (s_oldpid r) (s_dirty r) (s_adirty r) (s_removed r) (s_protect r) (s_starting r) (s_started r) (s_status r) (s_once r) v (s_rtot r) (s_rtmo r) (s_rsaved r) (s_timer r) (s_killed r).
Definition set_s_rtot (v : Z) (r : svc) : svc :=
  mkSvc (s_key r) (s_cf r) (s_state r) (s_block r) (s_pid r) (s_oldpid r) (s_dirty r) (s_adirty r) (s_removed r) (s_protect r) (s_starting r) (s_started r) (s_status r) (s_once r) (s_rcnt r) v (s_rtmo r) (s_rsaved r) (s_timer r) (s_killed r).
Definition set_s_rtmo (v : Z) (r : svc) : svc :=
  mkSvc (s_key r) (s_cf r) (s_state r) (s_block r) (s_pid r) (s_oldpid r) (s_dirty r) (s_adirty r) (s_removed r) (s_protect r) (s_starting r) (s_started r) (s_status r) (s_once r) (s_rcnt r) (s_rtot r) v (s_rsaved r) (s_timer r) (s_killed r).
Definition set_s_rsaved (v : Z) (r : svc) : svc :=
  mkSvc (s_key r) (s_cf r) (s_state r) (s_block r) (s_pid r) (s_oldpid r) (s_dirty r) (s_adirty r) (s_removed r) (s_protect r) (s_starting r) (s_started r) (s_status r) (s_once r) (s_rcnt r) (s_rtot r) (s_rtmo r) v (s_timer r) (s_killed r).
Definition set_s_timer (v : tmr) (r : svc) : svc :=
  mkSvc (s_key r) (s_cf r) (s_state r) (s_block r) (s_pid r) (s_oldpid r) (s_dirty r) (s_adirty r) (s_removed r) (s_protect r) (s_starting r) (s_started r) (s_status r) (s_once r) (s_rcnt r) (s_rtot r) (s_rtmo r) (s_rsaved r) v (s_killed r).
Definition set_s_killed (v : bool) (r : svc) : svc :=
  mkSvc (s_key r) (s_cf r) (s_state r) (s_block r) (s_pid r) (s_oldpid r) (s_dirty r) (s_adirty r) (s_removed r) (s_protect r) (s_starting r) (s_started r) (s_status r) (s_once r) (s_rcnt r) (s_rtot r) (s_rtmo r) (s_rsaved r) (s_timer r) v.

Record core := mkCore {
  k_svcs : list svc; (* svc_list, src/svc.c *)
  k_gc : list svc; (* gc_list, src/svc.c *)
  k_freed : list (nat * tmr); (* freed records and the timer they still had *)
  k_next : nat; (* next fresh address *)
  k_cond : cstore; (* conditions *)
  k_rl : Z; (* runlevel *)
  k_prev : Z; (* prevlevel *)
  k_cfgl : Z; (* cfglevel *)
  k_cmdl : Z; (* cmdlevel, 0 if none *)
  k_boot : bool; (* bootstrap *)
  k_bootleft : option nat; (* timeout left in sm_check_bootstrap, None once it has finished *)
  k_halt : shut; (* halt *)
  k_sm : smst; (* sm.state *)
  k_newl : Z; (* sm.newlevel *)
  k_reload : bool; (* sm.reload *)
  k_inrl : bool; (* sm.in_reload *)
  k_runblk : Z; (* run_block_pid *)
  k_assoc : list (Z * nat); (* svc_assoc_list *)
  k_norespawn : bool; (* is_norespawn() *)
  k_work : bool; (* service_worker queued *)
  k_emerg : bool; (* emergency shutdown timer armed *)
  k_nologin : bool; (* FINIT_NOLOGIN_PATH exists *)
  k_conf : list reg; (* stanzas in the .conf files *)
  k_confchg : bool; (* conf_any_change() *)
  k_unavail : list string; (* stanzas whose program, env file or tty is missing *)
  k_forks : list Z; (* answers of the kernel to the next forks *)
  k_scripts : list Z; (* exit codes of the next stop:/reload: scripts *)
  k_notes : list bool; (* does setting up the next notify socket fail? *)
  k_procs : list Z; (* children that exist, running or zombie *)
  k_mains : list (Z * nat); (* those of them that are main processes, and of which record *)
  k_down : bool (* do_shutdown() has been called *)
}.

Definition set_k_svcs (v : list svc) (r : core) : core :=
  mkCore v (k_gc r) (k_freed r) (k_next r) (k_cond r) (k_rl r) (k_prev r) (k_cfgl r) (k_cmdl r) (k_boot r) (k_bootleft r) (k_halt r) (k_sm r) (k_newl r) (k_reload r) (k_inrl r) (k_runblk r) (k_assoc r) (k_norespawn r) (k_work r) (k_emerg r) (k_nologin r) (k_conf r) (k_confchg r) (k_unavail r) (k_forks r) (k_scripts r) (k_notes r) (k_procs r) (k_mains r) (k_down r).
Definition set_k_gc (v : list svc) (r : core) : core :=
  mkCore (k_svcs r) v (k_freed r) (k_next r) (k_cond r) (k_rl r) (k_prev r) (k_cfgl r) (k_cmdl r) (k_boot r) (k_bootleft r) (k_halt r) (k_sm r) (k_newl r) (k_reload r) (k_inrl r) (k_runblk r) (k_assoc r) (k_norespawn r) (k_work r) (k_emerg r) (k_nologin r) (k_conf r) (k_confchg r) (k_unavail r) (k_forks r) (k_scripts r) (k_notes r) (k_procs r) (k_mains r) (k_down r).
Definition set_k_freed (v : list (nat * tmr)) (r : core) : core :=
  mkCore (k_svcs r) (k_gc r) v (k_next r) (k_cond r) (k_rl r) (k_prev r) (k_cfgl r) (k_cmdl r) (k_boot r) (k_bootleft r) (k_halt r) (k_sm r) (k_newl r) (k_reload r) (k_inrl r) (k_runblk r) (k_assoc r) (k_norespawn r) (k_work r) (k_emerg r) (k_nologin r) (k_conf r) (k_confchg r) (k_unavail r) (k_forks r) (k_scripts r) (k_notes r) (k_procs r) (k_mains r) (k_down r).
Definition set_k_next (v : nat) (r : core) : core :=
  mkCore (k_svcs r) (k_gc r) (k_freed r) v (k_cond r) (k_rl r) (k_prev r) (k_cfgl r) (k_cmdl r) (k_boot r) (k_bootleft r) (k_halt r) (k_sm r) (k_newl r) (k_reload r) (k_inrl r) (k_runblk r) (k_assoc r) (k_norespawn r) (k_work r) (k_emerg r) (k_nologin r) (k_conf r) (k_confchg r) (k_unavail r) (k_forks r) (k_scripts r) (k_notes r) (k_procs r) (k_mains r) (k_down r).
Definition set_k_cond (v : cstore) (r : core) : core :=
  mkCore (k_svcs r) (k_gc r) (k_freed r) (k_next r) v (k_rl r) (k_prev r) (k_cfgl r) (k_cmdl r) (k_boot r) (k_bootleft r) (k_halt r) (k_sm r) (k_newl r) (k_reload r) (k_inrl r) (k_runblk r) (k_assoc r) (k_norespawn r) (k_work r) (k_emerg r) (k_nologin r) (k_conf r) (k_confchg r) (k_unavail r) (k_forks r) (k_scripts r) (k_notes r) (k_procs r) (k_mains r) (k_down r).
Definition set_k_rl (v : Z) (r : core) : core :=
  mkCore (k_svcs r) (k_gc r) (k_freed r) (k_next r) (k_cond r) v (k_prev r) (k_cfgl r) (k_cmdl r) (k_boot r) (k_bootleft r) (k_halt r) (k_sm r) (k_newl r) (k_reload r) (k_inrl r) (k_runblk r) (k_assoc r) (k_norespawn r) (k_work r) (k_emerg r) (k_nologin r) (k_conf r) (k_confchg r) (k_unavail r) (k_forks r) (k_scripts r) (k_notes r) (k_procs r) (k_mains r) (k_down r).
Definition set_k_prev (v : Z) (r : core) : core :=
  mkCore (k_svcs r) (k_gc r) (k_freed r) (k_next r) (k_cond r) (k_rl r) v (k_cfgl r) (k_cmdl r) (k_boot r) (k_bootleft r) (k_halt r) (k_sm r) (k_newl r) (k_reload r) (k_inrl r) (k_runblk r) (k_assoc r) (k_norespawn r) (k_work r) (k_emerg r) (k_nologin r) (k_conf r) (k_confchg r) (k_unavail r) (k_forks r) (k_scripts r) (k_notes r) (k_procs r) (k_mains r) (k_down r).
Definition set_k_cfgl (v : Z) (r : core) : core :=
  mkCore (k_svcs r) (k_gc r) (k_freed r) (k_next r) (k_cond r) (k_rl r) (k_prev r) v (k_cmdl r) (k_boot r) (k_bootleft r) (k_halt r) (k_sm r) (k_newl r) (k_reload r) (k_inrl r) (k_runblk r) (k_assoc r) (k_norespawn r) (k_work r) (k_emerg r) (k_nologin r) (k_conf r) (k_confchg r) (k_unavail r) (k_forks r) (k_scripts r) (k_notes r) (k_procs r) (k_mains r) (k_down r).
Definition set_k_cmdl (v : Z) (r : core) : core :=
  mkCore (k_svcs r) (k_gc r) (k_freed r) (k_next r) (k_cond r) (k_rl r) (k_prev r) (k_cfgl r) v (k_boot r) (k_bootleft r) (k_halt r) (k_sm r) (k_newl r) (k_reload r) (k_inrl r) (k_runblk r) (k_assoc r) (k_norespawn r) (k_work r) (k_emerg r) (k_nologin r) (k_conf r) (k_confchg r) (k_unavail r) (k_forks r) (k_scripts r) (k_notes r) (k_procs r) (k_mains r) (k_down r).
Definition set_k_boot (v : bool) (r : core) : core :=
  mkCore (k_svcs r) (k_gc r) (k_freed r) (k_next r) (k_cond r) (k_rl r) (k_prev r) (k_cfgl r) (k_cmdl r) v (k_bootleft r) (k_halt r) (k_sm r) (k_newl r) (k_reload r) (k_inrl r) (k_runblk r) (k_assoc r) (k_norespawn r) (k_work r) (k_emerg r) (k_nologin r) (k_conf r) (k_confchg r) (k_unavail r) (k_forks r) (k_scripts r) (k_notes r) (k_procs r) (k_mains r) (k_down r).
Definition set_k_bootleft (v : option nat) (r : core) : core :=
  mkCore (k_svcs r) (k_gc r) (k_freed r) (k_next r) (k_cond r) (k_rl r) (k_prev r) (k_cfgl r) (k_cmdl r) (k_boot r) v (k_halt r) (k_sm r) (k_newl r) (k_reload r) (k_inrl r) (k_runblk r) (k_assoc r) (k_norespawn r) (k_work r) (k_emerg r) (k_nologin r) (k_conf r) (k_confchg r) (k_unavail r) (k_forks r) (k_scripts r) (k_notes r) (k_procs r) (k_mains r) (k_down r).
Definition set_k_halt (v : shut) (r : core) : core :=
  mkCore (k_svcs r) (k_gc r) (k_freed r) (k_next r) (k_cond r) (k_rl r) (k_prev r) (k_cfgl r) (k_cmdl r) (k_boot r) (k_bootleft r) v (k_sm r) (k_newl r) (k_reload r) (k_inrl r) (k_runblk r) (k_assoc r) (k_norespawn r) (k_work r) (k_emerg r) (k_nologin r) (k_conf r) (k_confchg r) (k_unavail r) (k_forks r) (k_scripts r) (k_notes r) (k_procs r) (k_mains r) (k_down r).
Definition set_k_sm (v : smst) (r : core) : core :=
  mkCore (k_svcs r) (k_gc r) (k_freed r) (k_next r) (k_cond r) (k_rl r) (k_prev r) (k_cfgl r) (k_cmdl r) (k_boot r) (k_bootleft r) (k_halt r) v (k_newl r) (k_reload r) (k_inrl r) (k_runblk r) (k_assoc r) (k_norespawn r) (k_work r) (k_emerg r) (k_nologin r) (k_conf r) (k_confchg r) (k_unavail r) (k_forks r) (k_scripts r) (k_notes r) (k_procs r) (k_mains r) (k_down r).
Definition set_k_newl (v : Z) (r : core) : core :=
  mkCore (k_svcs r) (k_gc r) (k_freed r) (k_next r) (k_cond r) (k_rl r) (k_prev r) (k_cfgl r) (k_cmdl r) (k_boot r) (k_bootleft r) (k_halt r) (k_sm r) v (k_reload r) (k_inrl r) (k_runblk r) (k_assoc r) (k_norespawn r) (k_work r) (k_emerg r) (k_nologin r) (k_conf r) (k_confchg r) (k_unavail r) (k_forks r) (k_scripts r) (k_notes r) (k_procs r) (k_mains r) (k_down r).
Definition set_k_reload (v : bool) (r : core) : core :=
  mkCore (k_svcs r) (k_gc r) (k_freed r) (k_next r) (k_cond r) (k_rl r) (k_prev r) (k_cfgl r) (k_cmdl r) (k_boot r) (k_bootleft r) (k_halt r) (k_sm r) (k_newl r) v (k_inrl r) (k_runblk r) (k_assoc r) (k_norespawn r) (k_work r) (k_emerg r) (k_nologin r) (k_conf r) (k_confchg r) (k_unavail r) (k_forks r) (k_scripts r) (k_notes r) (k_procs r) (k_mains r) (k_down r).
Definition set_k_inrl (v : bool) (r : core) : core :=
  mkCore (k_svcs r) (k_gc r) (k_freed r) (k_next r) (k_cond r) (k_rl r) (k_prev r) (k_cfgl r) (k_cmdl r) (k_boot r) (k_bootleft r) (k_halt r) (k_sm r) (k_newl r) (k_reload r) v (k_runblk r) (k_assoc r) (k_norespawn r) (k_work r) (k_emerg r) (k_nologin r) (k_conf r) (k_confchg r) (k_unavail r) (k_forks r) (k_scripts r) (k_notes r) (k_procs r) (k_mains r) (k_down r).
Definition set_k_runblk (v : Z) (r : core) : core :=
  mkCore (k_svcs r) (k_gc r) (k_freed r) (k_next r) (k_cond r) (k_rl r) (k_prev r) (k_cfgl r) (k_cmdl r) (k_boot r) (k_bootleft r) (k_halt r) (k_sm r) (k_newl r) (k_reload r) (k_inrl r) v (k_assoc r) (k_norespawn r) (k_work r) (k_emerg r) (k_nologin r) (k_conf r) (k_confchg r) (k_unavail r) (k_forks r) (k_scripts r) (k_notes r) (k_procs r) (k_mains r) (k_down r).
Definition set_k_assoc (v : list (Z * nat)) (r : core) : core :=
  mkCore (k_svcs r) (k_gc r) (k_freed r) (k_next r) (k_cond r) (k_rl r) (k_prev r) (k_cfgl r) (k_cmdl r) (k_boot r) (k_bootleft r) (k_halt r) (k_sm r) (k_newl r) (k_reload r) (k_inrl r) (k_runblk r) v (k_norespawn r) (k_work r) (k_emerg r) (k_nologin r) (k_conf r) (k_confchg r) (k_unavail r) (k_forks r) (k_scripts r) (k_notes r) (k_procs r) (k_mains r) (k_down r).
Definition set_k_norespawn (v : bool) (r : core) : core :=
  mkCore (k_svcs r) (k_gc r) (k_freed r) (k_next r) (k_cond r) (k_rl r) (k_prev r) (k_cfgl r) (k_cmdl r) (k_boot r) (k_bootleft r) (k_halt r) (k_sm r) (k_newl r) (k_reload r) (k_inrl r) (k_runblk r) (k_assoc r) v (k_work r) (k_emerg r) (k_nologin r) (k_conf r) (k_confchg r) (k_unavail r) (k_forks r) (k_scripts r) (k_notes r) (k_procs r) (k_mains r) (k_down r).
Definition set_k_work (v : bool) (r : core) : core :=
  mkCore (k_svcs r) (k_gc r) (k_freed r) (k_next r) (k_cond r) (k_rl r) (k_prev r) (k_cfgl r) (k_cmdl r) (k_boot r) (k_bootleft r) (k_halt r) (k_sm r) (k_newl r) (k_reload r) (k_inrl r) (k_runblk r) (k_assoc r) (k_norespawn r) v (k_emerg r) (k_nologin r) (k_conf r) (k_confchg r) (k_unavail r) (k_forks r) (k_scripts r) (k_notes r) (k_procs r) (k_mains r) (k_down r).
Definition set_k_emerg (v : bool) (r : core) : core :=
  mkCore (k_svcs r) (k_gc r) (k_freed r) (k_next r) (k_cond r) (k_rl r) (k_prev r) (k_cfgl r) (k_cmdl r) (k_boot r) (k_bootleft r) (k_halt r) (k_sm r) (k_newl r) (k_reload r) (k_inrl r) (k_runblk r) (k_assoc r) (k_norespawn r) (k_work r) v (k_nologin r) (k_conf r) (k_confchg r) (k_unavail r) (k_forks r) (k_scripts r) (k_notes r) (k_procs r) (k_mains r) (k_down r).
Definition set_k_nologin (v : bool) (r : core) : core :=
  mkCore (k_svcs r) (k_gc r) (k_freed r) (k_next r) (k_cond r) (k_rl r) (k_prev r) (k_cfgl r) (k_cmdl r) (k_boot r) (k_bootleft r) (k_halt r) (k_sm r) (k_newl r) (k_reload r) (k_inrl r) (k_runblk r) (k_assoc r) (k_norespawn r) (k_work r) (k_emerg r) v (k_conf r) (k_confchg r) (k_unavail r) (k_forks r) (k_scripts r) (k_notes r) (k_procs r) (k_mains r) (k_down r).
Definition set_k_conf (v : list reg) (r : core) : core :=
  mkCore (k_svcs r) (k_gc r) (k_freed r) (k_next r) (k_cond r) (k_rl r) (k_prev r) (k_cfgl r) (k_cmdl r) (k_boot r) (k_bootleft r) (k_halt r) (k_sm r) (k_newl r) (k_reload r) (k_inrl r) (k_runblk r) (k_assoc r) (k_norespawn r) (k_work r) (k_emerg r) (k_nologin r) v (k_confchg r) (k_unavail r) (k_forks r) (k_scripts r) (k_notes r) (k_procs r) (k_mains r) (k_down r).
Definition set_k_confchg (v : bool) (r : core) : core :=
  mkCore (k_svcs r) (k_gc r) (k_freed r) (k_next r) (k_cond r) (k_rl r) (k_prev r) (k_cfgl r) (k_cmdl r) (k_boot r) (k_bootleft r) (k_halt r) (k_sm r) (k_newl r) (k_reload r) (k_inrl r) (k_runblk r) (k_assoc r) (k_norespawn r) (k_work r) (k_emerg r) (k_nologin r) (k_conf r) v (k_unavail r) (k_forks r) (k_scripts r) (k_notes r) (k_procs r) (k_mains r) (k_down r).
Definition set_k_unavail (v : list string) (r : core) : core :=
  mkCore (k_svcs r) (k_gc r) (k_freed r) (k_next r) (k_cond r) (k_rl r) (k_prev r) (k_cfgl r) (k_cmdl r) (k_boot r) (k_bootleft r) (k_halt r) (k_sm r) (k_newl r) (k_reload r) (k_inrl r) (k_runblk r) (k_assoc r) (k_norespawn r) (k_work r) (k_emerg r) (k_nologin r) (k_conf r) (k_confchg r) v (k_forks r) (k_scripts r) (k_notes r) (k_procs r) (k_mains r) (k_down r).
Definition set_k_forks (v : list Z) (r : core) : core :=
  mkCore (k_svcs r) (k_gc r) (k_freed r) (k_next r) (k_cond r) (k_rl r) (k_prev r) (k_cfgl r) (k_cmdl r) (k_boot r) (k_bootleft r) (k_halt r) (k_sm r) (k_newl r) (k_reload r) (k_inrl r) (k_runblk r) (k_assoc r) (k_norespawn r) (k_work r) (k_emerg r) (k_nologin r) (k_conf r) (k_confchg r) (k_unavail r) v (k_scripts r) (k_notes r) (k_procs r) (k_mains r) (k_down r).
Definition set_k_scripts (v : list Z) (r : core) : core :=
  mkCore (k_svcs r) (k_gc r) (k_freed r) (k_next r) (k_cond r) (k_rl r) (k_prev r) (k_cfgl r) (k_cmdl r) (k_boot r) (k_bootleft r) (k_halt r) (k_sm r) (k_newl r) (k_reload r) (k_inrl r) (k_runblk r) (k_assoc r) (k_norespawn r) (k_work r) (k_emerg r) (k_nologin r) (k_conf r) (k_confchg r) (k_unavail r) (k_forks r) v (k_notes r) (k_procs r) (k_mains r) (k_down r).
Definition set_k_notes (v : list bool) (r : core) : core :=
  mkCore (k_svcs r) (k_gc r) (k_freed r) (k_next r) (k_cond r) (k_rl r) (k_prev r) (k_cfgl r) (k_cmdl r) (k_boot r) (k_bootleft r) (k_halt r) (k_sm r) (k_newl r) (k_reload r) (k_inrl r) (k_runblk r) (k_assoc r) (k_norespawn r) (k_work r) (k_emerg r) (k_nologin r) (k_conf r) (k_confchg r) (k_unavail r) (k_forks r) (k_scripts r) v (k_procs r) (k_mains r) (k_down r).
Definition set_k_procs (v : list Z) (r : core) : core :=
  mkCore (k_svcs r) (k_gc r) (k_freed r) (k_next r) (k_cond r) (k_rl r) (k_prev r) (k_cfgl r) (k_cmdl r) (k_boot r) (k_bootleft r) (k_halt r) (k_sm r) (k_newl r) (k_reload r) (k_inrl r) (k_runblk r) (k_assoc r) (k_norespawn r) (k_work r) (k_emerg r) (k_nologin r) (k_conf r) (k_confchg r) (k_unavail r) (k_forks r) (k_scripts r) (k_notes r) v (k_mains r) (k_down r).
Definition set_k_mains (v : list (Z * nat)) (r : core) : core :=
  mkCore (k_svcs r) (k_gc r) (k_freed r) (k_next r) (k_cond r) (k_rl r) (k_prev r) (k_cfgl r) (k_cmdl r) (k_boot r) (k_bootleft r) (k_halt r) (k_sm r) (k_newl r) (k_reload r) (k_inrl r) (k_runblk r) (k_assoc r) (k_norespawn r) (k_work r) (k_emerg r) (k_nologin r) (k_conf r) (k_confchg r) (k_unavail r) (k_forks r) (k_scripts r) (k_notes r) (k_procs r) v (k_down r).
Definition set_k_down (v : bool) (r : core) : core :=
  mkCore (k_svcs r) (k_gc r) (k_freed r) (k_next r) (k_cond r) (k_rl r) (k_prev r) (k_cfgl r) (k_cmdl r) (k_boot r) (k_bootleft r) (k_halt r) (k_sm r) (k_newl r) (k_reload r) (k_inrl r) (k_runblk r) (k_assoc r) (k_norespawn r) (k_work r) (k_emerg r) (k_nologin r) (k_conf r) (k_confchg r) (k_unavail r) (k_forks r) (k_scripts r) (k_notes r) (k_procs r) (k_mains r) v.

(** What the supervisor does to the outside, recorded in order. *)
Inductive fkind := FMain | FPre | FPost | FCleanup | FReady | FSysvStop.
Inductive skind := KStop | KReload.
(** changes of the condition store: cond_set, cond_set_oneshot, cond_clear,
    the removal of one file of a directory, the assertion of a file by its
    name, and a new generation (src/cond-w.c:35-285) *)
Inductive cop :=
  | OpSet (n : string) | OpOneshot (n : string) | OpClear (n : string)
  | OpUnlink (p : string) | OpSetPath (p : string) | OpReload.

(** what initctl can ask of a service *)
Inductive rq := RqStop | RqStart | RqRestart | RqReload.

Inductive eff :=
  | EFork (k : nat) (f : fkind) (pid : Z)      (* fork() succeeded *)
  | EForkFail (k : nat) (f : fkind)
  | EKill (k : nat) (pid : Z) (sig : Z)        (* kill(pid, sig) on behalf of k *)
  | EScript (k : nat) (s : skind) (rc : Z)     (* synchronous script *)
  | EState (k : nat) (old new : sst)           (* svc_set_state, old <> new *)
  | ESelfTerm (k : nat)                        (* kill(1, SIGTERM), oncrash:reboot *)
  | EHook (h : nat)
  | EShutdown (s : shut)                       (* do_shutdown() *)
  | EUaf (k : nat)                             (* use of a freed record *)
  | ERetry (k : nat)                           (* "died, restarting" (attempt n/max) *)
  | EGiveup (k : nat)                          (* "keeps crashing, not restarting" *)
  | ERunlevel (old new : Z)                    (* the runlevel changes *)
  | EReconf                                    (* the .conf files are read again *)
  | EReconfEnd                                 (* and every stanza has been registered *)
  (* markers, nothing visible happens: stopping what has to be stopped before
     a runlevel change or reload begins / is complete; the once a minute timer *)
  | EStopBegin | EStopEnd | EStartBegin | ETick
  | ERequest (k : nat) (r : rq)                (* initctl asks for something, and is heard *)
  | ECond (o : cop)                            (* the condition store is written *)
  | EAsk (l : Z)                               (* runlevel l is asked for, and will be entered *)
  | EHalt (s : shut)                           (* what to do at the end is decided *)
  | EForget (k : nat) (p : Z)                  (* a record is deleted while its process p lives *)
  | EExit (k : nat) (p : Z) (st : wstat)       (* the end of the record's process p is noticed *)
  | EBooted (timeout : bool).                  (* "All run/task have completed" / "Timeout",
                                                  "... resuming bootstrap", src/sm.c:88-97 *)

(** the last marker of a runlevel change or reload *)
Inductive mark := MkBegin | MkEnd | MkStart.
Definition eff_mark (e : eff) : option mark :=
  match e with
  | EStopBegin => Some MkBegin | EStopEnd => Some MkEnd | EStartBegin => Some MkStart
  | _ => None
  end.

Definition eff_level (e : eff) : option (Z * Z) :=
  match e with ERunlevel old new => Some (old, new) | _ => None end.

(** The log holds, newest first, each effect with the state just before it. *)
Record world := mkWorld { wc : core; wl : list (core * eff) }.
Notation log := (list (core * eff)).
