(** Every execution of the supervisor model is a sequence of small atomic
    changes.  [micro] lists them with the facts that hold when they happen;
    properties of all executions are then proved by looking at one change at
    a time.  A change is atomic when no other service can be stepped in the
    middle of it.

    Some code runs after a condition was updated, and the update may have
    stepped any service, including the one at hand when conditions depend on
    each other in a circle.  The facts known before the update are then only
    available under [calm]. *)
From Coq Require Import List String Ascii ZArith Bool Lia Arith Relations.
From Verif Require Import CondModel CoreTypes CoreModel CoreLib.
From Verif Require Export CoreTame.
Import ListNotations.
Local Open Scope Z_scope.

Fixpoint lastmark (l : list (core * eff)) : option mark :=
  match l with
  | [] => None
  | (_, e) :: l => match eff_mark e with Some m => Some m | None => lastmark l end
  end.

(** the runlevel changes, newest first *)
Fixpoint levels (l : list (core * eff)) : list (Z * Z) :=
  match l with
  | [] => []
  | (_, e) :: l => match eff_level e with Some p => p :: levels l | None => levels l end
  end.

(** /etc/nologin after these runlevel changes: entering a restricted runlevel
    creates it, leaving one removes it *)
Definition restricted (l : Z) : bool := (l =? 1) || reserved l.
Fixpoint nologin_after (l : list (Z * Z)) : bool :=
  match l with
  | [] => false
  | (old, new) :: l =>
      if restricted old then false else if restricted new then true else nologin_after l
  end.

Definition L (w : world) (k : nat) (s : svc) : Prop := lookup_svc (wc w) k = Some s.

(** svc_set_state up to its condition bookkeeping, for the current record *)
Definition went (k : nat) (new : sst) (w : world) : world :=
  match lookup_svc (wc w) k with Some s => wenter k s new w | None => w end.

(** ** Changes of the condition store *)

(** who clears [n]: either the file itself or the files below it *)
Definition clears (n : string) (o : cop) : Prop :=
  o = OpClear n \/ exists q, o = OpUnlink q /\ below (strip_slash (cond_path n)) q = true.

Definition succeeded (s : svc) : bool := s_started s && (wexitstatus (s_status s) =? 0).

Section Micro.
Variable calm : Prop.

(** why service_ready() announces a service *)
Inductive readywhy (e : ev) (k : nat) (s : svc) : Prop :=
  | rw_pidfile p : e = EvPidfile k p -> (calm -> c_notify (s_cf s) = NfPid \/ c_notify (s_cf s) = NfNone) -> readywhy e k s
  | rw_notify : e = EvNotify k -> c_notify (s_cf s) = NfSystemd \/ c_notify (s_cf s) = NfS6 -> readywhy e k s
  | rw_plain : c_notify (s_cf s) = NfNone ->
      (calm -> s_state s = Running \/ s_state s = Stopping \/ s_state s = Halted) -> readywhy e k s
  | rw_clean : (calm -> s_state s = Running /\ s_dirty s = false) -> readywhy e k s.

Inductive cwhy (e : ev) (w : world) : cop -> Prop :=
  | cw_rtclear k s n o : is_runtask s = true ->
      (calm -> exists s', L w k s' /\ s_state s' = Halted /\ ident s' = ident s /\ typestr s' = typestr s) ->
      n = successcond s \/ n = failurecond s -> clears n o -> cwhy e w o
  | cw_dir s o : is_daemon s = true -> clears (servicedir s) o -> cwhy e w o
  | cw_status s s' : is_daemon s = true -> cwhy e w (OpOneshot (servicedir s ++ status_str s')%string)
  | cw_ready k s : L w k s -> is_daemon s = true -> readywhy e k s -> cwhy e w (OpSet (readycond s))
  | cw_unready s o : is_daemon s = true -> clears (readycond s) o -> cwhy e w o
  | cw_pid k s p : e = EvPidfile k p -> c_notify (s_cf s) = NfPid ->
      (calm -> exists s', L w k s' /\ s_cf s' = s_cf s /\ s_state s' <> Stopping) -> cwhy e w (OpSet (pidcond s))
  | cw_pidpath k s : (calm -> exists s', L w k s' /\ s_cf s' = s_cf s /\ s_state s' = Running /\ s_dirty s' = false) ->
      cwhy e w (OpSetPath (cond_path (pidcond s)))
  | cw_unpid s o : clears (pidcond s) o -> cwhy e w o
  | cw_hook h : cwhy e w (OpOneshot (hook_cond h))
  | cw_boot : cwhy e w (OpOneshot "int/bootstrap")
  | cw_reload : (calm -> k_sm (wc w) = SmReChange) -> cwhy e w OpReload
  | cw_evset n : e = EvCondSet n -> cwhy e w (OpSet n)
  | cw_evone n : e = EvCondOneshot n -> cwhy e w (OpOneshot n)
  | cw_evclear n o : e = EvCondClear n -> clears n o -> cwhy e w o.

(** why service_stop() is called *)
Inductive stopwhy (e : ev) (c : core) (s : svc) : Prop :=
  | sw_disabled : enabled c s = false -> stopwhy e c s
  | sw_cond : agg c s = COff -> stopwhy e c s
  | sw_changed : s_dirty s = true -> noreload s || s_adirty s = true -> stopwhy e c s
  | sw_removed : s_removed s = true -> stopwhy e c s
  | sw_user : e = EvRestart (s_key s) -> stopwhy e c s.

Definition plain (s : svc) : bool := negb (c_stop (s_cf s)) && negb (is_sysv s).

Definition f_rtot (s : svc) : svc :=
  if is_daemon s && (negb (s_rcnt s =? 0) || negb (s_rtot s =? 0)) then set_s_rtot (s_rtot s + 1) s else s.
Definition w_prep (k : nat) (w : world) : world := wupd k f_rtot (wupd k (set_s_starting true) w).
Definition uses_socket (s : svc) : bool :=
  match c_notify (s_cf s) with NfSystemd | NfS6 => true | _ => false end.
Definition w_forked (k : nat) (s : svc) (p : Z) (w : world) : world :=
  let w := wupd k (set_s_pid p) (wfork_ok k FMain p (w_prep k w)) in
  let w := if uses_socket s then wmod (fun c => set_k_notes (tl (k_notes c)) c) w else w in
  if is_run_t (ty s) then wmod (set_k_runblk p) w else w.

Definition start_guard (w : world) (k : nat) (s : svc) : Prop :=
  L w k s /\ s_state s = Starting /\ enabled (wc w) s = true /\ k_norespawn (wc w) = false /\
  k_runblk (wc w) = 0 /\ (calm -> In k (keys (wc w))).

Definition f_retry (s : svc) : svc :=
  let n := wrap8 (s_rcnt s + 1) in
  let s := set_s_rcnt n s in
  let s := if n =? 1 then set_s_rsaved (s_rtmo s) s else s in
  let t := if n <=? Z.quot (c_restart_max (s_cf s)) 2 then 2000 else 5000 in
  set_s_block BNone (set_s_rtmo (Z.max (s_rtmo s) t) s).
Definition f_giveup (s : svc) : svc := set_s_block BCrashing (set_s_rcnt 0 (set_s_rtmo (s_rsaved s) s)).

(** the bookkeeping of service_monitor, up to service_step *)
Definition w_collect (lost : Z) (st : wstat) (s : svc) (w : world) : world :=
  let k := s_key s in
  let w := wemit (EExit k lost st) w in
  let w :=
    if is_script_state (s_state s) then
      let w := if st_eqb (s_state s) Setup then wupd k (set_s_status st) w else w in
      wupd k (set_s_pid 0) (wemit (EKill k (- lost) 9) (wcancel k w))
    else
      let w := wupd k (set_s_status st) w in
      if c_forking (s_cf s) && s_starting s then wupd k (set_s_pid 0) w
      else
        let w := wemit (EKill k (- lost) 9) w in
        let w := if is_daemon s || is_tty s then wcleanup k w
                 else wupd k (set_s_started (wifexited st)) w in
        wupd k (set_s_pid 0) w in
  if lost =? k_runblk (wc w) then wmod (set_k_runblk 0) (wclean k w) else w.

Definition c_del (k : nat) (c : core) : core :=
  match find_key k (k_svcs c) with
  | Some s => set_k_svcs (filter (fun t => negb (Nat.eqb (s_key t) k)) (k_svcs c))
                (set_k_gc (k_gc c ++ [s]) c)
  | None => c
  end.
Definition f_all (f : core -> svc -> svc) (c : core) : core := set_k_svcs (map (f c) (k_svcs c)) c.
Definition c_drop (p : Z) (c : core) : core :=
  set_k_procs (filter (fun q => negb (Z.eqb q p)) (k_procs c))
    (set_k_mains (filter (fun a => negb (Z.eqb (fst a) p)) (k_mains c)) c).

Definition c_rlchange (c : core) : core :=
  set_k_newl (-1) (set_k_rl (k_newl c) (set_k_prev (k_rl c) c)).
Definition c_nologin (c : core) : core :=
  let c1 := if (k_rl c =? 1) || reserved (k_rl c) then set_k_nologin true c else c in
  if (k_prev c1 =? 1) || reserved (k_prev c1) then set_k_nologin false c1 else c1.

Definition f_fin (r : reg) (hup ad : bool) (s : svc) : svc :=
  let cf := r_cfg r in
  let s := set_s_rtmo (r_tmo r) (set_s_cf (set_c_sighup hup cf) s) in
  let s := if is_runtask_t (c_type cf) && c_sighup cf then set_s_once 1 s else s in
  let s := if r_changed r || ad then set_s_dirty true (set_s_adirty ad s)
           else set_s_dirty false (set_s_adirty false s) in
  let s := set_s_removed false s in
  if r_static r then set_s_protect true s else s.
Definition fresh_svc (k : nat) (r : reg) : svc :=
  let cf := r_cfg r in
  let s := svc_new k r in
  let s := if c_manual cf then set_s_block BUser s else s in
  f_fin r (negb (is_tty_t (c_type cf)) && c_sighup cf) (negb (String.eqb (c_args cf) "")) s.
Definition f_rereg (r : reg) (s : svc) : svc :=
  let cf := r_cfg r in
  let s := if c_manual cf then s else set_s_block BNone s in
  let hup := if is_daemon_t (c_type cf) then c_sighup cf
             else if is_runtask_t (c_type cf) then c_sighup (s_cf s) || c_sighup cf
             else c_sighup (s_cf s) && c_sighup cf in
  f_fin r hup (negb (String.eqb (c_args cf) (c_args (s_cf s)))) s.
Definition reg_ok (c : core) (r : reg) : Prop :=
  ifthen_conf (k_svcs c) (c_ifconf (r_cfg r)) = true /\
  only_boot (c_levels (r_cfg r)) && negb (k_rl c =? 10) = false /\
  mem_str (ident_of (c_name (r_cfg r)) (c_id (r_cfg r))) (k_unavail c) = false.
Definition f_affected (n : string) (t : svc) : svc :=
  if has_cond t && cond_affects n (c_cond (s_cf t)) then set_s_dirty true t else t.
Definition f_unavail (c : core) (t : svc) : svc :=
  if ifthen_conf (k_svcs c) (c_ifconf (s_cf t)) then t else svc_mark t.
Definition c_confdone (c : core) : core :=
  set_k_confchg false
    (set_k_conf (map (fun r => mkReg (r_cfg r) (r_tmo r) false (r_static r)) (k_conf c)) c).

(** what pre:, post: and cleanup: scripts are started for *)
Definition aux_guard (f : fkind) (s : svc) : Prop :=
  match f with
  | FPre => c_pre (s_cf s) = true /\ s_state s = Setup
  | FPost => c_post (s_cf s) = true /\
             (s_state s = Teardown /\ s_pid s = 0 \/ s_state s = Halted /\ s_block s = BCrashing)
  | FCleanup => c_cleanup (s_cf s) = true /\ s_state s = Cleanup /\ s_pid s = 0
  | _ => False
  end.
Definition is_aux (f : fkind) : bool :=
  match f with FPre | FPost | FCleanup => true | _ => false end.
Definition aux_tmo (f : fkind) : cfg -> Z :=
  match f with FPre => c_pre_tmo | FPost => c_post_tmo | _ => c_cleanup_tmo end.
Definition w_aux (k : nat) (f : fkind) (p : Z) (w : world) : world :=
  let w1 := wupd k (set_s_pid p) (wfork_ok k f p w) in
  match lookup_svc (wc w1) k with
  | Some s => wtimeout k (aux_tmo f (s_cf s)) TcKillScript w1
  | None => wemit (EUaf k) w1
  end.

(** a run/task completes: its result condition is asserted with it *)
Definition w_done (k : nat) (s : svc) (w : world) : world :=
  let w1 := went k Done (if c_manual (s_cf s) then wblock k BUser w else w) in
  if st_eqb (s_state s) Done then w1
  else wcond (OpOneshot (if succeeded s then successcond s else failurecond s)) w1.

(** how the runlevel state machine moves on *)
(** the configuration is read at boot, on a change of runlevel and on reload *)
Definition loading (c : core) : Prop := k_sm c = SmBootstrap \/ k_sm c = SmRlChange \/ k_sm c = SmReChange.
(** no registered stanza is to be deleted *)
Definition none_removed (c : core) : Prop := forall k s, find_key k (k_svcs c) = Some s -> s_removed s = false.

Definition sm_edge (w : world) (s : smst) : Prop :=
  match k_sm (wc w), s with
  | SmBootstrap, SmBootstrapWait => True
  | SmBootstrapWait, SmRunning => k_newl (wc w) <> -1 /\ k_boot (wc w) = false
  | SmRunning, SmRlChange => 0 <= k_newl (wc w) <= 9 /\ k_rl (wc w) <> k_newl (wc w)
  | SmRlChange, SmRlWait => k_inrl (wc w) = true
  | SmRlWait, SmRlClean => k_inrl (wc w) = false
  | SmRlClean, SmRunning => none_removed (wc w)
  | SmReChange, SmReWait => k_inrl (wc w) = true
  | SmReWait, SmReClean => k_inrl (wc w) = false
  | SmReClean, SmRunning => none_removed (wc w)
  | _, _ => False
  end.

(** which runlevel an event asks for *)
Definition asked (e : ev) (c : core) (l : Z) : Prop :=
  match e with
  | EvRunlevel l' => l = l' /\ 0 <= l <= 9
  | EvDown ShutReboot _ | EvSigTerm => l = 6
  | EvDown _ _ | EvSigUsr2 => l = 0
  | EvBootCheck => calm -> l = if k_cmdl c =? 0 then k_cfgl c else k_cmdl c
  | _ => False
  end.
Definition asked_halt (e : ev) (s : shut) : Prop :=
  match e with
  | EvRunlevel 0 => s = ShutOff
  | EvRunlevel 6 => s = ShutReboot
  | EvDown s' _ => s = s'
  | EvSigUsr2 => s = ShutOff
  | EvSigTerm => s = ShutReboot
  | _ => False
  end.

Inductive micro (e : ev) (w : world) : world -> Prop :=
  (* --- service_step --- *)
  | m_halt_wait k s : L w k s -> s_state s = Halted -> enabled (wc w) s = true ->
      micro e w (went k Waiting w)
  | m_halt_dead k s : L w k s -> s_state s = Halted -> enabled (wc w) s = false ->
      s_removed s = true -> micro e w (went k Dead w)
  | m_unconflict k s : L w k s -> s_state s = Halted -> s_block s = BConflict ->
      conflicts (wc w) s = false -> micro e w (wblock k BNone w)
  | m_tear_clean k s : L w k s -> s_state s = Teardown -> s_pid s = 0 ->
      s_removed s = true -> c_cleanup (s_cf s) = true -> micro e w (went k Cleanup (wcancel k w))
  | m_tear_halt k s : L w k s -> s_state s = Teardown -> s_pid s = 0 ->
      s_removed s && c_cleanup (s_cf s) = false ->
      micro e w (went k Halted (wcancel k w))
  | m_clean_halt k s : L w k s -> s_state s = Cleanup -> s_pid s = 0 ->
      micro e w (went k Halted w)
  | m_done_halt k s : L w k s -> s_state s = Done -> s_dirty s = true -> (calm -> In k (keys (wc w))) ->
      micro e w (went k Halted w)
  | m_done_wait k s : L w k s ->
      (calm -> is_runtask s = true /\ c_manual (s_cf s) = true /\
               (s_state s = Done \/ s_state s = Halted) /\ In k (keys (wc w))) ->
      micro e w (went k Waiting w)
  | m_stop_cancel k s : L w k s -> s_state s = Stopping -> s_pid s = 0 ->
      micro e w (wcancel k w)
  | m_stop_done k s : L w k s -> is_runtask s = true ->
      (calm -> s_state s = Stopping /\ s_pid s = 0) -> (calm -> In k (keys (wc w))) ->
      micro e w (w_done k s w)
  | m_stop_tear k s : L w k s -> is_runtask s = false -> c_post (s_cf s) = true ->
      (calm -> s_state s = Stopping /\ s_pid s = 0) -> micro e w (went k Teardown w)
  | m_stop_clean k s : L w k s -> is_runtask s = false -> c_post (s_cf s) = false ->
      s_removed s = true -> c_cleanup (s_cf s) = true ->
      (calm -> s_state s = Stopping /\ s_pid s = 0) -> micro e w (went k Cleanup w)
  | m_stop_halt k s : L w k s -> is_runtask s = false -> c_post (s_cf s) = false ->
      s_removed s && c_cleanup (s_cf s) = false ->
      (calm -> s_state s = Stopping /\ s_pid s = 0) -> micro e w (went k Halted w)
  | m_setup_fail k s : L w k s -> s_state s = Setup -> enabled (wc w) s = true -> s_pid s = 0 ->
      negb (wifexited (s_status s)) || negb (wexitstatus (s_status s) =? 0) = true ->
      micro e w (went k Stopping w)
  | m_setup_crash k :
      (calm -> exists s, L w k s /\ s_state s = Stopping /\ s_pid s = 0 /\ s_block s = BNone) ->
      micro e w (wblock k BCrashing w)
  | m_setup_start k s : L w k s -> s_state s = Setup -> enabled (wc w) s = true -> s_pid s = 0 ->
      wifexited (s_status s) = true -> wexitstatus (s_status s) = 0 ->
      micro e w (went k Starting w)
  | m_wait_halt k s : L w k s -> s_state s = Waiting -> enabled (wc w) s = false ->
      micro e w (went k Halted w)
  | m_wait_conflict k s : L w k s -> s_state s = Waiting -> enabled (wc w) s = true ->
      conflicts (wc w) s = true ->
      micro e w (went k Halted (wblock k BConflict w))
  | m_wait_go k s : L w k s -> s_state s = Waiting -> enabled (wc w) s = true ->
      agg (wc w) s = COn -> k_inrl (wc w) = false -> k_norespawn (wc w) = false ->
      conflicts (wc w) s = false ->
      micro e w (went k (if c_pre (s_cf s) then Setup else Starting) w)
  | m_aux_ok k f p : fresh_pid p w -> is_aux f = true -> (calm -> exists s, L w k s /\ aux_guard f s) ->
      micro e w (w_aux k f p w)
  | m_aux_fail k f : is_aux f = true -> (calm -> exists s, L w k s /\ aux_guard f s) ->
      micro e w (wupd k (set_s_pid (-1)) (wfork_fail k f w))
  | m_start_halt k s : L w k s -> s_state s = Starting -> enabled (wc w) s = false ->
      micro e w (went k Halted w)
  | m_start_missing k s : start_guard w k s -> mem_str (ident s) (k_unavail (wc w)) = true ->
      micro e w (went k Halted (wblock k BMissing w))
  | m_start_ok k s p : start_guard w k s -> mem_str (ident s) (k_unavail (wc w)) = false ->
      fresh_pid p w ->
      micro e w (went k Running (wclean k (w_forked k s p w)))
  | m_start_nosock k s p : start_guard w k s -> mem_str (ident s) (k_unavail (wc w)) = false ->
      fresh_pid p w -> uses_socket s = true -> (exists l, k_notes (wc w) = true :: l) ->
      micro e w (if is_run_t (ty s) then w_forked k s p w else wupd k f_incr (w_forked k s p w))
  | m_start_fail k s : start_guard w k s ->
      micro e w (wupd k f_incr (wfork_fail k FMain (w_prep k w)))
  | m_start_held k s : L w k s -> s_state s = Starting -> enabled (wc w) s = true ->
      k_runblk (wc w) = 0 -> k_norespawn (wc w) = true -> micro e w (wupd k f_incr w)
  | m_run_died k s : L w k s -> s_state s = Running -> enabled (wc w) s = true -> s_pid s = 0 ->
      is_daemon s || is_tty s = true ->
      micro e w (went k Halted (wblock k BRestarting w))
  | m_run_retry k s : L w k s -> c_respawn (s_cf s) = false ->
      (calm -> s_state s = Halted /\ s_block s = BRestarting /\ In k (keys (wc w)) /\
               is_daemon s || is_tty s = true) ->
      micro e w (wtimeout k (s_rtmo s) TcRetry w)
  | m_run_respawn k s : L w k s -> c_respawn (s_cf s) = true ->
      (calm -> s_state s = Halted /\ s_block s = BRestarting) ->
      micro e w (wblock k BNone w)
  | m_run_done k s : L w k s -> s_state s = Running -> enabled (wc w) s = true -> s_pid s = 0 ->
      is_runtask s = true -> micro e w (went k Stopping w)
  | m_run_count k : (calm -> exists s, L w k s /\ s_state s = Stopping /\ s_pid s = 0) ->
      micro e w (wupd k (fun s => set_s_rtot (s_rtot s + 1) (set_s_once (wrap8 (s_once s + 1)) s)) w)
  | m_run_cancel k s : L w k s -> s_state s = Running -> enabled (wc w) s = true ->
      micro e w (wcancel k w)
  | m_run_pause k s : L w k s -> s_state s = Running -> enabled (wc w) s = true -> s_pid s <> 0 ->
      agg (wc w) s = CFlux ->
      micro e w (went k Paused (wemit (EKill k (s_pid s) 19) w))
  | m_clean k : micro e w (wclean k w)
  | m_cont k s : L w k s -> s_state s = Paused ->
      enabled (wc w) s = false \/ agg (wc w) s = COff /\ s_pid s <> 0 ->
      micro e w (wemit (EKill k (s_pid s) 18) w)
  | m_paused_wait k s : L w k s -> s_state s = Paused -> enabled (wc w) s = true -> s_pid s = 0 ->
      micro e w (went k Waiting (wupd k f_incr w))
  | m_paused_run k s : L w k s -> s_state s = Paused -> enabled (wc w) s = true -> s_pid s <> 0 ->
      agg (wc w) s = COn ->
      micro e w (went k Running (wemit (EKill k (s_pid s) 18) w))
  | m_work b : micro e w (wmod (set_k_work b) w)
  (* --- service_stop --- *)
  | m_sstop_none k s : L w k s -> stopwhy e (wc w) s ->
      (st_num Stopping < st_num (s_state s))%nat -> plain s = true -> s_pid s <= 1 ->
      micro e w (wcancel k w)
  | m_sstop_gone k s : L w k s -> stopwhy e (wc w) s ->
      (st_num Stopping < st_num (s_state s))%nat -> plain s = true -> 1 < s_pid s ->
      alive (wc w) (s_pid s) = false ->
      micro e w (went k Halted (wcleanup k (wcancel k w)))
  | m_sstop_lost k s : L w k s -> stopwhy e (wc w) s ->
      (st_num Stopping < st_num (s_state s))%nat -> plain s = false -> 1 < s_pid s ->
      alive (wc w) (s_pid s) = false ->
      micro e w (wupd k (set_s_pid 0) (wupd k (set_s_starting false) (wcancel k w)))
  | m_sstop_kill k s : L w k s -> stopwhy e (wc w) s ->
      (st_num Stopping < st_num (s_state s))%nat -> plain s = true -> 1 < s_pid s ->
      alive (wc w) (s_pid s) = true ->
      micro e w (went k Stopping
                   (wemit (EKill k (s_pid s) (c_sighalt (s_cf s)))
                      (wupd k (set_s_starting false) (wcancel k w))))
  | m_sstop_script k s rc : L w k s -> stopwhy e (wc w) s ->
      (st_num Stopping < st_num (s_state s))%nat -> c_stop (s_cf s) = true ->
      let w1 := wscript k KStop rc (wupd k (set_s_starting false) (wcancel k w)) in
      micro e w (if rc =? 1 then went k Halted (wcleanup k w1) else went k Stopping w1)
  | m_sstop_sysv k s p : L w k s -> stopwhy e (wc w) s ->
      (st_num Stopping < st_num (s_state s))%nat -> c_stop (s_cf s) = false -> is_sysv s = true ->
      fresh_pid p w ->
      micro e w (went k Stopping (wfork_ok k FSysvStop p (wupd k (set_s_starting false) (wcancel k w))))
  | m_sstop_sysvfail k s : L w k s -> stopwhy e (wc w) s ->
      (st_num Stopping < st_num (s_state s))%nat -> c_stop (s_cf s) = false -> is_sysv s = true ->
      micro e w (went k Halted (wcleanup k
                   (wfork_fail k FSysvStop (wupd k (set_s_starting false) (wcancel k w)))))
  (* --- service_reload --- *)
  | m_reload_script k s rc : L w k s -> s_state s = Running -> enabled (wc w) s = true ->
      agg (wc w) s = COn -> s_dirty s = true -> k_inrl (wc w) = false -> k_norespawn (wc w) = false ->
      c_reload (s_cf s) = true ->
      micro e w (let w1 := wscript k KReload rc w in
                 if rc =? 0 then wupd k (set_s_starting true) w1 else w1)
  | m_reload_nopid k s : L w k s -> s_state s = Running -> s_pid s <= 1 ->
      micro e w (wupd k (set_s_pid 0) w)
  | m_reload_hup k s : L w k s -> s_state s = Running -> enabled (wc w) s = true ->
      agg (wc w) s = COn -> s_dirty s = true -> s_adirty s = false -> k_inrl (wc w) = false -> k_norespawn (wc w) = false ->
      c_sighup (s_cf s) = true -> 1 < s_pid s ->
      micro e w (let w1 := wemit (EKill k (s_pid s) 1) w in
                 if alive (wc w) (s_pid s) then wclean k (wupd k (set_s_starting true) w1) else w1)
  (* --- service_ready, conditions --- *)
  | m_ready_ok k s p : L w k s -> fresh_pid p w -> (calm -> c_ready (s_cf s) = true) ->
      micro e w (wtimeout k (c_ready_tmo (s_cf s)) TcScriptKill
                   (wmod (fun c => set_k_assoc (k_assoc c ++ [(p, k)]) c) (wfork_ok k FReady p w)))
  | m_ready_uaf k p : lookup_svc (wc w) k = None -> fresh_pid p w -> ~ calm ->
      micro e w (wmod (fun c => set_k_assoc (k_assoc c ++ [(p, k)]) c) (wfork_ok k FReady p w))
  | m_ready_fail k : micro e w (wfork_fail k FReady w)
  | m_cond o : cwhy e w o -> micro e w (wcond o w)
  | m_cu_unblock k s : L w k s -> s_block s = BRestarting -> agg (wc w) s = COff ->
      micro e w (wblock k BNone (wcancel k w))
  | m_uaf k : lookup_svc (wc w) k = None ->
      (calm -> exists a cb ms, e = EvTimer k /\
               find (fun a => Nat.eqb (fst a) k) (k_freed (wc w)) = Some (a, TmArmed cb ms)) ->
      micro e w (wemit (EUaf k) w)
  (* --- service_monitor --- *)
  | m_collect lost st s : 1 < lost -> find_pid lost (k_svcs (wc w)) = Some s ->
      alive (wc w) lost = false -> micro e w (w_collect lost st s w)
  | m_reap lost st s : e = EvReap lost st -> 1 < lost -> alive (wc w) lost = true ->
      find_pid lost (k_svcs (wc w)) = Some s ->
      micro e w (w_collect lost st s (wmod (c_drop lost) w))
  | m_reap_other lost st : e = EvReap lost st -> alive (wc w) lost = true ->
      (1 < lost -> find_pid lost (k_svcs (wc w)) = None) ->
      micro e w (wmod (c_drop lost) w)
  | m_script_del p q k : find (fun a => Z.eqb (fst a) p) (k_assoc (wc w)) = Some (q, k) ->
      find_pid p (k_svcs (wc w)) = None -> 1 < p ->
      micro e w (wmod (fun c => set_k_assoc (filter (fun a => negb (Z.eqb (fst a) p)) (k_assoc c)) c)
                   (wemit (EKill k (- q) 9)
                      (match lookup_svc (wc w) k with Some _ => wcancel k w | None => wemit (EUaf k) w end)))
  | m_del_boot k s : L w k s -> only_boot (c_levels (s_cf s)) = true ->
      micro e w (wmod (c_del k) (wupd k (set_s_pid 0)
                   (if s_pid s =? 0 then w else wemit (EForget k (s_pid s)) w)))
  (* --- sm_step and configuration --- *)
  | m_unreg k s : find_key k (k_svcs (wc w)) = Some s -> s_removed s = true ->
      s_state s = Dead \/ s_state s = Done /\ is_runtask s = true ->
      micro e w (wmod (c_del k) (wcancel k w))
  | m_hook h : micro e w (wemit (EHook h) w)
  | m_markall : (calm -> loading (wc w)) -> micro e w (wmod (f_all (fun _ => svc_mark)) (wemit EReconf w))
  | m_new r : In r (k_conf (wc w)) -> (exists c l, wl w = (c, EReconf) :: l) ->
      find_ident (c_name (r_cfg r)) (c_id (r_cfg r)) (k_svcs (wc w)) = None ->
      reg_ok (wc w) r ->
      micro e w (wmod (fun c => set_k_next (S (k_next c))
                         (set_k_svcs (k_svcs c ++ [fresh_svc (k_next c) r]) c)) w)
  | m_rereg r s : In r (k_conf (wc w)) -> (exists c l, wl w = (c, EReconf) :: l) ->
      find_ident (c_name (r_cfg r)) (c_id (r_cfg r)) (k_svcs (wc w)) = Some s ->
      reg_ok (wc w) r ->
      micro e w (wupd (s_key s) (f_rereg r) w)
  | m_rdeps k s : (exists c l, wl w = (c, EReconf) :: l) ->
      find_key k (k_svcs (wc w)) = Some s -> s_dirty s = true -> noreload s = true ->
      micro e w (wmod (f_all (fun _ => f_affected (pidcond s))) w)
  | m_markunavail : (exists c l, wl w = (c, EReconf) :: l) -> (calm -> loading (wc w)) -> micro e w (wmod (f_all f_unavail) w)
  | m_confdone : (exists c l, wl w = (c, EReconf) :: l) -> micro e w (wmod c_confdone (wemit EReconfEnd w))
  | m_rtonce k s : L w k s -> is_runtask s = true ->
      micro e w (wupd k (set_s_once (if c_sighup (s_cf s) then 1 else 0)) w)
  | m_rthalt k s : L w k s -> is_runtask s = true -> s_state s = Done -> In k (keys (wc w)) ->
      micro e w (went k Halted w)
  | m_sm s : (calm -> sm_edge w s) -> micro e w (wmod (set_k_sm s) w)
  | m_inrl_on : (calm -> k_sm (wc w) = SmRlChange \/ k_sm (wc w) = SmReChange) ->
      micro e w (wemit EStopBegin (wmod (set_k_inrl true) w))
  | m_stop_end : k_sm (wc w) = SmRlWait \/ k_sm (wc w) = SmReWait -> stop_pending (wc w) = false ->
      micro e w (wemit EStopEnd w)
  | m_inrl_off : (calm -> (k_sm (wc w) = SmRlWait \/ k_sm (wc w) = SmReWait) /\
                         lastmark (wl w) = Some MkEnd) ->
      micro e w (wmod (set_k_inrl false) (wemit EStartBegin w))
  | m_boot : (calm -> k_sm (wc w) = SmBootstrapWait) -> micro e w (wmod (set_k_boot false) w)
  | m_newl l : asked e (wc w) l -> micro e w (wmod (set_k_newl l) (wemit (EAsk l) w))
  | m_newl_same : (calm -> k_sm (wc w) = SmRunning) -> k_rl (wc w) = k_newl (wc w) ->
      micro e w (wmod (set_k_newl (-1)) w)
  | m_reload : e = EvReloadAll \/ e = EvSigHup -> micro e w (wmod (set_k_reload true) w)
  | m_reload_go : (calm -> k_sm (wc w) = SmRunning) -> k_reload (wc w) = true ->
      micro e w (wmod (set_k_sm SmReChange) (wmod (set_k_reload false) w))
  | m_rlchange : k_sm (wc w) = SmRlChange ->
      (calm -> 0 <= k_newl (wc w) <= 9 /\ k_rl (wc w) <> k_newl (wc w)) ->
      micro e w (wmod c_rlchange (wemit (ERunlevel (k_rl (wc w)) (k_newl (wc w))) w))
  | m_nologin : (calm -> k_sm (wc w) = SmRlChange) -> micro e w (wmod c_nologin w)
  | m_shutdown : (k_rl (wc w) = 0 \/ k_rl (wc w) = 6) /\ clean_pending (wc w) = false \/
                 k_emerg (wc w) = true ->
      micro e w (wmod (set_k_down true) (wemit (EShutdown (k_halt (wc w))) w))
  (* --- timers --- *)
  | m_fires k s ms : L w k s -> s_timer s = TmArmed TcScriptKill ms ->
      micro e w (wupd k (set_s_timer (TmStale TcScriptKill)) w)
  | m_fired_kill k s ms : L w k s -> s_timer s = TmArmed TcKill ms ->
      micro e w (let w1 := wcancel k (wupd k (set_s_timer (TmStale TcKill)) w) in
                 if (1 <? s_pid s) && alive (wc w) (s_pid s)
                 then wupd k (set_s_killed true) (wemit (EKill k (s_pid s) 9) w1) else w1)
  | m_fired_retry k s ms : L w k s -> s_timer s = TmArmed TcRetry ms ->
      micro e w (wcancel k (wupd k (set_s_timer (TmStale TcRetry)) w))
  | m_fired_script k s ms : L w k s -> s_timer s = TmArmed TcKillScript ms ->
      micro e w (let w1 := wupd k (set_s_timer (TmStale TcKillScript)) w in
                 if 1 <? s_pid s then wemit (EKill k (s_pid s) 9) w1 else w1)
  | m_script_killed k p : In (p, k) (k_assoc (wc w)) -> 1 < p -> micro e w (wemit (EKill k p 9) w)
  | m_script_forget k :
      micro e w (wmod (fun c => set_k_assoc (filter (fun a => negb (Nat.eqb (snd a) k && (1 <? fst a))) (k_assoc c)) c) w)
  | m_retry_respawn k s : L w k s -> k_norespawn (wc w) = false -> c_respawn (s_cf s) = true ->
      (calm -> s_block s <> BUser) -> e = EvTimer k -> micro e w (wblock k BNone w)
  | m_retry_up k s : L w k s -> k_norespawn (wc w) = false -> c_respawn (s_cf s) = false ->
      s_state s <> Halted \/ s_block s <> BRestarting -> e = EvTimer k -> (calm -> In k (keys (wc w))) ->
      (calm -> is_daemon s || is_tty s = true) ->
      micro e w (went k Running (wupd k (fun s => set_s_rtmo (s_rsaved s) s) w))
  | m_retry_giveup k s : L w k s -> k_norespawn (wc w) = false -> c_respawn (s_cf s) = false ->
      s_state s = Halted -> s_block s = BRestarting -> c_restart_max (s_cf s) <> -1 ->
      c_restart_max (s_cf s) <= s_rcnt s -> e = EvTimer k -> (calm -> In k (keys (wc w))) ->
      micro e w (let w1 := wupd k f_giveup (wemit (EGiveup k) w) in
                 match c_oncrash (s_cf s) with OcReboot => wemit (ESelfTerm k) w1 | _ => w1 end)
  | m_retry_again k s : L w k s -> k_norespawn (wc w) = false -> c_respawn (s_cf s) = false ->
      s_state s = Halted -> s_block s = BRestarting ->
      c_restart_max (s_cf s) = -1 \/ s_rcnt s < c_restart_max (s_cf s) -> e = EvTimer k ->
      (calm -> In k (keys (wc w))) ->
      micro e w (wupd k f_retry (wemit (ERetry k) w))
  | m_retry_arm k s : L w k s -> e = EvTimer k ->
      (calm -> In k (keys (wc w)) /\ is_daemon s || is_tty s = true /\ s_block s <> BUser) ->
      micro e w (wtimeout k (s_rtmo s) TcRetry w)
  (* --- other events --- *)
  | m_gc k s : find_key k (k_gc (wc w)) = Some s ->
      micro e w (wmod (fun c => set_k_freed ((k, s_timer s) :: k_freed c)
                         (set_k_gc (filter (fun t => negb (Nat.eqb (s_key t) k)) (k_gc c)) c)) w)
  | m_bootleft t : micro e w (wmod (set_k_bootleft t) w)
  | m_api_stop k s : e = EvStop k -> find_key k (k_svcs (wc w)) = Some s ->
      reserved (k_rl (wc w)) = false ->
      micro e w (wblock k BUser (wcancel k (wemit (ERequest k RqStop) w)))
  | m_api_start k s r : e = EvStart k /\ r = RqStart \/
                        e = EvRestart k /\ r = RqRestart /\ s_state s <> Running -> find_key k (k_svcs (wc w)) = Some s ->
      reserved (k_rl (wc w)) = false ->
      micro e w (wblock k BNone (wcancel k (wemit (ERequest k r) w)))
  | m_api_cancel k s r : e = EvRestart k /\ r = RqRestart /\ s_state s = Running \/
                         e = EvReload k /\ r = RqReload /\ s_block s = BNone -> find_key k (k_svcs (wc w)) = Some s ->
      reserved (k_rl (wc w)) = false -> micro e w (wcancel k (wemit (ERequest k r) w))
  | m_api_unblock k s : e = EvReload k -> find_key k (k_svcs (wc w)) = Some s ->
      reserved (k_rl (wc w)) = false -> s_block s <> BNone -> micro e w (wblock k BNone (wemit (ERequest k RqReload) w))
  | m_api_dirty k : e = EvReload k -> (exists c l, wl w = (c, ERequest k RqReload) :: l) -> micro e w (wupd k (set_s_dirty true) w)
  | m_api_signal k s sig : e = EvSignal k sig -> find_key k (k_svcs (wc w)) = Some s ->
      s_state s = Running -> micro e w (wemit (EKill k (s_pid s) sig) w)
  | m_halt s : asked_halt e s -> micro e w (wmod (set_k_halt s) (wemit (EHalt s) w))
  | m_cfgl l : e = EvRunlevel l -> k_rl (wc w) = 10 -> 0 <= l <= 9 -> micro e w (wmod (set_k_cfgl l) w)
  | m_emerg s : e = EvDown s true -> micro e w (wmod (set_k_emerg true) w)
  | m_forked k s p : e = EvPidfile k p -> L w k s ->
      c_forking (s_cf s) = true -> is_script_state (s_state s) = false -> s_state s <> Stopping ->
      micro e w (went k Running (wblock k BNone (wcancel k w)))
  | m_pidfile k p : e = EvPidfile k (Some p) ->
      (calm -> exists s, L w k s /\ c_forking (s_cf s) = true) -> micro e w (wupd k (set_s_pid p) w)
  | m_started k : micro e w (wupd k (set_s_starting false) w)
  | m_interval :
      micro e w (wmod (f_all (fun _ s => if is_daemon s && st_eqb (s_state s) Running && (0 <? s_rcnt s)
                                then set_s_rcnt (s_rcnt s - 1) s else s)) (wemit ETick w))
  | m_gone p : e = EvGone p -> micro e w (wmod (c_drop p) w)
  | m_spawn p : e = EvSpawn p -> fresh_pid p w -> micro e w (wmod (fun c => set_k_procs (p :: k_procs c) c) w)
  | m_conf l : e = EvConf l -> micro e w (wmod (fun c => set_k_confchg true (set_k_conf l c)) w)
  | m_unavail l : e = EvUnavail l -> micro e w (wmod (set_k_unavail l) w)
  | m_norespawn b : e = EvNorespawn b -> micro e w (wmod (set_k_norespawn b) w)
  | m_oracle f s n : e = EvOracle f s n -> micro e w (wmod (fun c => set_k_forks f (set_k_scripts s (set_k_notes n c))) w)
  | m_booted : e = EvBootCheck -> micro e w (wemit (EBooted (negb (completed (wc w)))) w).

End Micro.
