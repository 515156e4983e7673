(** The service supervisor: service_step, service_monitor, sm_step,
    cond_update and everything they call, as functions of the recorded state.

    Each C function that can re-enter service_step (through cond_update) takes
    [rec], the interpreter of calls; [exec] ties the knot with fuel.  Running
    out of fuel is [None], never a value.

    Simplifications that apply throughout:
    - loops over svc_list walk the list as it was when the loop started and
      skip records deleted meanwhile (the C loops fetch the next record just
      before the body runs);
    - printing, logging, cgroup, utmp and .conf order bookkeeping are left out;
    - files, plugins and the network only act through events;
    - the kernel answers from lists of oracle values kept in the state. *)
From Coq Require Import List String Ascii ZArith Bool.
From Verif Require Import CondModel CoreTypes.
Import ListNotations.
Local Open Scope Z_scope.

(** * State monad with failure (out of fuel) *)

Definition ST (A : Type) := world -> option (A * world).
Definition ret {A} (a : A) : ST A := fun w => Some (a, w).
Definition bind {A B} (m : ST A) (f : A -> ST B) : ST B :=
  fun w => match m w with None => None | Some (a, w') => f a w' end.
Notation "x <- m ;; f" := (bind m (fun x => f)) (at level 61, m at next level, right associativity).
Notation "m ;;; f" := (bind m (fun _ => f)) (at level 61, right associativity).

Definition getc : ST core := fun w => Some (wc w, w).
Definition modc (f : core -> core) : ST unit := fun w => Some (tt, mkWorld (f (wc w)) (wl w)).
Definition emit (e : eff) : ST unit := fun w => Some (tt, mkWorld (wc w) ((wc w, e) :: wl w)).
Definition when (b : bool) (m : ST unit) : ST unit := if b then m else ret tt.

Fixpoint foreach (l : list nat) (f : nat -> ST unit) : ST unit :=
  match l with
  | [] => ret tt
  | x :: l' => f x ;;; foreach l' f
  end.

(** * Reading the state *)

Definition find_key (k : nat) (l : list svc) : option svc :=
  find (fun s => Nat.eqb (s_key s) k) l.

(** memory of a record: still valid in gc_list, gone once freed *)
Definition lookup_svc (c : core) (k : nat) : option svc :=
  match find_key k (k_svcs c) with
  | Some s => Some s
  | None => find_key k (k_gc c)
  end.

Definition registered (c : core) (k : nat) : bool :=
  match find_key k (k_svcs c) with Some _ => true | None => false end.

Definition keys (c : core) : list nat := map s_key (k_svcs c).

Definition memZ (x : Z) (l : list Z) : bool := existsb (Z.eqb x) l.
Definition mem_str (x : string) (l : list string) : bool := existsb (String.eqb x) l.

(** src/svc.h:275-278 *)
Definition is_daemon_t (t : sty) : bool := match t with TService | TSysv => true | _ => false end.
Definition is_tty_t (t : sty) : bool := match t with TTty => true | _ => false end.
Definition is_sysv_t (t : sty) : bool := match t with TSysv => true | _ => false end.
Definition is_run_t (t : sty) : bool := match t with TRun => true | _ => false end.
Definition is_runtask_t (t : sty) : bool := match t with TTask | TRun => true | _ => false end.

Definition ty (s : svc) : sty := c_type (s_cf s).
Definition is_daemon (s : svc) := is_daemon_t (ty s).
Definition is_tty (s : svc) := is_tty_t (ty s).
Definition is_sysv (s : svc) := is_sysv_t (ty s).
Definition is_runtask (s : svc) := is_runtask_t (ty s).

(** SVC_TYPE_* masks used with service_step_all, src/svc.h:54-57 *)
Definition m_any (t : sty) : bool := true.
Definition m_respawn (t : sty) : bool := negb (is_runtask_t t).
Definition m_runtask (t : sty) : bool := is_runtask_t t.
Definition m_boot (t : sty) : bool := is_runtask_t t || is_daemon_t t.
Definition m_worker (t : sty) : bool := m_respawn t || m_runtask t.
Definition m_reconf (t : sty) : bool := is_runtask_t t || match t with TService => true | _ => false end.

(** svc_ident, src/svc.h: "name" or "name:id" *)
Definition ident_of (n i : string) : string :=
  if String.eqb i "" then n else (n ++ ":" ++ i)%string.
Definition ident (s : svc) : string := ident_of (c_name (s_cf s)) (c_id (s_cf s)).

(** svc_typestr, src/svc.h:338-361 *)
Definition typestr (s : svc) : string :=
  (match ty s with
   | TService => "service" | TTask => "task" | TRun => "run" | TTty => "tty" | TSysv => "sysv"
   end)%string.

(** mkcond (src/cond-w.c), and the other names derived from the identity *)
Definition pidcond (s : svc) : string := ("pid/" ++ ident s)%string.
Definition readycond (s : svc) : string := ("service/" ++ ident s ++ "/ready")%string.
Definition servicedir (s : svc) : string := ("service/" ++ ident s ++ "/")%string.
Definition successcond (s : svc) : string := (typestr s ++ "/" ++ ident s ++ "/success")%string.
Definition failurecond (s : svc) : string := (typestr s ++ "/" ++ ident s ++ "/failure")%string.

(** svc_status for the two states whose name is used in a condition,
    src/svc.h:363-440 (the other states are never asked for here) *)
Definition status_str (s : svc) : string :=
  (match s_state s with
   | Halted =>
       match s_block s with
       | BNone => "halted" | BMissing => "missing" | BCrashing => "crashed"
       | BUser => "stopped" | BBusy => "busy" | BRestarting => "restart"
       | BConflict => "conflict"
       end
   | Running => "running"
   | _ => "other"
   end)%string.

Definition blocked (s : svc) : bool := negb (blk_eqb (s_block s) BNone).

(** svc_is_noreload, src/svc.h:281 *)
Definition noreload (s : svc) : bool := negb (c_sighup (s_cf s)) && negb (c_reload (s_cf s)).

(** svc_find, src/svc.c:397-412 *)
Definition find_ident (n i : string) (l : list svc) : option svc :=
  find (fun s => String.eqb (c_name (s_cf s)) n && String.eqb (c_id (s_cf s)) i) l.

(** svc_find_by_str, src/svc.c:421-437: "name" or "name:id", cut at the first
    colon *)
Fixpoint cut_colon (s : string) : string * string :=
  match s with
  | EmptyString => (""%string, ""%string)
  | String c s' =>
      if Ascii.eqb c ":"%char then (""%string, s')
      else let (a, b) := cut_colon s' in (String c a, b)
  end.
Definition find_str (x : string) (l : list svc) : option svc :=
  let (n, i) := cut_colon x in find_ident n i l.

(** svc_find_by_pid, src/svc.c:445-459 *)
Definition find_pid (p : Z) (l : list svc) : option svc :=
  find (fun s => Z.eqb (s_pid s) p) l.

(** svc_conflicts, src/svc.c:710-738: the loop stops at the first name that is
    registered, whatever its state *)
Fixpoint conflicts_in (l : list svc) (names : list string) : bool :=
  match names with
  | [] => false
  | n :: ns =>
      match find_str n l with
      | Some s => Nat.leb (st_num Stopping) (st_num (s_state s))
      | None => conflicts_in l ns
      end
  end.
Definition conflicts (c : core) (s : svc) : bool := conflicts_in (k_svcs c) (c_conflict (s_cf s)).

(** svc_ifthen at run time (is_conf = 0), src/svc.c:750-812: "<" statements
    compare the state of the conditions, others hold *)
Definition ifthen_run (cs : cstore) (l : list (bool * string)) : bool :=
  forallb (fun x : bool * string => if fst x then negb (cs_eqb (cond_get cs (snd x)) COn)
                    else negb (cs_eqb (cond_get cs (snd x)) COff)) l.

(** svc_ifthen at load time (is_conf = 1): is the other stanza there? *)
Definition ifthen_conf (l : list svc) (st : list (bool * string)) : bool :=
  forallb (fun x : bool * string => let found := match find_str (snd x) l with Some _ => true | None => false end in
                    if fst x then negb found else found) st.

Definition in_level (lv : N) (rl : Z) : bool := N.testbit lv (Z.to_N rl).

(** svc_enabled, src/svc.c:670-701 *)
Definition enabled (c : core) (s : svc) : bool :=
  in_level (c_levels (s_cf s)) (k_rl c)
  && negb (s_removed s) && negb (blocked s)
  && ifthen_run (k_cond c) (c_if (s_cf s))
  && negb (is_tty s && k_boot c).

Definition agg (c : core) (s : svc) : cstate := cond_get_agg (k_cond c) (c_cond (s_cf s)).

(** svc_has_cond, src/svc.h:318-336 *)
Definition has_cond (s : svc) : bool := match c_cond (s_cf s) with [] => false | _ => true end.

(** pid_alive and pid_get_name both look at /proc/PID (src/pid.c) *)
Definition alive (c : core) (p : Z) : bool := memZ p (k_procs c).

(** svc_stop_completed and svc_clean_completed, src/svc.c:340-387 *)
Definition stop_pending (c : core) : bool :=
  existsb (fun s => st_eqb (s_state s) Stopping && (1 <? s_pid s)) (k_svcs c).
Definition clean_pending (c : core) : bool :=
  existsb (fun s =>
    negb (enabled c s)
    && negb (is_runtask s && st_eqb (s_state s) Done)
    && negb (if s_removed s then st_eqb (s_state s) Dead else st_eqb (s_state s) Halted))
    (k_svcs c).

(** strstr on the condition string, src/service.c:3038-3039 *)
Fixpoint contains (needle hay : string) : bool :=
  String.prefix needle hay ||
  match hay with EmptyString => false | String _ h => contains needle h end.

(** service_completed, src/service.c:3024-3054 *)
Definition completed (c : core) : bool :=
  forallb (fun s =>
    negb (is_runtask s) || negb (enabled c s) || conflicts c s
    || existsb (fun n => contains "hook/svc/up" n || contains "hook/sys/up" n) (c_cond (s_cf s))
    || negb (s_once s =? 0)) (k_svcs c).

(** * Writing the state *)

Definition map_key (k : nat) (f : svc -> svc) (l : list svc) : list svc :=
  map (fun s => if Nat.eqb (s_key s) k then f s else s) l.

Definition upd (k : nat) (f : svc -> svc) : ST unit :=
  modc (fun c => set_k_svcs (map_key k f (k_svcs c)) (set_k_gc (map_key k f (k_gc c)) c)).

(** dereference a record; a freed one is a use after free and the rest of the
    function is skipped *)
Definition with_svc {A} (k : nat) (d : A) (f : svc -> ST A) : ST A :=
  c <- getc ;;
  match lookup_svc c k with
  | Some s => f s
  | None => emit (EUaf k) ;;; ret d
  end.

(** fork(): the next oracle value is the child's pid unless it could not be
    one, in which case fork() failed *)
Definition do_fork (k : nat) (f : fkind) : ST Z :=
  c <- getc ;;
  match k_forks c with
  | p :: l =>
      if (p <=? 1) || memZ p (k_procs c)
      then modc (set_k_forks l) ;;; emit (EForkFail k f) ;;; ret (-1)
      else modc (set_k_forks l) ;;; emit (EFork k f p) ;;;
           modc (fun c => set_k_procs (p :: k_procs c) c) ;;;
           modc (fun c => set_k_mains (match f with FMain => (p, k) :: k_mains c | _ => k_mains c end) c) ;;;
           ret p
  | [] => emit (EForkFail k f) ;;; ret (-1)
  end.

(** kill(): 0, or -1 with ESRCH when nothing has that pid *)
Definition do_kill (k : nat) (p sig : Z) : ST Z :=
  emit (EKill k p sig) ;;;
  c <- getc ;;
  ret (if (0 <? p) && negb (memZ p (k_procs c)) then -1 else 0).

(** service_run_script, src/service.c:958-1004: waits for the script, its
    result is an oracle value (1 when fork() fails, -1 when waitpid() does) *)
Definition run_script (k : nat) (s : skind) : ST Z :=
  c <- getc ;;
  match k_scripts c with
  | [] => emit (EScript k s 1) ;;; ret 1
  | r :: l => modc (set_k_scripts l) ;;; emit (EScript k s r) ;;; ret r
  end.

(** service_timeout_after and service_timeout_cancel, src/service.c:112-144 *)
Definition timeout_after (k : nat) (ms : Z) (cb : tcb) : ST unit :=
  upd k (fun s => if ms =? 0 then s
                  else match s_timer s with
                       | TmNone => set_s_timer (if ms <? 0 then TmStale cb else TmArmed cb ms) s
                       | _ => s
                       end).
Definition cancel (k : nat) : ST unit := upd k (set_s_timer TmNone).

Definition mark_clean (k : nat) : ST unit :=
  upd k (fun s => set_s_dirty false (set_s_adirty false s)).
Definition unblock (k : nat) : ST unit := upd k (set_s_block BNone).

(** a C char: signed 8 bits (src/svc.h:165, x86) *)
Definition wrap8 (x : Z) : Z := (x + 128) mod 256 - 128.

(** service_cleanup, src/service.c:1022-1042 *)
Definition service_cleanup (k : nat) : ST unit :=
  cancel k ;;;
  upd k (fun s => set_s_pid 0 (set_s_starting false (set_s_oldpid (s_pid s) s))).

(** * Calls that can re-enter *)

Inductive call :=
  | CStep (k : nat) (changed waiting : bool)   (* service_step, from the label "restart" *)
  | CUpdate (name : string)                    (* cond_update *)
  | CMonitor (pid : Z) (st : wstat)            (* service_monitor *)
  | CSm.                                       (* sm_step *)

Section Bodies.
Variable rec : call -> ST unit.

(** svc_foreach_type with service_step, src/svc.c and src/service.c:2974-2977 *)
Definition step_all (m : sty -> bool) : ST unit :=
  c <- getc ;;
  foreach (keys c) (fun k =>
    c <- getc ;;
    match find_key k (k_svcs c) with
    | Some s => when (m (ty s)) (rec (CStep k false false))
    | None => ret tt
    end).

Definition apply_cop (o : cop) (cs : cstore) : cstore :=
  match o with
  | OpSet n => snd (cond_set_nu cs n)
  | OpOneshot n => snd (cond_oneshot_nu cs n)
  | OpClear n => snd (cond_clear_nu cs n)
  | OpUnlink p => snd (cond_unlink cs p)
  | OpSetPath p => snd (cond_set_path cs p)
  | OpReload => cond_reload cs
  end.
Definition c_op (o : cop) : ST unit :=
  emit (ECond o) ;;; modc (fun c => set_k_cond (apply_cop o (k_cond c)) c).

(** cond_set, cond_set_oneshot, cond_clear: src/cond-w.c:313-383 *)
Definition c_set (n : string) : ST unit :=
  c <- getc ;;
  c_op (OpSet n) ;;; when (fst (cond_set_nu (k_cond c) n)) (rec (CUpdate n)).

Definition c_oneshot (n : string) : ST unit :=
  c <- getc ;;
  c_op (OpOneshot n) ;;; when (fst (cond_oneshot_nu (k_cond c) n)) (rec (CUpdate n)).

Fixpoint c_delpath (l : list string) : ST unit :=
  match l with
  | [] => ret tt
  | q :: l' =>
      c_op (OpUnlink q) ;;;
      c <- getc ;;
      when (negb (k_inrl c)) (rec (CUpdate q)) ;;;
      c_delpath l'
  end.

(** A directory is removed file by file (do_delete, src/cond-w.c:201-227), each
    with its own update unless in reload; its own state is off before and
    after, so the final update does not happen. *)
Definition c_clear (n : string) : ST unit :=
  c <- getc ;;
  if is_nop n then ret tt
  else if is_dir (k_cond c) (cond_path n) then c_delpath (dir_children (k_cond c) (cond_path n))
  else c_op (OpClear n) ;;; when (fst (cond_clear_nu (k_cond c) n)) (rec (CUpdate n)).

(** cond_clear_noupdate, src/cond-w.c:364-374 *)
Definition c_clear_nu (n : string) : ST unit :=
  c <- getc ;;
  if is_nop n then ret tt
  else if is_dir (k_cond c) (cond_path n) then c_delpath (dir_children (k_cond c) (cond_path n))
  else c_op (OpClear n).

(** cond_update, src/cond-w.c:289-311 *)
Definition cond_update (n : string) : ST unit :=
  c <- getc ;;
  foreach (keys c) (fun k =>
    c <- getc ;;
    match find_key k (k_svcs c) with
    | Some s =>
        if has_cond s && cond_affects n (c_cond (s_cf s)) then
          when (blk_eqb (s_block s) BRestarting && cs_eqb (agg c s) COff)
               (cancel k ;;; unblock k) ;;;
          rec (CStep k false false)
        else ret tt
    | None => ret tt
    end).

(** svc_set_state, src/service.c:2545-2607 *)
Definition set_state (k : nat) (new : sst) : ST unit :=
  with_svc k tt (fun s =>
    let old := s_state s in
    when (st_eqb new Stopping)
         (cancel k ;;; timeout_after k (c_killdelay (s_cf s)) TcKill ;;;
          upd k (set_s_killed false)) ;;;
    if st_eqb old new then ret tt
    else
      emit (EState k old new) ;;;
      upd k (set_s_state new) ;;;
      when (is_runtask s)
        (when (st_eqb new Done)
           (if s_started s && (wexitstatus (s_status s) =? 0)
            then c_oneshot (successcond s) else c_oneshot (failurecond s)) ;;;
         when (st_eqb new Halted)
           (c_clear (successcond s) ;;; c_clear (failurecond s))) ;;;
      when (is_daemon s)
        ((if (st_eqb old Running && st_eqb new Paused) || (st_eqb old Paused && st_eqb new Running)
          then ret tt
          else c <- getc ;;
               if k_inrl c then c_clear_nu (servicedir s) else c_clear (servicedir s)) ;;;
         when (st_eqb new Halted || st_eqb new Running)
           (with_svc k tt (fun s2 => c_oneshot (servicedir s ++ status_str s2)%string)))).

(** service_ready_script and service_ready, src/service.c:2391-2430, 2625-2640 *)
Definition ready_script (k : nat) : ST unit :=
  p <- do_fork k FReady ;;
  if p <? 0 then ret tt
  else modc (fun c => set_k_assoc (k_assoc c ++ [(p, k)]) c) ;;;
       with_svc k tt (fun s => timeout_after k (c_ready_tmo (s_cf s)) TcScriptKill).

Definition service_ready (k : nat) (rdy : bool) : ST unit :=
  with_svc k tt (fun s =>
    if negb (is_daemon s) then ret tt
    else if rdy then c_set (readycond s) ;;; when (c_ready (s_cf s)) (ready_script k)
    else c_clear (readycond s)).

(** service_start, src/service.c:593-911 (checks, fork, bookkeeping of the
    parent).  The result is what the C function returns. *)
Definition service_start (k : nat) : ST Z :=
  with_svc k 1 (fun s =>
    c <- getc ;;
    if k_norespawn c then ret 1
    else if negb (k_runblk c =? 0) then ret 1
    else if mem_str (ident s) (k_unavail c) then upd k (set_s_block BMissing) ;;; ret 1
    else
      upd k (set_s_starting true) ;;;
      upd k (fun s => if is_daemon s && (negb (s_rcnt s =? 0) || negb (s_rtot s =? 0))
                      then set_s_rtot (s_rtot s + 1) s else s) ;;;
      p <- do_fork k FMain ;;
      if p <? 0 then ret (-1)
      else
        upd k (set_s_pid p) ;;;
        r <- (match c_notify (s_cf s) with
              | NfSystemd | NfS6 =>
                  c <- getc ;;
                  match k_notes c with
                  | [] => ret 0
                  | b :: l => modc (set_k_notes l) ;;; ret (if b then -1 else 0)
                  end
              | _ => ret 0
              end) ;;
        when (is_run_t (ty s)) (modc (set_k_runblk p)) ;;;
        ret r).

(** service_stop, src/service.c:1055-1177 *)
Definition service_stop (k : nat) : ST unit :=
  with_svc k tt (fun s =>
    if Nat.leb (st_num (s_state s)) (st_num Stopping) then ret tt
    else
      cancel k ;;;
      c <- getc ;;
      let plain := negb (c_stop (s_cf s)) && negb (is_sysv s) in
      if plain && (s_pid s <=? 1) then ret tt
      else if plain && negb (alive c (s_pid s)) then service_cleanup k ;;; set_state k Halted
      else
        upd k (set_s_starting false) ;;;
        if (1 <? s_pid s) && negb (alive c (s_pid s)) then upd k (set_s_pid 0)
        else
          rc <- (if c_stop (s_cf s) then run_script k KStop
                 else if negb (is_sysv s) then
                   r <- do_kill k (s_pid s) (c_sighalt (s_cf s)) ;;
                   ret (if r =? -1 then 1 else 0)
                 else
                   p <- do_fork k FSysvStop ;;
                   ret (if p <? 0 then 1 else 0)) ;;
          if rc =? 1 then service_cleanup k ;;; set_state k Halted
          else set_state k Stopping).

(** service_reload, src/service.c:1190-1246 *)
Definition service_reload (k : nat) : ST unit :=
  with_svc k tt (fun s =>
    c <- getc ;;
    if k_norespawn c then ret tt
    else if c_reload (s_cf s) then
      rc <- run_script k KReload ;;
      when (rc =? 0) (upd k (set_s_starting true))
    else if c_sighup (s_cf s) then
      if s_pid s <=? 1 then upd k (set_s_pid 0)
      else
        r <- do_kill k (s_pid s) 1 ;;
        if r =? 0 then upd k (set_s_starting true)
        else rec (CMonitor (s_pid s) (Exited 0))
    else ret tt).

(** pre:, post: and cleanup: scripts, src/service.c:2293-2382, 2432-2468: the
    pid of the script (or the -1 of a failed fork) is kept in svc->pid *)
Definition aux_script (k : nat) (f : fkind) (tmo : cfg -> Z) : ST unit :=
  p <- do_fork k f ;;
  upd k (set_s_pid p) ;;;
  if p <? 0 then ret tt
  else with_svc k tt (fun s => timeout_after k (tmo (s_cf s)) TcKillScript).
Definition pre_script (k : nat) := aux_script k FPre c_pre_tmo.
Definition post_script (k : nat) := aux_script k FPost c_post_tmo.
Definition cleanup_script (k : nat) := aux_script k FCleanup c_cleanup_tmo.

(** The switch of service_step, src/service.c:2664-2952.  [true] stands for
    "goto done". *)
Definition step_halted (k : nat) (s : svc) (c : core) : ST bool :=
  (if enabled c s then set_state k Waiting
   else if s_removed s then set_state k Dead
   else when (blk_eqb (s_block s) BConflict && negb (conflicts c s)) (unblock k)) ;;;
  ret false.

Definition step_teardown (k : nat) (s : svc) : ST bool :=
  when (s_pid s =? 0)
    (cancel k ;;;
     if s_removed s && c_cleanup (s_cf s)
     then set_state k Cleanup ;;; cleanup_script k
     else set_state k Halted) ;;;
  ret false.

Definition step_cleanup (k : nat) (s : svc) : ST bool :=
  when (s_pid s =? 0) (set_state k Halted) ;;; ret false.

Definition step_done (k : nat) (s : svc) (c : core) : ST bool :=
  let en := enabled c s in
  when (s_dirty s) (set_state k Halted) ;;;
  when (is_runtask s && c_manual (s_cf s) && en) (set_state k Waiting) ;;;
  ret false.

Definition step_stopping (k : nat) (s : svc) : ST bool :=
  when (s_pid s =? 0)
    (cancel k ;;;
     c_clear (pidcond s) ;;;
     with_svc k tt (fun s =>
       if is_runtask s then
         when (c_manual (s_cf s)) (upd k (set_s_block BUser)) ;;; set_state k Done
       else if c_post (s_cf s) then set_state k Teardown ;;; post_script k
       else if s_removed s && c_cleanup (s_cf s) then set_state k Cleanup ;;; cleanup_script k
       else set_state k Halted)) ;;;
  ret false.

Definition step_setup (k : nat) (s : svc) (c : core) : ST bool :=
  (if negb (enabled c s) then service_stop k
   else when (s_pid s =? 0)
     (if negb (wifexited (s_status s)) || negb (wexitstatus (s_status s) =? 0)
      then set_state k Stopping ;;; upd k (set_s_block BCrashing)
      else set_state k Starting)) ;;;
  ret false.

Definition step_waiting (k : nat) (s : svc) (c : core) : ST bool :=
  (if negb (enabled c s) then set_state k Halted
   else when (cs_eqb (agg c s) COn)
     (if k_inrl c then ret tt
      else if k_norespawn c then ret tt
      else if conflicts c s then upd k (set_s_block BConflict) ;;; set_state k Halted
      else if c_pre (s_cf s) then set_state k Setup ;;; pre_script k
      else set_state k Starting)) ;;;
  ret false.

Definition incr_cnt (k : nat) : ST unit :=
  upd k (fun s => set_s_rcnt (wrap8 (s_rcnt s + 1)) s).

Definition step_starting (k : nat) (s : svc) (c : core) : ST bool :=
  (if negb (enabled c s) then set_state k Halted
   else
     err <- service_start k ;;
     if negb (err =? 0) then
       c <- getc ;;
       if negb (k_runblk c =? 0) then ret tt
       else with_svc k tt (fun s =>
              if blk_eqb (s_block s) BMissing then set_state k Halted else incr_cnt k)
     else mark_clean k ;;; set_state k Running) ;;;
  ret false.

Definition step_running (k : nat) (s : svc) (c : core) : ST bool :=
  if negb (enabled c s) then service_stop k ;;; ret false
  else if (s_pid s =? 0) && (is_daemon s || is_tty s) then
    upd k (set_s_block BRestarting) ;;;
    set_state k Halted ;;;
    with_svc k true (fun s =>
      if negb (c_respawn (s_cf s))
      then timeout_after k (s_rtmo s) TcRetry ;;; ret true
      else unblock k ;;; ret false)
  else if (s_pid s =? 0) && is_runtask s then
    set_state k Stopping ;;;
    upd k (fun s => set_s_rtot (s_rtot s + 1) (set_s_once (wrap8 (s_once s + 1)) s)) ;;;
    ret false
  else
    cancel k ;;;
    (match agg c s with
     | COff => service_stop k
     | CFlux => do_kill k (s_pid s) 19 ;;; set_state k Paused
     | COn =>
         skip <- (if s_dirty s then
                    if noreload s || s_adirty s then service_stop k ;;; mark_clean k ;;; ret false
                    else if k_inrl c then ret true
                    else service_reload k ;;; mark_clean k ;;; ret false
                  else ret false) ;;
         if skip then ret tt
         else with_svc k tt (fun s =>
                match c_notify (s_cf s) with NfNone => service_ready k true | _ => ret tt end)
     end) ;;;
    ret false.

Definition step_paused (k : nat) (s : svc) (c : core) : ST bool :=
  (if negb (enabled c s) then do_kill k (s_pid s) 18 ;;; service_stop k
   else if s_pid s =? 0 then incr_cnt k ;;; set_state k Waiting
   else
     match agg c s with
     | COn =>
         do_kill k (s_pid s) 18 ;;;
         set_state k Running ;;;
         with_svc k tt (fun s =>
           when (negb (s_dirty s))
             ((match c_notify (s_cf s) with
               | NfPid => c_op (OpSetPath (cond_path (pidcond s)))
               | _ => ret tt
               end) ;;;
              service_ready k true))
     | COff => do_kill k (s_pid s) 18 ;;; service_stop k
     | CFlux => ret tt
     end) ;;;
  ret false.

Definition step_switch (k : nat) (s : svc) (c : core) : ST bool :=
  match s_state s with
  | Halted => step_halted k s c
  | Teardown => step_teardown k s
  | Cleanup => step_cleanup k s
  | Dead => ret false
  | Done => step_done k s c
  | Stopping => step_stopping k s
  | Setup => step_setup k s c
  | Waiting => step_waiting k s c
  | Starting => step_starting k s c
  | Running => step_running k s c
  | Paused => step_paused k s c
  end.

Definition sched (b : bool) : ST unit := when b (modc (set_k_work true)).

(** service_step, src/service.c:2647-2972; "goto restart" is the recursive
    call *)
Definition service_step (k : nat) (changed waiting : bool) : ST unit :=
  with_svc k tt (fun s =>
    c <- getc ;;
    d <- step_switch k s c ;;
    if d then sched (changed || waiting)
    else
      c <- getc ;;
      let waiting := negb (k_runblk c =? 0) in
      with_svc k tt (fun s' =>
        if negb (st_eqb (s_state s') (s_state s)) then rec (CStep k true waiting)
        else sched (changed || waiting))).

(** svc_del, src/svc.c:174-183 *)
Definition svc_del (k : nat) : ST unit :=
  modc (fun c =>
    match find_key k (k_svcs c) with
    | Some s => set_k_svcs (filter (fun t => negb (Nat.eqb (s_key t) k)) (k_svcs c))
                  (set_k_gc (k_gc c ++ [s]) c)
    | None => c
    end).

(** svc_clean_bootstrap, src/svc.c:633-642; ISOTHER(levels, INIT_LEVEL) *)
Definition only_boot (lv : N) : bool := N.eqb (N.clearbit lv 10) 0.
Definition clean_bootstrap (k : nat) : ST unit :=
  with_svc k tt (fun s =>
    when (only_boot (c_levels (s_cf s)))
      (when (negb (s_pid s =? 0)) (emit (EForget k (s_pid s))) ;;;
       upd k (set_s_pid 0) ;;; svc_del k)).

(** service_script_del, src/service.c:189-207 *)
Definition script_del (p : Z) : ST unit :=
  c <- getc ;;
  match find (fun a => Z.eqb (fst a) p) (k_assoc c) with
  | None => ret tt
  | Some (q, k) =>
      with_svc k tt (fun _ => cancel k) ;;;
      do_kill k (- q) 9 ;;;
      modc (fun c => set_k_assoc (filter (fun a => negb (Z.eqb (fst a) p)) (k_assoc c)) c)
  end.

(** service_monitor, src/service.c:2109-2202 *)
Definition is_script_state (s : sst) : bool :=
  match s with Setup | Teardown | Cleanup => true | _ => false end.

Definition service_monitor (lost : Z) (st : wstat) : ST unit :=
  if lost <=? 1 then ret tt
  else
    c <- getc ;;
    match find_pid lost (k_svcs c) with
    | None => script_del lost
    | Some s =>
        let k := s_key s in
        emit (EExit k lost st) ;;;
        (if is_script_state (s_state s) then
           when (st_eqb (s_state s) Setup) (upd k (set_s_status st)) ;;;
           cancel k ;;;
           do_kill k (- lost) 9 ;;;
           upd k (set_s_pid 0)
         else
           upd k (set_s_status st) ;;;
           if c_forking (s_cf s) && s_starting s then upd k (set_s_pid 0)
           else
             do_kill k (- lost) 9 ;;;
             (if is_daemon s || is_tty s then service_cleanup k
              else upd k (set_s_started (wifexited st))) ;;;
             upd k (set_s_pid 0)) ;;;
        c <- getc ;;
        when (lost =? k_runblk c) (mark_clean k ;;; modc (set_k_runblk 0)) ;;;
        rec (CStep k false false) ;;;
        clean_bootstrap k ;;;
        rec CSm
    end.

(** service_unregister, src/service.c:2093-2107 (device monitoring aside) *)
Definition unregister (k : nat) : ST unit :=
  service_stop k ;;; cancel k ;;; svc_del k.

(** svc_clean_dynamic, src/svc.c:616-624 *)
Definition clean_dynamic : ST unit :=
  c <- getc ;;
  foreach (keys c) (fun k =>
    c <- getc ;;
    match find_key k (k_svcs c) with
    | Some s => when (s_removed s) (unregister k)
    | None => ret tt
    end).

(** plugin_run_hooks, src/plugin.c:247-274, with the names of src/plugin.h:68-90 *)
Inductive hook := HkNetUp | HkSvcUp | HkSysUp | HkReconf | HkRunlevel | HkNetDn | HkShutdown.
Definition hook_no (h : hook) : nat :=
  match h with HkNetUp => 6 | HkSvcUp => 7 | HkSysUp => 8 | HkReconf => 9 | HkRunlevel => 10
             | HkNetDn => 11 | HkShutdown => 12 end.
Definition hook_cond (h : hook) : string :=
  (match h with HkNetUp => "hook/net/up" | HkSvcUp => "hook/svc/up" | HkSysUp => "hook/sys/up"
              | HkReconf => "nop" | HkRunlevel => "nop" | HkNetDn => "hook/net/down"
              | HkShutdown => "hook/sys/shutdown" end)%string.

(** pidfile_reconf, the HOOK_SVC_RECONF callback of plugins/pidfile.c:259-288 *)
Definition pidfile_reconf : ST unit :=
  c <- getc ;;
  foreach (keys c) (fun k =>
    c <- getc ;;
    match find_key k (k_svcs c) with
    | Some s =>
        if st_eqb (s_state s) Running && negb (s_dirty s) && negb (s_starting s) then
          (match c_notify (s_cf s) with NfPid => service_ready k true | _ => ret tt end) ;;;
          c <- getc ;;
          if cs_eqb (cond_get (k_cond c) (pidcond s)) COn then ret tt
          else c_op (OpSetPath (cond_path (pidcond s)))
        else ret tt
    | None => ret tt
    end) ;;;
  step_all m_reconf.

Definition run_hook (h : hook) : ST unit :=
  emit (EHook (hook_no h)) ;;;
  (match h with HkReconf => pidfile_reconf | _ => ret tt end) ;;;
  c_oneshot (hook_cond h) ;;;
  step_all m_runtask.

(** ** Configuration: conf_reload, src/conf.c:1253-1428 *)

Definition upd_all (f : core -> svc -> svc) : ST unit :=
  modc (fun c => set_k_svcs (map (f c) (k_svcs c)) c).

(** svc_mark, src/svc.c:567-573 *)
Definition svc_mark (s : svc) : svc := if s_protect s then s else set_s_removed true s.

(** a fresh record: calloc() in svc_new, src/svc.c:117-160 *)
Definition svc_new (k : nat) (r : reg) : svc :=
  mkSvc k (r_cfg r) Halted BNone 0 0 false false false false false false (Exited 0)
        0 0 0 (r_tmo r) 0 TmNone false.

(** service_register, src/service.c:1659-2083, once the stanza is parsed.
    ttys are looked up by identity too (the C code compares the device). *)
Definition register (r : reg) : ST unit :=
  c <- getc ;;
  let cf := r_cfg r in
  if negb (ifthen_conf (k_svcs c) (c_ifconf cf)) then ret tt
  else if only_boot (c_levels cf) && negb (k_rl c =? 10) then ret tt
  else if mem_str (ident_of (c_name cf) (c_id cf)) (k_unavail c) then ret tt
  else
    let fin (s : svc) (hup ad : bool) :=
      let s := set_s_rtmo (r_tmo r) (set_s_cf (set_c_sighup hup cf) s) in
      let s := if is_runtask_t (c_type cf) && c_sighup cf then set_s_once 1 s else s in
      let s := if r_changed r || ad then set_s_dirty true (set_s_adirty ad s)
               else set_s_dirty false (set_s_adirty false s) in
      let s := set_s_removed false s in
      if r_static r then set_s_protect true s else s in
    match find_ident (c_name cf) (c_id cf) (k_svcs c) with
    | None =>
        let s := svc_new (k_next c) r in
        let s := if c_manual cf then set_s_block BUser s else s in
        modc (fun c => set_k_next (S (k_next c))
                         (set_k_svcs (k_svcs c ++ [fin s (negb (is_tty_t (c_type cf)) && c_sighup cf) (negb (String.eqb (c_args cf) ""))]) c))
    | Some s0 =>
        upd (s_key s0) (fun s =>
          let s := if c_manual cf then s else set_s_block BNone s in
          let hup := if is_daemon_t (c_type cf) then c_sighup cf
                     else if is_runtask_t (c_type cf) then c_sighup (s_cf s) || c_sighup cf
                     else c_sighup (s_cf s) && c_sighup cf in
          fin s hup (negb (String.eqb (c_args cf) (c_args (s_cf s)))))
    end.

Fixpoint register_all (l : list reg) : ST unit :=
  match l with
  | [] => ret tt
  | r :: l' => register r ;;; register_all l'
  end.

(** service_update_rdeps, src/service.c:2204-2242.  Marking while the loop
    runs can reach further records, later in the list. *)
Definition update_rdeps : ST unit :=
  c <- getc ;;
  foreach (keys c) (fun k =>
    c <- getc ;;
    match find_key k (k_svcs c) with
    | Some s =>
        when (s_dirty s && noreload s)
          (upd_all (fun _ t => if has_cond t && cond_affects (pidcond s) (c_cond (s_cf t))
                               then set_s_dirty true t else t))
    | None => ret tt
    end).

(** service_mark_unavail, src/service.c:2248-2261 *)
Definition mark_unavail : ST unit :=
  upd_all (fun c t => if ifthen_conf (k_svcs c) (c_ifconf (s_cf t)) then t else svc_mark t).

Definition conf_reload : ST unit :=
  emit EReconf ;;;
  upd_all (fun _ => svc_mark) ;;;
  c <- getc ;;
  register_all (k_conf c) ;;;
  update_rdeps ;;;
  mark_unavail ;;;
  emit EReconfEnd ;;;
  modc (fun c => set_k_confchg false
                   (set_k_conf (map (fun r => mkReg (r_cfg r) (r_tmo r) false (r_static r)) (k_conf c)) c)).

(** service_runtask_clean, src/service.c:2990-3007 *)
Definition runtask_clean : ST unit :=
  c <- getc ;;
  foreach (keys c) (fun k =>
    c <- getc ;;
    match find_key k (k_svcs c) with
    | Some s =>
        when (is_runtask s)
          (upd k (set_s_once (if c_sighup (s_cf s) then 1 else 0)) ;;;
           when (st_eqb (s_state s) Done) (set_state k Halted))
    | None => ret tt
    end).

(** service_notify_reconf, src/service.c:3061-3077 *)
Definition notify_reconf : ST unit :=
  c <- getc ;;
  foreach (keys c) (fun k =>
    c <- getc ;;
    match find_key k (k_svcs c) with
    | Some s =>
        match c_notify (s_cf s) with
        | NfPid => ret tt
        | nf =>
            when (st_eqb (s_state s) Running
                  && (match nf with NfNone => true | _ => negb (s_dirty s) && negb (s_starting s) end))
                 (service_ready k true)
        end
    | None => ret tt
    end).

(** nologin, src/sm.c:167-174 *)
Definition reserved (l : Z) : bool := (l =? 0) || (l =? 6) || (l =? 10).
Definition nologin : ST unit :=
  modc (fun c =>
    let c1 := if (k_rl c =? 1) || reserved (k_rl c) then set_k_nologin true c else c in
    if (k_prev c1 =? 1) || reserved (k_prev c1) then set_k_nologin false c1 else c1).

(** do_shutdown, src/sig.c:293: everything after it is the kernel's business *)
Definition do_shutdown : ST unit :=
  c <- getc ;;
  emit (EShutdown (k_halt c)) ;;; modc (set_k_down true).

(** one pass of the switch of sm_step, src/sm.c:203-424 *)
Definition set_sm (s : smst) : ST unit := modc (set_k_sm s).

Definition sm_switch : ST unit :=
  c <- getc ;;
  match k_sm c with
  | SmBootstrap => step_all m_boot ;;; set_sm SmBootstrapWait
  | SmBootstrapWait =>
      step_all m_any ;;;
      c_oneshot "int/bootstrap" ;;;
      c <- getc ;;
      if k_newl c =? -1 then ret tt
      else
        run_hook HkSysUp ;;;
        step_all m_any ;;;
        modc (set_k_boot false) ;;;
        step_all m_respawn ;;;
        set_sm SmRunning
  | SmRunning =>
      step_all m_any ;;;
      c <- getc ;;
      if (0 <=? k_newl c) && (k_newl c <=? 9) then
        if k_rl c =? k_newl c then modc (set_k_newl (-1))
        else set_sm SmRlChange
      else if k_reload c then modc (set_k_reload false) ;;; set_sm SmReChange
      else ret tt
  | SmRlChange =>
      emit (ERunlevel (k_rl c) (k_newl c)) ;;;
      modc (fun c => set_k_newl (-1) (set_k_rl (k_newl c) (set_k_prev (k_rl c) c))) ;;;
      c <- getc ;;
      when ((k_rl c =? 0) || (k_rl c =? 6)) (run_hook HkShutdown) ;;;
      nologin ;;;
      c <- getc ;;
      when (negb (k_rl c =? 0) && negb (k_rl c =? 6) && k_confchg c) conf_reload ;;;
      runtask_clean ;;;
      modc (set_k_inrl true) ;;;
      emit EStopBegin ;;;
      step_all m_any ;;;
      set_sm SmRlWait
  | SmRlWait =>
      if stop_pending c then ret tt
      else
        emit EStopEnd ;;;
        run_hook HkRunlevel ;;;
        emit EStartBegin ;;;
        modc (set_k_inrl false) ;;;
        step_all m_any ;;;
        set_sm SmRlClean
  | SmRlClean =>
      if clean_pending c then ret tt
      else
        clean_dynamic ;;;
        c <- getc ;;
        when ((k_rl c =? 0) || (k_rl c =? 6)) do_shutdown ;;;
        set_sm SmRunning
  | SmReChange =>
      modc (set_k_inrl true) ;;;
      emit EStopBegin ;;;
      conf_reload ;;;
      step_all m_any ;;;
      c_op OpReload ;;;
      set_sm SmReWait
  | SmReWait =>
      if stop_pending c then ret tt
      else
        emit EStopEnd ;;;
        emit EStartBegin ;;;
        modc (set_k_inrl false) ;;;
        step_all m_any ;;;
        set_sm SmReClean
  | SmReClean =>
      if clean_pending c then ret tt
      else
        clean_dynamic ;;;
        run_hook HkReconf ;;;
        notify_reconf ;;;
        set_sm SmRunning
  end.

(** sm_step, src/sm.c:192-428 *)
Definition sm_step : ST unit :=
  c <- getc ;;
  let old := k_sm c in
  sm_switch ;;;
  c <- getc ;;
  when (negb (sm_eqb (k_sm c) old)) (rec CSm).

Definition body (cl : call) : ST unit :=
  c <- getc ;;
  if k_down c then ret tt
  else match cl with
       | CStep k ch wa => service_step k ch wa
       | CUpdate n => cond_update n
       | CMonitor p st => service_monitor p st
       | CSm => sm_step
       end.

(** * Entry points from the event loop *)

(** service_kill, src/service.c:919-949 *)
Definition service_kill (k : nat) : ST unit :=
  cancel k ;;;
  with_svc k tt (fun s =>
    c <- getc ;;
    if s_pid s <=? 1 then ret tt
    else if negb (alive c (s_pid s)) then rec (CMonitor (s_pid s) (Exited 0))
    else do_kill k (s_pid s) 9 ;;; upd k (set_s_killed true)).

(** service_kill_script, src/service.c:2263-2270 *)
Definition kill_script (k : nat) : ST unit :=
  with_svc k tt (fun s =>
    if s_pid s <=? 1 then ret tt else do_kill k (s_pid s) 9 ;;; ret tt).

(** service_script_kill, src/service.c:155-168 *)
Fixpoint script_kill_list (k : nat) (l : list (Z * nat)) : ST unit :=
  match l with
  | [] => ret tt
  | (p, q) :: l' =>
      when (Nat.eqb q k && (1 <? p)) (do_kill k p 9 ;;; ret tt) ;;; script_kill_list k l'
  end.
Definition script_kill (k : nat) : ST unit :=
  c <- getc ;;
  script_kill_list k (k_assoc c) ;;;
  modc (fun c => set_k_assoc (filter (fun a => negb (Nat.eqb (snd a) k && (1 <? fst a))) (k_assoc c)) c).

(** service_retry, src/service.c:2470-2543 *)
Definition service_retry (k : nat) : ST unit :=
  cancel k ;;;
  c <- getc ;;
  if k_norespawn c then ret tt
  else with_svc k tt (fun s =>
    if c_respawn (s_cf s) then unblock k ;;; rec (CStep k false false)
    else if negb (st_eqb (s_state s) Halted) || negb (blk_eqb (s_block s) BRestarting) then
      upd k (fun s => set_s_rtmo (s_rsaved s) s) ;;; set_state k Running
    else if negb (c_restart_max (s_cf s) =? -1) && (c_restart_max (s_cf s) <=? s_rcnt s) then
      emit (EGiveup k) ;;;
      upd k (fun s => set_s_block BCrashing (set_s_rcnt 0 (set_s_rtmo (s_rsaved s) s))) ;;;
      (match c_oncrash (s_cf s) with
       | OcReboot => emit (ESelfTerm k)
       | OcScript => when (c_post (s_cf s)) (post_script k)
       | OcIgnore => ret tt
       end) ;;;
      rec (CStep k false false)
    else
      emit (ERetry k) ;;;
      upd k (fun s =>
        let n := wrap8 (s_rcnt s + 1) in
        let s := set_s_rcnt n s in
        let s := if n =? 1 then set_s_rsaved (s_rtmo s) s else s in
        let t := if n <=? Z.quot (c_restart_max (s_cf s)) 2 then 2000 else 5000 in
        set_s_block BNone (set_s_rtmo (Z.max (s_rtmo s) t) s)) ;;;
      rec (CStep k false false) ;;;
      with_svc k tt (fun s => timeout_after k (s_rtmo s) TcRetry)).

(** service_timeout_cb, src/service.c:86-98.  A timer of a freed record fires
    into freed memory. *)
Definition timer_fires (k : nat) : ST unit :=
  c <- getc ;;
  match lookup_svc c k with
  | Some s =>
      match s_timer s with
      | TmArmed cb _ =>
          upd k (set_s_timer (TmStale cb)) ;;;
          match cb with
          | TcKill => service_kill k
          | TcRetry => service_retry k
          | TcKillScript => kill_script k
          | TcScriptKill => script_kill k
          end
      | _ => ret tt
      end
  | None =>
      match find (fun a => Nat.eqb (fst a) k) (k_freed c) with
      | Some (_, TmArmed _ _) => emit (EUaf k)
      | _ => ret tt
      end
  end.

(** maybe_clear_cond and svc_gc for one record, src/svc.c:60-105.  The record
    counts as freed from the moment it leaves the list; nothing can look at it
    while its condition is cleared. *)
Definition gc_one (k : nat) : ST unit :=
  c <- getc ;;
  match find_key k (k_gc c) with
  | None => ret tt
  | Some s =>
      modc (fun c => set_k_freed ((k, s_timer s) :: k_freed c)
                       (set_k_gc (filter (fun t => negb (Nat.eqb (s_key t) k)) (k_gc c)) c)) ;;;
      when (negb (existsb (fun t => String.eqb (ident t) (ident s)) (k_svcs c)))
           (c_clear (pidcond s))
  end.

(** networking, src/helpers.c:411-486: only the hooks matter here *)
Definition networking (up : bool) : ST unit :=
  c <- getc ;;
  if (k_prev c =? 0) && negb up then ret tt
  else run_hook (if up then HkNetUp else HkNetDn).

(** sm_runlevel and sm_reload, src/sm.c:448-479 (not in rescue mode) *)
Definition sm_runlevel (l : Z) : ST unit :=
  c <- getc ;;
  when (((k_rl c =? 1) || (k_rl c =? 10)) && negb (reserved l)) (networking true) ;;;
  emit (EAsk l) ;;; modc (set_k_newl l) ;;;
  rec CSm ;;;
  c <- getc ;;
  when (reserved (k_rl c)) (networking false).

Definition sm_reload : ST unit := modc (set_k_reload true) ;;; rec CSm.

(** svc_prune_bootstrap, src/svc.c:651-659 *)
Definition prune_bootstrap : ST unit :=
  c <- getc ;;
  foreach (keys c) (fun k =>
    c <- getc ;;
    match find_key k (k_svcs c) with
    | Some s => when (s_pid s =? 0) (clean_bootstrap k)
    | None => ret tt
    end).

(** sm_check_bootstrap, src/sm.c:68-117 *)
Definition check_bootstrap : ST unit :=
  c <- getc ;;
  match k_bootleft c with
  | None => ret tt
  | Some t =>
      step_all m_any ;;;
      c <- getc ;;
      match t, completed c with
      | S t', false => modc (set_k_bootleft (Some t'))
      | _, _ =>
          emit (EBooted (negb (completed c))) ;;;
          modc (set_k_bootleft None) ;;;
          sm_runlevel (if k_cmdl c =? 0 then k_cfgl c else k_cmdl c) ;;;
          prune_bootstrap ;;;
          run_hook HkSvcUp
      end
  end.

(** src/api.c:61-127; [call] finds the record in svc_list first *)
Definition if_registered (k : nat) (f : svc -> ST unit) : ST unit :=
  c <- getc ;;
  match find_key k (k_svcs c) with Some s => f s | None => ret tt end.

Definition api_stop (k : nat) : ST unit :=
  if_registered k (fun _ =>
    emit (ERequest k RqStop) ;;;
    cancel k ;;; upd k (set_s_block BUser) ;;; rec (CStep k false false) ;;; step_all m_any).
Definition api_go (k : nat) : ST unit :=
  cancel k ;;; unblock k ;;; rec (CStep k false false) ;;; step_all m_any.
Definition api_start (k : nat) : ST unit :=
  if_registered k (fun _ => emit (ERequest k RqStart) ;;; api_go k).
Definition api_restart (k : nat) : ST unit :=
  if_registered k (fun s =>
    emit (ERequest k RqRestart) ;;;
    if negb (st_eqb (s_state s) Running) then api_go k
    else cancel k ;;; service_stop k ;;; rec (CStep k false false)).
Definition api_reload (k : nat) : ST unit :=
  if_registered k (fun s =>
    emit (ERequest k RqReload) ;;;
    (if blocked s then unblock k else cancel k) ;;;
    upd k (set_s_dirty true) ;;; rec (CStep k false false)).
Definition api_signal (k : nat) (sig : Z) : ST unit :=
  if_registered k (fun s => when (st_eqb (s_state s) Running) (do_kill k (s_pid s) sig ;;; ret tt)).

(** the gate of api.c:393-411 *)
Definition gated (m : ST unit) : ST unit :=
  c <- getc ;; if reserved (k_rl c) then ret tt else m.

(** halt = ..., src/api.c:246-300, src/sig.c:106,428-556 *)
Definition choose (s : shut) : ST unit := emit (EHalt s) ;;; modc (set_k_halt s).

(** INIT_CMD_RUNLVL, src/api.c:414-448, for a digit *)
Definition api_runlevel (l : Z) : ST unit :=
  c <- getc ;;
  if reserved (k_rl c) && negb (k_rl c =? 10) then ret tt
  else if (0 <=? l) && (l <=? 9) then
    when (l =? 0) (choose ShutOff) ;;;
    when (l =? 6) (choose ShutReboot) ;;;
    if k_rl c =? 10 then modc (set_k_cfgl l) else sm_runlevel l
  else ret tt.

(** do_reboot, src/api.c:246-300 *)
Definition api_down (s : shut) (timeout : bool) : ST unit :=
  choose s ;;;
  when timeout (modc (set_k_emerg true)) ;;;
  sm_runlevel (match s with ShutReboot => 6 | _ => 0 end).

(** service_forked, src/service.c:2614-2622 *)
Definition service_forked (k : nat) : ST unit :=
  cancel k ;;; unblock k ;;; set_state k Running.

(** pidfile_update_conds, plugins/pidfile.c:65-159.  [None]: unreadable;
    the record is the one svc_find_by_pidfile() returns. *)
Definition pidfile_gone (k : nat) : ST unit :=
  with_svc k tt (fun s =>
    c_clear (pidcond s) ;;;
    match c_notify (s_cf s) with NfPid => service_ready k false | _ => ret tt end).

Definition pidfile_write (k : nat) (content : option Z) : ST unit :=
  if_registered k (fun s =>
    if is_script_state (s_state s) then ret tt
    else if st_eqb (s_state s) Stopping then pidfile_gone k
    else
      (match c_notify (s_cf s) with NfPid => upd k (set_s_starting false) | _ => ret tt end) ;;;
      stop <- (if c_forking (s_cf s) then
                 match content with
                 | None => c_clear (pidcond s) ;;; ret true
                 | Some p => service_forked k ;;; upd k (set_s_pid p) ;;; ret false
                 end
               else ret false) ;;
      if stop then ret tt
      else
        (match c_notify (s_cf s) with NfPid => c_set (pidcond s) | _ => ret tt end) ;;;
        match c_notify (s_cf s) with NfPid | NfNone => service_ready k true | _ => ret tt end).

Definition pidfile_delete (k : nat) : ST unit :=
  if_registered k (fun s => if is_script_state (s_state s) then ret tt else pidfile_gone k).

(** service_notify_cb once the message says "ready", src/service.c:3118-3138 *)
Definition notify_ready (k : nat) : ST unit :=
  if_registered k (fun s =>
    match c_notify (s_cf s) with
    | NfSystemd | NfS6 => upd k (set_s_starting false) ;;; service_ready k true
    | _ => ret tt
    end).

(** service_interval_cb, src/service.c:3156-3190 *)
Definition interval : ST unit :=
  emit ETick ;;;
  upd_all (fun _ s => if is_daemon s && st_eqb (s_state s) Running && (0 <? s_rcnt s)
                      then set_s_rcnt (s_rcnt s - 1) s else s).

(** * Events *)

Inductive ev :=
  | EvReap (p : Z) (st : wstat)       (* SIGCHLD: waitpid() returned p *)
  | EvGone (p : Z)                    (* a process disappears without us reaping it *)
  | EvSpawn (p : Z)                   (* a process appears as our child (daemon re-parented) *)
  | EvTimer (k : nat)
  | EvWork | EvInterval | EvBootCheck | EvGc (k : nat) | EvEmergency
  | EvStop (k : nat) | EvStart (k : nat) | EvRestart (k : nat) | EvReload (k : nat)
  | EvSignal (k : nat) (sig : Z)
  | EvRunlevel (l : Z) | EvReloadAll | EvDown (s : shut) (timeout : bool)
  | EvBoot                            (* conf_init(), sm_init(), sm_step(): src/finit.c:718-738 *)
  | EvSigHup | EvSigUsr2 | EvSigTerm  (* src/sig.c:428-556 *)
  | EvCondSet (n : string) | EvCondOneshot (n : string) | EvCondClear (n : string)
  | EvPidfile (k : nat) (content : option Z) | EvPidfileDel (k : nat) | EvNotify (k : nat)
  | EvConf (l : list reg) | EvUnavail (l : list string) | EvNorespawn (b : bool)
  | EvOracle (forks scripts : list Z) (notes : list bool).

Definition handle (e : ev) : ST unit :=
  match e with
  | EvReap p st =>
      c <- getc ;;
      if memZ p (k_procs c) then
        modc (fun c => set_k_procs (filter (fun q => negb (Z.eqb q p)) (k_procs c))
                         (set_k_mains (filter (fun a => negb (Z.eqb (fst a) p)) (k_mains c)) c)) ;;;
        rec (CMonitor p st)
      else ret tt
  | EvGone p =>
      modc (fun c => set_k_procs (filter (fun q => negb (Z.eqb q p)) (k_procs c))
                       (set_k_mains (filter (fun a => negb (Z.eqb (fst a) p)) (k_mains c)) c))
  | EvSpawn p =>
      modc (fun c => if (p <=? 1) || memZ p (k_procs c) then c else set_k_procs (p :: k_procs c) c)
  | EvTimer k => timer_fires k
  | EvWork =>
      c <- getc ;; when (k_work c) (modc (set_k_work false) ;;; step_all m_worker)
  | EvInterval => interval
  | EvBootCheck => check_bootstrap
  | EvGc k => gc_one k
  | EvEmergency => c <- getc ;; when (k_emerg c) do_shutdown
  | EvStop k => gated (api_stop k)
  | EvStart k => gated (api_start k)
  | EvRestart k => gated (api_restart k)
  | EvReload k => gated (api_reload k)
  | EvSignal k sig => api_signal k sig
  | EvRunlevel l => api_runlevel l
  | EvReloadAll => gated sm_reload
  | EvDown s t => gated (api_down s t)
  | EvBoot =>
      c <- getc ;;
      when (sm_eqb (k_sm c) SmBootstrap) (conf_reload ;;; rec CSm)
  | EvSigHup => gated sm_reload
  | EvSigUsr2 => gated (choose ShutOff ;;; sm_runlevel 0)
  | EvSigTerm => gated (choose ShutReboot ;;; sm_runlevel 6)
  | EvCondSet n => c_set n
  | EvCondOneshot n => c_oneshot n
  | EvCondClear n => c_clear n
  | EvPidfile k p => pidfile_write k p
  | EvPidfileDel k => pidfile_delete k
  | EvNotify k => notify_ready k
  | EvConf l => modc (fun c => set_k_confchg true (set_k_conf l c))
  | EvUnavail l => modc (set_k_unavail l)
  | EvNorespawn b => modc (set_k_norespawn b)
  | EvOracle f s n => modc (fun c => set_k_forks f (set_k_scripts s (set_k_notes n c)))
  end.

End Bodies.

Fixpoint exec (n : nat) (cl : call) : ST unit :=
  match n with
  | O => fun _ => None
  | S n' => body (exec n') cl
  end.

(** An event, with [n] units of fuel.  Nothing happens after do_shutdown(). *)
Definition on_event (n : nat) (e : ev) : ST unit :=
  c <- getc ;; if k_down c then ret tt else handle (exec n) e.

Fixpoint run (n : nat) (l : list ev) : ST unit :=
  match l with
  | [] => ret tt
  | e :: l' => on_event n e ;;; run n l'
  end.

(** State in which the event loop is entered: sm_init (src/sm.c:176-190),
    runlevel S, nothing registered, [cfgl] the configured runlevel and [cmdl]
    the one from the kernel command line.  Booting is then EvConf and EvBoot. *)
Definition init_core (cfgl cmdl : Z) : core :=
  mkCore [] [] [] O cond_init 10 0 cfgl cmdl true (Some 120%nat) ShutHalt
         SmBootstrap (-1) false false 0 [] false false false false
         [] false [] [] [] [] [] [] false.
Definition init_world (cfgl cmdl : Z) : world := mkWorld (init_core cfgl cmdl) [].
