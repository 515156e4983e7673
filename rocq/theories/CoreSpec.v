(** What the theorems about the supervisor say, in terms of what can be seen:
    which processes are started, which signals are sent, which state a stanza
    is reported in, and in what order. *)
From Coq Require Import List String ZArith NArith Bool.
From Verif Require Import CondModel CoreTypes CoreModel.
Import ListNotations.
Local Open Scope Z_scope.

(** finit is started with configured runlevel [cfgl] (and [cmdl] from the
    kernel command line, 0 if none), then the events [evs] happen; [w] is the
    result.  [n] bounds how deeply calls nest: there is no result, and hence
    nothing is claimed, if that is not enough. *)
Definition history (n : nat) (evs : list ev) (cfgl cmdl : Z) (w : world) : Prop :=
  run n evs (init_world cfgl cmdl) = Some (tt, w).

(** In [w], [x] was done at some point: in state [c], after everything in
    [older] (latest first). *)
Definition happened (w : world) (c : core) (x : eff) (older : log) : Prop :=
  exists newer, wl w = newer ++ (c, x) :: older.

(** ... namely while event [e] of the history was handled *)
Definition during (n : nat) (evs : list ev) (cfgl cmdl : Z) (e : ev) (c : core) (x : eff) (older : log) : Prop :=
  exists before after w1 w2 newer recent,
    evs = before ++ e :: after /\
    history n before cfgl cmdl w1 /\ on_event n e w1 = Some (tt, w2) /\
    wl w2 = newer ++ (c, x) :: older /\ older = recent ++ wl w1.

(** the record at address [k]; it may already be unregistered *)
Definition record_at (c : core) (k : nat) (s : svc) : Prop :=
  In s (k_svcs c ++ k_gc c) /\ s_key s = k.

(** ** C01: who may have a process *)

(** [if:<cond>] and [if:<!cond>] *)
Definition guard_holds (c : core) (g : bool * string) : Prop :=
  if fst g then cond_get (k_cond c) (snd g) <> COn else cond_get (k_cond c) (snd g) <> COff.

Record may_start (c : core) (s : svc) : Prop := {
  ms_level : N.testbit (c_levels (s_cf s)) (Z.to_N (k_rl c)) = true;
  ms_present : s_removed s = false;
  ms_unblocked : s_block s = BNone;
  ms_guard : forall g, In g (c_if (s_cf s)) -> guard_holds c g;
  ms_tty : c_type (s_cf s) = TTty -> k_boot c = false
}.

(** ** C02: leaving the waiting state *)

Definition conds_on (c : core) (s : svc) : Prop :=
  forall n, In n (c_cond (s_cf s)) -> cond_get (k_cond c) n = COn.

(** the latest state change of [k] recorded in [l] *)
Definition last_change (k : nat) (l : log) (c : core) (old new : sst) (older : log) : Prop :=
  exists newer, l = newer ++ (c, EState k old new) :: older /\
                forall c' o n, ~ In (c', EState k o n) newer.

(** in state [c], [k] goes from waiting to [new], as it should *)
Definition leaves_waiting (c : core) (k : nat) (new : sst) : Prop :=
  exists s, record_at c k s /\ s_state s = Waiting /\ may_start c s /\ conds_on c s /\
            k_inrl c = false /\ k_norespawn c = false /\
            new = if c_pre (s_cf s) then Setup else Starting.

(** in state [c], the pre: script of [k] has ended well *)
Definition pre_done (c : core) (k : nat) : Prop :=
  exists s, record_at c k s /\ s_state s = Setup /\ may_start c s /\ s_pid s = 0 /\ s_status s = Exited 0.

(** ** C07: run stanzas *)

(** [l] tells that [p] is, since it was last started, the main process of [k],
    then a stanza of type [t] *)
Definition started_as (l : log) (k : nat) (p : Z) (t : sty) : Prop :=
  exists newer c s older,
    l = newer ++ (c, EFork k FMain p) :: older /\
    (forall c' k', ~ In (c', EFork k' FMain p) newer) /\
    record_at c k s /\ c_type (s_cf s) = t.

(** ** C13: life cycle *)

Definition lifecycle (old new : sst) : Prop :=
  match old, new with
  | Halted, (Waiting | Dead)
  | Waiting, (Setup | Starting | Halted | Stopping)
  | Setup, (Starting | Stopping | Halted)
  | Starting, (Running | Halted | Stopping)
  | Running, (Paused | Stopping | Halted)
  | Paused, (Running | Waiting | Stopping | Halted)
  | Stopping, (Halted | Done | Teardown | Cleanup)
  | Teardown, (Halted | Cleanup)
  | Cleanup, Halted
  | Done, (Halted | Waiting) => True
  | _, _ => False
  end.

(** ** C20: phases of a runlevel change or reload *)

(** stopping has begun and starting has not *)
Fixpoint in_stop_phase (l : log) : bool :=
  match l with
  | [] => false
  | (_, EStopBegin) :: _ => true
  | (_, EStartBegin) :: _ => false
  | _ :: l => in_stop_phase l
  end.

(** the latest begin or end of such a phase in [l] *)
Definition latest_mark (l : log) (c : core) (x : eff) : Prop :=
  exists newer older, l = newer ++ (c, x) :: older /\
    (x = EStopBegin \/ x = EStopEnd \/ x = EStartBegin) /\
    forall c', ~ In (c', EStopBegin) newer /\ ~ In (c', EStopEnd) newer /\ ~ In (c', EStartBegin) newer.

(** ** C21: the runlevel *)

(** the runlevel that the log ends in; S before the first change *)
Fixpoint level_of (l : log) : Z :=
  match l with
  | [] => 10
  | (_, ERunlevel _ new) :: _ => new
  | _ :: l => level_of l
  end.
Fixpoint previous_level (l : log) : Z :=
  match l with
  | [] => 0
  | (_, ERunlevel old _) :: _ => old
  | _ :: l => previous_level l
  end.

(** ** C12: whom signals are sent to *)

(** the process [p] was started for [k], as its program or one of its scripts *)
Definition started_for (l : log) (k : nat) (p : Z) : Prop := exists c f, In (c, EFork k f p) l.
(** ... or its pid file names it *)
Definition pidfile_names (evs : list ev) (k : nat) (p : Z) : Prop := In (EvPidfile k (Some p)) evs.
Definition belongs (evs : list ev) (l : log) (k : nat) (p : Z) : Prop :=
  1 < p /\ started_for l k p \/ pidfile_names evs k p.

(** ** C16, C18: who is who *)

Definition identity (s : svc) : string * string := (c_name (s_cf s), c_id (s_cf s)).
Definition reg_identity (r : reg) : string * string := (c_name (r_cfg r), c_id (r_cfg r)).
(** doing something: from its pre: script to the end of its process *)
Definition is_active (s : svc) : Prop :=
  match s_state s with Setup | Paused | Waiting | Starting | Running | Stopping => True | _ => False end.

(** ** C22, C23, C24: requests *)

(** booting, halting and rebooting: runlevels S, 0 and 6 *)
Definition closed_level (l : Z) : Prop := l = 10 \/ l = 0 \/ l = 6.
(** initctl start, stop, restart, reload, reboot, halt and poweroff, and the
    signals that ask for the same *)
Definition guarded (e : ev) : Prop :=
  match e with
  | EvStop _ | EvStart _ | EvRestart _ | EvReload _ | EvReloadAll | EvDown _ _
  | EvSigHup | EvSigUsr2 | EvSigTerm => True
  | _ => False
  end.

(** what to do in the end, according to a request *)
Definition final_action (e : ev) : option shut :=
  match e with
  | EvDown s _ => Some s
  | EvRunlevel l => if l =? 0 then Some ShutOff else if l =? 6 then Some ShutReboot else None
  | EvSigUsr2 => Some ShutOff
  | EvSigTerm => Some ShutReboot
  | _ => None
  end.
(** the runlevel to go to, according to a request; after booting, it is the
    one from the kernel command line or else the configured one *)
Definition wanted_level (e : ev) (c : core) (l : Z) : Prop :=
  match e with
  | EvRunlevel l' => l = l' /\ 0 <= l <= 9
  | EvDown s _ => l = match s with ShutReboot => 6 | _ => 0 end
  | EvSigUsr2 => l = 0
  | EvSigTerm => l = 6
  | EvBootCheck => l = if k_cmdl c =? 0 then k_cfgl c else k_cmdl c
  | _ => False
  end.
(** the final action has been taken *)
Definition over (w : world) : Prop := exists c s, In (c, EShutdown s) (wl w).

(** the newest entry of a kind *)
Definition latest (P : eff -> Prop) (l : log) (c : core) (x : eff) (older : log) : Prop :=
  exists newer, l = newer ++ (c, x) :: older /\ P x /\ forall c' y, In (c', y) newer -> ~ P y.
Definition is_halt (x : eff) : Prop := exists s, x = EHalt s.
Definition is_ask (x : eff) : Prop := exists l, x = EAsk l.
Definition is_change (x : eff) : Prop := exists old new, x = ERunlevel old new.

(** ** C25: no logins in single user mode and while booting or going down *)
Definition no_logins (l : Z) : bool := (l =? 1) || (l =? 0) || (l =? 6) || (l =? 10).

(** ** C35: the end of a process *)

(** since the log was [base], an entry satisfying [P] was added *)
Definition since (base l : log) (P : eff -> Prop) : Prop :=
  exists new c x, l = new ++ base /\ In (c, x) new /\ P x.
(** the kernel handed out the number [p] for a new process *)
Definition reused (p : Z) (x : eff) : Prop := exists k f, x = EFork k f p.
(** [k] got a new process, failed to get one, or ran its stop: script *)
Definition replaced (k : nat) (x : eff) : Prop :=
  (exists f p, x = EFork k f p) \/ (exists f, x = EForkFail k f) \/ (exists rc, x = EScript k KStop rc).
