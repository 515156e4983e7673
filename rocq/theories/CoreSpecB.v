(** What the theorems about single stanzas say: C06, C08, C09, C10, C11, C19. *)
From Coq Require Import List String ZArith NArith Bool.
From Verif Require Import CondModel CoreTypes CoreModel CoreTame CoreSpec.
Import ListNotations.
Local Open Scope Z_scope.

(** ** C11: stopped by the user *)

(** since initctl stop was last carried out for [k], there was no initctl
    start, restart or reload of it, and no configuration was loaded *)
Definition user_stopped (k : nat) (l : log) : Prop :=
  exists newer c older, l = newer ++ (c, ERequest k RqStop) :: older /\
    forall c' x, In (c', x) newer -> x <> EReconf /\ forall r, x <> ERequest k r.

(** ** Quieter runs *)

(** readiness sockets can always be created *)
Definition sockets_work (evs : list ev) : Prop :=
  forall f s n, In (EvOracle f s n) evs -> ~ In true n.
(** no package manager holds the respawn lock *)
Definition no_lock (evs : list ev) : Prop := ~ In (EvNorespawn true) evs.
(** no stanza has a ready: script *)
Definition no_ready (evs : list ev) : Prop := forall r, In r (regs evs) -> c_ready (r_cfg r) = false.
(** every stanza is stopped by a signal, not by a stop: script *)
Definition signal_stop (evs : list ev) : Prop := forall r, In r (regs evs) ->
  c_stop (r_cfg r) = false /\ c_type (r_cfg r) <> TSysv.

(** ** C09: what stopping looks like in the log *)

(** the first things done for [k], after the log [l0]: the request; SIGCONT if
    it is paused; the stop signal; then [k] is stopping and a timer of [delay]
    milliseconds for its SIGKILL is running *)
Definition stop_order (l0 l : log) (k : nat) (r : rq) (st : sst) (p sig delay : Z) : Prop :=
  exists newer c1 c2 c3 cont,
    l = newer ++ (c3, EState k st Stopping) :: (c2, EKill k p sig) :: cont ++ (c1, ERequest k r) :: l0 /\
    (st <> Paused /\ cont = [] \/ st = Paused /\ exists c, cont = [(c, EKill k p 18)]) /\
    exists t, record_at c3 k t /\ s_pid t = p /\ s_timer t = TmArmed TcKill delay.

(** ** C08: force-killing *)

(** [x] happened since [k] became stopping (or at all) *)
Definition this_stop (k : nat) (l : log) (x : eff) : Prop :=
  exists newer c older, l = newer ++ (c, x) :: older /\ forall c' o, ~ In (c', EState k o Stopping) newer.

(** ** C10: crashing *)

(** restarts after a crash, and periodic forgiveness of one crash each, since
    [k] was given up (or ever) *)
Fixpoint retries (k : nat) (l : log) : Z :=
  match l with
  | [] => 0
  | (_, ERetry k') :: l => (if Nat.eqb k' k then 1 else 0) + retries k l
  | (_, EGiveup k') :: l => if Nat.eqb k' k then 0 else retries k l
  | _ :: l => retries k l
  end.
Fixpoint forgiven (k : nat) (l : log) : Z :=
  match l with
  | [] => 0
  | (_, ETick) :: l => 1 + forgiven k l
  | (_, EGiveup k') :: l => if Nat.eqb k' k then 0 else forgiven k l
  | _ :: l => forgiven k l
  end.
(** every start of [k] succeeded, and it never died while paused *)
Definition starts_work (k : nat) (l : log) : Prop :=
  forall c x, In (c, x) l -> x <> EForkFail k FMain /\ x <> EState k Paused Waiting.
(** all stanzas of that name and instance have a limit between 0 and [m] *)
Definition limit (evs : list ev) (id : string * string) (m : Z) : Prop :=
  forall r, In r (regs evs) -> reg_identity r = id -> 0 <= c_restart_max (r_cfg r) <= m.
(** since [k] was given up, nobody asked for it and no configuration was loaded *)
Definition given_up (k : nat) (l : log) : Prop :=
  exists newer c older, l = newer ++ (c, EGiveup k) :: older /\
    forall c' x, In (c', x) newer -> x <> EReconf /\ forall r, x <> ERequest k r.

(** ** C19: how a run/task ended *)

(** the stanza's own process, by the log: never started; running; ended *)
Inductive outcome := NotRun | Runs (p : Z) | Ended (st : wstat).
Fixpoint outcome_of (k : nat) (l : log) : outcome :=
  match l with
  | [] => NotRun
  | (_, EFork k' FMain p) :: l => if Nat.eqb k' k then Runs p else outcome_of k l
  | (_, EExit k' p st) :: l =>
      if Nat.eqb k' k then
        match outcome_of k l with
        | Runs q => if p =? q then Ended st else Runs q
        | r => r
        end
      else outcome_of k l
  | _ :: l => outcome_of k l
  end.
(** the condition that reports the end of [s] *)
Definition result_name (s : svc) (st : wstat) : string :=
  ((match c_type (s_cf s) with TRun => "run" | _ => "task" end) ++ "/" ++ ident s ++ "/" ++
   (match st with Exited 0 => "success" | _ => "failure" end))%string.
(** run/task stanzas have no pre:, post: or stop: script *)
Definition bare_tasks (evs : list ev) : Prop := forall r, In r (regs evs) ->
  c_type (r_cfg r) = TRun \/ c_type (r_cfg r) = TTask ->
  c_pre (r_cfg r) = false /\ c_post (r_cfg r) = false /\ c_stop (r_cfg r) = false.
(** conditions about run/task stanzas *)
Definition task_cond (n : string) : bool := String.prefix "run/" n || String.prefix "task/" n.
(** nobody outside finit asserts them *)
Definition results_from_finit (evs : list ev) : Prop := forall n, task_cond n = true -> ~ In (EvCondOneshot n) evs.
(** how the last process of the stanza ended, its scripts included *)
Fixpoint last_exit (k : nat) (l : log) : option wstat :=
  match l with
  | [] => None
  | (_, EExit k' _ st) :: l => if Nat.eqb k' k then Some st else last_exit k l
  | _ :: l => last_exit k l
  end.
