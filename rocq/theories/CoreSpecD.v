(** What it means that nothing is left to do for a stanza (C47). *)
From Coq Require Import List String ZArith Bool.
From Verif Require Import CondModel CoreTypes CoreModel CoreSpec.
Import ListNotations.
Local Open Scope Z_scope.

(** No runlevel change and no reload is being carried out, the system is not going
    down, and starting processes is not inhibited. *)
Definition steady (c : core) : Prop :=
  (k_sm c = SmBootstrapWait \/ k_sm c = SmRunning) /\ k_down c = false /\
  k_inrl c = false /\ k_norespawn c = false.

(** The restart timer of [k] made it running, and it did not change state since. *)
Definition by_timer (n : nat) (evs : list ev) (cfgl cmdl : Z) (k : nat) (l : log) : Prop :=
  exists c o older, last_change k l c o Running older /\
    during n evs cfgl cmdl (EvTimer k) c (EState k o Running) older.

(** There is nothing to do for [s] until something happens: what is halted must
    not run, what is waiting lacks a condition, what is running may run and has
    all its conditions, what is paused waits for a condition that is being
    re-established, and what is on its way down has a process that has not ended
    yet. *)
Definition settled (n : nat) (evs : list ev) (cfgl cmdl : Z) (c : core) (l : log) (s : svc) : Prop :=
  match s_state s with
  | Halted => ~ may_start c s /\ s_removed s = false
  | Waiting => may_start c s /\ (~ conds_on c s \/ k_work c = true)
  | Setup => may_start c s /\ s_pid s <> 0 \/ ~ may_start c s /\ s_pid s <= 1
  | Starting => may_start c s
  | Running => may_start c s /\ conds_on c s /\ s_dirty s = false \/ s_pid s <= 1 \/ by_timer n evs cfgl cmdl (s_key s) l
  | Paused => may_start c s /\ s_pid s <> 0 /\
                (cond_get_agg (k_cond c) (c_cond (s_cf s)) = CFlux \/ k_work c = true) \/ s_pid s <= 1
  | Stopping | Teardown | Cleanup => s_pid s <> 0
  | Done => s_dirty s = false /\ (c_manual (s_cf s) = true -> is_runtask s = true -> ~ may_start c s)
  | Dead => True
  end.
