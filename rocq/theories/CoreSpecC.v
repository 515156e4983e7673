(** What "reported as running" means for the process behind it (C41). *)
From Coq Require Import List String ZArith Bool.
From Verif Require Import CondModel CoreTypes CoreModel CoreSpec.
Import ListNotations.
Local Open Scope Z_scope.

(** [k] went from [o] to running although it had no process: [k] is not of a
    type that ends by itself, its stanza has no "respawn", and it was not halted
    and waiting for its next try. *)
Definition promoted (k : nat) (c : core) (o : sst) : Prop :=
  exists s, record_at c k s /\ s_state s = o /\ s_pid s <= 1 /\
    c_type (s_cf s) <> TRun /\ c_type (s_cf s) <> TTask /\ c_respawn (s_cf s) = false /\
    (o <> Halted \/ s_block s <> BRestarting) /\ (o = Paused -> s_pid s = 0).
(** The restart timer of [k] did this in the history, and no process was
    started for [k] since. *)
Definition risen (n : nat) (evs : list ev) (cfgl cmdl : Z) (k : nat) (l : log) : Prop :=
  exists newer c o older, l = newer ++ (c, EState k o Running) :: older /\ promoted k c o /\
    during n evs cfgl cmdl (EvTimer k) c (EState k o Running) older /\
    forall c' p, ~ In (c', EFork k FMain p) newer.

(** [k] was running although it was not allowed to run any more *)
Definition idle (k : nat) (c : core) : Prop :=
  exists s, record_at c k s /\ s_state s = Running /\ ~ may_start c s.
(** Its process ended at such a moment, and it did not change state since *)
Definition lapsed (k : nat) (l : log) : Prop :=
  exists newer c p st older, l = newer ++ (c, EExit k p st) :: older /\
    (forall c' o n, ~ In (c', EState k o n) newer) /\ idle k c.
