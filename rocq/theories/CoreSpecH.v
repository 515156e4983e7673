(** What the theorems about the end of bootstrap say. *)
From Coq Require Import List String ZArith NArith Bool.
From Verif Require Import CondModel CoreTypes CoreModel CoreSpec CoreSpecE.
Import ListNotations.
Local Open Scope Z_scope.

(** a run or task stanza *)
Definition a_task (s : svc) : Prop := c_type (s_cf s) = TRun \/ c_type (s_cf s) = TTask.

(** [l] tells that [k], a run or task, was running and that its process ended *)
Definition has_run (l : log) (k : nat) : Prop :=
  exists c s, In (c, EState k Running Stopping) l /\
    record_at c k s /\ a_task s /\ s_state s = Running /\ s_pid s = 0.

(** A configuration was given, in which the stanza of this name is declared not to
    hold up bootstrap, <!>.  (The mark is shared with, and not cleared when the
    stanza used to be, a service that understands SIGHUP.) *)
Definition declared_nowait (evs : list ev) (s : svc) : Prop :=
  exists conf r, In (EvConf conf) evs /\ In r conf /\ names r s /\ c_sighup (r_cfg r) = true.

(** it waits for what happens after bootstrap only *)
Definition for_later (s : svc) : Prop :=
  exists n a b, In n (c_cond (s_cf s)) /\
    (n = (a ++ "hook/svc/up" ++ b)%string \/ n = (a ++ "hook/sys/up" ++ b)%string).

(** nothing it conflicts with is active *)
Definition without_conflict (c : core) (s : svc) : Prop :=
  forall nm t, In nm (c_conflict (s_cf s)) -> In t (k_svcs c) -> identity t = cut_colon nm -> ~ is_active t.

(** bootstrap has to wait for [s] *)
Record holds_up (c : core) (s : svc) : Prop := {
  hu_here : In s (k_svcs c);
  hu_task : a_task s;
  hu_may : may_start c s;
  hu_free : without_conflict c s;
  hu_now : ~ for_later s
}.

(** how often it was checked whether bootstrap is complete *)
Fixpoint checks (evs : list ev) : nat :=
  match evs with
  | [] => 0
  | EvBootCheck :: l => S (checks l)
  | _ :: l => checks l
  end.
