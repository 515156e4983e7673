(** What re-reading the configuration does to the stanzas (C48). *)
From Coq Require Import List String ZArith Bool.
From Verif Require Import CondModel CoreTypes CoreModel CoreSpec.
Import ListNotations.
Local Open Scope Z_scope.

(** an entry of the configuration is about a stanza: same name and same :ID *)
Definition names (r : reg) (s : svc) : Prop :=
  c_name (r_cfg r) = c_name (s_cf s) /\ c_id (r_cfg r) = c_id (s_cf s).

(** [r] is what the configuration says about [s], and all it says *)
Definition the_entry (c : core) (s : svc) (r : reg) : Prop :=
  names r s /\ exists l1 l2, k_conf c = l1 ++ r :: l2 /\ forall x, In x (l1 ++ l2) -> ~ names x s.

(** an entry that is taken: it does not depend on another stanza (if:), it is
    not a bootstrap-only one read after bootstrap, and its command exists *)
Definition taken (c : core) (r : reg) : Prop :=
  c_ifconf (r_cfg r) = [] /\
  (only_boot (c_levels (r_cfg r)) = true -> k_rl c = 10) /\
  mem_str (ident_of (c_name (r_cfg r)) (c_id (r_cfg r))) (k_unavail c) = false.

(** the entry differs from what the stanza was registered with *)
Definition edited (r : reg) (s : svc) : Prop :=
  r_changed r = true \/ c_args (r_cfg r) <> c_args (s_cf s).

(** restarted, not sent SIGHUP, when changed *)
Definition no_reload (s : svc) : Prop := c_sighup (s_cf s) = false /\ c_reload (s_cf s) = false.
Definition waits_for (t s : svc) : Prop := In ("pid/" ++ ident s)%string (c_cond (s_cf t)).

(** which stanzas are marked changed between [c], just before the
    configuration is read, and [c'], just after; [old]: the ones that were
    marked already *)
Inductive marked (c c' : core) (old : nat -> Prop) : nat -> Prop :=
  | mk_edited s r : In s (k_svcs c) -> In r (k_conf c) -> names r s -> edited r s ->
      marked c c' old (s_key s)
  | mk_new s' : In s' (k_svcs c') -> (forall s, In s (k_svcs c) -> s_key s <> s_key s') ->
      marked c c' old (s_key s')
  | mk_depends s' t' : In s' (k_svcs c') -> In t' (k_svcs c') ->
      marked c c' old (s_key s') -> no_reload s' -> waits_for t' s' -> marked c c' old (s_key t')
  | mk_still k : old k ->
      (forall s r, In s (k_svcs c) -> s_key s = k -> the_entry c s r -> ~ taken c r) ->
      marked c c' old k.

(** which ones are marked as having new arguments *)
Inductive remarked (c c' : core) (old : nat -> Prop) : nat -> Prop :=
  | rm_edited s r : In s (k_svcs c) -> In r (k_conf c) -> names r s ->
      c_args (r_cfg r) <> c_args (s_cf s) -> remarked c c' old (s_key s)
  | rm_new s' : In s' (k_svcs c') -> (forall s, In s (k_svcs c) -> s_key s <> s_key s') ->
      remarked c c' old (s_key s')
  | rm_still k : old k ->
      (forall s r, In s (k_svcs c) -> s_key s = k -> the_entry c s r -> ~ taken c r) ->
      remarked c c' old k.

(** nothing happened to the process of the stanza *)
Definition same_process (s s' : svc) : Prop :=
  s_key s' = s_key s /\ (c_name (s_cf s') = c_name (s_cf s) /\ c_id (s_cf s') = c_id (s_cf s)) /\
  s_state s' = s_state s /\ s_pid s' = s_pid s /\ s_oldpid s' = s_oldpid s /\
  s_starting s' = s_starting s /\ s_started s' = s_started s /\ s_status s' = s_status s /\
  s_rcnt s' = s_rcnt s /\ s_rtot s' = s_rtot s /\ s_rsaved s' = s_rsaved s /\
  s_timer s' = s_timer s /\ s_killed s' = s_killed s.

(** what an entry makes of a stanza that is registered already *)
Definition follows (r : reg) (s s' : svc) : Prop :=
  s_cf s' = set_c_sighup (c_sighup (s_cf s')) (r_cfg r) /\
  (is_daemon s' = true -> c_sighup (s_cf s') = c_sighup (r_cfg r)) /\
  s_removed s' = false /\ (edited r s -> s_dirty s' = true) /\
  (c_args (r_cfg r) <> c_args (s_cf s) -> s_adirty s' = true) /\
  s_block s' = (if c_manual (r_cfg r) then s_block s else BNone).

(** From [c] to [c'] the configuration was read and every stanza registered. *)
Record reloaded (c c' : core) : Prop := {
  (* every stanza is still there, and its process is left alone *)
  rl_kept : forall s, In s (k_svcs c) -> exists s', In s' (k_svcs c') /\ same_process s s' /\
    (* one the configuration says nothing about keeps its settings, and is marked removed *)
    ((forall r, In r (k_conf c) -> ~ names r s) ->
       s_cf s' = s_cf s /\ s_block s' = s_block s /\ s_protect s' = s_protect s /\
       s_removed s' = s_removed s || negb (s_protect s)) /\
    (* one it says something about gets those settings *)
    (forall r, the_entry c s r -> taken c r -> follows r s s');
  (* a stanza is new only if the configuration has it *)
  rl_new : forall s', In s' (k_svcs c') -> (forall s, In s (k_svcs c) -> s_key s <> s_key s') ->
    s_state s' = Halted /\ s_pid s' = 0 /\ (exists r, In r (k_conf c) /\ names r s') /\
    (forall r, the_entry c s' r -> taken c r -> s_removed s' = false);
  (* only these are marked *)
  rl_marked : forall s', In s' (k_svcs c') -> s_dirty s' = true ->
    marked c c' (fun k => exists s, In s (k_svcs c) /\ s_key s = k /\ s_dirty s = true) (s_key s');
  rl_remarked : forall s', In s' (k_svcs c') -> s_adirty s' = true ->
    remarked c c' (fun k => exists s, In s (k_svcs c) /\ s_key s = k /\ s_adirty s = true) (s_key s');
  (* those that wait for a stanza that will be restarted are marked with it *)
  rl_depends : forall s r s' t', In s (k_svcs c) -> the_entry c s r -> taken c r -> edited r s ->
    In s' (k_svcs c') -> s_key s' = s_key s -> no_reload s' ->
    In t' (k_svcs c') -> waits_for t' s' -> s_dirty t' = true;
  (* nothing else changes *)
  rl_rest : set_k_next (k_next c) (set_k_svcs (k_svcs c) c') = c
}.

(** What the log says about who has been told to reload, or edited, since it
    was last started or told: *)
Definition told_again (k : nat) (c : core) (x : eff) : Prop :=
  match x with
  | EFork j FMain _ => j = k /\ forall s, lookup_svc c k = Some s ->
      match c_notify (s_cf s) with NfSystemd | NfS6 => False | _ => True end
  | EKill j p 1 => j = k /\ In p (k_procs c) /\ forall s, lookup_svc c k = Some s -> c_sighalt (s_cf s) <> 1
  | _ => False
  end.

Fixpoint touched (l : log) (k : nat) : Prop :=
  match l with
  | [] => False
  | (c', EReconfEnd) :: (c, EReconf) :: l => marked c c' (touched l) k
  | (c, ERequest j RqReload) :: l => j = k \/ touched l k
  | (c, x) :: l => touched l k /\ ~ told_again k c x
  end.
Fixpoint rearmed (l : log) (k : nat) : Prop :=
  match l with
  | [] => False
  | (c', EReconfEnd) :: (c, EReconf) :: l => remarked c c' (rearmed l) k
  | (c, x) :: l => rearmed l k /\ ~ told_again k c x
  end.

(** the configuration as it was last read *)
Fixpoint last_read (l : log) : option core :=
  match l with
  | [] => None
  | (c, EReconf) :: _ => Some c
  | _ :: l => last_read l
  end.

(** a condition of the stanza is off; one that is being re-established counts as neither *)
Definition cond_lost (c : core) (s : svc) : Prop := exists n, In n (c_cond (s_cf s)) /\ cond_get (k_cond c) n = COff.

(** Why [s] is made to stop while event [e] is handled, in state [c] and after [older]. *)
Inductive why_stopped (e : ev) (c : core) (older : log) (s : svc) : Prop :=
  | ws_may_not : ~ may_start c s -> why_stopped e c older s
  | ws_condition : cond_lost c s -> why_stopped e c older s
  | ws_changed : touched older (s_key s) -> no_reload s \/ rearmed older (s_key s) -> why_stopped e c older s
  | ws_asked : e = EvRestart (s_key s) -> why_stopped e c older s.

(** nobody uses "initctl signal NAME HUP" *)
Definition no_hup_by_hand (evs : list ev) : Prop := forall k, ~ In (EvSignal k 1) evs.
