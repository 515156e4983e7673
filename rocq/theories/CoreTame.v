(** A class of histories in which updating a condition never steps a service
    that is in the middle of a transition.  Many theorems are about this class;
    CoreCalm.v shows what always holds in it. *)
From Coq Require Import List String Ascii ZArith Bool.
From Verif Require Import CondModel CoreTypes CoreModel.
Import ListNotations.
Local Open Scope Z_scope.

(** names of the conditions that belong to a record *)
Definition base_of (s : svc) (m : string) : Prop :=
  m = pidcond s \/ m = readycond s \/ m = servicedir s \/ m = successcond s \/ m = failurecond s.
Definition owns (s : svc) (n : string) : Prop :=
  String.prefix (servicedir s) n = true \/
  exists m, base_of s m /\ (n = m \/ below (strip_slash (cond_path m)) n = true).

(** ** The class *)

(** all stanzas that are ever in the configuration *)
Definition regs (evs : list ev) : list reg :=
  flat_map (fun e => match e with EvConf l => l | _ => [] end) evs.

Definition rident (r : reg) : string := ident_of (c_name (r_cfg r)) (c_id (r_cfg r)).

(** [r] waits for a condition that belongs to [r0] *)
Definition waits_for (r r0 : reg) : Prop :=
  exists n, owns (svc_new 0 r0) n /\ cond_affects n (c_cond (r_cfg r)) = true.

Definition respawns (r : reg) : bool := is_daemon_t (c_type (r_cfg r)) || is_tty_t (c_type (r_cfg r)).

Record tame (evs : list ev) : Prop := {
  (* no circular dependencies *)
  t_acyclic : exists rank : string -> nat, forall r r0, In r (regs evs) -> In r0 (regs evs) ->
    waits_for r r0 -> (rank (rident r0) < rank (rident r))%nat;
  (* no daemon that detaches and is found again by its pid file *)
  t_noforking : forall r, In r (regs evs) -> c_forking (r_cfg r) = false;
  (* a stanza does not turn from run/task into service/tty or back *)
  t_kind : forall r r0, In r (regs evs) -> In r0 (regs evs) ->
    c_name (r_cfg r) = c_name (r_cfg r0) -> c_id (r_cfg r) = c_id (r_cfg r0) ->
    respawns r = respawns r0;
  (* only run/task stanzas are for runlevel S alone *)
  t_boot : forall r, In r (regs evs) -> only_boot (c_levels (r_cfg r)) = true -> respawns r = false;
  (* the kernel reports the end of every child *)
  t_reported : forall p, ~ In (EvGone p) evs
}.
