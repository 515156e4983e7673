(** Specification for C49: readiness. *)
From Coq Require Import List String Ascii ZArith NArith Bool.
From Verif Require Import CondModel CoreTypes CoreModel CoreSpec.
Import ListNotations.

(** what a stanza's conditions are called *)
Definition name_of (s : svc) : string :=
  (if String.eqb (c_id (s_cf s)) "" then c_name (s_cf s) else c_name (s_cf s) ++ ":" ++ c_id (s_cf s))%string.
Definition pid_name (s : svc) : string := ("pid/" ++ name_of s)%string.
Definition ready_name (s : svc) : string := ("service/" ++ name_of s ++ "/ready")%string.
Definition a_service (s : svc) : Prop := c_type (s_cf s) = TService \/ c_type (s_cf s) = TSysv.

(** condition [n] was asserted between [w1] and [w2], by [cond_set] *)
Definition asserted (n : string) (w1 w2 : world) : Prop :=
  exists newer c older, wl w2 = newer ++ (c, ECond (OpSet n)) :: older ++ wl w1.
(** ... and before anything else *)
Definition asserted_first (n : string) (w1 w2 : world) : Prop :=
  exists newer c, wl w2 = newer ++ (c, ECond (OpSet n)) :: wl w1.
Definition withdrawn_first (n : string) (w1 w2 : world) : Prop :=
  exists newer c, wl w2 = newer ++ (c, ECond (OpClear n)) :: wl w1.

(** Why service/NAME/ready may be asserted during event [e] *)
Definition readiness_reported (e : ev) (k : nat) (s : svc) : Prop :=
  (exists p, e = EvPidfile k p /\ (c_notify (s_cf s) = NfPid \/ c_notify (s_cf s) = NfNone)) \/
  (e = EvNotify k /\ (c_notify (s_cf s) = NfSystemd \/ c_notify (s_cf s) = NfS6)) \/
  (s_state s = Running /\ s_dirty s = false) \/
  (c_notify (s_cf s) = NfNone /\ (s_state s = Running \/ s_state s = Stopping \/ s_state s = Halted)).
(** Why pid/NAME may be asserted during event [e] *)
Definition pid_reported (e : ev) (k : nat) (s : svc) : Prop :=
  exists p, e = EvPidfile k p /\ c_notify (s_cf s) = NfPid /\ s_state s <> Stopping.

(** taking a condition away: its file, or what lies below it if it is a directory *)
Definition withdraws (n : string) (o : cop) : Prop :=
  o = OpClear n \/ exists q, o = OpUnlink q /\ String.prefix (strip_slash (cond_path n) ++ "/") q = true.
Definition withdrawn (n : string) (w1 w2 : world) : Prop :=
  exists newer c o older, wl w2 = newer ++ (c, ECond o) :: older ++ wl w1 /\ withdraws n o.
