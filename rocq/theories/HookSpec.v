(** What the hook/ conditions stand for (doc/plugins.md). *)
From Coq Require Import List String NArith Bool.
From Verif Require Import CondModel CondSpec HookModel.
Import ListNotations.
Local Open Scope string_scope.

(** the phases that have a condition; the other hooks have none *)
Definition phase (h : hook) : option string :=
  match h with
  | HBasefsUp => Some "hook/mount/all"
  | HSvcPlugin => Some "hook/svc/plugin"
  | HNetworkUp => Some "hook/net/up"
  | HSvcUp => Some "hook/svc/up"
  | HSystemUp => Some "hook/sys/up"
  | HNetworkDn => Some "hook/net/down"
  | HShutdown => Some "hook/sys/shutdown"
  | _ => None
  end.
(** hook [h] was run while there were conditions *)
Definition reached (h : hook) (es : list hev) : Prop := exists cbs, In (HvHook true h cbs) es.
(** what others do: any conditions not below hook/, none too long, none below another *)
Definition hook_ops (es : list hev) : list cop :=
  flat_map (fun e => match e with HvHook _ _ cbs => cbs | HvOp o => [o] end) es.
Definition all_phases : list string :=
  ["hook/mount/all"; "hook/svc/plugin"; "hook/net/up"; "hook/svc/up"; "hook/sys/up"; "hook/net/down"; "hook/sys/shutdown"].
Definition hook_history (es : list hev) : Prop :=
  (forall n, In n (names_of (hook_ops es)) -> String.prefix "hook/" n = false /\ n <> "hook") /\
  forallb good_name (names_of (hook_ops es)) = true /\ flat (names_of (hook_ops es)) = true /\
  (N.of_nat (reloads (hook_ops es)) < 4294967295)%N.
