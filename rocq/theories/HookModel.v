(** Model of the conditions set by hook points: src/plugin.c and src/plugin.h. *)
From Coq Require Import List String NArith Bool.
From Verif Require Import CondModel CondSpec.
Import ListNotations.
Local Open Scope string_scope.

(** src/plugin.h:68-92 hook_point_t *)
Inductive hook :=
| HBanner | HRootfsUp | HMountError | HMountPost | HBasefsUp | HSvcPlugin | HNetworkUp | HSvcUp | HSystemUp
| HSvcReconf | HRunlevelChange | HNetworkDn | HShutdown | HSvcDn | HSysDn.
Definition hook_no (h : hook) : nat :=
  match h with
  | HBanner => 0 | HRootfsUp => 1 | HMountError => 2 | HMountPost => 3 | HBasefsUp => 4 | HSvcPlugin => 5 | HNetworkUp => 6
  | HSvcUp => 7 | HSystemUp => 8 | HSvcReconf => 9 | HRunlevelChange => 10 | HNetworkDn => 11 | HShutdown => 12 | HSvcDn => 13
  | HSysDn => 14
  end.
(** src/plugin.c:41-45 hook_cond, by number *)
Definition hook_cond : list string :=
  ["hook/sys/banner"; "hook/mount/root"; "hook/mount/error"; "hook/mount/post"; "hook/mount/all"; "hook/svc/plugin";
   "hook/net/up"; "hook/svc/up"; "hook/sys/up"; "nop"; "nop"; "hook/net/down"; "hook/sys/shutdown"; "hook/svc/down";
   "hook/sys/down"; "nop"].

(** src/plugin.c:247-274 plugin_run_hook.  [avail]: the directory of the conditions
    is there (src/cond-w.c:453-456).  What the plugins' callbacks do to conditions is
    given as [cbs]; the stepping of services is left out. *)
Definition cond_do (c : cstore) (o : cop) : cstore :=
  match o with
  | OpSet n => snd (cond_set_nu c n)
  | OpOneshot n => snd (cond_oneshot_nu c n)
  | OpClear n => snd (cond_clear_nu c n)
  | OpReload => cond_reload c
  end.
Definition plugin_run_hook (avail : bool) (h : hook) (cbs : list cop) (c : cstore) : cstore :=
  let c := fold_left cond_do cbs c in
  if avail && Nat.leb (hook_no HBasefsUp) (hook_no h) && Nat.leb (hook_no h) (hook_no HShutdown)
  then snd (cond_oneshot_nu c (nth (hook_no h) hook_cond "nop")) else c.

(** what happens: a hook is run, or conditions are used otherwise *)
Inductive hev := HvHook (avail : bool) (h : hook) (cbs : list cop) | HvOp (o : cop).
Definition hook_event (c : cstore) (e : hev) : cstore :=
  match e with HvHook a h cbs => plugin_run_hook a h cbs c | HvOp o => cond_do c o end.
Definition hook_run (es : list hev) : cstore := fold_left hook_event es cond_init.
