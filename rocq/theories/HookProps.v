(** Property theorems: hook conditions (C34). *)
From Coq Require Import List String NArith ZArith Bool.
From Verif Require Import CondModel CondSpec CondProof HookModel HookSpec HookProof.
Import ListNotations.
Local Open Scope string_scope.

(** C34 The condition of a phase is on exactly when its hook has been run while
    conditions were there, and else off: no reload, no other hook and no other
    condition turns it on, off or into flux. *)
Theorem hook_reached es h n : hook_history es -> phase h = Some n ->
  (cond_get (hook_run es) n = COn <-> reached h es) /\ (cond_get (hook_run es) n = COff <-> ~ reached h es).
Proof. exact (hook_reached_lem es h n). Qed.
Print Assumptions hook_reached.

(** C34 No other condition below hook/ is ever set: not those of the hooks before the
    file systems are mounted, of hook/svc/down and hook/sys/down, nor any for a
    reload or a change of runlevel. *)
Theorem hook_none es n : hook_history es -> String.prefix "hook/" n = true -> good_name n = true ->
  (forall h, phase h <> Some n) -> cond_get (hook_run es) n = COff.
Proof. exact (hook_none_lem es n). Qed.
Print Assumptions hook_none.

Definition ex_hooks : list hev :=
  [HvHook false HBanner []; HvHook false HRootfsUp []; HvHook true HBasefsUp [OpSet "net/lo/up"]; HvHook true HSvcPlugin [];
   HvOp OpReload; HvHook true HSvcReconf []; HvOp (OpSet "usr/a"); HvOp OpReload].
Example hook_ex : hook_history ex_hooks /\ reached HBasefsUp ex_hooks /\ ~ reached HSystemUp ex_hooks /\
  cond_get (hook_run ex_hooks) "hook/mount/all" = COn /\ cond_get (hook_run ex_hooks) "hook/sys/up" = COff /\
  cond_get (hook_run ex_hooks) "hook/mount/root" = COff /\ (forall h, phase h <> Some "hook/mount/root").
Proof.
  split; [split; [|split; [reflexivity|split; reflexivity]]|].
  - cbn. intros n [<-|[<-|[]]]; split; (reflexivity || discriminate).
  - split; [exists [OpSet "net/lo/up"]; cbn; auto|]. split; [intros (cbs & H); cbn in H; repeat (destruct H as [H|H]; [discriminate H|]); exact H|].
    split; [reflexivity|]. split; [reflexivity|]. split; [reflexivity|]. intros []; discriminate.
Qed.
