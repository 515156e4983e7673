(** What C68, C69 and C70 mean. *)
From Coq Require Import List String Ascii NArith ZArith Bool.
From Verif Require Import CStr EndModel.
Import ListNotations.
Local Open Scope Z_scope.

(** Processes left alone: init; those without a command line, as the kernel's; those
    whose name begins with @; debuggers and initctl *)
Inductive spared (p : proc) : Prop :=
| sp_init : p_pid p = 1 -> spared p
| sp_kernel : p_cmd p = None -> spared p
| sp_at : forall r, p_cmd p = Some ("@"%char :: r) -> spared p
| sp_tool : forall a b, p_cmd p = Some (a ++ #"gdbserver" ++ b) \/ p_cmd p = Some (a ++ #"initctl" ++ b) -> spared p.
(** Command lines are not longer than what is read *)
Definition readable (p : proc) : Prop := forall c, p_cmd p = Some c -> (List.length c <= N.to_nat 1023)%nat.

(** Mounts left alone *)
Inductive kept : cstr -> Prop :=
| k_dir : forall d, In d [#"/"; #"/proc"; #"/sys"; #"/dev"; #"/dev/pts"; #"/dev/shm"; #"/dev/vcs"; #"/.dev"; #"/run"; #"/var/run"; #"dev/.static/dev"] -> kept d
| k_below : forall p r, In p [#"/proc/"; #"/sys/"; #"/run/"] -> kept (p ++ r).
(** umount takes away one mount on the directory, or fails *)
Definition good_kernel (k : kernel) : Prop :=
  forall l d l', k l d = Some l' -> exists a m b, l = a ++ m :: b /\ m_dir m = d /\ l' = a ++ b.
(** Nothing is left that could be unmounted *)
Definition all_done (k : kernel) (pick : mnt -> Prop) (l : list mnt) : Prop :=
  forall m, In m l -> pick m -> ~ kept (m_dir m) -> k l (m_dir m) = None.
