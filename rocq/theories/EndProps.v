(** C68, C69, C70: processes, file systems and the clock at the end. *)
From Coq Require Import List String Ascii NArith ZArith Bool Lia.
From Verif Require Import CStr CStrLib EndModel EndSpec EndProof.
Import ListNotations.
Local Open Scope Z_scope.

(** ** C68 *)
(** Each process that is not to be spared is told to exit, and killed if it is
    there after the wait; no other gets a signal. *)
Theorem shutdown_told : forall now later z s, Forall readable now -> Forall readable later ->
  (In (z, s) (shutdown_kill now later) <->
   exists p, p_pid p = z /\ ~ spared p /\ ((s = TERM /\ In p now) \/ (s = KILL /\ In p later))).
Proof. exact shutdown_signals. Qed.
(** Claim that is false: only debuggers and initctl itself are spared.  Any process
    with such a name somewhere in its path is. *)
Theorem shutdown_name_refuted : exists p, p_cmd p = Some #"/srv/initctl-web/bin/database" /\ shutdown_kill [p] [p] = [].
Proof. exists {| p_pid := 200; p_cmd := Some #"/srv/initctl-web/bin/database" |}. split; reflexivity. Qed.

Definition procs : list proc :=
  [{| p_pid := 1; p_cmd := Some #"/sbin/init" |}; {| p_pid := 2; p_cmd := None |}; {| p_pid := 100; p_cmd := Some #"@mdmon" |};
   {| p_pid := 101; p_cmd := Some #"sleep" |}; {| p_pid := 102; p_cmd := Some #"/bin/sh" |}].
Example shutdown_told_ex : shutdown_kill procs (firstn 4 procs) = [(101, TERM); (102, TERM); (101, KILL)].
Proof. reflexivity. Qed.
Example shutdown_told_hyps : Forall readable procs.
Proof.
  assert (B : forall c : cstr, Nat.leb (List.length c) (N.to_nat 1023) = true -> (List.length c <= N.to_nat 1023)%nat) by (intros c; apply PeanoNat.Nat.leb_le).
  unfold procs. repeat (apply Forall_cons; [intros c H; cbn [p_cmd] in H; first [discriminate H | injection H as <-; apply B; reflexivity]|]). apply Forall_nil.
Qed.

(** ** C69 *)
(** In the end nothing is mounted that could be unmounted and is not to be kept;
    what is to be kept is still mounted, and nothing new. *)
Theorem unmounted : forall k l, good_kernel k -> exists l', unmount_regular (S (List.length l)) k l = Some l' /\
  all_done k (fun _ => True) l' /\ (forall m, kept (m_dir m) -> In m l -> In m l') /\ (forall m, In m l' -> In m l).
Proof. exact regular_ok. Qed.
(** Before swap is turned off the same is true of mounts with the source tmpfs. *)
Theorem unmounted_tmpfs : forall k l, good_kernel k -> exists l', unmount_tmpfs (S (List.length l)) k l = Some l' /\
  all_done k (fun m => m_src m = #"tmpfs") l' /\ (forall m, kept (m_dir m) -> In m l -> In m l') /\ (forall m, In m l' -> In m l).
Proof. exact tmpfs_ok. Qed.

Definition idle : kernel := simple_kernel (fun _ => false).
Definition mounts : list mnt :=
  [{| m_src := #"/dev/sda1"; m_dir := #"/"; m_type := #"ext4" |}; {| m_src := #"proc"; m_dir := #"/proc"; m_type := #"proc" |};
   {| m_src := #"/dev/sda2"; m_dir := #"/srv"; m_type := #"ext4" |}; {| m_src := #"tmpfs"; m_dir := #"/tmp"; m_type := #"tmpfs" |};
   {| m_src := #"/dev/sdb1"; m_dir := #"/srv/www"; m_type := #"ext4" |}; {| m_src := #"tmpfs"; m_dir := #"/run/lock"; m_type := #"tmpfs" |}].
Example unmounted_ex : good_kernel idle /\ option_map (map m_dir) (unmount_regular 7 idle mounts) = Some [#"/"; #"/proc"; #"/run/lock"] /\
  option_map (map m_dir) (unmount_regular 7 (simple_kernel (str_eqb #"/srv/www")) mounts) = Some [#"/"; #"/proc"; #"/srv"; #"/srv/www"; #"/run/lock"].
Proof. split; [apply simple_good|split; reflexivity]. Qed.
Example unmounted_tmpfs_ex : option_map (map m_dir) (unmount_tmpfs 7 idle mounts) = Some [#"/"; #"/proc"; #"/srv"; #"/srv/www"; #"/run/lock"].
Proof. reflexivity. Qed.
(** Claim that is false: all of type tmpfs are unmounted before swap is turned off.
    It is the source that is looked at, which can be any word. *)
Theorem unmount_tmpfs_refuted : exists k l m l', good_kernel k /\ unmount_tmpfs (S (List.length l)) k l = Some l' /\ In m l' /\
  m_type m = #"tmpfs" /\ ~ kept (m_dir m) /\ k l' (m_dir m) <> None.
Proof.
  exists idle, [{| m_src := #"none"; m_dir := #"/tmp"; m_type := #"tmpfs" |}], {| m_src := #"none"; m_dir := #"/tmp"; m_type := #"tmpfs" |},
    [{| m_src := #"none"; m_dir := #"/tmp"; m_type := #"tmpfs" |}].
  split; [apply simple_good|]. split; [reflexivity|]. split; [left; reflexivity|]. split; [reflexivity|].
  split; [rewrite <- protected_iff; discriminate|discriminate].
Qed.
(** Claim that is false: all directories meant to be kept are.  The name of one is
    written without its first slash. *)
Theorem unmount_static_refuted : ~ kept #"/dev/.static/dev" /\ kept #"dev/.static/dev".
Proof. split; [rewrite <- protected_iff; discriminate|apply protected_iff; reflexivity]. Qed.

(** ** C70 *)
(** The clock is set from the hardware clock, if that is not too far in the past,
    and otherwise to the earliest time allowed: it is never before that. *)
Theorem clock_restored : forall c, 0 <= c_min c ->
  c_sys (rtc_restore false c) = match c_hw c with Some (Some t) => if c_min c <=? t then t else c_min c | _ => c_min c end /\
  c_hw (rtc_restore false c) = c_hw c /\ c_file (rtc_restore false c) = c_file c /\ c_min c <= c_sys (rtc_restore false c).
Proof. exact restore_ok. Qed.
(** A time that is not too early is saved in the hardware clock and the file... *)
Theorem clock_saved : forall c h, c_hw c = Some h -> c_min c <= c_sys c ->
  clock_save false c = {| c_sys := c_sys c; c_hw := Some (Some (c_sys c)); c_file := Some (Some (c_sys c)); c_min := c_min c |}.
Proof. exact saved_ok. Qed.
(** ...and one that is too early does not get into the hardware clock. *)
Theorem clock_hw_kept : forall c, c_sys c < c_min c -> c_hw (clock_save false c) = c_hw c.
Proof. exact hw_kept. Qed.
(** Claim that is false: without a hardware clock the time is restored from the file.
    It never is. *)
Theorem clock_file_refuted : forall c t, c_hw c = None -> c_file c = Some (Some t) -> c_sys (rtc_restore false c) = c_min c.
Proof. exact file_never. Qed.
(** Claim that is false: the time saved in the file is kept while the clock is not
    valid.  It is lost. *)
Theorem clock_lost_refuted : forall c rescue t, c_file c = Some (Some t) -> c_sys c < c_min c -> c_file (clock_save rescue c) = Some None.
Proof. exact file_lost. Qed.

Definition y2000 : Z := 946684800.
Definition board : clock := {| c_sys := 1700000000; c_hw := Some (Some 12); c_file := Some (Some 1600000000); c_min := y2000 |}.
Example clock_saved_ex : c_hw (clock_save false board) = Some (Some 1700000000) /\ c_sys (rtc_restore false (clock_save false board)) = 1700000000.
Proof. split; reflexivity. Qed.
Example clock_restored_ex : c_sys (rtc_restore false board) = y2000.
Proof. reflexivity. Qed.
Example clock_file_ex : c_sys (rtc_restore false {| c_sys := 0; c_hw := None; c_file := Some (Some 1600000000); c_min := y2000 |}) = y2000.
Proof. reflexivity. Qed.
Example clock_lost_ex : c_file (clock_save false {| c_sys := 5; c_hw := None; c_file := Some (Some 1600000000); c_min := y2000 |}) = Some None.
Proof. reflexivity. Qed.

Print Assumptions shutdown_told.
Print Assumptions shutdown_name_refuted.
Print Assumptions unmounted.
Print Assumptions unmounted_tmpfs.
Print Assumptions unmount_tmpfs_refuted.
Print Assumptions unmount_static_refuted.
Print Assumptions clock_restored.
Print Assumptions clock_saved.
Print Assumptions clock_hw_kept.
Print Assumptions clock_file_refuted.
Print Assumptions clock_lost_refuted.
