(** The end of the system: processes told to exit (src/sig.c), file systems
    unmounted (src/mount.c), the clock saved and restored (plugins/rtc.c). *)
From Coq Require Import List String Ascii NArith ZArith Bool.
From Verif Require Import CStr.
Import ListNotations.
Local Open Scope Z_scope.

(** ** Processes *)
(** A directory of /proc: the number, and the beginning of the command line up to
    the first zero, which is what string functions see; None: it is empty *)
Record proc := { p_pid : Z; p_cmd : option cstr }.
Inductive signal := TERM | KILL.
(** src/sig.c:204-249 do_iterate_proc: the processes the callback is called for.
    fgets() reads [LINE_SIZE] - 1 = 1023 characters at most *)
Definition iterated (p : proc) : bool :=
  negb (p_pid p =? 1) &&
  match p_cmd p with
  | None => false
  | Some c =>
      let file := firstn (N.to_nat 1023) c in
      match strstr #"gdbserver" file with
      | Some _ => false
      | None => if match file with x :: _ => ch_eqb x "@" | [] => false end then false
                else match strstr #"initctl" file with Some _ => false | None => true end
      end
  end.
(** src/sig.c:251-258 kill_cb *)
Definition kill_all (s : signal) (ps : list proc) : list (Z * signal) := map (fun p => (p_pid p, s)) (filter iterated ps).
(** src/sig.c:274-291 do_wait: are there processes; the list is the one read last *)
Definition do_wait (ps : list proc) : bool := existsb iterated ps.
(** src/sig.c:318-322 of do_shutdown: [now] are the processes at first, [later] after
    the wait *)
Definition shutdown_kill (now later : list proc) : list (Z * signal) :=
  kill_all TERM now ++ (if do_wait later then kill_all KILL later else []).

(** ** File systems *)
Record mnt := { m_src : cstr; m_dir : cstr; m_type : cstr }.
(** src/mount.c:44-68 is_protected *)
Definition protected (d : cstr) : bool :=
  existsb (str_eqb d) [#"/sys"; #"/proc"; #"/.dev"; #"/dev"; #"/dev/pts"; #"/dev/shm"; #"dev/.static/dev"; #"/dev/vcs"; #"/run"; #"/var/run"; #"/"] ||
  existsb (fun a => starts a d) [#"/proc/"; #"/sys/"; #"/run/"].
(** umount(2) on the mounts there are; None: it failed *)
Definition kernel := list mnt -> cstr -> option (list mnt).
(** src/mount.c:70-133: one reading of /proc/mounts, until something was unmounted.
    None: nothing was *)
Fixpoint one_reading (k : kernel) (pick : mnt -> bool) (l todo : list mnt) : option (list mnt) :=
  match todo with
  | [] => None
  | m :: r =>
      if protected (m_dir m) then one_reading k pick l r
      else if pick m then match k l (m_dir m) with Some l' => Some l' | None => one_reading k pick l r end
      else one_reading k pick l r
  end.
(** None: the number of readings was not enough *)
Fixpoint readings (n : nat) (k : kernel) (pick : mnt -> bool) (l : list mnt) : option (list mnt) :=
  match n with
  | O => None
  | S n => match one_reading k pick l l with None => Some l | Some l' => readings n k pick l' end
  end.
(** src/mount.c:113-122 unmount_tmpfs *)
Definition unmount_tmpfs (n : nat) (k : kernel) := readings n k (fun m => str_eqb #"tmpfs" (m_src m)).
(** src/mount.c:124-133 unmount_regular *)
Definition unmount_regular (n : nat) (k : kernel) := readings n k (fun _ => true).

(** ** The clock *)
(** Seconds.  The hardware clock: None: there is none; Some None: it cannot be read.
    The file: None: there is none; Some None: there is no time in it.  [c_min] is
    rtc_date_fallback. *)
Record clock := { c_sys : Z; c_hw : option (option Z); c_file : option (option Z); c_min : Z }.
Definition set_sys (c : clock) (t : Z) : clock := {| c_sys := t; c_hw := c_hw c; c_file := c_file c; c_min := c_min c |}.
(** plugins/rtc.c:85-118 time_set; whether it worked *)
Definition time_set (c : clock) (t : option Z) : clock * bool :=
  match t with
  | None => (set_sys c (c_min c), true)
  | Some t => if (t =? -1) || (t <? c_min c) then (c, false) else (set_sys c t, true)
  end.
(** plugins/rtc.c:170-211 file_restore: what is read is not used: "rc = 1" follows
    the block whether the file was read or not *)
Definition file_restore (c : clock) : clock := fst (time_set c None).
(** plugins/rtc.c:264-309 rtc_restore *)
Definition rtc_restore (rescue : bool) (c : clock) : clock :=
  if rescue then c
  else match c_hw c with
       | None => file_restore c
       | Some None => file_restore c
       | Some (Some t) => let '(c, ok) := time_set c (Some t) in if ok then c else file_restore c
       end.
(** plugins/rtc.c:234-262 rtc_save *)
Definition rtc_save (rescue : bool) (c : clock) : clock :=
  if rescue then c
  else match c_hw c with
       | None => c
       | Some _ => if c_sys c <? c_min c then c
                   else {| c_sys := c_sys c; c_hw := Some (Some (c_sys c)); c_file := c_file c; c_min := c_min c |}
       end.
(** plugins/rtc.c:139-168 file_save: the file is emptied first *)
Definition file_save (c : clock) : clock :=
  {| c_sys := c_sys c; c_hw := c_hw c; c_file := Some (if c_sys c <? c_min c then None else Some (c_sys c)); c_min := c_min c |}.
(** plugins/rtc.c:312-316 save *)
Definition clock_save (rescue : bool) (c : clock) : clock := file_save (rtc_save rescue c).
