(** The commands reboot, halt, poweroff, shutdown and suspend: src/reboot.c, the
    request in src/api.c, and the signals in src/sig.c. *)
From Coq Require Import List String Ascii NArith ZArith Bool.
From Verif Require Import CStr.
Import ListNotations.
Local Open Scope Z_scope.

(** src/reboot.c:34-40 cmd_t *)
Inductive action := Reboot | Halt | PowerOff | Suspend.
(** What finit remembers.  [f_busy]: the state machine is not in its running state:
    it is waiting for services, of the bootstrap or of an earlier change.
    [f_halt]: what do_shutdown() will do at the end; [f_emerg]: seconds until it
    does so anyway *)
Record fin := { f_level : Z; f_busy : bool; f_new : option Z; f_halt : action; f_emerg : option Z }.
(** src/private.h:35 *)
Definition reserved (l : Z) : bool := (l =? 0) || (l =? 6) || (l =? 10).
(** src/sm.c:465-480 sm_runlevel, and 244-270 of sm_step: the level is changed at
    once when the state machine is in its running state *)
Definition sm_runlevel (f : fin) (n : Z) : fin :=
  if f_busy f then {| f_level := f_level f; f_busy := true; f_new := Some n; f_halt := f_halt f; f_emerg := f_emerg f |}
  else if f_level f =? n then {| f_level := n; f_busy := false; f_new := None; f_halt := f_halt f; f_emerg := f_emerg f |}
  else {| f_level := n; f_busy := true; f_new := None; f_halt := f_halt f; f_emerg := f_emerg f |}.
Definition set_halt (f : fin) (a : action) : fin :=
  {| f_level := f_level f; f_busy := f_busy f; f_new := f_new f; f_halt := a; f_emerg := f_emerg f |}.
Definition emergency (f : fin) (t : Z) : fin :=
  if 0 <? t then {| f_level := f_level f; f_busy := f_busy f; f_new := f_new f; f_halt := f_halt f; f_emerg := Some t |} else f.
(** src/api.c:246-311 do_reboot: the new state and the result, which is not zero
    unless the system was suspended: "rc" is not set.  [ok]: suspend() works *)
Definition api_reboot (ok : bool) (f : fin) (a : action) (t : Z) : fin * Z :=
  match a with
  | Reboot => (sm_runlevel (set_halt (emergency (set_halt f Reboot) t) Reboot) 6, 1)
  | Halt => (sm_runlevel (set_halt (emergency (set_halt f Halt) t) Halt) 0, 1)
  | PowerOff => (sm_runlevel (set_halt (emergency (set_halt f PowerOff) t) PowerOff) 0, 1)
  | Suspend => (emergency f t, if ok then 0 else 1)
  end.
(** src/sig.c:515-533 sigusr2_cb *)
Definition sigusr2 (f : fin) : fin := if reserved (f_level f) then f else sm_runlevel (set_halt f PowerOff) 0.
(** src/sig.c:538-556 sigterm_cb *)
Definition sigterm (f : fin) : fin := if reserved (f_level f) then f else sm_runlevel (set_halt f Reboot) 6.

(** src/initctl.c:630-648 do_cmd, src/client.c client_send: 0 if finit acknowledged.
    [up]: it answers *)
Definition do_cmd (up ok : bool) (f : fin) (a : action) (t : Z) : fin * bool :=
  if up then let '(f, r) := api_reboot ok f a t in (f, r =? 0) else (f, false).

(** src/reboot.c:54-70 transform, by the name of the program *)
Definition transform (nm : cstr) : action :=
  if str_eqb nm #"halt" then Halt
  else if str_eqb nm #"poweroff" || str_eqb nm #"shutdown" then PowerOff
  else if str_eqb nm #"suspend" then Suspend
  else Reboot.
(** src/reboot.c:137-171: options as getopt_long() gives them, with the value of
    atoi(optarg).  inl: exit status; inr: command, force, timeout *)
Fixpoint options (opts : list (ascii * Z)) (cmd : action) (force : bool) (t : Z) : Z + action * bool * Z :=
  match opts with
  | [] => inr (cmd, force, t)
  | (c, v) :: r =>
      if ch_eqb c "?" then inl 0
      else if ch_eqb c "f" then options r cmd true t
      else if ch_eqb c "H" then options r Halt force t
      else if ch_eqb c "h" || ch_eqb c "P" || ch_eqb c "p" then options r PowerOff force t
      else if ch_eqb c "r" then options r Reboot force t
      else if ch_eqb c "t" then if v <? 1 then inl 1 else options r cmd force v
      else inl 1
  end.
(** What was done: the exit status; reboot(2) or suspend called here; finit
    afterwards *)
Record done_ := { d_exit : Z; d_kernel : option action; d_fin : fin }.
(** src/reboot.c:120-243 reboot_main.  [sulogin]: SULOGIN is in the environment.
    The calls of the kernel are taken to work, and so is kill(2). *)
Definition reboot_main (nm : cstr) (opts : list (ascii * Z)) (sulogin up ok : bool) (f : fin) : done_ :=
  match options opts (transform nm) false 0 with
  | inl e => {| d_exit := e; d_kernel := None; d_fin := f |}
  | inr (cmd, force, t) =>
      if force || sulogin then {| d_exit := 0; d_kernel := Some cmd; d_fin := f |}
      else
        let '(f, acked) := do_cmd up ok f cmd t in
        {| d_exit := 0; d_kernel := None;
           d_fin := match cmd with
                    | Reboot => if acked then f else sigterm f
                    | Halt | PowerOff => if acked then f else sigusr2 f
                    | Suspend => f
                    end |}
  end.
