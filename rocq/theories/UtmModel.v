(** Login records: src/utmp-api.c, with pututline() of the C library. *)
From Coq Require Import List String Ascii NArith ZArith Bool.
From Verif Require Import CStr.
Import ListNotations.
Local Open Scope Z_scope.

(** utmp(5); the types finit writes *)
Inductive utype := RunLvl | BootTime | InitProc | LoginProc | DeadProc | UserProc.
Record ut := { u_type : utype; u_pid : Z; u_line : cstr; u_id : cstr; u_user : cstr }.
(** src/utmp-api.c:46-55 utmp_strncpy: a field of n bytes, not always terminated *)
Definition field (n : nat) (s : cstr) : cstr := firstn n s.
Definition is_proc (t : utype) : bool := match t with RunLvl | BootTime => false | _ => true end.
Definition type_eqb (a b : utype) : bool :=
  match a, b with RunLvl, RunLvl | BootTime, BootTime | InitProc, InitProc | LoginProc, LoginProc | DeadProc, DeadProc | UserProc, UserProc => true | _, _ => false end.
(** which entry pututline() replaces: as getutid(3), glibc's __utmp_equal *)
Definition same_entry (new old : ut) : bool :=
  if is_proc (u_type new) then
    is_proc (u_type old) &&
    match u_id new, u_id old with
    | _ :: _, _ :: _ => str_eqb (u_id new) (u_id old)
    | _, _ => str_eqb (u_line new) (u_line old)
    end
  else type_eqb (u_type new) (u_type old).
Fixpoint pututline (new : ut) (l : list ut) : list ut :=
  match l with
  | [] => [new]
  | o :: r => if same_entry new o then new :: r else o :: pututline new r
  end.
(** /run/utmp and /var/log/wtmp; rotation is left out *)
Record files := { utmp : list ut; wtmp : list ut }.
(** src/utmp-api.c:83-126 utmp_set; absent arguments are empty *)
Definition utmp_set (f : files) (t : utype) (pid : Z) (line id user : cstr) : files :=
  let line := match t with RunLvl | BootTime => #"~" | _ => line end in
  let id := match t with RunLvl | BootTime => #"~~" | _ => id end in
  let r := {| u_type := t; u_pid := pid; u_line := field 32 line; u_id := field 4 id; u_user := field 32 user |} in
  {| utmp := match t with DeadProc => utmp f | _ => pututline r (utmp f) end; wtmp := wtmp f ++ [r] |}.
(** src/utmp-api.c:138-159 set_getty, with no ID given *)
Definition set_getty (f : files) (t : utype) (pid : Z) (tty user : cstr) : files :=
  let line := if starts #"/dev/" tty then skipn 5 tty else tty in
  let id := if starts #"pts/" line then skipn 4 line else line in
  utmp_set f t pid line id user.
(** src/utmp-api.c:176-181 encode *)
Definition encode (lvl : Z) : Z := if lvl =? 10 then 0 else lvl + 48.

(** What happens: finit starts a getty on a device, as process [pid] (exec.c:318),
    that process is getty and asks for a name (getty.c:347), it is gone
    (service.c:1038), login(1) has let someone in, the runlevel changes (sm.c:284),
    shutdown (sig.c:312), boot (bootmisc.c:169) *)
Inductive event := EStart (dev : cstr) (pid : Z) | EPrompt (dev : cstr) (pid : Z) | ELogin (dev user : cstr) (pid : Z)
  | EGone (pid : Z) | ELevel (pre now : Z) | EHalt | EBoot.
Definition step (f : files) (e : event) : files :=
  match e with
  | EStart dev pid => set_getty f InitProc pid dev []
  | EPrompt dev pid => set_getty f LoginProc pid dev #"LOGIN"
  | ELogin dev user pid => set_getty f UserProc pid dev user
  | EGone pid => utmp_set f DeadProc pid [] [] []
  | ELevel pre now => utmp_set f RunLvl (Z.lor (Z.shiftl (encode pre) 8) (Z.land (encode now) 255)) [] [] #"runlevel"
  | EHalt => utmp_set f RunLvl 0 [] [] #"shutdown"
  | EBoot => utmp_set f BootTime 0 [] [] #"reboot"
  end.
Definition run (es : list event) : files := fold_left step es {| utmp := []; wtmp := [] |}.
