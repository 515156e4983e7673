(** Where the output of a service goes, and with which priority: parse_log(),
    redirect() and lredirect() of src/service.c, log_parse() of src/log.c, and the
    logit program, src/logit.c. *)
From Coq Require Import List String Ascii NArith ZArith Bool.
From Verif Require Import CStr.
Import ListNotations.
Local Open Scope Z_scope.

(** src/svc.h:169-176: log *)
Record logcfg := { l_on : bool; l_null : bool; l_cons : bool; l_file : cstr; l_prio : cstr; l_ident : cstr }.
(** svc_new(): all zero *)
Definition log_new : logcfg := {| l_on := false; l_null := false; l_cons := false; l_file := []; l_prio := []; l_ident := [] |}.
Definition set_on b l := {| l_on := b; l_null := l_null l; l_cons := l_cons l; l_file := l_file l; l_prio := l_prio l; l_ident := l_ident l |}.
Definition set_null l := {| l_on := l_on l; l_null := true; l_cons := l_cons l; l_file := l_file l; l_prio := l_prio l; l_ident := l_ident l |}.
Definition set_cons l := {| l_on := l_on l; l_null := l_null l; l_cons := true; l_file := l_file l; l_prio := l_prio l; l_ident := l_ident l |}.
Definition set_file v l := {| l_on := l_on l; l_null := l_null l; l_cons := l_cons l; l_file := strlcpy 64 v; l_prio := l_prio l; l_ident := l_ident l |}.
Definition set_prio v l := {| l_on := l_on l; l_null := l_null l; l_cons := l_cons l; l_file := l_file l; l_prio := strlcpy 20 v; l_ident := l_ident l |}.
Definition set_ident v l := {| l_on := l_on l; l_null := l_null l; l_cons := l_cons l; l_file := l_file l; l_prio := l_prio l; l_ident := strlcpy 20 v |}.

(** What parse_log() comes to: a result, or strlcpy() from a null pointer.
    [NoFuel] does not happen. *)
Inductive parsed := Parsed (l : logcfg) | NullPtr | NoFuel.

(** src/service.c:1334-1345: one token; a value is fetched with another strtok() *)
Definition log_token (l : logcfg) (tok rest : cstr) : option (logcfg * cstr) :=
  if str_eqb tok #"log" then Some (set_on true l, rest)
  else if str_eqb tok #"null" || str_eqb tok #"/dev/null" then Some (set_null l, rest)
  else if str_eqb tok #"console" || str_eqb tok #"/dev/console" then Some (set_cons l, rest)
  else if starts #"/" tok then Some (set_file tok l, rest)
  else if str_eqb tok #"priority" || str_eqb tok #"prio" then
    match strtok #"," rest with Some (v, rest) => Some (set_prio v l, rest) | None => None end
  else if str_eqb tok #"tag" || str_eqb tok #"identity" || str_eqb tok #"ident" then
    match strtok #"," rest with Some (v, rest) => Some (set_ident v l, rest) | None => None end
  else Some (l, rest).
Fixpoint log_tokens (n : nat) (del : cstr) (l : logcfg) (s : cstr) : parsed :=
  match n with
  | O => NoFuel
  | S n =>
      match strtok del s with
      | None => Parsed l
      | Some (tok, rest) =>
          match log_token l tok rest with
          | None => NullPtr
          | Some (l, rest) => log_tokens n #":=, " l rest
          end
      end
  end.
(** src/service.c:1325-1350 parse_log *)
Definition parse_log (l : logcfg) (arg : cstr) : parsed := log_tokens (S (List.length arg)) #":, " l arg.
(** src/service.c:1988-1993, in service_register(): the record is that of the
    stanza, new or registered before; [log] is its log option *)
Definition reg_log (l : logcfg) (log : option cstr) : parsed :=
  match log with Some a => parse_log l a | None => Parsed (set_on false l) end.

(** The programs that can take the output: src/service.c:294-316, 346 *)
Inductive tool := Sysklogd | Logit | NoTool.
(** Where it goes: nowhere else than before; to a file that is opened; to a
    program; to syslog(3) by finit's own child *)
Inductive sink := Keep | Open (file : cstr) | Exec (argv : list cstr) | Syslog (tag prio : cstr).

(** src/service.c:270-393 lredirect.  [name] is svc_ident(); [pid], [size],
    [count] are the numbers, printed.  Without -s, which is for debugging; the pty
    can be had. *)
Definition lredirect (t : tool) (systemd : bool) (name pid size count : cstr) (l : logcfg) : sink :=
  let tag := match l_ident l with [] => name | i => i end in
  let prio := match l_prio l with [] => #"daemon.info" | p => p end in
  match t with
  | NoTool => Syslog tag prio
  | _ =>
      if starts #"/" (l_file l) then
        match t with
        | Sysklogd => Exec [#"logger"; #"-f"; l_file l; #"-b"; #"-t"; tag; #"-p"; prio; #"-I"; strlcpy 16 pid; #"-r";
                            strlcpy 25 (size ++ #":" ++ count)]
        | _ => Exec [#"logit"; #"-f"; l_file l; #"-n"; strlcpy 20 size; #"-r"; strlcpy 3 count]
        end
      else
        match t, systemd with
        | Sysklogd, false => Exec [#"logger"; #"-t"; tag; #"-p"; prio; #"-I"; strlcpy 16 pid]
        | _, _ => Exec [#"logit"; #"-t"; tag; #"-p"; prio]
        end
  end.
(** src/service.c:397-417 redirect, without debug; [redir]: built with
    REDIRECT_OUTPUT *)
Definition redirect (redir : bool) (console : cstr) (t : tool) (systemd : bool) (name pid size count : cstr) (l : logcfg) : sink :=
  if l_on l then
    if l_null l then Open #"/dev/null"
    else if l_cons l then Open console
    else lredirect t systemd name pid size count l
  else if redir then Open #"/dev/null" else Keep.

(** The names of <syslog.h>, facilitynames[] and prioritynames[] of glibc *)
Definition fac_names : list (cstr * Z) :=
  [(#"auth", 32); (#"authpriv", 80); (#"cron", 72); (#"daemon", 24); (#"ftp", 88); (#"kern", 0); (#"lpr", 48); (#"mail", 16);
   (#"mark", 192); (#"news", 56); (#"security", 32); (#"syslog", 40); (#"user", 8); (#"uucp", 64); (#"local0", 128);
   (#"local1", 136); (#"local2", 144); (#"local3", 152); (#"local4", 160); (#"local5", 168); (#"local6", 176); (#"local7", 184)].
Definition pri_names : list (cstr * Z) :=
  [(#"alert", 1); (#"crit", 2); (#"debug", 7); (#"emerg", 0); (#"err", 3); (#"error", 3); (#"info", 6); (#"none", 16);
   (#"notice", 5); (#"panic", 0); (#"warn", 4); (#"warning", 4)].
Fixpoint find_name (m : cstr -> cstr -> bool) (t : list (cstr * Z)) (s : cstr) : option Z :=
  match t with
  | (n, v) :: r => if m n s then Some v else find_name m r s
  | [] => None
  end.

(** src/logit.c:144-192 parse_prio: the facility and level, None if refused *)
Definition parse_prio (arg : cstr) (fac lvl : Z) : option (Z * Z) :=
  match strchr "." arg with
  | Some (a, b) =>
      match find_name str_eqb fac_names a with
      | None => None
      | Some f => match find_name str_eqb pri_names b with Some l => Some (f, l) | None => None end
      end
  | None => match find_name str_eqb pri_names arg with Some l => Some (fac, l) | None => None end
  end.

(** src/logit.c:99-125 parse_level: the priority and what is logged.  [stale] is
    what is behind the end of the message in the buffer, where the third
    character is looked at before the second. *)
Definition char_at (msg : cstr) (stale : nat -> ascii) (i : nat) : ascii :=
  match nth_error msg i with
  | Some c => c
  | None => if Nat.eqb i (List.length msg) then "000"%char else stale i
  end.
Definition parse_level (stale : nat -> ascii) (msg : cstr) (deflt : Z) : Z * cstr :=
  let c0 := char_at msg stale 0 in
  let c1 := char_at msg stale 1 in
  let c2 := char_at msg stale 2 in
  if ch_eqb c0 "<" && ch_eqb c2 ">" && (48 <=? code c1)%N && (code c1 <=? 55)%N
  then (Z.lor (Z.land deflt (Z.lnot 7)) (Z.of_N (code c1) - 48), skipn 3 msg)
  else (deflt, msg).

(** string_match() of libite, which is not in /repo: only the length of the
    shorter one is compared, without case *)
Definition string_match (a b : cstr) : bool := istarts a b || istarts b a.
(** src/log.c:104-122 s2f, s2l *)
Definition s2f (s : cstr) : Z := match find_name string_match fac_names s with Some v => v | None => -1 end.
Definition s2l (s : cstr) : Z := match find_name string_match pri_names s with Some v => v | None => -1 end.
(** src/log.c:124-176 log_parse: the facility and level, None if it fails *)
Definition log_parse (prio : cstr) (fac lvl : Z) : option (Z * Z) :=
  let (a, b) := match strchr "." prio with Some (a, b) => (a, Some b) | None => (prio, None) end in
  let l := match b with Some (c :: r) => s2l (c :: r) | _ => -1 end in
  let f := s2f a in
  let l := if l <? 0 then s2l a else l in
  if (l <? 0) && (f <=? 0) then None
  else Some (if f <=? 184 then f else fac, if l <=? 7 then l else lvl).

(** src/logit.c:277-288: the message from the arguments, in a buffer of 512
    bytes; size_t has 64 bits.  [buf] is what is written so far up to [pos]; None:
    written outside of the buffer. *)
Fixpoint message (buf : cstr) (pos len : Z) (args : list cstr) : option cstr :=
  match args with
  | [] => Some (strlcpy 512 buf)
  | a :: r =>
      let s := a ++ #" " in
      let bytes := Z.of_nat (List.length s) in
      if (0 <? len) && (512 <=? pos) then None
      else message (if len =? 0 then buf else buf ++ s) (pos + bytes) ((len - bytes) mod 18446744073709551616) r
  end.
Definition logit_message (args : list cstr) : option cstr := message [] 0 512 args.
