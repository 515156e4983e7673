(** The "tty" stanza: src/tty.c and the part of service_register() for it. *)
From Coq Require Import List String Ascii NArith ZArith Bool.
From Verif Require Import CStr.
Import ListNotations.

(** What the line is looked up in: programs, whichp(); device nodes, stat(2):
    None: there is no such file, otherwise whether it is a character device; the
    consoles of the kernel, /sys/class/tty/console/active *)
Record ttyworld := { which : cstr -> bool; node : cstr -> option bool; consoles : list cstr }.

(** src/tty.h struct tty; baud and term are left out, nothing looks at them: the
    program gets its arguments *)
Record tty := { t_cmd : option cstr; t_args : list cstr;
                t_noclear : bool; t_nowait : bool; t_nologin : bool; t_notty : bool; t_rescue : bool; t_passenv : bool }.
Definition tty0 : tty := {| t_cmd := None; t_args := []; t_noclear := false; t_nowait := false; t_nologin := false; t_notty := false; t_rescue := false; t_passenv := false |}.

(** src/tty.c:164-179: one word *)
Definition tty_word (W : ttyworld) (t : tty) (w : cstr) : tty :=
  let '{| t_cmd := c; t_args := a; t_noclear := nc; t_nowait := nw; t_nologin := nl; t_notty := nt; t_rescue := rs; t_passenv := pe |} := t in
  if str_eqb w #"noclear" then {| t_cmd := c; t_args := a; t_noclear := true; t_nowait := nw; t_nologin := nl; t_notty := nt; t_rescue := rs; t_passenv := pe |}
  else if str_eqb w #"nowait" then {| t_cmd := c; t_args := a; t_noclear := nc; t_nowait := true; t_nologin := nl; t_notty := nt; t_rescue := rs; t_passenv := pe |}
  else if str_eqb w #"nologin" then {| t_cmd := c; t_args := a; t_noclear := nc; t_nowait := nw; t_nologin := true; t_notty := nt; t_rescue := rs; t_passenv := pe |}
  else if str_eqb w #"notty" then {| t_cmd := c; t_args := a; t_noclear := nc; t_nowait := nw; t_nologin := nl; t_notty := true; t_rescue := rs; t_passenv := pe |}
  else if str_eqb w #"passenv" then {| t_cmd := c; t_args := a; t_noclear := nc; t_nowait := nw; t_nologin := nl; t_notty := nt; t_rescue := rs; t_passenv := true |}
  else if str_eqb w #"rescue" then {| t_cmd := c; t_args := a; t_noclear := nc; t_nowait := nw; t_nologin := nl; t_notty := nt; t_rescue := true; t_passenv := pe |}
  else match c with
       | None => if which W w then {| t_cmd := Some w; t_args := a; t_noclear := nc; t_nowait := nw; t_nologin := nl; t_notty := nt; t_rescue := rs; t_passenv := pe |}
                 else {| t_cmd := c; t_args := a ++ [w]; t_noclear := nc; t_nowait := nw; t_nologin := nl; t_notty := nt; t_rescue := rs; t_passenv := pe |}
       | Some _ => {| t_cmd := c; t_args := a ++ [w]; t_noclear := nc; t_nowait := nw; t_nologin := nl; t_notty := nt; t_rescue := rs; t_passenv := pe |}
       end.
(** MAX_NUM_SVC_ARGS, src/svc.h:105 *)
Definition maxargs : nat := 64.
(** src/tty.c:163-182: all words; the rest is left when the arguments are full *)
Fixpoint tty_words (W : ttyworld) (t : tty) (l : list cstr) : tty :=
  match l with
  | [] => t
  | w :: l => let t := tty_word W t w in
              if Nat.ltb (List.length (t_args t)) maxargs then tty_words W t l else t
  end.

(** src/tty.c:192-207: an argument that names the device *)
Definition names_dev (a : cstr) : bool :=
  str_eqb a #"@console" || starts #"/dev" a || starts #"tty" a || str_eqb a #"console".
(** src/tty.c:50-76 tty_canonicalize; the path is kept in 80 bytes *)
Definition canonicalize (W : ttyworld) (dev : cstr) : option cstr :=
  if str_eqb dev #"@console" then Some dev
  else
    let path := strlcpy 80 dev in
    match node W path with
    | Some chr => if chr then Some path else None
    | None =>
        if starts #"/dev/" path then Some path
        else let path := strlcpy 80 (#"/dev/" ++ dev) in
             match node W path with
             | None => Some path
             | Some chr => if chr then Some path else None
             end
    end.
(** _PATH_GETTY; the directory is given to configure *)
Definition getty : cstr := #"/libexec/finit/getty".
(** src/tty.c:157-249 tty_parse_args.  The device, None for "notty", and what is
    run; None: refused *)
Definition tty_parse (W : ttyworld) (l : list cstr) : option (option cstr * tty) :=
  let t := tty_words W tty0 l in
  let '{| t_cmd := c; t_args := a; t_noclear := nc; t_nowait := nw; t_nologin := nl; t_notty := nt; t_rescue := rs; t_passenv := pe |} := t in
  if nt || rs then Some (None, {| t_cmd := c; t_args := a; t_noclear := nc; t_nowait := nw; t_nologin := nl; t_notty := true; t_rescue := rs; t_passenv := pe |})
  else match find names_dev a with
       | None => None
       | Some d =>
           match canonicalize W d with
           | None => None
           | Some dev =>
               match c with
               | Some _ => Some (Some dev, t)
               | None => Some (Some dev, {| t_cmd := Some getty; t_args := (if pe && Nat.ltb (List.length a) maxargs then [#"-p"] else []) ++ a;
                                            t_noclear := nc; t_nowait := nw; t_nologin := nl; t_notty := nt; t_rescue := rs; t_passenv := pe |})
               end
           end
       end.

(** What is registered for one device *)
Record ttysvc := { s_id : cstr; s_dev : cstr; s_cmd : cstr; s_argv : list cstr; s_clear : bool; s_wait : bool; s_login : bool }.
(** src/service.c:1858-1870: the ID made from the device *)
Definition tty_id (dev : cstr) : cstr :=
  let p := match strrchr "/" dev with Some (_, p) => p | None => dev end in
  if starts #"tty" p then skipn 3 p else p.
(** src/service.c:1876-1938 and, in parse_cmdline_args, 1558-1560; the device is
    kept in 32 bytes.  [id]: the one in the stanza, empty if none.  The command is
    there. *)
Definition tty_one (id dev : cstr) (t : tty) : ttysvc :=
  let d := strlcpy 32 dev in
  {| s_id := match id with [] => tty_id dev | _ => id end; s_dev := d;
     s_cmd := match t_cmd t with Some c => c | None => #"tty" end;
     s_argv := map (fun a => if str_eqb a #"@console" then d else a) (t_args t);
     s_clear := negb (t_noclear t); s_wait := negb (t_nowait t); s_login := negb (t_nologin t) |}.
(** src/service.c:1819-1831 and 2073-2080: the services of a stanza, None: refused.
    Shells, "notty", are left out: Some []. *)
Definition tty_register (W : ttyworld) (id : cstr) (l : list cstr) : option (list ttysvc) :=
  match tty_parse W l with
  | None => None
  | Some (None, _) => Some []
  | Some (Some dev, t) =>
      if str_eqb dev #"@console" then
        match consoles W with
        | [] => Some []
        | d :: r => Some (tty_one id d t :: map (fun d => tty_one [] d t) r)
        end
      else Some [tty_one id dev t]
  end.
(** src/svc.c:502-519 svc_find_by_tty, at a reload: the record of an earlier
    registration is found by its device *)
Definition found_again (s : ttysvc) (dev : cstr) : bool := str_eqb dev (s_dev s).
