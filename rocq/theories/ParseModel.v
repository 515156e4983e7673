(** Configuration parsing: the string functions of conf.c, service.c, pid.c,
    util.c, util.h and helpers.c. *)
From Coq Require Import List String Ascii NArith ZArith Bool.
From Verif Require Import CStr.
Import ListNotations.
Local Open Scope Z_scope.

(** ** Runlevels *)

(** conf.c:682-685: the level a character stands for *)
Definition level_num (c : ascii) : Z :=
  if ch_eqb c "s" || ch_eqb c "S" then 10 else digit c.
(** conf.c:669-695: the loop, from the second character on.  A [char] above
    127 is negative or large, and skipped either way. *)
Fixpoint levels_loop (neg : bool) (m : N) (s : cstr) : N :=
  match s with
  | [] => m
  | c :: r =>
      if ch_eqb c "]" then m
      else if ch_eqb c "!" then levels_loop true 2046 r
      else let l := level_num c in
           if (10 <? l) || (l <? 0) then levels_loop neg m r
           else levels_loop neg (if neg then N.clearbit m (Z.to_N l) else N.setbit m (Z.to_N l)) r
  end.
(** conf.c:662-696 conf_parse_runlevels.  The first character, '[' for every
    caller (service.c:1706-1707), is not looked at. *)
Definition parse_runlevels (s : option cstr) : N :=
  levels_loop false 0 (tl (match s with Some s => s | None => #"[234]" end)).

(** conf.c:256-274 parse_runlevel: the level on the kernel command line *)
Definition parse_runlevel (s : cstr) : Z :=
  if forallb isdigit s then
    match strtonum 1 9 s with
    | Some n => if n =? 6 then 0 else n
    | None => 0
    end
  else 0.

(** ** Words of a stanza *)

Definition isquote (c : ascii) : bool := ch_eqb c "'" || ch_eqb c """".
(** service.c:1274-1310: the token that starts at [s], and what is left from
    the blank that ends it *)
Fixpoint arg_scan (q : option ascii) (colon : bool) (s : cstr) : cstr * cstr :=
  match s with
  | [] => ([], [])
  | c :: r =>
      let go q colon := let (a, b) := arg_scan q colon r in (c :: a, b) in
      match q with
      | Some qc => go (if ch_eqb c qc then None else q) colon
      | None =>
          if isquote c then go (Some c) colon
          else if ch_eqb c ":" then go None true
          else if isblank c then
            if colon && (match skip isblank s with x :: _ => ch_eqb x "," | [] => false end)
            then go None colon
            else ([], s)
          else go None colon
      end
  end.
(** service.c:1255-1326 parse_args: the next word and the rest of the line *)
Definition parse_args (s : cstr) : option (cstr * cstr) :=
  match skip isblank s with
  | [] => None
  | s => let (a, b) := arg_scan None false s in
         match a with [] => None | _ => Some (a, tl b) end
  end.
(** all words: the stanza parser calls parse_args until it returns NULL *)
Fixpoint all_args_ (n : nat) (s : cstr) : list cstr :=
  match n with
  | O => []
  | S n => match parse_args s with
           | Some (a, b) => a :: all_args_ n b
           | None => []
           end
  end.
Definition all_args (s : cstr) : list cstr := all_args_ (S (List.length s)) s.

(** private.h:32 MATCH_CMD *)
Definition match_cmd (p s : cstr) : option cstr :=
  if istarts p s then Some (skipn (List.length p) s) else None.

(** ** Conditions *)

(** what conf_parse_cond reads and writes of a service *)
Record condset := mkCondset { cs_cond : cstr; cs_sighup : bool; cs_once : bool }.
Definition MAX_COND_LEN : nat := 192.
Fixpoint join (sep : cstr) (l : list cstr) : cstr :=
  match l with
  | [] => []
  | [x] => x
  | x :: l => x ++ sep ++ join sep l
  end.
(** conf.c:698-752 conf_parse_cond.  strlcat never truncates: the joined list
    is not longer than the text it comes from, which fits. *)
Definition parse_cond (daemon runtask : bool) (o : condset) (cond : option cstr) : condset :=
  let hup0 := if daemon then true else cs_sighup o in
  match cond with
  | None => mkCondset [] hup0 (cs_once o)
  | Some s =>
      let '(s, hup, once) :=
        match s with
        | c :: r => if ch_eqb c "!" then (r, runtask, if runtask then true else cs_once o)
                    else (s, hup0, cs_once o)
        | [] => (s, hup0, cs_once o)
        end in
      let body := fst (cut (fun c => ch_eqb c ">") s) in
      if Nat.leb MAX_COND_LEN (List.length body) then mkCondset (cs_cond o) hup once
      else mkCondset (join #"," (strtoks #"," body)) hup once
  end.

(** ** Environment *)

(** strip trailing white space, as conf.c:531-535 and 557-561 do *)
Definition rtrim (s : cstr) : cstr := rev (skip isspace (rev s)).
(** util.h:230-249 unquote with [end] at the last character *)
Definition unquote_end (s : cstr) : cstr :=
  match s with
  | q :: r => if isquote q && ch_eqb (last s q) q then removelast r else s
  | [] => []
  end.
(** conf.c:520-583 conf_parse_env *)
Definition parse_env (line : cstr) : option (cstr * cstr) :=
  match strchr "=" (rtrim (skip isspace line)) with
  | None => None
  | Some (k, v) =>
      let v := unquote_end (skip isspace v) in
      let k := rtrim k in
      let k := if starts #"set" k then skipn 3 k else k in
      let k := skip isspace k in
      if existsb isspace k then None else Some (k, v)
  end.

(** ** Resource limits *)

(** conf.c:759-781 rlimit_names, with Linux' numbers (asm-generic/resource.h) *)
Definition rlimit_names : list (cstr * nat) :=
  [(#"as", 9); (#"core", 4); (#"cpu", 0); (#"data", 2); (#"fsize", 1); (#"locks", 10);
   (#"memlock", 8); (#"msgqueue", 12); (#"nice", 13); (#"nofile", 7); (#"nproc", 6);
   (#"rss", 5); (#"rtprio", 14); (#"rttime", 15); (#"sigpending", 11); (#"stack", 3)]%nat.
(** conf.c:783-793 str2rlim *)
Definition str2rlim (s : cstr) : option nat :=
  option_map snd (find (fun e => str_eqb s (fst e)) rlimit_names).
(** conf.c:795-805 rlim2str *)
Definition rlim2str (n : nat) : cstr :=
  match find (fun e => Nat.eqb (snd e) n) rlimit_names with
  | Some e => fst e
  | None => #"unknown"
  end.
(** a limit: None is unlimited; a table of soft and hard limits *)
Definition limit := option Z.
Definition limits := nat -> limit * limit.
Definition lim_set (a : limits) (n : nat) (v : limit * limit) : limits :=
  fun m => if Nat.eqb m n then v else a m.
(** conf.c:853-865 *)
Definition lim_value (s : cstr) : option limit :=
  if str_eqb s #"unlimited" || str_eqb s #"infinity" then Some None
  else match strtonum 0 4294967296 s with Some n => Some (Some n) | None => None end.
(** conf.c:828-880 conf_parse_rlimit *)
Definition parse_rlimit (line : cstr) (a : limits) : limits :=
  match strtok #" 	" line with
  | None => a
  | Some (t1, line) =>
      match strtok #" 	" line with
      | None => a
      | Some (t2, line) =>
          let '(level, lim, val) :=
            match strtok #" 	" line with
            | Some (t3, _) => (t1, t2, t3)
            | None => (#"both", t1, t2)
            end in
          match str2rlim lim with
          | None => a
          | Some r =>
              match lim_value val with
              | None => a
              | Some v =>
                  if str_eqb level #"soft" then lim_set a r (v, snd (a r))
                  else if str_eqb level #"hard" then lim_set a r (fst (a r), v)
                  else if str_eqb level #"both" then lim_set a r (v, v)
                  else a
              end
          end
      end
  end.

(** ** Templates *)

(** conf.c:1137-1147: one turn of the loop of instantiate.  [s] is the buffer,
    [pos] the position the search starts from; None: the loop ends. *)
Definition inst_step (name s : cstr) (pos : nat) : option (cstr * nat) :=
  match strchr "%" (skipn pos s) with
  | None => None
  | Some (a, _) =>
      let p := (pos + List.length a)%nat in
      if starts #"%i" (skipn p s)
      then Some (firstn p s ++ name ++ skipn (p + 2) s, (pos + List.length name)%nat)
      else Some (s, S pos)
  end.
Fixpoint inst_loop (n : nat) (name s : cstr) (pos : nat) : option cstr :=
  match n with
  | O => None
  | S n => match inst_step name s pos with
           | None => Some s
           | Some (s, pos) => inst_loop n name s pos
           end
  end.
(** conf.c:1118-1151 instantiate *)
Definition instantiate (n : nat) (name line : cstr) : option cstr :=
  match name with
  | [] => Some line
  | _ => inst_loop n name line 0
  end.
(** conf.c:1127-1132: the size of the buffer.  The first loop, too, advances by
    one from [pos], not from the '%' it found. *)
Fixpoint count_loop (s : cstr) : nat :=
  match strchr "%" s with
  | None => 0
  | Some _ => match s with [] => 0 | _ :: r => S (count_loop r) end
  end.
Definition inst_capacity (name line : cstr) : nat :=
  (List.length line + count_loop line * List.length name + 1)%nat.

(** conf.c:1153-1173 is_template, for a buffer of [len] bytes: whether the file
    is a template or an instance, and the name of the instance if it is set *)
Definition is_template (len : nat) (file : cstr) : bool * option cstr :=
  match strchr "@" file with
  | None => (false, None)
  | Some (_, nm) =>
      match strstr #".conf" nm with
      | Some (a, _) => if str_eqb nm #".conf" then (true, None) else (true, Some (firstn (len - 1) a))
      | None => (true, None)
      end
  end.

(** ** Kill delay, scripts, names *)

(** service.c:1419-1432 parse_killdelay *)
Definition parse_killdelay (old : Z) (s : cstr) : Z :=
  match strtonum 1 300 s with Some n => n * 1000 | None => old end.

(** util.h:230-249 unquote without [end]; None: unterminated *)
Definition unquote (s : cstr) : option cstr :=
  match s with
  | q :: r => if isquote q then match strchr q r with Some (a, _) => Some a | None => None end
              else Some s
  | [] => Some []
  end.
(** the outcome of parse_script: the time-out and the script (empty: none) *)
Inductive script_result :=
| ScriptSet (tmo : option Z) (path : cstr)
| ScriptNullWrite.          (* *tmo = ... with tmo == NULL *)
(** service.c:1437-1482 parse_script.  [tmo]: the field the time-out is stored
    in, None for the callers that pass NULL; [found]: which(3) finds the
    command; [len]: size of the buffer. *)
Definition parse_script (killdelay : Z) (found : cstr -> bool) (len : nat)
    (tmo : option Z) (s : cstr) : script_result :=
  let finish tmo path :=
    match unquote path with
    | None => ScriptSet tmo []
    | Some p => if negb (found p) then ScriptSet tmo []
                else if Nat.leb len (List.length p) then ScriptSet tmo []
                else ScriptSet tmo p
    end in
  match strchr "," s with
  | Some (a, b) =>
      match strtonum 0 3600 a with
      | None => ScriptSet tmo []
      | Some n => match tmo with
                  | None => ScriptNullWrite
                  | Some _ => finish (Some (n * 1000)) b
                  end
      end
  | None => finish (match tmo with Some _ => Some killdelay | None => None end) s
  end.

(** service.c:1487-1512 parse_name.  Walking back from the first blank of the
    command to its last '/'; a '/' at the very beginning is not looked at. *)
Definition parse_name (cmd : cstr) (arg : option cstr) : cstr :=
  let derived :=
    let prog := fst (cut (fun c => ch_eqb c " ") cmd) in
    match cmd with
    | [] => []
    | c :: _ =>
        match strrchr "/" (tl prog) with
        | Some (_, b) => b ++ skipn (List.length prog) cmd
        | None => cmd
        end
    end in
  match arg with
  | Some a => match match_cmd #"name:" a with Some n => n | None => derived end
  | None => derived
  end.

(** service.c:1351-1360 parse_notify *)
Inductive notify := NSystemd | NS6 | NPid | NNone.
Definition parse_notify (s : cstr) : notify :=
  if str_eqb s #"systemd" then NSystemd
  else if str_eqb s #"s6" then NS6
  else if str_eqb s #"pid" then NPid
  else NNone.

(** ** Paths *)

(** util.c:159-169 basenm *)
Definition basenm (s : cstr) : cstr :=
  match strrchr "/" s with Some (_, b) => b | None => s end.
(** util.h:165-174 paste, before truncation *)
Definition fisslashdir (s : cstr) : bool := match s with [] => false | c :: _ => ch_eqb (last s c) "/" end.
Definition paste (dir file : cstr) : cstr :=
  dir ++ (if fisslashdir dir then [] else match file with
          | c :: _ => if ch_eqb c "/" then [] else #"/"
          | [] => #"/" end) ++ file.
(** pid.h:50-73 pid_runpath, on a system with /run; None: it does not fit and
    finit is told so (err(1, ...) only logs) *)
Definition pid_runpath (len : nat) (file : cstr) : cstr :=
  let file := match strstr #"/run/" file with Some (_, b) => b | None => file end in
  firstn (len - 1) (paste #"/run" file).

(** util.c:579-618 de_dotdot, loop by loop *)
Fixpoint dd_lead (n : nat) (p : cstr) (s : cstr) : cstr :=
  match n with
  | O => s
  | S n => if starts p s then dd_lead n p (skipn (List.length p) s) else s
  end.
Fixpoint dd_dot (n : nat) (s : cstr) : cstr :=
  match n with
  | O => s
  | S n => match strstr #"/./" s with Some (a, b) => dd_dot n (a ++ "/"%char :: b) | None => s end
  end.
(** all up to and including the last '/' *)
Definition up_to_slash (s : cstr) : cstr :=
  match strrchr "/" s with Some (a, _) => a ++ #"/" | None => [] end.
Fixpoint dd_up (n : nat) (s : cstr) : cstr :=
  match n with
  | O => s
  | S n => let s := dd_lead (List.length s) #"../" s in
           match strstr #"/../" s with
           | None => s
           | Some (a, b) => dd_up n (up_to_slash a ++ b)
           end
  end.
Definition ends_with (p s : cstr) : bool := starts (rev p) (rev s).
Fixpoint dd_end (n : nat) (s : cstr) : cstr :=
  match n with
  | O => s
  | S n => if Nat.ltb 3 (List.length s) && ends_with #"/.." s then
             match strrchr "/" (firstn (List.length s - 3) s) with
             | Some (a, _) => dd_end n a
             | None => s
             end
           else s
  end.
Fixpoint dd_slash (n : nat) (s : cstr) : cstr :=
  match n with
  | O => s
  | S n => match strstr #"//" s with Some (a, b) => dd_slash n (a ++ "/"%char :: b) | None => s end
  end.
(** every step of every loop shortens the string, so its length bounds them *)
Definition de_dotdot (s : cstr) : cstr :=
  let n := S (List.length s) in
  dd_slash n (dd_end n (dd_up n (dd_dot n (dd_lead n #"./" s)))).

(** ** Pid files *)

Definition MAX_ARG_LEN : nat := 64.
Definition MAX_CMD_LEN : nat := 256.
(** pid.c:103-115 pid_file *)
Definition pid_file (pidfile : cstr) : option cstr :=
  match pidfile with
  | [] => None
  | c :: r => if ch_eqb c "!" then Some r else Some pidfile
  end.
(** pid.c:151-179 pid_file_set, for a service whose pid file was [old]: the
    new one, None: nothing changed and -1 *)
Definition pid_file_set (forking : bool) (old : cstr) (file : option cstr) : option cstr :=
  match (match file with Some f => Some f | None => pid_file old end) with
  | None => None
  | Some file =>
      let '(neg, file) := match file with
                          | c :: r => if ch_eqb c "!" then (true, r) else (false, file)
                          | [] => (false, file) end in
      let neg := neg || forking in
      let buf := pid_runpath MAX_CMD_LEN (de_dotdot file) in
      Some (if neg then "!"%char :: firstn (MAX_CMD_LEN - 2) buf else firstn (MAX_CMD_LEN - 1) buf)
  end.
(** the outcome of parsing a pid: argument *)
Inductive pid_result :=
| PidSet (pidfile : cstr)
| PidInvalid               (* non-zero return: the caller logs a warning *)
| PidOverread.             (* &path[len - 4] lies outside path[] *)
Definition of_set (r : option cstr) : pid_result := match r with Some p => PidSet p | None => PidInvalid end.
(** pid.c:206-238 pid_file_parse *)
Definition pid_file_parse (forking : bool) (old arg : cstr) : pid_result :=
  match arg with
  | [] => PidInvalid
  | _ =>
      if starts #"pid:" arg then
        let arg := skipn 4 arg in
        if starts #"!/" arg || starts #"/" arg then of_set (pid_file_set forking old (Some arg))
        else
          let '(neg, arg) := match arg with
                             | c :: r => if ch_eqb c "!" then (true, r) else (false, arg)
                             | [] => (false, arg) end in
          let full := (if neg then #"!" else []) ++ #"/var/run/" ++ arg in
          let len := List.length full in
          let path := firstn (MAX_ARG_LEN - 1) full in
          if Nat.ltb (MAX_ARG_LEN + 3) len then PidOverread
          else of_set (pid_file_set forking old (Some
                 (if Nat.ltb 4 len && negb (str_eqb (skipn (len - 4) path) #".pid")
                  then strlcat MAX_ARG_LEN path #".pid" else path)))
      else if str_eqb arg #"pid" then of_set (pid_file_set forking old None)
      else PidInvalid
  end.

(** ** Lines *)

(** helpers.c:111-120 tabstospaces *)
Definition tabstospaces (s : cstr) : cstr := map (fun c => if ch_eqb c "009" then " "%char else c) s.
(** helpers.c:122-137 strip_line *)
Definition strip_line (s : cstr) : cstr := fst (cut (fun c => ch_eqb c "#") (skip isblank s)).

(** ** Command line arguments *)

Definition NUM_SVC_ARGS : nat := 64.
(** service.c:1538-1573: the loop over the words.  [i] arguments are complete
    ([done], latest first), [cur] is the one being put together inside the
    quotes [sep]. *)
Fixpoint cmd_loop (words : list cstr) (i : nat) (done : list cstr) (sep : option ascii) (cur : cstr) : list cstr :=
  match words with
  | [] => done
  | arg :: words =>
      if Nat.leb (NUM_SVC_ARGS - 1) i then done else
      let cur := match sep with None => [] | Some _ => cur end in
      let ch := hd "000"%char arg in
      let '(sep, cur) := if isquote ch then (Some ch, cur)
                         else match sep with
                              | Some _ => (sep, strlcat MAX_ARG_LEN cur #" ")
                              | None => (sep, cur) end in
      let cur := strlcat MAX_ARG_LEN cur arg in
      match sep with
      | Some q => if ch_eqb (last arg ch) q then cmd_loop words (S i) (cur :: done) None []
                  else cmd_loop words i done sep cur
      | None => cmd_loop words (S i) (cur :: done) None []
      end
  end.
(** service.c:1517-1580 parse_cmdline_args: the argument vector from the
    command and the rest of the line.  The @console replacement is left out.
    An argument whose quotes never close is cleared again (1577-1582). *)
Definition cmdline_args (cmd rest : cstr) : list cstr :=
  rev (cmd_loop (strtoks #" " rest) 1 [strlcpy MAX_ARG_LEN cmd] None []).

(** ** Cgroup *)

(** service.c:1380-1411 parse_cgroup: group name and settings; the text starts
    right after "cgroup" *)
Definition parse_cgroup (old : cstr * cstr) (s : cstr) (nlen clen total : nat) : cstr * cstr :=
  let set name cfg := if Nat.leb total (List.length cfg) then (name, snd old) else (name, strlcpy clen cfg) in
  match s with
  | c :: r =>
      if ch_eqb c "." then
        match strchr ":" s with
        | Some (a, b) => set (strlcpy nlen (tl a)) b
        | None => (strlcpy nlen r, snd old)
        end
      else if ch_eqb c ":" then set (fst old) r
      else (strlcpy nlen r, snd old)
  | [] => old   (* cgroup[1] would be read; the callers' text has a terminator there or more *)
  end.

(** ** Sizes *)

(** util.c:385-412 strtobytes.  [int] arithmetic; overflow is undefined in C,
    so it is a distinct outcome here. *)
Inductive cint := Int (n : Z) | IntUB.
Definition INT_MAX : Z := 2147483647.
Definition mulint (k : Z) (a : cint) : cint :=
  match a with
  | Int n => if (- INT_MAX - 1 <=? k * n) && (k * n <=? INT_MAX) then Int (k * n) else IntUB
  | IntUB => IntUB
  end.
(** atoi(3) of digits; outside of int it is undefined *)
Definition atoi (s : cstr) : cint :=
  let n := fst (digits_ 0 s) in if n <=? INT_MAX then Int n else IntUB.
Definition strtobytes (s : cstr) : cint :=
  let (d, r) := cut (fun c => negb (isdigit c)) s in
  match r with
  | [] => atoi d
  | c :: _ =>
      if ch_eqb c "G" then mulint 1000 (mulint 1000 (mulint 1000 (atoi d)))
      else if ch_eqb c "M" then mulint 1000 (mulint 1000 (atoi d))
      else if ch_eqb c "k" then mulint 1000 (atoi d)
      else Int (-1)
  end.
