(** Names: signals, the job strings of initctl, and the if: guard.
    src/sig.c, src/util.c, src/svc.c, src/api.c. *)
From Coq Require Import List String Ascii NArith ZArith Bool.
From Verif Require Import CStr CondModel.
Import ListNotations.
Local Open Scope Z_scope.

(** ** Signals *)

(** src/sig.c:112-167 signames[], with Linux' numbers; the three archaic names
    exist on Linux. *)
Definition sig_table : list (Z * cstr) :=
  [(2, #"SIGINT"); (4, #"SIGILL"); (6, #"SIGABRT"); (8, #"SIGFPE"); (11, #"SIGSEGV"); (15, #"SIGTERM");
   (1, #"SIGHUP"); (3, #"SIGQUIT"); (5, #"SIGTRAP"); (9, #"SIGKILL"); (7, #"SIGBUS"); (31, #"SIGSYS");
   (13, #"SIGPIPE"); (14, #"SIGALRM"); (23, #"SIGURG"); (19, #"SIGSTOP"); (20, #"SIGTSTP"); (18, #"SIGCONT");
   (17, #"SIGCHLD"); (21, #"SIGTTIN"); (22, #"SIGTTOU"); (29, #"SIGPOLL"); (24, #"SIGXCPU"); (25, #"SIGXFSZ");
   (26, #"SIGVTALRM"); (27, #"SIGPROF"); (10, #"SIGUSR1"); (12, #"SIGUSR2"); (28, #"SIGWINCH");
   (16, #"SIGSTKFLT"); (30, #"SIGPWR"); (29, #"SIGIO"); (6, #"SIGIOT"); (17, #"SIGCLD")].
(** src/sig.c:591-606 sig_num *)
Definition sig_num (name : cstr) : Z :=
  let offset := if istarts #"SIG" name then 0%nat else 3%nat in
  match find (fun e => strcase_eqb name (skipn offset (snd e))) sig_table with
  | Some (n, _) => n
  | None => -1
  end.
(** src/sig.c:608-618 sig_name *)
Definition sig_name (n : Z) : cstr :=
  match find (fun e => fst e =? n) sig_table with
  | Some (_, s) => s
  | None => #"SIGUNKOWN"
  end.
(** src/service.c:1408-1417 parse_sighalt: the new value of svc->sighalt *)
Definition parse_sighalt (old : Z) (arg : cstr) : Z := if sig_num arg =? -1 then old else sig_num arg.

(** src/util.c:76-109 signames[] *)
Definition signames : list cstr :=
  [#""; #"HUP"; #"INT"; #"QUIT"; #"ILL"; #"TRAP"; #"ABRT"; #"BUS"; #"FPE"; #"KILL"; #"USR1"; #"SEGV"; #"USR2"; #"PIPE";
   #"ALRM"; #"TERM"; #"STKFLT"; #"CHLD"; #"CONT"; #"STOP"; #"TSTP"; #"TTIN"; #"TTOU"; #"URG"; #"XCPU"; #"XFSZ"; #"VTALRM";
   #"PROF"; #"WINCH"; #"IO"; #"PWR"; #"SYS"].
(** src/util.c:414-420 sig2str *)
Definition sig2str (n : Z) : cstr :=
  if (n <? 1) || (Z.of_nat (List.length signames) <=? n) then [] else nth (Z.to_nat n) signames [].
(** src/util.c:429-442 str2sig *)
Fixpoint str2sig_from (i : Z) (l : list cstr) (s : cstr) : Z :=
  match l with
  | [] => -1
  | x :: l => if strcase_eqb s x then i else str2sig_from (i + 1) l s
  end.
Definition str2sig (s : cstr) : Z := str2sig_from 1 (tl signames) (if istarts #"SIG" s then skipn 3 s else s).
(** src/initctl.c:321-328 do_signal: the signal number asked for *)
Definition initctl_signo (s : cstr) : option Z := if str2sig s =? -1 then strtonum 1 31 s else Some (str2sig s).
(** src/api.c:145-149 do_signal: the numbers it accepts *)
Definition api_signal_ok (n : Z) : bool := match sig2str n with [] => false | _ => true end.

(** ** Stanza records, as far as they are looked up by name *)

Record rec := mkRec { v_name : cstr; v_id : cstr; v_cmd : cstr; v_job : Z }.
(** src/svc.c:117-137 svc_new: the job number is that of the first stanza with the
    same program, else a new one.  Truncation to the sizes of name[], id[] and
    cmd[] is not modelled. *)
Definition svc_new (cmd name id : cstr) (jl : Z * list rec) : Z * list rec :=
  let (counter, l) := jl in
  match find (fun r => str_eqb (v_cmd r) cmd) l with
  | Some r => (counter, l ++ [mkRec name id cmd (v_job r)])
  | None => (counter + 1, l ++ [mkRec name id cmd counter])
  end.
(** src/svc.c:169-178 svc_del *)
Definition svc_del (name id : cstr) (jl : Z * list rec) : Z * list rec :=
  (fst jl, filter (fun r => negb (str_eqb (v_name r) name && str_eqb (v_id r) id)) (snd jl)).
(** src/svc.c:397-410 svc_find *)
Definition svc_find (l : list rec) (name id : cstr) : option rec :=
  find (fun r => str_eqb (v_name r) name && str_eqb (v_id r) id) l.
(** src/svc.c:421-436 svc_find_by_str *)
Definition svc_find_by_str (l : list rec) (s : cstr) : option rec :=
  match strchr ":" s with
  | Some (name, id) => svc_find l name id
  | None => svc_find l s []
  end.
(** src/svc.c:487-500 svc_find_by_jobid *)
Definition svc_find_by_jobid (l : list rec) (job : Z) (id : cstr) : option rec :=
  find (fun r => (v_job r =? job) && str_eqb (v_id r) id) l.
(** src/svc.c:257-269 svc_named_iterator, 283-293 svc_job_iterator: all they yield *)
Definition svc_named (l : list rec) (name : cstr) : list rec := filter (fun r => str_eqb (v_name r) name) l.
Definition svc_jobs (l : list rec) (job : Z) : list rec := filter (fun r => v_job r =? job) l.

(** ** Job strings *)

(** src/util.c:559-578 sanitize: the regular expression [a-z0-9_]+[:]?[a-z0-9_]*,
    ignoring case and not anchored, matches iff one such character is there. *)
Definition wordch (c : ascii) : bool :=
  isdigit c || ch_eqb c "_" || (N.leb 97 (code (tolower c)) && N.leb (code (tolower c)) 122).
Definition sanitize (s : cstr) : bool := existsb wordch s.
(** src/svc.c:815-842 tokstr: the buffer, of all [len] bytes, in pieces *)
Fixpoint tokstr (b : cstr) : list cstr :=
  match b with
  | [] => []
  | c :: r => if isspace c then [] :: tokstr r
              else match tokstr r with [] => [[c]] | t :: ts => (c :: t) :: ts end
  end.
Definition upto_nul (b : cstr) : cstr := fst (cut (ch_eqb "000") b).
(** conversion of a long to int *)
Definition to_int (z : Z) : Z := (z + 2147483648) mod 4294967296 - 2147483648.
Definition LONG_MAX : Z := 9223372036854775807.

(** what a request does: act on a record, find none, or loop for ever *)
Inductive hit := Hit (r : rec) | Miss (word : cstr) | Hang.
Definition hits (word : cstr) (l : list rec) : list hit := match l with [] => [Miss word] | _ => map Hit l end.
Definition opt_list {A} (o : option A) : list A := match o with Some x => [x] | None => [] end.
(** src/svc.c:847-926 svc_parse_jobstr, one word.  The records do not change while
    the callbacks run. *)
Definition jobword (l : list rec) (token : cstr) : list hit :=
  if negb (sanitize token) then [] else
  let ptr := strchr ":" token in
  if isdigit (hd "000"%char token) then
    let job := fst (digits_ 0 token) in
    if LONG_MAX <? job then [Hang] else
    match ptr with
    | None => hits token (svc_jobs l (to_int job))
    | Some (_, id) => hits token (opt_list (svc_find_by_jobid l (to_int job) id))
    end
  else
    match ptr with
    | None => hits token (svc_named l token)
    | Some (name, id) => hits token (opt_list (svc_find l name id))
    end.
(** all words; nothing is done after a word that hangs *)
Fixpoint jobwords (l : list rec) (ws : list cstr) : list hit :=
  match ws with
  | [] => []
  | w :: ws => match jobword l w with
               | [Hang] => [Hang]
               | h => h ++ jobwords l ws
               end
  end.
Definition parse_jobstr (l : list rec) (buf : cstr) : list hit := jobwords l (map upto_nul (tokstr buf)).
(** src/api.c:183-216 do_find *)
Definition do_find (l : list rec) (buf : cstr) : option rec :=
  let input := upto_nul buf in
  if negb (sanitize input) then None else
  let ptr := strchr ":" input in
  if isdigit (hd "000"%char (match ptr with Some (a, _) => a | None => input end)) then
    let job := fst (digits_ 0 input) in
    if LONG_MAX <? job then None else
    match ptr with
    | None => hd_error (svc_jobs l (to_int job))
    | Some (_, id) => svc_find_by_jobid l (to_int job) id
    end
  else
    match ptr with
    | None => hd_error (svc_named l input)
    | Some (name, id) => svc_find l name id
    end.

(** ** Guards *)

(** src/svc.c:750-812 svc_ifthen; stmts[] has MAX_IDENT_LEN = 130 bytes *)
Definition ifthen (is_conf : bool) (get : cstr -> cstate) (l : list rec) (stmt : cstr) : bool :=
  match stmt with
  | [] => true
  | c :: r =>
      if ch_eqb c "<" then
        if is_conf then true else
        forallb (fun t => match t with
                          | x :: n => if ch_eqb x "!" then negb (cs_eqb (get n) COn) else negb (cs_eqb (get t) COff)
                          | [] => negb (cs_eqb (get t) COff)
                          end)
                (strtoks #"," (strlcpy 130 (fst (cut (ch_eqb ">") r))))
      else if negb is_conf then true else
        forallb (fun t => match t with
                          | x :: n => if ch_eqb x "!" then (match svc_find_by_str l n with Some _ => false | None => true end)
                                      else (match svc_find_by_str l t with Some _ => true | None => false end)
                          | [] => match svc_find_by_str l t with Some _ => true | None => false end
                          end)
                (strtoks #"," (strlcpy 130 stmt))
  end.
