(** Running the scripts of a directory: src/runparts.c, and the hook scripts of
    src/plugin.c and plugins/hook-scripts.c. *)
From Coq Require Import List String Ascii NArith ZArith Bool.
From Verif Require Import CStr HookModel.
Import ListNotations.
Local Open Scope Z_scope.

(** How a command ends, as waitpid(2) tells: with an exit status, by a signal,
    or not known.  The status is the low byte of what was given to exit(3). *)
Inductive outcome := Exited (n : Z) | Signaled (sig : Z) | Unknown.

(** The world the scripts live in.  Each script may change it, so that every
    question takes the commands run before as an argument: stat(2), with the
    answer "executable, directory"; and how a command given to the shell ends. *)
Record world := {
  w_stat : list cstr -> cstr -> option (bool * bool);
  w_run : list cstr -> cstr -> outcome }.

(** strcmp(3) < 0.  alphasort(3) is strcoll(3), which is strcmp in the "C"
    locale, the only one used: nothing calls setlocale(3). *)
Fixpoint str_ltb (a b : cstr) : bool :=
  match a, b with
  | [], [] => false
  | [], _ :: _ => true
  | _ :: _, [] => false
  | x :: a, y :: b => if N.eqb (code x) (code y) then str_ltb a b else N.ltb (code x) (code y)
  end.

(** scandir(3) with alphasort: any sort will do, the names are distinct *)
Fixpoint insert (n : cstr) (l : list cstr) : list cstr :=
  match l with
  | [] => [n]
  | m :: r => if str_ltb m n then m :: insert n r else n :: l
  end.
Definition alphasort (l : list cstr) : list cstr := fold_right insert [] l.

(** the last character, [x] if there is none *)
Definition last_is (c : ascii) (s : cstr) : bool := match rev s with x :: _ => ch_eqb x c | [] => false end.

(** paste() of libite, which is not in /repo, into [n] bytes: a slash between
    the two, unless the directory ends in one *)
Definition paste_in (n : nat) (dir name : cstr) : cstr :=
  strlcpy n (dir ++ (if last_is "/" dir then [] else #"/") ++ name).

(** src/runparts.c:97, 110: the size of the buffer *)
Definition cmdlen (cmd : option cstr) : nat := match cmd with Some c => List.length c | None => 5 end.
Definition bufsz (dir name : cstr) (cmd : option cstr) : nat :=
  List.length dir + List.length name + 3 + cmdlen cmd.

(** src/runparts.c:147-148, 149-150: S<NUM>, K<NUM> *)
Definition numbered (c : ascii) (name : cstr) : bool :=
  match name with x :: d :: _ => ch_eqb x c && isdigit d | _ => false end.
(** src/runparts.c:144-156: what is given to the shell; [path] is the buffer *)
Definition command (n : nat) (path : cstr) (cmd : option cstr) (name : cstr) : cstr :=
  match cmd with
  | None => if numbered "S" name then strlcat n path #" start"
            else if numbered "K" name then strlcat n path #" stop" else path
  | Some c => strlcat n (strlcat n path #" ") c
  end.

(** src/runparts.c:169-183: the result of one script *)
Definition result (o : outcome) : Z :=
  match o with Exited n => n mod 256 | Signaled _ => 1 | Unknown => 1 end.

(** src/runparts.c:139 *)
Definition sysv_name (name : cstr) : bool :=
  match name with c :: _ => ch_eqb c "S" || ch_eqb c "K" | [] => false end.

Definition int_max : Z := 2147483647.
(** src/runparts.c:109-188, the loop: the commands run after those in [hist],
    with the names they are for, and the sum of the results.  None: the sum does
    not fit in an int.  Names in a directory are not empty. *)
Fixpoint parts (W : world) (dir : cstr) (cmd : option cstr) (sysv : bool) (hist : list cstr) (rc : Z) (names : list cstr)
  : option (list (cstr * cstr) * Z) :=
  match names with
  | [] => Some ([], rc)
  | name :: rest =>
      let n := bufsz dir name cmd in
      let path := paste_in n dir name in
      let next := parts W dir cmd sysv hist rc rest in
      if last_is "~" name then next else
      match w_stat W hist path with
      | None => next
      | Some (exec, isdir) =>
          if negb exec || isdir then next else
          if sysv && negb (sysv_name name) then next else
          let c := command n path cmd name in
          let rc := rc + result (w_run W hist c) in
          if rc >? int_max then None else
          match parts W dir cmd sysv (hist ++ [c]) rc rest with
          | None => None
          | Some (l, rc) => Some ((name, c) :: l, rc)
          end
      end
  end.

(** src/runparts.c:95-195 run_parts: [names] are the entries of the directory
    when it starts, None if it cannot be read. *)
Definition run_parts (W : world) (dir : cstr) (cmd : option cstr) (sysv : bool) (names : option (list cstr))
  : option (list (cstr * cstr) * Z) :=
  match names with
  | None => Some ([], -1)
  | Some l => parts W dir cmd sysv [] 0 (alphasort l)
  end.

(** src/runparts.c:204-241 main: the exit status of the runparts program, when
    the directory is one *)
Definition runparts_exit (W : world) (dir : cstr) (sysv : bool) (names : option (list cstr)) : option Z :=
  match run_parts W dir None sysv names with
  | None => None
  | Some (_, rc) => Some (if rc =? -1 then 1 else rc mod 256)
  end.

(** src/runparts.c:77-93 run_env: setenv(3) of pairs.  [env] is the array up to
    its first null pointer; the environment is a list of pairs, looked up from
    the front. *)
Fixpoint run_env (env : list cstr) (e : list (cstr * cstr)) : list (cstr * cstr) :=
  match env with
  | n :: v :: r => run_env r ((n, v) :: e)
  | _ => e
  end.
Fixpoint getenv (n : cstr) (e : list (cstr * cstr)) : option cstr :=
  match e with
  | (m, v) :: r => if str_eqb m n then Some v else getenv n r
  | [] => None
  end.

(** src/finit.h: what the system is brought down for *)
Inductive shut := ShutOff | ShutHalt | ShutReboot.

(** src/plugin.c:204-238 plugin_script_run: the directory, and the array of the
    environment.  [base] is PLUGIN_HOOK_SCRIPTS_PATH; CMD_SIZE is 256.  None: the
    name is shorter than the four characters skipped. *)
Definition hook_name (h : hook) : cstr := list_ascii_of_string (nth (hook_no h) hook_cond "nop"%string).
Definition script_run (base : cstr) (halt : shut) (h : hook) : option (cstr * list cstr) :=
  let name := hook_name h in
  if Nat.ltb (List.length name) 4 then None else
  let path := strlcat 256 (strlcat 256 [] base) (skipn 4 name) in
  let env := [#"FINIT_HOOK_NAME"; name] ++
    (if Nat.leb (hook_no HShutdown) (hook_no h)
     then #"FINIT_SHUTDOWN" :: [match halt with ShutOff => #"poweroff" | ShutHalt => #"halt" | ShutReboot => #"reboot" end]
     else []) in
  Some (path, env).

(** plugins/hook-scripts.c:80-99: the hooks of the plugin *)
Definition has_callback (h : hook) : bool :=
  match h with
  | HBanner | HRootfsUp | HMountError | HMountPost | HBasefsUp | HNetworkUp | HSvcUp | HSystemUp | HShutdown => true
  | _ => false
  end.

(** src/plugin.c:247-263 plugin_run_hook: the hook scripts it runs.  [avail]:
    conditions can be set; [loaded]: the plugins, with hook-scripts, are loaded. *)
Definition hook_scripts (base : cstr) (halt : shut) (avail loaded : bool) (h : hook) : list (option (cstr * list cstr)) :=
  (if negb avail && negb loaded then [script_run base halt h] else []) ++
  (if loaded && has_callback h then [script_run base halt h] else []).
(** src/sig.c:335, 385: do_shutdown() calls plugin_script_run() for the two last
    hooks itself *)
Definition down_scripts (base : cstr) (halt : shut) (h : hook) : list (option (cstr * list cstr)) :=
  match h with HSvcDn | HSysDn => [script_run base halt h] | _ => [] end.
