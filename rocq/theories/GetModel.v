(** finit's getty: the issue file and the login name, src/getty.c. *)
From Coq Require Import List String Ascii NArith ZArith Bool.
From Verif Require Import CStr.
Import ListNotations.

(** ** The name *)
Inductive typed := TOverrun | TEof | TName (name rest : cstr).
Definition nul : ascii := "000".
Definition newline : ascii := "010".
(** what strings functions see of a buffer *)
Fixpoint upto (s : cstr) : cstr :=
  match s with [] => [] | c :: r => if Ascii.eqb c nul then [] else c :: upto r end.
(** src/getty.c:275-304 get_logname: [n] is the size of the buffer, [buf] what is
    in it, up to the place of the next character.  TOverrun: the zero is written
    after the buffer.  TEof: nothing more to read. *)
Fixpoint get_logname (n : nat) (buf input : cstr) : typed :=
  match input with
  | [] => TEof
  | c :: r =>
      if Ascii.eqb c newline then
        if Nat.leb n (List.length buf) then TOverrun
        else match upto buf with
             | [] => get_logname n [] r
             | s => TName (strlcpy n s) r
             end
      else get_logname n (if Nat.ltb (List.length buf) n then buf ++ [c] else buf) r
  end.
(** src/getty.c:310-318 exec_login: the arguments of /bin/login *)
Definition login_argv (passenv : bool) (name : cstr) : list cstr :=
  #"/bin/login" :: (if passenv then [#"-p"] else []) ++ [#"--"; name].
(** src/getty.c:334-371 getty: [max] is logname_len *)
Definition getty_login (max : nat) (passenv : bool) (input : cstr) : option (list cstr) :=
  match get_logname (max + 1) [] input with
  | TName s _ => Some (login_argv passenv s)
  | _ => None
  end.

(** ** The issue file *)
(** src/getty.c:52-62 struct osrel; None: never written, what is there is
    undefined *)
Record osrel := { o_name : option cstr; o_pretty : option cstr; o_id : option cstr; o_version : cstr; o_version_id : option cstr;
                  o_home : option cstr; o_doc : option cstr; o_bug : option cstr; o_support : option cstr }.
(** the last value of a key in os-release, as fgetval() finds it (ModModel, where a
    key with no value is shown to crash: there is none here), cut to its buffer
    (67-75 get_val) *)
Definition get_val (kv : list (cstr * cstr)) (key : cstr) (len : nat) : option cstr :=
  option_map (fun p => strlcpy len (snd p)) (find (fun p => str_eqb (fst p) key) (rev kv)).
(** src/getty.c:80-128 osrel: None: there is no such file *)
Definition read_osrel (kv : list (cstr * cstr)) : osrel :=
  let codename := match get_val kv #"VERSION_CODENAME" 30 with Some c => c | None => [] end in
  let version := match get_val kv #"VERSION" 32 with Some v => v | None => [] end in
  {| o_name := get_val kv #"NAME" 32; o_pretty := get_val kv #"PRETTY_NAME" 64; o_id := get_val kv #"ID" 32;
     o_version := match version, codename with
                  | [], c :: _ => if ch_eqb c "(" then strlcpy 32 codename else strlcpy 32 (#"(" ++ codename ++ #")")
                  | _, _ => version
                  end;
     o_version_id := get_val kv #"VERSION_ID" 32; o_home := get_val kv #"HOME_URL" 128; o_doc := get_val kv #"DOCUMENTATION_URL" 128;
     o_bug := get_val kv #"BUG_REPORT_URL" 128; o_support := get_val kv #"SUPPORT_URL" 128 |}.

(** what else is shown: uname(2), the terminal, the time *)
Record machine := { u_sys : cstr; u_node : cstr; u_release : cstr; u_version : cstr; u_machine : cstr; u_domain : cstr; m_tty : cstr; m_time : cstr }.
(** src/getty.c:166-232: what is printed for the character after a backslash.
    None: it is no escape; Some None: undefined.  [rel]: None in compat mode. *)
Definition escape (m : machine) (rel : option osrel) (c : ascii) : option (option cstr) :=
  let os (f : osrel -> option cstr) := match rel with Some r => f r | None => Some [] end in
  let either (u : cstr) (f : osrel -> option cstr) := match rel with Some r => f r | None => Some u end in
  if ch_eqb c "B" then Some (os o_bug)
  else if ch_eqb c "D" then Some (os o_doc)
  else if ch_eqb c "H" then Some (os o_home)
  else if ch_eqb c "I" then Some (os o_id)
  else if ch_eqb c "l" then Some (Some (m_tty m))
  else if ch_eqb c "m" then Some (Some (u_machine m))
  else if ch_eqb c "N" then Some (os o_name)
  else if ch_eqb c "n" then Some (Some (u_node m))
  else if ch_eqb c "o" then Some (Some (u_domain m))
  else if ch_eqb c "r" then Some (either (u_release m) o_version_id)
  else if ch_eqb c "S" then Some (os o_support)
  else if ch_eqb c "s" then Some (either (u_sys m) o_pretty)
  else if ch_eqb c "t" then Some (Some (m_time m))
  else if ch_eqb c "v" then Some (either (u_version m) (fun r => Some (o_version r)))
  else None.
(** src/getty.c:155-240 parseln: what is printed, None if some of it is
    undefined.  [pend]: the text from s0 to s. *)
Fixpoint parseln (m : machine) (rel : option osrel) (pend line : cstr) : option cstr :=
  match line with
  | [] => Some pend
  | x :: r =>
      if ch_eqb x "\" then
        match r with
        | [] => Some pend
        | c :: r =>
            match escape m rel c with
            | None => option_map (app pend) (parseln m rel [x; c] r)
            | Some None => None
            | Some (Some e) => option_map (fun o => pend ++ e ++ o) (parseln m rel [] r)
            end
        end
      else parseln m rel (pend ++ [x]) r
  end.
(** src/getty.c:245-270 issue: the lines of /etc/issue, or None; then the prompt.
    [os]: os-release; no such file, or Alpine, is compat mode. *)
Fixpoint show (m : machine) (rel : option osrel) (lines : list cstr) : option cstr :=
  match lines with
  | [] => Some []
  | l :: r => match parseln m rel [] l, show m rel r with Some a, Some b => Some (a ++ b) | _, _ => None end
  end.
Definition default_issue : cstr := #"Welcome to \s \v \n \l" ++ [newline; newline].
Definition issue (m : machine) (os : option (list (cstr * cstr))) (file : option (list cstr)) : option cstr :=
  let lines := match file with Some l => l | None => [default_issue] end ++ [#"\n login: "] in
  match os with
  | None => show m None lines
  | Some kv =>
      match o_id (read_osrel kv) with
      | None => None
      | Some i => show m (if str_eqb i #"alpine" then None else Some (read_osrel kv)) lines
      end
  end.
