(** What C58 and C59 mean. *)
From Coq Require Import List String Ascii NArith ZArith Bool.
From Verif Require Import CStr LogModel.
Import ListNotations.
Local Open Scope Z_scope.

(** The options that can be given to log *)
Inductive lopt := LNull | LConsole | LFile (path : cstr) | LPrio (v : cstr) | LTag (v : cstr).

(** how they are written *)
Inductive spelled : lopt -> cstr -> Prop :=
| sp_null : spelled LNull #"null"
| sp_devnull : spelled LNull #"/dev/null"
| sp_console : spelled LConsole #"console"
| sp_devconsole : spelled LConsole #"/dev/console"
| sp_file : forall r, (forall c, In c r -> ~ In c #":=, ") -> "/"%char :: r <> #"/dev/null" -> "/"%char :: r <> #"/dev/console" ->
    spelled (LFile ("/"%char :: r)) ("/"%char :: r)
| sp_prio : forall k d v, In k [#"prio"; #"priority"] -> In d #":=" -> v <> [] -> ~ In ","%char v -> spelled (LPrio v) (k ++ d :: v)
| sp_tag : forall k d v, In k [#"tag"; #"ident"; #"identity"] -> In d #":=" -> v <> [] -> ~ In ","%char v -> spelled (LTag v) (k ++ d :: v).

(** log, or log:OPTION,OPTION... *)
Inductive items : list lopt -> cstr -> Prop :=
| it_one : forall o s, spelled o s -> items [o] s
| it_more : forall o s l t, spelled o s -> items l t -> items (o :: l) (s ++ ","%char :: t).
Inductive log_text : list lopt -> cstr -> Prop :=
| lt_plain : log_text [] #"log"
| lt_items : forall l t, items l t -> log_text l (#"log:" ++ t).

(** the last file, priority, tag named *)
Fixpoint last_of (f : lopt -> option cstr) (d : cstr) (l : list lopt) : cstr :=
  match l with [] => d | o :: r => last_of f (match f o with Some v => v | None => d end) r end.
Definition file_of (o : lopt) : option cstr := match o with LFile p => Some p | _ => None end.
Definition prio_of (o : lopt) : option cstr := match o with LPrio p => Some p | _ => None end.
Definition tag_of (o : lopt) : option cstr := match o with LTag p => Some p | _ => None end.

(** short enough for the record *)
Definition fits (o : lopt) : Prop :=
  match o with
  | LFile p => (List.length p < 64)%nat
  | LPrio p | LTag p => (List.length p < 20)%nat
  | _ => True
  end.

(** The destination: null before console before all others; the file if one is
    named; otherwise the system log.  With tag and priority. *)
Inductive dest := DNull | DConsole | DFile (file tag prio : cstr) | DLog (tag prio : cstr).
Definition meant (name : cstr) (l : list lopt) (d : dest) : Prop :=
  let file := last_of file_of [] l in
  let tag := last_of tag_of name l in
  let prio := last_of prio_of #"daemon.info" l in
  (In LNull l -> d = DNull) /\
  (~ In LNull l -> In LConsole l -> d = DConsole) /\
  (~ In LNull l -> ~ In LConsole l -> (file <> [] -> d = DFile file tag prio) /\ (file = [] -> d = DLog tag prio)).

(** what is called for a destination, with sysklogd's logger *)
Definition by_logger (console pid size count : cstr) (d : dest) : sink :=
  match d with
  | DNull => Open #"/dev/null"
  | DConsole => Open console
  | DFile file tag prio => Exec [#"logger"; #"-f"; file; #"-b"; #"-t"; tag; #"-p"; prio; #"-I"; pid; #"-r"; size ++ #":" ++ count]
  | DLog tag prio => Exec [#"logger"; #"-t"; tag; #"-p"; prio; #"-I"; pid]
  end.
(** and with finit's own logit *)
Definition by_logit (console size count : cstr) (d : dest) : sink :=
  match d with
  | DNull => Open #"/dev/null"
  | DConsole => Open console
  | DFile file tag prio => Exec [#"logit"; #"-f"; file; #"-n"; size; #"-r"; count]
  | DLog tag prio => Exec [#"logit"; #"-t"; tag; #"-p"; prio]
  end.

(** A priority: FACILITY.LEVEL, or LEVEL, which leaves the facility alone *)
Inductive names_prio : Z -> cstr -> Z * Z -> Prop :=
| np_pair : forall fac f fv l lv, In (f, fv) fac_names -> In (l, lv) pri_names -> names_prio fac (f ++ "."%char :: l) (fv, lv)
| np_level : forall fac l lv, In (l, lv) pri_names -> names_prio fac l (fac, lv).

(** the digit of a level *)
Definition level_digit (c : ascii) (n : Z) : Prop := 0 <= n <= 7 /\ Z.of_N (code c) = 48 + n.
