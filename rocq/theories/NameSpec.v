(** What names mean: signals, job strings, if: guards. *)
From Coq Require Import List String Ascii NArith ZArith Bool.
From Verif Require Import CStr CondModel ParseSpec NameModel.
Import ListNotations.
Local Open Scope Z_scope.

(** ** C32: signals, as listed by signal(7) for Linux *)
Definition posix_signals : list (Z * string) :=
  [(1, "HUP"); (2, "INT"); (3, "QUIT"); (4, "ILL"); (5, "TRAP"); (6, "ABRT"); (7, "BUS"); (8, "FPE"); (9, "KILL");
   (10, "USR1"); (11, "SEGV"); (12, "USR2"); (13, "PIPE"); (14, "ALRM"); (15, "TERM"); (16, "STKFLT"); (17, "CHLD");
   (18, "CONT"); (19, "STOP"); (20, "TSTP"); (21, "TTIN"); (22, "TTOU"); (23, "URG"); (24, "XCPU"); (25, "XFSZ");
   (26, "VTALRM"); (27, "PROF"); (28, "WINCH"); (29, "IO"); (30, "PWR"); (31, "SYS")]%string.
(** other names of the same signals *)
Definition other_names : list (Z * string) := [(6, "IOT"); (17, "CLD"); (29, "POLL")]%string.
(** the same but for upper and lower case *)
Definition same_letters (a b : cstr) : Prop := map tolower a = map tolower b.
(** [s] is a name of signal [n] in the table [t], with or without "SIG" *)
Definition names_signal (t : list (Z * string)) (s : cstr) (n : Z) : Prop :=
  exists m, In (n, m) t /\ (same_letters s (#m) \/ same_letters s (#"SIG" ++ #m)).

(** ** C15: job strings *)
Inductive target :=
| TName (name : cstr)
| TNameId (name id : cstr)
| TJob (job : Z)
| TJobId (job : Z) (id : cstr).
(** names do not start with a digit *)
Definition alpha_first (s : cstr) : Prop := exists c r, s = c :: r /\ ~ exists v, digit_is c v.
(** [word] is how the target is written *)
Definition written (t : target) (word : cstr) : Prop :=
  match t with
  | TName n => word = n /\ ~ In ":"%char n /\ alpha_first n
  | TNameId n i => word = n ++ ":"%char :: i /\ ~ In ":"%char n /\ alpha_first n
  | TJob j => digits_value word j
  | TJobId j i => exists d, digits_value d j /\ word = d ++ ":"%char :: i
  end.
Definition letter (c : ascii) : Prop :=
  c = "_"%char \/ exists n, (48 <= n <= 57 \/ 65 <= n <= 90 \/ 97 <= n <= 122)%N /\ c = ascii_of_N n.
Definition fits (t : target) : Prop := match t with TJob j | TJobId j _ => j < 2147483648 | _ => True end.
(** the records a target stands for, in the order they were registered *)
Definition is_target (t : target) (r : rec) : bool :=
  match t with
  | TName n => str_eqb (v_name r) n
  | TNameId n i => str_eqb (v_name r) n && str_eqb (v_id r) i
  | TJob j => v_job r =? j
  | TJobId j i => (v_job r =? j) && str_eqb (v_id r) i
  end.
(** of several stanzas with the same job number and id only the first is taken *)
Definition chosen (t : target) (l : list rec) : list rec :=
  match t with TJobId _ _ => firstn 1 (filter (is_target t) l) | _ => filter (is_target t) l end.
Definition word_acts (l : list rec) (tw : target * cstr) : list hit :=
  match chosen (fst tw) l with [] => [Miss (snd tw)] | rs => map Hit rs end.
Definition distinct (l : list rec) : Prop := NoDup (map (fun r => (v_name r, v_id r)) l).
(** stanzas come and go; none is registered twice *)
Inductive registered : Z * list rec -> Prop :=
| rg_none : registered (1, [])
| rg_new x cmd name id : registered x -> svc_find (snd x) name id = None -> registered (svc_new cmd name id x)
| rg_del x name id : registered x -> registered (svc_del name id x).

(** ** C17: guards *)
(** an item of a guard: a name, or '!' and a name *)
Definition admits (holds fails : cstr -> Prop) (item : cstr) : Prop :=
  match item with
  | "!"%char :: n => fails n
  | n => holds n
  end.
(** a stanza NAME or NAME:ID is registered *)
Definition present (l : list rec) (s : cstr) : Prop :=
  exists r, In r l /\ (s = v_name r ++ ":"%char :: v_id r /\ ~ In ":"%char (v_name r) \/
                       s = v_name r /\ v_id r = [] /\ ~ In ":"%char s).
