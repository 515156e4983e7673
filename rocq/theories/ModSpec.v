(** What C71 and C72 mean. *)
From Coq Require Import List String Ascii NArith ZArith Bool.
From Verif Require Import CStr ParseSpec ModModel.
Import ListNotations.
Local Open Scope Z_scope.

(** ** C71 *)
Definition of_seps (sep g : cstr) : Prop := Forall (fun c => In c sep) g.
Definition no_seps (sep w : cstr) : Prop := Forall (fun c => ~ In c sep) w.
(** the text before the first separator *)
Definition first_word (sep line w : cstr) : Prop :=
  no_seps sep w /\ (line = w \/ exists c r, line = w ++ c :: r /\ In c sep).
(** a value as it is written and as it is read: quotes are taken off, with the white
    space behind them *)
Inductive value_of : cstr -> cstr -> Prop :=
| vo_plain : forall v, (forall q r, v = q :: r -> ~ quote q) -> value_of v v
| vo_quoted : forall q w sp, quote q -> Forall white sp -> value_of (q :: w ++ q :: sp) w
| vo_open : forall q w c sp, quote q -> c <> q -> ~ white c -> Forall white sp -> value_of (q :: w ++ c :: sp) (q :: w ++ [c])
| vo_lone : forall q sp, quote q -> Forall white sp -> value_of (q :: sp) [].
(** the value of a key begins with no separator *)
Definition begins (sep v : cstr) : Prop := exists c r, v = c :: r /\ ~ In c sep.
(** a line with a key and a value *)
Inductive keyed (sep key : cstr) : cstr -> cstr -> Prop :=
| keyed_ : forall gap v w, no_seps sep key -> gap <> [] -> of_seps sep gap -> begins sep v -> value_of v w -> keyed sep key (key ++ gap ++ v) w.

(** ** C72 *)
(** blanks, "=" *)
Definition separators : cstr := ["="; " "; "009"]%char.
Definition gap (g : cstr) : Prop := g <> [] /\ Forall (fun c => c = "="%char \/ blank c) g.
(** "set KEY VALUE" *)
Inductive setting (key : cstr) : cstr -> cstr -> Prop :=
| setting_ : forall b g h v w, Forall blank b -> gap g -> gap h -> begins separators v -> ~ In "#"%char v -> value_of v w ->
    setting key (b ++ #"set" ++ g ++ key ++ h ++ v) w.
Inductive off : cstr -> Prop := off_ : forall b g, Forall blank b -> gap g -> off (b ++ #"set" ++ g ++ #"noindex").
(** a line without effect *)
Inductive idle : cstr -> Prop :=
| idle_semi : forall r, idle (";"%char :: r)
| idle_blank : forall b, Forall blank b -> idle b
| idle_set : forall b g w r, Forall blank b -> gap g -> w <> [] -> first_word separators r w -> ~ In "#"%char r -> ~ In """"%char r -> ~ In "'"%char r ->
    ~ In w [#"noindex"; #"index"; #"runlevel"; #"modprobe"] -> idle (b ++ #"set" ++ g ++ r).
(** the name of a module *)
Record modname (m : cstr) : Prop := {
  mn_some : m <> [];
  mn_set : m <> #"set";
  mn_chars : Forall (fun c => c <> "="%char /\ ~ blank c /\ c <> "#"%char) m;
  mn_semi : forall r, m <> ";"%char :: r
}.
Inductive module : cstr -> cstr -> cstr -> Prop :=
| module_bare : forall b m, Forall blank b -> modname m -> module (b ++ m) m []
| module_args : forall b m a, Forall blank b -> modname m -> ~ In "#"%char a -> module (b ++ m ++ " "%char :: a) m a.

(** The tasks of a file, read with index, runlevels and program *)
Inductive file_is (exec : cstr -> bool) : Z -> cstr -> cstr -> list cstr -> list mtask -> Prop :=
| fi_end : forall i l p, file_is exec i l p [] []
| fi_idle : forall i l p x r ts, idle x -> file_is exec i l p r ts -> file_is exec i l p (x :: r) ts
| fi_off : forall i l p x r ts, off x -> file_is exec 0 l p r ts -> file_is exec i l p (x :: r) ts
| fi_index : forall i l p x v n r ts, setting #"index" x v -> number v n -> - 2147483648 <= n <= 2147483647 ->
    file_is exec n l p r ts -> file_is exec i l p (x :: r) ts
| fi_level : forall i l p x v r ts, setting #"runlevel" x v -> file_is exec i v p r ts -> file_is exec i l p (x :: r) ts
| fi_prog : forall i l p x v r ts, setting #"modprobe" x v -> exec v = true -> file_is exec i l v r ts -> file_is exec i l p (x :: r) ts
| fi_stop : forall i l p x v r, setting #"modprobe" x v -> exec v = false -> file_is exec i l p (x :: r) []
| fi_module : forall i l p x m a r ts, i <> 0 -> module x m a -> file_is exec (i + 1) l p r ts ->
    file_is exec i l p (x :: r) ({| t_mod := m; t_index := i; t_lvl := l; t_prog := p; t_args := a |} :: ts)
| fi_module_off : forall l p x m a r ts, module x m a -> file_is exec 0 l p r ts ->
    file_is exec 0 l p (x :: r) ({| t_mod := m; t_index := 0; t_lvl := l; t_prog := p; t_args := a |} :: ts).
(** and of all files: each starts anew, only the count goes on *)
Inductive files_are (exec : cstr -> bool) : nat -> list (option (list cstr)) -> list mtask -> Prop :=
| fa_end : forall n, files_are exec n [] []
| fa_gone : forall n r ts, files_are exec n r ts -> files_are exec n (None :: r) ts
| fa_file : forall n f r ts us, file_is exec (Z.of_nat n) #"S" #"/sbin/modprobe" f ts -> files_are exec (n + List.length ts) r us ->
    files_are exec n (Some f :: r) (ts ++ us).

(** Files that only name modules *)
Inductive plain : list cstr -> list (cstr * cstr) -> Prop :=
| plain_end : plain [] []
| plain_idle : forall x r l, idle x -> plain r l -> plain (x :: r) l
| plain_module : forall x m a r l, module x m a -> plain r l -> plain (x :: r) ((m, a) :: l).
Inductive plain_files : list (option (list cstr)) -> list (cstr * cstr) -> Prop :=
| pf_end : plain_files [] []
| pf_gone : forall r l, plain_files r l -> plain_files (None :: r) l
| pf_file : forall f k r l, plain f k -> plain_files r l -> plain_files (Some f :: r) (k ++ l).
