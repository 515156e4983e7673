(** What C64 and C65 mean. *)
From Coq Require Import List String Ascii NArith ZArith Bool.
From Verif Require Import CStr GetModel.
Import ListNotations.

(** os-release, as it is read: the value of a key is the one given last *)
Inductive value (kv : list (cstr * cstr)) (key v : cstr) : Prop :=
| val : forall a b, kv = a ++ (key, v) :: b -> (forall w, ~ In (key, w) b) -> value kv key v.
(** what is shown for an escape, with os-release... *)
Inductive shows (m : machine) (kv : list (cstr * cstr)) : ascii -> cstr -> Prop :=
| sh_key : forall c k n v, In (c, k, n) [("B"%char, #"BUG_REPORT_URL", 128); ("D"%char, #"DOCUMENTATION_URL", 128); ("H"%char, #"HOME_URL", 128);
      ("S"%char, #"SUPPORT_URL", 128); ("I"%char, #"ID", 32); ("N"%char, #"NAME", 32); ("r"%char, #"VERSION_ID", 32); ("s"%char, #"PRETTY_NAME", 64)] ->
    value kv k v -> List.length v < n -> shows m kv c v
| sh_version : forall v, value kv #"VERSION" v -> v <> [] -> List.length v < 32 -> shows m kv "v" v
| sh_codename : forall v, (forall w, ~ In (#"VERSION", w) kv) -> value kv #"VERSION_CODENAME" v -> v <> [] -> (forall r, v <> "("%char :: r) -> List.length v < 30 ->
    shows m kv "v" (#"(" ++ v ++ #")")
| sh_paren : forall r, (forall w, ~ In (#"VERSION", w) kv) -> value kv #"VERSION_CODENAME" ("("%char :: r) -> List.length ("("%char :: r) < 30 ->
    shows m kv "v" ("("%char :: r)
| sh_machine : forall c v, In (c, v) [("l"%char, m_tty m); ("m"%char, u_machine m); ("n"%char, u_node m); ("o"%char, u_domain m); ("t"%char, m_time m)] -> shows m kv c v.
(** ...and without *)
Inductive shows_plain (m : machine) : ascii -> cstr -> Prop :=
| shp : forall c v, In (c, v) [("l"%char, m_tty m); ("m"%char, u_machine m); ("n"%char, u_node m); ("o"%char, u_domain m); ("t"%char, m_time m);
      ("r"%char, u_release m); ("s"%char, u_sys m); ("v"%char, u_version m)] -> shows_plain m c v
| shp_none : forall c, In c #"BDHSIN" -> shows_plain m c [].

(** A line of the issue file and what is shown for it, where [esc] tells about
    escapes: the rest is shown as it is *)
Inductive line_shown (esc : ascii -> cstr -> Prop) : cstr -> cstr -> Prop :=
| ls_end : line_shown esc [] []
| ls_char : forall c l o, c <> "\"%char -> line_shown esc l o -> line_shown esc (c :: l) (c :: o)
| ls_esc : forall c v l o, esc c v -> line_shown esc l o -> line_shown esc ("\"%char :: c :: l) (v ++ o)
| ls_other : forall c l o, ~ In c #"BDHIlmNnorSstv" -> line_shown esc l o -> line_shown esc ("\"%char :: c :: l) ("\"%char :: c :: o).
Inductive lines_shown (esc : ascii -> cstr -> Prop) : list cstr -> cstr -> Prop :=
| lss_end : lines_shown esc [] []
| lss_more : forall l o ls os, line_shown esc l o -> lines_shown esc ls os -> lines_shown esc (l :: ls) (o ++ os).

(** A line typed at the prompt *)
Definition line (s : cstr) : Prop := ~ In newline s.
