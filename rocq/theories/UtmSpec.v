(** What C67 means. *)
From Coq Require Import List String Ascii NArith ZArith Bool.
From Verif Require Import CStr UtmModel.
Import ListNotations.
Local Open Scope Z_scope.

(** The line of a device is its name in /dev *)
Inductive line_of : cstr -> cstr -> Prop :=
| lo_path : forall l, line_of (#"/dev/" ++ l) l
| lo_name : forall l, (forall r, l <> #"/dev/" ++ r) -> line_of l l.
(** What the records of a line are found by *)
Inductive ident : cstr -> cstr -> Prop :=
| i_pts : forall n, ident (#"pts/" ++ n) n
| i_name : forall l, (forall r, l <> #"pts/" ++ r) -> ident l l.

(** An event about a line, and the record for it *)
Inductive about (L : cstr) : event -> utype -> Z -> cstr -> Prop :=
| ab_start : forall d p, line_of d L -> about L (EStart d p) InitProc p []
| ab_prompt : forall d p, line_of d L -> about L (EPrompt d p) LoginProc p #"LOGIN"
| ab_login : forall d u p, line_of d L -> about L (ELogin d u p) UserProc p u.
Definition silent (L : cstr) (e : event) : Prop := forall t p u, ~ about L e t p u.
(** Devices of the history can be told apart by the first four characters of what
    their records are found by, which is not empty; names are not too long *)
Definition apart (es : list event) : Prop :=
  forall e t p u L n, In e es -> about L e t p u -> ident L n ->
    n <> [] /\ (List.length L <= 32)%nat /\ (List.length u <= 32)%nat /\
    forall e' t' p' u' L' n', In e' es -> about L' e' t' p' u' -> ident L' n' -> firstn 4 n = firstn 4 n' -> L = L'.

(** No device has an empty name *)
Definition names_ok (es : list event) : Prop := forall e t p u L n, In e es -> about L e t p u -> ident L n -> n <> [].
(** Changes of the runlevel, and how they are told: 'N' (zero) for S *)
Definition level (l : Z) : Prop := 0 <= l <= 10.
Definition digit (l c : Z) : Prop := (l = 10 /\ c = 0) \/ (l <> 10 /\ c = l + 48).
Definition about_level (e : event) : Prop := e = EHalt \/ exists a b, e = ELevel a b.
