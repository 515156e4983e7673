(** What C73 means. *)
From Coq Require Import List String Ascii NArith ZArith Bool.
From Verif Require Import CStr GetModel SulModel.
Import ListNotations.

(** A line of passwd or shadow: name, password, the rest *)
Inductive account : cstr -> cstr -> cstr -> Prop :=
| account_ : forall n p r, ~ In ":"%char n -> ~ In ":"%char p -> account (n ++ ":"%char :: p ++ ":"%char :: r) n p.
(** The account of root, among others *)
Inductive root_in : list cstr -> cstr -> Prop :=
| root_in_ : forall a l p b, Forall (fun l => exists n q, account l n q /\ n <> #"root") a -> account l #"root" p -> root_in (a ++ l :: b) p.
(** Its password is there, or in shadow, in the first line *)
Inductive root_pass : list cstr -> list cstr -> cstr -> Prop :=
| rp_passwd : forall P S p, root_in P p -> (forall r, p <> "x"%char :: r) -> root_pass P S p
| rp_shadow : forall P l S x p, root_in P ("x"%char :: x) -> account l #"root" p -> root_pass P (l :: S) p.
(** There is a password *)
Definition real (p : cstr) : Prop := exists c r, p = c :: r /\ c <> "*"%char /\ c <> "!"%char.
(** A line typed: no end of line, no Ctrl-D, no zero *)
Definition typed_line (s : cstr) : Prop := Forall (fun c => c <> newline /\ c <> return_ /\ c <> ctrl_d /\ c <> nul) s.
Definition ends (c : ascii) : Prop := c = newline \/ c = return_.
(** The password is right *)
Definition opens (crypt : cryptf) (hash s : cstr) : Prop := crypt s hash = Some hash.
(** lines that are wrong, one after the other *)
Inductive wrong (crypt : cryptf) (hash : cstr) : cstr -> Prop :=
| wrong_none : wrong crypt hash []
| wrong_line : forall s e r, typed_line s -> List.length s < 255 -> ~ opens crypt hash s -> ends e -> wrong crypt hash r -> wrong crypt hash (s ++ e :: r).
