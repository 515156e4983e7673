(** What C77 means. *)
From Coq Require Import List String Ascii Bool.
From Verif Require Import CStr DepModel.
Import ListNotations.

(** The plugin depends on the other one, which is there *)
Definition depends (dir : list plug) (p q : plug) : Prop := In p dir /\ In q dir /\ In (g_name q) (g_deps p).
(** Names are unique, as those of files are *)
Definition unique (dir : list plug) : Prop := NoDup (map g_name dir).
(** No plugin depends on itself, not even by way of others: there are levels, no more
    than plugins *)
Definition acyclic (dir : list plug) : Prop :=
  exists level : plug -> nat, (forall p, In p dir -> level p < List.length dir) /\ forall p q, depends dir p q -> level q < level p.
(** one comes before the other *)
Definition before {A} (l : list A) (x y : A) : Prop := exists a b c, l = a ++ x :: b ++ y :: c.
