(** What C75 means. *)
From Coq Require Import List String Ascii Bool.
From Verif Require Import CStr BootModel.
Import ListNotations.

(** entry [m] of directory [e], which is [x], is below directory [d]; links do not
    count *)
Inductive inside : nat -> entries -> nat -> cstr -> node -> Prop :=
| in_here : forall d k n x, In (n, x) k -> inside d k d n x
| in_sub : forall d k n t j e m x, In (n, Dir t j) k -> inside t j e m x -> inside d k e m x.
(** no link below leads to a directory *)
Definition no_dir_links (k : entries) : Prop := forall d e m to, ~ inside d k e m (Link (Some to)).
(** the file system on the directory is tmpfs *)
Definition on_tmpfs (mounts : list (cstr * cstr)) (t : top) : Prop :=
  exists r a b, top_real t = Some r /\ mounts = a ++ (r, #"tmpfs") :: b /\ forall ty, ~ In (r, ty) a.
(** an entry is removed: if it is a directory, after all that is in it *)
Definition removed (acts : list (nat * cstr)) (e : nat) (m : cstr) (x : node) : Prop :=
  exists a b, acts = a ++ (e, m) :: b /\
    match x with Dir t k => forall n y, In (n, y) k -> In (t, n) a | _ => True end.
