(** What C78 means. *)
From Coq Require Import List String Ascii NArith Bool.
From Verif Require Import CStr SctlModel.
Import ListNotations.

(** The files set the parameter to this last *)
Definition sets_last (l : list sfile) (k v : cstr) : Prop :=
  exists a b c d f, l = a ++ f :: b /\ s_sets f = c ++ (k, v) :: d /\ (forall x, ~ In (k, x) d) /\ forall g x, In g b -> ~ In (k, x) (s_sets g).
(** None of the files sets it *)
Definition sets_not (l : list sfile) (k : cstr) : Prop := forall f x, In f l -> ~ In (k, x) (s_sets f).
(** No path is too long *)
Definition short_paths (p : places) : Prop :=
  forall l f, In l [in_run p; in_etc p; in_local p; in_usr p; in_lib p; in_mnt p; in_conf p] -> In f l -> (N.of_nat (List.length (s_path f)) <= 140)%N.
