(** Which configuration files are read (doc/config). *)
From Coq Require Import List String Ascii Bool.
From Verif Require Import ConfModel.
Import ListNotations.
Local Open Scope string_scope.

(** the four directories in order; later ones override the first two *)
Inductive place := Sys | Run | Etc | Enabled.
Definition dir_of (D : dirs) (p : place) : string :=
  match p with Sys => syspath D | Run => runpath D | Etc => rcsd D | Enabled => rcsd D ++ "/enabled" end.
Definition path_of (D : dirs) (x : place * string) : string := dir_of D (fst x) ++ "/" ++ snd x.
Definition entries (sys run etc enabled : list string) : list (place * string) :=
  map (pair Sys) sys ++ map (pair Run) run ++ map (pair Etc) etc ++ map (pair Enabled) enabled.
(** a file of the system is overridden by one of the same name in a later directory *)
Definition overridden (sys run etc enabled : list string) (x : place * string) : Prop :=
  match fst x with
  | Sys => In (snd x) run \/ In (snd x) etc \/ In (snd x) enabled
  | Run => In (snd x) etc \/ In (snd x) enabled
  | Etc | Enabled => False
  end.
(** keep those elements of a list, in order *)
Inductive kept {A} (P : A -> Prop) : list A -> list A -> Prop :=
| kept_nil : kept P [] []
| kept_yes x l r : P x -> kept P l r -> kept P (x :: l) (x :: r)
| kept_no x l r : ~ P x -> kept P l r -> kept P (x :: l) r.

(** file names that *.conf matches: no slash, not hidden, .conf at the end *)
Definition conf_name (n : string) : Prop :=
  ~ In "/"%char (list_ascii_of_string n) /\ exists c b, c <> "."%char /\ n = String c (b ++ ".conf").
(** a directory listing has every name once; the user's directory is not below one of
    the system's *)
Definition listing (l : list string) : Prop := NoDup l /\ Forall conf_name l.
Definition apart (D : dirs) : Prop :=
  String.prefix (syspath D) (rcsd D ++ "/") = false /\ String.prefix (runpath D) (rcsd D ++ "/") = false /\
  String.prefix (rcsd D ++ "/") (syspath D) = false /\ String.prefix (rcsd D ++ "/") (runpath D) = false.
