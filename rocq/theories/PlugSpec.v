(** What C76 means. *)
From Coq Require Import List String Ascii NArith Bool.
From Verif Require Import CStr PlugModel.
Import ListNotations.

(** A file of lines; the last may have no end *)
Inductive text_of : list cstr -> cstr -> Prop :=
| text_nil : text_of [] []
| text_line : forall l ls t, ~ In eol l -> text_of ls t -> text_of (l :: ls) (l ++ eol :: t)
| text_end : forall l, ~ In eol l -> l <> [] -> text_of [l] l.
(** Lines that are not too long to be read *)
Definition short (ls : list cstr) : Prop := Forall (fun l => (N.of_nat (List.length l) < 255)%N) ls.
(** The alias a file names: uevent in the first line of its kind, modalias in the first
    line *)
Inductive names : sysfile -> cstr -> Prop :=
| names_uevent : forall f before a after, f_reg f = true -> f_name f = #"uevent" ->
    text_of (before ++ (#"MODALIAS=" ++ a) :: after) (f_text f) ->
    (forall l x, In l before -> l <> #"MODALIAS=" ++ x) -> short (before ++ (#"MODALIAS=" ++ a) :: after) -> names f a
| names_modalias : forall f a after, f_reg f = true -> f_name f = #"modalias" -> text_of (a :: after) (f_text f) -> short (a :: after) -> names f a.
(** Nothing in a file names one *)
Inductive silent : sysfile -> Prop :=
| silent_reg : forall f, f_reg f = false -> silent f
| silent_name : forall f, f_name f <> #"uevent" -> f_name f <> #"modalias" -> silent f
| silent_uevent : forall f ls, f_name f = #"uevent" -> text_of ls (f_text f) -> (forall l x, In l ls -> l <> #"MODALIAS=" ++ x) -> short ls -> silent f
| silent_empty : forall f, f_text f = [] -> silent f.
