(** Property theorems: which configuration files are read (C26). *)
From Coq Require Import List String Ascii Bool.
From Verif Require Import ConfModel ConfSpec ConfProof.
Import ListNotations.
Local Open Scope string_scope.

(** C26 The files read are those, in the order of the directories and of the names in
    each, that are files and are not overridden: a file of the system by one of the
    same name in a later directory; the user's own files never. *)
Theorem conf_chosen D sys run etc en what : apart D -> listing sys -> listing run -> listing etc -> listing en ->
  exists r, kept (fun x => ~ overridden sys run etc en x /\ what (path_of D x) = AFile) (entries sys run etc en) r /\
    conf_read D what (glob_all D sys run etc en) = map (path_of D) r.
Proof. exact (conf_chosen_lem D sys run etc en what). Qed.
Print Assumptions conf_chosen.

Definition ex_dirs : dirs := mkDirs "/lib/finit/system" "/run/finit/system" "/etc/finit.d".
Lemma name_ok n c b : n = String c (b ++ ".conf") -> c <> "."%char -> ~ In "/"%char (list_ascii_of_string n) -> conf_name n.
Proof. intros H1 H2 H3. split; [exact H3|]. exists c, b. auto. Qed.
Ltac slashless := let H := fresh in intros H; cbn in H; repeat (destruct H as [H|H]; [discriminate H|]); exact H.
Ltac listed := split; [repeat (apply NoDup_cons; [cbn; intuition discriminate|]); apply NoDup_nil|repeat (apply Forall_cons; [assumption|]); apply Forall_nil].
Example conf_chosen_ex : apart ex_dirs /\ listing ["a.conf"; "b.conf"] /\ listing ["b.conf"] /\ listing ["a.conf"; "c.conf"] /\ listing ["c.conf"] /\
  conf_read ex_dirs (fun _ => AFile) (glob_all ex_dirs ["a.conf"; "b.conf"] ["b.conf"] ["a.conf"; "c.conf"] ["c.conf"]) =
  ["/run/finit/system/b.conf"; "/etc/finit.d/a.conf"; "/etc/finit.d/c.conf"; "/etc/finit.d/enabled/c.conf"].
Proof.
  assert (A : conf_name "a.conf") by (apply (name_ok _ "a" ""); [reflexivity|discriminate|slashless]).
  assert (B : conf_name "b.conf") by (apply (name_ok _ "b" ""); [reflexivity|discriminate|slashless]).
  assert (C : conf_name "c.conf") by (apply (name_ok _ "c" ""); [reflexivity|discriminate|slashless]).
  split; [repeat split|]. split; [listed|].
  split; [listed|].
  split; [listed|].
  split; [listed|]. reflexivity.
Qed.

(** C26 What overrides need not be readable: a dangling link in the user's directory
    drops the file of the system, and nothing by that name is read. *)
Theorem conf_dangling_refuted : exists sys etc what n,
  listing sys /\ listing etc /\ In n sys /\ what (path_of ex_dirs (Sys, n)) = AFile /\ what (path_of ex_dirs (Etc, n)) = Dangling /\
  forall p, In p (conf_read ex_dirs what (glob_all ex_dirs sys [] etc [])) -> basenm p <> n.
Proof.
  assert (A : conf_name "a.conf") by (apply (name_ok _ "a" ""); [reflexivity|discriminate|slashless]).
  exists ["a.conf"], ["a.conf"], (fun p => if String.eqb p "/etc/finit.d/a.conf" then Dangling else AFile), "a.conf".
  split; [listed|].
  split; [listed|].
  split; [left; reflexivity|]. split; [reflexivity|]. split; [reflexivity|]. intros p [].
Qed.
Print Assumptions conf_dangling_refuted.
