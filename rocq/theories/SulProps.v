(** C73: who gets the shell of maintenance mode. *)
From Coq Require Import List String Ascii NArith ZArith Bool Lia Arith.
From Verif Require Import CStr CStrLib GetModel SulModel SulSpec SulProof.
Import ListNotations.

(** Where root has a password there is no shell before the right one was typed, with
    no Ctrl-D before... *)
Theorem maintenance_only : forall crypt tty P S p input, root_pass P S p -> real p -> sulogin crypt tty (Some P) (Some S) input = Shell ->
  exists a s b, input = a ++ s ++ b /\ ~ In ctrl_d (a ++ s) /\ opens crypt p (upto s).
Proof. exact shell_only_ok. Qed.
(** ...and then there is, after any number of wrong ones. *)
Theorem maintenance_given : forall crypt P S p w s e r, root_pass P S p -> real p -> wrong crypt p w -> typed_line s -> List.length s < 255 -> opens crypt p s -> ends e ->
  sulogin crypt true (Some P) (Some S) (w ++ s ++ e :: r) = Shell.
Proof. exact shell_given_ok. Qed.
(** Ctrl-D, also in the middle of a line, and a terminal that goes away, go on without
    a shell. *)
Theorem maintenance_left : forall crypt P S p w s r, root_pass P S p -> real p -> wrong crypt p w -> typed_line s -> List.length s < 255 ->
  sulogin crypt true (Some P) (Some S) (w ++ s ++ ctrl_d :: r) = Exit 0 /\ sulogin crypt true (Some P) (Some S) (w ++ s) = Exit 0.
Proof. exact left_ok. Qed.
(** Where root is locked or has no password any key but Ctrl-D gives the shell, as is
    meant. *)
Theorem maintenance_locked : forall crypt tty P S p input, root_pass P S p -> ~ real p ->
  (sulogin crypt tty (Some P) (Some S) input = Shell <-> exists c r, input = c :: r /\ c <> ctrl_d) /\
  (sulogin crypt tty (Some P) (Some S) input = Shell \/ sulogin crypt tty (Some P) (Some S) input = Exit 0).
Proof. exact locked_ok. Qed.
(** With no account, or with the password said to be in a shadow that is empty or not
    there, there is no shell. *)
Theorem maintenance_none : forall crypt tty P S input, P = None \/ P = Some [] \/ (exists l x, P = Some l /\ root_in l ("x"%char :: x) /\ (S = None \/ S = Some [])) ->
  sulogin crypt tty P S input = Exit 1.
Proof. exact none_ok. Qed.
(** Claim that is false: it is the password of root that is asked for.  It is the one
    in the first line of shadow, whose account that may be... *)
Theorem maintenance_other_refuted : forall crypt P S x l u h w s e r, root_in P ("x"%char :: x) -> account l u h -> real h ->
  wrong crypt h w -> typed_line s -> List.length s < 255 -> opens crypt h s -> ends e ->
  sulogin crypt true (Some P) (Some (l :: S)) (w ++ s ++ e :: r) = Shell.
Proof. exact other_ok. Qed.
(** ...and if that one is locked, as system accounts are, none is asked for at all. *)
Theorem maintenance_open_refuted : forall crypt tty P S x l u h e r, root_in P ("x"%char :: x) -> account l u h -> ~ real h -> ends e ->
  sulogin crypt tty (Some P) (Some (l :: S)) (e :: r) = Shell.
Proof. exact open_ok. Qed.
(** Claim that is false: there is a prompt whatever shadow looks like.  With a first
    line that has no colon, as an empty one, sulogin crashes. *)
Theorem maintenance_crash_refuted : forall crypt tty P S x l input, root_in P ("x"%char :: x) -> ~ In ":"%char l ->
  sulogin crypt tty (Some P) (Some (l :: S)) input = Crash.
Proof. exact crash_ok. Qed.

Definition hashed : cryptf := fun s _ => Some (#"$1$" ++ s).
Definition users : list cstr := [#"bin:x:1:1::/:"; #"root:x:0:0::/root:/bin/sh"].
Lemma users_root : root_in users #"x".
Proof.
  apply (root_in_ [#"bin:x:1:1::/:"] #"root:x:0:0::/root:/bin/sh" #"x" []).
  - apply Forall_cons; [|apply Forall_nil]. exists #"bin", #"x". split; [|discriminate].
    apply (account_ #"bin" #"x" #"1:1::/:"); cbn; intuition discriminate.
  - apply (account_ #"root" #"x" #"0:0::/root:/bin/sh"); cbn; intuition discriminate.
Qed.
Example root_pass_met : root_pass users [#"root:$1$top:1"; #"bin:*:1"] #"$1$top" /\ real #"$1$top".
Proof.
  split.
  - apply (rp_shadow _ _ _ []); [exact users_root|]. apply (account_ #"root" #"$1$top" #"1"); cbn; intuition discriminate.
  - exists "$"%char, #"1$top". repeat split; discriminate.
Qed.
Example maintenance_given_met : sulogin hashed true (Some users) (Some [#"root:$1$top:1"; #"bin:*:1"]) (#"tip" ++ [newline] ++ #"top" ++ [newline]) = Shell.
Proof. reflexivity. Qed.
Example maintenance_given_hyps : wrong hashed #"$1$top" (#"tip" ++ [newline]) /\ typed_line #"top" /\ opens hashed #"$1$top" #"top".
Proof.
  split; [|split; [|reflexivity]].
  - apply (wrong_line _ _ #"tip" newline []); [| |discriminate|left; reflexivity|apply wrong_none].
    + repeat (apply Forall_cons; [repeat split; discriminate|]). apply Forall_nil.
    + apply Nat.ltb_lt. reflexivity.
  - repeat (apply Forall_cons; [repeat split; discriminate|]). apply Forall_nil.
Qed.
Example maintenance_left_met : sulogin hashed true (Some users) (Some [#"root:$1$top:1"]) (#"to" ++ [ctrl_d] ++ #"top" ++ [newline]) = Exit 0.
Proof. reflexivity. Qed.
Example maintenance_locked_met : sulogin hashed true (Some [#"root:!:0:0"]) None [newline] = Shell /\ sulogin hashed true (Some [#"root::0:0"]) None [ctrl_d] = Exit 0.
Proof. split; reflexivity. Qed.
Example maintenance_none_met : sulogin hashed true (Some users) None [newline] = Exit 1.
Proof. reflexivity. Qed.
Example maintenance_other_met : sulogin hashed true (Some users) (Some [#"bin:$1$joe:1"; #"root:$1$top:1"]) (#"top" ++ [newline] ++ #"joe" ++ [newline]) = Shell /\
  sulogin hashed true (Some users) (Some [#"bin:$1$joe:1"; #"root:$1$top:1"]) (#"top" ++ [newline]) = Exit 0.
Proof. split; reflexivity. Qed.
Example maintenance_open_met : sulogin hashed true (Some users) (Some [#"bin:*:1"; #"root:$1$top:1"]) [newline] = Shell.
Proof. reflexivity. Qed.
Example maintenance_crash_met : sulogin hashed true (Some users) (Some [[newline]; #"root:$1$top:1"]) [newline] = Crash.
Proof. reflexivity. Qed.

Print Assumptions maintenance_only.
Print Assumptions maintenance_given.
Print Assumptions maintenance_left.
Print Assumptions maintenance_locked.
Print Assumptions maintenance_none.
Print Assumptions maintenance_other_refuted.
Print Assumptions maintenance_open_refuted.
Print Assumptions maintenance_crash_refuted.
