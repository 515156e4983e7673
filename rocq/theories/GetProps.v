(** C64, C65: what getty shows and the name it hands to login. *)
From Coq Require Import List String Ascii NArith ZArith Bool Lia Arith.
From Verif Require Import CStr CStrLib GetModel GetSpec GetProof.
Import ListNotations.

(** ** C64 *)
(** With os-release: the lines of the issue file are shown as they are but for the
    escapes, which are replaced by what they stand for, and the prompt follows. *)
Theorem issue_shown : forall m kv i lines o, value kv #"ID" i -> List.length i < 32 -> i <> #"alpine" ->
  lines_shown (shows m kv) lines o -> issue m (Some kv) (Some lines) = Some (o ++ u_node m ++ #" login: ").
Proof. exact issue_os_ok. Qed.
(** Without it, and on Alpine, escapes stand for what uname(2) says. *)
Theorem issue_shown_plain : forall m kv lines o, (kv = None \/ exists l, kv = Some l /\ value l #"ID" #"alpine") ->
  lines_shown (shows_plain m) lines o -> issue m kv (Some lines) = Some (o ++ u_node m ++ #" login: ").
Proof. exact issue_plain_ok. Qed.
(** With no issue file there is a greeting. *)
Theorem issue_default : forall m kv i s v, value kv #"ID" i -> List.length i < 32 -> i <> #"alpine" ->
  shows m kv "s" s -> shows m kv "v" v ->
  issue m (Some kv) None = Some ((#"Welcome to " ++ s ++ #" " ++ v ++ #" " ++ u_node m ++ #" " ++ m_tty m ++ [newline; newline]) ++ u_node m ++ #" login: ").
Proof. exact issue_default_ok. Qed.
(** Claim that is false: what an escape stands for is taken from os-release, or is
    empty.  Where the key is not in os-release the memory was never written: not
    even the greeting of getty itself is defined without PRETTY_NAME. *)
Theorem issue_undefined_refuted : forall m kv i, value kv #"ID" i -> List.length i < 32 -> i <> #"alpine" ->
  (forall w, ~ In (#"PRETTY_NAME", w) kv) -> issue m (Some kv) None = None.
Proof. exact issue_undefined. Qed.
(** Claim that is false: text that is no escape is shown.  A backslash at the end
    of the line is not. *)
Theorem issue_backslash_refuted : exists m line, In "\"%char line /\ issue m None (Some [line]) = issue m None (Some [removelast line]).
Proof. exact issue_backslash. Qed.

Definition box : machine := {| u_sys := #"Linux"; u_node := #"box"; u_release := #"6.1"; u_version := #"SMP"; u_machine := #"x86_64"; u_domain := #"(none)";
                               m_tty := #"tty1"; m_time := #"Mon Nov 16" |}.
Definition deb : list (cstr * cstr) := [(#"PRETTY_NAME", #"Debian 12"); (#"ID", #"debian"); (#"VERSION_CODENAME", #"sid")].
Example issue_shown_met : issue box (Some deb) (Some [#"\s \v on \l, 100\% \q" ++ [newline]]) =
  Some (#"Debian 12 (sid) on tty1, 100\% \q" ++ [newline] ++ #"box login: ").
Proof. reflexivity. Qed.
Example issue_shown_hyps : value deb #"ID" #"debian" /\ lines_shown (shows box deb) [#"\s!"; #"\%\v\l"] #"Debian 12!\%(sid)tty1".
Proof.
  split; [apply (val _ _ _ [(#"PRETTY_NAME", #"Debian 12")] [(#"VERSION_CODENAME", #"sid")]); [reflexivity|]; intros w [H|[]]; discriminate|].
  apply (lss_more _ #"\s!" #"Debian 12!" [#"\%\v\l"] #"\%(sid)tty1").
  - apply (ls_esc _ "s" #"Debian 12" #"!" #"!"); [|apply ls_char; [discriminate|apply ls_end]].
    apply (sh_key _ _ "s" #"PRETTY_NAME" 64); [cbn; tauto| |apply Nat.ltb_lt; reflexivity].
    apply (val _ _ _ [] [(#"ID", #"debian"); (#"VERSION_CODENAME", #"sid")]); [reflexivity|]. intros w [H|[H|[]]]; discriminate.
  - apply (lss_more _ #"\%\v\l" #"\%(sid)tty1" [] []); [|apply lss_end].
    apply (ls_other _ "%" #"\v\l" #"(sid)tty1"); [cbn; intros H; repeat (destruct H as [H|H]; [discriminate|]); exact H|].
    apply (ls_esc _ "v" #"(sid)" #"\l" #"tty1").
    + apply (sh_codename _ _ #"sid"); [intros w [H|[H|[H|[]]]]; discriminate| |discriminate|intros r; discriminate|apply Nat.ltb_lt; reflexivity].
      apply (val _ _ _ [(#"PRETTY_NAME", #"Debian 12"); (#"ID", #"debian")] []); [reflexivity|]. intros w [].
    + apply (ls_esc _ "l" #"tty1" [] []); [|apply ls_end]. apply sh_machine. cbn. tauto.
Qed.
Example issue_shown_plain_met : issue box None (Some [#"\s \r \B."]) = Some #"Linux 6.1 .box login: ".
Proof. reflexivity. Qed.
Example issue_default_met : issue box (Some deb) None = Some (#"Welcome to Debian 12 (sid) box tty1" ++ [newline; newline] ++ #"box login: ").
Proof. reflexivity. Qed.
Example issue_undefined_met : issue box (Some [(#"ID", #"debian"); (#"NAME", #"Debian")]) None = None.
Proof. reflexivity. Qed.

(** ** C65 *)
(** The name typed, after any number of blank lines, is what login gets, whole, and
    after "--" so that it is never an option; what comes next is not read. *)
Theorem login_name : forall max passenv k s rest, line s -> ~ In nul s -> s <> [] -> List.length s <= max ->
  getty_login max passenv (repeat newline k ++ s ++ newline :: rest) =
    Some (if passenv then [#"/bin/login"; #"-p"; #"--"; s] else [#"/bin/login"; #"--"; s]) /\
  get_logname (max + 1) [] (repeat newline k ++ s ++ newline :: rest) = TName s rest.
Proof. exact login_name_ok. Qed.
(** No login is started before a line is complete. *)
Theorem login_waits : forall max passenv input, ~ In newline input -> getty_login max passenv input = None.
Proof. exact login_waits_ok. Qed.
(** Claim that is false: a name that is too long is cut.  Every line of more than
    [max] characters makes getty write behind its buffer. *)
Theorem login_overrun_refuted : forall max s rest, line s -> max < List.length s ->
  get_logname (max + 1) [] (s ++ newline :: rest) = TOverrun.
Proof. exact login_overrun. Qed.

Example login_name_met : getty_login 32 false (#"" ++ [newline; newline] ++ #"-f root" ++ newline :: #"secret") = Some [#"/bin/login"; #"--"; #"-f root"].
Proof. reflexivity. Qed.
Example login_overrun_met : get_logname 33 [] (repeat "a"%char 33 ++ [newline]) = TOverrun /\ get_logname 33 [] (repeat "a"%char 32 ++ [newline]) = TName (repeat "a"%char 32) [].
Proof. split; reflexivity. Qed.

Print Assumptions issue_shown.
Print Assumptions issue_shown_plain.
Print Assumptions issue_default.
Print Assumptions issue_undefined_refuted.
Print Assumptions issue_backslash_refuted.
Print Assumptions login_name.
Print Assumptions login_waits.
Print Assumptions login_overrun_refuted.
