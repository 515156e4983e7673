(** C53, C54, C55: tmpfiles. *)
From Coq Require Import List String Ascii NArith ZArith Bool Lia.
From Verif Require Import CStr ParseSpec ParseModel TmpModel TmpSpec TmpProof TmpProofB TmpProofC TmpEx.
Import ListNotations.
Local Open Scope Z_scope.

(** ** C53: what a line does *)

(** For every line and file system: a line makes what its type, path, mode,
    user, group and argument say, and nothing else. *)
Theorem line_makes : forall F line ty pl p m u g a ops,
  says line ty pl p m u g a -> makes F ty pl p m u g a ops -> tmpfiles F true false line = Some ops.
Proof. exact line_makes_lem. Qed.
Print Assumptions line_makes.

(** d /run/user 0750 root adm *)
Example line_makes_ex :
  says #"d /run/user 0750 root adm" "d" false #"/run/user" (Some 488) #"root" #"adm" None /\
  tmpfiles (fs_of [] [] []) true false #"d /run/user 0750 root adm" =
    Some [OParent #"/run/user"; ODir #"/run/user" 488 #"root" #"adm"].
Proof. split; [apply (reading_says #"d /run/user 0750 root adm" None); vm_compute; reflexivity|vm_compute; reflexivity]. Qed.
(** c+ /dev/x 0600 - - - 10:229, /dev/x is there *)
Example line_makes_dev_ex :
  says #"c+ /dev/x 0600 - - - 10:229" "c" true #"/dev/x" (Some 384) #"root" #"root" (Some #"10:229") /\
  makes (fs_of [#"/dev/x"] [] []) "c" true #"/dev/x" (Some 384) #"root" #"root" (Some #"10:229")
    [OErase #"/dev/x"; OParent #"/dev/x"; OChr #"/dev/x" 384 10 229].
Proof.
  split; [apply (reading_says #"c+ /dev/x 0600 - - -" (Some #"10:229")); vm_compute; reflexivity|].
  apply mk_chr_again; [reflexivity| |lia|lia]. exists #"10", #"229".
  split; [reflexivity|].
  assert (D : forall c v, 0 <= v <= 9 -> c = ascii_of_N (48 + Z.to_N v) -> digit_is c v) by (intros; split; assumption).
  split; [apply (dv_more #"1" "0" 1 0); [apply dv_one|]; apply D; (lia || reflexivity)|].
  split; [apply (dv_more #"22" "9" 22 9); [apply (dv_more #"2" "2" 2 2); [apply dv_one|]|]; apply D; (lia || reflexivity)|]. lia.
Qed.

(** What is there already stays as it is, unless the line says otherwise. *)
Theorem line_keeps : forall F line ty p m u g a create remove ops o,
  says line ty false p m u g a -> In ty ["b"; "c"; "f"; "p"; "L"; "l"]%char -> f_stat F p = true ->
  tmpfiles F create remove line = Some ops -> In o ops -> o = OParent p.
Proof. exact line_kept_lem. Qed.
Print Assumptions line_keeps.
Example line_keeps_ex :
  says #"f /etc/motd - - - - welcome" "f" false #"/etc/motd" None #"root" #"root" (Some #"welcome") /\
  tmpfiles (fs_of [#"/etc/motd"] [] []) true true #"f /etc/motd - - - - welcome" = Some [OParent #"/etc/motd"].
Proof. split; [apply (reading_says #"f /etc/motd - - - -" (Some #"welcome")); vm_compute; reflexivity|vm_compute; reflexivity]. Qed.

(** With --create nothing is removed but, for a line with a '+', what is
    there at its path. *)
Theorem line_spares : forall F line ty pl p m u g a ops o,
  says line ty pl p m u g a -> tmpfiles F true false line = Some ops -> In o ops -> removes o ->
  pl = true /\ subject o = p /\ f_stat F p = true.
Proof. exact line_spares_lem. Qed.
Print Assumptions line_spares.
Example line_spares_ex :
  tmpfiles (fs_of [] [(#"/a", 3%nat)] []) true false #"L+ /a - - - - /b" = Some [ORmrf #"/a"; OParent #"/a"; OLink #"/b" #"/a"].
Proof. vm_compute. reflexivity. Qed.

(** With --remove nothing is made, and exactly what r, R and D lines name goes. *)
Theorem line_clears : forall F line ty pl p m u g a,
  says line ty pl p m u g a -> exists ops, tmpfiles F false true line = Some ops /\
  forall o, In o ops <-> clears F ty p o.
Proof. exact line_clears_lem. Qed.
Print Assumptions line_clears.
Example line_clears_ex :
  says #"R /tmp/x*" "R" false #"/tmp/x*" None #"root" #"root" None /\
  tmpfiles (fs_of [#"/tmp/x1"] [(#"/tmp/x2", 1%nat)] [(#"/tmp/x*", [#"/tmp/x1"; #"/tmp/x2"])]) false true #"R /tmp/x*" =
    Some [ORmrf #"/tmp/x2"].
Proof. split; [apply (reading_says #"R /tmp/x*" None); vm_compute; reflexivity|vm_compute; reflexivity]. Qed.
Theorem line_both : forall F line ty pl p m u g a ops,
  says line ty pl p m u g a -> tmpfiles F true true line = Some ops -> exists first rest,
  ops = first ++ rest /\ tmpfiles F false true line = Some first /\ tmpfiles F true false line = Some rest.
Proof. exact line_both_lem. Qed.
Print Assumptions line_both.
Example line_both_ex :
  tmpfiles (fs_of [] [(#"/tmp", 3%nat)] []) true true #"D /tmp 1777" =
    Some [OEmpty #"/tmp"; OParent #"/tmp"; ODir #"/tmp" 1023 #"root" #"root"].
Proof. vm_compute. reflexivity. Qed.

(** Nothing is done to a file that is not the path of the line or matches it. *)
Theorem line_frame : forall F line ty pl p m u g a create remove ops o,
  says line ty pl p m u g a -> tmpfiles F create remove line = Some ops -> In o ops ->
  subject o = p \/ In (subject o) (f_glob F p).
Proof. exact line_frame_lem. Qed.
Print Assumptions line_frame.

(** What does not hold.

    'C' is to copy to a directory that is empty and to leave one alone that is
    not.  It does the opposite. *)
Theorem copy_refuted : exists F line p s,
  says line "C" false p None #"root" #"root" (Some s) /\ f_dir F p = true /\
  (f_count F p = Some 0%nat /\ tmpfiles F true false line = Some []).
Proof.
  exists (fs_of [] [(#"/srv", 0%nat)] []), #"C /srv - - - - /usr/srv", #"/srv", #"/usr/srv".
  split; [apply (reading_says #"C /srv - - - -" (Some #"/usr/srv")); vm_compute; reflexivity|]. vm_compute. auto.
Qed.
Print Assumptions copy_refuted.
Theorem copy_over_refuted : exists F line p s,
  says line "C" false p None #"root" #"root" (Some s) /\ f_dir F p = true /\
  f_count F p = Some 2%nat /\ tmpfiles F true false line = Some [OParent p; OCopy s p].
Proof.
  exists (fs_of [] [(#"/srv", 2%nat)] []), #"C /srv - - - - /usr/srv", #"/srv", #"/usr/srv".
  split; [apply (reading_says #"C /srv - - - -" (Some #"/usr/srv")); vm_compute; reflexivity|]. vm_compute. auto.
Qed.
Print Assumptions copy_over_refuted.
(** L+ is to replace what is there.  A file is not removed, and symlink(2) does
    not replace it. *)
Theorem link_replace_refuted : exists F line p t,
  says line "L" true p None #"root" #"root" (Some t) /\ f_stat F p = true /\
  tmpfiles F true false line = Some [OParent p; OLink t p].
Proof.
  exists (fs_of [#"/etc/mtab"] [] []), #"L+ /etc/mtab - - - - /proc/mounts", #"/etc/mtab", #"/proc/mounts".
  split; [apply (reading_says #"L+ /etc/mtab - - - -" (Some #"/proc/mounts")); vm_compute; reflexivity|]. vm_compute. auto.
Qed.
Print Assumptions link_replace_refuted.
(** The mode of an 'f' line is not used: 0600 is asked for, the file is made
    with the 0666 of fopen(3), less the umask; nor are user and group. *)
Theorem file_mode_refuted : exists F line p u,
  says line "f" false p (Some 384) u u (Some #"secret") /\ f_stat F p = false /\
  tmpfiles F true false line = Some [OParent p; OWrite p false 438 #"secret"].
Proof.
  exists (fs_of [] [] []), #"f /etc/key 0600 ntp ntp - secret", #"/etc/key", #"ntp".
  split; [apply (reading_says #"f /etc/key 0600 ntp ntp -" (Some #"secret")); vm_compute; reflexivity|]. vm_compute. auto.
Qed.
Print Assumptions file_mode_refuted.
(** A device with the minor number 0 is not made. *)
Theorem device_zero_refuted : exists F line p s,
  says line "c" false p (Some 438) #"root" #"root" (Some s) /\ device_number s 5 0 /\ f_stat F p = false /\
  tmpfiles F true false line = Some [].
Proof.
  exists (fs_of [] [] []), #"c /dev/tty 0666 - - - 5:0", #"/dev/tty", #"5:0".
  split; [apply (reading_says #"c /dev/tty 0666 - - -" (Some #"5:0")); vm_compute; reflexivity|].
  split; [|vm_compute; auto]. exists #"5", #"0".
  assert (D : forall c v, 0 <= v <= 9 -> c = ascii_of_N (48 + Z.to_N v) -> digit_is c v) by (intros; split; assumption).
  split; [reflexivity|]. split; [apply dv_one, D; [lia|reflexivity]|]. split; [apply dv_one, D; [lia|reflexivity]|]. lia.
Qed.
Print Assumptions device_zero_refuted.
(** Blanks before the argument, all but the first, become part of it. *)
Theorem blanks_refuted : exists F line ts sep t p,
  laid_out line ts sep (Some t) /\ nth_error ts 0 = Some #"L" /\ nth_error ts 1 = Some p /\
  tmpfiles F true false line = Some [OParent p; OLink (#"  " ++ t) p].
Proof.
  exists (fs_of [] [] []), (#"L     /tmp/foobar -    -    -     -" ++ #"   " ++ #"/dev/null"),
    [#"L"; #"/tmp/foobar"; #"-"; #"-"; #"-"; #"-"], #"   ", #"/dev/null", #"/tmp/foobar".
  split.
  - apply (lo_arg #"L     /tmp/foobar -    -    -     -" _ _ "/" #"dev/null"); try reflexivity.
    + apply (tokens_blank #"L     /tmp/foobar -    -    -     -").
    + exists #"L     /tmp/foobar -    -    -     ", "-"%char. split; [reflexivity|]. intros [X|X]; discriminate.
    + discriminate.
    + repeat constructor.
    + intros [X|X]; discriminate.
    + cbn. intuition discriminate.
  - vm_compute. auto.
Qed.
Print Assumptions blanks_refuted.

(** ** C54: arguments *)

(** What is written is what the text and its escapes mean. *)
Theorem argument_written : forall s out, text s out -> no_89 s -> write_arg s = Some out.
Proof. exact write_text. Qed.
Print Assumptions argument_written.
Theorem argument_means : forall s, ~ dangling s -> exists out, text s out.
Proof. exact text_total. Qed.
Print Assumptions argument_means.
(** a\tb\x41\101\n *)
Example argument_written_ex :
  text #"a\tb\x41\101\n" ["a"; "009"; "b"; "A"; "A"; "010"]%char /\ no_89 #"a\tb\x41\101\n".
Proof.
  split.
  - repeat (first [apply tx_end
      | apply tx_char; [discriminate|]
      | apply tx_letter; [vm_compute; tauto|]
      | apply (tx_hex2 "4" "1" 4 1); [left; split; [lia|reflexivity]|left; split; [lia|reflexivity]|]
      | apply (tx_oct3 "1" "0" "1" 1 0 1); [split; [lia|reflexivity]|split; [lia|reflexivity]|split; [lia|reflexivity]|]]).
  - split.
    + intros a d r E. do 14 (destruct a as [|? a]; [discriminate E || (injection E as <- <-; intros [X|X]; discriminate X)|cbn in E; injection E as _ E]).
      destruct a; discriminate E.
    + intros a h d r E. do 14 (destruct a as [|? a]; [discriminate E || (injection E as <- <- <-; intros [X|X]; discriminate X)|cbn in E; injection E as _ E]).
      destruct a; discriminate E.
Qed.
(** It is read to its end and not further, if and only if it does not end in a
    backslash that escapes nothing. *)
Theorem argument_end : forall s, write_arg s = None <-> dangling s.
Proof. exact write_overrun. Qed.
Print Assumptions argument_end.
(** So such an argument makes the program read behind its end. *)
Theorem argument_overrun_refuted : exists F line, says line "f" false #"/a" None #"root" #"root" (Some #"x\") /\
  tmpfiles F true false line = None.
Proof.
  exists (fs_of [] [] []), #"f /a - - - - x\".
  split; [apply (reading_says #"f /a - - - -" (Some #"x\")); vm_compute; reflexivity|]. vm_compute. reflexivity.
Qed.
Print Assumptions argument_overrun_refuted.
(** \x9f is not one byte *)
Theorem hex_refuted : exists s out, text s [out] /\ write_arg s = Some #"x9f".
Proof.
  exists #"\x9f", (low8 159). split; [|vm_compute; reflexivity].
  apply (tx_hex2 "9" "f" 9 15 [] []); [left; split; [lia|reflexivity]|right; split; [lia|left; reflexivity]|constructor].
Qed.
Print Assumptions hex_refuted.
(** When a 'w' line matches several files only the first is written all of it. *)
Theorem write_many_refuted : exists F line p q1 q2,
  says line "w" false p None #"root" #"root" (Some #"a\nb") /\ f_glob F p = [q1; q2] /\
  tmpfiles F true false line = Some [OWrite q1 false 438 ["a"; "010"; "b"]%char; OWrite q2 false 438 #"a"].
Proof.
  exists (fs_of [] [] [(#"/sys/*", [#"/sys/1"; #"/sys/2"])]), #"w /sys/* - - - - a\nb", #"/sys/*", #"/sys/1", #"/sys/2".
  split; [apply (reading_says #"w /sys/* - - - -" (Some #"a\nb")); vm_compute; reflexivity|]. vm_compute. auto.
Qed.
Print Assumptions write_many_refuted.

(** ** C55: which files are read *)

(** A file is read if and only if none that comes later has its name. *)
Theorem read_last_one : forall files f,
  In f (to_read files) <-> exists a b, files = a ++ f :: b /\
    forall g n, In g b -> base_is f n -> ~ base_is g n.
Proof. exact read_last_one_lem. Qed.
Print Assumptions read_last_one.
(** Of every name one file is read, and only one. *)
Theorem read_every_name : forall files f n, In f files -> base_is f n -> exists g, In g (to_read files) /\ base_is g n.
Proof. exact read_every_name_lem. Qed.
Print Assumptions read_every_name.
Theorem read_once : forall files before f between g after n,
  to_read files = before ++ f :: between ++ g :: after -> base_is f n -> ~ base_is g n.
Proof. exact read_once_lem. Qed.
Print Assumptions read_once.
Example read_ex :
  to_read [#"/usr/lib/tmpfiles.d/a.conf"; #"/usr/lib/tmpfiles.d/b.conf"; #"/run/tmpfiles.d/c.conf"; #"/etc/tmpfiles.d/a.conf"] =
    [#"/usr/lib/tmpfiles.d/b.conf"; #"/run/tmpfiles.d/c.conf"; #"/etc/tmpfiles.d/a.conf"].
Proof. vm_compute. reflexivity. Qed.
