(** C67: login records. *)
From Coq Require Import List String Ascii NArith ZArith Bool Lia.
From Verif Require Import CStr CStrLib UtmModel UtmSpec UtmProof.
Import ListNotations.
Local Open Scope Z_scope.

(** After any history utmp has one record of each line used, which tells what
    happened there last, whatever happened on other lines. *)
Theorem utmp_lines : forall pre e post L t p u, apart (pre ++ e :: post) -> about L e t p u -> Forall (silent L) post ->
  exists r, In r (utmp (run (pre ++ e :: post))) /\ u_type r = t /\ u_pid r = p /\ u_line r = L /\ u_user r = u /\
    forall r', In r' (utmp (run (pre ++ e :: post))) -> is_proc (u_type r') = true -> u_line r' = L -> r' = r.
Proof. exact line_ok. Qed.
(** It has one record of the runlevel, which tells the last change. *)
Theorem utmp_runlevel : forall pre a b post, names_ok (pre ++ ELevel a b :: post) -> level a -> level b -> Forall (fun e => ~ about_level e) post ->
  exists r, In r (utmp (run (pre ++ ELevel a b :: post))) /\ u_type r = RunLvl /\ digit a (u_pid r / 256) /\ digit b (u_pid r mod 256) /\
    forall r', In r' (utmp (run (pre ++ ELevel a b :: post))) -> u_type r' = RunLvl -> r' = r.
Proof. exact level_ok. Qed.
(** wtmp gets a record of each event, and nothing in it is changed. *)
Theorem wtmp_log : forall es post, exists more, wtmp (run (es ++ post)) = wtmp (run es) ++ more /\ List.length more = List.length post.
Proof. exact wtmp_ok. Qed.

(** Claim that is false: each line has a record.  The names of serial ports are
    the same in the first four characters: there is one record for all. *)
Theorem utmp_serial_refuted : exists es p, In (EPrompt #"/dev/ttyS0" p) es /\ Forall (fun e => ~ exists q, e = EGone q) es /\
  forall r, In r (utmp (run es)) -> u_line r <> #"ttyS0" /\ u_pid r <> p.
Proof.
  exists [EStart #"/dev/ttyS0" 100; EPrompt #"/dev/ttyS0" 100; EStart #"/dev/ttyS1" 101; EPrompt #"/dev/ttyS1" 101], 100.
  split; [cbn; tauto|]. split; [repeat constructor; intros [q H]; discriminate|].
  assert (E : utmp (run [EStart #"/dev/ttyS0" 100; EPrompt #"/dev/ttyS0" 100; EStart #"/dev/ttyS1" 101; EPrompt #"/dev/ttyS1" 101]) =
    [{| u_type := LoginProc; u_pid := 101; u_line := #"ttyS1"; u_id := #"ttyS"; u_user := #"LOGIN" |}]) by reflexivity.
  rewrite E. intros r [<-|[]]. split; discriminate.
Qed.
(** Claim that is false: no one is shown on a line after the session has ended.
    The end of a process changes nothing in utmp... *)
Theorem utmp_gone_refuted : (forall f p, utmp (step f (EGone p)) = utmp f) /\
  exists r, In r (utmp (run [EStart #"/dev/tty1" 100; EPrompt #"tty1" 100; ELogin #"tty1" #"root" 100; EGone 100])) /\ u_type r = UserProc /\ u_user r = #"root".
Proof.
  split; [reflexivity|]. exists {| u_type := UserProc; u_pid := 100; u_line := #"tty1"; u_id := #"tty1"; u_user := #"root" |}.
  split; [left; reflexivity|split; reflexivity].
Qed.
(** ...and the record of it in wtmp does not tell the line. *)
Theorem wtmp_gone_refuted : forall f p, exists r, wtmp (step f (EGone p)) = wtmp f ++ [r] /\ u_pid r = p /\ u_line r = [] /\ u_id r = [].
Proof. intros f p. eexists. split; [reflexivity|]. repeat split. Qed.

(** Two consoles and a pseudo terminal; finit names the device by its path, getty
    by its name. *)
Definition day : list event := [EBoot; ELevel 10 2; EStart #"/dev/tty1" 100; EStart #"/dev/tty2" 101; EPrompt #"tty2" 101; EPrompt #"tty1" 100].
Lemma day_about e t p u L n : In e (day ++ [ELogin #"tty1" #"root" 100]) -> about L e t p u -> ident L n -> (L = #"tty1" \/ L = #"tty2") /\ n = L /\ (List.length u <= 32)%nat.
Proof.
  intros I A J.
  assert (K : forall d M, line_of d L -> (if starts #"/dev/" d then skipn 5 d else d) = M -> L = M) by (intros d M X <-; symmetry; apply line_strip; exact X).
  assert (R : (L = #"tty1" \/ L = #"tty2") /\ (List.length u <= 32)%nat).
  { cbn [day app In] in I.
    repeat (destruct I as [<-|I]; [inversion A; subst; (split; [first [left; apply (K _ _ ltac:(eassumption)); reflexivity | right; apply (K _ _ ltac:(eassumption)); reflexivity]|cbn; lia])|]). destruct I. }
  destruct R as [R U]. split; [exact R|]. split; [|exact U]. rewrite <- (ident_strip L n J). destruct R as [->| ->]; reflexivity.
Qed.
Example utmp_lines_ex : exists r, In r (utmp (run (day ++ [ELogin #"tty1" #"root" 100]))) /\ u_type r = UserProc /\ u_line r = #"tty1" /\ u_user r = #"root".
Proof.
  destruct (utmp_lines day (ELogin #"tty1" #"root" 100) [] #"tty1" UserProc 100 #"root") as (r & A & B & _ & C & D & _).
  - intros e t p u L n I X J. destruct (day_about e t p u L n I X J) as (Q & -> & U).
    split; [destruct Q as [->| ->]; discriminate|]. split; [destruct Q as [->| ->]; cbn; lia|]. split; [exact U|].
    intros e' t' p' u' L' n' I' X' J' E. destruct (day_about e' t' p' u' L' n' I' X' J') as (Q' & -> & _).
    destruct Q as [->| ->], Q' as [->| ->]; try reflexivity; discriminate E.
  - constructor. apply lo_name. intros r; discriminate.
  - constructor.
  - exists r. repeat split; assumption.
Qed.
Example utmp_runlevel_ex : map (fun r => (u_pid r / 256, u_pid r mod 256)) (filter (fun r => type_eqb (u_type r) RunLvl) (utmp (run (day ++ [ELevel 2 6])))) = [(50, 54)].
Proof. reflexivity. Qed.
Example wtmp_log_ex : List.length (wtmp (run day)) = 6%nat.
Proof. reflexivity. Qed.

Print Assumptions utmp_lines.
Print Assumptions utmp_runlevel.
Print Assumptions wtmp_log.
Print Assumptions utmp_serial_refuted.
Print Assumptions utmp_gone_refuted.
Print Assumptions wtmp_gone_refuted.
