(** C58, C59: where the output of a service goes, and syslog priorities. *)
From Coq Require Import List String Ascii NArith ZArith Bool Lia.
From Verif Require Import CStr LogModel LogSpec LogProof.
Import ListNotations.
Local Open Scope Z_scope.

(** ** C58: the log option *)

(** The output of a new stanza goes where its log option says, with the tag and
    priority it names or the defaults: with sysklogd's logger ... *)
Theorem log_goes : forall l text name redir console pid size count d,
  log_text l text -> Forall fits l -> meant name l d ->
  (List.length pid < 16)%nat -> (List.length size + List.length count < 24)%nat ->
  exists c, reg_log log_new (Some text) = Parsed c /\
    redirect redir console Sysklogd false name pid size count c = by_logger console pid size count d.
Proof. exact log_goes_lem. Qed.
Print Assumptions log_goes.

(** ... and with finit's logit, which is given the number of files to keep in two
    digits. *)
Theorem log_goes_logit : forall l text name redir console systemd pid size count d,
  log_text l text -> Forall fits l -> meant name l d ->
  (List.length size < 20)%nat -> (List.length count < 3)%nat ->
  exists c, reg_log log_new (Some text) = Parsed c /\
    redirect redir console Logit systemd name pid size count c = by_logit console size count d.
Proof. exact log_goes_logit_lem. Qed.
Print Assumptions log_goes_logit.

Example log_goes_ex :
  let l := [LFile #"/var/log/foo.log"; LPrio #"local1.err"; LTag #"foo"; LPrio #"user.warn"] in
  log_text l #"log:/var/log/foo.log,prio:local1.err,tag:foo,priority=user.warn" /\ Forall fits l /\
  meant #"food:1" l (DFile #"/var/log/foo.log" #"foo" #"user.warn") /\
  exists c, reg_log log_new (Some #"log:/var/log/foo.log,prio:local1.err,tag:foo,priority=user.warn") = Parsed c /\
    redirect false #"/dev/console" Sysklogd false #"food:1" #"123" #"200000" #"5" c =
      Exec [#"logger"; #"-f"; #"/var/log/foo.log"; #"-b"; #"-t"; #"foo"; #"-p"; #"user.warn"; #"-I"; #"123"; #"-r"; #"200000:5"].
Proof.
  intros l. split.
  - apply (lt_items l #"/var/log/foo.log,prio:local1.err,tag:foo,priority=user.warn").
    apply (it_more _ #"/var/log/foo.log"). { apply sp_file; [|discriminate|discriminate]. intros c M. cbn in *. intuition (subst; discriminate). }
    apply (it_more _ #"prio:local1.err"). { apply (sp_prio #"prio" ":"%char #"local1.err"); [cbn; tauto|cbn; tauto|discriminate|cbn; intuition discriminate]. }
    apply (it_more _ #"tag:foo"). { apply (sp_tag #"tag" ":"%char #"foo"); [cbn; tauto|cbn; tauto|discriminate|cbn; intuition discriminate]. }
    apply it_one. apply (sp_prio #"priority" "="%char #"user.warn"); [cbn; tauto|cbn; tauto|discriminate|cbn; intuition discriminate].
  - split; [repeat constructor|]. split; [exact (dest_meant #"food:1" l)|]. eexists. split; vm_compute; reflexivity.
Qed.
Example log_null_ex :
  exists c, reg_log log_new (Some #"log:console,tag:x,null") = Parsed c /\
    meant #"a" [LConsole; LTag #"x"; LNull] DNull /\ redirect true #"/dev/tty1" Logit true #"a" #"1" #"2" #"3" c = Open #"/dev/null".
Proof. eexists. split; [vm_compute; reflexivity|]. split; [exact (dest_meant #"a" [LConsole; LTag #"x"; LNull])|reflexivity]. Qed.

(** Without the option nothing is logged, whatever was said before. *)
Theorem log_off : forall c redir console t systemd name pid size count,
  exists c', reg_log c None = Parsed c' /\
    redirect redir console t systemd name pid size count c' = if redir then Open #"/dev/null" else Keep.
Proof. intros. eexists. split; reflexivity. Qed.
Print Assumptions log_off.

(** The option is always read to its end. *)
Theorem log_terminates : forall c log, reg_log c log <> NoFuel.
Proof. exact reg_log_fuel. Qed.
Print Assumptions log_terminates.

(** What was said before an edit of the stanza stays: log:null first, then a
    file; the output still goes to /dev/null. *)
Theorem log_edit_refuted : exists t1 t2 l2 c1 c2, log_text l2 t2 /\ Forall fits l2 /\
  reg_log log_new (Some t1) = Parsed c1 /\ reg_log c1 (Some t2) = Parsed c2 /\
  meant #"foo" l2 (DFile #"/var/log/foo" #"foo" #"daemon.info") /\
  redirect false #"/dev/console" Sysklogd false #"foo" #"1" #"2" #"3" c2 = Open #"/dev/null".
Proof.
  exists #"log:null", #"log:/var/log/foo", [LFile #"/var/log/foo"]. do 2 eexists. split.
  - apply (lt_items _ #"/var/log/foo"), it_one, sp_file; [|discriminate|discriminate]. intros c M. cbn in *. intuition (subst; discriminate).
  - split; [repeat constructor|]. split; [vm_compute; reflexivity|]. split; [vm_compute; reflexivity|].
    split; [exact (dest_meant #"foo" [LFile #"/var/log/foo"])|vm_compute; reflexivity].
Qed.
Print Assumptions log_edit_refuted.

(** An option without its value: process 1 reads through a null pointer. *)
Theorem log_null_refuted : exists t1 t2, t1 = #"log:prio" /\ t2 = #"log:/var/log/foo,tag:" /\
  reg_log log_new (Some t1) = NullPtr /\ reg_log log_new (Some t2) = NullPtr.
Proof. exists #"log:prio", #"log:/var/log/foo,tag:". repeat split; vm_compute; reflexivity. Qed.
Print Assumptions log_null_refuted.

(** A file with one of ":=" in its name, or a name of 64 characters or more: the
    output goes to another file. *)
Theorem log_file_refuted : exists t1 t2 c1 c2, t1 = #"log:/var/log/a=b" /\ List.length t2 = 68%nat /\ ~ In ","%char t2 /\
  reg_log log_new (Some t1) = Parsed c1 /\ l_file c1 = #"/var/log/a" /\
  reg_log log_new (Some t2) = Parsed c2 /\ t2 = #"log:" ++ l_file c2 ++ #"b".
Proof.
  exists #"log:/var/log/a=b", #"log:/23456789a123456789a123456789a123456789a123456789a123456789a123b". do 2 eexists.
  split; [reflexivity|]. split; [reflexivity|]. split; [cbn; intuition discriminate|].
  split; [vm_compute; reflexivity|]. split; [reflexivity|]. split; vm_compute; reflexivity.
Qed.
Print Assumptions log_file_refuted.

(** A hundred files are to be kept: logit is told ten.  Without a program for it
    a log file is not written at all. *)
Theorem log_tool_refuted : exists c, reg_log log_new (Some #"log:/var/log/foo") = Parsed c /\
  redirect false #"/dev/console" Logit false #"foo" #"1" #"200000" #"100" c =
    Exec [#"logit"; #"-f"; #"/var/log/foo"; #"-n"; #"200000"; #"-r"; #"10"] /\
  redirect false #"/dev/console" NoTool false #"foo" #"1" #"200000" #"5" c = Syslog #"foo" #"daemon.info".
Proof. eexists. split; [vm_compute; reflexivity|]. split; vm_compute; reflexivity. Qed.
Print Assumptions log_tool_refuted.

(** ** C59: priorities and messages *)

(** logit takes FACILITY.LEVEL and LEVEL, by the names of syslog, and nothing
    else. *)
Theorem prio_exact : forall fac lvl arg r, parse_prio arg fac lvl = Some r <-> names_prio fac arg r.
Proof. exact prio_exact_lem. Qed.
Print Assumptions prio_exact.

Example prio_exact_ex : names_prio 8 #"local1.warning" (136, 4) /\ names_prio 8 #"err" (8, 3) /\ parse_prio #"local1.warning" 8 6 = Some (136, 4).
Proof.
  split; [apply (np_pair 8 #"local1" 136 #"warning" 4); cbn; tauto|]. split; [apply np_level; cbn; tauto|vm_compute; reflexivity].
Qed.

(** A number, which its help text allows, is refused. *)
Theorem prio_number_refuted : exists n, n = #"14" /\ forall fac lvl, parse_prio n fac lvl = None.
Proof. exists #"14". split; [reflexivity|]. intros. vm_compute. reflexivity. Qed.
Print Assumptions prio_number_refuted.

(** A message that starts with a level in angle brackets is logged with that
    level, in the facility of the others, without it ... *)
Theorem level_prefix : forall stale c d r f l, level_digit c d -> 0 <= f -> 0 <= l <= 7 ->
  parse_level stale ("<"%char :: c :: ">"%char :: r) (8 * f + l) = (8 * f + d, r).
Proof. exact level_prefix_lem. Qed.
Print Assumptions level_prefix.

(** ... every other message as it is, whatever the buffer held before. *)
Theorem level_other : forall stale msg deflt, (forall c d r, level_digit c d -> msg <> "<"%char :: c :: ">"%char :: r) ->
  parse_level stale msg deflt = (deflt, msg).
Proof. exact level_other_lem. Qed.
Print Assumptions level_other.

Example level_ex : level_digit "3" 3 /\ parse_level (fun _ => ">"%char) #"<3>disk full" (8 * 3 + 6) = (8 * 3 + 3, #"disk full") /\
  parse_level (fun _ => ">"%char) #"<" 30 = (30, #"<") /\ parse_level (fun _ => ">"%char) #"<8>x" 30 = (30, #"<8>x").
Proof. split; [split; [lia|reflexivity]|]. repeat split; vm_compute; reflexivity. Qed.

(** finit itself, when there is no other program: a pair of names is understood,
    but for three names. *)
Theorem fallback_pair : forall f fv l lv fac lvl, In (f, fv) fac_names -> In (l, lv) pri_names ->
  f <> #"authpriv" -> f <> #"mark" -> l <> #"none" -> log_parse (f ++ "."%char :: l) fac lvl = Some (fv, lv).
Proof. exact log_parse_pair_lem. Qed.
Print Assumptions fallback_pair.

Example fallback_pair_ex : In (#"daemon", 24) fac_names /\ In (#"info", 6) pri_names /\ log_parse #"daemon.info" 24 5 = Some (24, 6).
Proof. split; [cbn; tauto|]. split; [cbn; tauto|vm_compute; reflexivity]. Qed.

(** authpriv is taken for auth; with a level alone the facility becomes -1, with a
    facility alone the level. *)
Theorem fallback_refuted : exists p1 p2 p3, p1 = #"authpriv.info" /\ p2 = #"info" /\ p3 = #"daemon" /\
  In (#"authpriv", 80) fac_names /\ log_parse p1 24 5 = Some (32, 6) /\
  log_parse p2 24 5 = Some (-1, 6) /\ log_parse p3 24 5 = Some (24, -1).
Proof. exists #"authpriv.info", #"info", #"daemon". repeat (split; [reflexivity|]). split; [cbn; tauto|]. repeat split; vm_compute; reflexivity. Qed.
Print Assumptions fallback_refuted.

(** The words of a message on the command line are logged, each with a blank
    behind it, if they fit in the buffer ... *)
Theorem message_whole : forall args, Z.of_nat (List.length (flat_map (fun a => a ++ #" ") args)) < 512 ->
  logit_message args = Some (flat_map (fun a => a ++ #" ") args).
Proof. exact message_ok_lem. Qed.
Print Assumptions message_whole.

Example message_whole_ex : logit_message [#"disk"; #"full"] = Some #"disk full ".
Proof. vm_compute. reflexivity. Qed.

(** ... a word after those that do not is written outside of it. *)
Theorem message_overrun_refuted : exists args, List.length args = 2%nat /\ logit_message args = None.
Proof. exists [repeat "x"%char 600; #"y"]. split; [reflexivity|vm_compute; reflexivity]. Qed.
Print Assumptions message_overrun_refuted.
