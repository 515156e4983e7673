(** C15, C17, C32: names of signals and stanzas, guards.  Each proof only applies a
    lemma of NameProof. *)
From Coq Require Import List String Ascii NArith ZArith Bool Lia.
From Verif Require Import CStr CondModel ParseSpec NameModel NameSpec NameProof.
Import ListNotations.
Local Open Scope Z_scope.

(** ** C32 *)

(** halt:NAME sets the signal of that name, and leaves the setting alone if there
    is none. *)
Theorem halt_signal : forall old arg n, parse_sighalt old arg = n <->
  names_signal (posix_signals ++ other_names) arg n \/
  n = old /\ forall m, ~ names_signal (posix_signals ++ other_names) arg m.
Proof. exact sighalt_lem. Qed.
Print Assumptions halt_signal.
(** initctl signal NAME SIG: a name, else a number from 1 to 31. *)
Theorem initctl_signal : forall s n, initctl_signo s = Some n <->
  names_signal posix_signals s n \/ (forall m, ~ names_signal posix_signals s m) /\ number s n /\ 1 <= n <= 31.
Proof. exact initctl_signo_lem. Qed.
Print Assumptions initctl_signal.
(** finit itself accepts exactly these numbers. *)
Theorem api_signal : forall n, api_signal_ok n = true <-> 1 <= n <= 31.
Proof. exact api_signal_lem. Qed.
Print Assumptions api_signal.
(** From number to name and back, with both tables. *)
Theorem signal_roundtrip : forall n, 1 <= n <= 31 -> sig_num (sig_name n) = n /\ str2sig (sig2str n) = n.
Proof. exact sig_roundtrip_lem. Qed.
Print Assumptions signal_roundtrip.
Example signal_ex : parse_sighalt 15 #"sigusr1" = 10 /\ parse_sighalt 15 #"Quit" = 3 /\ parse_sighalt 15 #"SIG" = 15 /\
  initctl_signo #"hup" = Some 1 /\ initctl_signo #"9" = Some 9 /\ initctl_signo #"32" = None.
Proof. vm_compute. repeat split. Qed.
(** The two tables do not agree: halt:SIGPOLL is understood, initctl signal POLL is
    not; signal 29 has a different name in each. *)
Theorem signal_tables_refuted : exists s n, parse_sighalt 15 s = n /\ n <> 15 /\ initctl_signo s = None /\
  sig_name n <> #"SIG" ++ sig2str n.
Proof. exists #"SIGPOLL", 29. split; [reflexivity|]. split; [lia|]. split; [reflexivity|discriminate]. Qed.
Print Assumptions signal_tables_refuted.

(** ** C15 *)

(** A request acts on its words one after the other, each on the stanzas it stands
    for, in the order they were registered; a word that stands for none acts on
    none.  The request is filled up with NUL bytes. *)
Theorem job_request : forall l text tws n, distinct l -> tokens white text (map snd tws) -> ~ In "000"%char text ->
  Forall (fun tw => written (fst tw) (snd tw) /\ fits (fst tw) /\ exists c, In c (snd tw) /\ letter c) tws ->
  parse_jobstr l (text ++ repeat "000"%char n) = List.concat (map (word_acts l) tws).
Proof. exact jobstr_lem. Qed.
Print Assumptions job_request.
(** initctl status and its like look at the first of them. *)
Theorem job_find : forall l w t n, distinct l -> written t w -> fits t -> (exists c, In c w /\ letter c) -> ~ In "000"%char w ->
  do_find l (w ++ repeat "000"%char n) = hd_error (chosen t l).
Proof. exact find_lem. Qed.
Print Assumptions job_find.
(** However stanzas come and go, no two have the same name and id, and two have the
    same job number exactly when they run the same program. *)
Theorem job_distinct : forall c l, registered (c, l) -> distinct l.
Proof. exact distinct_lem. Qed.
Print Assumptions job_distinct.
Theorem job_numbers : forall c l r r', registered (c, l) -> In r l -> In r' l -> v_job r = v_job r' <-> v_cmd r = v_cmd r'.
Proof. exact jobs_lem. Qed.
Print Assumptions job_numbers.

(** getty on two lines, sshd, and a program whose name starts with a digit *)
Definition ex_reg : Z * list rec :=
  svc_new #"/bin/3proxy" #"3proxy" [] (svc_new #"/bin/sshd" #"sshd" [] (svc_new #"/bin/getty" #"getty" #"2" (svc_new #"/bin/getty" #"getty" #"1" (1, [])))).
Example job_ex : registered ex_reg /\
  parse_jobstr (snd ex_reg) (#"getty  2 getty:2 ssh 1:1" ++ repeat "000"%char 5) =
    [Hit (mkRec #"getty" #"1" #"/bin/getty" 1); Hit (mkRec #"getty" #"2" #"/bin/getty" 1); Hit (mkRec #"sshd" [] #"/bin/sshd" 2);
     Hit (mkRec #"getty" #"2" #"/bin/getty" 1); Miss #"ssh"; Hit (mkRec #"getty" #"1" #"/bin/getty" 1)] /\
  written (TNameId #"getty" #"2") #"getty:2" /\ written (TJobId 1 #"1") #"1:1".
Proof.
  split; [repeat (apply rg_new; [|reflexivity]); apply rg_none|]. split; [vm_compute; reflexivity|]. split.
  - split; [reflexivity|]. split; [intros H; cbn in H; repeat (destruct H as [H|H]; [discriminate H|]); exact H|].
    exists "g"%char, #"etty". split; [reflexivity|]. intros (v & H1 & H2). apply (f_equal code) in H2. rewrite CStrLib.code_of in H2 by lia.
    change (code "g") with 103%N in H2. lia.
  - exists #"1". split; [apply (dv_one "1"%char 1); split; [lia|reflexivity]|reflexivity].
Qed.
(** A stanza whose name starts with a digit cannot be addressed by name: stopping
    3proxy acts on job number 3 instead, whatever that is. *)
Theorem job_digit_refuted : exists c l r r', registered (c, l) /\ In r l /\ In r' l /\ v_name r = #"3proxy" /\ v_name r' = #"ntpd" /\
  parse_jobstr l (#"3proxy" ++ ["000"%char]) = [Hit r'].
Proof.
  set (x := svc_new #"/bin/ntpd" #"ntpd" [] (svc_new #"/bin/sshd" #"sshd" [] (svc_new #"/bin/3proxy" #"3proxy" [] (1, [])))).
  exists (fst x), (snd x), (mkRec #"3proxy" [] #"/bin/3proxy" 1), (mkRec #"ntpd" [] #"/bin/ntpd" 3).
  split; [|split; [left; reflexivity|split; [right; right; left; reflexivity|split; [reflexivity|split; [reflexivity|vm_compute; reflexivity]]]]].
  rewrite <- surjective_pairing. repeat (apply rg_new; [|reflexivity]). apply rg_none.
Qed.
Print Assumptions job_digit_refuted.
(** Job numbers that do not fit an int wrap around, and those that do not fit a long
    make finit loop for ever. *)
Theorem job_overflow_refuted : exists c l r, registered (c, l) /\
  parse_jobstr l (#"4294967297" ++ ["000"%char]) = [Hit r] /\ v_job r = 1 /\
  parse_jobstr l (#"9223372036854775808 sshd" ++ ["000"%char]) = [Hang].
Proof.
  set (x := svc_new #"/bin/sshd" #"sshd" [] (1, [])).
  exists (fst x), (snd x), (mkRec #"sshd" [] #"/bin/sshd" 1). split; [|split; [vm_compute; reflexivity|split; [reflexivity|vm_compute; reflexivity]]].
  rewrite <- surjective_pairing. repeat (apply rg_new; [|reflexivity]). apply rg_none.
Qed.
Print Assumptions job_overflow_refuted.
(** JOB:ID does not always tell two stanzas apart: with one program under two
    names, only the first is reached. *)
Theorem job_shared_refuted : exists c l r r', registered (c, l) /\ In r l /\ In r' l /\ v_name r <> v_name r' /\
  v_job r = v_job r' /\ v_id r = v_id r' /\ parse_jobstr l (#"1:7" ++ ["000"%char]) = [Hit r].
Proof.
  set (x := svc_new #"/bin/x" #"b" #"7" (svc_new #"/bin/x" #"a" #"7" (1, []))).
  exists (fst x), (snd x), (mkRec #"a" #"7" #"/bin/x" 1), (mkRec #"b" #"7" #"/bin/x" 1).
  split; [|split; [left; reflexivity|split; [right; left; reflexivity|split; [discriminate|split; [reflexivity|split; [reflexivity|vm_compute; reflexivity]]]]]].
  rewrite <- surjective_pairing. repeat (apply rg_new; [|reflexivity]). apply rg_none.
Qed.
Print Assumptions job_shared_refuted.

(** ** C17 *)

(** if:<a,!b>, looked at whenever the stanza may start: every plain condition must
    not be off, every negated one not be on. *)
Theorem if_conditions : forall get l body rest ts, ~ In ">"%char body -> (List.length body < 130)%nat ->
  rest = [] \/ (exists r, rest = ">"%char :: r) -> tokens (eq ","%char) body ts ->
  ifthen false get l ("<"%char :: body ++ rest) = true <-> Forall (admits (fun n => get n <> COff) (fun n => get n <> COn)) ts.
Proof. exact if_cond_lem. Qed.
Print Assumptions if_conditions.
(** if:a,!b, looked at when the configuration is read: every plain name must be
    registered, every negated one must not. *)
Theorem if_names : forall get l stmt ts, (forall r, In r l -> ~ In ":"%char (v_name r)) ->
  (forall r, stmt <> "<"%char :: r) -> (List.length stmt < 130)%nat -> tokens (eq ","%char) stmt ts ->
  ifthen true get l stmt = true <-> Forall (admits (present l) (fun n => ~ present l n)) ts.
Proof. exact if_conf_lem. Qed.
Print Assumptions if_names.
(** Each kind of guard lets the stanza pass at the other time. *)
Theorem if_other_time : forall get l stmt, ifthen (match stmt with "<"%char :: _ => true | _ => false end) get l stmt = true.
Proof. exact if_other_lem. Qed.
Print Assumptions if_other_time.
Example if_ex : ifthen false (fun n => if str_eqb n #"pid/a" then COn else COff) [] #"<pid/a,!pid/b>" = true /\
  ifthen false (fun n => if str_eqb n #"pid/a" then COn else COff) [] #"<!pid/a>" = false /\
  ifthen true (fun _ => COff) (snd ex_reg) #"sshd,!getty:3" = true /\ ifthen true (fun _ => COff) (snd ex_reg) #"!getty:1" = false.
Proof. vm_compute. repeat split. Qed.
(** A guard of 130 characters or more is cut short: its last name is not looked at. *)
Theorem if_long_refuted : exists get body, ~ In ">"%char body /\ tokens (eq ","%char) body [repeat "a"%char 130; #"b"] /\
  get #"b" = COff /\ ifthen false get [] ("<"%char :: body ++ #">") = true.
Proof.
  exists (fun n => if str_eqb n #"b" then COff else COn), (repeat "a"%char 130 ++ #",b"). split.
  - intros H. apply in_app_or in H. destruct H as [H|H]; [apply repeat_spec in H; discriminate H|].
    cbn in H. repeat (destruct H as [H|H]; [discriminate H|]). exact H.
  - split; [|split; vm_compute; reflexivity].
    apply (tok_more (eq ","%char) [] (repeat "a"%char 130) ","%char #"b" [#"b"]).
    + constructor.
    + discriminate.
    + apply Forall_forall. intros c Hc. apply repeat_spec in Hc. subst. discriminate.
    + reflexivity.
    + apply (tok_last (eq ","%char) [] #"b"); [constructor|discriminate|constructor; [discriminate|constructor]].
Qed.
Print Assumptions if_long_refuted.
