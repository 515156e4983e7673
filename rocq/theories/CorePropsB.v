(** Theorems about requests, runlevel changes, the final action and the end of
    processes.  Each proof only applies a lemma of the Core*Proof files. *)
From Coq Require Import List String Ascii ZArith NArith Bool Lia Arith.
From Verif Require Import CondModel CoreTypes CoreModel CoreMicro CoreCalm CoreSpec CoreProof CoreProofD CoreReap CoreEx CoreReapB CoreProps.
Import ListNotations.
Local Open Scope Z_scope.

(** ** C21 *)

(** The runlevel changes only to the level asked for last, one of 0 to 9, and
    only when it differs from the current one. *)
Theorem runlevel_change : forall n evs cfgl cmdl w c old new older, tame evs ->
  history n evs cfgl cmdl w -> happened w c (ERunlevel old new) older ->
  0 <= new <= 9 /\ old <> new /\ old = level_of older /\ exists c1 l1, latest is_ask older c1 (EAsk new) l1.
Proof. exact change_lem. Qed.
Print Assumptions runlevel_change.

(** A level is asked for only by a request for it, or at the end of booting. *)
Theorem runlevel_asked : forall n evs cfgl cmdl e c l older, tame evs ->
  during n evs cfgl cmdl e c (EAsk l) older -> wanted_level e c l.
Proof. exact ask_by_lem. Qed.
Print Assumptions runlevel_asked.

Example runlevel_change_ex : tame ex_evs /\ exists w c x older,
  history 60 ex_evs 2 0 w /\ happened w c x older /\
  match x with ERunlevel 2 6 => found (fun _ x _ => match x with EAsk 6 => true | _ => false end) older | _ => false end = true.
Proof.
  split; [exact ex_tame|].
  apply (result_happened 60 ex_evs 2 0 (fun c x older => match x with
    ERunlevel 2 6 => found (fun _ x _ => match x with EAsk 6 => true | _ => false end) older | _ => false end)).
  vm_compute. reflexivity.
Qed.

(** ** C22 *)

(** In runlevels S, 0 and 6 the requests change nothing. *)
Theorem request_refused : forall n evs cfgl cmdl w m e, history n evs cfgl cmdl w ->
  closed_level (level_of (wl w)) -> guarded e -> on_event m e w = Some (tt, w).
Proof. exact refused_lem. Qed.
Print Assumptions request_refused.

(** A request for a runlevel is ignored in runlevels 0 and 6, and one for a
    level that does not exist always. *)
Theorem runlevel_refused : forall n evs cfgl cmdl w m l, history n evs cfgl cmdl w ->
  level_of (wl w) = 0 \/ level_of (wl w) = 6 \/ ~ 0 <= l <= 9 ->
  on_event m (EvRunlevel l) w = Some (tt, w).
Proof. exact runlevel_refused_lem. Qed.
Print Assumptions runlevel_refused.

(** While booting it is only kept for later, with the final action it implies. *)
Theorem runlevel_while_booting : forall n evs cfgl cmdl w m l, history n evs cfgl cmdl w -> ~ over w ->
  level_of (wl w) = 10 -> 0 <= l <= 9 ->
  exists w', on_event m (EvRunlevel l) w = Some (tt, w') /\
    match final_action (EvRunlevel l) with
    | None => w' = mkWorld (set_k_cfgl l (wc w)) (wl w)
    | Some s => w' = mkWorld (set_k_cfgl l (set_k_halt s (wc w))) ((wc w, EHalt s) :: wl w)
    end.
Proof. exact runlevel_boot_lem. Qed.
Print Assumptions runlevel_while_booting.

Definition ex_going : list ev := ex_up ++ ex_crash ++ ex_user ++ [EvSigTerm].
Lemma request_refused_ex : exists w, history 60 ex_going 2 0 w /\
  closed_level (level_of (wl w)) /\ ~ over w /\ guarded (EvStop 1) /\
  (exists s, In s (k_svcs (wc w)) /\ s_state s = Stopping).
Proof.
  destruct (result_history 60 ex_going 2 0 (fun w => (level_of (wl w) =? 6) &&
     negb (found (fun _ x _ => match x with EShutdown _ => true | _ => false end) (wl w)) &&
     existsb (fun s => match s_state s with Stopping => true | _ => false end) (k_svcs (wc w)))) as (w & A & B);
    [vm_compute; reflexivity|].
  apply andb_prop in B. destruct B as [B B3]. apply andb_prop in B. destruct B as [B1 B2].
  exists w. split; [exact A|]. split; [right; right; lia|]. split; [|split; [exact I|]].
  - intros (c & s & H). apply negb_true_iff in B2. clear - H B2. revert H B2. induction (wl w) as [|[c1 x] l IH]; [intros []|].
    cbn [found In]. intros [E|E] F; apply orb_false_iff in F; destruct F as [F1 F2].
    + inversion E; subst. discriminate F1.
    + exact (IH E F2).
  - apply existsb_exists in B3. destruct B3 as (s & Hs & Hst). exists s. split; [exact Hs|].
    destruct (s_state s); try discriminate Hst. reflexivity.
Qed.

(** ** C23 *)

(** SIGHUP is `initctl reload', SIGUSR2 `initctl poweroff' and SIGTERM `initctl
    reboot', in every state; request_refused says when they are ignored. *)
Theorem signal_requests : forall m w,
  on_event m EvSigHup w = on_event m EvReloadAll w /\
  on_event m EvSigUsr2 w = on_event m (EvDown ShutOff false) w /\
  on_event m EvSigTerm w = on_event m (EvDown ShutReboot false) w.
Proof. exact signals_lem. Qed.
Print Assumptions signal_requests.

(** ** C24 *)

(** The final action is the one decided last (halt if there was none). *)
Theorem final_action_latest : forall n evs cfgl cmdl w c s older, history n evs cfgl cmdl w ->
  happened w c (EShutdown s) older ->
  (exists c1 l1, latest is_halt older c1 (EHalt s) l1) \/ (s = ShutHalt /\ forall c1 s1, ~ In (c1, EHalt s1) older).
Proof. exact shutdown_lem. Qed.
Print Assumptions final_action_latest.

(** It is decided only by a request for it. *)
Theorem final_action_requested : forall n evs cfgl cmdl e c s older,
  during n evs cfgl cmdl e c (EHalt s) older -> final_action e = Some s.
Proof. exact halt_by_lem. Qed.
Print Assumptions final_action_requested.

(** Every such request outside runlevels S, 0 and 6 decides it, and asks for
    runlevel 6 to reboot and for runlevel 0 otherwise. *)
Theorem final_action_heard : forall n evs cfgl cmdl w m e s w', history n evs cfgl cmdl w -> ~ over w ->
  ~ closed_level (level_of (wl w)) -> final_action e = Some s -> on_event m e w = Some (tt, w') ->
  exists newer c mid, wl w' = newer ++ (c, EAsk (match s with ShutReboot => 6 | _ => 0 end)) :: mid ++ (wc w, EHalt s) :: wl w.
Proof. exact heard_lem. Qed.
Print Assumptions final_action_heard.

(** Every request for a runlevel outside runlevels S, 0 and 6 asks for it. *)
Theorem runlevel_heard : forall n evs cfgl cmdl w m l w', history n evs cfgl cmdl w -> ~ over w ->
  ~ closed_level (level_of (wl w)) -> 0 <= l <= 9 -> on_event m (EvRunlevel l) w = Some (tt, w') ->
  exists newer c mid, wl w' = newer ++ (c, EAsk l) :: mid ++ wl w.
Proof. exact level_heard_lem. Qed.
Print Assumptions runlevel_heard.

Example final_action_ex : exists w c x older,
  history 60 ex_evs 2 0 w /\ happened w c x older /\
  match x with EShutdown ShutReboot => found (fun _ x _ => match x with EHalt ShutReboot => true | _ => false end) older | _ => false end = true.
Proof.
  apply (result_happened 60 ex_evs 2 0 (fun c x older => match x with
    EShutdown ShutReboot => found (fun _ x _ => match x with EHalt ShutReboot => true | _ => false end) older | _ => false end)).
  vm_compute. reflexivity.
Qed.

(** ** C25 *)

(** In every other runlevel logins are enabled; after a change from an
    unrestricted to a restricted runlevel they are disabled. *)
Theorem nologin_partial : forall n evs cfgl cmdl w, tame evs -> history n evs cfgl cmdl w ->
  (no_logins (level_of (wl w)) = false -> k_nologin (wc w) = false) /\
  (forall c old new older, latest is_change (wl w) c (ERunlevel old new) older ->
     no_logins new = true -> no_logins old = false -> k_nologin (wc w) = true).
Proof. exact nologin_lem. Qed.
Print Assumptions nologin_partial.

(** After a change from one restricted runlevel to another they are enabled:
    here from runlevel 1 to 0. *)
Definition ex_single : list ev := ex_up ++ [EvRunlevel 1; EvReap 13 (Exited 0); EvReap 11 (Exited 0); EvRunlevel 0].
Theorem nologin_refuted : exists evs w, tame evs /\ history 60 evs 2 0 w /\
  (level_of (wl w) = 0 /\ previous_level (wl w) = 1) /\ k_nologin (wc w) = false.
Proof.
  destruct (result_history 60 ex_single 2 0 (fun w => (level_of (wl w) =? 0) && (previous_level (wl w) =? 1) && negb (k_nologin (wc w))))
    as (w & A & B); [vm_compute; reflexivity|].
  exists ex_single, w. split; [apply (tameb_tame ex_rank); vm_compute; reflexivity|]. split; [exact A|]. lia.
Qed.
Print Assumptions nologin_refuted.

Example nologin_ex : result 60 (ex_up ++ [EvRunlevel 1]) 2 0 (fun w => (level_of (wl w) =? 1) && k_nologin (wc w)) = true.
Proof. vm_compute. reflexivity. Qed.

(** ** C35 *)

(** A report about a process that is not a child changes nothing. *)
Theorem reap_unknown : forall m p st w, ~ In p (k_procs (wc w)) -> on_event m (EvReap p st) w = Some (tt, w).
Proof. exact reap_unknown_lem. Qed.
Print Assumptions reap_unknown.

(** At most one stanza owns the process that ended; unless its number is used
    again, no stanza owns it afterwards and a second report changes nothing. *)
Theorem reap_once : forall evs n before p st after cfgl cmdl w1 w2, tame evs ->
  evs = before ++ EvReap p st :: after -> history n before cfgl cmdl w1 -> ~ over w1 ->
  on_event n (EvReap p st) w1 = Some (tt, w2) -> 1 < p ->
  (forall s t, In s (k_svcs (wc w1)) -> In t (k_svcs (wc w1)) -> s_pid s = p -> s_pid t = p -> s = t) /\
  (~ since (wl w1) (wl w2) (reused p) ->
     (forall s, In s (k_svcs (wc w2)) -> s_pid s <> p) /\
     forall m st', on_event m (EvReap p st') w2 = Some (tt, w2)).
Proof. exact reap_once_lem. Qed.
Print Assumptions reap_once.

(** The process of every other stanza is kept, unless that stanza gets another
    one meanwhile or is stopped with its stop: script. *)
Theorem reap_others : forall evs n before p st after cfgl cmdl w1 w2 s1 s2, tame evs ->
  evs = before ++ EvReap p st :: after -> history n before cfgl cmdl w1 ->
  on_event n (EvReap p st) w1 = Some (tt, w2) ->
  In s1 (k_svcs (wc w1)) -> In s2 (k_svcs (wc w2)) -> s_key s2 = s_key s1 ->
  1 < s_pid s1 -> s_pid s1 <> p ->
  s_pid s2 = s_pid s1 \/ since (wl w1) (wl w2) (replaced (s_key s1)).
Proof. exact reap_others_lem2. Qed.
Print Assumptions reap_others.

(** a crashes while b runs with process 13 *)
Example reap_others_ex : tame (ex_up ++ [EvReap 11 (Signaled 11)]) /\
  result 60 ex_up 2 0 (fun w1 => match on_event 60 (EvReap 11 (Signaled 11)) w1 with
    | Some (_, w2) => existsb (fun s => (s_pid s =? 11)) (k_svcs (wc w1)) &&
                      negb (existsb (fun s => (s_pid s =? 11)) (k_svcs (wc w2))) &&
                      existsb (fun s => (s_pid s =? 13)) (k_svcs (wc w1)) &&
                      existsb (fun s => (s_pid s =? 13)) (k_svcs (wc w2)) &&
                      negb (k_down (wc w1))
    | None => false end) = true.
Proof. split; [apply (tameb_tame ex_rank); vm_compute; reflexivity|vm_compute; reflexivity]. Qed.

(** ** C41 *)

(** A service can be reported as running without a process and with no timer
    that would start it again: its restart delay ran out while it was waiting
    for its condition. *)
Definition ex_noproc : list ev := firstn 9 ex_kill0.
Theorem running_process_refuted : exists evs w s, tame evs /\ history 60 evs 2 0 w /\
  In s (k_svcs (wc w)) /\ c_type (s_cf s) = TService /\ s_state s = Running /\ s_pid s = 0 /\ s_timer s = TmNone.
Proof.
  destruct (result_history 60 ex_noproc 2 0 (fun w => existsb (fun s =>
     match c_type (s_cf s), s_state s, s_timer s with TService, Running, TmNone => s_pid s =? 0 | _, _, _ => false end) (k_svcs (wc w))))
    as (w & A & B); [vm_compute; reflexivity|].
  apply existsb_exists in B. destruct B as (s & Hs & B). exists ex_noproc, w, s.
  split; [apply (tameb_tame ex_rank); vm_compute; reflexivity|]. split; [exact A|]. split; [exact Hs|].
  destruct (c_type (s_cf s)); try discriminate B. destruct (s_state s); try discriminate B.
  destruct (s_timer s); try discriminate B. repeat split. apply Z.eqb_eq, B.
Qed.
Print Assumptions running_process_refuted.
