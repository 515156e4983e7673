(** Theorems about the processes of single stanzas: C06, C08, C09, C11 and more
    on C12 and C13.  Each proof only applies a lemma of CoreOne, CoreKill,
    CoreStay or CoreAct. *)
From Coq Require Import List String Ascii ZArith NArith Bool Lia Arith.
From Verif Require Import CondModel CoreTypes CoreModel CoreTame CoreSpec CoreSpecB CoreStay CoreOne CoreKill CoreAct CoreEx.
Import ListNotations.
Local Open Scope Z_scope.

(** booleans for the hypotheses *)
Lemma works_ok evs : forallb (fun e => match e with EvOracle _ _ n => negb (existsb (fun b => b) n) | _ => true end) evs = true ->
  sockets_work evs.
Proof.
  intros H f s n Hn X. rewrite forallb_forall in H. specialize (H _ Hn). cbn in H. apply negb_true_iff in H.
  assert (existsb (fun b : bool => b) n = true) by (apply existsb_exists; exists true; auto). congruence.
Qed.
Lemma signal_ok evs : forallb (fun r => negb (c_stop (r_cfg r)) && match c_type (r_cfg r) with TSysv => false | _ => true end) (regs evs) = true ->
  signal_stop evs.
Proof.
  intros H r Hr. rewrite forallb_forall in H. specialize (H _ Hr). apply andb_prop in H. destruct H as [A B].
  split; [apply negb_true_iff, A|]. intros E. rewrite E in B. discriminate B.
Qed.
Lemma ready_ok evs : forallb (fun r => negb (c_ready (r_cfg r))) (regs evs) = true -> no_ready evs.
Proof. intros H r Hr. rewrite forallb_forall in H. apply negb_true_iff, H, Hr. Qed.
Lemma delay_ok evs : forallb (fun r => 0 <? c_killdelay (r_cfg r)) (regs evs) = true ->
  forall r, In r (regs evs) -> 0 < c_killdelay (r_cfg r).
Proof. intros H r Hr. rewrite forallb_forall in H. specialize (H _ Hr). lia. Qed.

(** ** C06 *)

(** When a stanza's process is started, no earlier one is alive. *)
Theorem one_main : forall evs, tame evs -> sockets_work evs -> signal_stop evs ->
  forall n cfgl cmdl w k p c older, history n evs cfgl cmdl w ->
  happened w c (EFork k FMain p) older -> forall q, ~ In (q, k) (k_mains c).
Proof. exact one_main_lem. Qed.
Print Assumptions one_main.

(** So stanzas of one name and instance never have two. *)
Theorem one_process : forall evs, tame evs -> sockets_work evs -> signal_stop evs ->
  forall n cfgl cmdl w s t p q, history n evs cfgl cmdl w ->
  In s (k_svcs (wc w)) -> In t (k_svcs (wc w)) -> identity s = identity t ->
  In (p, s_key s) (k_mains (wc w)) -> In (q, s_key t) (k_mains (wc w)) -> p = q /\ p = s_pid s.
Proof. exact one_process_lem. Qed.
Print Assumptions one_process.

(** A living process belongs to a registered stanza that is running, paused or
    stopping, and that knows its process id, or to one deleted meanwhile. *)
Theorem main_known : forall evs, tame evs -> sockets_work evs -> signal_stop evs ->
  forall n cfgl cmdl w k p, history n evs cfgl cmdl w -> In (p, k) (k_mains (wc w)) ->
  (exists s, In s (k_svcs (wc w)) /\ s_key s = k /\ s_pid s = p /\ In (s_state s) [Running; Paused; Stopping]) \/
  (exists c older, happened w c (EForget k p) older).
Proof. exact main_known_lem. Qed.
Print Assumptions main_known.

(** Only stanzas for runlevel S alone are deleted while they have a process. *)
Theorem process_forgotten : forall n evs cfgl cmdl w k p c older, history n evs cfgl cmdl w ->
  happened w c (EForget k p) older -> exists s, record_at c k s /\ s_pid s = p /\ only_boot (c_levels (s_cf s)) = true.
Proof. exact forget_lem. Qed.
Print Assumptions process_forgotten.

Example one_main_ex : tame ex_evs /\ sockets_work ex_evs /\ signal_stop ex_evs /\
  exists w c x older, history 60 ex_evs 2 0 w /\ happened w c x older /\
    match x with EFork 1 FMain 16 => found (fun _ x _ => match x with EFork 1 FMain 15 => true | _ => false end) older | _ => false end = true.
Proof.
  split; [exact ex_tame|]. split; [apply works_ok; vm_compute; reflexivity|]. split; [apply signal_ok; vm_compute; reflexivity|].
  apply (result_happened 60 ex_evs 2 0 (fun c x older => match x with EFork 1 FMain 16 =>
    found (fun _ x _ => match x with EFork 1 FMain 15 => true | _ => false end) older | _ => false end)).
  vm_compute. reflexivity.
Qed.

(** A readiness socket that cannot be created: the process is started twice. *)
Definition ex_nosock : list ev :=
  [EvConf [entry (with_notify NfS6 (stanza "a" TService 60 []))]; EvOracle [10; 11] [] [true]; EvBoot; EvBootCheck; EvWork].
Theorem one_main_socket_refuted : exists evs w s, tame evs /\ signal_stop evs /\ history 60 evs 2 0 w /\ In s (k_svcs (wc w)) /\
  exists p q, p <> q /\ In (p, s_key s) (k_mains (wc w)) /\ In (q, s_key s) (k_mains (wc w)).
Proof.
  destruct (result_history 60 ex_nosock 2 0 (fun w => match k_svcs (wc w), k_mains (wc w) with
    | [s], [(p, k); (q, k')] => (s_key s =? k)%nat && (s_key s =? k')%nat && negb (p =? q) | _, _ => false end)) as (w & A & B);
    [vm_compute; reflexivity|].
  destruct (k_svcs (wc w)) as [|s [|]] eqn:Es; try discriminate B.
  destruct (k_mains (wc w)) as [|[p k] [|[q k'] [|]]] eqn:Em; try discriminate B.
  exists ex_nosock, w, s. split; [apply (tameb_tame (fun _ => O)); vm_compute; reflexivity|].
  split; [apply signal_ok; vm_compute; reflexivity|]. split; [exact A|]. rewrite Es, Em. split; [left; reflexivity|].
  exists p, q. apply andb_prop in B. destruct B as [B B3]. apply andb_prop in B. destruct B as [B1 B2].
  apply Nat.eqb_eq in B1, B2. subst k k'. apply negb_true_iff, Z.eqb_neq in B3. cbn. auto.
Qed.

(** A stop: script that exits with 1 while the process lives on: started twice. *)
Definition ex_stopfail : list ev :=
  [EvConf [entry (with_stop true (stanza "a" TService 60 []))]; EvOracle [10; 11] [1] []; EvBoot; EvBootCheck; EvWork;
   EvPidfile 0 (Some 10); EvStop 0; EvStart 0].
Theorem one_main_script_refuted : exists evs w s, tame evs /\ sockets_work evs /\ history 60 evs 2 0 w /\ In s (k_svcs (wc w)) /\
  exists p q, p <> q /\ In (p, s_key s) (k_mains (wc w)) /\ In (q, s_key s) (k_mains (wc w)).
Proof.
  destruct (result_history 60 ex_stopfail 2 0 (fun w => match k_svcs (wc w), k_mains (wc w) with
    | [s], [(p, k); (q, k')] => (s_key s =? k)%nat && (s_key s =? k')%nat && negb (p =? q) | _, _ => false end)) as (w & A & B);
    [vm_compute; reflexivity|].
  destruct (k_svcs (wc w)) as [|s [|]] eqn:Es; try discriminate B.
  destruct (k_mains (wc w)) as [|[p k] [|[q k'] [|]]] eqn:Em; try discriminate B.
  exists ex_stopfail, w, s. split; [apply (tameb_tame (fun _ => O)); vm_compute; reflexivity|].
  split; [apply works_ok; vm_compute; reflexivity|]. split; [exact A|]. rewrite Es, Em. split; [left; reflexivity|].
  exists p, q. apply andb_prop in B. destruct B as [B B3]. apply andb_prop in B. destruct B as [B1 B2].
  apply Nat.eqb_eq in B1, B2. subst k k'. apply negb_true_iff, Z.eqb_neq in B3. cbn. auto.
Qed.

(** ** C08 *)

(** A stopping stanza with a process: the SIGKILL is pending with a configured
    delay, or was sent since stopping began, or a request interfered. *)
Theorem kill_pending : forall evs, tame evs -> signal_stop evs -> no_ready evs ->
  (forall r, In r (regs evs) -> 0 < c_killdelay (r_cfg r)) ->
  forall n cfgl cmdl w s, history n evs cfgl cmdl w -> In s (k_svcs (wc w)) ->
  s_state s = Stopping -> 1 < s_pid s ->
  (exists r, In r (regs evs) /\ s_timer s = TmArmed TcKill (c_killdelay (r_cfg r))) \/
  this_stop (s_key s) (wl w) (EKill (s_key s) (s_pid s) 9) \/
  exists r, this_stop (s_key s) (wl w) (ERequest (s_key s) r).
Proof. exact kill_pending_lem. Qed.
Print Assumptions kill_pending.

(** When the timer runs out the process gets SIGKILL, and nothing else happens. *)
Theorem kill_timer : forall n evs cfgl cmdl w1 m k s w2 d, history n evs cfgl cmdl w1 -> ~ over w1 ->
  on_event m (EvTimer k) w1 = Some (tt, w2) -> record_at (wc w1) k s -> s_timer s = TmArmed TcKill d ->
  1 < s_pid s -> In (s_pid s) (k_procs (wc w1)) ->
  exists c, wl w2 = (c, EKill k (s_pid s) 9) :: wl w1.
Proof. exact kill_timer_lem. Qed.
Print Assumptions kill_timer.

Definition ex_stopping : list ev := ex_up ++ ex_crash ++ [EvStop 1].
Example kill_pending_ex : tame ex_stopping /\ signal_stop ex_stopping /\ no_ready ex_stopping /\
  (forall r, In r (regs ex_stopping) -> 0 < c_killdelay (r_cfg r)) /\
  exists w, history 60 ex_stopping 2 0 w /\ existsb (fun s => match s_state s, s_timer s with Stopping, TmArmed TcKill _ => (s_pid s =? 15) && (s_key s =? 1)%nat | _, _ => false end) (k_svcs (wc w)) = true.
Proof.
  split; [apply (tameb_tame ex_rank); vm_compute; reflexivity|]. split; [apply signal_ok; vm_compute; reflexivity|].
  split; [apply ready_ok; vm_compute; reflexivity|]. split; [apply delay_ok; vm_compute; reflexivity|].
  apply result_history. vm_compute. reflexivity.
Qed.

(** A second `initctl stop' calls the SIGKILL off. *)
Definition ex_stop_twice : list ev :=
  boots [stanza "a" TService 60 []] [10] ++ [EvBootCheck; EvWork; EvPidfile 0 (Some 10); EvStop 0; EvStop 0].
(** So does the end of a ready: script. *)
Definition ex_stop_ready : list ev :=
  boots [with_ready true (stanza "a" TService 60 [])] [10; 11] ++
  [EvBootCheck; EvWork; EvPidfile 0 (Some 10); EvStop 0; EvReap 11 (Exited 0)].
Definition spared (w : world) : bool :=
  existsb (fun s => match s_state s, s_timer s with Stopping, TmNone => (s_pid s =? 10) && memZ 10 (k_procs (wc w)) | _, _ => false end) (k_svcs (wc w)) &&
  negb (found (fun _ x _ => match x with EKill _ 10 9 => true | _ => false end) (wl w)).
Lemma spared_ok w : spared w = true -> exists s, In s (k_svcs (wc w)) /\ s_state s = Stopping /\ s_pid s = 10 /\
  In 10 (k_procs (wc w)) /\ s_timer s = TmNone /\ forall c k, ~ In (c, EKill k 10 9) (wl w).
Proof.
  intros H. apply andb_prop in H. destruct H as [H N]. apply existsb_exists in H. destruct H as (s & Hs & H). exists s.
  split; [exact Hs|]. destruct (s_state s); try discriminate H. split; [reflexivity|]. destruct (s_timer s); try discriminate H.
  apply andb_prop in H. destruct H as [H1 H2]. split; [lia|]. split; [|split; [reflexivity|]].
  - unfold memZ in H2. apply existsb_exists in H2. destruct H2 as (p & Hp & E). apply Z.eqb_eq in E. subst p. exact Hp.
  - intros c k X. apply negb_true_iff in N. clear - X N. induction (wl w) as [|[c1 x] l IH]; [destruct X|].
    cbn [found] in N. apply orb_false_iff in N. destruct N as [N1 N2]. destruct X as [X|X]; [inversion X; subst; discriminate N1|].
    apply IH; assumption.
Qed.
Theorem kill_pending_request_refuted : exists evs w s, tame evs /\ signal_stop evs /\ no_ready evs /\
  history 60 evs 2 0 w /\ In s (k_svcs (wc w)) /\ s_state s = Stopping /\ s_pid s = 10 /\ In 10 (k_procs (wc w)) /\
  s_timer s = TmNone /\ forall c k, ~ In (c, EKill k 10 9) (wl w).
Proof.
  destruct (result_history 60 ex_stop_twice 2 0 spared) as (w & A & B); [vm_compute; reflexivity|].
  destruct (spared_ok w B) as (s & S). exists ex_stop_twice, w, s. split; [apply (tameb_tame (fun _ => O)); vm_compute; reflexivity|].
  split; [apply signal_ok; vm_compute; reflexivity|]. split; [apply ready_ok; vm_compute; reflexivity|]. split; [exact A|exact S].
Qed.
Theorem kill_pending_ready_refuted : exists evs w s, tame evs /\ signal_stop evs /\
  filter (fun e => match e with EvStop _ | EvStart _ | EvRestart _ | EvReload _ => true | _ => false end) evs = [EvStop 0] /\
  history 60 evs 2 0 w /\ In s (k_svcs (wc w)) /\ s_state s = Stopping /\ s_pid s = 10 /\ In 10 (k_procs (wc w)) /\
  s_timer s = TmNone /\ forall c k, ~ In (c, EKill k 10 9) (wl w).
Proof.
  destruct (result_history 60 ex_stop_ready 2 0 spared) as (w & A & B); [vm_compute; reflexivity|].
  destruct (spared_ok w B) as (s & S). exists ex_stop_ready, w, s. split; [apply (tameb_tame (fun _ => O)); vm_compute; reflexivity|].
  split; [apply signal_ok; vm_compute; reflexivity|]. split; [|split; [exact A|exact S]].
  reflexivity.
Qed.

(** ** C09 *)

(** `initctl stop' of a running or paused stanza: SIGCONT if paused, the
    configured signal to its process, then it is stopping and the timer runs. *)
Theorem stop_request : forall n evs cfgl cmdl w1 m s w2, history n evs cfgl cmdl w1 -> ~ over w1 ->
  on_event m (EvStop (s_key s)) w1 = Some (tt, w2) -> reserved (k_rl (wc w1)) = false ->
  In s (k_svcs (wc w1)) -> s_state s = Running \/ s_state s = Paused ->
  c_stop (s_cf s) = false -> c_type (s_cf s) <> TSysv -> 1 < s_pid s -> In (s_pid s) (k_procs (wc w1)) -> 0 < c_killdelay (s_cf s) ->
  stop_order (wl w1) (wl w2) (s_key s) RqStop (s_state s) (s_pid s) (c_sighalt (s_cf s)) (c_killdelay (s_cf s)).
Proof. exact stop_request_lem. Qed.
Print Assumptions stop_request.

(** The same for `initctl restart'. *)
Theorem restart_request : forall n evs cfgl cmdl w1 m s w2, history n evs cfgl cmdl w1 -> ~ over w1 ->
  on_event m (EvRestart (s_key s)) w1 = Some (tt, w2) -> reserved (k_rl (wc w1)) = false ->
  In s (k_svcs (wc w1)) -> s_state s = Running ->
  c_stop (s_cf s) = false -> c_type (s_cf s) <> TSysv -> 1 < s_pid s -> In (s_pid s) (k_procs (wc w1)) -> 0 < c_killdelay (s_cf s) ->
  stop_order (wl w1) (wl w2) (s_key s) RqRestart (s_state s) (s_pid s) (c_sighalt (s_cf s)) (c_killdelay (s_cf s)).
Proof. exact restart_request_lem. Qed.
Print Assumptions restart_request.

(** For whatever reason a stanza becomes stopping: it has no process, or the
    step before was its configured signal to that process, or its stop: script,
    or `stop' of its sysv script. *)
Theorem stop_signal : forall n evs cfgl cmdl w k old c older, history n evs cfgl cmdl w ->
  happened w c (EState k old Stopping) older ->
  exists s, record_at c k s /\ s_state s = old /\
    (s_pid s = 0 \/
     c_stop (s_cf s) = false /\ c_type (s_cf s) <> TSysv /\ 1 < s_pid s /\ In (s_pid s) (k_procs c) /\
       (exists c0 l0, older = (c0, EKill k (s_pid s) (c_sighalt (s_cf s))) :: l0) \/
     c_stop (s_cf s) = true /\ (exists c0 l0 rc, older = (c0, EScript k KStop rc) :: l0 /\ rc <> 1) \/
     c_stop (s_cf s) = false /\ c_type (s_cf s) = TSysv /\ (exists c0 l0 p, older = (c0, EFork k FSysvStop p) :: l0)).
Proof. exact stop_signal_lem. Qed.
Print Assumptions stop_signal.

Definition ex_before : list ev := ex_up ++ ex_crash.
Example stop_request_ex : exists w1 w2, history 60 ex_before 2 0 w1 /\ ~ over w1 /\
  on_event 60 (EvStop 1) w1 = Some (tt, w2) /\ reserved (k_rl (wc w1)) = false /\
  exists s, In s (k_svcs (wc w1)) /\ s_key s = 1%nat /\ s_state s = Running /\
    c_stop (s_cf s) = false /\ c_type (s_cf s) <> TSysv /\ 1 < s_pid s /\ In (s_pid s) (k_procs (wc w1)) /\ 0 < c_killdelay (s_cf s).
Proof.
  destruct (result_history 60 ex_before 2 0 (fun w => negb (reserved (k_rl (wc w))) &&
     negb (found (fun _ x _ => match x with EShutdown _ => true | _ => false end) (wl w)) &&
     match on_event 60 (EvStop 1) w with Some _ => true | None => false end &&
     existsb (fun s => match s_state s, c_type (s_cf s) with Running, TService => (s_key s =? 1)%nat && negb (c_stop (s_cf s)) && (1 <? s_pid s) &&
        memZ (s_pid s) (k_procs (wc w)) && (0 <? c_killdelay (s_cf s)) | _, _ => false end) (k_svcs (wc w)))) as (w & A & B);
    [vm_compute; reflexivity|].
  apply andb_prop in B. destruct B as [B B4]. apply andb_prop in B. destruct B as [B B3]. apply andb_prop in B. destruct B as [B1 B2].
  destruct (on_event 60 (EvStop 1) w) as [[[] w2]|] eqn:E; [|discriminate B3].
  exists w, w2. split; [exact A|]. split; [|split; [exact E|split; [apply negb_true_iff, B1|]]].
  - intros (c & s & H). apply negb_true_iff in B2. clear - H B2. revert H B2. induction (wl w) as [|[c1 x] l IH]; [intros []|].
    cbn [found In]. intros [E|E] F; apply orb_false_iff in F; destruct F as [F1 F2].
    + inversion E; subst. discriminate F1.
    + exact (IH E F2).
  - apply existsb_exists in B4. destruct B4 as (s & Hs & H). exists s. split; [exact Hs|].
    destruct (s_state s); try discriminate H. destruct (c_type (s_cf s)); try discriminate H.
    apply andb_prop in H. destruct H as [H H5]. apply andb_prop in H. destruct H as [H H4].
    apply andb_prop in H. destruct H as [H H3]. apply andb_prop in H. destruct H as [H1 H2].
    split; [apply Nat.eqb_eq, H1|]. split; [reflexivity|]. split; [apply negb_true_iff, H2|]. split; [discriminate|]. split; [lia|].
    split; [|lia]. unfold memZ in H4. apply existsb_exists in H4. destruct H4 as (p & Hp & X). apply Z.eqb_eq in X. rewrite X. exact Hp.
Qed.

(** ** C11 *)

(** After `initctl stop', a stanza is not started until someone asks for it
    or a configuration is loaded. *)
Theorem user_stop : forall evs, tame evs -> forall n cfgl cmdl w k p c older, history n evs cfgl cmdl w ->
  happened w c (EFork k FMain p) older -> ~ user_stopped k older.
Proof. exact user_stop_lem. Qed.
Print Assumptions user_stop.

(** It is blocked by the user all that time. *)
Theorem user_block : forall evs, tame evs -> forall n cfgl cmdl w s, history n evs cfgl cmdl w ->
  In s (k_svcs (wc w)) -> user_stopped (s_key s) (wl w) -> s_block s = BUser.
Proof. exact user_block_lem. Qed.
Print Assumptions user_block.

Definition ex_stopped : list ev := ex_up ++ ex_crash ++ [EvStop 1; EvTimer 1; EvReap 15 (Signaled 9); EvRunlevel 3; EvInterval; EvCondSet "usr/x"%string; EvRunlevel 2].
Example user_stop_ex : tame ex_stopped /\ exists w, history 60 ex_stopped 2 0 w /\ user_stopped 1 (wl w) /\
  found (fun _ x _ => match x with ERunlevel 3 2 => true | _ => false end) (wl w) = true.
Proof.
  split; [apply (tameb_tame ex_rank); vm_compute; reflexivity|].
  destruct (result_history 60 ex_stopped 2 0 (fun w =>
     (fix go l := match l with [] => false | (_, x) :: l => match x with ERequest 1 RqStop => true | EReconf => false | ERequest 1 _ => false | _ => go l end end) (wl w) &&
     found (fun _ x _ => match x with ERunlevel 3 2 => true | _ => false end) (wl w))) as (w & A & B); [vm_compute; reflexivity|].
  apply andb_prop in B. destruct B as [B1 B2]. exists w. split; [exact A|]. split; [|exact B2]. clear - B1.
  induction (wl w) as [|[c x] l IH]; [discriminate B1|].
  assert (K : user_stopped 1 l -> x <> EReconf -> (forall r, x <> ERequest 1 r) -> user_stopped 1 ((c, x) :: l)).
  { intros (newer & c0 & older & -> & H) X1 X2. exists ((c, x) :: newer), c0, older. split; [reflexivity|].
    intros c' y [Y|Y]; [inversion Y; subst; auto|]. apply (H c' y Y). }
  destruct x; try (apply K; [apply IH, B1|discriminate|discriminate]); try discriminate B1.
  destruct k as [|[|k]]; try (apply K; [apply IH, B1|discriminate|discriminate]).
  destruct r; try discriminate B1. exists [], c, l. split; [reflexivity|]. intros c' y [].
Qed.

(** ** C12 *)

(** `initctl signal' sends that signal to the process of a running stanza; for
    any other stanza nothing happens. *)
Theorem signal_request : forall n evs cfgl cmdl w1 m k sig w2, history n evs cfgl cmdl w1 -> ~ over w1 ->
  on_event m (EvSignal k sig) w1 = Some (tt, w2) ->
  (exists s, In s (k_svcs (wc w1)) /\ s_key s = k /\ s_state s = Running /\
     w2 = mkWorld (wc w1) ((wc w1, EKill k (s_pid s) sig) :: wl w1)) \/
  (forall s, In s (k_svcs (wc w1)) -> s_key s = k -> s_state s <> Running) /\ w2 = w1.
Proof. exact signal_request_lem. Qed.
Print Assumptions signal_request.

(** ** C13 *)

(** Where a stopping stanza goes once its process is gone. *)
Theorem after_stop : forall n evs cfgl cmdl w k c new older, tame evs -> history n evs cfgl cmdl w ->
  happened w c (EState k Stopping new) older ->
  exists s, record_at c k s /\ s_state s = Stopping /\ (s_pid s = 0 /\
    new = (if is_runtask s then Done else if c_post (s_cf s) then Teardown
           else if s_removed s && c_cleanup (s_cf s) then Cleanup else Halted) \/ new = Running).
Proof. exact after_stop_lem. Qed.
Print Assumptions after_stop.

Example after_stop_ex : exists w c x older, history 60 ex_evs 2 0 w /\ happened w c x older /\
  match x with EState 1 Stopping Halted => true | _ => false end = true.
Proof.
  apply (result_happened 60 ex_evs 2 0 (fun c x older => match x with EState 1 Stopping Halted => true | _ => false end)).
  vm_compute. reflexivity.
Qed.
