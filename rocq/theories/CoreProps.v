(** C01, C02, C07, C12, C13, C16, C18, C20, C21: the supervisor. *)
From Coq Require Import List String Ascii ZArith NArith Bool Lia.
From Verif Require Import CondModel CoreTypes CoreModel CoreSpec CoreMicro CoreCalm CoreProof CoreProofB CoreProofC CoreEx.
Import ListNotations.
Local Open Scope Z_scope.

Definition is_main_of (k : nat) (x : eff) : bool :=
  match x with EFork k' FMain _ => Nat.eqb k k' | _ => false end.

(** ** C01 *)

(** Whenever a main process is started, its stanza may start. *)
Theorem start_gate : forall n evs cfgl cmdl w k p c older,
  history n evs cfgl cmdl w -> happened w c (EFork k FMain p) older ->
  exists s, record_at c k s /\ may_start c s /\ k_norespawn c = false /\
            ~ In (ident_of (c_name (s_cf s)) (c_id (s_cf s))) (k_unavail c) /\
            1 < p /\ ~ In p (k_procs c).
Proof. exact start_gate_lem. Qed.
Print Assumptions start_gate.

Example start_gate_ex : exists w c x older,
  history 60 ex_evs 2 0 w /\ happened w c x older /\ is_main_of 1 x && (k_rl c =? 2) = true.
Proof. apply (result_happened 60 ex_evs 2 0 (fun c x _ => is_main_of 1 x && (k_rl c =? 2))). vm_compute. reflexivity. Qed.

(** ** C02 *)

(** A stanza reaches its pre: script or its start from the waiting state only
    when it may start and all its conditions are on; it reaches its start from
    the pre: script only when that ended with status 0. *)
Theorem waiting_gate : forall n evs cfgl cmdl w k c old new older,
  history n evs cfgl cmdl w -> happened w c (EState k old new) older -> new = Setup \/ new = Starting ->
  old = Waiting /\ leaves_waiting c k new \/ old = Setup /\ new = Starting /\ pre_done c k.
Proof. exact waiting_gate_lem. Qed.
Print Assumptions waiting_gate.

(** Every main process goes back to such a moment. *)
Theorem start_chain : forall n evs cfgl cmdl w k p c older,
  history n evs cfgl cmdl w -> happened w c (EFork k FMain p) older ->
  exists c1 old l1, last_change k older c1 old Starting l1 /\
    (old = Waiting /\ leaves_waiting c1 k Starting \/
     old = Setup /\ pre_done c1 k /\
     exists c2 l2, last_change k l1 c2 Waiting Setup l2 /\ leaves_waiting c2 k Setup).
Proof. exact start_chain_lem. Qed.
Print Assumptions start_chain.

(** b, with <pid/a>, does leave the waiting state once a has its pid file *)
Example waiting_gate_ex : exists w c x older,
  history 60 ex_evs 2 0 w /\ happened w c x older /\
  match x with EState k Waiting Starting => Nat.eqb k 1 | _ => false end = true.
Proof.
  apply (result_happened 60 ex_evs 2 0 (fun c x _ => match x with EState k Waiting Starting => Nat.eqb k 1 | _ => false end)).
  vm_compute. reflexivity.
Qed.

(** The conditions need not be on any more when the process is started: here
    b has a pre: script, and the pid file of a goes away while it runs. *)
Definition ex_stale : list ev :=
  boots [stanza "a" TService 60 []; with_pre true (stanza "b" TService 60 ["pid/a"%string])] [10;11;12] ++
  [EvBootCheck; EvWork; EvPidfile 0 (Some 10); EvPidfileDel 0; EvReap 11 (Exited 0)].
Theorem start_conditions_refuted : exists evs w c x older,
  tame evs /\ history 60 evs 2 0 w /\ happened w c x older /\
  exists k p s, x = EFork k FMain p /\ record_at c k s /\ ~ conds_on c s.
Proof.
  exists ex_stale.
  destruct (result_happened 60 ex_stale 2 0 (fun c x _ =>
    match x with
    | EFork k FMain p => match lookup_svc c k with
        | Some s => existsb (fun n => match cond_get (k_cond c) n with COff => true | _ => false end) (c_cond (s_cf s))
        | None => false end
    | _ => false end)) as (w & c & x & older & A & B & C); [vm_compute; reflexivity|].
  exists w, c, x, older. split; [apply (tameb_tame ex_rank); vm_compute; reflexivity|]. split; [exact A|].
  split; [exact B|]. destruct x; try discriminate C. destruct f; try discriminate C.
  destruct (lookup_svc c k) as [s|] eqn:El; [|discriminate C]. exists k, pid, s. split; [reflexivity|].
  split; [apply lookup_record, El|]. intros H. apply existsb_exists in C. destruct C as (n & C1 & C2).
  rewrite (H n C1) in C2. discriminate.
Qed.
Print Assumptions start_conditions_refuted.

(** ** C07 *)

(** When a main process is started, none of the main processes that exist was
    started as a run stanza. *)
Theorem run_serialised : forall n evs cfgl cmdl w k p c older,
  history n evs cfgl cmdl w -> happened w c (EFork k FMain p) older ->
  forall p0 k0, In (p0, k0) (k_mains c) -> exists t, started_as older k0 p0 t /\ t <> TRun.
Proof. exact run_serialised_lem. Qed.
Print Assumptions run_serialised.

(** b is started while a is there *)
Example run_serialised_ex : exists w c x older,
  history 60 ex_evs 2 0 w /\ happened w c x older /\
  is_main_of 1 x && existsb (fun a => Nat.eqb (snd a) 0) (k_mains c) = true.
Proof.
  apply (result_happened 60 ex_evs 2 0 (fun c x _ => is_main_of 1 x && existsb (fun a => Nat.eqb (snd a) 0) (k_mains c))).
  vm_compute. reflexivity.
Qed.

(** ** C12 *)

(** Every signal goes to a process that was started for the stanza (or that
    its pid file names), or is SIGKILL to the process group of one.  The
    exceptions: a record without a process (pid 0, and -1 after a script could
    not be forked) that is stopped, continued or signalled on request. *)
Theorem kill_target : forall n evs cfgl cmdl w k p sig c older,
  history n evs cfgl cmdl w -> happened w c (EKill k p sig) older ->
  belongs evs older k p \/
  belongs evs older k (- p) /\ p < -1 /\ sig = 9 \/
  (p = 0 \/ p = -1 /\ exists c' f, In (c', EForkFail k f) older) /\
  (In (EvSignal k sig) evs \/ (sig = 18 \/ sig = 19) /\ exists s, record_at c k s /\ (s_state s = Running \/ s_state s = Paused)).
Proof. exact kill_target_lem. Qed.
Print Assumptions kill_target.

Example kill_target_ex : exists w c x older,
  history 60 ex_evs 2 0 w /\ happened w c x older /\
  match x with EKill 1 15 9 => true | _ => false end = true.
Proof.
  apply (result_happened 60 ex_evs 2 0 (fun c x _ => match x with EKill 1 15 9 => true | _ => false end)).
  vm_compute. reflexivity.
Qed.

(** The exceptions do happen.  The restart timer survives a reload and takes a
    waiting service, or one whose pre: script could not be forked, for
    running; then "initctl signal b TERM" is kill(0, SIGTERM) or
    kill(-1, SIGTERM). *)
Definition ex_kill0 : list ev :=
  boots [stanza "b" TService 60 ["usr/x"%string]] [10] ++
  [EvBootCheck; EvCondSet "usr/x"; EvPidfile 0 (Some 10); EvReap 10 (Exited 1); EvReloadAll; EvTimer 0; EvSignal 0 15].
Definition ex_killall : list ev :=
  boots [stanza "a" TService 60 []; with_pre true (stanza "b" TService 60 ["pid/a"%string])] [10;11;12;-1] ++
  [EvBootCheck; EvWork; EvPidfile 0 (Some 10); EvReap 11 (Exited 0); EvPidfile 1 (Some 12); EvReap 12 (Exited 1);
   EvReloadAll; EvPidfile 0 (Some 10); EvTimer 1; EvSignal 1 15].
Theorem kill_target_refuted : forall p, p = 0 \/ p = -1 ->
  exists evs w k c older, tame evs /\ (forall k q, In (EvPidfile k (Some q)) evs -> 1 < q) /\
    history 60 evs 2 0 w /\ happened w c (EKill k p 15) older.
Proof.
  assert (G : forall evs p, tame evs -> forallb (fun e => match e with EvPidfile _ (Some q) => 1 <? q | _ => true end) evs = true ->
    result 60 evs 2 0 (fun w => found (fun c x _ => match x with EKill _ q 15 => Z.eqb p q | _ => false end) (wl w)) = true ->
    exists evs w k c older, tame evs /\ (forall k q, In (EvPidfile k (Some q)) evs -> 1 < q) /\
    history 60 evs 2 0 w /\ happened w c (EKill k p 15) older).
  { intros evs p HT Hf H. apply result_happened in H. destruct H as (w & c & x & older & A & B & C).
    destruct x; try discriminate C. destruct sig as [|sig|]; try discriminate C. do 4 (destruct sig; try discriminate C).
    apply Z.eqb_eq in C. subst pid.
    exists evs, w, k, c, older. split; [exact HT|]. split; [|auto].
    intros k0 q Hq. rewrite forallb_forall in Hf. specialize (Hf _ Hq). apply Z.ltb_lt, Hf. }
  intros p [-> | ->].
  - apply (G ex_kill0); [apply (tameb_tame ex_rank)| |]; vm_compute; reflexivity.
  - apply (G ex_killall); [apply (tameb_tame ex_rank)| |]; vm_compute; reflexivity.
Qed.
Print Assumptions kill_target_refuted.

(** ** C13 *)

(** In tame histories every change of state is one of the life cycle, except
    that the restart timer may take a stanza for running. *)
Theorem lifecycle_edges : forall n evs cfgl cmdl e k c old new older, tame evs ->
  during n evs cfgl cmdl e c (EState k old new) older ->
  lifecycle old new \/ new = Running /\ e = EvTimer k.
Proof. exact lifecycle_lem. Qed.
Print Assumptions lifecycle_edges.

(** each change of state is made during some event *)
Theorem lifecycle_during : forall n evs cfgl cmdl w c x older,
  history n evs cfgl cmdl w -> happened w c x older -> exists e, during n evs cfgl cmdl e c x older.
Proof. exact happened_during. Qed.
Print Assumptions lifecycle_during.

Example lifecycle_edges_ex : tame ex_evs /\ exists w c x older,
  history 60 ex_evs 2 0 w /\ happened w c x older /\
  match x with EState 1 Stopping Halted => true | _ => false end = true.
Proof.
  split; [exact ex_tame|].
  apply (result_happened 60 ex_evs 2 0 (fun c x _ => match x with EState 1 Stopping Halted => true | _ => false end)).
  vm_compute. reflexivity.
Qed.

(** the exception happens: a stanza that waits for its condition becomes
    "running" *)
Theorem lifecycle_refuted : exists evs w k c old new older,
  tame evs /\ history 60 evs 2 0 w /\ happened w c (EState k old new) older /\ ~ lifecycle old new.
Proof.
  destruct (result_happened 60 ex_kill0 2 0 (fun c x _ => match x with EState 0 Waiting Running => true | _ => false end))
    as (w & c & x & older & A & B & C); [vm_compute; reflexivity|].
  destruct x; try discriminate C. destruct k; try discriminate C. destruct old; try discriminate C. destruct new; try discriminate C.
  exists ex_kill0, w, 0%nat, c, Waiting, Running, older.
  split; [apply (tameb_tame ex_rank); vm_compute; reflexivity|]. auto.
Qed.
Print Assumptions lifecycle_refuted.

(** ** C16 *)

(** A stanza does not leave the waiting state while the first of the names it
    declares a conflict with that is registered at all is active.  With one
    name that is the name itself. *)
Theorem conflict_gate : forall n evs cfgl cmdl w k c new older,
  history n evs cfgl cmdl w -> happened w c (EState k Waiting new) older -> new = Setup \/ new = Starting ->
  exists s, record_at c k s /\ forall before nm after, c_conflict (s_cf s) = before ++ nm :: after ->
    (forall other t, In other before -> In t (k_svcs c) -> identity t <> cut_colon other) ->
    forall t, In t (k_svcs c) -> identity t = cut_colon nm -> ~ is_active t.
Proof. exact conflict_gate_lem. Qed.
Print Assumptions conflict_gate.

(** b conflicts with a; it is started once the user has stopped a *)
Definition ex_conflict : list ev :=
  boots [stanza "a" TService 60 []; with_conflict ["a"%string] (stanza "b" TService 60 [])] [10;11;12] ++
  [EvBootCheck; EvWork; EvPidfile 0 (Some 10); EvStop 0; EvReap 10 (Exited 0); EvWork; EvStart 1].
Example conflict_gate_ex :
  result 60 ex_conflict 2 0 (fun w =>
    found (fun c x _ => match x with EState 1 Waiting Starting => true | _ => false end) (wl w) &&
    found (fun c x _ => match x with EState 1 Waiting Halted => true | _ => false end) (wl w)) = true.
Proof. vm_compute. reflexivity. Qed.

(** With several names only the first registered one counts: c conflicts with
    a and b, is started while b is running. *)
Definition ex_conflicts : list ev :=
  boots [with_manual true (stanza "a" TService 60 []); stanza "b" TService 60 [];
         with_conflict ["a"%string; "b"%string] (stanza "c" TService 60 [])] [10;11;12] ++
  [EvBootCheck; EvWork].
Theorem conflict_refuted : exists evs w k p c older s t nm,
  history 60 evs 2 0 w /\ happened w c (EFork k FMain p) older /\ record_at c k s /\
  In nm (c_conflict (s_cf s)) /\ In t (k_svcs c) /\ identity t = (nm, ""%string) /\ s_state t = Running /\ 1 < s_pid t.
Proof.
  destruct (result_happened 60 ex_conflicts 2 0 (fun c x _ => match x with
     | EFork k FMain p => match lookup_svc c k with
         | Some s => existsb (fun t => existsb (fun nm => String.eqb nm (c_name (s_cf t)) && String.eqb (c_id (s_cf t)) "") (c_conflict (s_cf s)) &&
              (match s_state t with Running => true | _ => false end) && (1 <? s_pid t)) (k_svcs c)
         | None => false end
     | _ => false end)) as (w & c & x & older & A & B & C); [vm_compute; reflexivity|].
  destruct x; try discriminate C. destruct f; try discriminate C.
  destruct (lookup_svc c k) as [s|] eqn:El; [|discriminate C].
  apply existsb_exists in C. destruct C as (t & Ht & C). apply andb_prop in C. destruct C as [C C3].
  apply andb_prop in C. destruct C as [C1 C2]. apply existsb_exists in C1. destruct C1 as (nm & Hn & C1).
  apply andb_prop in C1. destruct C1 as [C1 C4]. apply String.eqb_eq in C1, C4.
  exists ex_conflicts, w, k, pid, c, older, s, t, nm. split; [exact A|]. split; [exact B|].
  split; [apply lookup_record, El|]. split; [exact Hn|]. split; [exact Ht|].
  split; [unfold identity; congruence|]. split; [destruct (s_state t); congruence|apply Z.ltb_lt, C3].
Qed.
Print Assumptions conflict_refuted.

(** ** C18 *)

Theorem identity_unique : forall n evs cfgl cmdl w s t,
  history n evs cfgl cmdl w -> In s (k_svcs (wc w)) -> In t (k_svcs (wc w)) -> identity s = identity t -> s = t.
Proof. exact identity_unique_lem. Qed.
Print Assumptions identity_unique.

Theorem find_by_identity : forall n evs cfgl cmdl w nm i s,
  history n evs cfgl cmdl w ->
  (find_ident nm i (k_svcs (wc w)) = Some s <-> In s (k_svcs (wc w)) /\ identity s = (nm, i)).
Proof. exact find_by_identity_lem. Qed.
Print Assumptions find_by_identity.

(** Registering a stanza concerns no other record; a record with its identity
    keeps its address, state and process and takes over the new settings (or
    is left alone, if the stanza is not admitted). *)
Theorem register_in_place : forall n evs cfgl cmdl w r w',
  history n evs cfgl cmdl w -> register r w = Some (tt, w') ->
  (forall t, identity t <> reg_identity r -> (In t (k_svcs (wc w')) <-> In t (k_svcs (wc w)))) /\
  (forall s, In s (k_svcs (wc w)) -> identity s = reg_identity r ->
     exists s', In s' (k_svcs (wc w')) /\ identity s' = reg_identity r /\
       s_key s' = s_key s /\ s_state s' = s_state s /\ s_pid s' = s_pid s /\
       (s' = s \/ s_removed s' = false /\ exists b, s_cf s' = set_c_sighup b (r_cfg r))) /\
  (forall s t, In s (k_svcs (wc w')) -> In t (k_svcs (wc w')) -> identity s = identity t -> s = t).
Proof. exact register_lem. Qed.
Print Assumptions register_in_place.

Example register_in_place_ex :
  result 60 ex_up 2 0 (fun w =>
    match register (entry (stanza "b" TService 60 [])) w with
    | Some (_, w') => existsb (fun s => String.eqb (c_name (s_cf s)) "b" && (s_pid s =? 13) &&
                                        (match c_cond (s_cf s) with [] => true | _ => false end)) (k_svcs (wc w'))
    | None => false end) = true.
Proof. vm_compute. reflexivity. Qed.

(** ** C20 *)

(** Between the beginning of a stop phase and the following start phase no
    stanza leaves the waiting state. *)
Theorem stop_phase : forall n evs cfgl cmdl w k c new older,
  history n evs cfgl cmdl w -> happened w c (EState k Waiting new) older -> new = Setup \/ new = Starting ->
  in_stop_phase older = false.
Proof. exact stop_phase_lem. Qed.
Print Assumptions stop_phase.

(** The start phase begins only after a moment at which no stanza was stopping
    a live process, and that moment lies after the last stop phase began. *)
Theorem start_phase : forall n evs cfgl cmdl w c older, tame evs ->
  history n evs cfgl cmdl w -> happened w c EStartBegin older ->
  exists c1, latest_mark older c1 EStopEnd /\
    forall s, In s (k_svcs c1) -> s_state s = Stopping -> s_pid s <= 1.
Proof. exact start_phase_lem. Qed.
Print Assumptions start_phase.

Example start_phase_ex : tame ex_evs /\ exists w c x older,
  history 60 ex_evs 2 0 w /\ happened w c x older /\
  match x with EStartBegin => (k_rl c =? 6) && found (fun _ x _ => match x with EState 0 Running Stopping => true | _ => false end) older
  | _ => false end = true.
Proof.
  split; [exact ex_tame|].
  apply (result_happened 60 ex_evs 2 0 (fun c x older => match x with
     EStartBegin => (k_rl c =? 6) && found (fun _ x _ => match x with EState 0 Running Stopping => true | _ => false end) older
     | _ => false end)).
  vm_compute. reflexivity.
Qed.

(** A stanza that has left the waiting state before is not held back: here b
    runs its pre: script when the stop phase begins and its main process is
    started while a is still being stopped. *)
Definition ex_late : list ev :=
  boots [stanza "a" TService 4 []; with_pre true (stanza "b" TService 60 [])] [10;11;12] ++
  [EvBootCheck; EvWork; EvRunlevel 3; EvReap 11 (Exited 0)].
Theorem stop_phase_start_refuted : exists evs w k p c older s,
  tame evs /\ history 60 evs 2 0 w /\ happened w c (EFork k FMain p) older /\ in_stop_phase older = true /\
  In s (k_svcs c) /\ s_state s = Stopping /\ 1 < s_pid s.
Proof.
  destruct (result_happened 60 ex_late 2 0 (fun c x older => match x with
     | EFork k FMain p => in_stop_phase older && existsb (fun s => (match s_state s with Stopping => true | _ => false end) && (1 <? s_pid s)) (k_svcs c)
     | _ => false end)) as (w & c & x & older & A & B & C); [vm_compute; reflexivity|].
  destruct x; try discriminate C. destruct f; try discriminate C. apply andb_prop in C. destruct C as [C1 C2].
  apply existsb_exists in C2. destruct C2 as (s & Hs & C2). apply andb_prop in C2. destruct C2 as [C2 C3].
  exists ex_late, w, k, pid, c, older, s. split; [apply (tameb_tame ex_rank); vm_compute; reflexivity|].
  repeat split; auto; [destruct (s_state s); congruence|apply Z.ltb_lt, C3].
Qed.
Print Assumptions stop_phase_start_refuted.

(** ** C21 *)

(** The current and the previous runlevel are those of the last change; the
    final action is taken only in runlevel 0 or 6 (or when the emergency timer
    ran out), and it is the recorded one. *)
Theorem runlevel_books : forall n evs cfgl cmdl w,
  history n evs cfgl cmdl w ->
  k_rl (wc w) = level_of (wl w) /\ k_prev (wc w) = previous_level (wl w) /\
  forall c x older, happened w c x older ->
    k_rl c = level_of older /\
    (forall old new, x = ERunlevel old new -> old = level_of older) /\
    (forall s, x = EShutdown s -> s = k_halt c /\
       (level_of older = 0 \/ level_of older = 6 \/ k_emerg c = true)).
Proof. exact runlevel_lem. Qed.
Print Assumptions runlevel_books.

Example runlevel_books_ex : exists w c x older,
  history 60 ex_evs 2 0 w /\ happened w c x older /\
  match x with EShutdown ShutReboot => (level_of older =? 6) && (previous_level older =? 2) | _ => false end = true.
Proof.
  apply (result_happened 60 ex_evs 2 0 (fun c x older => match x with
    EShutdown ShutReboot => (level_of older =? 6) && (previous_level older =? 2) | _ => false end)).
  vm_compute. reflexivity.
Qed.
