(** C41: what is reported as running has a process. *)
From Coq Require Import List String Ascii ZArith NArith Bool.
From Verif Require Import CondModel CoreTypes CoreModel CoreLib CoreTame CoreMicro CoreSpec CoreSpecC CoreLive CoreEx CorePropsB.
Import ListNotations.
Local Open Scope string_scope.
Local Open Scope Z_scope.

(** A running stanza has a live process, unless its restart timer made it
    running without one, or its process ended after it had lost the right to
    run. *)
Theorem running_process : forall n evs cfgl cmdl w s, tame evs -> history n evs cfgl cmdl w ->
  In s (k_svcs (wc w)) -> s_state s = Running ->
  1 < s_pid s /\ In (s_pid s) (k_procs (wc w)) \/ risen n evs cfgl cmdl (s_key s) (wl w) \/
  s_pid s = 0 /\ lapsed (s_key s) (wl w).
Proof. intros n evs cfgl cmdl w s HT H Hs Er. exact (live_lem evs HT n cfgl cmdl w s H Hs Er). Qed.
Print Assumptions running_process.

(** a and b are running with processes 14 and 15 after both were restarted *)
Example running_process_ex : tame (ex_up ++ ex_crash) /\ result 60 (ex_up ++ ex_crash) 2 0 (fun w =>
  existsb (fun s => st_eqb (s_state s) Running && (s_pid s =? 14) && memZ 14 (k_procs (wc w))) (k_svcs (wc w)) &&
  existsb (fun s => st_eqb (s_state s) Running && (s_pid s =? 15) && memZ 15 (k_procs (wc w))) (k_svcs (wc w))) = true.
Proof. split; [apply (tameb_tame ex_rank); vm_compute; reflexivity|vm_compute; reflexivity]. Qed.

(** Nothing else becomes running without a process: at the moment it does, a
    stanza has one, or its restart timer runs out, or it was paused while it had
    an invalid one (which only the restart timer can bring about). *)
Theorem running_entered : forall n evs cfgl cmdl e k c o older, tame evs ->
  during n evs cfgl cmdl e c (EState k o Running) older ->
  (exists s, record_at c k s /\ 1 < s_pid s) \/ e = EvTimer k \/
  (exists s, record_at c k s /\ s_pid s <> 0 /\ o = Paused).
Proof. exact entered_lem. Qed.
Print Assumptions running_entered.

(** a and b each became running twice, each time with another process *)
Example running_entered_ex : tame (ex_up ++ ex_crash) /\ result 60 (ex_up ++ ex_crash) 2 0 (fun w =>
  Nat.leb 4 (List.length (filter (fun x : core * eff => match snd x with
    | EState k _ Running => existsb (fun s => Nat.eqb (s_key s) k && (1 <? s_pid s)) (k_svcs (fst x))
    | _ => false end) (wl w)))) = true.
Proof. split; [apply (tameb_tame ex_rank); vm_compute; reflexivity|vm_compute; reflexivity]. Qed.

(** The end of the process of a running stanza that may run is noticed in the
    same event. *)
Theorem running_lost : forall n evs cfgl cmdl w1 m s st w2, tame evs -> history n evs cfgl cmdl w1 -> ~ over w1 ->
  In s (k_svcs (wc w1)) -> s_state s = Running -> 1 < s_pid s -> may_start (wc w1) s ->
  on_event m (EvReap (s_pid s) st) w1 = Some (tt, w2) ->
  since (wl w1) (wl w2) (fun x => x = EState (s_key s) Running
    (match c_type (s_cf s) with TRun | TTask => Stopping | _ => Halted end)).
Proof. intros n evs cfgl cmdl w1 m s st w2. exact (noticed_lem evs n cfgl cmdl w1 m s st w2). Qed.
Print Assumptions running_lost.

Example running_lost_ex : result 60 ex_up 2 0 (fun w1 =>
  existsb (fun s => st_eqb (s_state s) Running && (s_pid s =? 11) && enabled (wc w1) s &&
    match on_event 60 (EvReap 11 (Signaled 11)) w1 with Some _ => true | None => false end) (k_svcs (wc w1))) = true.
Proof. vm_compute. reflexivity. Qed.

(** service [2345] a if:<!usr/x>: the condition is set while a runs, then its
    process ends: a stays running without a process *)
Definition ex_lapsed : list ev :=
  boots [with_cond_if [(true, "usr/x")] (stanza "a" TService 60 [])] [10;11;12] ++
  [EvBootCheck; EvWork; EvPidfile 0 (Some 10); EvCondSet "usr/x"; EvReap 10 (Signaled 11); EvWork; EvInterval].
Lemma lapsed_untimed k : ~ In (EvTimer k) ex_lapsed.
Proof.
  assert (X : forallb (fun e => match e with EvTimer _ => false | _ => true end) ex_lapsed = true) by (vm_compute; reflexivity).
  rewrite forallb_forall in X. intros H. specialize (X _ H). discriminate X.
Qed.
Theorem running_guard_refuted : exists evs w s, tame evs /\ history 60 evs 2 0 w /\ (forall k, ~ In (EvTimer k) evs) /\
  In s (k_svcs (wc w)) /\ c_type (s_cf s) = TService /\ s_state s = Running /\ s_pid s = 0 /\ s_timer s = TmNone /\
  s_block s = BNone /\ s_removed s = false.
Proof.
  destruct (result_history 60 ex_lapsed 2 0 (fun w => existsb (fun s =>
     match c_type (s_cf s), s_state s, s_timer s, s_block s with TService, Running, TmNone, BNone => (s_pid s =? 0) && negb (s_removed s) | _, _, _, _ => false end) (k_svcs (wc w))))
    as (w & A & B); [vm_compute; reflexivity|].
  apply existsb_exists in B. destruct B as (s & Hs & B). exists ex_lapsed, w, s.
  split; [apply (tameb_tame ex_rank); vm_compute; reflexivity|]. split; [exact A|].
  split; [exact lapsed_untimed|]. split; [exact Hs|]. clear A.
  destruct (c_type (s_cf s)); try discriminate B. destruct (s_state s); try discriminate B.
  destruct (s_timer s); try discriminate B. destruct (s_block s); try discriminate B.
  apply andb_prop in B. destruct B as [B1 B2]. apply Z.eqb_eq in B1. apply negb_true_iff in B2. do 4 (split; [reflexivity || exact B1|]). split; [reflexivity|exact B2].
Qed.
Print Assumptions running_guard_refuted.
