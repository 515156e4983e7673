(** C40: no callback or late child gets to a record that was freed.  C46: starts wait only for a run stanza that is alive. *)
From Coq Require Import List String Ascii ZArith NArith Bool.
From Verif Require Import CondModel CoreTypes CoreModel CoreLib CoreTame CoreMicro CoreSpec CoreSpecB CoreMem CoreRun CoreEx CorePropsC.
Import ListNotations.
Local Open Scope string_scope.
Local Open Scope Z_scope.

(** no stanza has a ready: script, none is for runlevel S alone *)
Definition nothing_outlives (evs : list ev) : Prop :=
  forall r, In r (regs evs) -> c_ready (r_cfg r) = false /\ only_boot (c_levels (r_cfg r)) = false.

(** Whatever is removed from the configuration, and whenever its memory is
    given back, no timer fires into it and no child is looked up in it. *)
Theorem memory_safe : forall n evs cfgl cmdl w, tame evs -> nothing_outlives evs -> history n evs cfgl cmdl w ->
  forall c k older, ~ happened w c (EUaf k) older.
Proof. intros n evs cfgl cmdl w HT HR H c k older. exact (memory_lem evs HT HR n cfgl cmdl w c k older H). Qed.
Print Assumptions memory_safe.

Definition outlives_b (evs : list ev) : bool :=
  forallb (fun r => negb (c_ready (r_cfg r)) && negb (only_boot (c_levels (r_cfg r)))) (regs evs).
Lemma outlives_ok evs : outlives_b evs = true -> nothing_outlives evs.
Proof.
  unfold outlives_b. rewrite forallb_forall. intros H r Hr. specialize (H r Hr). apply andb_prop in H.
  destruct H as [A B]. apply negb_true_iff in A, B. auto.
Qed.
(** a is removed while b, which has a pre: script and is crashing, is too: both
    records are freed, one of them while a timer had been set for it *)
Definition ex_freed : list ev :=
  boots [stanza "a" TService 60 []; with_pre true (stanza "b" TService 60 [])] [10;11;12;13;14] ++
  [EvBootCheck; EvWork; EvPidfile 0 (Some 10); EvReap 10 (Signaled 11); EvConf []; EvReloadAll; EvTimer 1; EvReap 11 (Exited 0);
   EvGc 0; EvGc 1; EvTimer 0; EvTimer 1].
Example memory_ex : tame ex_freed /\ nothing_outlives ex_freed /\
  exists w, history 60 ex_freed 2 0 w /\ map fst (k_freed (wc w)) = [1; 0]%nat.
Proof.
  split; [apply (tameb_tame (fun _ => O)); vm_compute; reflexivity|]. split; [apply outlives_ok; vm_compute; reflexivity|].
  destruct (result_history 60 ex_freed 2 0 (fun w => match map fst (k_freed (wc w)) with [1; 0]%nat => true | _ => false end))
    as (w & A & B); [vm_compute; reflexivity|].
  exists w. split; [exact A|]. destruct (map fst (k_freed (wc w))) as [|[|[|]] [|[|] [|]]]; try discriminate B. reflexivity.
Qed.

Definition uaf_of (k : nat) (x : eff) : bool := match x with EUaf j => Nat.eqb j k | _ => false end.
Lemma uaf_eq k x : uaf_of k x = true -> x = EUaf k.
Proof. destruct x; try discriminate. cbn. intros H. apply Nat.eqb_eq in H. congruence. Qed.

(** A ready: script that outlives its service: the service is removed, its
    record is freed, then the script ends. *)
Definition ex_late : list ev :=
  boots [with_ready true (stanza "a" TService 60 [])] [10;11;12] ++
  [EvBootCheck; EvWork; EvPidfile 0 (Some 10); EvConf []; EvReloadAll; EvReap 10 (Exited 0); EvGc 0; EvReap 11 (Exited 0)].
Theorem memory_ready_refuted : exists evs w c older, tame evs /\
  (forall r, In r (regs evs) -> only_boot (c_levels (r_cfg r)) = false) /\
  history 60 evs 2 0 w /\ happened w c (EUaf 0) older.
Proof.
  destruct (result_happened 60 ex_late 2 0 (fun _ x _ => uaf_of 0 x)) as (w & c & x & older & A & B & C); [vm_compute; reflexivity|].
  apply uaf_eq in C. subst. exists ex_late, w, c, older.
  split; [apply (tameb_tame (fun _ => O)); vm_compute; reflexivity|].
  split; [intros r [<-|[]]; reflexivity|]. split; [exact A|exact B].
Qed.
Print Assumptions memory_ready_refuted.

(** A task for runlevel S alone, with a pre: script, that loses its condition
    while the script runs: once the script is done the task is started, told to
    stop at once, and its record is given up with the SIGKILL timer still set. *)
Definition ex_boottask : list ev :=
  boots [with_killdelay 10000 (with_pre true (stanza "t" TTask 1024 ["usr/x"]))] [10;11;12] ++
  [EvCondSet "usr/x"; EvCondClear "usr/x"; EvReap 10 (Exited 0); EvGc 0; EvTimer 0].
Theorem memory_boot_refuted : exists evs w c older, tame evs /\
  (forall r, In r (regs evs) -> c_ready (r_cfg r) = false) /\
  history 60 evs 2 0 w /\ happened w c (EUaf 0) older.
Proof.
  destruct (result_happened 60 ex_boottask 2 0 (fun _ x _ => uaf_of 0 x)) as (w & c & x & older & A & B & C); [vm_compute; reflexivity|].
  apply uaf_eq in C. subst. exists ex_boottask, w, c, older.
  split; [apply (tameb_tame (fun _ => O)); vm_compute; reflexivity|].
  split; [intros r [<-|[]]; reflexivity|]. split; [exact A|exact B].
Qed.
Print Assumptions memory_boot_refuted.

(** ** C46: what waits for a run stanza waits for a process that is alive *)

(** While starts are held up for a run stanza, that stanza is registered, its
    process is alive and is the one they wait for; or its record was given up
    while it had that process. *)
Theorem run_alive : forall evs, tame evs -> sockets_work evs -> signal_stop evs ->
  forall n cfgl cmdl w, history n evs cfgl cmdl w -> k_runblk (wc w) <> 0 ->
  (exists s, In s (k_svcs (wc w)) /\ s_pid s = k_runblk (wc w) /\ In (k_runblk (wc w), s_key s) (k_mains (wc w))) \/
  (exists c k older, happened w c (EForget k (k_runblk (wc w))) older).
Proof. exact run_alive_lem. Qed.
Print Assumptions run_alive.

(** boot with ex_conf: starts wait for run stanza r, the third one *)
Example run_alive_ex : tame (boots ex_conf [10]) /\ sockets_work (boots ex_conf [10]) /\ signal_stop (boots ex_conf [10]) /\
  exists w, history 60 (boots ex_conf [10]) 2 0 w /\ k_runblk (wc w) = 10 /\ k_mains (wc w) = [(10, 2%nat)].
Proof.
  split; [apply (tameb_tame ex_rank); vm_compute; reflexivity|]. split; [apply works_ok; vm_compute; reflexivity|].
  split; [apply signal_ok; vm_compute; reflexivity|].
  destruct (result_history 60 (boots ex_conf [10]) 2 0 (fun w => (k_runblk (wc w) =? 10) &&
     match k_mains (wc w) with [(p, 2%nat)] => p =? 10 | _ => false end)) as (w & A & B); [vm_compute; reflexivity|].
  exists w. split; [exact A|]. apply andb_prop in B. destruct B as [B1 B2]. split; [apply Z.eqb_eq, B1|].
  destruct (k_mains (wc w)) as [|[p k] l]; [discriminate B2|]. destruct k as [|[|[|k]]], l; try discriminate B2.
  apply Z.eqb_eq in B2. subst. reflexivity.
Qed.

(** A run stanza for runlevel S alone with a pre: script is given up when that
    script ends, just after its own process was started: nobody notices that it
    ends, and no service is started any more. *)
Definition ex_runlost : list ev :=
  boots [with_pre true (stanza "r" TRun 1024 []); stanza "a" TService 60 []] [10;11;12;13;14] ++
  [EvReap 10 (Exited 0); EvReap 11 (Exited 0); EvBootCheck; EvBootCheck; EvWork].
Theorem run_alive_refuted : exists evs w s, tame evs /\ sockets_work evs /\ signal_stop evs /\ history 60 evs 2 0 w /\
  k_runblk (wc w) <> 0 /\ k_procs (wc w) = [] /\
  In s (k_svcs (wc w)) /\ s_state s = Starting /\ enabled (wc w) s = true /\ c_cond (s_cf s) = [].
Proof.
  destruct (result_history 60 ex_runlost 2 0 (fun w => negb (k_runblk (wc w) =? 0) && match k_procs (wc w) with [] => true | _ => false end &&
     match k_svcs (wc w) with [s] => st_eqb (s_state s) Starting && enabled (wc w) s && match c_cond (s_cf s) with [] => true | _ => false end
     | _ => false end)) as (w & A & B); [vm_compute; reflexivity|].
  apply andb_prop in B. destruct B as [B B3]. apply andb_prop in B. destruct B as [B1 B2].
  destruct (k_svcs (wc w)) as [|s [|]] eqn:Es; try discriminate B3.
  apply andb_prop in B3. destruct B3 as [B3 B5]. apply andb_prop in B3. destruct B3 as [B3 B4].
  exists ex_runlost, w, s. split; [apply (tameb_tame (fun _ => O)); vm_compute; reflexivity|].
  split; [apply works_ok; vm_compute; reflexivity|]. split; [apply signal_ok; vm_compute; reflexivity|].
  split; [exact A|]. split; [apply negb_true_iff, Z.eqb_neq in B1; exact B1|].
  split; [destruct (k_procs (wc w)); [reflexivity|discriminate B2]|]. rewrite Es. split; [left; reflexivity|].
  split; [apply st_eqb_eq, B3|]. split; [exact B4|]. destruct (c_cond (s_cf s)); [reflexivity|discriminate B5].
Qed.
Print Assumptions run_alive_refuted.
