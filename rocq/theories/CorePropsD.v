(** Theorems about crashing stanzas (C10).  Each proof only applies a lemma of
    CoreCrash. *)
From Coq Require Import List String Ascii ZArith NArith Bool Lia Arith.
From Verif Require Import CondModel CoreTypes CoreModel CoreTame CoreSpec CoreSpecB CoreCrash CoreEx CorePropsC.
Import ListNotations.
Local Open Scope Z_scope.

(** ** C10 *)

(** If every stanza of that name and instance has a limit between 0 and [m], and
    [m] is at most 127: it is restarted after crashes at most [m] times, and once
    more for each time a crash was forgiven. *)
Theorem crash_limit : forall evs, tame evs -> sockets_work evs -> no_lock evs ->
  forall id m, m <= 127 -> limit evs id m ->
  forall n cfgl cmdl w s, history n evs cfgl cmdl w -> In s (k_svcs (wc w)) -> identity s = id ->
  starts_work (s_key s) (wl w) -> retries (s_key s) (wl w) <= m + forgiven (s_key s) (wl w).
Proof. exact retries_lem. Qed.
Print Assumptions crash_limit.

(** When the restart timer of a crashed stanza runs out, it is restarted if the
    limit is not reached, and given up if it is. *)
Theorem crash_retry : forall evs, tame evs -> sockets_work evs -> no_lock evs ->
  forall id m, m <= 127 -> limit evs id m ->
  forall n cfgl cmdl w1 fuel s w2 d, history n evs cfgl cmdl w1 -> ~ over w1 -> In s (k_svcs (wc w1)) ->
  identity s = id -> starts_work (s_key s) (wl w1) ->
  s_timer s = TmArmed TcRetry d -> s_state s = Halted -> s_block s = BRestarting -> c_respawn (s_cf s) = false ->
  on_event fuel (EvTimer (s_key s)) w1 = Some (tt, w2) ->
  (retries (s_key s) (wl w1) < c_restart_max (s_cf s) ->
     exists newer c, wl w2 = newer ++ (c, ERetry (s_key s)) :: wl w1) /\
  (c_restart_max (s_cf s) + forgiven (s_key s) (wl w1) <= retries (s_key s) (wl w1) ->
     exists newer c, wl w2 = newer ++ (c, EGiveup (s_key s)) :: wl w1).
Proof. exact retry_lem. Qed.
Print Assumptions crash_retry.

(** A stanza that was given up is not started until someone asks for it or a
    configuration is loaded. *)
Theorem crash_given_up : forall evs, tame evs -> forall n cfgl cmdl w k p c older, history n evs cfgl cmdl w ->
  happened w c (EFork k FMain p) older -> ~ given_up k older.
Proof. exact given_up_lem. Qed.
Print Assumptions crash_given_up.

(** a service with limit [m] that has crashed [n] times *)
Definition pids (n : nat) : list Z := map Z.of_nat (seq 10 n).
Definition ex_crashes (m : Z) (n : nat) : list ev :=
  boots [with_restart_max m (stanza "a" TService 60 [])] (pids (n + 1)) ++ [EvBootCheck; EvWork] ++
  flat_map (fun p => [EvReap p (Exited 1); EvTimer 0]) (pids n).

Lemma starts_ok k l : forallb (fun a => match snd a with EForkFail k' FMain | EState k' Paused Waiting => negb (k' =? k)%nat | _ => true end) l = true ->
  starts_work k l.
Proof.
  intros H c x Hi. rewrite forallb_forall in H. specialize (H _ Hi). cbn in H.
  split; intros ->; rewrite Nat.eqb_refl in H; discriminate H.
Qed.
Lemma lock_ok evs : forallb (fun e => match e with EvNorespawn true => false | _ => true end) evs = true -> no_lock evs.
Proof. intros H X. rewrite forallb_forall in H. specialize (H _ X). discriminate H. Qed.
Lemma limit_ok evs id m : forallb (fun r => (0 <=? c_restart_max (r_cfg r)) && (c_restart_max (r_cfg r) <=? m)) (regs evs) = true -> limit evs id m.
Proof. intros H r Hr _. rewrite forallb_forall in H. specialize (H _ Hr). lia. Qed.

(** three restarts, then the fourth crash *)
Example crash_limit_ex : tame (ex_crashes 3 4) /\ sockets_work (ex_crashes 3 4) /\ no_lock (ex_crashes 3 4) /\
  limit (ex_crashes 3 4) ("a", "")%string 3 /\
  (exists w s, history 60 (ex_crashes 3 3) 2 0 w /\ In s (k_svcs (wc w)) /\ identity s = ("a", "")%string /\
     starts_work (s_key s) (wl w) /\ retries (s_key s) (wl w) = 3 /\ s_state s = Running) /\
  exists w, history 60 (ex_crashes 3 4) 2 0 w /\ found (fun _ x _ => match x with EGiveup 0 => true | _ => false end) (wl w) = true.
Proof.
  split; [apply (tameb_tame (fun _ => O)); vm_compute; reflexivity|]. split; [apply works_ok; vm_compute; reflexivity|].
  split; [apply lock_ok; vm_compute; reflexivity|]. split; [apply limit_ok; vm_compute; reflexivity|]. split.
  - destruct (result_history 60 (ex_crashes 3 3) 2 0 (fun w => match k_svcs (wc w) with [s] =>
      String.eqb (c_name (s_cf s)) "a" && String.eqb (c_id (s_cf s)) "" && (retries (s_key s) (wl w) =? 3) && st_eqb (s_state s) Running &&
      forallb (fun a => match snd a with EForkFail k' FMain | EState k' Paused Waiting => negb (k' =? s_key s)%nat | _ => true end) (wl w) | _ => false end))
      as (w & A & B); [vm_compute; reflexivity|].
    destruct (k_svcs (wc w)) as [|s [|]] eqn:Es; try discriminate B.
    apply andb_prop in B. destruct B as [B B5]. apply andb_prop in B. destruct B as [B B4]. apply andb_prop in B. destruct B as [B B3].
    apply andb_prop in B. destruct B as [B1 B2]. exists w, s. split; [exact A|]. rewrite Es. split; [left; reflexivity|].
    apply String.eqb_eq in B1, B2. split; [unfold identity; rewrite B1, B2; reflexivity|]. split; [apply starts_ok, B5|]. split; [lia|].
    destruct (s_state s); try discriminate B4. reflexivity.
  - apply result_history. vm_compute. reflexivity.
Qed.

(** A limit above 127 is never reached: 202 restarts where 200 are allowed. *)
Theorem crash_limit_refuted : exists evs w s, tame evs /\ sockets_work evs /\ no_lock evs /\ limit evs ("a", "")%string 200 /\
  history 60 evs 2 0 w /\ In s (k_svcs (wc w)) /\ identity s = ("a", "")%string /\ starts_work (s_key s) (wl w) /\
  retries (s_key s) (wl w) = 202 /\ forgiven (s_key s) (wl w) = 0 /\ s_state s = Running.
Proof.
  destruct (result_history 60 (ex_crashes 200 202) 2 0 (fun w => match k_svcs (wc w) with [s] =>
      String.eqb (c_name (s_cf s)) "a" && String.eqb (c_id (s_cf s)) "" && (retries (s_key s) (wl w) =? 202) && st_eqb (s_state s) Running &&
      forallb (fun a => match snd a with EForkFail k' FMain | EState k' Paused Waiting => negb (k' =? s_key s)%nat | _ => true end) (wl w) &&
      (forgiven (s_key s) (wl w) =? 0) | _ => false end))
      as (w & A & B); [vm_compute; reflexivity|].
  destruct (k_svcs (wc w)) as [|s [|]] eqn:Es; try discriminate B.
  apply andb_prop in B. destruct B as [B B6]. apply andb_prop in B. destruct B as [B B5]. apply andb_prop in B. destruct B as [B B4].
  apply andb_prop in B. destruct B as [B B3]. apply andb_prop in B. destruct B as [B1 B2].
  exists (ex_crashes 200 202), w, s. split; [apply (tameb_tame (fun _ => O)); vm_compute; reflexivity|].
  split; [apply works_ok; vm_compute; reflexivity|]. split; [apply lock_ok; vm_compute; reflexivity|].
  split; [apply limit_ok; vm_compute; reflexivity|]. split; [exact A|]. rewrite Es. split; [left; reflexivity|].
  apply String.eqb_eq in B1, B2. split; [unfold identity; rewrite B1, B2; reflexivity|]. split; [apply starts_ok, B5|].
  split; [lia|]. split; [lia|]. destruct (s_state s); try discriminate B4. reflexivity.
Qed.
