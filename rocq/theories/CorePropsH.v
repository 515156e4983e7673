(** C47: between events there is nothing left to do. *)
From Coq Require Import List String Ascii ZArith NArith Bool Lia Arith.
From Verif Require Import CondModel CoreTypes CoreModel CoreLib CoreMicro CoreExec CoreCalm CoreSpec CoreSpecD CoreSettleB CoreEx.
Import ListNotations.
Local Open Scope Z_scope.

(** Once an event has been dealt with, and no runlevel change or reload is being
    carried out, there is nothing to do for any stanza (without an if: guard):
    what is halted must not run; what is waiting lacks a condition; what is
    running may run and has its conditions; what is paused waits for a condition
    that is being re-established; what is on its way down still has a process.
    A stanza that waits or is paused may have all it needs only if a step of all
    stanzas is scheduled already. *)
Theorem settled_between_events : forall n evs cfgl cmdl w s, tame evs ->
  (forall b, ~ In (EvNorespawn b) evs) ->
  (forall r, In r (regs evs) -> c_conflict (r_cfg r) = []) ->
  (forall r m, In r (regs evs) -> In m (c_cond (r_cfg r)) -> (String.length m < 43)%nat) ->
  history n evs cfgl cmdl w -> steady (wc w) ->
  In s (k_svcs (wc w)) -> c_if (s_cf s) = [] ->
  settled n evs cfgl cmdl (wc w) (wl w) s.
Proof. intros n evs cfgl cmdl w s H1 H2 H3 H4. exact (settled_lem n evs cfgl cmdl H1 H2 H3 H4 w s). Qed.
Print Assumptions settled_between_events.

(** What may run and has all its conditions is not halted, waiting or paused. *)
Theorem wanted_started : forall n evs cfgl cmdl w s, tame evs ->
  (forall b, ~ In (EvNorespawn b) evs) ->
  (forall r, In r (regs evs) -> c_conflict (r_cfg r) = []) ->
  (forall r m, In r (regs evs) -> In m (c_cond (r_cfg r)) -> (String.length m < 43)%nat) ->
  history n evs cfgl cmdl w -> steady (wc w) -> k_work (wc w) = false ->
  In s (k_svcs (wc w)) -> c_if (s_cf s) = [] -> may_start (wc w) s -> conds_on (wc w) s ->
  s_state s <> Halted /\ s_state s <> Waiting /\ (s_state s = Paused -> s_pid s <= 1).
Proof. exact wanted_lem. Qed.
Print Assumptions wanted_started.

(** What must not run is down, or has a process that was not yet reaped (and was
    asked to end), or was made running by its restart timer. *)
Theorem unwanted_stopped : forall n evs cfgl cmdl w s, tame evs ->
  (forall b, ~ In (EvNorespawn b) evs) ->
  (forall r, In r (regs evs) -> c_conflict (r_cfg r) = []) ->
  (forall r m, In r (regs evs) -> In m (c_cond (r_cfg r)) -> (String.length m < 43)%nat) ->
  history n evs cfgl cmdl w -> steady (wc w) ->
  In s (k_svcs (wc w)) -> c_if (s_cf s) = [] -> ~ may_start (wc w) s -> 1 < s_pid s ->
  ~ by_timer n evs cfgl cmdl (s_key s) (wl w) ->
  s_state s = Stopping \/ s_state s = Teardown \/ s_state s = Cleanup \/ s_state s = Done \/ s_state s = Dead \/ s_state s = Halted.
Proof. exact unwanted_lem. Qed.
Print Assumptions unwanted_stopped.

(** What runs has all its conditions. *)
Theorem lost_stopped : forall n evs cfgl cmdl w s, tame evs ->
  (forall b, ~ In (EvNorespawn b) evs) ->
  (forall r, In r (regs evs) -> c_conflict (r_cfg r) = []) ->
  (forall r m, In r (regs evs) -> In m (c_cond (r_cfg r)) -> (String.length m < 43)%nat) ->
  history n evs cfgl cmdl w -> steady (wc w) ->
  In s (k_svcs (wc w)) -> c_if (s_cf s) = [] -> s_state s = Running -> 1 < s_pid s ->
  ~ by_timer n evs cfgl cmdl (s_key s) (wl w) -> conds_on (wc w) s.
Proof. exact lost_lem. Qed.
Print Assumptions lost_stopped.

(** ** A case that meets the hypotheses *)
Definition untouched (evs : list ev) : bool :=
  forallb (fun e => match e with EvNorespawn _ => false | _ => true end) evs &&
  forallb (fun r => match c_conflict (r_cfg r) with [] => true | _ => false end) (regs evs) &&
  forallb (fun r => forallb (fun m => Nat.ltb (String.length m) 43) (c_cond (r_cfg r))) (regs evs).
Lemma untouched_ok evs : untouched evs = true ->
  (forall b, ~ In (EvNorespawn b) evs) /\
  (forall r, In r (regs evs) -> c_conflict (r_cfg r) = []) /\
  (forall r m, In r (regs evs) -> In m (c_cond (r_cfg r)) -> (String.length m < 43)%nat).
Proof.
  unfold untouched. rewrite !andb_true_iff. intros [[H1 H2] H3]. rewrite forallb_forall in H1, H2, H3.
  split; [|split].
  - intros b Hb. specialize (H1 _ Hb). discriminate H1.
  - intros r Hr. specialize (H2 _ Hr). cbv beta in H2. destruct (c_conflict (r_cfg r)); [reflexivity|discriminate H2].
  - intros r m Hr Hm. specialize (H3 _ Hr). cbv beta in H3. rewrite forallb_forall in H3. apply Nat.ltb_lt, H3, Hm.
Qed.
Definition steadyb (c : core) : bool :=
  match k_sm c with SmBootstrapWait | SmRunning => negb (k_down c) && negb (k_inrl c) && negb (k_norespawn c) | _ => false end.
Lemma steadyb_ok c : steadyb c = true -> steady c.
Proof.
  unfold steadyb, steady. destruct (k_sm c); try discriminate; rewrite !andb_true_iff, !negb_true_iff; tauto.
Qed.

(** services d <pid/c>, c <pid/b>, b <pid/a>, a, all running; then a reload *)
Definition chain : list cfg :=
  [stanza "d" TService 60 ["pid/c"%string]; stanza "c" TService 60 ["pid/b"%string];
   stanza "b" TService 60 ["pid/a"%string]; stanza "a" TService 60 []].
Definition chain_rank (x : string) : nat :=
  if String.eqb x "d" then 3%nat else if String.eqb x "c" then 2%nat else if String.eqb x "b" then 1%nat else 0%nat.
Definition chain_up : list ev :=
  boots chain [10;11;12;13;14;15;16] ++
  [EvBootCheck; EvWork; EvPidfile 3 (Some 10); EvWork; EvPidfile 2 (Some 11); EvWork; EvPidfile 1 (Some 12); EvWork;
   EvPidfile 0 (Some 13)].
Example settled_ex : tame (chain_up ++ [EvReloadAll; EvWork]) /\ untouched (chain_up ++ [EvReloadAll; EvWork]) = true /\
  result 60 (chain_up ++ [EvReloadAll; EvWork; EvWork]) 2 0 (fun w => steadyb (wc w) && negb (k_work (wc w)) &&
    forallb (fun s => st_eqb (s_state s) Running && (1 <? s_pid s)) (k_svcs (wc w))) = true.
Proof. split; [apply (tameb_tame chain_rank); vm_compute; reflexivity|]. split; vm_compute; reflexivity. Qed.
(** a loses its process: the others are asked to stop, one after the other *)
Example settled_ex2 : tame (chain_up ++ [EvReap 10 (Exited 0); EvPidfileDel 3]) /\ untouched (chain_up ++ [EvReap 10 (Exited 0)]) = true /\
  result 60 (chain_up ++ [EvReap 10 (Exited 0); EvPidfileDel 3]) 2 0 (fun w => steadyb (wc w) &&
    existsb (fun s => st_eqb (s_state s) Stopping && (1 <? s_pid s)) (k_svcs (wc w)) &&
    existsb (fun s => st_eqb (s_state s) Halted && negb (enabled (wc w) s)) (k_svcs (wc w))) = true.
Proof. split; [apply (tameb_tame chain_rank); vm_compute; reflexivity|]. split; vm_compute; reflexivity. Qed.

(** ** What is excluded does happen *)

(** Right after the reload d is still paused although all its conditions are on:
    only the step of all stanzas that is scheduled will let it go on. *)
Theorem settled_paused_refuted : exists evs w s, tame evs /\ untouched evs = true /\ history 60 evs 2 0 w /\ steady (wc w) /\
  In s (k_svcs (wc w)) /\ c_if (s_cf s) = [] /\ may_start (wc w) s /\ conds_on (wc w) s /\ s_state s = Paused /\ 1 < s_pid s /\
  k_work (wc w) = true.
Proof.
  destruct (result_history 60 (chain_up ++ [EvReloadAll]) 2 0 (fun w => steadyb (wc w) && k_work (wc w) && existsb (fun s =>
     match c_if (s_cf s), s_state s, cond_get_agg (k_cond (wc w)) (c_cond (s_cf s)) with [], Paused, COn => enabled (wc w) s && (1 <? s_pid s) | _, _, _ => false end) (k_svcs (wc w))))
    as (w & A & B); [vm_compute; reflexivity|].
  apply andb_prop in B. destruct B as [B0 B]. apply andb_prop in B0. destruct B0 as [B1 B2].
  apply existsb_exists in B. destruct B as (s & Hs & B). exists (chain_up ++ [EvReloadAll]), w, s.
  split; [apply (tameb_tame chain_rank); vm_compute; reflexivity|]. split; [vm_compute; reflexivity|]. split; [exact A|].
  split; [apply steadyb_ok, B1|]. split; [exact Hs|]. clear A.
  destruct (c_if (s_cf s)); [|discriminate B]. destruct (s_state s); try discriminate B.
  destruct (cond_get_agg _ _) eqn:Ea; try discriminate B. apply andb_prop in B. destruct B as [B3 B4].
  split; [reflexivity|]. split; [apply enabled_start, B3|]. split; [apply agg_conds, Ea|].
  split; [reflexivity|]. split; [apply Z.ltb_lt, B4|exact B2].
Qed.
Print Assumptions settled_paused_refuted.

(** service a conflict:b, service <usr/y> b: b runs, so a is halted.  When b
    crashes, a is unblocked, but nobody steps it again: it stays halted. *)
Definition rivals_evs : list ev :=
  boots [with_conflict ["b"%string] (stanza "a" TService 60 []); stanza "b" TService 60 ["usr/y"%string]] [10;11;12] ++
  [EvBootCheck; EvCondSet "usr/y"; EvWork; EvPidfile 1 (Some 10); EvWork; EvReap 10 (Signaled 11); EvWork; EvInterval; EvWork].
(** service a if:<usr/x>: the condition is set, and nobody steps a *)
Definition guarded_evs : list ev :=
  boots [with_cond_if [(false, "usr/x"%string)] (stanza "a" TService 60 []); stanza "b" TService 60 []] [10;11;12] ++
  [EvBootCheck; EvWork; EvPidfile 1 (Some 10); EvWork; EvCondSet "usr/x"; EvWork; EvInterval].
(** service <usr/aaa…a> a, a name of more than 43 characters: the condition with
    one more character at its end is stored in the same place *)
Definition longname : string := "usr/aaaaaaaaaaaaaaaaaaaaaaaaaaaaaaaaaaaaaaaaaa".
Definition long_evs : list ev :=
  boots [stanza "a" TService 60 [longname]] [10;11;12] ++
  [EvBootCheck; EvWork; EvCondSet (longname ++ "b")%string; EvWork; EvInterval].

(** a stanza that may run and has all its conditions is halted or waiting, and
    nothing is scheduled *)
Definition stuck (w : world) : Prop := steady (wc w) /\ k_work (wc w) = false /\
  exists s, In s (k_svcs (wc w)) /\ may_start (wc w) s /\ conds_on (wc w) s /\ (s_state s = Halted \/ s_state s = Waiting).
Definition stuckb (w : world) : bool := steadyb (wc w) && negb (k_work (wc w)) &&
  existsb (fun s => enabled (wc w) s && cs_eqb (cond_get_agg (k_cond (wc w)) (c_cond (s_cf s))) COn &&
     (st_eqb (s_state s) Halted || st_eqb (s_state s) Waiting)) (k_svcs (wc w)).
Lemma stuckb_ok w : stuckb w = true -> stuck w.
Proof.
  unfold stuckb, stuck. rewrite !andb_true_iff, negb_true_iff. intros [[H1 H2] H3].
  split; [apply steadyb_ok, H1|]. split; [exact H2|]. apply existsb_exists in H3. destruct H3 as (s & Hs & H3).
  rewrite !andb_true_iff, orb_true_iff in H3. destruct H3 as [[A B] C]. exists s. split; [exact Hs|].
  split; [apply enabled_start, A|]. split; [apply agg_conds; apply cs_eqb_eq, B|].
  destruct C as [C|C]; apply st_eqb_eq in C; auto.
Qed.
Theorem settled_conflict_refuted : exists evs w, tame evs /\ history 60 evs 2 0 w /\ stuck w /\
  (forall b, ~ In (EvNorespawn b) evs) /\ (forall s, In s (k_svcs (wc w)) -> c_if (s_cf s) = []) /\
  (forall s, In s (k_svcs (wc w)) -> s_state s <> Running).
Proof.
  destruct (result_history 60 rivals_evs 2 0 (fun w => stuckb w && forallb (fun s => negb (st_eqb (s_state s) Running) &&
    match c_if (s_cf s) with [] => true | _ => false end) (k_svcs (wc w)))) as (w & A & B); [vm_compute; reflexivity|].
  apply andb_prop in B. destruct B as [B C]. rewrite forallb_forall in C. exists rivals_evs, w.
  split; [apply (tameb_tame ex_rank); vm_compute; reflexivity|]. split; [exact A|]. split; [apply stuckb_ok, B|].
  split; [|split].
  - assert (X : forallb (fun e => match e with EvNorespawn _ => false | _ => true end) rivals_evs = true) by (vm_compute; reflexivity).
    rewrite forallb_forall in X. intros b H. specialize (X _ H). discriminate X.
  - intros s Hs. specialize (C _ Hs). cbv beta in C. apply andb_prop in C. destruct C as [_ C]. destruct (c_if (s_cf s)); [reflexivity|discriminate C].
  - intros s Hs. specialize (C _ Hs). cbv beta in C. apply andb_prop in C. destruct C as [C _]. apply negb_true_iff in C.
    intros E. rewrite E in C. discriminate C.
Qed.
Print Assumptions settled_conflict_refuted.
Theorem settled_guard_refuted : exists evs w, tame evs /\ untouched evs = true /\ history 60 evs 2 0 w /\ stuck w.
Proof.
  destruct (result_history 60 guarded_evs 2 0 stuckb) as (w & A & B); [vm_compute; reflexivity|]. exists guarded_evs, w.
  split; [apply (tameb_tame ex_rank); vm_compute; reflexivity|]. split; [vm_compute; reflexivity|].
  split; [exact A|apply stuckb_ok, B].
Qed.
Print Assumptions settled_guard_refuted.
Theorem settled_longname_refuted : exists evs w, tame evs /\ history 60 evs 2 0 w /\ stuck w /\
  (forall s, In s (k_svcs (wc w)) -> c_if (s_cf s) = [] /\ c_conflict (s_cf s) = []).
Proof.
  destruct (result_history 60 long_evs 2 0 (fun w => stuckb w && forallb (fun s => match c_if (s_cf s), c_conflict (s_cf s) with [], [] => true | _, _ => false end) (k_svcs (wc w)))) as (w & A & B); [vm_compute; reflexivity|].
  apply andb_prop in B. destruct B as [B C]. rewrite forallb_forall in C. exists long_evs, w.
  split; [apply (tameb_tame ex_rank); vm_compute; reflexivity|]. split; [exact A|]. split; [apply stuckb_ok, B|].
  intros s Hs. specialize (C _ Hs). cbv beta in C. destruct (c_if (s_cf s)); [|discriminate C].
  destruct (c_conflict (s_cf s)); [auto|discriminate C].
Qed.
Print Assumptions settled_longname_refuted.
