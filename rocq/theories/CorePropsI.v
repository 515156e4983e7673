(** C48: a reload disturbs only what changed. *)
From Coq Require Import List String Ascii ZArith NArith Bool Lia Arith.
From Verif Require Import CondModel CoreTypes CoreModel CoreTame CoreLib CoreSpec CoreSpecD CoreReloadD CoreSettleB CoreEx CoreSpecE.
Import ListNotations.
Local Open Scope Z_scope.

(** When the configuration has been read every stanza still has the state and the
    process it had.  Marked as changed are those whose entry was edited, the new
    ones, and those that wait for one that will be restarted.  The others keep
    what they had, but for the mark that says whether they are still configured. *)
Theorem reload_disturbs_only_changed : forall n evs cfgl cmdl w c' older, history n evs cfgl cmdl w ->
  happened w c' EReconfEnd older -> exists c l, older = (c, EReconf) :: l /\ reloaded c c'.
Proof. exact reload_lem. Qed.
Print Assumptions reload_disturbs_only_changed.

(** Nothing comes between beginning to read the configuration and having done so. *)
Theorem reload_completes : forall n evs cfgl cmdl w c older, history n evs cfgl cmdl w ->
  happened w c EReconf older -> exists c', happened w c' EReconfEnd ((c, EReconf) :: older).
Proof. exact reload_ends_lem. Qed.
Print Assumptions reload_completes.

(** A stanza is going to be deleted only if the configuration, as it was last
    read, had no entry for it, or none that could be taken. *)
Theorem removed_only_if_missing : forall n evs cfgl cmdl w s, history n evs cfgl cmdl w ->
  In s (k_svcs (wc w)) -> s_removed s = true ->
  exists c0, last_read (wl w) = Some c0 /\ forall r, the_entry c0 s r -> ~ taken c0 r.
Proof. exact removed_lem. Qed.
Print Assumptions removed_only_if_missing.

(** SIGHUP goes to a process only if its stanza was edited, or waits for one that
    was, or somebody asked to reload it, since it was started or last got SIGHUP;
    or if SIGHUP is what ends it (halt:SIGHUP).  It is never sent instead of a restart
    to one whose command line was changed ([s_adirty]). *)
Theorem hup_only_if_changed : forall n evs cfgl cmdl w k p c older, no_hup_by_hand evs -> history n evs cfgl cmdl w ->
  happened w c (EKill k p 1) older ->
  exists s, record_at c k s /\ s_pid s = p /\
    (s_state s = Running /\ may_start c s /\ conds_on c s /\ c_sighup (s_cf s) = true /\ touched older k /\ s_adirty s = false \/
     c_sighalt (s_cf s) = 1).
Proof. exact hup_lem. Qed.
Print Assumptions hup_only_if_changed.

(** A running stanza stops running only if a condition is being re-established (then it is
    paused), or its process has ended, or it may not run any longer, or it lost a
    condition, or it changed, as above, and cannot be reloaded, or by request. *)
Theorem running_left_for_a_reason : forall n evs cfgl cmdl e k new c older, tame evs -> no_hup_by_hand evs ->
  during n evs cfgl cmdl e c (EState k Running new) older ->
  exists s, record_at c k s /\ s_state s = Running /\
    (new = Paused /\ ~ conds_on c s /\ ~ cond_lost c s \/ s_pid s = 0 \/ why_stopped e c older s).
Proof. exact leaves_running_lem. Qed.
Print Assumptions running_left_for_a_reason.

(** Once a reload is over, no running stanza still carries the mark of an edit:
    it was restarted or told. *)
Theorem edits_acted_upon : forall n evs cfgl cmdl w s, tame evs ->
  (forall b, ~ In (EvNorespawn b) evs) ->
  (forall r, In r (regs evs) -> c_conflict (r_cfg r) = []) ->
  (forall r m, In r (regs evs) -> In m (c_cond (r_cfg r)) -> (String.length m < 43)%nat) ->
  history n evs cfgl cmdl w -> steady (wc w) ->
  In s (k_svcs (wc w)) -> c_if (s_cf s) = [] -> s_state s = Running -> 1 < s_pid s ->
  ~ by_timer n evs cfgl cmdl (s_key s) (wl w) -> s_dirty s = false.
Proof. exact acted_lem. Qed.
Print Assumptions edits_acted_upon.

(** ** A case that meets the hypotheses *)

(** services a, which cannot be reloaded, b <pid/a>, h, x and z, all running; then
    a gets new arguments, h another setting, x is taken out *)
Definition rl_conf : list cfg :=
  [set_c_sighup false (stanza "a" TService 60 []); stanza "b" TService 60 ["pid/a"%string];
   stanza "h" TService 60 []; stanza "x" TService 60 []; stanza "z" TService 60 []].
Definition rl_up : list ev :=
  boots rl_conf [10;11;12;13;14;15;16;17] ++
  [EvBootCheck; EvWork; EvPidfile 0 (Some 10); EvPidfile 2 (Some 11); EvPidfile 3 (Some 12); EvPidfile 4 (Some 13); EvWork;
   EvPidfile 1 (Some 14); EvWork].
Definition rl_new_conf : list reg :=
  [mkReg (with_args "new" (set_c_sighup false (stanza "a" TService 60 []))) 1 true false;
   entry (stanza "b" TService 60 ["pid/a"%string]);
   mkReg (with_restart_max 5 (stanza "h" TService 60 [])) 1 true false; entry (stanza "z" TService 60 [])].
Definition rl_evs : list ev := rl_up ++ [EvConf rl_new_conf; EvReloadAll; EvReap 12 (Exited 0); EvReap 10 (Exited 0); EvPidfileDel 0;
  EvReap 14 (Exited 0); EvWork; EvPidfile 0 (Some 15); EvWork].
Lemma rl_tame : tame rl_evs /\ no_hup_by_hand rl_evs.
Proof.
  split; [apply (tameb_tame ex_rank); vm_compute; reflexivity|]. intros k.
  assert (X : forallb (fun e => match e with EvSignal _ 1 => false | _ => true end) rl_evs = true) by (vm_compute; reflexivity).
  rewrite forallb_forall in X. intros H. specialize (X _ H). discriminate X.
Qed.
(** a and b are marked, h too; z and x are not; x is marked removed, and only x *)
Example reload_ex : result 60 rl_evs 2 0 (fun w => found (fun c' x older => match x, older with
   | EReconfEnd, (c, EReconf) :: _ =>
       match map (fun s => (s_dirty s, s_removed s)) (k_svcs c') with
       | [(true, false); (true, false); (true, false); (false, true); (false, false)] =>
           forallb (fun s => st_eqb (s_state s) Running) (k_svcs c')
       | _ => false
       end
   | _, _ => false end) (wl w)) = true.
Proof. vm_compute. reflexivity. Qed.
(** afterwards a and x were sent SIGTERM, and b when a had gone, h SIGHUP, and z nothing *)
Example hup_ex : result 60 rl_evs 2 0 (fun w =>
  let has p g := found (fun _ x _ => match x with EKill _ q h => (p =? q) && (g =? h) | _ => false end) (wl w) in
  has 10 15 && has 14 15 && has 12 15 && has 11 1 &&
  negb (found (fun _ x _ => match x with EKill _ 13 _ => true | EKill _ 11 15 => true | _ => false end) (wl w))) = true.
Proof. vm_compute. reflexivity. Qed.
Example left_ex : result 60 rl_evs 2 0 (fun w => forallb (fun k =>
  found (fun _ x _ => match x with EState j Running Stopping => (j =? k)%nat | _ => false end) (wl w)) [0; 1; 3]%nat) = true.
Proof. vm_compute. reflexivity. Qed.
Example removed_ex : result 60 (rl_up ++ [EvConf rl_new_conf; EvReloadAll]) 2 0 (fun w => existsb (fun s => s_removed s && (s_key s =? 3)%nat) (k_svcs (wc w)) &&
  existsb (fun s => negb (s_removed s)) (k_svcs (wc w))) = true.
Proof. vm_compute. reflexivity. Qed.

(** at the end a, b, h and z run, and none of them is marked *)
Example acted_ex : result 60 rl_evs 2 0 (fun w => match k_sm (wc w), k_svcs (wc w) with
  | SmRunning, [a; b; h; z] => negb (k_down (wc w)) && negb (k_inrl (wc w)) && negb (k_norespawn (wc w)) &&
      forallb (fun s => st_eqb (s_state s) Running && (1 <? s_pid s) && negb (s_dirty s)) [a; b; h; z]
  | _, _ => false end) = true.
Proof. vm_compute. reflexivity. Qed.

(** ** What is excluded does happen *)

(** b <pid/a>, a: both are edited and reloaded; a gets SIGHUP, and b is paused until
    a has written its pid file anew.  Before it does the configuration is read
    once more: nothing is edited now, so the mark on b is taken off, and b goes on
    without ever being told. *)
Definition lost_a : cfg := stanza "a" TService 60 [].
Definition lost_b : cfg := stanza "b" TService 60 ["pid/a"%string].
Definition lost_evs : list ev :=
  boots [lost_a; lost_b] [10;11;12;13] ++
  [EvBootCheck; EvWork; EvPidfile 0 (Some 10); EvWork; EvPidfile 1 (Some 11); EvWork;
   EvConf [mkReg lost_a 1 true false; mkReg lost_b 1 true false]; EvReloadAll;
   EvConf [entry lost_a; entry lost_b]; EvReloadAll; EvWork; EvPidfile 0 (Some 10); EvWork].
Definition tells (k : nat) (x : eff) : bool :=
  match x with EFork j _ _ | EKill j _ 1 | EScript j _ _ => (j =? k)%nat | _ => false end.
(** somewhere in the log, and not since, the configuration was read with this entry edited *)
Fixpoint editing (k : nat) (l : log) : bool :=
  match l with
  | [] => false
  | (c, x) :: r =>
      negb (tells k x) &&
      (match x, k_conf c, k_svcs c with
       | EReconf, [ra; rb], [a; b] => (s_key b =? k)%nat && r_changed rb && String.eqb (c_name (r_cfg rb)) (c_name (s_cf b)) &&
           String.eqb (c_id (r_cfg rb)) (c_id (s_cf b)) && negb (String.eqb (c_name (r_cfg ra)) (c_name (s_cf b))) &&
           match c_ifconf (r_cfg rb), k_unavail c with [], [] => negb (only_boot (c_levels (r_cfg rb))) | _, _ => false end
       | _, _, _ => false
       end || editing k r)
  end.
Lemma editing_ok k l : editing k l = true -> exists newer c older s r, l = newer ++ (c, EReconf) :: older /\
  In s (k_svcs c) /\ s_key s = k /\ the_entry c s r /\ taken c r /\ edited r s /\
  forall c1 x, In (c1, x) newer -> tells k x = false.
Proof.
  induction l as [|[c x] l IH]; [discriminate|]. cbn [editing]. rewrite andb_true_iff, negb_true_iff, orb_true_iff.
  intros [Ht [H|H]].
  - destruct x; try discriminate H. destruct (k_conf c) as [|ra [|rb []]] eqn:Ec; try discriminate H.
    destruct (k_svcs c) as [|a [|b []]] eqn:Es; try discriminate H.
    rewrite !andb_true_iff, negb_true_iff in H. destruct H as [[[[[H1 H2] H3] H4] H5] H6].
    apply Nat.eqb_eq in H1. apply String.eqb_eq in H3, H4. apply String.eqb_neq in H5.
    destruct (c_ifconf (r_cfg rb)) eqn:Ei; [|discriminate H6]. destruct (k_unavail c) eqn:Eu; [|discriminate H6].
    apply negb_true_iff in H6.
    exists [], c, l, b, rb. split; [reflexivity|]. rewrite Es. split; [right; left; reflexivity|]. split; [exact H1|].
    split; [|split; [|split; [|intros ? ? []]]].
    + split; [split; assumption|]. exists [ra], []. rewrite Ec. split; [reflexivity|].
      intros y [<-|[]] [N _]. contradiction.
    + split; [exact Ei|]. split; [congruence|]. rewrite Eu. reflexivity.
    + left. exact H2.
  - destruct (IH H) as (newer & c0 & older & s & r & A & B). exists ((c, x) :: newer), c0, older, s, r.
    rewrite A. split; [reflexivity|]. destruct B as (B1 & B2 & B3 & B4 & B5 & B6). repeat (split; [assumption|]).
    intros c1 y [E|E]; [injection E as <- <-; exact Ht|exact (B6 _ _ E)].
Qed.
Theorem edit_reaches_refuted : exists evs w s newer c older s0 r, tame evs /\ no_hup_by_hand evs /\ history 60 evs 2 0 w /\
  steady (wc w) /\ k_work (wc w) = false /\ In s (k_svcs (wc w)) /\ s_state s = Running /\ 1 < s_pid s /\
  wl w = newer ++ (c, EReconf) :: older /\ In s0 (k_svcs c) /\ s_key s0 = s_key s /\
  the_entry c s0 r /\ taken c r /\ edited r s0 /\
  forall c1 x, In (c1, x) newer -> match x with EFork j _ _ | EKill j _ 1 | EScript j _ _ => j <> s_key s | _ => True end.
Proof.
  destruct (result_history 60 lost_evs 2 0 (fun w => match k_sm (wc w), k_svcs (wc w) with
    | SmRunning, [a; b] => negb (k_down (wc w)) && negb (k_inrl (wc w)) && negb (k_norespawn (wc w)) && negb (k_work (wc w)) &&
        st_eqb (s_state b) Running && (1 <? s_pid b) && editing (s_key b) (wl w)
    | _, _ => false end)) as (w & A & B); [vm_compute; reflexivity|].
  destruct (k_sm (wc w)) eqn:Em; try discriminate B. destruct (k_svcs (wc w)) as [|a [|b []]] eqn:Es; try discriminate B.
  rewrite !andb_true_iff, !negb_true_iff in B. destruct B as [[[[[[B1 B2] B3] B4] B5] B6] B7].
  destruct (editing_ok _ _ B7) as (newer & c & older & s0 & r & C1 & C2 & C3 & C4 & C5 & C6 & C7).
  exists lost_evs, w, b, newer, c, older, s0, r.
  split; [apply (tameb_tame ex_rank); vm_compute; reflexivity|]. split.
  { intros k. assert (X : forallb (fun e => match e with EvSignal _ 1 => false | _ => true end) lost_evs = true) by (vm_compute; reflexivity).
    rewrite forallb_forall in X. intros H. specialize (X _ H). discriminate X. }
  split; [exact A|]. split; [unfold steady; auto|]. split; [exact B4|]. rewrite Es. split; [right; left; reflexivity|].
  split; [apply CoreLib.st_eqb_eq, B5|]. split; [lia|]. repeat (split; [assumption|]).
  intros c1 x Hx. specialize (C7 _ _ Hx). destruct x; try exact I.
  - apply Nat.eqb_neq, C7.
  - destruct sig as [|[| |]|]; try exact I. apply Nat.eqb_neq, C7.
  - apply Nat.eqb_neq, C7.
Qed.
Print Assumptions edit_reaches_refuted.

(** u <pid/t>, t <pid/s>, s, read in this order; none can be reloaded.  s is edited:
    t is marked with it, but u, which waits for t, is not. *)
Definition back_conf (x : string) : list cfg :=
  map (set_c_sighup false) [stanza "u" TService 60 ["pid/t"%string]; stanza "t" TService 60 ["pid/s"%string];
    with_args x (stanza "s" TService 60 [])].
Definition back_evs : list ev :=
  boots (back_conf "old") [10;11;12;13;14;15] ++
  [EvBootCheck; EvWork; EvPidfile 2 (Some 10); EvWork; EvPidfile 1 (Some 11); EvWork; EvPidfile 0 (Some 12); EvWork;
   EvConf (map entry (back_conf "new")); EvReloadAll].
Theorem dependants_marked_refuted : exists evs w c' c l s' t' u', tame evs /\ history 60 evs 2 0 w /\
  happened w c' EReconfEnd ((c, EReconf) :: l) /\
  In s' (k_svcs c') /\ In t' (k_svcs c') /\ In u' (k_svcs c') /\ no_reload s' /\ no_reload t' /\
  s_dirty s' = true /\ waits_for t' s' /\ s_dirty t' = true /\ waits_for u' t' /\ s_dirty u' = false.
Proof.
  destruct (result_happened 60 back_evs 2 0 (fun c' x older => match x, older, k_svcs c' with
    | EReconfEnd, (c, EReconf) :: _, [u; t; s] =>
        negb (s_dirty u) && s_dirty t && s_dirty s && negb (c_sighup (s_cf s)) && negb (c_reload (s_cf s)) &&
        negb (c_sighup (s_cf t)) && negb (c_reload (s_cf t)) &&
        mem_str ("pid/" ++ ident s)%string (c_cond (s_cf t)) && mem_str ("pid/" ++ ident t)%string (c_cond (s_cf u))
    | _, _, _ => false end)) as (w & c' & x & older & A & B & C); [vm_compute; reflexivity|].
  destruct x; try discriminate C. destruct older as [|[c []] l]; try discriminate C.
  destruct (k_svcs c') as [|u [|t [|s [|]]]] eqn:Es; try discriminate C.
  rewrite !andb_true_iff, !negb_true_iff in C. destruct C as [[[[[[[[C1 C2] C3] C4] C5] C6] C7] C8] C9].
  apply existsb_exists in C8, C9. destruct C8 as (x8 & C8 & D8), C9 as (x9 & C9 & D9).
  apply String.eqb_eq in D8, D9. subst x8 x9.
  exists back_evs, w, c', c, l, s, t, u. rewrite Es.
  split; [apply (tameb_tame (fun x => if String.eqb x "u" then 2%nat else if String.eqb x "t" then 1%nat else 0%nat)); vm_compute; reflexivity|].
  unfold no_reload, waits_for. cbn [In]. intuition.
Qed.
Print Assumptions dependants_marked_refuted.
