(** What is known about every entry of the supervisor's log.

    [fact] lists, for each visible effect, what holds in the state in which
    it happens; [micro_facts] proves it for every atomic change, hence for
    every history. *)
From Coq Require Import List String Ascii ZArith Bool Lia Arith Relations.
From Coq Require Import ZifyBool ZifyNat.
From Verif Require Import CondModel CoreTypes CoreModel CoreLib CoreMicro CoreExec.
Import ListNotations.
Local Open Scope Z_scope.



Section Facts.
Variable calm : Prop.
Variable e : ev.

(** why record [s] (in state [c]) goes to state [new] *)
Inductive edge (c : core) (s : svc) : sst -> log -> Prop :=
  | e_halt_wait l : s_state s = Halted -> enabled c s = true -> edge c s Waiting l
  | e_halt_dead l : s_state s = Halted -> enabled c s = false -> s_removed s = true -> edge c s Dead l
  | e_tear_clean l : s_state s = Teardown -> s_pid s = 0 -> s_removed s = true ->
      c_cleanup (s_cf s) = true -> edge c s Cleanup l
  | e_tear_halt l : s_state s = Teardown -> s_pid s = 0 -> s_removed s && c_cleanup (s_cf s) = false -> edge c s Halted l
  | e_clean_halt l : s_state s = Cleanup -> s_pid s = 0 -> edge c s Halted l
  | e_done_halt l : s_state s = Done -> s_dirty s = true -> edge c s Halted l
  | e_done_wait l : (calm -> is_runtask s = true /\ c_manual (s_cf s) = true /\
                       (s_state s = Done \/ s_state s = Halted)) -> edge c s Waiting l
  | e_stop_done l : is_runtask s = true -> (calm -> s_state s = Stopping /\ s_pid s = 0) -> edge c s Done l
  | e_stop_tear l : is_runtask s = false -> c_post (s_cf s) = true ->
      (calm -> s_state s = Stopping /\ s_pid s = 0) -> edge c s Teardown l
  | e_stop_clean l : is_runtask s = false -> c_post (s_cf s) = false -> s_removed s = true ->
      c_cleanup (s_cf s) = true -> (calm -> s_state s = Stopping /\ s_pid s = 0) -> edge c s Cleanup l
  | e_stop_halt l : is_runtask s = false -> c_post (s_cf s) = false ->
      s_removed s && c_cleanup (s_cf s) = false ->
      (calm -> s_state s = Stopping /\ s_pid s = 0) -> edge c s Halted l
  | e_setup_fail l : s_state s = Setup -> enabled c s = true -> s_pid s = 0 ->
      negb (wifexited (s_status s)) || negb (wexitstatus (s_status s) =? 0) = true -> edge c s Stopping l
  | e_setup_start l : s_state s = Setup -> enabled c s = true -> s_pid s = 0 ->
      wifexited (s_status s) = true -> wexitstatus (s_status s) = 0 -> edge c s Starting l
  | e_wait_halt l : s_state s = Waiting -> enabled c s = false -> edge c s Halted l
  | e_wait_conflict l : s_state s = Waiting -> s_block s = BConflict -> edge c s Halted l
  | e_wait_go l : s_state s = Waiting -> enabled c s = true -> agg c s = COn -> k_inrl c = false ->
      k_norespawn c = false -> conflicts c s = false ->
      edge c s (if c_pre (s_cf s) then Setup else Starting) l
  | e_start_halt l : s_state s = Starting -> enabled c s = false -> edge c s Halted l
  | e_start_missing l : s_state s = Starting -> s_block s = BMissing ->
      mem_str (ident s) (k_unavail c) = true -> edge c s Halted l
  | e_start_ok l : s_state s = Starting -> 1 < s_pid s ->
      (exists c0 l0, l = (c0, EFork (s_key s) FMain (s_pid s)) :: l0) -> edge c s Running l
  | e_run_died l : s_state s = Running -> s_pid s = 0 -> s_block s = BRestarting ->
      is_daemon s || is_tty s = true -> edge c s Halted l
  | e_run_done l : s_state s = Running -> enabled c s = true -> s_pid s = 0 -> is_runtask s = true ->
      edge c s Stopping l
  | e_run_pause l : s_state s = Running -> enabled c s = true -> s_pid s <> 0 -> agg c s = CFlux ->
      (exists c0 l0, l = (c0, EKill (s_key s) (s_pid s) 19) :: l0) -> edge c s Paused l
  | e_paused_wait l : s_state s = Paused -> enabled c s = true -> s_pid s = 0 -> edge c s Waiting l
  | e_paused_run l : s_state s = Paused -> enabled c s = true -> s_pid s <> 0 -> agg c s = COn ->
      (exists c0 l0, l = (c0, EKill (s_key s) (s_pid s) 18) :: l0) -> edge c s Running l
  | e_sstop_gone l : stopwhy e c s -> (st_num Stopping < st_num (s_state s))%nat -> plain s = true -> s_pid s = 0 ->
      edge c s Halted l
  | e_sstop_kill l : stopwhy e c s -> (st_num Stopping < st_num (s_state s))%nat -> plain s = true -> 1 < s_pid s ->
      alive c (s_pid s) = true ->
      (exists c0 l0, l = (c0, EKill (s_key s) (s_pid s) (c_sighalt (s_cf s))) :: l0) ->
      edge c s Stopping l
  | e_sstop_script l rc : stopwhy e c s -> (st_num Stopping < st_num (s_state s))%nat -> c_stop (s_cf s) = true ->
      (exists c0 l0, l = (c0, EScript (s_key s) KStop rc) :: l0) ->
      edge c s (if rc =? 1 then Halted else Stopping) l
  | e_sstop_sysv l p : stopwhy e c s -> (st_num Stopping < st_num (s_state s))%nat -> c_stop (s_cf s) = false ->
      is_sysv s = true ->
      (exists c0 l0, l = (c0, EFork (s_key s) FSysvStop p) :: l0) -> edge c s Stopping l
  | e_sstop_sysvfail l : stopwhy e c s -> (st_num Stopping < st_num (s_state s))%nat -> c_stop (s_cf s) = false ->
      is_sysv s = true -> edge c s Halted l
  | e_rthalt l : is_runtask s = true -> s_state s = Done -> edge c s Halted l
  | e_retry_up l : s_state s <> Halted \/ s_block s <> BRestarting -> e = EvTimer (s_key s) ->
      edge c s Running l
  | e_forked l p : e = EvPidfile (s_key s) p -> c_forking (s_cf s) = true ->
      is_script_state (s_state s) = false -> s_state s <> Stopping -> edge c s Running l.

(** why a signal is sent for record [k] *)
Inductive killwhy (c : core) (k : nat) : Z -> Z -> Prop :=
  | kw_stop s : lookup_svc c k = Some s -> stopwhy e c s ->
      (st_num Stopping < st_num (s_state s))%nat -> plain s = true -> 1 < s_pid s ->
      alive c (s_pid s) = true -> killwhy c k (s_pid s) (c_sighalt (s_cf s))
  | kw_pause s : lookup_svc c k = Some s -> s_state s = Running -> enabled c s = true ->
      s_pid s <> 0 -> agg c s = CFlux -> killwhy c k (s_pid s) 19
  | kw_cont s : lookup_svc c k = Some s -> s_state s = Paused ->
      enabled c s = false \/ s_pid s <> 0 -> killwhy c k (s_pid s) 18
  | kw_hup s : lookup_svc c k = Some s -> s_state s = Running -> enabled c s = true ->
      agg c s = COn -> s_dirty s = true -> s_adirty s = false -> c_sighup (s_cf s) = true -> 1 < s_pid s ->
      killwhy c k (s_pid s) 1
  | kw_kill s : lookup_svc c k = Some s -> 1 < s_pid s -> alive c (s_pid s) = true ->
      killwhy c k (s_pid s) 9
  | kw_script s : lookup_svc c k = Some s -> 1 < s_pid s ->
      s_timer s = TmStale TcKillScript -> killwhy c k (s_pid s) 9
  | kw_ready p : In (p, k) (k_assoc c) -> 1 < p -> killwhy c k p 9
  | kw_group lost s : find_pid lost (k_svcs c) = Some s -> s_key s = k -> 1 < lost -> killwhy c k (- lost) 9
  | kw_rgroup q : In (q, k) (k_assoc c) -> 1 < q -> killwhy c k (- q) 9
  | kw_user s sig : lookup_svc c k = Some s -> e = EvSignal k sig -> s_state s = Running ->
      killwhy c k (s_pid s) sig.

Definition fork_ok (c : core) (p : Z) : Prop := 1 < p /\ memZ p (k_procs c) = false.

Definition fact (c : core) (x : eff) (l : log) : Prop :=
  match x with
  | EFork k f p =>
      fork_ok c p /\
      match f with
      | FMain => exists s, lookup_svc c k = Some s /\ s_state s = Starting /\ enabled c s = true /\
                   k_norespawn c = false /\ k_runblk c = 0 /\
                   mem_str (ident s) (k_unavail c) = false /\ (calm -> In k (keys c))
      | FReady => calm -> exists s, lookup_svc c k = Some s /\ c_ready (s_cf s) = true
      | FSysvStop => exists s, lookup_svc c k = Some s /\ is_sysv s = true /\
                       (st_num Stopping < st_num (s_state s))%nat
      | _ => calm -> exists s, lookup_svc c k = Some s /\ aux_guard f s
      end
  | EForkFail k FMain => exists s, lookup_svc c k = Some s /\ s_state s = Starting /\ enabled c s = true
  | EForkFail _ _ => True
  | EKill k p sig => killwhy c k p sig
  | EScript k KStop _ => exists s, lookup_svc c k = Some s /\ c_stop (s_cf s) = true /\
                           (st_num Stopping < st_num (s_state s))%nat
  | EScript k _ _ => exists s, lookup_svc c k = Some s /\ c_reload (s_cf s) = true /\
                       s_state s = Running /\ enabled c s = true /\ agg c s = COn
  | EState k old new => exists s, lookup_svc c k = Some s /\ s_state s = old /\ old <> new /\
                          s_key s = k /\ edge c s new l
  | ESelfTerm k => exists s, lookup_svc c k = Some s /\ c_oncrash (s_cf s) = OcReboot /\ s_block s = BCrashing
  | EHook _ => True
  | EShutdown s => s = k_halt c /\
      ((k_rl c = 0 \/ k_rl c = 6) /\ clean_pending c = false \/ k_emerg c = true)
  | EUaf k => lookup_svc c k = None /\
      (calm -> (exists a cb ms, e = EvTimer k /\
                 find (fun a => Nat.eqb (fst a) k) (k_freed c) = Some (a, TmArmed cb ms)) \/
               exists q, In (q, k) (k_assoc c))
  | ERetry k => exists s, lookup_svc c k = Some s /\ s_state s = Halted /\ s_block s = BRestarting /\
      c_respawn (s_cf s) = false /\
      (c_restart_max (s_cf s) = -1 \/ s_rcnt s < c_restart_max (s_cf s)) /\ (calm -> In k (keys c))
  | EGiveup k => exists s, lookup_svc c k = Some s /\ s_state s = Halted /\ s_block s = BRestarting /\
      c_restart_max (s_cf s) <> -1 /\ c_restart_max (s_cf s) <= s_rcnt s /\ (calm -> In k (keys c))
  | ERunlevel old new => old = k_rl c /\ new = k_newl c /\ k_sm c = SmRlChange /\
      (calm -> 0 <= new <= 9 /\ old <> new)
  | EReconf | EReconfEnd => True
  | EStopBegin => calm -> k_sm c = SmRlChange \/ k_sm c = SmReChange
  | EStopEnd => (k_sm c = SmRlWait \/ k_sm c = SmReWait) /\ stop_pending c = false
  | EStartBegin => calm -> (k_sm c = SmRlWait \/ k_sm c = SmReWait) /\ lastmark l = Some MkEnd
  | ETick => True
  | ERequest k r => reserved (k_rl c) = false /\ exists s, find_key k (k_svcs c) = Some s /\
      match r with
      | RqStop => e = EvStop k
      | RqStart => e = EvStart k
      | RqRestart => e = EvRestart k
      | RqReload => e = EvReload k
      end
  | ECond o => cwhy calm e (mkWorld c l) o \/
      exists k s, lookup_svc c k = Some s /\ is_runtask s = true /\ s_state s = Done /\
        o = OpOneshot (if succeeded s then successcond s else failurecond s)
  | EForget k p => exists s, lookup_svc c k = Some s /\ s_pid s = p /\ p <> 0 /\
      only_boot (c_levels (s_cf s)) = true
  | EExit k p st => 1 < p /\ exists s, find_pid p (k_svcs c) = Some s /\ s_key s = k
  | EAsk n => asked calm e c n
  | EHalt s => asked_halt e s
  | EBooted b => e = EvBootCheck /\ b = negb (completed c)
  end.

Fixpoint facts (new old : log) : Prop :=
  match new with
  | [] => True
  | (c, x) :: r => fact c x (r ++ old) /\ facts r old
  end.

Definition logs (w w' : world) : Prop := exists new, wl w' = new ++ wl w /\ facts new (wl w).

Lemma logs_refl w : logs w w. Proof. exists []. split; [reflexivity|exact I]. Qed.
Lemma logs_mod f w w' : logs w w' -> logs w (wmod f w'). Proof. intros H; exact H. Qed.
Lemma logs_upd k f w w' : logs w w' -> logs w (wupd k f w'). Proof. intros H; exact H. Qed.
Lemma logs_emit x w w' : logs w w' -> fact (wc w') x (wl w') -> logs w (wemit x w').
Proof.
  intros (n & A & B) H. exists ((wc w', x) :: n). split; [cbn; rewrite A; reflexivity|].
  cbn [facts]. rewrite <- A. auto.
Qed.
Lemma logs_went k new s w w' : logs w w' -> L w' k s ->
  (let w1 := if st_eqb new Stopping
             then wupd k (set_s_killed false) (wtimeout k (c_killdelay (s_cf s)) TcKill (wcancel k w'))
             else w' in
   s_state s <> new -> fact (wc w1) (EState k (s_state s) new) (wl w')) ->
  logs w (went k new w').
Proof.
  intros H1 H2 H3. unfold went. rewrite H2. unfold wenter. cbv zeta in H3.
  assert (HL : forall b, wl (if b : bool
             then wupd k (set_s_killed false) (wtimeout k (c_killdelay (s_cf s)) TcKill (wcancel k w'))
             else w') = wl w') by (intros []; reflexivity).
  destruct (st_eqb (s_state s) new) eqn:E.
  - destruct (st_eqb new Stopping); exact H1.
  - apply logs_upd, logs_emit.
    + destruct (st_eqb new Stopping); exact H1.
    + rewrite HL. apply H3. apply st_eqb_neq, E.
Qed.


Lemma L_key w k s : L w k s -> s_key s = k.
Proof. apply lookup_key. Qed.

Ltac lkc :=
  match goal with
  | |- lookup_svc (wc ?w) ?k = Some ?s => change (L w k s)
  | |- _ => idtac
  end; lk.
Ltac lg1 :=
  match goal with
  | |- logs ?w ?w => apply logs_refl
  | |- logs _ (let _ := _ in _) => cbv zeta
  | |- logs _ (wemit _ _) => apply logs_emit
  | |- logs _ (wcancel _ _) => unfold wcancel at 1
  | |- logs _ (wclean _ _) => unfold wclean at 1
  | |- logs _ (wblock _ _ _) => unfold wblock at 1
  | |- logs _ (wcleanup _ _) => unfold wcleanup at 1
  | |- logs _ (wtimeout _ _ _ _) => unfold wtimeout at 1
  | |- logs _ (w_prep _ _) => unfold w_prep at 1
  | |- logs _ (wfork_ok _ _ _ _) => unfold wfork_ok at 1
  | |- logs _ (wfork_fail _ _ _) => unfold wfork_fail at 1
  | |- logs _ (wscript _ _ _ _) => unfold wscript at 1
  | |- logs _ (wcond _ _) => unfold wcond at 1
  | |- logs _ (wupd _ _ _) => apply logs_upd
  | |- logs _ (wmod _ _) => apply logs_mod
  end.
Ltac lg := repeat lg1.

(** a transition to a state other than stopping *)
Lemma logs_to k new s w w' : logs w w' -> L w' k s -> new <> Stopping ->
  edge (wc w') s new (wl w') -> logs w (went k new w').
Proof.
  intros H1 H2 H3 H4. eapply logs_went; [exact H1|exact H2|]. cbv zeta.
  destruct (st_eqb new Stopping) eqn:E; [apply st_eqb_eq in E; contradiction|].
  intros H5. exists s. pose proof (L_key _ _ _ H2) as HK. auto.
Qed.
(** a transition to stopping *)
Definition f_stopping (s : svc) : svc :=
  set_s_killed false (f_timeout (c_killdelay (s_cf s)) TcKill (set_s_timer TmNone s)).
Lemma logs_stop k s w w' : logs w w' -> L w' k s ->
  (forall c, c = cupd k (set_s_killed false)
                   (cupd k (f_timeout (c_killdelay (s_cf s)) TcKill)
                      (cupd k (set_s_timer TmNone) (wc w'))) ->
     edge c (f_stopping s) Stopping (wl w')) -> logs w (went k Stopping w').
Proof.
  intros H1 H2 H4. eapply logs_went; [exact H1|exact H2|]. cbv zeta. cbn [st_eqb st_num Nat.eqb].
  intros H5. exists (f_stopping s). pose proof (L_key _ _ _ H2) as HK.
  assert (HL : L (wupd k (set_s_killed false) (wtimeout k (c_killdelay (s_cf s)) TcKill (wcancel k w'))) k (f_stopping s))
    by (unfold f_stopping; lk).
  split; [exact HL|].
  assert (HF : s_state (f_stopping s) = s_state s /\ s_key (f_stopping s) = s_key s).
  { unfold f_stopping, f_timeout. destruct (_ =? _); split; reflexivity. }
  destruct HF as [HF1 HF2]. rewrite HF1, HF2. repeat (split; [auto|]).
  apply H4. reflexivity.
Qed.

Ltac stp := intros ? ->; unfold f_stopping, f_timeout; destruct (_ =? _);
  (econstructor; eauto; fail).

Lemma find_pid_lookup p l s : find_pid p l = Some s -> In s l /\ s_pid s = p.
Proof. intros H. apply find_some in H. destruct H as [A B]. split; [exact A|]. lia. Qed.

Lemma find_pid_map p k f l : (forall s, s_key (f s) = s_key s /\ s_pid (f s) = s_pid s) ->
  find_pid p (map_key k f l) =
  option_map (fun s => if Nat.eqb (s_key s) k then f s else s) (find_pid p l).
Proof.
  intros Hf. induction l as [|x l IH]; [reflexivity|]. unfold find_pid, map_key in *. cbn [map find].
  destruct (Nat.eqb (s_key x) k) eqn:Ek.
  - destruct (Hf x) as [_ ->]. destruct (Z.eqb (s_pid x) p) eqn:Ep; [cbn; rewrite Ek; reflexivity|exact IH].
  - destruct (Z.eqb (s_pid x) p) eqn:Ep; [cbn; rewrite Ek; reflexivity|exact IH].
Qed.
Lemma kw_group_upd w k f p s : (forall s, s_key (f s) = s_key s /\ s_pid (f s) = s_pid s) ->
  find_pid p (k_svcs (wc w)) = Some s ->
  exists s', find_pid p (k_svcs (wc (wupd k f w))) = Some s' /\ s_key s' = s_key s.
Proof.
  intros Hf H. unfold wupd, wmod, cupd. cbn [wc k_svcs set_k_svcs set_k_gc].
  rewrite find_pid_map by exact Hf. rewrite H. cbn [option_map].
  destruct (Nat.eqb (s_key s) k); eexists; (split; [reflexivity|]); [apply Hf|reflexivity].
Qed.
Lemma collect_logs w lost st s w0 : logs w0 w -> 1 < lost ->
  find_pid lost (k_svcs (wc w)) = Some s -> logs w0 (w_collect lost st s w).
Proof.
  intros H0 H1 H2.
  assert (G : forall w', logs w0 w' -> (exists s', find_pid lost (k_svcs (wc w')) = Some s' /\ s_key s' = s_key s) ->
     logs w0 (wemit (EKill (s_key s) (- lost) 9) w')).
  { intros w' A (s' & B & C). apply logs_emit; [exact A|]. eapply kw_group; eauto. }
  assert (K : forall w' k f, (forall s, s_key (f s) = s_key s /\ s_pid (f s) = s_pid s) ->
     (exists s', find_pid lost (k_svcs (wc w')) = Some s' /\ s_key s' = s_key s) ->
     (exists s', find_pid lost (k_svcs (wc (wupd k f w'))) = Some s' /\ s_key s' = s_key s)).
  { intros w' k f Hf (s' & A & B). destruct (kw_group_upd w' k f lost s' Hf A) as (s2 & C & D).
    exists s2. split; [exact C|congruence]. }
  assert (I0 : exists s', find_pid lost (k_svcs (wc w)) = Some s' /\ s_key s' = s_key s) by eauto.
  assert (H0' : logs w0 (wemit (EExit (s_key s) lost st) w)).
  { apply logs_emit; [exact H0|]. split; [exact H1|]. exists s. auto. }
  unfold w_collect. cbv zeta. clear H0. rename H0' into H0.
  set (we := wemit (EExit (s_key s) lost st) w) in *.
  change (exists s', find_pid lost (k_svcs (wc we)) = Some s' /\ s_key s' = s_key s) in I0.
  assert (T : forall w', logs w0 w' ->
     logs w0 (if lost =? k_runblk (wc w') then wmod (set_k_runblk 0) (wclean (s_key s) w') else w')).
  { intros w' Hw. destruct (_ =? _); exact Hw. }
  apply T. destruct (is_script_state (s_state s)).
  - apply logs_upd, G.
    + destruct (st_eqb _ _); exact H0.
    + apply K; [split; reflexivity|]. destruct (st_eqb _ _); [|exact I0].
      apply K; [split; reflexivity|exact I0].
  - destruct (_ && _); [exact H0|]. apply logs_upd.
    assert (J : logs w0 (wemit (EKill (s_key s) (- lost) 9) (wupd (s_key s) (set_s_status st) we))).
    { apply G; [exact H0|]. apply K; [split; reflexivity|exact I0]. }
    destruct (_ || _); exact J.
Qed.

Ltac swt := match goal with H : stopwhy _ _ _ |- stopwhy _ _ _ =>
  destruct H; [apply sw_disabled|apply sw_cond|apply sw_changed|apply sw_removed|apply sw_user]; assumption end.
Lemma sstop_logs w w1 k s rc : stopwhy e (wc w1) s -> logs w w1 -> L w1 k s -> (st_num Stopping < st_num (s_state s))%nat -> c_stop (s_cf s) = true ->
  (exists c0 l0, wl w1 = (c0, EScript (s_key s) KStop rc) :: l0) ->
  logs w (if rc =? 1 then went k Halted (wcleanup k w1) else went k Stopping w1).
Proof.
  intros SW J HL H1 H2 HX. destruct (rc =? 1) eqn:Erc.
  - eapply logs_to; [exact J|unfold wcleanup; lkc|discriminate|].
    pose proof (e_sstop_script (wc (wcleanup k w1)) (f_cleanup (set_s_timer TmNone s)) (wl w1) rc) as X.
    rewrite Erc in X. apply X; first [assumption|swt].
  - eapply logs_stop; [exact J|exact HL|]. intros ? ->. unfold f_stopping, f_timeout.
    pose proof (fun c s => e_sstop_script c s (wl w1) rc) as X. rewrite Erc in X.
    destruct (c_killdelay (s_cf s) =? 0); apply X; first [assumption|swt].
Qed.
Lemma done_logs w k s : L w k s -> is_runtask s = true ->
  (calm -> s_state s = Stopping /\ s_pid s = 0) -> logs w (w_done k s w).
Proof.
  intros H H0 H1. unfold w_done. cbv zeta.
  set (w0 := if c_manual (s_cf s) then wblock k BUser w else w).
  set (s0 := if c_manual (s_cf s) then set_s_block BUser s else s).
  assert (F : s_state s0 = s_state s /\ s_pid s0 = s_pid s /\ is_runtask s0 = is_runtask s /\
              succeeded s0 = succeeded s /\ successcond s0 = successcond s /\ failurecond s0 = failurecond s)
    by (subst s0; destruct (c_manual (s_cf s)); repeat split; reflexivity).
  destruct F as (F1 & F2 & F3 & F4 & F5 & F6).
  assert (HL : L w0 k s0) by (subst w0 s0; destruct (c_manual (s_cf s)); lk).
  assert (J : logs w (went k Done w0)).
  { eapply logs_to; [subst w0; destruct (c_manual (s_cf s)); lg|exact HL|discriminate|].
    apply e_stop_done; [rewrite F3; exact H0|rewrite F1, F2; exact H1]. }
  destruct (st_eqb (s_state s) Done) eqn:Eq; [exact J|].
  assert (HL2 : L (went k Done w0) k (f_enter Done s0)) by (apply L_went, HL).
  unfold wcond. apply logs_mod, logs_emit; [exact J|]. cbn [fact].
  set (w2 := went k Done w0) in *.
  assert (HL3 : L (mkWorld (wc w2) (wl w2)) k (f_enter Done s0)) by exact HL2.
  assert (E : s_cf (f_enter Done s0) = s_cf s0 /\ s_started (f_enter Done s0) = s_started s0 /\
              s_status (f_enter Done s0) = s_status s0) by (repeat split; apply f_enter_fields).
  destruct E as (E1 & E2 & E3).
  assert (R : is_runtask (f_enter Done s0) = true).
  { unfold is_runtask, ty in *. rewrite E1, F3. exact H0. }
  assert (S1 : succeeded (f_enter Done s0) = succeeded s0) by (unfold succeeded; rewrite E2, E3; reflexivity).
  assert (N1 : successcond (f_enter Done s0) = successcond s0)
    by (unfold successcond, typestr, ident, ty; rewrite E1; reflexivity).
  assert (N2 : failurecond (f_enter Done s0) = failurecond s0)
    by (unfold failurecond, typestr, ident, ty; rewrite E1; reflexivity).
  rewrite <- F4, <- F5, <- F6, <- S1, <- N1, <- N2.
  assert (Q : s_state (f_enter Done s0) = Done) by apply f_enter_state.
  right. exists k, (f_enter Done s0). auto.
Qed.

Ltac lassum := match goal with H : L ?w ?k _ |- L ?w ?k _ => exact H end.
Lemma micro_facts w w' : micro calm e w w' -> logs w w'.
Proof.
  intros H. destruct H; try (lg; fail); try (eapply logs_to; [lg|lassum|discriminate|econstructor; eauto]; fail);
   try (eapply logs_stop; [lg|lassum|stp]; fail).
  - eapply logs_to; [lg|lkc|discriminate|apply e_tear_clean; assumption].
  - eapply logs_to; [lg|lkc|discriminate|apply e_tear_halt; assumption].
  - eapply logs_to; [lg|lassum|discriminate|apply e_done_wait; tauto].
  - apply done_logs; assumption.
  - eapply logs_stop; [lg|lkc|]. intros ? ->. unfold f_stopping, f_timeout.
    destruct (c_killdelay (s_cf s) =? 0); apply e_setup_fail; assumption.
  - eapply logs_to; [lg|lkc|discriminate|apply e_wait_conflict; [assumption|reflexivity]].
  - eapply logs_to; [lg|lkc|destruct (c_pre (s_cf s)); discriminate|apply e_wait_go; assumption].
  - (* aux *) unfold w_aux. cbv zeta.
    assert (J : logs w (wupd k (set_s_pid p) (wfork_ok k f p w))).
    { lg. cbn [fact]. destruct H as [A B]. split; [split; assumption|]. destruct f; try discriminate; assumption. }
    destruct (lookup_svc _ k) eqn:El; [exact J|]. apply logs_emit; [exact J|]. cbn [fact].
    split; [exact El|]. intros Hc. exfalso. destruct (H1 Hc) as (s & A & _).
    assert (X : L (wupd k (set_s_pid p) (wfork_ok k f p w)) k (set_s_pid p s)) by lk.
    unfold L in X. congruence.
  - lg. destruct f; try discriminate; exact I.
  - destruct H as (A1 & A2 & A3 & A4 & A5 & A6).
    eapply logs_to; [lg|lkc|discriminate|]. eapply e_start_missing; [assumption|reflexivity|assumption].
  - (* start *) destruct H as (A1 & A2 & A3 & A4 & A5 & A6). destruct H1 as [B1 B2].
    assert (A7 : calm -> In k (keys (wc (wmod (fun c => set_k_forks (tl (k_forks c)) c) (w_prep k w))))).
    { intros Hc. unfold w_prep. change (In k (keys (wc (wupd k f_rtot (wupd k (set_s_starting true) w))))).
      rewrite !keys_wupd by keyid. exact (A6 Hc). }
    assert (J : logs w (w_forked k s p w)).
    { unfold w_forked. cbv zeta. destruct (is_run_t (ty s)), (uses_socket s); lg; cbn [fact]; (split; [split; assumption|]);
        exists (f_rtot (set_s_starting true s)); (split; [lkc|]); unfold f_rtot; destruct (_ && _); (split; [exact A2|split; [exact A3|split; [exact A4|split; [exact A5|split; [assumption|exact A7]]]]]). }
    eapply logs_to; [exact J|unfold wclean; apply L_wupd; [keyid|apply L_w_forked, A1]|discriminate|].
    assert (F : s_key s = k) by (apply lookup_key in A1; exact A1).
    apply e_start_ok.
    + unfold f_clean, f_rtot. destruct (_ && _); exact A2.
    + unfold f_clean, f_rtot. destruct (_ && _); exact B1.
    + unfold w_forked, w_prep. cbv zeta. unfold f_clean, f_rtot.
      destruct (is_run_t (ty s)), (uses_socket s), (is_daemon _ && _); cbn; rewrite F; eauto.
  - destruct H as (A1 & A2 & A3 & A4 & A5 & A6). destruct H1 as [B1 B2].
    assert (A7 : calm -> In k (keys (wc (wmod (fun c => set_k_forks (tl (k_forks c)) c) (w_prep k w))))).
    { intros Hc. unfold w_prep. change (In k (keys (wc (wupd k f_rtot (wupd k (set_s_starting true) w))))).
      rewrite !keys_wupd by keyid. exact (A6 Hc). }
    assert (J : logs w (w_forked k s p w)).
    { unfold w_forked. cbv zeta. destruct (is_run_t (ty s)), (uses_socket s); lg; cbn [fact]; (split; [split; assumption|]);
        exists (f_rtot (set_s_starting true s)); (split; [lkc|]); unfold f_rtot; destruct (_ && _); (split; [exact A2|split; [exact A3|split; [exact A4|split; [exact A5|split; [assumption|exact A7]]]]]). }
    destruct (is_run_t (ty s)); exact J.
  - destruct H as (A1 & A2 & A3 & A4 & A5 & A6). lg. cbn [fact].
    exists (f_rtot (set_s_starting true s)). split; [lkc|]. unfold f_rtot; destruct (_ && _); (split; [exact A2|exact A3]).
  - eapply logs_to; [lg|lkc|discriminate|]. eapply e_run_died; auto.
  - eapply logs_to; [lg|lkc|discriminate|].
    + eapply kw_pause; eauto.
    + eapply e_run_pause; try assumption. rewrite (L_key _ _ _ H). cbn. eauto.
  - lg. eapply kw_cont; eauto. tauto.
  - eapply logs_to; [lg|lkc|discriminate|]. 
    apply e_paused_wait; assumption.
  - eapply logs_to; [lg|lkc|discriminate|].
    + eapply kw_cont; eauto.
    + eapply e_paused_run; try assumption. rewrite (L_key _ _ _ H). cbn. eauto.
  - eapply logs_to; [lg|lkc|discriminate|]. apply e_sstop_gone; [swt|auto|auto|auto].
  - assert (F : c_killdelay (s_cf (set_s_starting false (set_s_timer TmNone s))) = c_killdelay (s_cf s)) by reflexivity.
    eapply logs_stop; [lg|lkc|].
    + apply (kw_stop _ _ (set_s_starting false (set_s_timer TmNone s))); try assumption; [lkc|].
      destruct H0; [apply sw_disabled|apply sw_cond|apply sw_changed|apply sw_removed|apply sw_user]; assumption.
    + intros ? ->. unfold f_stopping, f_timeout. rewrite F.
      destruct (c_killdelay (s_cf s) =? 0); (apply e_sstop_kill; [swt|assumption|assumption|assumption|assumption|]);
        cbn; rewrite (L_key _ _ _ H); eauto.
  - assert (J : logs w w1).
    { subst w1. lg. exists (set_s_starting false (set_s_timer TmNone s)). split; [lkc|]. auto. }
    assert (HL : L w1 k (set_s_starting false (set_s_timer TmNone s))) by (subst w1; lk).
    assert (HX : exists c0 l0, wl w1 = (c0, EScript (s_key s) KStop rc) :: l0)
      by (rewrite (L_key _ _ _ H); subst w1; do 2 eexists; reflexivity).
    assert (SW : stopwhy e (wc w1) (set_s_starting false (set_s_timer TmNone s))) by (subst w1; swt).
    clearbody w1. apply (sstop_logs _ _ _ (set_s_starting false (set_s_timer TmNone s))); assumption.
  - assert (F : c_killdelay (s_cf (set_s_starting false (set_s_timer TmNone s))) = c_killdelay (s_cf s)) by reflexivity.
    eapply logs_stop; [lg|lkc|].
    + destruct H4 as [B1 B2]. split; [split; assumption|].
      exists (set_s_starting false (set_s_timer TmNone s)). split; [lkc|]. auto.
    + intros ? ->. unfold f_stopping, f_timeout. rewrite F.
      destruct (c_killdelay (s_cf s) =? 0); (apply e_sstop_sysv with (p := p); [swt|assumption|assumption|assumption|]);
        cbn; rewrite (L_key _ _ _ H); eauto.
  - eapply logs_to; [lg; exact I|unfold wcleanup; lkc|discriminate|]. apply e_sstop_sysvfail; first [assumption|swt].
  - cbv zeta. assert (J : logs w (wscript k KReload rc w)).
    { lg. exists s. auto. }
    destruct (rc =? 0); exact J.
  - cbv zeta. assert (J : logs w (wemit (EKill k (s_pid s) 1) w)).
    { lg. apply kw_hup; assumption. }
    destruct (alive _ _); exact J.
  - destruct H0 as [B1 B2]. lg. split; [split; assumption|]. intros Hc. exists s. auto.
  - destruct H0 as [B1 B2]. lg. split; [split; assumption|]. contradiction.
  - lg. exact I.
  - lg. cbn [fact]. left. destruct w. assumption.
  - lg. split; [assumption|]. intros Hc. left. auto.
  - apply collect_logs; auto. lg.
  - apply collect_logs; auto. lg.
  - assert (A : In (q, k) (k_assoc (wc w)) /\ q = p).
    { apply find_some in H. destruct H as [A B]. split; [exact A|]. cbn in B. lia. }
    destruct A as [A ->]. apply logs_mod. destruct (lookup_svc (wc w) k) eqn:El.
    + lg. eapply kw_rgroup; [exact A|assumption].
    + lg; [|eapply kw_rgroup; [exact A|assumption]].
      split; [exact El|]. intros Hc. right. eauto.
  - lg. destruct (s_pid s =? 0) eqn:Ep; lg. exists s. split; [exact H|]. lia.
  - lg. exact I.
  - lg. exact I.
  - lg. exact I.
  - lg. assumption.
  - lg. split; assumption.
  - lg. assumption.
  - lg. assumption.
  - lg. cbn. auto.
  - lg. cbn. auto.
  - cbv zeta. destruct (_ && _) eqn:Eb; [|lg]. apply andb_prop in Eb. destruct Eb as [B1 B2].
    lg. apply (kw_kill _ _ (set_s_timer TmNone (set_s_timer (TmStale TcKill) s))); [lkc|apply Z.ltb_lt, B1|assumption].
  - cbv zeta. destruct (1 <? s_pid s) eqn:Eb; [|lg].
    lg. apply (kw_script _ _ (set_s_timer (TmStale TcKillScript) s)); [lkc|apply Z.ltb_lt, Eb|reflexivity].
  - lg. apply kw_ready; assumption.
  - eapply logs_to; [lg|exact (lookup_wupd_same k (fun s => set_s_rtmo (s_rsaved s) s) w s (fun _ => eq_refl) H)|discriminate|].
    apply e_retry_up; [assumption|]. change (e = EvTimer (s_key s)). rewrite (lookup_key _ _ _ H). assumption.
  - cbv zeta. assert (J : logs w (wupd k f_giveup (wemit (EGiveup k) w))).
    { lg. exists s. repeat (split; [assumption|]). assumption. }
    destruct (c_oncrash (s_cf s)) eqn:Eo; [exact J| |exact J].
    apply logs_emit; [exact J|]. exists (f_giveup s). split; [apply L_wupd; [keyid|lk]|]. auto.
  - lg. exists s. repeat (split; [assumption|]). assumption.
  - lg. split; [assumption|]. eauto.
  - lg. split; [assumption|]. exists s. destruct H as [[-> ->]|(-> & -> & _)]; auto.
  - lg. split; [assumption|]. exists s. destruct H as [(-> & -> & _)|(-> & -> & _)]; auto.
  - lg. split; [assumption|]. exists s. auto.
  - lg. apply kw_user; [apply find_lookup|..]; assumption.
  - lg. assumption.
  - eapply logs_to; [lg|lkc|discriminate|]. apply e_forked with (p := p); [|assumption..].
    change (e = EvPidfile (s_key s) p). rewrite (L_key _ _ _ H0). assumption.
  - lg. exact I.
  - lg. split; [assumption|reflexivity].
Qed.

End Facts.
