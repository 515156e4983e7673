(** One stanza at a time: how its record, its main processes and the log
    entries that concern it change with every atomic change. *)
From Coq Require Import List String Ascii ZArith NArith Bool Lia Arith Relations.
From Coq Require Import ZifyBool ZifyNat Program.Tactics.
From Verif Require Import CondModel CoreTypes CoreModel CoreLib CoreMicro CoreExec CoreCalm CoreLog
  CoreSpec CoreAny.
Import ListNotations.
Local Open Scope Z_scope.

Definition keyof (x : eff) : option nat :=
  match x with
  | EFork k _ _ | EForkFail k _ | EKill k _ _ | EScript k _ _ | EState k _ _ | ESelfTerm k
  | EUaf k | ERetry k | EGiveup k | ERequest k _ | EForget k _ | EExit k _ _ => Some k
  | _ => None
  end.
(** entries that concern [j]: its own, reconfigurations and ticks *)
Definition about (j : nat) (x : eff) : bool :=
  match keyof x with
  | Some k => Nat.eqb k j
  | None => match x with EReconf | ETick => true | _ => false end
  end.

(** the main processes of [j] *)
Definition mine (j : nat) (c : core) : list Z :=
  map fst (filter (fun a => Nat.eqb (snd a) j) (k_mains c)).

(** entries that concern [j], each with the main processes of [j] at that time *)
Definition ent : Type := list Z * eff.
Fixpoint jl (j : nat) (l : log) : list ent :=
  match l with
  | [] => []
  | (c, x) :: l => if about j x then (mine j c, x) :: jl j l else jl j l
  end.

Record at_ (j : nat) (w : world) (s : svc) (l : list ent) (m : list Z) : Prop := {
  at_rec : find_key j (k_svcs (wc w)) = Some s;
  at_log : jl j (wl w) = l;
  at_mine : mine j (wc w) = m
}.

Definition tr (j : nat) (m : list Z) (o n : sst) (l : list ent) : list ent :=
  if st_eqb o n then l else (m, EState j o n) :: l.

Definition without (p : Z) (m : list Z) : list Z := filter (fun q => negb (Z.eqb q p)) m.

Definition f_fork (p : Z) (s : svc) : svc := set_s_pid p (f_rtot (set_s_starting true s)).

(** ** The changes *)

Inductive step (e : ev) (c : core) (j : nat) (s : svc) (l : list ent) (m : list Z) :
    svc -> list ent -> list Z -> Prop :=
  | s_id : step e c j s l m s l m
  | s_halt_wait : s_state s = Halted -> enabled c s = true ->
      step e c j s l m (f_enter Waiting s) (tr j m (s_state s) Waiting l) m
  | s_halt_dead : s_state s = Halted -> enabled c s = false -> s_removed s = true ->
      step e c j s l m (f_enter Dead s) (tr j m (s_state s) Dead l) m
  | s_unconflict : s_state s = Halted -> s_block s = BConflict ->
      step e c j s l m (set_s_block BNone s) l m
  | s_tear_clean : s_state s = Teardown -> s_pid s = 0 -> s_removed s = true -> c_cleanup (s_cf s) = true ->
      step e c j s l m (f_enter Cleanup (set_s_timer TmNone s)) (tr j m (s_state s) Cleanup l) m
  | s_tear_halt : s_state s = Teardown -> s_pid s = 0 ->
      step e c j s l m (f_enter Halted (set_s_timer TmNone s)) (tr j m (s_state s) Halted l) m
  | s_clean_halt : s_state s = Cleanup -> s_pid s = 0 ->
      step e c j s l m (f_enter Halted s) (tr j m (s_state s) Halted l) m
  | s_done_halt : s_state s = Done ->
      step e c j s l m (f_enter Halted s) (tr j m (s_state s) Halted l) m
  | s_done_wait : is_runtask s = true -> c_manual (s_cf s) = true -> s_state s = Done \/ s_state s = Halted ->
      step e c j s l m (f_enter Waiting s) (tr j m (s_state s) Waiting l) m
  | s_stop_cancel : s_state s = Stopping -> s_pid s = 0 -> step e c j s l m (set_s_timer TmNone s) l m
  | s_stop_done : is_runtask s = true -> s_state s = Stopping -> s_pid s = 0 ->
      step e c j s l m (f_enter Done (if c_manual (s_cf s) then set_s_block BUser s else s)) (tr j m (s_state s) Done l) m
  | s_stop_tear : s_state s = Stopping -> s_pid s = 0 -> is_runtask s = false -> c_post (s_cf s) = true ->
      step e c j s l m (f_enter Teardown s) (tr j m (s_state s) Teardown l) m
  | s_stop_clean : s_state s = Stopping -> s_pid s = 0 -> is_runtask s = false -> c_post (s_cf s) = false ->
      s_removed s = true -> c_cleanup (s_cf s) = true ->
      step e c j s l m (f_enter Cleanup s) (tr j m (s_state s) Cleanup l) m
  | s_stop_halt : s_state s = Stopping -> s_pid s = 0 -> is_runtask s = false -> c_post (s_cf s) = false ->
      step e c j s l m (f_enter Halted s) (tr j m (s_state s) Halted l) m
  | s_setup_fail : s_state s = Setup -> enabled c s = true -> s_pid s = 0 ->
      step e c j s l m (f_enter Stopping s) (tr j m (s_state s) Stopping l) m
  | s_setup_crash : s_state s = Stopping -> s_pid s = 0 -> s_block s = BNone ->
      step e c j s l m (set_s_block BCrashing s) l m
  | s_setup_start : s_state s = Setup -> enabled c s = true -> s_pid s = 0 ->
      step e c j s l m (f_enter Starting s) (tr j m (s_state s) Starting l) m
  | s_wait_halt : s_state s = Waiting -> enabled c s = false ->
      step e c j s l m (f_enter Halted s) (tr j m (s_state s) Halted l) m
  | s_wait_conflict : s_state s = Waiting -> enabled c s = true ->
      step e c j s l m (f_enter Halted (set_s_block BConflict s)) (tr j m (s_state s) Halted l) m
  | s_wait_go n : s_state s = Waiting -> enabled c s = true -> agg c s = COn ->
      n = (if c_pre (s_cf s) then Setup else Starting) ->
      step e c j s l m (f_enter n s) (tr j m (s_state s) n l) m
  | s_aux_ok f p : is_aux f = true -> aux_guard f s -> 1 < p ->
      step e c j s l m (f_timeout (aux_tmo f (s_cf s)) TcKillScript (set_s_pid p s)) ((m, EFork j f p) :: l) m
  | s_aux_fail f : is_aux f = true -> aux_guard f s ->
      step e c j s l m (set_s_pid (-1) s) ((m, EForkFail j f) :: l) m
  | s_start_halt : s_state s = Starting -> enabled c s = false ->
      step e c j s l m (f_enter Halted s) (tr j m (s_state s) Halted l) m
  | s_start_missing : s_state s = Starting -> enabled c s = true ->
      step e c j s l m (f_enter Halted (set_s_block BMissing s)) (tr j m (s_state s) Halted l) m
  | s_start_ok p : s_state s = Starting -> enabled c s = true -> 1 < p -> memZ p (k_procs c) = false ->
      step e c j s l m (f_enter Running (f_clean (f_fork p s)))
        ((p :: m, EState j Starting Running) :: (m, EFork j FMain p) :: l) (p :: m)
  | s_start_nosock p : s_state s = Starting -> enabled c s = true -> 1 < p -> memZ p (k_procs c) = false ->
      uses_socket s = true -> (exists t, k_notes c = true :: t) ->
      step e c j s l m (if is_run_t (ty s) then f_fork p s else f_incr (f_fork p s))
        ((m, EFork j FMain p) :: l) (p :: m)
  | s_start_fail : s_state s = Starting -> enabled c s = true ->
      step e c j s l m (f_incr (f_rtot (set_s_starting true s))) ((m, EForkFail j FMain) :: l) m
  | s_start_held : s_state s = Starting -> k_norespawn c = true ->
      step e c j s l m (f_incr s) l m
  | s_run_died : s_state s = Running -> enabled c s = true -> s_pid s = 0 -> is_daemon s || is_tty s = true ->
      step e c j s l m (f_enter Halted (set_s_block BRestarting s)) (tr j m (s_state s) Halted l) m
  | s_run_retry ms : s_state s = Halted -> s_block s = BRestarting ->
      step e c j s l m (f_timeout ms TcRetry s) l m
  | s_run_respawn : s_state s = Halted -> s_block s = BRestarting -> step e c j s l m (set_s_block BNone s) l m
  | s_run_done : s_state s = Running -> enabled c s = true -> s_pid s = 0 -> is_runtask s = true ->
      step e c j s l m (f_enter Stopping s) (tr j m (s_state s) Stopping l) m
  | s_run_count : s_state s = Stopping -> s_pid s = 0 ->
      step e c j s l m (set_s_rtot (s_rtot s + 1) (set_s_once (wrap8 (s_once s + 1)) s)) l m
  | s_run_cancel : s_state s = Running -> step e c j s l m (set_s_timer TmNone s) l m
  | s_run_pause : s_state s = Running -> enabled c s = true -> s_pid s <> 0 -> agg c s = CFlux ->
      step e c j s l m (f_enter Paused s) ((m, EState j Running Paused) :: (m, EKill j (s_pid s) 19) :: l) m
  | s_clean : step e c j s l m (f_clean s) l m
  | s_cont : s_state s = Paused -> step e c j s l m s ((m, EKill j (s_pid s) 18) :: l) m
  | s_paused_wait : s_state s = Paused -> enabled c s = true -> s_pid s = 0 ->
      step e c j s l m (f_enter Waiting (f_incr s)) (tr j m (s_state s) Waiting l) m
  | s_paused_run : s_state s = Paused -> enabled c s = true -> s_pid s <> 0 ->
      step e c j s l m (f_enter Running s) ((m, EState j Paused Running) :: (m, EKill j (s_pid s) 18) :: l) m
  | s_sstop_none : (st_num Stopping < st_num (s_state s))%nat -> plain s = true -> s_pid s <= 1 ->
      step e c j s l m (set_s_timer TmNone s) l m
  | s_sstop_kill : (st_num Stopping < st_num (s_state s))%nat -> plain s = true -> 1 < s_pid s ->
      step e c j s l m (f_enter Stopping (set_s_starting false (set_s_timer TmNone s)))
        (tr j m (s_state s) Stopping ((m, EKill j (s_pid s) (c_sighalt (s_cf s))) :: l)) m
  | s_sstop_script_fail rc : (st_num Stopping < st_num (s_state s))%nat -> c_stop (s_cf s) = true -> rc = 1 ->
      step e c j s l m (f_enter Halted (f_cleanup (set_s_timer TmNone (set_s_starting false (set_s_timer TmNone s)))))
        (tr j m (s_state s) Halted ((m, EScript j KStop rc) :: l)) m
  | s_sstop_script rc : (st_num Stopping < st_num (s_state s))%nat -> c_stop (s_cf s) = true -> rc <> 1 ->
      step e c j s l m (f_enter Stopping (set_s_starting false (set_s_timer TmNone s)))
        (tr j m (s_state s) Stopping ((m, EScript j KStop rc) :: l)) m
  | s_sstop_sysv p : (st_num Stopping < st_num (s_state s))%nat -> c_stop (s_cf s) = false -> is_sysv s = true ->
      step e c j s l m (f_enter Stopping (set_s_starting false (set_s_timer TmNone s)))
        (tr j m (s_state s) Stopping ((m, EFork j FSysvStop p) :: l)) m
  | s_sstop_sysvfail : (st_num Stopping < st_num (s_state s))%nat -> c_stop (s_cf s) = false -> is_sysv s = true ->
      step e c j s l m (f_enter Halted (f_cleanup (set_s_timer TmNone (set_s_starting false (set_s_timer TmNone s)))))
        (tr j m (s_state s) Halted ((m, EForkFail j FSysvStop) :: l)) m
  | s_reload_script rc : s_state s = Running -> c_reload (s_cf s) = true ->
      step e c j s l m (if rc =? 0 then set_s_starting true s else s) ((m, EScript j KReload rc) :: l) m
  | s_reload_nopid : s_state s = Running -> s_pid s <= 1 -> step e c j s l m (set_s_pid 0 s) l m
  | s_reload_hup : s_state s = Running -> 1 < s_pid s ->
      step e c j s l m (f_clean (set_s_starting true s)) ((m, EKill j (s_pid s) 1) :: l) m
  | s_ready_ok p ms : c_ready (s_cf s) = true ->
      step e c j s l m (f_timeout ms TcScriptKill s) ((m, EFork j FReady p) :: l) m
  | s_ready_fail : step e c j s l m s ((m, EForkFail j FReady) :: l) m
  | s_cu_unblock : s_block s = BRestarting ->
      step e c j s l m (set_s_block BNone (set_s_timer TmNone s)) l m
  | s_collect st run : 1 < s_pid s ->
      step e c j s l m (f_collect run st s s) ((without (s_pid s) m, EKill j (- s_pid s) 9) ::
        (without (s_pid s) m, EExit j (s_pid s) st) :: l) (without (s_pid s) m)
  | s_drop p : (1 < p -> s_pid s <> p) -> step e c j s l m s l (without p m)
  | s_script_del q : In (q, j) (k_assoc c) ->
      step e c j s l m (set_s_timer TmNone s) ((m, EKill j (- q) 9) :: l) m
  | s_reconf : step e c j s l m (svc_mark s) ((m, EReconf) :: l) m
  | s_rereg r : In r (k_conf c) -> (exists m0 l0, l = (m0, EReconf) :: l0) ->
      c_name (r_cfg r) = c_name (s_cf s) -> c_id (r_cfg r) = c_id (s_cf s) ->
      step e c j s l m (f_rereg r s) l m
  | s_affected n : step e c j s l m (f_affected n s) l m
  | s_unavail : step e c j s l m (f_unavail c s) l m
  | s_rtonce n : step e c j s l m (set_s_once n s) l m
  | s_rthalt : is_runtask s = true -> s_state s = Done ->
      step e c j s l m (f_enter Halted s) (tr j m (s_state s) Halted l) m
  | s_fires ms : s_timer s = TmArmed TcScriptKill ms ->
      step e c j s l m (set_s_timer (TmStale TcScriptKill) s) l m
  | s_fired_kill ms : s_timer s = TmArmed TcKill ms -> 1 < s_pid s ->
      step e c j s l m (set_s_killed true (set_s_timer TmNone (set_s_timer (TmStale TcKill) s)))
        ((m, EKill j (s_pid s) 9) :: l) m
  | s_fired_late ms : s_timer s = TmArmed TcKill ms -> s_pid s <= 1 ->
      step e c j s l m (set_s_timer TmNone (set_s_timer (TmStale TcKill) s)) l m
  | s_fired_retry ms : s_timer s = TmArmed TcRetry ms ->
      step e c j s l m (set_s_timer TmNone (set_s_timer (TmStale TcRetry) s)) l m
  | s_fired_script ms : s_timer s = TmArmed TcKillScript ms ->
      step e c j s l m (set_s_timer (TmStale TcKillScript) s)
        (if 1 <? s_pid s then (m, EKill j (s_pid s) 9) :: l else l) m
  | s_script_killed p : In (p, j) (k_assoc c) -> step e c j s l m s ((m, EKill j p 9) :: l) m
  | s_retry_respawn : s_block s <> BUser -> c_respawn (s_cf s) = true -> step e c j s l m (set_s_block BNone s) l m
  | s_retry_up : s_state s <> Halted \/ s_block s <> BRestarting -> e = EvTimer j -> is_daemon s || is_tty s = true ->
      step e c j s l m (f_enter Running (set_s_rtmo (s_rsaved s) s)) (tr j m (s_state s) Running l) m
  | s_giveup : s_state s = Halted -> s_block s = BRestarting -> c_respawn (s_cf s) = false -> c_restart_max (s_cf s) <> -1 ->
      c_restart_max (s_cf s) <= s_rcnt s ->
      step e c j s l m (f_giveup s)
        (match c_oncrash (s_cf s) with OcReboot => (m, ESelfTerm j) :: (m, EGiveup j) :: l | _ => (m, EGiveup j) :: l end) m
  | s_again : s_state s = Halted -> s_block s = BRestarting ->
      c_restart_max (s_cf s) = -1 \/ s_rcnt s < c_restart_max (s_cf s) ->
      step e c j s l m (f_retry s) ((m, ERetry j) :: l) m
  | s_arm ms : is_daemon s || is_tty s = true -> s_block s <> BUser ->
      step e c j s l m (f_timeout ms TcRetry s) l m
  | s_api_stop : step e c j s l m (set_s_block BUser (set_s_timer TmNone s)) ((m, ERequest j RqStop) :: l) m
  | s_api_start r : r <> RqStop ->
      step e c j s l m (set_s_block BNone (set_s_timer TmNone s)) ((m, ERequest j r) :: l) m
  | s_api_cancel r : r <> RqStop -> step e c j s l m (set_s_timer TmNone s) ((m, ERequest j r) :: l) m
  | s_api_unblock r : r <> RqStop -> step e c j s l m (set_s_block BNone s) ((m, ERequest j r) :: l) m
  | s_api_dirty : step e c j s l m (set_s_dirty true s) l m
  | s_api_signal sig : s_state s = Running -> e = EvSignal j sig ->
      step e c j s l m s ((m, EKill j (s_pid s) sig) :: l) m
  | s_started : step e c j s l m (set_s_starting false s) l m
  | s_tick : step e c j s l m (if is_daemon s && st_eqb (s_state s) Running && (0 <? s_rcnt s)
                               then set_s_rcnt (s_rcnt s - 1) s else s) ((m, ETick) :: l) m.

(** ** Reading them off *)

Lemma find_app j l x : find_key j (l ++ [x]) =
  match find_key j l with Some s => Some s | None => if Nat.eqb (s_key x) j then Some x else None end.
Proof.
  unfold find_key. induction l as [|y l IH]; [reflexivity|]. cbn [List.app find]. destruct (Nat.eqb (s_key y) j); [reflexivity|exact IH].
Qed.
Lemma find_filter k j l : k <> j -> find_key j (filter (fun t => negb (Nat.eqb (s_key t) k)) l) = find_key j l.
Proof.
  intros H. unfold find_key. induction l as [|x l IH]; [reflexivity|]. cbn [filter find].
  destruct (Nat.eqb (s_key x) k) eqn:E; cbn [negb find].
  - destruct (Nat.eqb (s_key x) j) eqn:E2; [lia|exact IH].
  - destruct (Nat.eqb (s_key x) j); [reflexivity|exact IH].
Qed.
Lemma find_map_other k f j l : (forall s, s_key (f s) = s_key s) -> k <> j -> find_key j (map_key k f l) = find_key j l.
Proof.
  intros Hf H. unfold find_key, map_key. induction l as [|x l IH]; [reflexivity|]. cbn [map find].
  destruct (Nat.eqb (s_key x) k) eqn:E; rewrite ?Hf; destruct (Nat.eqb (s_key x) j) eqn:E2; auto; lia.
Qed.
Lemma find_map_all f j l : (forall s, s_key (f s) = s_key s) ->
  find_key j (map f l) = option_map f (find_key j l).
Proof.
  intros Hf. unfold find_key. induction l as [|x l IH]; [reflexivity|]. cbn [map find].
  rewrite Hf. destruct (Nat.eqb (s_key x) j); [reflexivity|exact IH].
Qed.

Lemma at_key j w s l m : at_ j w s l m -> s_key s = j.
Proof. intros [A _ _]. apply find_key_in in A. tauto. Qed.
Lemma at_L j w s l m : at_ j w s l m -> L w j s.
Proof. intros [A _ _]. apply find_lookup, A. Qed.
Lemma at_eq j w s l m t : at_ j w s l m -> L w j t -> t = s.
Proof. intros A B. apply at_L in A. unfold L in *. congruence. Qed.

Lemma at_emit_s j x w s l m : at_ j w s l m -> about j x = true -> at_ j (wemit x w) s ((m, x) :: l) m.
Proof.
  intros [A B C] H. constructor; [exact A| |exact C]. cbn [wl wemit jl]. rewrite H, B, C. reflexivity.
Qed.
Lemma at_emit_o j x w s l m : at_ j w s l m -> about j x = false -> at_ j (wemit x w) s l m.
Proof.
  intros [A B C] H. constructor; [exact A| |exact C]. cbn [wl wemit jl]. rewrite H. exact B.
Qed.
Lemma at_upd_s j f w s l m : (forall s, s_key (f s) = s_key s) -> at_ j w s l m -> at_ j (wupd j f w) (f s) l m.
Proof.
  intros Hf [A B C]. constructor; [|exact B|exact C]. unfold wupd, wmod, cupd. cbn [wc k_svcs set_k_svcs set_k_gc].
  rewrite find_map_key by exact Hf. rewrite Nat.eqb_refl, A. reflexivity.
Qed.
Lemma at_upd_o j k f w s l m : (forall s, s_key (f s) = s_key s) -> k <> j -> at_ j w s l m -> at_ j (wupd k f w) s l m.
Proof.
  intros Hf H [A B C]. constructor; [|exact B|exact C]. unfold wupd, wmod, cupd. cbn [wc k_svcs set_k_svcs set_k_gc].
  rewrite find_map_other by assumption. exact A.
Qed.
Lemma at_mod j g w s l m : (forall c, k_svcs (g c) = k_svcs c /\ k_mains (g c) = k_mains c) ->
  at_ j w s l m -> at_ j (wmod g w) s l m.
Proof.
  intros Hg [A B C]. destruct (Hg (wc w)) as [E1 E2]. constructor; unfold wmod, mine; cbn [wc wl].
  - rewrite E1. exact A.
  - exact B.
  - rewrite E2. exact C.
Qed.
Lemma at_went_s j n w s l m : at_ j w s l m -> at_ j (went j n w) (f_enter n s) (tr j m (s_state s) n l) m.
Proof.
  intros H. pose proof (at_L _ _ _ _ _ H) as HL. unfold went. rewrite HL. unfold wenter, f_enter, tr. cbv zeta.
  unfold wtimeout, wcancel.
  destruct (st_eqb n Stopping), (st_eqb (s_state s) n);
    repeat first [ exact H | apply at_upd_s; [first [reflexivity|intros; apply f_timeout_key]|]
                 | apply at_emit_s; [|unfold about; cbn; apply Nat.eqb_refl] ].
Qed.
Lemma at_went_o j k n w s l m : k <> j -> at_ j w s l m -> at_ j (went k n w) s l m.
Proof.
  intros Hk H. unfold went. destruct (lookup_svc (wc w) k) as [t|]; [|exact H]. unfold wenter. cbv zeta.
  unfold wtimeout, wcancel.
  destruct (st_eqb n Stopping), (st_eqb (s_state t) n);
    repeat first [ exact H | apply at_upd_o; [first [reflexivity|intros; apply f_timeout_key]|exact Hk|]
                 | apply at_emit_o; [|unfold about; cbn; lia] ].
Qed.
Lemma at_fork_s j p w s l m : at_ j w s l m -> at_ j (wfork_ok j FMain p w) s ((m, EFork j FMain p) :: l) (p :: m).
Proof.
  intros [A B C]. constructor; [exact A| |].
  - cbn. unfold about. cbn. rewrite Nat.eqb_refl, B, <- C. reflexivity.
  - unfold mine in *. cbn. rewrite Nat.eqb_refl. cbn. rewrite C. reflexivity.
Qed.
Lemma at_fork_a j f p w s l m : f <> FMain -> at_ j w s l m -> at_ j (wfork_ok j f p w) s ((m, EFork j f p) :: l) m.
Proof.
  intros Hf [A B C]. destruct f; try contradiction; (constructor;
    [exact A|cbn; unfold about; cbn; rewrite Nat.eqb_refl, B, <- C; reflexivity|exact C]).
Qed.
Lemma at_fork_o j k f p w s l m : k <> j -> at_ j w s l m -> at_ j (wfork_ok k f p w) s l m.
Proof.
  intros Hk [A B C]. apply Nat.eqb_neq in Hk. constructor; [exact A| |].
  - cbn. unfold about. cbn. rewrite Hk. exact B.
  - unfold mine in *. cbn. destruct f; cbn [k_mains set_k_mains snd]; try exact C. cbn. rewrite Hk. exact C.
Qed.
Lemma mine_drop j p c : mine j (c_drop p c) = without p (mine j c).
Proof.
  unfold mine, c_drop, without. cbn. induction (k_mains c) as [|[q k] l IH]; [reflexivity|]. cbn.
  destruct (negb (Z.eqb q p)) eqn:E; cbn; destruct (Nat.eqb k j); cbn; rewrite ?E, IH; reflexivity.
Qed.
Lemma at_drop j p w s l m : at_ j w s l m -> at_ j (wmod (c_drop p) w) s l (without p m).
Proof.
  intros [A B C]. constructor; [exact A|exact B|]. unfold wmod. cbn [wc]. rewrite mine_drop, C. reflexivity.
Qed.

Ltac atk := first [ reflexivity | intros; apply f_timeout_key
  | intros ?; unfold f_rtot, f_incr, f_retry, f_giveup, f_collect; cbv zeta;
    repeat match goal with |- context [if ?b then _ else _] => destruct b end; reflexivity ].
Ltac abt := unfold about; cbn [keyof]; first [apply Nat.eqb_refl | apply Nat.eqb_neq; assumption | reflexivity].
Ltac at1 :=
  match goal with
  | H : at_ ?j ?w _ _ _ |- at_ ?j ?w _ _ _ => exact H
  | |- at_ _ (let _ := _ in _) _ _ _ => cbv zeta
  | |- at_ ?j (wemit _ _) _ _ _ => first [eapply at_emit_s; [|abt] | eapply at_emit_o; [|abt]]
  | |- at_ ?j (went ?k _ _) _ _ _ => first [constr_eq k j; eapply at_went_s | eapply at_went_o; [assumption|]]
  | |- at_ ?j (wfork_ok ?k FMain _ _) _ _ _ => first [constr_eq k j; eapply at_fork_s | eapply at_fork_o; [assumption|]]
  | |- at_ ?j (wfork_ok ?k _ _ _) _ _ _ => first [constr_eq k j; eapply at_fork_a; [discriminate|] | eapply at_fork_o; [assumption|]]
  | |- at_ _ (wmod (c_drop _) _) _ _ _ => eapply at_drop
  | |- at_ ?j (wupd ?k _ _) _ _ _ => first [constr_eq k j; eapply at_upd_s; [atk|] | eapply at_upd_o; [atk|assumption|]]
  | |- at_ _ (wmod _ _) _ _ _ => eapply at_mod; [intros; split; reflexivity|]
  end.
Ltac ats := unfold wcleanup, wcancel, wblock, wclean, wtimeout, wscript, wcond, wfork_fail, w_prep; repeat at1.

Lemma at_all j f w s l m : (forall c s, s_key (f c s) = s_key s) ->
  at_ j w s l m -> at_ j (wmod (f_all f) w) (f (wc w) s) l m.
Proof.
  intros Hf [A B C]. constructor; [|exact B|exact C]. unfold wmod, f_all. cbn [wc k_svcs set_k_svcs].
  rewrite find_map_all by apply Hf. rewrite A. reflexivity.
Qed.
Lemma at_del_o j k w s l m : k <> j -> at_ j w s l m -> at_ j (wmod (c_del k) w) s l m.
Proof.
  intros Hk [A B C]. unfold wmod, c_del. destruct (find_key k (k_svcs (wc w))) as [t|].
  - constructor; [|exact B|exact C]. cbn [wc k_svcs set_k_svcs]. rewrite find_filter by exact Hk. exact A.
  - constructor; assumption.
Qed.
Lemma find_del j c : find_key j (k_svcs (c_del j c)) = None.
Proof.
  unfold c_del. destruct (find_key j (k_svcs c)) as [t|] eqn:E; [|exact E]. cbn [k_svcs set_k_svcs].
  unfold find_key. clear E. induction (k_svcs c) as [|x l IH]; [reflexivity|]. cbn [filter].
  destruct (Nat.eqb (s_key x) j) eqn:E; cbn [negb]; [exact IH|]. cbn [find]. rewrite E. exact IH.
Qed.
Lemma mine_del j k c : mine j (c_del k c) = mine j c.
Proof. unfold c_del, mine. destruct (find_key k (k_svcs c)); reflexivity. Qed.
Lemma next_del k c : k_next (c_del k c) = k_next c.
Proof. unfold c_del. destruct (find_key k (k_svcs c)); reflexivity. Qed.
Lemma collect_log j lost st s w : c_forking (s_cf s) = false -> s_key s = j ->
  jl j (wl (w_collect lost st s w)) =
    (mine j (wc w), EKill j (- lost) 9) :: (mine j (wc w), EExit j lost st) :: jl j (wl w).
Proof.
  intros Hf <-. unfold w_collect, wcleanup, wcancel, wclean. cbv zeta. rewrite Hf. cbn [andb].
  assert (X : about (s_key s) (EKill (s_key s) (- lost) 9) = true) by (unfold about; cbn [keyof]; apply Nat.eqb_refl).
  assert (Y : about (s_key s) (EExit (s_key s) lost st) = true) by (unfold about; cbn [keyof]; apply Nat.eqb_refl).
  destruct (is_script_state (s_state s)), (st_eqb (s_state s) Setup), (is_daemon s || is_tty s);
    match goal with |- context [if ?b then _ else _] => destruct b end; cbn [wl wmod wupd wemit jl]; rewrite X, Y; reflexivity.
Qed.
Lemma collect_log_o j lost st s w : s_key s <> j -> jl j (wl (w_collect lost st s w)) = jl j (wl w).
Proof.
  intros Hj. unfold w_collect, wcleanup, wcancel, wclean. cbv zeta.
  assert (X : about j (EKill (s_key s) (- lost) 9) = false) by (unfold about; cbn [keyof]; apply Nat.eqb_neq, Hj).
  assert (Y : about j (EExit (s_key s) lost st) = false) by (unfold about; cbn [keyof]; apply Nat.eqb_neq, Hj).
  destruct (is_script_state (s_state s)), (st_eqb (s_state s) Setup), (c_forking (s_cf s) && s_starting s), (is_daemon s || is_tty s);
    match goal with |- context [if ?b then _ else _] => destruct b end; cbn [wl wmod wupd wemit jl]; rewrite ?X, ?Y; reflexivity.
Qed.
Lemma collect_mine j lost st s w : mine j (wc (w_collect lost st s w)) = mine j (wc w).
Proof. rewrite collect_shape. destruct (lost =? k_runblk (wc w)); reflexivity. Qed.
Lemma f_collect_key run st s t : s_key (f_collect run st s t) = s_key t.
Proof.
  unfold f_collect.
  destruct (is_script_state (s_state s)), (st_eqb (s_state s) Setup), (c_forking (s_cf s) && s_starting s), (is_daemon s || is_tty s), run; reflexivity.
Qed.
Lemma at_collect_s j lost st s w l m : c_forking (s_cf s) = false -> at_ j w s l m ->
  exists run, at_ j (w_collect lost st s w) (f_collect run st s s) ((m, EKill j (- lost) 9) :: (m, EExit j lost st) :: l) m.
Proof.
  intros Hf H. pose proof (at_key _ _ _ _ _ H) as Hk. destruct H as [A B C].
  exists (lost =? k_runblk (wc w)). constructor.
  - rewrite collect_shape, Hk. destruct (lost =? k_runblk (wc w)); unfold cupd; cbn [k_svcs set_k_svcs set_k_gc set_k_runblk];
      rewrite find_map_key by apply f_collect_key; rewrite Nat.eqb_refl, A; reflexivity.
  - rewrite (collect_log j) by assumption. rewrite B, C. reflexivity.
  - rewrite collect_mine. exact C.
Qed.
Lemma at_collect_o j lost st s w t l m : s_key s <> j -> at_ j w t l m -> at_ j (w_collect lost st s w) t l m.
Proof.
  intros Hk [A B C]. constructor.
  - rewrite collect_shape. destruct (lost =? k_runblk (wc w)); unfold cupd; cbn [k_svcs set_k_svcs set_k_gc set_k_runblk];
      rewrite find_map_other by (first [apply f_collect_key|exact Hk]); exact A.
  - rewrite collect_log_o by exact Hk. exact B.
  - rewrite collect_mine. exact C.
Qed.

(** the record of [j] is dropped *)
Inductive gone (j : nat) (s : svc) (l : list ent) (m : list Z) : list ent -> Prop :=
  | gone_boot : only_boot (c_levels (s_cf s)) = true ->
      gone j s l m (if s_pid s =? 0 then l else (m, EForget j (s_pid s)) :: l)
  | gone_unreg : s_removed s = true -> s_state s = Dead \/ s_state s = Done /\ is_runtask s = true ->
      gone j s l m l.

Section Slice.
Variable evs : list ev.
Hypothesis HT : tame evs.

Definition stays (j : nat) (e : ev) (w w' : world) (s : svc) (l : list ent) (m : list Z) : Prop :=
  exists s' l' m', at_ j w' s' l' m' /\ step e (wc w) j s l m s' l' m'.

Lemma w_forked_at j s0 s p w l m : at_ j w s l m ->
  at_ j (w_forked j s0 p w) (f_fork p s) ((m, EFork j FMain p) :: l) (p :: m).
Proof.
  intros H. unfold w_forked. cbv zeta.
  assert (X : at_ j (wupd j (set_s_pid p) (wfork_ok j FMain p (w_prep j w))) (f_fork p s) ((m, EFork j FMain p) :: l) (p :: m)).
  { unfold f_fork. ats. }
  revert X. generalize (wupd j (set_s_pid p) (wfork_ok j FMain p (w_prep j w))). intros w1 X.
  destruct (uses_socket s0), (is_run_t (ty s0)); ats.
Qed.
Lemma w_forked_at_o j k s0 s p w l m : k <> j -> at_ j w s l m -> at_ j (w_forked k s0 p w) s l m.
Proof.
  intros Hk H. unfold w_forked. cbv zeta.
  assert (X : at_ j (wupd k (set_s_pid p) (wfork_ok k FMain p (w_prep k w))) s l m) by ats.
  revert X. generalize (wupd k (set_s_pid p) (wfork_ok k FMain p (w_prep k w))). intros w1 X.
  destruct (uses_socket s0), (is_run_t (ty s0)); ats.
Qed.

Lemma find_in w s : binv evs w -> In s (k_svcs (wc w)) -> find_key (s_key s) (k_svcs (wc w)) = Some s.
Proof.
  intros HB Hs. apply nodup_find; [|exact Hs]. pose proof (i_nodup _ _ HB) as N. unfold recs in N. rewrite map_app in N.
  apply nodup_app_split in N. tauto.
Qed.

Ltac ato := unfold w_done, w_aux; ats; repeat first [at1 | apply w_forked_at_o; [assumption|]
  | match goal with |- at_ _ (if ?b then _ else _) _ _ _ => destruct b
    | |- at_ _ (match ?b with _ => _ end) _ _ _ => destruct b end].
Ltac other := match goal with H : at_ ?j _ ?s ?l ?m |- stays _ _ _ _ _ _ _ => exists s, l, m; split; [solve [ato]|apply s_id] end.
Ltac byk j k := destruct (Nat.eq_dec k j) as [Hkj|Hne]; [subst k|try other].
Ltac fin c := do 3 eexists; split; [solve [ats]|rapply c; eauto].

Lemma micro_step e w w' j s l m : In e evs -> micro True e w w' -> binv evs w -> at_ j w s l m ->
  stays j e w w' s l m \/
  find_key j (k_svcs (wc w')) = None /\ mine j (wc w') = m /\ k_next (wc w') = k_next (wc w) /\
    gone j s l m (jl j (wl w')).
Proof.
  intros He Hm HB H.
  assert (Hcf : c_forking (s_cf s) = false).
  { pose proof (at_rec _ _ _ _ _ H) as A. apply find_key_in in A.
    destruct (i_cf _ _ HB s) as (r & b & Hr & ->); [apply in_or_app; left; tauto|]. apply (t_noforking _ HT r Hr). }
  assert (Hal : 1 < s_pid s -> alive (wc w) (s_pid s) = true).
  { pose proof (at_rec _ _ _ _ _ H) as A. apply find_key_in in A. apply (i_alive _ _ HB). tauto. }
  assert (Heq : forall t, L w j t -> t = s) by (intros t; apply (at_eq _ _ _ _ _ _ H)).
  assert (Hfk : forall t, find_key j (k_svcs (wc w)) = Some t -> t = s).
  { intros t A. rewrite (at_rec _ _ _ _ _ H) in A. congruence. }
  destruct Hm;
    try match goal with HL : L w ?k ?t |- _ => destruct (Nat.eq_dec k j) as [Hkj|Hne];
          [subst k; pose proof (Heq t HL); subst t|left; other] end;
    try match goal with HL : find_key ?k (k_svcs (wc w)) = Some ?t |- _ => destruct (Nat.eq_dec k j) as [Hkj|Hne];
          [subst k; pose proof (Hfk t HL); subst t|left; other] end;
    try match goal with HL : start_guard True w ?k ?t |- _ => destruct (Nat.eq_dec k j) as [Hkj|Hne];
          [subst k; pose proof (Heq t (proj1 HL)); subst t|left; other] end;
    try (left; other);
    try (exfalso; auto; fail).
  - left; fin s_halt_wait.
  - left; fin s_halt_dead.
  - left; fin s_unconflict.
  - left; fin s_tear_clean.
  - left; fin s_tear_halt.
  - left; fin s_clean_halt.
  - left; fin s_done_halt.
  - left; destruct (H1 I) as (? & ? & ? & ?); fin s_done_wait.
  - left; fin s_stop_cancel.
  - (* done *) left. destruct (H2 I) as [A B]. unfold w_done. cbv zeta. rewrite A. cbn [st_eqb].
    do 3 eexists. split; [|eapply (s_stop_done e (wc w) j s l m); eauto].
    assert (X : at_ j (if c_manual (s_cf s) then wblock j BUser w else w)
                  (if c_manual (s_cf s) then set_s_block BUser s else s) l m)
      by (destruct (c_manual (s_cf s)); ats).
    unfold wcond. apply at_mod; [split; reflexivity|]. apply at_emit_o; [|reflexivity].
    replace (s_state s) with (s_state (if c_manual (s_cf s) then set_s_block BUser s else s))
      by (destruct (c_manual (s_cf s)); reflexivity).
    apply at_went_s, X.
  - left; destruct (H3 I) as (? & ?); fin s_stop_tear.
  - left; destruct (H5 I) as (? & ?); fin s_stop_clean.
  - left; destruct (H4 I) as (? & ?); fin s_stop_halt.
  - left; fin s_setup_fail.
  - left; byk j k. destruct (H0 I) as (t & A & B & C & D). rewrite (Heq t A) in *. fin s_setup_crash.
  - left; fin s_setup_start.
  - left; fin s_wait_halt.
  - left; fin s_wait_conflict.
  - left; fin s_wait_go.
  - (* aux *) left; byk j k. destruct (H2 I) as (t & A & B). rewrite (Heq t A) in *. clear A.
    assert (X : at_ j (wupd j (set_s_pid p) (wfork_ok j f p w)) (set_s_pid p s) ((m, EFork j f p) :: l) m).
    { apply at_upd_s; [reflexivity|]. apply at_fork_a; [intros ->; discriminate|exact H]. }
    unfold w_aux. cbv zeta. pose proof (at_L _ _ _ _ _ X) as Y. unfold L in Y. rewrite Y.
    do 3 eexists; split; [|rapply s_aux_ok; eauto; apply H0].
    unfold wtimeout. apply at_upd_s; [intros; apply f_timeout_key|exact X].
  - (* aux fails *) left; byk j k. destruct (H1 I) as (t & A & B). rewrite (Heq t A) in *. fin s_aux_fail.
  - left; fin s_start_halt.
  - left. destruct H0 as (A & B & C & D). fin s_start_missing.
  - (* start *) left. destruct H0 as (A & B & C & D). destruct H2 as [F1 F2].
    pose proof (w_forked_at j s s p w l m H) as X.
    do 3 eexists; split; [|rapply s_start_ok; eauto].
    unfold wclean. apply (at_upd_s j f_clean) in X; [|reflexivity]. apply (at_went_s _ Running) in X.
    unfold tr in X. cbn [s_state f_clean set_s_dirty set_s_adirty f_fork set_s_pid] in X.
    replace (s_state (f_rtot (set_s_starting true s))) with Starting in X by (unfold f_rtot; destruct (_ && _); symmetry; exact B).
    exact X.
  - (* no socket *) left. destruct H0 as (A & B & C & D). destruct H2 as [F1 F2].
    pose proof (w_forked_at j s s p w l m H) as X.
    do 3 eexists; split; [|rapply s_start_nosock; eauto].
    destruct (is_run_t (ty s)); [exact X|]. apply at_upd_s; [atk|exact X].
  - left. destruct H0 as (A & B & C & D). fin s_start_fail.
  - left; fin s_start_held.
  - left; fin s_run_died.
  - left; destruct (H2 I) as (A & B & _). fin s_run_retry.
  - left; destruct (H2 I) as (A & B). fin s_run_respawn.
  - left; fin s_run_done.
  - left; byk j k. destruct (H0 I) as (t & A & B & C). rewrite (Heq t A) in *.
    do 3 eexists; split; [eapply at_upd_s; [reflexivity|exact H]|rapply s_run_count; eauto].
  - left; fin s_run_cancel.
  - left. do 3 eexists; split; [|rapply s_run_pause; eauto].
    apply (at_emit_s j (EKill j (s_pid s) 19)) in H; [|abt]. apply (at_went_s _ Paused) in H.
    rewrite H1 in H. exact H.
  - left; byk j k. fin s_clean.
  - left; fin s_cont.
  - left. do 3 eexists; split; [|rapply s_paused_wait; eauto]. apply (at_upd_s j f_incr) in H; [|atk]. apply (at_went_s _ Waiting) in H. exact H.
  - left. do 3 eexists; split; [|rapply s_paused_run; eauto].
    apply (at_emit_s j (EKill j (s_pid s) 18)) in H; [|abt]. apply (at_went_s _ Running) in H.
    rewrite H1 in H. exact H.
  - left; fin s_sstop_none.
  - exfalso. rewrite Hal in H5 by assumption. discriminate H5.
  - exfalso. rewrite Hal in H5 by assumption. discriminate H5.
  - left; fin s_sstop_kill.
  - (* stop script *) left. subst w1. byk j k. pose proof (Heq s0 H0); subst s0.
    destruct (rc =? 1) eqn:E; [fin s_sstop_script_fail|fin s_sstop_script]; lia.
  - left; fin s_sstop_sysv.
  - left; fin s_sstop_sysvfail.
  - left. cbv zeta. do 3 eexists; split; [|apply (s_reload_script e (wc w) j s l m rc); assumption].
    destruct (rc =? 0); ats.
  - left; fin s_reload_nopid.
  - left. cbv zeta. rewrite Hal by assumption. fin s_reload_hup.
  - left; fin s_ready_ok.
  - left; byk j k. fin s_ready_fail.
  - left; fin s_cu_unblock.
  - byk j k; [|left; other]. exfalso. pose proof (at_L _ _ _ _ _ H) as X. unfold L in X. congruence.
  - (* collect *) exfalso. apply find_pid_in in H1. destruct H1 as [A B].
    pose proof (i_alive _ _ HB s0 A) as X. rewrite B in X. rewrite X in H2 by assumption. discriminate H2.
  - (* reap *) left. apply find_pid_in in H3. destruct H3 as [A B].
    pose proof (at_drop j lost _ _ _ _ H) as X. pose proof (at_rec _ _ _ _ _ H) as Y.
    destruct (Nat.eq_dec (s_key s0) j) as [Hk|Hk].
    + pose proof (find_in w s0 HB A) as F. rewrite Hk in F. pose proof (Hfk s0 F). subst s0.
      destruct (at_collect_s j lost st s _ _ _ Hcf X) as [run Z].
      do 3 eexists; split; [exact Z|]. subst lost. apply s_collect. lia.
    + do 3 eexists; split; [apply at_collect_o; [exact Hk|exact X]|]. apply s_drop. intros _ E. apply Hk.
      apply find_key_in in Y. destruct Y as [Y1 Y2]. rewrite <- Y2. apply (i_dist _ _ HB); auto; lia.
  - left. do 3 eexists; split; [ats|]. apply s_drop. intros A. pose proof (at_rec _ _ _ _ _ H) as Y.
    apply find_key_in in Y. eapply find_pid_none; [apply H2, A|apply Y].
  - (* script del *) left. byk j k.
    pose proof (at_L _ _ _ _ _ H) as X. unfold L in X. rewrite X.
    apply find_some in H0. destruct H0 as [A B]. fin s_script_del.
  - (* del_boot *) destruct (Nat.eq_dec k j) as [Hkj|Hne].
    + subst k. pose proof (Heq s0 H0). subst s0. right. destruct H as [A B C]. split; [apply find_del|]. split.
      * unfold wmod at 1. cbn [wc]. rewrite mine_del. destruct (s_pid s =? 0); exact C.
      * split; [unfold wmod at 1; cbn [wc]; rewrite next_del; destruct (s_pid s =? 0); reflexivity|].
        replace (jl j _) with (if s_pid s =? 0 then l else (m, EForget j (s_pid s)) :: l); [apply gone_boot; assumption|].
        destruct (s_pid s =? 0); cbn [wmod wupd wl wemit jl about keyof]; [congruence|]. rewrite Nat.eqb_refl. congruence.
    + left. exists s, l, m. split; [|apply s_id]. apply at_del_o; [exact Hne|]. apply at_upd_o; [reflexivity|exact Hne|].
      destruct (s_pid s0 =? 0); [exact H|]. apply at_emit_o; [exact H|]. unfold about; cbn [keyof]; apply Nat.eqb_neq, Hne.
  - (* unreg *) destruct (Nat.eq_dec k j) as [Hkj|Hne].
    + subst k. pose proof (Hfk s0 H0). subst s0. right. destruct H as [A B C]. split; [apply find_del|]. split.
      * unfold wmod at 1. cbn [wc]. rewrite mine_del. exact C.
      * split; [unfold wmod at 1; cbn [wc]; rewrite next_del; reflexivity|].
        cbn [wmod wupd wl wcancel]. rewrite B. apply gone_unreg; assumption.
    + left. exists s, l, m. split; [|apply s_id]. apply at_del_o; [exact Hne|]. ats.
  - left. do 3 eexists; split; [|rapply s_reconf].
    apply (at_all j (fun _ => svc_mark)); [intros _ t; unfold svc_mark; destruct (s_protect t); reflexivity|].
    apply at_emit_s; [exact H|reflexivity].
  - (* new *) left. exists s, l, m. split; [|apply s_id]. destruct H as [A B C]. constructor; [|exact B|exact C].
    unfold wmod. cbn [wc k_svcs set_k_next set_k_svcs]. rewrite find_app, A. reflexivity.
  - (* rereg *) left. apply find_ident_in in H2. destruct H2 as (A & B & C).
    destruct (Nat.eq_dec (s_key s0) j) as [Hk|Hk].
    + pose proof (find_in w s0 HB A) as F. rewrite Hk in F. pose proof (Hfk s0 F). subst s0.
      do 3 eexists; split; [rewrite Hk; apply at_upd_s; [apply quiet_rereg|exact H]|].
      eapply s_rereg; eauto. destruct H1 as (c0 & l0 & E). rewrite <- (at_log _ _ _ _ _ H), E. cbn. eauto.
    + exists s, l, m. split; [|apply s_id]. apply at_upd_o; [apply quiet_rereg|exact Hk|exact H].
  - left. do 3 eexists; split; [|rapply s_affected].
    apply (at_all j (fun _ => f_affected (pidcond s0))); [|exact H]. intros _ t. unfold f_affected. destruct (_ && _); reflexivity.
  - left. do 3 eexists; split; [|rapply s_unavail].
    apply (at_all j f_unavail); [|exact H]. intros c t. unfold f_unavail, svc_mark. destruct (ifthen_conf _ _); [reflexivity|].
    destruct (s_protect t); reflexivity.
  - left; fin s_rtonce.
  - left; fin s_rthalt.
  - left. exists s, l, m. split; [|apply s_id]. apply at_mod; [|exact H]. intros c. unfold c_nologin. cbv zeta.
    repeat match goal with |- context [if ?b then _ else _] => destruct b end; split; reflexivity.
  - left; fin s_fires.
  - left. cbv zeta. destruct (1 <? s_pid s) eqn:E; cbn [andb].
    + rewrite Hal by lia. fin s_fired_kill. lia.
    + fin s_fired_late. lia.
  - left; fin s_fired_retry.
  - left. cbv zeta. do 3 eexists; split; [|rapply s_fired_script; eauto]. destruct (1 <? s_pid s); ats.
  - left; byk j k. fin s_script_killed.
  - left; fin s_retry_respawn.
  - left. do 3 eexists; split; [|rapply s_retry_up; eauto].
    apply (at_upd_s j (fun s0 => set_s_rtmo (s_rsaved s0) s0)) in H; [|reflexivity]. apply (at_went_s _ Running) in H. exact H.
  - left. cbv zeta. do 3 eexists; split; [|rapply s_giveup; eauto]. destruct (c_oncrash (s_cf s)); ats.
  - left; fin s_again.
  - left; destruct (H2 I) as (A & B & C). fin s_arm.
  - left; fin s_api_stop.
  - left; fin s_api_start. destruct H0 as [[_ ->]|(_ & -> & _)]; discriminate.
  - left; fin s_api_cancel. destruct H0 as [(_ & -> & _)|(_ & -> & _)]; discriminate.
  - left; fin s_api_unblock. discriminate.
  - left; byk j k. fin s_api_dirty.
  - left; fin s_api_signal.
  - exfalso. congruence.
  - (* pidfile *) left; byk j k. destruct (H1 I) as (t & A & B). rewrite (Heq t A) in *. exfalso. congruence.
  - left; byk j k. fin s_started.
  - left. do 3 eexists; split; [|rapply s_tick].
    match goal with |- at_ _ (wmod (f_all ?g) _) _ _ _ => apply (at_all j g) end; [|apply at_emit_s; [exact H|reflexivity]].
    intros _ t. destruct (_ && _); reflexivity.
  - exfalso. subst e. apply (t_reported _ HT _ He).
Qed.

(** ** Before it is registered and after it is dropped *)

Definition dull (x : eff) : bool :=
  match x with EFork _ FMain _ | ERetry _ | EGiveup _ | ERequest _ _ => false | _ => true end.
Definition dulls (l : list ent) : Prop := Forall (fun a => dull (snd a) = true) l.

Record off (j : nat) (w : world) (l : list ent) (m : list Z) (n : nat) : Prop := {
  off_rec : find_key j (k_svcs (wc w)) = None;
  off_log : exists new, jl j (wl w) = new ++ l /\ dulls new;
  off_mine : mine j (wc w) = m;
  off_next : k_next (wc w) = n
}.

Lemma off_emit j x w l m n : off j w l m n -> about j x = false \/ dull x = true -> off j (wemit x w) l m n.
Proof.
  intros [A (new & B & B2) C D] H. constructor; [exact A| |exact C|exact D]. cbn [wl wemit jl].
  destruct (about j x) eqn:E; [|eauto]. destruct H as [H|H]; [discriminate H|].
  eexists (_ :: new). split; [cbn; rewrite B; reflexivity|]. constructor; [exact H|exact B2].
Qed.
Lemma off_upd j k f w l m n : (forall s, s_key (f s) = s_key s) -> off j w l m n -> off j (wupd k f w) l m n.
Proof.
  intros Hf [A B C D]. constructor; [|exact B|exact C|exact D]. unfold wupd, wmod, cupd. cbn [wc k_svcs set_k_svcs set_k_gc].
  rewrite find_map_key by exact Hf. rewrite A. destruct (Nat.eqb j k); reflexivity.
Qed.
Lemma off_mod j g w l m n : (forall c, k_svcs (g c) = k_svcs c /\ k_mains (g c) = k_mains c /\ k_next (g c) = k_next c) ->
  off j w l m n -> off j (wmod g w) l m n.
Proof.
  intros Hg [A B C D]. destruct (Hg (wc w)) as (E1 & E2 & E3). constructor; unfold wmod, mine; cbn [wc wl].
  - rewrite E1. exact A.
  - exact B.
  - rewrite E2. exact C.
  - rewrite E3. exact D.
Qed.
Lemma off_went j k new w l m n : off j w l m n -> off j (went k new w) l m n.
Proof.
  intros H. unfold went. destruct (lookup_svc (wc w) k) as [t|]; [|exact H]. unfold wenter. cbv zeta.
  unfold wtimeout, wcancel.
  destruct (st_eqb new Stopping), (st_eqb (s_state t) new);
    repeat first [ exact H | apply off_upd; [first [reflexivity|intros; apply f_timeout_key]|]
                 | apply off_emit; [|right; reflexivity] ].
Qed.
Lemma off_fork j k f p w l m n : off j w l m n -> k <> j \/ f <> FMain -> off j (wfork_ok k f p w) l m n.
Proof.
  intros H Hk. unfold wfork_ok.
  assert (X : off j (wmod (fun c => set_k_procs (p :: k_procs c) c)
      (wemit (EFork k f p) (wmod (fun c => set_k_forks (tl (k_forks c)) c) w))) l m n).
  { apply off_mod; [repeat split|]. apply off_emit; [apply off_mod; [repeat split|exact H]|].
    destruct Hk as [Hk|Hk]; [left; unfold about; cbn [keyof]; apply Nat.eqb_neq, Hk|right; destruct f; try reflexivity; contradiction]. }
  revert X. generalize (wmod (fun c => set_k_procs (p :: k_procs c) c)
      (wemit (EFork k f p) (wmod (fun c => set_k_forks (tl (k_forks c)) c) w))). intros w1 [A B C D].
  constructor; [exact A|exact B| |exact D]. unfold mine in *. cbn [wmod wc k_mains set_k_mains].
  destruct f; try exact C. cbn [filter snd]. destruct Hk as [Hk|Hk]; [|contradiction].
  apply Nat.eqb_neq in Hk. rewrite Hk. exact C.
Qed.
Lemma off_all j f w l m n : (forall c s, s_key (f c s) = s_key s) -> off j w l m n -> off j (wmod (f_all f) w) l m n.
Proof.
  intros Hf [A B C D]. constructor; [|exact B|exact C|exact D]. unfold wmod, f_all. cbn [wc k_svcs set_k_svcs].
  rewrite find_map_all by apply Hf. rewrite A. reflexivity.
Qed.
Lemma find_none_filter j k l : find_key j l = None -> find_key j (filter (fun t => negb (Nat.eqb (s_key t) k)) l) = None.
Proof.
  unfold find_key. induction l as [|x l IH]; [reflexivity|]. cbn [filter find].
  destruct (Nat.eqb (s_key x) j) eqn:E; [discriminate|]. intros H.
  destruct (negb _); cbn [find]; rewrite ?E; auto.
Qed.
Lemma off_del j k w l m n : off j w l m n -> off j (wmod (c_del k) w) l m n.
Proof.
  intros [A B C D]. unfold wmod, c_del. destruct (find_key k (k_svcs (wc w))) as [t|].
  - constructor; [|exact B|exact C|exact D]. cbn [wc k_svcs set_k_svcs]. apply find_none_filter, A.
  - constructor; assumption.
Qed.
Lemma off_drop j p w l m n : off j w l m n -> off j (wmod (c_drop p) w) l (without p m) n.
Proof.
  intros [A B C D]. constructor; [exact A|exact B| |exact D]. unfold wmod. cbn [wc]. rewrite mine_drop, C. reflexivity.
Qed.
Lemma off_collect j lost st s w l m n : off j w l m n -> off j (w_collect lost st s w) l m n.
Proof.
  intros H. unfold w_collect, wcleanup, wcancel, wclean. cbv zeta.
  match goal with |- off _ (if _ then _ (_ _ ?x) else _) _ _ _ => assert (X : off j x l m n) end.
  { repeat match goal with
    | |- off _ (if ?b then _ else _) _ _ _ => destruct b
    | |- off _ (wemit _ _) _ _ _ => apply off_emit; [|right; reflexivity]
    | |- off _ (wupd _ _ _) _ _ _ => apply off_upd; [reflexivity|]
    end; exact H. }
  match goal with |- off _ (if ?b then _ else _) _ _ _ => destruct b end; [|exact X].
  apply off_mod; [repeat split|]. apply off_upd; [reflexivity|exact X].
Qed.
Lemma off_forked j k s p w l m n : k <> j -> off j w l m n -> off j (w_forked k s p w) l m n.
Proof.
  intros Hk H. unfold w_forked. cbv zeta.
  assert (X : off j (wupd k (set_s_pid p) (wfork_ok k FMain p (w_prep k w))) l m n).
  { apply off_upd; [reflexivity|]. apply off_fork; [|left; exact Hk]. unfold w_prep. repeat (apply off_upd; [atk|]). exact H. }
  revert X. generalize (wupd k (set_s_pid p) (wfork_ok k FMain p (w_prep k w))). intros w1 X.
  destruct (uses_socket s), (is_run_t (ty s)); repeat (apply off_mod; [repeat split|]); exact X.
Qed.
Lemma not_key j w : find_key j (k_svcs (wc w)) = None -> forall k, In k (keys (wc w)) -> k <> j.
Proof.
  intros H k Hk ->. unfold keys in Hk. apply in_map_iff in Hk. destruct Hk as (s & E & Hs).
  unfold find_key in H. apply find_none with (x := s) in H; [|exact Hs]. rewrite E, Nat.eqb_refl in H. discriminate H.
Qed.

Ltac of1 :=
  match goal with
  | H : off ?j ?w _ _ _ |- off ?j ?w _ _ _ => exact H
  | |- off _ (let _ := _ in _) _ _ _ => cbv zeta
  | |- off _ (wemit _ _) _ _ _ => apply off_emit; [|first [right; reflexivity|left; unfold about; cbn [keyof]; apply Nat.eqb_neq; assumption]]
  | |- off _ (went _ _ _) _ _ _ => apply off_went
  | |- off _ (wfork_ok _ _ _ _) _ _ _ => apply off_fork; [|first [right; discriminate|left; assumption]]
  | |- off _ (w_forked _ _ _ _) _ _ _ => apply off_forked; [assumption|]
  | |- off _ (wmod (c_del _) _) _ _ _ => apply off_del
  | |- off _ (wupd _ _ _) _ _ _ => apply off_upd; [atk|]
  | |- off _ (wmod (f_all _) _) _ _ _ => apply off_all; [|]
  | |- off _ (wmod _ _) _ _ _ => apply off_mod; [intros; repeat split|]
  | |- off _ (if ?b then _ else _) _ _ _ => destruct b
  | |- off _ (match ?b with _ => _ end) _ _ _ => destruct b
  end.
Ltac ofs := unfold w_done, w_aux, wcleanup, wcancel, wblock, wclean, wtimeout, wscript, wcond, wfork_fail, w_prep; repeat of1.

Lemma micro_off e w w' j l m n : In e evs -> micro True e w w' -> off j w l m n ->
  off j w' l m n \/ (exists p, off j w' l (without p m) n) \/ off j w' l m (S n) \/
  exists r, In r (k_conf (wc w)) /\ (exists c l0, wl w = (c, EReconf) :: l0) /\ n = j /\
    at_ j w' (fresh_svc j r) (jl j (wl w)) m.
Proof.
  intros He Hm H.
  pose proof (not_key j w (off_rec _ _ _ _ _ H)) as NK.
  assert (NF : forall k t, find_key k (k_svcs (wc w)) = Some t -> k <> j).
  { intros k t A ->. rewrite (off_rec _ _ _ _ _ H) in A. discriminate A. }
  destruct Hm; try (left; ofs; fail).
  - (* aux *) left. unfold w_aux. cbv zeta.
    assert (X : off j (wupd k (set_s_pid p) (wfork_ok k f p w)) l m n).
    { apply off_upd; [reflexivity|]. apply off_fork; [exact H|]. right. intros ->. discriminate H1. }
    destruct (lookup_svc _ k); ofs.
  - left. assert (k <> j) by (apply NK, H0, I). ofs.
  - left. assert (k <> j) by (apply NK, H0, I). ofs.
  - left. subst w1. ofs.
  - left. apply off_collect, H.
  - right; left. exists lost. apply off_collect, off_drop, H.
  - right; left. exists lost. apply off_drop, H.
  - left. ofs. intros _ t; unfold svc_mark; destruct (s_protect t); reflexivity.
  - (* new *) right; right. destruct (Nat.eq_dec (k_next (wc w)) j) as [E|E].
    + right. exists r. split; [exact H0|]. split; [exact H1|]. destruct H as [A B C D]. split; [congruence|].
      assert (K : s_key (fresh_svc j r) = j) by apply (fresh_cf j r).
      constructor; [|reflexivity|exact C]. unfold wmod. cbn [wc k_svcs set_k_next set_k_svcs].
      rewrite find_app, A, E, K, Nat.eqb_refl. reflexivity.
    + left. destruct H as [A B C D].
      assert (K : s_key (fresh_svc (k_next (wc w)) r) = k_next (wc w)) by apply (fresh_cf (k_next (wc w)) r).
      constructor; [|exact B|exact C|cbn; congruence]. unfold wmod. cbn [wc k_svcs set_k_next set_k_svcs].
      rewrite find_app, A, K. apply Nat.eqb_neq in E. rewrite E. reflexivity.
  - left. apply off_upd; [apply quiet_rereg|exact H].
  - left. ofs. intros _ t. unfold f_affected. destruct (_ && _); reflexivity.
  - left. ofs. intros c t. unfold f_unavail, svc_mark. destruct (ifthen_conf _ _); [reflexivity|].
    destruct (s_protect t); reflexivity.
  - left. apply off_mod; [|exact H]. intros c. unfold c_nologin. cbv zeta.
    repeat match goal with |- context [if ?b then _ else _] => destruct b end; repeat split; reflexivity.
  - left. assert (k <> j) by (apply NK; auto). ofs.
  - left. assert (k <> j) by (apply NK; auto). ofs.
  - left. pose proof (NF _ _ H1). ofs.
  - left. pose proof (NF _ _ H1). ofs.
  - left. pose proof (NF _ _ H1). ofs.
  - left. pose proof (NF _ _ H1). ofs.
  - left. ofs. intros _ t. destruct (_ && _); reflexivity.
  - exfalso. subst e. apply (t_reported _ HT _ He).
Qed.

(** ** What holds of one stanza all the time *)

Lemma fresh_inv_jl j w : dulls (jl j (wl w)) -> forall new l, jl j (wl w) = new ++ l -> dulls l.
Proof. intros H new l E. unfold dulls in *. rewrite E in H. apply Forall_app in H. tauto. Qed.

Lemma slice_ind cfgl cmdl j (J : svc -> list ent -> list Z -> Prop) (N : list ent -> list Z -> Prop) :
  N [] [] ->
  (forall e w s l m s' l' m', In e evs -> reach True (E evs) (init_world cfgl cmdl) w ->
     find_key j (k_svcs (wc w)) = Some s -> mine j (wc w) = m ->
     J s l m -> step e (wc w) j s l m s' l' m' -> J s' l' m') ->
  (forall w s l m l', reach True (E evs) (init_world cfgl cmdl) w -> find_key j (k_svcs (wc w)) = Some s ->
     J s l m -> gone j s l m l' -> N l' m) ->
  (forall new l m, N l m -> dulls new -> N (new ++ l) m) ->
  (forall l m p, N l m -> N l (without p m)) ->
  (forall w r l, reach True (E evs) (init_world cfgl cmdl) w -> In r (k_conf (wc w)) -> N l [] -> dulls l -> (exists m0 l0, l = (m0, EReconf) :: l0) ->
     J (fresh_svc j r) l []) ->
  forall w, reach True (E evs) (init_world cfgl cmdl) w ->
    match find_key j (k_svcs (wc w)) with
    | Some s => J s (jl j (wl w)) (mine j (wc w))
    | None => N (jl j (wl w)) (mine j (wc w))
    end.
Proof.
  intros H0 HS HG HD HM HB w Hr.
  enough (X : match find_key j (k_svcs (wc w)) with
    | Some s => J s (jl j (wl w)) (mine j (wc w))
    | None => N (jl j (wl w)) (mine j (wc w)) /\
              ((k_next (wc w) <= j)%nat -> mine j (wc w) = [] /\ dulls (jl j (wl w)))
    end) by (destruct (find_key j (k_svcs (wc w))); tauto).
  revert w Hr. apply (reach_ind True (E evs) (fun w => match find_key j (k_svcs (wc w)) with
    | Some s => J s (jl j (wl w)) (mine j (wc w))
    | None => N (jl j (wl w)) (mine j (wc w)) /\
              ((k_next (wc w) <= j)%nat -> mine j (wc w) = [] /\ dulls (jl j (wl w)))
    end)).
  - cbn. split; [exact H0|]. intros _. split; [reflexivity|constructor].
  - intros e w w' He Hm Hr IH. pose proof (inv_reach evs HT _ _ _ Hr) as HI.
    pose proof (inv_micro evs HT e w w' He Hm HI) as HI'.
    destruct (find_key j (k_svcs (wc w))) as [s|] eqn:Ef.
    + assert (At : at_ j w s (jl j (wl w)) (mine j (wc w))) by (constructor; auto).
      destruct (micro_step e w w' j s _ _ He Hm HI At) as [(s' & l' & m' & [A B C] & St)|(A & B & C & G)].
      * rewrite A, B, C. exact (HS e w s _ _ s' l' m' He Hr Ef eq_refl IH St).
      * rewrite A, B. split; [exact (HG w s _ _ _ Hr Ef IH G)|]. intros K. exfalso.
        apply find_key_in in Ef. destruct Ef as [Ef1 Ef2].
        pose proof (i_next _ _ HI s) as X. rewrite Ef2 in X. specialize (X ltac:(apply in_or_app; left; exact Ef1)). lia.
    + destruct IH as [IN ID].
      assert (Of : off j w (jl j (wl w)) (mine j (wc w)) (k_next (wc w))).
      { constructor; auto. exists []. split; [reflexivity|constructor]. }
      assert (G : forall m n, off j w' (jl j (wl w)) m n -> (k_next (wc w) <= n)%nat ->
        N (jl j (wl w)) m -> ((k_next (wc w) <= j)%nat -> m = []) ->
        match find_key j (k_svcs (wc w')) with
        | Some s => J s (jl j (wl w')) (mine j (wc w'))
        | None => N (jl j (wl w')) (mine j (wc w')) /\
              ((k_next (wc w') <= j)%nat -> mine j (wc w') = [] /\ dulls (jl j (wl w')))
        end).
      { intros m n [A (new & B & B2) C D] Hn Nm Hm0. rewrite A, C, D, B. split; [apply HD; assumption|].
        intros K. split; [apply Hm0; lia|]. unfold dulls in *. apply Forall_app. split; [exact B2|]. apply ID. lia. }
      destruct (micro_off e w w' j _ _ _ He Hm Of) as [X|[[p X]|[X|(r & Hr1 & (c0 & l0 & E0) & En & [A B C])]]].
      * apply (G _ _ X); auto. intros K. apply ID, K.
      * apply (G _ _ X); auto. intros K. destruct (ID K) as [-> _]. reflexivity.
      * apply (G _ _ X); auto. intros K. apply ID, K.
      * destruct ID as [I1 I2]; [lia|]. rewrite A, B, C, I1. rewrite I1 in IN.
        apply (HB w); auto. rewrite E0. cbn. eauto.
Qed.
End Slice.
