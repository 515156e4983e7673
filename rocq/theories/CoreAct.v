(** What single events do: requests of the user, and the SIGKILL timer. *)
From Coq Require Import List String Ascii ZArith NArith Bool Lia Arith Relations.
From Coq Require Import ZifyBool ZifyNat.
From Verif Require Import CondModel CoreTypes CoreModel CoreLib CoreMicro CoreExec CoreCalm CoreLog
  CoreSpec CoreSpecB CoreAny CoreProof CoreProofD CoreGrow.
Import ListNotations.
Local Open Scope Z_scope.

Lemma wp_ext {A} (m : ST A) (Q : A -> world -> Prop) w : ext m -> (forall a w', grown w w' -> Q a w') -> wp m Q w.
Proof. intros H1 H2. unfold wp. destruct (m w) as [[a w']|] eqn:E; [|exact Logic.I]. apply H2, (H1 _ _ _ E). Qed.

Lemma not_over n evs cfgl cmdl w : history n evs cfgl cmdl w -> ~ over w -> k_down (wc w) = false.
Proof. intros Hh Ho. destruct (k_down (wc w)) eqn:E; [|reflexivity]. exfalso. apply Ho, (down_over _ _ _ _ _ Hh), E. Qed.
Lemma reg_lookup n evs cfgl cmdl w s : history n evs cfgl cmdl w -> In s (k_svcs (wc w)) ->
  find_key (s_key s) (k_svcs (wc w)) = Some s.
Proof.
  intros Hh Hs. pose proof (u_nodup _ (u_now _ (history_uinv _ _ _ _ _ Hh))) as N. unfold recs in N. rewrite map_app in N.
  apply nodup_app_split in N. apply nodup_find; [apply N|exact Hs].
Qed.

Section Stop.
Variable n : nat.

Definition w_stop (k : nat) (s : svc) (w : world) : world :=
  wenter k s Stopping (wemit (EKill k (s_pid s) (c_sighalt (s_cf s))) (wupd k (set_s_starting false) (wcancel k w))).

Lemma stop_grown k s w : L w k s -> (st_num Stopping < st_num (s_state s))%nat -> c_stop (s_cf s) = false -> is_sysv s = false ->
  1 < s_pid s -> alive (wc w) (s_pid s) = true ->
  wp (service_stop (exec n) k) (fun _ w' => grown (w_stop k s w) w') w.
Proof.
  intros HL H1 H2 H3 H4 H5. unfold service_stop. apply wp_with_svc; [|unfold L in HL; congruence].
  intros s0 HL0. assert (s0 = s) by (unfold L in HL; congruence). subst s0.
  destruct (Nat.leb_spec (st_num (s_state s)) (st_num Stopping)) as [Hx|_]; [lia|].
  unfold cancel at 1. apply wp_bind, wp_upd, wp_bind, wp_getc. cbv zeta. rewrite H2, H3. cbn [negb andb].
  destruct (Z.leb_spec (s_pid s) 1) as [Hx|_]; [lia|].
  change (alive (wc (wupd k (set_s_timer TmNone) w)) (s_pid s)) with (alive (wc w) (s_pid s)). rewrite H5. cbn [negb].
  apply wp_bind, wp_upd. rewrite andb_false_r.
  apply wp_bind, wp_bind. unfold do_kill. apply wp_bind, wp_emit, wp_bind, wp_getc, wp_ret, wp_ret.
  match goal with |- context [memZ (s_pid s) (k_procs (wc ?x))] => change (memZ (s_pid s) (k_procs (wc x))) with (alive (wc w) (s_pid s)) end.
  rewrite H5, andb_false_r. change (0 =? -1) with false. cbv iota. change (0 =? 1) with false. cbv iota.
  unfold set_state. apply wp_with_svc.
  2:{ intros X. assert (Y : L (wemit (EKill k (s_pid s) (c_sighalt (s_cf s))) (wupd k (set_s_starting false) (wupd k (set_s_timer TmNone) w))) k
        (set_s_starting false (set_s_timer TmNone s))) by lk. unfold L in Y. congruence. }
  intros s1 HL1.
  assert (Y : L (wemit (EKill k (s_pid s) (c_sighalt (s_cf s))) (wupd k (set_s_starting false) (wupd k (set_s_timer TmNone) w))) k
        (set_s_starting false (set_s_timer TmNone s))) by lk.
  assert (s1 = set_s_starting false (set_s_timer TmNone s)) by (unfold L in Y; congruence). subst s1. clear Y HL1.
  cbv zeta. change (st_eqb Stopping Stopping) with true. cbn [when].
  unfold cancel, timeout_after. apply wp_bind, wp_bind, wp_upd, wp_bind, wp_upd, wp_upd.
  change (s_state (set_s_starting false (set_s_timer TmNone s))) with (s_state s).
  assert (E : st_eqb (s_state s) Stopping = false) by (destruct (s_state s); try reflexivity; cbn in H1; lia). rewrite E.
  apply wp_bind, wp_emit, wp_bind, wp_upd.
  match goal with |- wp _ _ ?x => assert (EX : x = w_stop k s w) end.
  { unfold w_stop, wenter, wtimeout, wcancel. rewrite E. reflexivity. }
  rewrite EX. clear EX. apply wp_ext; [|auto].
  pose proof (ext_coneshot (exec n) (ext_exec n)). pose proof (ext_cclear (exec n) (ext_exec n)).
  pose proof (ext_delpath (exec n) (ext_exec n)). pose proof (ext_exec n). exs.
Qed.
End Stop.

(** stopped by the user *)
Lemma w_stop_log k s w : (st_num Stopping < st_num (s_state s))%nat -> L w k s -> 0 < c_killdelay (s_cf s) ->
  exists c2 c3, wl (w_stop k s w) = (c3, EState k (s_state s) Stopping) :: (c2, EKill k (s_pid s) (c_sighalt (s_cf s))) :: wl w /\
    exists t, record_at c3 k t /\ s_pid t = s_pid s /\ s_timer t = TmArmed TcKill (c_killdelay (s_cf s)).
Proof.
  intros H1 HL Hd. unfold w_stop, wenter.
  assert (E : st_eqb (s_state s) Stopping = false) by (destruct (s_state s); try reflexivity; cbn in H1; lia).
  rewrite E. change (st_eqb Stopping Stopping) with true. cbv iota zeta.
  match goal with |- context [wemit (EState _ _ _) ?x] => assert (Y : L x k (set_s_killed false (f_timeout (c_killdelay (s_cf s)) TcKill
        (set_s_timer TmNone (set_s_starting false (set_s_timer TmNone s)))))) end.
  { unfold wcancel, wtimeout. apply L_wupd; [reflexivity|]. apply L_wupd; [intros; apply f_timeout_key|]. lk. }
  eexists _, _. split; [reflexivity|]. eexists. split; [apply lookup_record, Y|].
  cbn [s_pid s_timer set_s_killed]. rewrite (proj1 (proj2 (proj2 (proj2 (proj2 (f_timeout_fields _ _ _)))))).
  split; [reflexivity|]. unfold f_timeout. cbn [s_timer set_s_timer].
  destruct (Z.eqb_spec (c_killdelay (s_cf s)) 0); [lia|]. destruct (Z.ltb_spec (c_killdelay (s_cf s)) 0); [lia|]. reflexivity.
Qed.

Lemma blocked_disabled c s : s_block s <> BNone -> enabled c s = false.
Proof.
  intros H. unfold enabled, blocked. destruct (s_block s); try contradiction; cbn;
    rewrite ?andb_false_r; reflexivity.
Qed.

Theorem stop_request_lem n evs cfgl cmdl w1 m s w2 : history n evs cfgl cmdl w1 -> ~ over w1 ->
  on_event m (EvStop (s_key s)) w1 = Some (tt, w2) -> reserved (k_rl (wc w1)) = false ->
  In s (k_svcs (wc w1)) -> s_state s = Running \/ s_state s = Paused ->
  c_stop (s_cf s) = false -> c_type (s_cf s) <> TSysv -> 1 < s_pid s -> In (s_pid s) (k_procs (wc w1)) -> 0 < c_killdelay (s_cf s) ->
  stop_order (wl w1) (wl w2) (s_key s) RqStop (s_state s) (s_pid s) (c_sighalt (s_cf s)) (c_killdelay (s_cf s)).
Proof.
  intros Hh Ho He Hrl Hs Hst Hc Ht Hp Hal Hd. set (k := s_key s) in *.
  pose proof (not_over _ _ _ _ _ Hh Ho) as Hdn. pose proof (reg_lookup _ _ _ _ _ _ Hh Hs) as Hf. fold k in Hf.
  assert (Hsv : is_sysv s = false) by (unfold is_sysv, ty; destruct (c_type (s_cf s)); try reflexivity; contradiction Ht; reflexivity).
  assert (Hlv : (st_num Stopping < st_num (s_state s))%nat) by (destruct Hst as [-> | ->]; cbn; lia).
  assert (W : wp (on_event m (EvStop k)) (fun _ w' => stop_order (wl w1) (wl w') k RqStop (s_state s) (s_pid s) (c_sighalt (s_cf s)) (c_killdelay (s_cf s))) w1).
  2:{ unfold wp in W. rewrite He in W. exact W. }
  clear He w2. unfold on_event. apply wp_bind, wp_getc. rewrite Hdn. cbn [handle]. unfold gated. apply wp_bind, wp_getc. rewrite Hrl.
  unfold api_stop, if_registered. apply wp_bind, wp_getc. rewrite Hf.
  apply wp_bind, wp_emit. unfold cancel. apply wp_bind, wp_upd, wp_bind, wp_upd.
  set (w3 := wupd k (set_s_block BUser) (wupd k (set_s_timer TmNone) (wemit (ERequest k RqStop) w1))).
  set (s3 := set_s_block BUser (set_s_timer TmNone s)).
  assert (HL : L w3 k s3) by (subst w3 s3; apply find_lookup in Hf; fold k in Hf; change (L w1 k s) in Hf; lk).
  assert (Hal3 : alive (wc w3) (s_pid s) = true).
  { change (alive (wc w3) (s_pid s)) with (alive (wc w1) (s_pid s)). unfold alive, memZ. apply existsb_exists. exists (s_pid s). split; [exact Hal|apply Z.eqb_refl]. }
  assert (El : wl w3 = (wc w1, ERequest k RqStop) :: wl w1) by reflexivity.
  assert (Hdn3 : k_down (wc w3) = false) by exact Hdn.
  clearbody w3.
  destruct m as [|m]; [exact Logic.I|].
  apply wp_bind. apply wp_mono with (Q := fun _ w' => stop_order (wl w1) (wl w') k RqStop (s_state s) (s_pid s) (c_sighalt (s_cf s)) (c_killdelay (s_cf s))).
  2:{ intros _ w4 (newer & c1 & c2 & c3 & cont & E & R). apply wp_ext; [apply ext_step_all, ext_exec|]. intros _ w5 (new & E5).
      exists (new ++ newer), c1, c2, c3, cont. split; [rewrite E5, E, <- app_assoc; reflexivity|exact R]. }
  cbn [exec]. unfold body. apply wp_bind, wp_getc. rewrite Hdn3. unfold service_step. apply wp_with_svc; [|unfold L in HL; congruence].
  intros s0 HL0. assert (s0 = s3) by (unfold L in HL; congruence). subst s0. clear HL0.
  apply wp_bind, wp_getc, wp_bind.
  assert (Hen : enabled (wc w3) s3 = false) by (apply blocked_disabled; discriminate).
  apply wp_mono with (Q := fun _ w' => stop_order (wl w1) (wl w') k RqStop (s_state s) (s_pid s) (c_sighalt (s_cf s)) (c_killdelay (s_cf s))).
  2:{ intros d w4 (newer & c1 & c2 & c3 & cont & E & R). apply wp_ext.
      - pose proof (ext_exec m). exs.
      - intros _ w5 (new & E5).
      exists (new ++ newer), c1, c2, c3, cont. split; [rewrite E5, E, <- app_assoc; reflexivity|exact R]. }
  unfold step_switch. change (s_state s3) with (s_state s). destruct Hst as [Hst|Hst]; rewrite Hst.
  - unfold step_running. rewrite Hen. cbn [negb]. apply wp_bind.
    eapply wp_mono; [apply (stop_grown m k s3 w3 HL); [exact Hlv|exact Hc|exact Hsv|exact Hp|exact Hal3]|].
    intros _ w4 (new & E4). apply wp_ret.
    destruct (w_stop_log k s3 w3) as (c2 & c3 & Ew & R); [exact Hlv|exact HL|exact Hd|].
    exists new, (wc w1), c2, c3, []. split; [rewrite E4, Ew, El; cbn; change (s_state s3) with (s_state s); rewrite Hst; reflexivity|].
    split; [left; split; [discriminate|reflexivity]|exact R].
  - unfold step_paused. rewrite Hen. cbn [negb]. apply wp_bind, wp_bind. unfold do_kill. apply wp_bind, wp_emit, wp_bind, wp_getc, wp_ret.
    change (s_pid s3) with (s_pid s).
    eapply wp_mono; [apply (stop_grown m k s3 (wemit (EKill k (s_pid s) 18) w3) HL); [exact Hlv|exact Hc|exact Hsv|exact Hp|exact Hal3]|].
    intros _ w4 (new & E4). apply wp_ret.
    destruct (w_stop_log k s3 (wemit (EKill k (s_pid s) 18) w3)) as (c2 & c3 & Ew & R); [exact Hlv|exact HL|exact Hd|].
    exists new, (wc w1), c2, c3, [(wc w3, EKill k (s_pid s) 18)]. split; [rewrite E4, Ew; cbn [wl wemit]; rewrite El; cbn; change (s_state s3) with (s_state s); rewrite Hst; reflexivity|].
    split; [right; split; [reflexivity|eexists; reflexivity]|exact R].
Qed.

(** restarted by the user *)
Theorem restart_request_lem n evs cfgl cmdl w1 m s w2 : history n evs cfgl cmdl w1 -> ~ over w1 ->
  on_event m (EvRestart (s_key s)) w1 = Some (tt, w2) -> reserved (k_rl (wc w1)) = false ->
  In s (k_svcs (wc w1)) -> s_state s = Running ->
  c_stop (s_cf s) = false -> c_type (s_cf s) <> TSysv -> 1 < s_pid s -> In (s_pid s) (k_procs (wc w1)) -> 0 < c_killdelay (s_cf s) ->
  stop_order (wl w1) (wl w2) (s_key s) RqRestart (s_state s) (s_pid s) (c_sighalt (s_cf s)) (c_killdelay (s_cf s)).
Proof.
  intros Hh Ho He Hrl Hs Hst Hc Ht Hp Hal Hd. set (k := s_key s) in *.
  pose proof (not_over _ _ _ _ _ Hh Ho) as Hdn. pose proof (reg_lookup _ _ _ _ _ _ Hh Hs) as Hf. fold k in Hf.
  assert (Hsv : is_sysv s = false) by (unfold is_sysv, ty; destruct (c_type (s_cf s)); try reflexivity; contradiction Ht; reflexivity).
  assert (Hlv : (st_num Stopping < st_num (s_state s))%nat) by (rewrite Hst; cbn; lia).
  assert (W : wp (on_event m (EvRestart k)) (fun _ w' => stop_order (wl w1) (wl w') k RqRestart (s_state s) (s_pid s) (c_sighalt (s_cf s)) (c_killdelay (s_cf s))) w1).
  2:{ unfold wp in W. rewrite He in W. exact W. }
  clear He w2. unfold on_event. apply wp_bind, wp_getc. rewrite Hdn. cbn [handle]. unfold gated. apply wp_bind, wp_getc. rewrite Hrl.
  unfold api_restart, if_registered. apply wp_bind, wp_getc. rewrite Hf.
  apply wp_bind, wp_emit. assert (E : st_eqb (s_state s) Running = true) by (rewrite Hst; reflexivity). rewrite E. cbn [negb].
  unfold cancel. apply wp_bind, wp_upd, wp_bind.
  set (w3 := wupd k (set_s_timer TmNone) (wemit (ERequest k RqRestart) w1)).
  set (s3 := set_s_timer TmNone s).
  assert (HL : L w3 k s3) by (subst w3 s3; apply find_lookup in Hf; fold k in Hf; change (L w1 k s) in Hf; lk).
  assert (Hal3 : alive (wc w3) (s_pid s) = true).
  { change (alive (wc w3) (s_pid s)) with (alive (wc w1) (s_pid s)). unfold alive, memZ. apply existsb_exists. exists (s_pid s). split; [exact Hal|apply Z.eqb_refl]. }
  assert (El : wl w3 = (wc w1, ERequest k RqRestart) :: wl w1) by reflexivity.
  clearbody w3.
  eapply wp_mono; [apply (stop_grown m k s3 w3 HL); [exact Hlv|exact Hc|exact Hsv|exact Hp|exact Hal3]|].
  intros _ w4 (new & E4). apply wp_ext; [apply ext_exec|]. intros _ w5 (new5 & E5).
  destruct (w_stop_log k s3 w3) as (c2 & c3 & Ew & R); [exact Hlv|exact HL|exact Hd|].
  exists (new5 ++ new), (wc w1), c2, c3, []. split; [rewrite E5, E4, Ew, El, <- app_assoc; reflexivity|].
  split; [left; split; [rewrite Hst; discriminate|reflexivity]|exact R].
Qed.

(** the SIGKILL timer runs out *)
Lemma record_lookup n evs cfgl cmdl w k s : history n evs cfgl cmdl w -> record_at (wc w) k s -> lookup_svc (wc w) k = Some s.
Proof.
  intros Hh [Hs <-]. apply nodup_lookup; [|exact Hs]. apply (u_nodup _ (u_now _ (history_uinv _ _ _ _ _ Hh))).
Qed.
Theorem kill_timer_lem n evs cfgl cmdl w1 m k s w2 d : history n evs cfgl cmdl w1 -> ~ over w1 ->
  on_event m (EvTimer k) w1 = Some (tt, w2) -> record_at (wc w1) k s -> s_timer s = TmArmed TcKill d ->
  1 < s_pid s -> In (s_pid s) (k_procs (wc w1)) ->
  exists c, wl w2 = (c, EKill k (s_pid s) 9) :: wl w1.
Proof.
  intros Hh Ho He Hs Ht Hp Hal. pose proof (not_over _ _ _ _ _ Hh Ho) as Hdn. pose proof (record_lookup _ _ _ _ _ _ _ Hh Hs) as Hf.
  assert (W : wp (on_event m (EvTimer k)) (fun _ w' => exists c, wl w' = (c, EKill k (s_pid s) 9) :: wl w1) w1).
  2:{ unfold wp in W. rewrite He in W. exact W. }
  clear He w2. unfold on_event. apply wp_bind, wp_getc. rewrite Hdn. cbn [handle]. unfold timer_fires. apply wp_bind, wp_getc.
  rewrite Hf, Ht. change (L w1 k s) in Hf. apply wp_bind, wp_upd. unfold service_kill, cancel. apply wp_bind, wp_upd.
  assert (HL : L (wupd k (set_s_timer TmNone) (wupd k (set_s_timer (TmStale TcKill)) w1)) k (set_s_timer TmNone (set_s_timer (TmStale TcKill) s))) by lk.
  apply wp_with_svc; [|unfold L in HL; congruence]. intros s0 HL0.
  assert (s0 = set_s_timer TmNone (set_s_timer (TmStale TcKill) s)) by (unfold L in HL; congruence). subst s0. clear HL0.
  apply wp_bind, wp_getc. change (s_pid (set_s_timer TmNone (set_s_timer (TmStale TcKill) s))) with (s_pid s).
  destruct (Z.leb_spec (s_pid s) 1); [lia|].
  match goal with |- context [alive (wc ?x) (s_pid s)] => change (alive (wc x) (s_pid s)) with (alive (wc w1) (s_pid s)) end.
  assert (E : alive (wc w1) (s_pid s) = true) by (unfold alive, memZ; apply existsb_exists; exists (s_pid s); split; [exact Hal|apply Z.eqb_refl]).
  rewrite E. cbn [negb]. unfold do_kill. apply wp_bind, wp_bind, wp_emit, wp_bind, wp_getc, wp_ret, wp_upd.
  eexists. reflexivity.
Qed.

(** initctl signal *)
Theorem signal_request_lem n evs cfgl cmdl w1 m k sig w2 : history n evs cfgl cmdl w1 -> ~ over w1 ->
  on_event m (EvSignal k sig) w1 = Some (tt, w2) ->
  (exists s, In s (k_svcs (wc w1)) /\ s_key s = k /\ s_state s = Running /\
     w2 = mkWorld (wc w1) ((wc w1, EKill k (s_pid s) sig) :: wl w1)) \/
  (forall s, In s (k_svcs (wc w1)) -> s_key s = k -> s_state s <> Running) /\ w2 = w1.
Proof.
  intros Hh Ho He. pose proof (not_over _ _ _ _ _ Hh Ho) as Hdn.
  match goal with |- ?G => assert (W : wp (on_event m (EvSignal k sig)) (fun _ w' =>
    (exists s, In s (k_svcs (wc w1)) /\ s_key s = k /\ s_state s = Running /\
     w' = mkWorld (wc w1) ((wc w1, EKill k (s_pid s) sig) :: wl w1)) \/
  (forall s, In s (k_svcs (wc w1)) -> s_key s = k -> s_state s <> Running) /\ w' = w1) w1) end.
  2:{ unfold wp in W. rewrite He in W. exact W. }
  clear He w2. unfold on_event. apply wp_bind, wp_getc. rewrite Hdn. cbn [handle]. unfold api_signal, if_registered.
  apply wp_bind, wp_getc. destruct (find_key k (k_svcs (wc w1))) as [s|] eqn:Ef.
  - apply find_key_in in Ef. destruct Ef as [Hs Hk]. apply wp_when; intros E.
    + left. exists s. apply st_eqb_eq in E. auto.
    + right. split; [|reflexivity]. intros t Ht Hkt Hst. pose proof (reg_lookup _ _ _ _ _ _ Hh Hs) as A.
      pose proof (reg_lookup _ _ _ _ _ _ Hh Ht) as B. rewrite Hk in A. rewrite Hkt in B. assert (s = t) by congruence. subst t.
      rewrite Hst in E. discriminate E.
  - apply wp_ret. right. split; [|reflexivity]. intros t Ht Hkt. exfalso. pose proof (reg_lookup _ _ _ _ _ _ Hh Ht) as B.
    rewrite Hkt in B. congruence.
Qed.

(** whatever made it stop: a stanza only becomes stopping when its process is
    gone or was just told to stop *)
Theorem stop_signal_lem n evs cfgl cmdl w k old c older : history n evs cfgl cmdl w ->
  happened w c (EState k old Stopping) older ->
  exists s, record_at c k s /\ s_state s = old /\
    (s_pid s = 0 \/
     c_stop (s_cf s) = false /\ c_type (s_cf s) <> TSysv /\ 1 < s_pid s /\ In (s_pid s) (k_procs c) /\
       (exists c0 l0, older = (c0, EKill k (s_pid s) (c_sighalt (s_cf s))) :: l0) \/
     c_stop (s_cf s) = true /\ (exists c0 l0 rc, older = (c0, EScript k KStop rc) :: l0 /\ rc <> 1) \/
     c_stop (s_cf s) = false /\ c_type (s_cf s) = TSysv /\ (exists c0 l0 p, older = (c0, EFork k FSysvStop p) :: l0)).
Proof.
  intros Hh Hp. destruct (happened_facts _ _ _ _ _ _ _ _ Hh Hp) as (e & _ & s & Hl & Hst & Hne & Hk & Ed).
  apply lookup_record in Hl. exists s. split; [exact Hl|]. split; [exact Hst|]. rewrite <- Hk.
  inversion Ed; subst; try (left; assumption).
  - match goal with Hx : (if c_pre (s_cf s) then _ else _) = Stopping |- _ => destruct (c_pre (s_cf s)); discriminate Hx end.
  - right. left. unfold plain in *. destruct (c_stop (s_cf s)); [discriminate|]. split; [reflexivity|].
    split; [intros X; unfold is_sysv, ty in *; rewrite X in *; discriminate|]. split; [assumption|]. split; [|assumption].
    unfold alive, memZ in *. match goal with Hx : existsb _ _ = true |- _ => apply existsb_exists in Hx; destruct Hx as (q & Hq & Eq) end.
    apply Z.eqb_eq in Eq. rewrite Eq. exact Hq.
  - right. right. left. split; [assumption|].
    match goal with Hx : exists c0 l0, _ = _ :: l0 |- _ => destruct Hx as (c0 & l0 & ->) end. exists c0, l0, rc. split; [reflexivity|].
    intros ->. match goal with Hx : (if _ then _ else _) = Stopping |- _ => discriminate Hx end.
  - right. right. right. split; [assumption|].
    match goal with Hx : exists c0 l0, _ = _ :: l0 |- _ => destruct Hx as (c0 & l0 & ->) end.
    split; [|exists c0, l0, p; reflexivity]. unfold is_sysv, ty in *. destruct (c_type (s_cf s)); try discriminate. reflexivity.
Qed.

(** what follows once the process is gone *)
Theorem after_stop_lem n evs cfgl cmdl w k c new older : tame evs -> history n evs cfgl cmdl w ->
  happened w c (EState k Stopping new) older ->
  exists s, record_at c k s /\ s_state s = Stopping /\ (s_pid s = 0 /\ 
    new = (if is_runtask s then Done else if c_post (s_cf s) then Teardown
           else if s_removed s && c_cleanup (s_cf s) then Cleanup else Halted) \/ new = Running).
Proof.
  intros HT Hh Hp. destruct (happened_facts_tame _ _ _ _ _ _ _ _ HT Hh Hp) as (e & _ & s & Hl & Hst & Hne & Hk & Ed).
  apply lookup_record in Hl. exists s. split; [exact Hl|]. split; [exact Hst|].
  inversion Ed; subst; try (exfalso; congruence); try (right; reflexivity);
    try (match goal with Hx : True -> _ |- _ => destruct (Hx Logic.I) as [Hz1 Hz2] end).
  all: try (left; split; [assumption|]; repeat match goal with Hx : ?a = ?b |- _ => match b with true => rewrite Hx | false => rewrite Hx end end; reflexivity).
  - destruct Hz2 as (_ & [Y|Y]); congruence.
  - rewrite Hst in *. cbn in *. lia.
  - rewrite Hst in *. cbn in *. lia.
  - rewrite Hst in *. cbn in *. lia.
Qed.
