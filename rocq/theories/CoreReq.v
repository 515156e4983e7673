(** C50: what requests do at once. *)
From Coq Require Import List String Ascii ZArith NArith Bool Lia Arith.
From Verif Require Import CondModel CondProof CoreTypes CoreModel CoreTame CoreLib CoreSpec CoreSpecB CoreMicro CoreExec CoreProof CoreGrow CoreLive CoreAct CoreSpecG.
Import ListNotations.
Local Open Scope Z_scope.

(** one step of a halted stanza that may run *)
Lemma go_step m k s r w0 w : L w k s -> k_down (wc w) = false -> s_state s = Halted -> may_start (wc w) s ->
  wl w = (wc w0, ERequest k r) :: wl w0 ->
  wp (exec (S m) (CStep k false false)) (fun _ w' => answered (wl w0) (wl w') k r (EState k Halted Waiting)) w.
Proof.
  intros HL Hdn Hst Hm El. apply may_enabled in Hm. cbn [exec]. unfold body. apply wp_bind, wp_getc. rewrite Hdn. unfold service_step.
  apply wp_with_svc; [|unfold L in HL; congruence].
  intros s0 HL0. assert (s0 = s) by (unfold L in HL; congruence). subst s0. clear HL0.
  apply wp_bind, wp_getc, wp_bind.
  apply wp_mono with (Q := fun _ w' => answered (wl w0) (wl w') k r (EState k Halted Waiting)).
  2:{ intros d w4 (newer & c1 & c2 & E). apply wp_ext.
      - pose proof (ext_exec m). exs.
      - intros _ w5 (new & E5). exists (new ++ newer), c1, c2. rewrite E5, E, <- app_assoc. reflexivity. }
  unfold step_switch. rewrite Hst. unfold step_halted. rewrite Hm. apply wp_bind.
  unfold set_state. apply wp_with_svc; [|unfold L in HL; congruence].
  intros s0 HL0. assert (s0 = s) by (unfold L in HL; congruence). subst s0. clear HL0.
  cbv zeta. change (st_eqb Waiting Stopping) with false. cbn [when]. apply wp_bind, wp_ret. rewrite Hst.
  change (st_eqb Halted Waiting) with false. cbv iota. apply wp_bind, wp_emit.
  apply wp_ext.
  - pose proof (ext_coneshot (exec m) (ext_exec m)). pose proof (ext_cclear (exec m) (ext_exec m)).
    pose proof (ext_delpath (exec m) (ext_exec m)). pose proof (ext_exec m). exs.
  - intros _ w5 (new & E5). apply wp_ret. exists new, (wc w), (wc w0). rewrite E5. cbn [wl wemit]. rewrite El. reflexivity.
Qed.

Lemma answered_ext m (Q : world -> Prop) r l0 k x w : ext m -> answered l0 (wl w) k r x ->
  (forall w', answered l0 (wl w') k r x -> Q w') -> wp m (fun (_ : unit) w' => Q w') w.
Proof.
  intros Hm (newer & c1 & c2 & E) HQ. apply wp_ext; [exact Hm|]. intros _ w5 (new & E5). apply HQ.
  exists (new ++ newer), c1, c2. rewrite E5, E, <- app_assoc. reflexivity.
Qed.

Lemma api_go_lem m k s r w0 w : L w k s -> k_down (wc w) = false -> s_state s = Halted -> may_start (wc w) (released s) ->
  wl w = (wc w0, ERequest k r) :: wl w0 ->
  wp (api_go (exec m) k) (fun _ w' => answered (wl w0) (wl w') k r (EState k Halted Waiting)) w.
Proof.
  intros HL Hdn Hst Hm El. unfold api_go, cancel, unblock. apply wp_bind, wp_upd, wp_bind, wp_upd, wp_bind.
  destruct m as [|m]; [exact Logic.I|].
  eapply wp_mono; [apply (go_step m k (set_s_block BNone (set_s_timer TmNone s)) r w0)|].
  - lk.
  - exact Hdn.
  - exact Hst.
  - destruct Hm as [X1 X2 X3 X4 X5]. constructor; assumption.
  - exact El.
  - intros ? w4 H4. eapply answered_ext; [apply ext_step_all, ext_exec|exact H4|intros w' Hw'; exact Hw'].
Qed.

Section Ev.
Variables (n : nat) (evs : list ev) (cfgl cmdl : Z) (w1 : world).
Hypothesis (Hh : history n evs cfgl cmdl w1) (Ho : ~ over w1).
Variables (m : nat) (s : svc) (w2 : world).
Hypothesis (Hrl : reserved (k_rl (wc w1)) = false) (Hs : In s (k_svcs (wc w1))).

Lemma start_request_lem : on_event m (EvStart (s_key s)) w1 = Some (tt, w2) ->
  s_state s = Halted -> may_start (wc w1) (released s) ->
  answered (wl w1) (wl w2) (s_key s) RqStart (EState (s_key s) Halted Waiting).
Proof.
  intros He Hst Hm. set (k := s_key s) in *.
  pose proof (not_over _ _ _ _ _ Hh Ho) as Hdn. pose proof (reg_lookup _ _ _ _ _ _ Hh Hs) as Hf. fold k in Hf.
  assert (W : wp (on_event m (EvStart k)) (fun _ w' => answered (wl w1) (wl w') k RqStart (EState k Halted Waiting)) w1).
  2:{ unfold wp in W. rewrite He in W. exact W. }
  clear He. unfold on_event. apply wp_bind, wp_getc. rewrite Hdn. cbn [handle]. unfold gated. apply wp_bind, wp_getc. rewrite Hrl.
  unfold api_start, if_registered. apply wp_bind, wp_getc. rewrite Hf. apply wp_bind, wp_emit.
  apply (api_go_lem m k s RqStart w1).
  - apply find_lookup in Hf; fold k in Hf; change (L w1 k s) in Hf; lk.
  - exact Hdn.
  - exact Hst.
  - exact Hm.
  - reflexivity.
Qed.

Lemma restart_starts_lem : on_event m (EvRestart (s_key s)) w1 = Some (tt, w2) ->
  s_state s = Halted -> may_start (wc w1) (released s) ->
  answered (wl w1) (wl w2) (s_key s) RqRestart (EState (s_key s) Halted Waiting).
Proof.
  intros He Hst Hm. set (k := s_key s) in *.
  pose proof (not_over _ _ _ _ _ Hh Ho) as Hdn. pose proof (reg_lookup _ _ _ _ _ _ Hh Hs) as Hf. fold k in Hf.
  assert (W : wp (on_event m (EvRestart k)) (fun _ w' => answered (wl w1) (wl w') k RqRestart (EState k Halted Waiting)) w1).
  2:{ unfold wp in W. rewrite He in W. exact W. }
  clear He. unfold on_event. apply wp_bind, wp_getc. rewrite Hdn. cbn [handle]. unfold gated. apply wp_bind, wp_getc. rewrite Hrl.
  unfold api_restart, if_registered. apply wp_bind, wp_getc. rewrite Hf. apply wp_bind, wp_emit.
  rewrite Hst. change (negb (st_eqb Halted Running)) with true. cbv iota.
  apply (api_go_lem m k s RqRestart w1).
  - apply find_lookup in Hf; fold k in Hf; change (L w1 k s) in Hf; lk.
  - exact Hdn.
  - exact Hst.
  - exact Hm.
  - reflexivity.
Qed.

Lemma reload_starts_lem : on_event m (EvReload (s_key s)) w1 = Some (tt, w2) ->
  s_state s = Halted -> may_start (wc w1) (released s) ->
  answered (wl w1) (wl w2) (s_key s) RqReload (EState (s_key s) Halted Waiting).
Proof.
  intros He Hst Hm. set (k := s_key s) in *.
  pose proof (not_over _ _ _ _ _ Hh Ho) as Hdn. pose proof (reg_lookup _ _ _ _ _ _ Hh Hs) as Hf. fold k in Hf.
  assert (W : wp (on_event m (EvReload k)) (fun _ w' => answered (wl w1) (wl w') k RqReload (EState k Halted Waiting)) w1).
  2:{ unfold wp in W. rewrite He in W. exact W. }
  clear He. unfold on_event. apply wp_bind, wp_getc. rewrite Hdn. cbn [handle]. unfold gated. apply wp_bind, wp_getc. rewrite Hrl.
  unfold api_reload, if_registered. apply wp_bind, wp_getc. rewrite Hf. apply wp_bind, wp_emit.
  apply find_lookup in Hf; fold k in Hf; change (L w1 k s) in Hf. apply wp_bind.
  destruct (blocked s) eqn:Eb.
  - unfold unblock. apply wp_upd, wp_bind, wp_upd. destruct m as [|m']; [exact Logic.I|].
    apply (go_step m' k (set_s_dirty true (set_s_block BNone s)) RqReload w1); [lk|exact Hdn|exact Hst| |reflexivity].
    destruct Hm. constructor; assumption.
  - unfold cancel. apply wp_upd, wp_bind, wp_upd. destruct m as [|m']; [exact Logic.I|].
    apply (go_step m' k (set_s_dirty true (set_s_timer TmNone s)) RqReload w1); [lk|exact Hdn|exact Hst| |reflexivity].
    destruct Hm. constructor; try assumption. change (s_block s = BNone). unfold blocked in Eb.
    destruct (s_block s); try discriminate Eb; reflexivity.
Qed.

Lemma reload_tells_lem : on_event m (EvReload (s_key s)) w1 = Some (tt, w2) ->
  s_state s = Running -> may_start (wc w1) s -> conds_on (wc w1) s -> 1 < s_pid s ->
  c_reload (s_cf s) = false -> c_sighup (s_cf s) = true -> s_adirty s = false -> k_inrl (wc w1) = false -> k_norespawn (wc w1) = false ->
  answered (wl w1) (wl w2) (s_key s) RqReload (EKill (s_key s) (s_pid s) 1).
Proof.
  intros He Hst Hm Hc Hp Hr Hg Ha Hi Hn. set (k := s_key s) in *.
  pose proof (not_over _ _ _ _ _ Hh Ho) as Hdn. pose proof (reg_lookup _ _ _ _ _ _ Hh Hs) as Hf. fold k in Hf.
  assert (W : wp (on_event m (EvReload k)) (fun _ w' => answered (wl w1) (wl w') k RqReload (EKill k (s_pid s) 1)) w1).
  2:{ unfold wp in W. rewrite He in W. exact W. }
  clear He. unfold on_event. apply wp_bind, wp_getc. rewrite Hdn. cbn [handle]. unfold gated. apply wp_bind, wp_getc. rewrite Hrl.
  unfold api_reload, if_registered. apply wp_bind, wp_getc. rewrite Hf. apply wp_bind, wp_emit.
  apply find_lookup in Hf; fold k in Hf; change (L w1 k s) in Hf. apply wp_bind.
  assert (Eb : blocked s = false) by (unfold blocked; rewrite (ms_unblocked _ _ Hm); reflexivity). rewrite Eb.
  unfold cancel. apply wp_upd, wp_bind, wp_upd. destruct m as [|m']; [exact Logic.I|].
  set (w3 := wupd k (set_s_dirty true) _). set (s3 := set_s_dirty true (set_s_timer TmNone s)).
  assert (HL : L w3 k s3) by (subst w3 s3; lk).
  assert (El : wl w3 = (wc w1, ERequest k RqReload) :: wl w1) by reflexivity.
  assert (Hdn3 : k_down (wc w3) = false) by exact Hdn.
  assert (Hen : enabled (wc w3) s3 = true). { apply may_enabled. destruct Hm. constructor; assumption. }
  assert (Hag : agg (wc w3) s3 = COn).
  { unfold agg, cond_get_agg. apply agg_on. split; [reflexivity|exact Hc]. }
  assert (Hi3 : k_inrl (wc w3) = false) by exact Hi. assert (Hn3 : k_norespawn (wc w3) = false) by exact Hn.
  clearbody w3.
  cbn [exec]. unfold body. apply wp_bind, wp_getc. rewrite Hdn3. unfold service_step.
  apply wp_with_svc; [|unfold L in HL; congruence].
  intros s0 HL0. assert (s0 = s3) by (unfold L in HL; congruence). subst s0. clear HL0.
  apply wp_bind, wp_getc, wp_bind.
  apply wp_mono with (Q := fun _ w' => answered (wl w1) (wl w') k RqReload (EKill k (s_pid s) 1)).
  2:{ intros d w4 H4. eapply answered_ext; [pose proof (ext_exec m'); exs|exact H4|auto]. }
  unfold step_switch. change (s_state s3) with (s_state s). rewrite Hst. unfold step_running. rewrite Hen. cbn [negb].
  change (s_pid s3) with (s_pid s). assert (Ez : (s_pid s =? 0) = false) by (clear - Hp; lia). rewrite Ez. cbn [andb].
  unfold cancel. apply wp_bind, wp_upd, wp_bind. rewrite Hag. apply wp_bind.
  change (s_dirty s3) with true. cbv iota.
  assert (En : noreload s3 || s_adirty s3 = false) by (unfold noreload; change (s_cf s3) with (s_cf s); rewrite Hg; exact Ha).
  rewrite En, Hi3. apply wp_bind. unfold service_reload at 1.
  assert (HL4 : L (wupd k (set_s_timer TmNone) w3) k (set_s_timer TmNone s3)) by lk.
  apply wp_with_svc; [|unfold L in HL4; congruence].
  intros s0 HL0. assert (s0 = set_s_timer TmNone s3) by (unfold L in HL4; congruence). subst s0. clear HL0.
  apply wp_bind, wp_getc. change (k_norespawn (wc (wupd k (set_s_timer TmNone) w3))) with (k_norespawn (wc w3)). rewrite Hn3.
  change (s_cf (set_s_timer TmNone s3)) with (s_cf s). rewrite Hr, Hg. cbv iota.
  change (s_pid (set_s_timer TmNone s3)) with (s_pid s). assert (Ey : (s_pid s <=? 1) = false) by (clear - Hp; lia). rewrite Ey.
  apply wp_bind. unfold do_kill. apply wp_bind, wp_emit.
  apply wp_ext; [pose proof (ext_exec m'); exs|]. intros r w5 (new & E5).
  assert (A5 : answered (wl w1) (wl w5) k RqReload (EKill k (s_pid s) 1)).
  { exists new, (wc (wupd k (set_s_timer TmNone) w3)), (wc w1). rewrite E5. cbn [wl wemit]. change (wl (wupd k (set_s_timer TmNone) w3)) with (wl w3). rewrite El. reflexivity. }
  assert (X : forall A (mm : ST A) (Q : A -> world -> Prop), ext mm -> (forall a w', answered (wl w1) (wl w') k RqReload (EKill k (s_pid s) 1) -> Q a w') ->
     forall w, answered (wl w1) (wl w) k RqReload (EKill k (s_pid s) 1) -> wp mm Q w).
  { intros A mm Q Hx HQ w (newer & c1 & c2 & E). apply wp_ext; [exact Hx|]. intros a w6 (new6 & E6). apply HQ.
    exists (new6 ++ newer), c1, c2. rewrite E6, E, <- app_assoc. reflexivity. }
  pose proof (ext_exec m') as Hx.
  pose proof (ext_coneshot (exec m') (ext_exec m')). pose proof (ext_cclear (exec m') (ext_exec m')).
  pose proof (ext_delpath (exec m') (ext_exec m')).
  apply X; [exs| |exact A5]. intros _ w6 A6. apply wp_bind. apply X; [exs| |exact A6]. intros _ w7 A7. apply wp_ret.
  apply X; [exs| |exact A7]. intros _ w8 A8. apply wp_ret. exact A8.
Qed.

Lemma reload_restarts_lem : on_event m (EvReload (s_key s)) w1 = Some (tt, w2) ->
  s_state s = Running -> may_start (wc w1) s -> conds_on (wc w1) s ->
  c_reload (s_cf s) = false /\ c_sighup (s_cf s) = false \/ s_adirty s = true ->
  c_stop (s_cf s) = false -> c_type (s_cf s) <> TSysv -> 1 < s_pid s -> In (s_pid s) (k_procs (wc w1)) -> 0 < c_killdelay (s_cf s) ->
  stop_order (wl w1) (wl w2) (s_key s) RqReload (s_state s) (s_pid s) (c_sighalt (s_cf s)) (c_killdelay (s_cf s)).
Proof.
  intros He Hst Hm Hc Hr Hsp Ht Hp Hal Hd. set (k := s_key s) in *.
  pose proof (not_over _ _ _ _ _ Hh Ho) as Hdn. pose proof (reg_lookup _ _ _ _ _ _ Hh Hs) as Hf. fold k in Hf.
  assert (Hsv : is_sysv s = false) by (unfold is_sysv, ty; destruct (c_type (s_cf s)); try reflexivity; contradiction Ht; reflexivity).
  assert (Hlv : (st_num Stopping < st_num (s_state s))%nat) by (rewrite Hst; cbn; lia).
  set (SO := fun w' => stop_order (wl w1) (wl w') k RqReload (s_state s) (s_pid s) (c_sighalt (s_cf s)) (c_killdelay (s_cf s))).
  assert (W : wp (on_event m (EvReload k)) (fun _ w' => SO w') w1).
  2:{ unfold wp in W. rewrite He in W. exact W. }
  clear He. unfold on_event. apply wp_bind, wp_getc. rewrite Hdn. cbn [handle]. unfold gated. apply wp_bind, wp_getc. rewrite Hrl.
  unfold api_reload, if_registered. apply wp_bind, wp_getc. rewrite Hf. apply wp_bind, wp_emit.
  apply find_lookup in Hf; fold k in Hf; change (L w1 k s) in Hf. apply wp_bind.
  assert (Eb : blocked s = false) by (unfold blocked; rewrite (ms_unblocked _ _ Hm); reflexivity). rewrite Eb.
  unfold cancel. apply wp_upd, wp_bind, wp_upd. destruct m as [|m']; [exact Logic.I|].
  set (w3 := wupd k (set_s_dirty true) _). set (s3 := set_s_dirty true (set_s_timer TmNone s)).
  assert (HL : L w3 k s3) by (subst w3 s3; lk).
  assert (El : wl w3 = (wc w1, ERequest k RqReload) :: wl w1) by reflexivity.
  assert (Hdn3 : k_down (wc w3) = false) by exact Hdn.
  assert (Hen : enabled (wc w3) s3 = true). { apply may_enabled. destruct Hm. constructor; assumption. }
  assert (Hag : agg (wc w3) s3 = COn).
  { unfold agg, cond_get_agg. apply agg_on. split; [reflexivity|exact Hc]. }
  assert (Hal3 : alive (wc w3) (s_pid s) = true).
  { change (alive (wc w3) (s_pid s)) with (alive (wc w1) (s_pid s)). unfold alive, memZ. apply existsb_exists. exists (s_pid s). split; [exact Hal|apply Z.eqb_refl]. }
  clearbody w3.
  pose proof (ext_exec m') as Hx.
  pose proof (ext_coneshot (exec m') (ext_exec m')). pose proof (ext_cclear (exec m') (ext_exec m')).
  pose proof (ext_delpath (exec m') (ext_exec m')).
  assert (X : forall A (mm : ST A) (Q : A -> world -> Prop), ext mm -> (forall a w', SO w' -> Q a w') -> forall w, SO w -> wp mm Q w).
  { intros A mm Q Hxx HQ w (newer & c1 & c2 & c3 & cont & E & R). apply wp_ext; [exact Hxx|]. intros a w6 (new6 & E6). apply HQ.
    exists (new6 ++ newer), c1, c2, c3, cont. split; [rewrite E6, E, <- app_assoc; reflexivity|exact R]. }
  cbn [exec]. unfold body. apply wp_bind, wp_getc. rewrite Hdn3. unfold service_step.
  apply wp_with_svc; [|unfold L in HL; congruence].
  intros s0 HL0. assert (s0 = s3) by (unfold L in HL; congruence). subst s0. clear HL0.
  apply wp_bind, wp_getc, wp_bind.
  apply wp_mono with (Q := fun _ w' => SO w').
  2:{ intros d w4 H4. apply X; [exs|auto|exact H4]. }
  unfold step_switch. change (s_state s3) with (s_state s). rewrite Hst. unfold step_running. rewrite Hen. cbn [negb].
  change (s_pid s3) with (s_pid s). assert (Ez : (s_pid s =? 0) = false) by (clear - Hp; lia). rewrite Ez. cbn [andb].
  unfold cancel. apply wp_bind, wp_upd, wp_bind. rewrite Hag. apply wp_bind.
  change (s_dirty s3) with true. cbv iota.
  assert (En : noreload s3 || s_adirty s3 = true).
  { unfold noreload; change (s_cf s3) with (s_cf s); change (s_adirty s3) with (s_adirty s). destruct Hr as [[-> ->]| ->]; [reflexivity|apply orb_true_r]. }
  rewrite En. apply wp_bind.
  set (w5 := wupd k (set_s_timer TmNone) w3). set (s5 := set_s_timer TmNone s3).
  assert (HL5 : L w5 k s5) by (subst w5 s5; lk).
  eapply wp_mono; [apply (stop_grown m' k s5 w5 HL5); [exact Hlv|exact Hsp|exact Hsv|exact Hp|exact Hal3]|].
  intros _ w6 (new & E6).
  destruct (w_stop_log k s5 w5) as (c2 & c3 & Ew & R); [exact Hlv|exact HL5|exact Hd|].
  assert (A6 : SO w6).
  { exists new, (wc w1), c2, c3, []. split; [rewrite E6, Ew; change (wl w5) with (wl w3); rewrite El; reflexivity|].
    split; [left; split; [rewrite Hst; discriminate|reflexivity]|exact R]. }
  apply wp_bind. apply X; [exs| |exact A6]. intros _ w7 A7. apply wp_ret.
  apply X; [exs| |exact A7]. intros _ w8 A8. apply wp_ret. exact A8.
Qed.

End Ev.
