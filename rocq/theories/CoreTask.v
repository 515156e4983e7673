(** C19: the result condition of a run/task. *)
From Coq Require Import List String Ascii ZArith NArith Bool Lia Arith Relations.
From Coq Require Import ZifyBool ZifyNat.
From Verif Require Import CondModel CoreTypes CoreModel CoreLib CoreMicro CoreExec CoreCalm CoreLog
  CoreSpec CoreSpecB CoreAny CoreProof CoreSlice CoreStay CoreSide CoreOne CoreGrow CoreAct CoreCrash.
Import ListNotations.
Local Open Scope Z_scope.

Fixpoint res (l : list ent) : outcome :=
  match l with
  | [] => NotRun
  | (_, EFork _ FMain p) :: _ => Runs p
  | (_, EExit _ p st) :: l => match res l with Runs q => if p =? q then Ended st else Runs q | r => r end
  | _ :: l => res l
  end.
Lemma res_tr j m o n l : res (tr j m o n l) = res l.
Proof. unfold tr. destruct (st_eqb o n); reflexivity. Qed.
Lemma res_dull l : dulls l -> res l = NotRun.
Proof.
  induction 1 as [|[m x] l Hx _ IH]; [reflexivity|]. cbn in Hx.
  destruct x; try exact IH; [destruct f; [discriminate Hx|exact IH..]|]. cbn [res]. rewrite IH. reflexivity.
Qed.
Lemma res_jl k l : outcome_of k l = res (jl k l).
Proof.
  induction l as [|[c x] l IH]; [reflexivity|]. cbn [outcome_of jl]. unfold about.
  destruct x; cbn [keyof]; try (destruct (Nat.eqb k0 k); cbn [res]; exact IH); try (cbn [res]; exact IH).
  - destruct f, (Nat.eqb k0 k); cbn [res]; auto.
  - rewrite IH. destruct (Nat.eqb k0 k); reflexivity.
Qed.

Definition in_between (t : sst) : bool := match t with Setup | Teardown | Cleanup => true | _ => false end.
Definition is_up (t : sst) : bool := match t with Running | Paused | Stopping | Done => true | _ => false end.

Definition J19 (s : svc) (l : list ent) (m : list Z) : Prop := is_runtask s = true ->
  in_between (s_state s) = false /\
  (s_pid s = 0 \/ 1 < s_pid s /\ res l = Runs (s_pid s)) /\
  (is_up (s_state s) = true -> s_pid s = 0 ->
     exists st, res l = Ended st /\ s_status s = st /\ CoreTypes.s_started s = wifexited st) /\
  (s_state s = Done -> s_pid s = 0).

Definition view (s : svc) : bool * sst * Z * wstat * bool := (is_runtask s, s_state s, s_pid s, s_status s, CoreTypes.s_started s).
Lemma J19_same s s' l l' m m' : view s' = view s -> res l' = res l -> J19 s l m -> J19 s' l' m'.
Proof.
  unfold view, J19. intros E R A. injection E as E1 E2 E3 E4 E5. rewrite E1, E2, E3, E4, E5, R. exact A.
Qed.
Lemma view_enter n s : view (f_enter n s) = (is_runtask s, n, s_pid s, s_status s, CoreTypes.s_started s).
Proof.
  destruct (f_enter_fields n s) as (_ & A & B & _ & C & _ & _ & D & E & _). unfold view, is_runtask, ty.
  rewrite A, B, C, D, E. reflexivity.
Qed.
Lemma view_timeout ms cb s : view (f_timeout ms cb s) = view s.
Proof.
  destruct (f_timeout_fields ms cb s) as (_ & A & B & _ & C & _ & _ & D & E & _). unfold view, is_runtask, ty.
  rewrite A, B, C, D, E. reflexivity.
Qed.
Lemma view_rtot s : view (f_rtot s) = view s.
Proof. unfold f_rtot. destruct (_ && _); reflexivity. Qed.
Lemma view_retry s : view (f_retry s) = view s.
Proof. unfold f_retry. cbv zeta. destruct (_ =? 1); reflexivity. Qed.
Lemma view_mark s : view (svc_mark s) = view s.
Proof. unfold svc_mark. destruct (s_protect s); reflexivity. Qed.
Lemma view_affected n s : view (f_affected n s) = view s.
Proof. unfold f_affected. destruct (_ && _); reflexivity. Qed.
Lemma view_unavail c s : view (f_unavail c s) = view s.
Proof. unfold f_unavail. destruct (ifthen_conf _ _); [reflexivity|apply view_mark]. Qed.
Lemma view_rereg r s : view (f_rereg r s) = (is_runtask_t (c_type (r_cfg r)), s_state s, s_pid s, s_status s, CoreTypes.s_started s).
Proof.
  unfold f_rereg, f_fin. cbv zeta. destruct (c_manual (r_cfg r)), (is_runtask_t (c_type (r_cfg r)) && c_sighup (r_cfg r)), (r_static r);
    match goal with |- context [if ?b then set_s_dirty true _ else _] => destruct b end; reflexivity.
Qed.
Lemma view_fresh j r : view (fresh_svc j r) = (is_runtask_t (c_type (r_cfg r)), Halted, 0, Exited 0, false).
Proof.
  unfold fresh_svc, f_fin. cbv zeta. destruct (c_manual (r_cfg r)), (is_runtask_t (c_type (r_cfg r)) && c_sighup (r_cfg r)), (r_static r);
    match goal with |- context [if ?b then set_s_dirty true _ else _] => destruct b end; reflexivity.
Qed.
Lemma view_collect run st s : is_runtask s = true -> in_between (s_state s) = false -> c_forking (s_cf s) = false ->
  view (f_collect run st s s) = (is_runtask s, s_state s, 0, st, wifexited st).
Proof.
  intros R B F. unfold f_collect. rewrite F. cbn [andb].
  assert (X : is_script_state (s_state s) = false) by (destruct (s_state s); try reflexivity; discriminate B).
  assert (Y : is_daemon s || is_tty s = false).
  { unfold is_runtask, is_daemon, is_tty in *. destruct (ty s); try reflexivity; discriminate R. }
  rewrite X, Y. destruct run; reflexivity.
Qed.

(** the new state [n] is entered, nothing else changes *)
Lemma J19_enter n s s0 l l' m m' : view s0 = view s -> res l' = res l -> in_between n = false ->
  (is_up n = true -> s_pid s = 0 -> is_up (s_state s) = true) ->
  (n = Done -> s_pid s = 0) -> J19 s l m -> J19 (f_enter n s0) l' m'.
Proof.
  intros E R B U D A. pose proof (view_enter n s0) as V. unfold view in E, V. injection E as E1 E2 E3 E4 E5.
  injection V as V1 V2 V3 V4 V5. unfold J19. rewrite V1, V2, V3, V4, V5, E1, E3, E4, E5, R. intros Hr.
  destruct (A Hr) as (A1 & A2 & A3 & A4). split; [exact B|]. split; [exact A2|]. split; [|exact D].
  intros Hu Hp. apply A3; auto.
Qed.

Lemma not_daemon s : is_runtask s = true -> is_daemon s || is_tty s = true -> False.
Proof. unfold is_runtask, is_daemon, is_tty. destruct (ty s); discriminate. Qed.

Section C19.
Variable evs : list ev.
Hypothesis HT : tame evs.
Hypothesis HS : sockets_work evs.
Hypothesis HB : bare_tasks evs.

Ltac vfold := unfold view, is_runtask, ty, f_clean, f_incr, f_fork, f_cleanup, f_giveup; cbn [s_cf s_state s_pid s_status CoreTypes.s_started
  set_s_timer set_s_block set_s_pid set_s_starting set_s_dirty set_s_adirty set_s_rcnt set_s_oldpid set_s_rtot set_s_once set_s_killed set_s_rtmo set_s_rsaved].
Ltac vw := rewrite ?view_timeout, ?view_retry, ?view_mark, ?view_affected, ?view_unavail, ?view_rtot; vfold; reflexivity.

Lemma task_same e c j s l m s' l' m' :
  (forall r, In r (k_conf c) -> c_name (r_cfg r) = c_name (s_cf s) -> c_id (r_cfg r) = c_id (s_cf s) ->
     is_runtask_t (c_type (r_cfg r)) = is_runtask s) ->
  step e c j s l m s' l' m' -> is_runtask s' = is_runtask s.
Proof.
  intros Hty St. unfold is_runtask in Hty |- *. unfold ty in Hty |- *.
  destruct St; rewrite ?fenter_cf, ?ftimeout_cf, ?fcollect_cf; unfold f_fork, f_incr, f_clean, f_cleanup, f_giveup;
   cbn [s_cf set_s_timer set_s_block set_s_pid set_s_starting set_s_dirty set_s_adirty set_s_rcnt set_s_oldpid set_s_rtot set_s_once set_s_killed set_s_rtmo set_s_rsaved];
   rewrite ?frtot_cf; try reflexivity.
  - destruct (c_manual (s_cf s)); reflexivity.
  - destruct (is_run_t (ty s)); cbn [s_cf set_s_pid set_s_rcnt]; rewrite frtot_cf; reflexivity.
  - destruct (rc =? 0); reflexivity.
  - destruct (mark_same s) as (_ & _ & _ & _ & -> & _). reflexivity.
  - rewrite <- (Hty r) by assumption. pose proof (view_rereg r s) as V. injection V as V. exact V.
  - destruct (affected_same n s) as (_ & _ & _ & _ & -> & _). reflexivity.
  - destruct (unavail_same c s) as (_ & _ & _ & _ & -> & _). reflexivity.
  - unfold f_retry. cbv zeta. destruct (_ =? 1); reflexivity.
  - destruct (_ && _); reflexivity.
Qed.

Lemma step19 e c j s l m s' l' m' : ~ (exists t, k_notes c = true :: t) ->
  (is_runtask s = true -> c_pre (s_cf s) = false /\ c_post (s_cf s) = false /\ c_stop (s_cf s) = false) ->
  c_forking (s_cf s) = false ->
  (forall r, In r (k_conf c) -> c_name (r_cfg r) = c_name (s_cf s) -> c_id (r_cfg r) = c_id (s_cf s) ->
     is_runtask_t (c_type (r_cfg r)) = is_runtask s) ->
  J19 s l m -> step e c j s l m s' l' m' -> J19 s' l' m'.
Proof.
  intros Hn Hcf Hfk Hty A St. destruct (is_runtask s) eqn:Hr.
  2:{ intros Hr'. rewrite (task_same _ _ _ _ _ _ _ _ _ ltac:(rewrite Hr; exact Hty) St), Hr in Hr'. discriminate Hr'. }
  destruct (Hcf eq_refl) as (Hpre & Hpost & Hstop). clear Hcf.
  assert (Hplain : is_sysv s = false).
  { unfold is_runtask, is_sysv in *. destruct (ty s); try reflexivity; discriminate Hr. }
  destruct (A Hr) as (A1 & A2 & A3 & A4).
  destruct St; try exact A;
    try (exfalso; match goal with H : s_state s = _ |- _ => rewrite H in A1; discriminate A1 end);
    try (exfalso; match goal with H : is_daemon s || is_tty s = true |- _ => exact (not_daemon s Hr H) end);
    try (exfalso; congruence);
    try (match goal with
    | |- J19 (f_enter ?n ?x) _ _ => apply (J19_enter n s x l _ m m);
          [vw|rewrite ?res_tr; reflexivity|reflexivity
          |intros Hu Hp0; first [discriminate Hu|lia|match goal with H : s_state s = _ |- _ => rewrite H; reflexivity end]
          |first [discriminate|auto]|exact A]
    | |- J19 ?x _ _ => apply (J19_same s x l _ m m); [vw|reflexivity|exact A]
    end; fail).
  - (* done *) apply (J19_enter Done s _ l _ m m); [destruct (c_manual (s_cf s)); vw|apply res_tr|reflexivity|rewrite H0; reflexivity|auto|exact A].
  - (* wait_go *) rewrite Hpre in H2. subst n.
    apply (J19_enter Starting s _ l _ m m); [vw|apply res_tr|reflexivity|discriminate|discriminate|exact A].
  - (* aux *) exfalso. destruct f; try discriminate H; destruct H0; try congruence. destruct H2 as [H2 _]. rewrite H2 in A1. discriminate A1.
  - exfalso. destruct f; try discriminate H; destruct H0; try congruence. destruct H1 as [H1 _]. rewrite H1 in A1. discriminate A1.
  - (* start *) intros _. rewrite fenter_state, fenter_pid. unfold f_fork, f_clean. cbn [s_pid set_s_pid set_s_dirty set_s_adirty res].
    split; [reflexivity|]. split; [right; auto|]. split; [intros _ ->; lia|discriminate].
  - apply (J19_same s _ l _ m m); [unfold f_incr|reflexivity|exact A].
    transitivity (view (f_rtot (set_s_starting true s))); [reflexivity|rewrite view_rtot; reflexivity].
  - apply (J19_same s _ l _ m m); [destruct (rc =? 0); reflexivity|reflexivity|exact A].
  - assert (E : s_pid s = 0) by lia. apply (J19_same s _ l _ m m); [|reflexivity|exact A]. vfold. rewrite E. reflexivity.
  - (* collect *) intros _. pose proof (view_collect run st s Hr A1 Hfk) as V. injection V as _ V2 V3 V4 V5. rewrite V2, V3, V4, V5.
    split; [exact A1|]. split; [left; reflexivity|]. split; [|reflexivity]. intros _ _. exists st. cbn [res].
    destruct A2 as [A2|[_ A2]]; [lia|]. rewrite A2, Z.eqb_refl. auto.
  - (* rereg *) apply (J19_same s _ l _ m m); [|reflexivity|exact A]. rewrite view_rereg, (Hty r) by assumption. unfold view. rewrite Hr. reflexivity.
  - apply (J19_same s _ l _ m m); [reflexivity|destruct (1 <? s_pid s); reflexivity|exact A].
  - apply (J19_same s _ l _ m m); [reflexivity|destruct (c_oncrash (s_cf s)); reflexivity|exact A].
  - apply (J19_same s _ l _ m m); [destruct (_ && _); reflexivity|reflexivity|exact A].
Qed.

Lemma reach19 cfgl cmdl j w : reach True (E evs) (init_world cfgl cmdl) w ->
  match find_key j (k_svcs (wc w)) with
  | Some s => J19 s (jl j (wl w)) (mine j (wc w))
  | None => True
  end.
Proof.
  apply (slice_ind evs HT cfgl cmdl j J19 (fun _ _ => True)); try (intros; exact Logic.I).
  - intros e w0 s l m s' l' m' He Hr Hf Hm A St. pose proof (side_reach evs HT _ _ _ Hr) as Hi.
    pose proof (inv_reach evs HT _ _ _ Hr) as HI.
    destruct (cf_reg evs w0 s HI) as (r & b & Hi2 & Ec); [apply in_or_app; left; apply find_key_in in Hf; apply Hf|].
    apply (step19 e (wc w0) j s l m); [| | | |exact A|exact St].
    + intros (t & X). apply (sd_notes evs _ Hi HS). rewrite X. left. reflexivity.
    + intros R. unfold is_runtask, ty in R. rewrite Ec in R |- *. apply (HB r Hi2). destruct r as [cf ? ? ?]. cbn in R |- *.
      destruct (c_type cf); try discriminate R; auto.
    + rewrite Ec. apply (t_noforking evs HT r Hi2).
    + intros r1 I1 N1 N2. destruct (i_conf evs _ HI r1 I1) as (r0 & Hi0 & E0). rewrite E0 in *.
      rewrite Ec in N1, N2. pose proof (t_kind evs HT r0 r Hi0 Hi2 N1 N2) as K. unfold is_runtask, ty. rewrite Ec.
      change (c_type (set_c_sighup b (r_cfg r))) with (c_type (r_cfg r)). unfold respawns in K.
      destruct (c_type (r_cfg r0)), (c_type (r_cfg r)); try reflexivity; discriminate K.
  - intros w0 r l Hr Hi _ D _ R. pose proof (view_fresh j r) as V. injection V as _ V2 V3 V4 V5. rewrite V2, V3.
    split; [reflexivity|]. split; [left; reflexivity|]. split; [discriminate|discriminate].
Qed.
End C19.
