(** C08: a stopping process gets SIGKILL unless it ends or the user interferes. *)
From Coq Require Import List String Ascii ZArith NArith Bool Lia Arith Relations.
From Coq Require Import ZifyBool ZifyNat.
From Verif Require Import CondModel CoreTypes CoreModel CoreLib CoreMicro CoreExec CoreCalm CoreLog
  CoreSpec CoreSpecB CoreAny CoreProof CoreSlice CoreStay CoreSide CoreOne.
Import ListNotations.
Local Open Scope Z_scope.

(** SIGKILL was sent to [p], or the user asked for something, since it became
    stopping *)
Fixpoint hit (p : Z) (l : list ent) : bool :=
  match l with
  | [] => false
  | (_, EKill _ q sg) :: l => (Z.eqb q p && Z.eqb sg 9) || hit p l
  | (_, ERequest _ _) :: _ => true
  | (_, EState _ _ Stopping) :: _ => false
  | _ :: l => hit p l
  end.

Section C08.
Variable evs : list ev.
Hypothesis HT : tame evs.
Hypothesis HP : signal_stop evs.
Hypothesis HR : no_ready evs.
Hypothesis HD : forall r, In r (regs evs) -> 0 < c_killdelay (r_cfg r).

Definition delay (d : Z) : Prop := exists r, In r (regs evs) /\ d = c_killdelay (r_cfg r).
Definition calmst (s : svc) : bool := match s_state s with Halted | Dead | Running | Waiting => true | _ => false end.
Record J08 (s : svc) (l : list ent) (m : list Z) : Prop := {
  j_kill : s_state s = Stopping -> 1 < s_pid s -> (exists d, s_timer s = TmArmed TcKill d /\ delay d) \/ hit (s_pid s) l = true;
  j_rest : s_block s = BRestarting -> s_pid s <= 1 /\ calmst s = true
}.

Lemma hit_tr p j m o n l : n <> Stopping -> hit p l = true -> hit p (tr j m o n l) = true.
Proof. intros Hn H. unfold tr. destruct (st_eqb o n); [exact H|]. cbn [hit]. destruct n; try exact H. contradiction Hn; reflexivity. Qed.

Lemma fenter_timer s : 0 < c_killdelay (s_cf s) -> s_timer (f_enter Stopping s) = TmArmed TcKill (c_killdelay (s_cf s)).
Proof.
  intros H. unfold f_enter. change (st_eqb Stopping Stopping) with true. cbv iota zeta.
  assert (X : s_timer (set_s_killed false (f_timeout (c_killdelay (s_cf s)) TcKill (set_s_timer TmNone s))) = TmArmed TcKill (c_killdelay (s_cf s))).
  { cbn [s_timer set_s_killed]. unfold f_timeout. cbn [s_timer set_s_timer].
    destruct (Z.eqb_spec (c_killdelay (s_cf s)) 0); [lia|]. destruct (Z.ltb_spec (c_killdelay (s_cf s)) 0); [lia|]. reflexivity. }
  destruct (st_eqb (s_state s) Stopping); exact X.
Qed.
Lemma fenter_timer_other n s : n <> Stopping -> s_timer (f_enter n s) = s_timer s.
Proof.
  intros H. unfold f_enter. destruct (st_eqb n Stopping) eqn:E; [apply st_eqb_eq in E; contradiction|].
  cbv iota zeta. destruct (st_eqb (s_state s) n); reflexivity.
Qed.
Lemma ftimeout_armed ms cb s a b : s_timer s = TmArmed a b -> s_timer (f_timeout ms cb s) = TmArmed a b.
Proof. intros H. unfold f_timeout. destruct (ms =? 0); [exact H|]. rewrite H. exact H. Qed.

Ltac flds := unfold calmst; rewrite ?fenter_state, ?ftimeout_state, ?fenter_pid, ?ftimeout_pid, ?collect_pid, ?fenter_block, ?ftimeout_block, ?fcollect_block;
  cbn [s_pid s_state s_block set_s_timer set_s_starting f_clean f_cleanup set_s_dirty set_s_adirty f_incr set_s_rcnt set_s_oldpid
       set_s_rtot set_s_once set_s_killed set_s_rtmo f_fork set_s_block set_s_pid s_timer]; rewrite ?frtot_pid, ?frtot_state, ?frtot_block; cbn [s_pid s_state s_block s_timer set_s_starting].

Lemma step08 e c j s l m s' l' m' : k_assoc c = [] -> c_stop (s_cf s) = false -> is_sysv s = false -> c_ready (s_cf s) = false ->
  delay (c_killdelay (s_cf s)) -> 
  J08 s l m -> step e c j s l m s' l' m' -> J08 s' l' m'.
Proof.
  intros Ha Hc Hv Hr Hd [A B] St.
  destruct St; try (constructor;
   [ flds; intros X Y;
     first [ discriminate X
           | exfalso; lia
           | exfalso; congruence
           | specialize (A X Y); cbn [hit]; (destruct A as [A|A]; [left; exact A|right; rewrite ?A, ?orb_true_r; reflexivity]) ]
   | flds; intros X;
     first [ discriminate X
           | exfalso; rewrite (enabled_block c s) in X by assumption; discriminate X
           | exfalso; congruence
           | specialize (B X); unfold calmst in B; first [exact B|split; [lia|reflexivity]
             | exfalso; match goal with Hx : s_state s = _ |- _ => rewrite Hx in B end; destruct B as [_ B]; discriminate B | exfalso; lia] ]]; fail).
  - (* done *)
    constructor; [flds; discriminate|]. flds. destruct (c_manual (s_cf s)); [discriminate|]. intros X. exfalso. specialize (B X). unfold calmst in B.
    rewrite H0 in B. destruct B as [_ B]. discriminate B.
  - (* leaving waiting *)
    constructor; [flds; intros X; subst n; destruct (c_pre (s_cf s)); discriminate X|]. flds. intros X. exfalso.
    rewrite (enabled_block c s) in X by assumption. discriminate X.
  - (* scripts *)
    constructor; flds.
    + intros X. exfalso. destruct f; cbn in H0; try contradiction; intuition congruence.
    + intros X. exfalso. specialize (B X). unfold calmst in B. destruct B as [_ B].
      destruct f; cbn in H0; try contradiction; intuition; match goal with Hx : s_state s = _ |- _ => rewrite Hx in B; try discriminate B end; congruence.
  - constructor; flds; [intros X Y; lia|]. intros X. specialize (B X). split; [lia|apply B].
  - (* started *)
    constructor; [destruct (is_run_t (ty s)); flds; intros X; congruence|].
    destruct (is_run_t (ty s)); flds; intros X; exfalso; rewrite (enabled_block c s) in X by assumption; discriminate X.
  - constructor; [flds; discriminate|]. flds. intros _. split; [lia|reflexivity].
  - (* told to stop *)
    constructor.
    + intros _ _. left. exists (c_killdelay (s_cf s)). split; [|exact Hd]. rewrite fenter_timer; [reflexivity|].
      destruct Hd as (r & Hi & E). cbn. rewrite E. apply HD, Hi.
    + flds. intros X. exfalso. specialize (B X). lia.
  - constructor; destruct (rc =? 0); flds; intros X; try (exfalso; congruence); apply B, X.
  - constructor; flds; [intros X; congruence|]. intros X. specialize (B X). split; [lia|apply B].
  - exfalso. rewrite Ha in *. match goal with Hx : In _ [] |- _ => destruct Hx end.
  - destruct (mark_same s) as (E1 & E2 & E3 & E4 & _). constructor; unfold calmst; rewrite ?E1, ?E2, ?E3, ?E4; [exact A|exact B].
  - destruct (rereg_same r s) as (E1 & E2 & E3 & _). constructor; unfold calmst; rewrite ?E1, ?E2, ?E3; [exact A|].
    intros X. apply B. revert X. clear. unfold f_rereg, f_fin. cbv zeta.
    destruct (c_manual (r_cfg r)), (is_runtask_t (c_type (r_cfg r)) && c_sighup (r_cfg r)), (r_static r);
      match goal with |- context [if ?b then set_s_dirty true _ else _] => destruct b end; cbn; congruence.
  - destruct (affected_same n s) as (E1 & E2 & E3 & E4 & _). constructor; unfold calmst; rewrite ?E1, ?E2, ?E3, ?E4; [exact A|exact B].
  - destruct (unavail_same c s) as (E1 & E2 & E3 & E4 & _). constructor; unfold calmst; rewrite ?E1, ?E2, ?E3, ?E4; [exact A|exact B].
  - constructor; [|exact B]. flds. intros X Y. destruct (A X Y) as [(d & Z & _)|Z]; [congruence|right; exact Z].
  - constructor; [|exact B]. flds. intros X Y. right. cbn [hit]. rewrite Z.eqb_refl. reflexivity.
  - constructor; [|exact B]. flds. intros X Y. destruct (A X Y) as [(d & Z & _)|Z]; [congruence|right; exact Z].
  - constructor; [|exact B]. flds. intros X Y. destruct (A X Y) as [(d & Z & _)|Z]; [congruence|right].
    destruct (1 <? s_pid s); [cbn [hit]; rewrite Z, orb_true_r; reflexivity|exact Z].
  - constructor; [|discriminate]. intros X. exfalso. unfold f_giveup in X. cbn in X. congruence.
  - constructor; unfold f_retry; cbv zeta.
    + destruct (wrap8 (s_rcnt s + 1) =? 1); cbn; intros X; congruence.
    + destruct (wrap8 (s_rcnt s + 1) =? 1); cbn; discriminate.
  - constructor; [|flds; exact B]. flds. intros X Y. destruct (A X Y) as [(d & Z & Z')|Z]; [left; exists d; split; [apply ftimeout_armed, Z|exact Z']|right; exact Z].
  - constructor; [|discriminate]. flds. intros X Y. right. reflexivity.
  - constructor; [|discriminate]. flds. intros X Y. right. reflexivity.
  - constructor; [|exact B]. flds. intros X Y. right. reflexivity.
  - destruct (tick_same s) as (E1 & E2 & E3 & E4 & _). constructor; unfold calmst; rewrite ?E1, ?E2, ?E3, ?E4; [exact A|exact B].
Qed.

Lemma cf_facts w s : binv evs w -> In s (recs (wc w)) ->
  c_stop (s_cf s) = false /\ is_sysv s = false /\ c_ready (s_cf s) = false /\ delay (c_killdelay (s_cf s)).
Proof.
  intros Hi Hs. destruct (plain_stop evs HP w s Hi Hs) as [A B]. split; [exact A|]. split; [exact B|].
  destruct (cf_reg evs w s Hi Hs) as (r & b & Hr & E). rewrite E. cbn. split; [apply HR, Hr|]. exists r. auto.
Qed.

Lemma reach08 cfgl cmdl j w : reach True (E evs) (init_world cfgl cmdl) w ->
  match find_key j (k_svcs (wc w)) with
  | Some s => J08 s (jl j (wl w)) (mine j (wc w))
  | None => True
  end.
Proof.
  apply (slice_ind evs HT cfgl cmdl j J08 (fun _ _ => True)); try (intros; exact Logic.I).
  - intros e w0 s l m s' l' m' He Hr Hf Hm A St. pose proof (inv_reach evs HT _ _ _ Hr) as Hi.
    destruct (cf_facts w0 s Hi) as (P1 & P2 & P3 & P4); [apply in_or_app; left; apply find_key_in in Hf; apply Hf|].
    eapply (step08 e (wc w0) j s l m); eauto. apply (sd_assoc evs _ (side_reach evs HT _ _ _ Hr)), HR.
  - intros w0 r l _ _ _ _ _. destruct (fresh_cf j r) as (_ & _ & Ep & _ & Es). constructor; [congruence|].
    unfold fresh_svc, f_fin. cbv zeta.
    destruct (c_manual (r_cfg r)), (is_runtask_t (c_type (r_cfg r)) && c_sighup (r_cfg r)), (r_static r);
      match goal with |- context [if ?b then set_s_dirty true _ else _] => destruct b end; cbn; intros X; discriminate X.
Qed.

Lemma hit_log j p l : hit p (jl j l) = true -> this_stop j l (EKill j p 9) \/ exists r, this_stop j l (ERequest j r).
Proof.
  assert (K : forall c x l x0, (forall o, x <> EState j o Stopping) -> this_stop j l x0 -> this_stop j ((c, x) :: l) x0).
  { intros c x l0 x0 Hx (newer & c0 & older & -> & H). exists ((c, x) :: newer), c0, older. split; [reflexivity|].
    intros c' o [X|X]; [inversion X; subst; eapply Hx; reflexivity|]. eapply H, X. }
  assert (K0 : forall c x l, this_stop j ((c, x) :: l) x).
  { intros c x l0. exists [], c, l0. split; [reflexivity|]. intros c' o []. }
  induction l as [|[c x] l IH]; [discriminate|]. cbn [jl]. destruct (about j x) eqn:Ea.
  - assert (KK : (forall o, x <> EState j o Stopping) -> hit p (jl j l) = true ->
       this_stop j ((c, x) :: l) (EKill j p 9) \/ (exists r, this_stop j ((c, x) :: l) (ERequest j r))).
    { intros Hx H. destruct (IH H) as [X|(r & X)]; [left|right; exists r]; apply K; assumption. }
    destruct x; try (apply KK; discriminate).
    + cbn [hit]. rewrite orb_true_iff, andb_true_iff, !Z.eqb_eq. intros [[-> ->]|H]; [|apply KK; [discriminate|exact H]].
      left. unfold about in Ea. cbn in Ea. apply Nat.eqb_eq in Ea. subst k. apply K0.
    + destruct new; try (apply KK; discriminate). discriminate.
    + intros _. right. unfold about in Ea. cbn in Ea. apply Nat.eqb_eq in Ea. subst k. eexists. apply K0.
  - intros H. destruct (IH H) as [X|(r & X)]; [left|right; exists r]; (apply K; [|exact X]);
      intros o ->; unfold about in Ea; cbn in Ea; rewrite Nat.eqb_refl in Ea; discriminate Ea.
Qed.

Theorem kill_pending_lem n cfgl cmdl w s : history n evs cfgl cmdl w -> In s (k_svcs (wc w)) ->
  s_state s = Stopping -> 1 < s_pid s ->
  (exists r, In r (regs evs) /\ s_timer s = TmArmed TcKill (c_killdelay (r_cfg r))) \/
  this_stop (s_key s) (wl w) (EKill (s_key s) (s_pid s) 9) \/
  exists r, this_stop (s_key s) (wl w) (ERequest (s_key s) r).
Proof.
  intros Hh Hs Hst Hp. pose proof (run_tame evs HT _ _ _ _ Hh) as Hr. pose proof (reach08 cfgl cmdl (s_key s) w Hr) as X.
  rewrite (find_in evs w s (inv_reach evs HT _ _ _ Hr) Hs) in X. destruct (j_kill _ _ _ X Hst Hp) as [(d & A & r & B & ->)|A].
  - left. exists r. auto.
  - right. apply hit_log, A.
Qed.
End C08.
