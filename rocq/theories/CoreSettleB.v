(** C47, events: whatever happens, afterwards there is nothing to do for any
    registered service. *)
From Coq Require Import List String Ascii ZArith NArith Bool Lia Arith Relations.
From Coq Require Import ZifyBool ZifyNat.
From Verif Require Import CondModel CondProof CoreTypes CoreModel CoreLib CoreMicro CoreExec CoreCalm CoreLog
  CoreSpec CoreAny CoreProof CoreLive CoreReap CoreSpecD CoreSettle.
Import ListNotations.
Local Open Scope Z_scope.

(** ** nothing is ever blocked by a conflict, and starting is never inhibited *)
Definition nb (w : world) : Prop :=
  (forall s, In s (k_svcs (wc w)) -> s_block s <> BConflict) /\ k_norespawn (wc w) = false.

Lemma nb_emit x w : nb w -> nb (wemit x w). Proof. exact (fun H => H). Qed.
Lemma nb_mod f w : (forall c, k_svcs (f c) = k_svcs c /\ k_norespawn (f c) = k_norespawn c) -> nb w -> nb (wmod f w).
Proof. intros Hf. destruct (Hf (wc w)) as [E1 E2]. unfold nb, wmod. cbn [wc]. rewrite E1, E2. auto. Qed.
Lemma nb_upd k f w : (forall s, s_block (f s) = s_block s \/ s_block (f s) <> BConflict) -> nb w -> nb (wupd k f w).
Proof.
  intros Hf [H1 H2]. split; [|exact H2]. intros s Hs. apply in_map_key in Hs.
  destruct Hs as (t & A & [[_ ->]|[_ ->]]); [|auto]. destruct (Hf t) as [->|B]; auto.
Qed.
Lemma nb_all f w : (forall c s, s_block (f c s) = s_block s \/ s_block (f c s) <> BConflict) -> nb w -> nb (wmod (f_all f) w).
Proof.
  intros Hf [H1 H2]. split; [|exact H2]. intros s Hs. cbn in Hs. apply in_map_iff in Hs.
  destruct Hs as (t & <- & A). destruct (Hf (wc w) t) as [->|B]; auto.
Qed.
Lemma nb_del k w : nb w -> nb (wmod (c_del k) w).
Proof.
  intros [H1 H2]. unfold nb, wmod, c_del. cbn [wc]. destruct (find_key k (k_svcs (wc w))); [|split; assumption].
  split; [|exact H2]. intros t Ht. cbn in Ht. apply filter_In in Ht. apply H1. tauto.
Qed.
Lemma block_timeout ms cb s : s_block (f_timeout ms cb s) = s_block s.
Proof. unfold f_timeout. destruct (ms =? 0); [reflexivity|]. destruct (s_timer s); reflexivity. Qed.
Ltac bk := let s := fresh "t" in intros s;
  first [left; reflexivity | left; apply block_timeout | right; cbn; discriminate
        | left; unfold f_rtot; destruct (_ && _); reflexivity
        | right; unfold f_retry; cbn; discriminate ].
Lemma nb_enter k s new w : nb w -> nb (wenter k s new w).
Proof.
  intros H. unfold wenter. cbv zeta.
  assert (X : nb (if st_eqb new Stopping
           then wupd k (set_s_killed false) (wtimeout k (c_killdelay (s_cf s)) TcKill (wcancel k w)) else w)).
  { destruct (st_eqb new Stopping); [|exact H]. unfold wtimeout, wcancel. repeat (apply nb_upd; [bk|]). exact H. }
  destruct (st_eqb (s_state s) new); [exact X|]. apply nb_upd; [bk|]. exact X.
Qed.
Lemma nb_went k new w : nb w -> nb (went k new w).
Proof. intros H. unfold went. destruct (lookup_svc _ _); [apply nb_enter|]; exact H. Qed.
Ltac md := let c := fresh in intros c; cbn; split; reflexivity.
Lemma nb_fork k f p w : nb w -> nb (wfork_ok k f p w).
Proof. intros H. unfold wfork_ok. do 2 (apply nb_mod; [md|]). apply nb_emit, nb_mod; [md|exact H]. Qed.
Lemma nb_forkfail k f w : nb w -> nb (wfork_fail k f w).
Proof. intros H. unfold wfork_fail. apply nb_emit, nb_mod; [md|exact H]. Qed.
Lemma nb_script k i rc w : nb w -> nb (wscript k i rc w).
Proof. intros H. unfold wscript. apply nb_emit, nb_mod; [md|exact H]. Qed.
Lemma nb_cond o w : nb w -> nb (wcond o w).
Proof. intros H. unfold wcond. apply nb_mod; [md|]. exact H. Qed.
Ltac nbs := repeat (lazymatch goal with
  | H : nb ?w |- nb ?w => exact H
  | |- nb (if ?b then _ else _) => destruct b
  | |- nb (match ?x with _ => _ end) => destruct x
  | |- nb (went _ _ _) => apply nb_went
  | |- nb (wfork_ok _ _ _ _) => apply nb_fork
  | |- nb (wfork_fail _ _ _) => apply nb_forkfail
  | |- nb (wscript _ _ _ _) => apply nb_script
  | |- nb (wcond _ _) => apply nb_cond
  | |- nb (wemit ?x ?w) => apply (nb_emit x w)
  | |- nb (wmod (c_del _) _) => apply nb_del
  | |- nb (wupd _ _ _) => apply nb_upd; [bk|]
  | |- nb (wmod _ _) => apply nb_mod; [md|]
  | |- nb (wcancel _ _) => unfold wcancel
  | |- nb (wtimeout _ _ _ _) => unfold wtimeout
  | |- nb (wclean _ _) => unfold wclean
  | |- nb (wblock _ _ _) => unfold wblock
  | |- nb (wcleanup _ _) => unfold wcleanup
  | |- nb (w_prep _ _) => unfold w_prep
  | |- nb (w_forked _ _ _ _) => unfold w_forked; cbv zeta
  | |- nb (w_aux _ _ _ _) => unfold w_aux; cbv zeta
  | |- nb (w_done _ _ _) => unfold w_done; cbv zeta
  | |- nb (let _ := _ in _) => cbv zeta
  | w := _ |- nb ?w => subst w
  end).
Lemma nb_collect p st s w : nb w -> nb (w_collect p st s w).
Proof. intros H. unfold w_collect. cbv zeta. nbs. Qed.

Lemma block_fin r h a s : s_block (f_fin r h a s) = s_block s.
Proof. unfold f_fin. cbv zeta. repeat (match goal with |- context [if ?b then _ else _] => destruct b end; cbn); reflexivity. Qed.

Section Inv.
Variable evs : list ev.
Hypothesis HT : tame evs.
Hypothesis Hno : forall b, ~ In (EvNorespawn b) evs.
Hypothesis Hconf : forall r, In r (regs evs) -> c_conflict (r_cfg r) = [].

Lemma nb_micro e w w' : In e evs -> micro True e w w' -> binv evs w -> nb w -> nb w'.
Proof.
  intros He Hm HB H. destruct Hm; try (nbs; fail).
  - (* conflict *) exfalso. destruct (i_cf _ _ HB s (proj1 (lookup_in _ _ _ H0))) as (r & b & Hr & E).
    unfold conflicts in *. rewrite E in H3. cbn [c_conflict set_c_sighup] in H3. rewrite (Hconf r Hr) in H3. discriminate.
  - apply nb_collect, H.
  - apply nb_collect. exact H.
  - (* markall *) apply nb_all; [|exact H]. intros _ t. left. unfold svc_mark. destruct (s_protect t); reflexivity.
  - (* new *) destruct H as [H4 H5]. split; [|exact H5]. intros t Ht. cbn in Ht. apply in_app_or in Ht. destruct Ht as [Ht|[<-|[]]]; [auto|].
    unfold fresh_svc. rewrite block_fin. destruct (c_manual (r_cfg r)); discriminate.
  - (* rereg *) apply nb_upd; [|exact H]. intros t. unfold f_rereg. cbv zeta. rewrite block_fin.
    destruct (c_manual (r_cfg r)); [left; reflexivity|right; discriminate].
  - (* rdeps *) apply nb_all; [|exact H]. intros _ t. unfold f_affected. destruct (_ && _); left; reflexivity.
  - (* unavail *) apply nb_all; [|exact H]. intros c t. unfold f_unavail, svc_mark. left.
    destruct (ifthen_conf _ _); [reflexivity|]. destruct (s_protect t); reflexivity.
  - (* nologin *) apply nb_mod; [|exact H]. intros c. unfold c_nologin. cbv zeta.
    destruct ((k_rl c =? 1) || reserved (k_rl c)); cbn;
      (match goal with |- context [if ?b then _ else _] => destruct b end); split; reflexivity.
  - (* interval *) apply nb_all; [|exact H]. intros _ t. destruct (_ && _); left; reflexivity.
  - (* norespawn *) subst e. destruct (Hno _ He).
Qed.
End Inv.

(** ** one event *)
Lemma wp_and {B} (m : ST B) (Q1 Q2 : B -> world -> Prop) w : wp m Q1 w -> wp m Q2 w -> wp m (fun a w' => Q1 a w' /\ Q2 a w') w.
Proof. unfold wp. destruct (m w) as [[a w']|]; auto. Qed.
Lemma wp_triv {B} (m : ST B) (Q : B -> world -> Prop) w : (forall a w', Q a w') -> wp m Q w.
Proof. unfold wp. destruct (m w) as [[a w']|]; auto. Qed.
Lemma wp_last {B C} (m : ST B) (f : B -> ST C) (Q : C -> world -> Prop) w : (forall a w', wp (f a) Q w') -> wp (bind m f) Q w.
Proof. intros H. apply wp_bind, wp_triv. exact H. Qed.
Ltac inert := intros ?; do 8 (split; [reflexivity|]); split; [first [intros HW; exact HW|reflexivity]|]; first [intros ? HA; exact HA | intros ? HA; apply alive_cons, HA].
Lemma steady_dec c : steady c \/ ~ steady c.
Proof.
  unfold steady. destruct (k_sm c), (k_down c), (k_inrl c), (k_norespawn c);
    try (left; split; [solve [left; reflexivity|right; reflexivity]|repeat split; reflexivity]);
    right; intros (H1 & H2 & H3 & H4); try discriminate; destruct H1; discriminate.
Qed.

Section Event.
Variable evs : list ev.
Hypothesis HT : tame evs.
Hypothesis Hno : forall b, ~ In (EvNorespawn b) evs.
Hypothesis Hconf : forall r, In r (regs evs) -> c_conflict (r_cfg r) = [].
Hypothesis Hlen : forall r n, In r (regs evs) -> In n (c_cond (r_cfg r)) -> (String.length n < 43)%nat.
Variable rank : string -> nat.
Hypothesis Hrank : forall r r0, In r (regs evs) -> In r0 (regs evs) ->
    waits_for r r0 -> (rank (rident r0) < rank (rident r))%nat.
Variable e : ev.
Hypothesis He : In e evs.
Variable v0 : world.
Hypothesis HB0 : binv evs v0.
Hypothesis HN0 : nb v0.
Variable T : nat -> log -> Prop.
Hypothesis Text : forall k l c x, T k l -> (forall o n, x <> EState k o n) -> T k ((c, x) :: l).
Hypothesis Tnow : forall k, e = EvTimer k -> forall c o, T k ((c, EState k o Running) :: wl v0).

Notation R := (reach True (eq e) v0).
Notation GG := (G True (eq e) v0).
Notation Good := (good True (eq e) v0).
Notation GoodSm := (good_sm True (eq e) v0).
Notation Cok := (ok_cf evs).
Notation Ok := (OK Cok T).

Lemma RJ w : R w -> binv evs w /\ nb w.
Proof.
  revert w. apply (reach_ind True (eq e) (fun w => binv evs w /\ nb w)); [split; assumption|].
  intros e1 w1 w2 <- Hm _ [H1 H2]. split; [apply (inv_micro evs HT e w1 w2 He Hm H1)|].
  apply (nb_micro evs Hno Hconf e w1 w2 He Hm H1 H2).
Qed.
Lemma fitR w : R w -> fit Cok w.
Proof.
  intros H. destruct (RJ w H) as [H1 [H2 _]]. intros j s Hj. apply find_key_in in Hj. destruct Hj as [Hj _].
  split; [apply (i_cf _ _ H1), in_or_app; left; exact Hj|]. split; [apply (i_alive _ _ H1), Hj|apply H2, Hj].
Qed.
Lemma HA : forall s t n, Cok (s_cf s) -> Cok (s_cf t) -> owns s n ->
  cond_affects n (c_cond (s_cf t)) = true -> (rank (ident s) < rank (ident t))%nat.
Proof.
  intros s t m (r0 & b0 & Hr0 & E0) (r1 & b1 & Hr1 & E1) Ho Haf.
  assert (I0 : ident s = rident r0) by (unfold ident, rident; rewrite E0; reflexivity).
  assert (I1 : ident t = rident r1) by (unfold ident, rident; rewrite E1; reflexivity).
  rewrite I0, I1. apply Hrank; auto. exists m. split.
  + unfold owns, base_of, pidcond, readycond, servicedir, successcond, failurecond, typestr, ident, ty in *.
    rewrite E0 in Ho. exact Ho.
  + rewrite E1 in Haf. exact Haf.
Qed.
Lemma HS : forall c n, Cok c -> In n (c_cond c) -> (String.length n < 43)%nat.
Proof. intros c n (r & b & Hr & E) Hn. rewrite E in Hn. exact (Hlen r n Hr Hn). Qed.
Lemma HC : forall c, Cok c -> c_conflict c = [].
Proof. intros c (r & b & Hr & E). rewrite E. exact (Hconf r Hr). Qed.
Lemma HK : forall c, Cok c -> c_forking c = false.
Proof. intros c (r & b & Hr & E). rewrite E. exact (t_noforking _ HT r Hr). Qed.

Lemma Xacyc : True -> forall w k s w' j t n, R w -> L w k s -> R w' -> L w' j t ->
  owns s n -> cond_affects n (c_cond (s_cf t)) = true -> (rank (ident s) < rank (ident t))%nat.
Proof.
  intros _ w1 k s w2 j t m R1 L1 R2 L2. apply RJ in R1, R2. apply HA.
  - apply (i_cf _ _ (proj1 R1)). exact (proj1 (lookup_in _ _ _ L1)).
  - apply (i_cf _ _ (proj1 R2)). exact (proj1 (lookup_in _ _ _ L2)).
Qed.
Lemma Xalive : True -> forall w k s, R w -> find_key k (k_svcs (wc w)) = Some s -> 1 < s_pid s -> alive (wc w) (s_pid s) = true.
Proof.
  intros _ w1 k s R1 Hf Hp. apply RJ in R1. apply (i_alive _ _ (proj1 R1)); [|exact Hp]. apply find_key_in in Hf. tauto.
Qed.
Lemma Xretry : True -> forall w k s ms, R w -> L w k s -> s_timer s = TmArmed TcRetry ms ->
  In k (keys (wc w)) /\ is_daemon s || is_tty s = true /\ s_block s <> BUser.
Proof.
  intros _ w1 k s ms R1 HL Ht. apply RJ in R1. destruct R1 as [R1 _].
  destruct (lookup_in _ _ _ HL) as [Hin Hk]. apply in_app_or in Hin. destruct Hin as [Hin|Hin].
  + split; [rewrite <- Hk; apply in_map, Hin|].
    destruct (i_tm _ _ R1 s Hin) as [Z|Z]; [exfalso; eapply Z, Ht|exact Z].
  + exfalso. eapply (i_gc _ _ R1 s Hin), Ht.
Qed.

Lemma back w w' : GG w w' -> R w -> ~ steady (wc w) -> ~ steady (wc w').
Proof.
  intros [H1 H2] H0 Hn Hs. apply Hn. specialize (H2 Logic.I). destruct (RJ w H0) as [_ [_ H4]].
  destruct Hs as (A1 & A2 & A3 & _). unfold same_glob in H2.
  destruct H2 as (B1 & B2 & _ & _ & _ & _ & _ & _ & _ & _ & _ & B3). unfold steady. rewrite <- B1, <- B2.
  split; [exact A1|]. split; [|split; [exact A3|exact H4]].
  destruct (k_down (wc w)) eqn:Ed; [|reflexivity]. rewrite B3 in A2 by reflexivity. discriminate.
Qed.

(** nothing is left to do *)
Definition Z (w : world) : Prop := steady (wc w) -> Sett T none w.
Lemma Z_OK w : R w -> Z w -> steady (wc w) -> Ok w.
Proof. intros H1 H2 H3. split; [apply fitR, H1|]. split; [exact H3|apply H2, H3]. Qed.
Lemma OK_Z w : Ok w -> Z w. Proof. intros (_ & _ & H) _. exact H. Qed.
Lemma Z_run {B} (m : ST B) w : R w -> Z w -> wp m (fun _ => GG w) w -> (Ok w -> wp m (fun _ => Ok) w) ->
  wp m (fun _ w' => R w' /\ Z w') w.
Proof.
  intros H1 H2 H3 H4. destruct (steady_dec (wc w)) as [Hs|Hs].
  - specialize (H4 (Z_OK w H1 H2 Hs)). eapply wp_mono; [apply (wp_and _ _ _ _ H3 H4)|].
    intros a w' [[HR _] HO]. split; [exact HR|apply OK_Z, HO].
  - eapply wp_mono; [exact H3|]. intros a w' HG. split; [apply HG|]. intros Hst. destruct (back _ _ HG H1 Hs Hst).
Qed.

Definition exG n := exec_all True (eq e) v0 rank Xacyc Xalive Xretry e eq_refl n.
Definition exS n := calls_sp rank Cok HA HS HC T Text n.

(** *** the runlevel state machine *)
Lemma sw_Z n w : GoodSm w -> k_down (wc w) = false ->
  wp (sm_switch (exec n)) (fun _ w' => k_sm (wc w') = k_sm (wc w) -> Z w') w.
Proof.
  intros [HR HD] Hd. destruct (exG n) as (I1 & I2 & I3 & I4). destruct (exS n) as (J1 & J2).
  assert (ALLG : forall m w, R w -> wp (step_all (exec n) m) (fun _ => GG w) w).
  { intros m w1 H1. eapply (step_all_G True (eq e) v0 rank); eauto using Xacyc, Xalive, Xretry. }
  destruct (k_sm (wc w)) eqn:Es.
  1,4,5,6,7,8,9: apply wp_triv; intros a w' Hs [[Hx|Hx] _]; congruence.
  all: unfold sm_switch; apply wp_bind, wp_getc; rewrite Es; apply wp_bind.
  - (* bootstrap *)
    assert (G1 : forall w1, (k_newl (wc w1) =? -1 = true -> Z w1) -> wp (c <- getc ;;
      if k_newl c =? -1 then ret tt else run_hook (exec n) HkSysUp ;;; step_all (exec n) m_any ;;; modc (set_k_boot false) ;;;
        step_all (exec n) m_respawn ;;; set_sm SmRunning) (fun _ w' => k_sm (wc w') = SmBootstrapWait -> Z w') w1).
    { intros w1 H1. apply wp_bind, wp_getc. destruct (k_newl (wc w1) =? -1); [apply wp_ret; auto|].
      do 4 (apply wp_last; intros ? ?). apply wp_modc. intros Hx. discriminate Hx. }
    destruct (steady_dec (wc w)) as [Hs|Hs].
    + eapply wp_mono; [eapply (all_any rank Cok); eauto using HA, fitR|]. intros a w1 H1. apply wp_bind.
      eapply wp_mono; [eapply (o_oneshot rank Cok); eauto using HA, HS|]. intros b w2 H2. apply G1. intros _. apply OK_Z, H2.
    + eapply wp_mono; [apply ALLG, HR|]. intros a w1 HG. apply wp_bind.
      eapply wp_mono; [apply (wp_PG True (eq e) v0 rank _ 0), (c_oneshot_spec True (eq e) v0 rank e eq_refl _ I2 _ _ 0)|].
      { apply HG. } { apply cw_boot. } { intros _ ? ? ? _ _ _. lia. }
      intros b w2 HG2. apply G1. intros _ Hst. destruct (back _ _ (G_trans _ _ _ _ _ _ HG HG2) HR Hs Hst).
  - (* running *)
    assert (G1 : forall w1, Z w1 -> (forall f, inert f -> Z (wmod f w1)) -> wp (c <- getc ;;
      if (0 <=? k_newl c) && (k_newl c <=? 9) then
        if k_rl c =? k_newl c then modc (set_k_newl (-1)) else set_sm SmRlChange
      else if CoreTypes.k_reload c then modc (set_k_reload false) ;;; set_sm SmReChange else ret tt)
       (fun _ w' => k_sm (wc w') = SmRunning -> Z w') w1).
    { intros w1 H1 H2. apply wp_bind, wp_getc. destruct (_ && _).
      - destruct (_ =? _); apply wp_modc; [|intros Hx; discriminate Hx]. intros _. apply H2. inert.
      - destruct (CoreTypes.k_reload _); [|apply wp_ret; auto]. apply wp_bind, wp_modc, wp_modc. intros Hx; discriminate Hx. }
    destruct (steady_dec (wc w)) as [Hs|Hs].
    + eapply wp_mono; [eapply (all_any rank Cok); eauto using HA, fitR|]. intros a w1 H1. apply G1; [apply OK_Z, H1|].
      intros f Hf. apply OK_Z, OK_mod; [exact rank|exact Hf|exact H1].
    + eapply wp_mono; [apply ALLG, HR|]. intros a w1 HG. pose proof (back _ _ HG HR Hs) as Hn. apply G1; [intros Hst; contradiction|].
      intros f Hf Hst. exfalso. apply Hn. destruct (Hf (wc w1)) as (_ & E1 & E2 & E3 & E4 & _).
      unfold steady in *. cbn [wc wmod] in Hst. rewrite E1, E2, E3, E4 in Hst. exact Hst.
Qed.

Lemma csm n : forall w, GoodSm w -> wp (exec n CSm) (fun _ w' => Good w' /\ Z w') w.
Proof.
  intros w HG. apply wp_and; [apply (exG n), HG|]. revert w HG. induction n as [|n IH]; intros w HG; [exact Logic.I|].
  destruct (exG n) as (I1 & I2 & I3 & I4).
  cbn [exec]. unfold body. apply wp_bind, wp_getc. destruct (k_down (wc w)) eqn:Ed.
  { apply wp_ret. intros (_ & Hx & _). congruence. }
  unfold sm_step. apply wp_bind, wp_getc, wp_bind.
  eapply wp_mono; [apply wp_and; [|apply sw_Z; [exact HG|exact Ed]]|].
  { eapply (sm_switch_spec True (eq e) v0 rank); eauto using Xacyc, Xalive, Xretry. }
  intros a w1 [[H1 _] H2]. apply wp_bind, wp_getc. apply wp_when; intros Eb; [apply IH, H1|].
  apply H2. apply negb_false_iff in Eb. destruct (k_sm (wc w1)), (k_sm (wc w)); try reflexivity; discriminate Eb.
Qed.

(** *** quiet events *)
Lemma keys_find w s : NoDup (keys (wc w)) -> In s (k_svcs (wc w)) -> F w (s_key s) s.
Proof. unfold keys, F. intros H1 H2. apply nodup_find; assumption. Qed.
Lemma nodup_left {B} (l m : list B) : NoDup (l ++ m) -> NoDup l.
Proof.
  induction l as [|x l IH]; intros H; [constructor|]. inversion H; subst. constructor; [|auto].
  intros Hx. apply H2, in_or_app. left. exact Hx.
Qed.
Lemma nodupR w : R w -> NoDup (keys (wc w)).
Proof. intros H. destruct (RJ w H) as [H1 _]. pose proof (i_nodup _ _ H1) as H2. unfold recs in H2.
  rewrite map_app in H2. exact (nodup_left _ _ H2).
Qed.

Lemma mon_ok n p st w : Ok w -> NoDup (keys (wc w)) -> alive (wc w) p = false -> wp (exec n (CMonitor p st)) (fun _ => Ok) w.
Proof.
  intros H Hd Ha. destruct n as [|n]; [exact Logic.I|]. cbn [exec]. unfold body. apply wp_bind, wp_getc.
  destruct (k_down (wc w)); [exact H|]. unfold service_monitor. destruct (p <=? 1) eqn:Ep; [exact H|].
  apply wp_bind, wp_getc. destruct (find_pid p (k_svcs (wc w))) as [s|] eqn:Ef.
  - exfalso. apply find_pid_in in Ef. destruct Ef as [Hs <-]. destruct (proj1 H _ _ (keys_find _ _ Hd Hs)) as (_ & Hal & _).
    rewrite Hal in Ha by lia. discriminate.
  - apply (o_script_del rank); assumption.
Qed.
Lemma mon_g n p st w : GG v0 w -> alive (wc w) p = false -> wp (exec n (CMonitor p st)) (fun _ => GG v0) w.
Proof.
  intros HG Ha. destruct n as [|n]; [exact Logic.I|]. cbn [exec]. unfold body. apply wp_bind, wp_getc.
  destruct (k_down (wc w)); [exact HG|]. unfold service_monitor. destruct (p <=? 1) eqn:Ep; [exact HG|].
  apply wp_bind, wp_getc. destruct (find_pid p (k_svcs (wc w))) as [s|] eqn:Ef.
  - exfalso. apply find_pid_in in Ef. destruct Ef as [Hs <-]. destruct (RJ w (proj1 HG)) as [HB _].
    rewrite (i_alive _ _ HB s Hs) in Ha by lia. discriminate.
  - eapply wp_mono; [eapply (script_del_spec True (eq e) v0 e eq_refl p w); [apply HG|lia|exact Ef]|].
    intros a w' HG2. eapply G_trans; eassumption.
Qed.

Lemma quiet_Z n : quiet_ev e = true -> Z v0 -> wp (handle (exec n) e) (fun _ => Z) v0.
Proof.
  intros Hq HZ. assert (HR : R v0) by apply rt_refl.
  destruct (exG n) as (I1 & I2 & I3 & I4). destruct (exS n) as (J1 & J2).
  eapply wp_mono; [apply (Z_run _ v0 HR HZ)|intros a w' [_ H]; exact H].
  - eapply (handle_keep True (eq e) v0 rank Xacyc Xalive Xretry e eq_refl _ I1 I2 I3 I4 (GG v0));
      [intros w H; apply H| |apply mon_g|exact Hq|apply G_refl, HR].
    intros w w' H1 H2 H3. eapply G_trans; [exact H1|split; assumption].
  - intros H. pose proof HA as HA'. pose proof HS as HS'.
    assert (GA : forall m, wp m (fun _ => Ok) v0 -> wp (gated m) (fun _ => Ok) v0).
    { intros m Hm. unfold gated. apply wp_bind, wp_getc. destruct (reserved _); [exact H|exact Hm]. }
    assert (He' : e = e) by reflexivity. revert Hq He'. generalize e at 1 3 4. intros e' Hq He'.
    destruct e'; cbn [handle]; try discriminate Hq; clear Hq.
    + exfalso. apply (t_reported _ HT p). rewrite <- He'. exact He.
    + apply wp_modc. destruct ((p <=? 1) || memZ p (k_procs (wc v0))) eqn:Eb.
      * unfold wmod. rewrite Eb. destruct v0; exact H.
      * unfold wmod. rewrite Eb. change (Ok (wmod (fun c => set_k_procs (p :: k_procs c) c) v0)).
        apply OK_mod; [exact rank|inert|exact H].
    + eapply (ev_timer rank Cok HA' HS' T Text _ J1 J2); [exact H| | |].
      * intros q st w1 H1 Ek Ha. apply mon_ok; [exact H1|rewrite Ek; apply nodupR, HR|exact Ha].
      * intros s ms HL Ht. destruct (Xretry Logic.I v0 k s ms HR HL Ht) as (Hk & _).
        exact (Rg_L True k v0 s (fun _ => Hk) HL Logic.I).
      * apply Tnow, He'.
    + eapply (ev_work rank Cok); eassumption.
    + eapply (ev_interval Cok); eassumption.
    + eapply (ev_gc rank Cok); eassumption.
    + apply GA. eapply (ev_stop rank Cok); eassumption.
    + apply GA. eapply (ev_start rank Cok); eassumption.
    + apply GA. eapply (ev_restart rank Cok); eassumption.
    + apply GA. eapply (ev_reload rank Cok); eassumption.
    + eapply (ev_signal Cok); eassumption.
    + eapply (o_set rank Cok); eassumption.
    + eapply (o_oneshot rank Cok); eassumption.
    + eapply (o_clear rank Cok); eassumption.
    + eapply (ev_pidfile rank Cok); try eassumption. apply HK.
    + eapply (ev_pidfile_del rank Cok); eassumption.
    + eapply (ev_notify rank Cok); eassumption.
    + apply wp_modc, OK_mod; [exact rank|inert|exact H].
    + apply wp_modc, OK_mod; [exact rank|inert|exact H].
    + exfalso. apply (Hno b). rewrite <- He'. exact He.
    + apply wp_modc, OK_mod; [exact rank|inert|exact H].
Qed.

(** *** events that go on with the runlevel state machine *)
Definition GZ (w : world) : Prop := Good w /\ Z w.
Lemma Z_mod f w : inert f -> Z w -> Z (wmod f w).
Proof.
  intros Hf H Hst. apply Sett_mod; [exact Hf|]. apply H. destruct (Hf (wc w)) as (_ & E1 & E2 & E3 & E4 & _).
  unfold steady in *. cbn [wc wmod] in Hst. rewrite E1, E2, E3, E4 in Hst. exact Hst.
Qed.
Lemma Z_emit x w : (forall o, x <> ECond o) -> (forall k o n, x <> EState k o n) -> Z w -> Z (wemit x w).
Proof.
  intros H1 H2 H Hst j t Hj Hpl Hnx. apply still_emit; [exact Text|apply H2|]. exact (H Hst j t Hj Hpl Hnx).
Qed.
Lemma GZ_run {B} (m : ST B) w : GZ w -> wp m (fun _ => GG w) w -> (Ok w -> wp m (fun _ => Ok) w) -> wp m (fun _ => GZ) w.
Proof.
  intros [H1 H2] H3 H4. eapply wp_mono; [apply (wp_and _ _ _ _ H3 (Z_run _ w (proj1 H1) H2 H3 H4))|].
  intros a w' [HG [_ HZ]]. split; [eapply good_G; eassumption|exact HZ].
Qed.
Section Loud.
Variable n : nat.
Lemma l_net up w : GZ w -> wp (networking (exec n) up) (fun _ => GZ) w.
Proof.
  intros H. destruct (exG n) as (I1 & I2 & I3 & I4). destruct (exS n) as (J1 & J2). apply GZ_run; [exact H| |].
  - eapply (networking_spec True (eq e) v0 rank); eauto using Xacyc, Xalive, Xretry. apply H.
  - intros HO. eapply (o_networking rank Cok); eauto using HA, HS.
Qed.
Lemma l_hook h w : h <> HkReconf -> GZ w -> wp (run_hook (exec n) h) (fun _ => GZ) w.
Proof.
  intros Hh H. destruct (exG n) as (I1 & I2 & I3 & I4). destruct (exS n) as (J1 & J2). apply GZ_run; [exact H| |].
  - eapply (run_hook_spec True (eq e) v0 rank); eauto using Xacyc, Xalive, Xretry. apply H.
  - intros HO. eapply (o_hook rank Cok); eauto using HA, HS.
Qed.
Lemma l_runlevel l w : Good w -> (forall w', same_glob w w' -> asked True e (wc w') l) -> wp (sm_runlevel (exec n) l) (fun _ => GZ) w.
Proof.
  intros H1 H2. destruct (exG n) as (I1 & I2 & I3 & I4). unfold sm_runlevel. apply wp_bind, wp_getc, wp_bind.
  assert (G1 : forall w1, GG w w1 -> wp (emit (EAsk l) ;;; modc (set_k_newl l) ;;; exec n CSm ;;;
     c <- getc ;; when (reserved (k_rl c)) (networking (exec n) false)) (fun _ => GZ) w1).
  { intros w1 HG. pose proof (good_G _ _ _ _ _ H1 HG) as HR1. apply wp_bind, wp_emit, wp_bind, wp_modc, wp_bind.
    eapply wp_mono; [apply csm, (newl_good True (eq e) v0 e eq_refl); [exact HR1|apply H2, HG; exact Logic.I]|].
    intros a w2 HR2. apply wp_bind, wp_getc. apply wp_when; intros _; [apply l_net, HR2|exact HR2]. }
  apply wp_when; intros _; [|apply G1, G_refl, H1].
  eapply wp_mono; [eapply (networking_spec True (eq e) v0 rank); eauto using Xacyc, Xalive, Xretry; apply H1|].
  intros a w1 HG. apply G1, HG.
Qed.
Lemma g_mod f w : inert f -> GZ w -> Good (wmod f w) -> GZ (wmod f w).
Proof. intros Hf [_ HZ] HG. split; [exact HG|apply Z_mod; assumption]. Qed.
Lemma l_reload w : Good w -> e = EvReloadAll \/ e = EvSigHup -> wp (sm_reload (exec n)) (fun _ => GZ) w.
Proof.
  intros H1 H2. unfold sm_reload. apply wp_bind, wp_modc, csm, good_to_do.
  eapply (good_mic True (eq e) v0 e eq_refl); [exact H1|unfold same_glob; cbn; tauto|]. apply m_reload, H2.
Qed.
Lemma l_check w : GZ w -> e = EvBootCheck -> wp (check_bootstrap (exec n)) (fun _ => GZ) w.
Proof.
  intros H1 He'. destruct (exG n) as (I1 & I2 & I3 & I4). destruct (exS n) as (J1 & J2).
  unfold check_bootstrap. apply wp_bind, wp_getc. destruct (k_bootleft (wc w)) as [t|]; [|exact H1].
  apply wp_bind. eapply wp_mono.
  { apply GZ_run; [exact H1| |].
    - eapply (step_all_G True (eq e) v0 rank); eauto using Xacyc, Xalive, Xretry. apply H1.
    - intros HO. eapply (o_all rank Cok); eauto using HA. }
  intros a1 w1 HR1. apply wp_bind, wp_getc.
  assert (HB : forall b, GZ (wmod (set_k_bootleft b) w1)).
  { intros b. apply g_mod; [inert|exact HR1|].
    eapply (good_mic True (eq e) v0 e eq_refl); [exact (proj1 HR1)|unfold same_glob; cbn; tauto|]. apply m_bootleft. }
  assert (HE : GZ (wemit (EBooted (negb (completed (wc w1)))) w1)).
  { split; [|apply Z_emit; [discriminate|discriminate|apply HR1]].
    eapply (good_mic True (eq e) v0 e eq_refl); [exact (proj1 HR1)|unfold same_glob; cbn; tauto|]. apply m_booted, He'. }
  assert (HEB : GZ (wmod (set_k_bootleft None) (wemit (EBooted (negb (completed (wc w1)))) w1))).
  { apply g_mod; [inert|exact HE|].
    eapply (good_mic True (eq e) v0 e eq_refl); [exact (proj1 HE)|unfold same_glob; cbn; tauto|]. apply m_bootleft. }
  assert (HF : wp (emit (EBooted (negb (completed (wc w1)))) ;;; modc (set_k_bootleft None) ;;;
          sm_runlevel (exec n) (if k_cmdl (wc w1) =? 0 then k_cfgl (wc w1) else k_cmdl (wc w1)) ;;;
          prune_bootstrap ;;; run_hook (exec n) HkSvcUp) (fun _ => GZ) w1).
  { apply wp_bind, wp_emit, wp_bind, wp_modc, wp_bind. eapply wp_mono.
    - apply l_runlevel; [apply HEB|]. intros w' Hg. rewrite He'. intros _.
      destruct Hg as (_ & _ & _ & _ & _ & _ & A & B & _). cbn in A, B.
      replace (k_cmdl (wc w')) with (k_cmdl (wc w1)) by congruence.
      replace (k_cfgl (wc w')) with (k_cfgl (wc w1)) by congruence. reflexivity.
    - intros a3 w3 HR3. apply wp_bind. eapply wp_mono.
      + apply GZ_run; [exact HR3| |].
        * eapply (prune_bootstrap_spec True (eq e) v0 rank e eq_refl). apply HR3.
        * intros HO. eapply (o_prune Cok); eassumption.
      + intros a4 w4 HR4. apply l_hook; [discriminate|exact HR4]. }
  destruct t as [|t]; [exact HF|]. destruct (completed (wc w1)); [exact HF|]. apply wp_modc, HB.
Qed.
Lemma halt_good s w : Good w -> asked_halt e s -> Good (wmod (set_k_halt s) (wemit (EHalt s) w)).
Proof.
  intros H1 H2. eapply (good_mic True (eq e) v0 e eq_refl); [exact H1|unfold same_glob; cbn; tauto|]. apply m_halt, H2.
Qed.
Lemma l_api_runlevel l w : GZ w -> e = EvRunlevel l -> wp (api_runlevel (exec n) l) (fun _ => GZ) w.
Proof.
  intros H1 He'. unfold api_runlevel. apply wp_bind, wp_getc.
  destruct (reserved (k_rl (wc w)) && negb (k_rl (wc w) =? 10)); [exact H1|].
  destruct ((0 <=? l) && (l <=? 9)) eqn:El; [|exact H1].
  assert (G1 : forall w2, GZ w2 -> k_rl (wc w2) = k_rl (wc w) ->
     wp (if k_rl (wc w) =? 10 then modc (set_k_cfgl l) else sm_runlevel (exec n) l) (fun _ => GZ) w2).
  { intros w2 H2 E2. destruct (k_rl (wc w) =? 10) eqn:E10.
    - apply wp_modc. apply g_mod; [inert|exact H2|]. destruct H2 as [[H2 H2'] _]. split; [|exact H2'].
      eapply (reach_mic True (eq e) v0 e eq_refl); [exact H2|]. apply m_cfgl; [exact He'|lia|lia].
    - apply l_runlevel; [exact (proj1 H2)|]. intros w' _. rewrite He'. cbn. lia. }
  assert (G2 : forall s, asked_halt e s -> GZ (wmod (set_k_halt s) (wemit (EHalt s) w))).
  { intros s Hs. split; [apply halt_good; [exact (proj1 H1)|exact Hs]|]. apply Z_mod; [inert|]. apply Z_emit; [discriminate..|exact (proj2 H1)]. }
  apply wp_bind. apply wp_when; intros E0.
  - apply wp_bind, wp_emit, wp_modc, wp_bind. apply wp_when; intros E6; [lia|]. apply G1; [|reflexivity].
    apply G2. rewrite He'. replace l with 0 by lia. reflexivity.
  - apply wp_bind. apply wp_when; intros E6; [apply wp_bind, wp_emit, wp_modc|]; (apply G1; [|reflexivity]).
    + apply G2. rewrite He'. replace l with 6 by lia. reflexivity.
    + exact H1.
Qed.
Lemma l_down s t w : Good w -> e = EvDown s t -> wp (api_down (exec n) s t) (fun _ => GZ) w.
Proof.
  intros H1 He'. unfold api_down. apply wp_bind, wp_bind, wp_emit, wp_modc.
  assert (HR : Good (wmod (set_k_halt s) (wemit (EHalt s) w))).
  { apply halt_good; [exact H1|]. rewrite He'. reflexivity. }
  assert (G1 : forall w2, Good w2 -> wp (sm_runlevel (exec n) (match s with ShutReboot => 6 | _ => 0 end)) (fun _ => GZ) w2).
  { intros w2 H2. apply l_runlevel; [exact H2|]. intros w' _. rewrite He'. destruct s; reflexivity. }
  apply wp_bind. apply wp_when; intros Et; [apply wp_modc|]; apply G1; [|exact HR].
  subst t. eapply (good_mic True (eq e) v0 e eq_refl); [exact HR|unfold same_glob; cbn; tauto|]. eapply m_emerg; eauto.
Qed.
End Loud.

Lemma reap_Z n p st w : GZ w -> e = EvReap p st -> memZ p (k_procs (wc w)) = true ->
  wp (service_monitor (exec n) p st) (fun _ => GZ) (wmod (c_drop p) w).
Proof.
  intros H1 He' Hp. destruct (exG n) as (I1 & I2 & I3 & I4).
  assert (HG : p <= 1 \/ find_pid p (k_svcs (wc (wmod (c_drop p) w))) = None -> GZ (wmod (c_drop p) w)).
  { intros H. split.
    - eapply (good_mic True (eq e) v0 e eq_refl); [exact (proj1 H1)|unfold same_glob; cbn; tauto|].
      eapply m_reap_other; eauto. intros Hp1. destruct H as [H|H]; [lia|exact H].
    - intros Hst j t Hj Hpl Hnx. apply still_mod; [reflexivity|reflexivity|reflexivity|intros HW; exact HW|]. exact (proj2 H1 Hst j t Hj Hpl Hnx). }
  eapply (monitor_any True (eq e) v0 rank); eauto using Xacyc, Xalive, Xretry.
  - intros w1 Hw1. apply csm, Hw1.
  - intros Hp1 Hf. assert (HZ : GZ (wmod (c_drop p) w)) by (apply HG; right; exact Hf). apply GZ_run; [exact HZ| |].
    + eapply (script_del_spec True (eq e) v0 e eq_refl); [apply HZ|exact Hp1|exact Hf].
    + intros HO. apply (o_script_del rank); assumption.
  - intros s Hp1 Hf. eapply (good_mic True (eq e) v0 e eq_refl); [exact (proj1 H1)|exact (collect_same p st s (wmod (c_drop p) w))|]. eapply m_reap; eauto.
Qed.

Lemma event_Z n : at_rest v0 -> Z v0 -> wp (on_event n e) (fun _ => Z) v0.
Proof.
  intros HR HZ. unfold on_event. apply wp_bind, wp_getc. destruct (k_down (wc v0)) eqn:Ed; [exact HZ|].
  destruct (quiet_ev e) eqn:Hq; [apply quiet_Z; assumption|].
  assert (H1 : GZ v0) by (split; [split; [apply rt_refl|auto]|exact HZ]). pose proof (proj1 H1) as HG.
  apply (wp_mono _ (fun _ => GZ)); [|intros a w' H; exact (proj2 H)].
  assert (GA : forall m, wp m (fun _ => GZ) v0 -> wp (gated m) (fun _ => GZ) v0).
  { intros m Hm. unfold gated. apply wp_bind, wp_getc. destruct (reserved _); [exact H1|exact Hm]. }
  assert (He' : e = e) by reflexivity. revert Hq He'. generalize e at 1 3 4. intros e' Hq He'.
  destruct e'; cbn [handle]; try discriminate Hq; clear Hq.
  - apply wp_bind, wp_getc. destruct (memZ p (k_procs (wc v0))) eqn:Em; [|exact H1].
    apply wp_bind, wp_modc. change (wp (exec n (CMonitor p st)) (fun _ => GZ) (wmod (c_drop p) v0)).
    destruct n as [|n]; [exact Logic.I|]. cbn [exec]. unfold body. apply wp_bind, wp_getc.
    change (k_down (wc (wmod (c_drop p) v0))) with (k_down (wc v0)). rewrite Ed. apply reap_Z; assumption.
  - apply l_check; assumption.
  - apply wp_bind, wp_getc. apply wp_when; intros Ee; [|exact H1].
    eapply wp_mono; [apply wp_and; [eapply (do_shutdown_spec True (eq e) v0 e eq_refl); [apply rt_refl|right; exact Ee]|]|].
    + unfold do_shutdown. apply wp_bind, wp_getc, wp_bind, wp_emit, wp_modc.
      instantiate (1 := fun _ w' => k_down (wc w') = true). reflexivity.
    + intros a w' [A B]. split; [eapply good_G; eassumption|]. intros (_ & C & _). congruence.
  - apply l_api_runlevel; assumption.
  - apply GA, l_reload; auto.
  - apply GA, l_down; assumption.
  - apply wp_bind, wp_getc. apply wp_when; intros Eb; [|exact H1]. apply wp_bind.
    eapply wp_mono; [apply (conf_reload_spec True (eq e) v0 e eq_refl); [apply rt_refl|];
      intros _; left; destruct (k_sm (wc v0)); (discriminate Eb || reflexivity)|]. intros a w1 HG1. apply csm, good_to_do.
    eapply good_G; eassumption.
  - apply GA, l_reload; auto.
  - apply GA. apply wp_bind, wp_bind, wp_emit, wp_modc, l_runlevel.
    + apply halt_good; [exact HG|]. rewrite He'. reflexivity.
    + intros w' _. rewrite He'. reflexivity.
  - apply GA. apply wp_bind, wp_bind, wp_emit, wp_modc, l_runlevel.
    + apply halt_good; [exact HG|]. rewrite He'. reflexivity.
    + intros w' _. rewrite He'. reflexivity.
Qed.
End Event.

(** ** a whole history *)
Lemma still_T (T T' : nat -> log -> Prop) L w s : (T (s_key s) (wl w) -> T' (s_key s) (wl w)) -> still T L w s -> still T' L w s.
Proof. intros H. unfold still. destruct (s_state s); auto. intros [A|[A|A]]; auto. Qed.

Lemma last_ext k l c o older c1 x : last_change k l c o Running older -> (forall a b, x <> EState k a b) ->
  last_change k ((c1, x) :: l) c o Running older.
Proof.
  intros (newer & H1 & H2) Hx. exists ((c1, x) :: newer). split; [rewrite H1; reflexivity|].
  intros c' a b [Hi|Hi]; [|exact (H2 c' a b Hi)]. injection Hi as _ Hi. exact (Hx a b Hi).
Qed.
Lemma nb_init cfgl cmdl : nb (init_world cfgl cmdl).
Proof. split; [intros s []|reflexivity]. Qed.

Section Run.
Variable n : nat.
Variable evs : list ev.
Variables cfgl cmdl : BinInt.Z.
Hypothesis HT : tame evs.
Hypothesis Hno : forall b, ~ In (EvNorespawn b) evs.
Hypothesis Hconf : forall r, In r (regs evs) -> c_conflict (r_cfg r) = [].
Hypothesis Hlen : forall r m, In r (regs evs) -> In m (c_cond (r_cfg r)) -> (String.length m < 43)%nat.

Lemma run_Z l : forall rest w, l ++ rest = evs -> history n l cfgl cmdl w ->
  binv evs w /\ at_rest w /\ nb w /\ Z (by_timer n evs cfgl cmdl) w.
Proof.
  induction l as [|e l IH] using rev_ind; intros rest w El Hh.
  - unfold history in Hh. cbn in Hh. injection Hh as <-. split; [apply inv_init|]. split; [apply rest_init|].
    split; [apply nb_init|]. intros _ j s Hj. discriminate Hj.
  - unfold history in Hh. rewrite run_app in Hh. unfold bind at 1 in Hh.
    destruct (run n l (init_world cfgl cmdl)) as [[[] w1]|] eqn:E1; [|discriminate].
    cbn [run] in Hh. unfold bind in Hh. destruct (on_event n e w1) as [[[] w2]|] eqn:E2; [|discriminate].
    injection Hh as <-. rewrite <- app_assoc in El. cbn [app] in El.
    destruct (IH (e :: rest) w1 El E1) as (HB & HR & HN & HZ).
    assert (He : In e evs) by (rewrite <- El; apply in_or_app; right; left; reflexivity).
    destruct (event_inv evs n e w1 w2 HT He HB HR E2) as (HB2 & HR2 & RE).
    split; [exact HB2|]. split; [exact HR2|]. split.
    { apply (RJ evs HT Hno Hconf e He w1 HB HN w2 RE). }
    destruct (t_acyclic _ HT) as [rank Hrank].
    set (T := fun k l' => by_timer n evs cfgl cmdl k l' \/
        e = EvTimer k /\ exists c o older recent, last_change k l' c o Running older /\ older = recent ++ wl w1).
    assert (HW : wp (on_event n e) (fun _ => Z T) w1).
    { apply (event_Z evs HT Hno Hconf Hlen rank Hrank e He w1 HB HN T).
      - intros k l' c x [(c0 & o & older & A & B)|(A & c0 & o & older & recent & B & C)] Hx.
        + left. exists c0, o, older. split; [apply last_ext; assumption|exact B].
        + right. split; [exact A|]. exists c0, o, older, recent. split; [apply last_ext; assumption|exact C].
      - intros k Ek c o. right. split; [exact Ek|]. exists c, o, (wl w1), []. split; [|reflexivity].
        exists []. split; [reflexivity|intros c' a b []].
      - exact HR.
      - intros Hst j s Hj Hpl Hnx. eapply still_T; [|exact (HZ Hst j s Hj Hpl Hnx)]. intros Hx; left; exact Hx. }
    unfold wp in HW. rewrite E2 in HW. intros Hst j s Hj Hpl Hnx.
    eapply still_T; [|exact (HW Hst j s Hj Hpl Hnx)].
    intros [Hx|(Ek & c & o & older & recent & Hl & Eo)]; [exact Hx|].
    exists c, o, older. split; [exact Hl|]. destruct Hl as (newer & Hl & _).
    exists l, rest, w1, w2, newer, recent. rewrite <- Ek. split; [symmetry; exact El|]. auto.
Qed.

Lemma settled_lem w s : history n evs cfgl cmdl w -> steady (wc w) -> In s (k_svcs (wc w)) -> c_if (s_cf s) = [] ->
  settled n evs cfgl cmdl (wc w) (wl w) s.
Proof.
  intros Hh Hst Hs Hif. destruct (run_Z evs [] w (app_nil_r _) Hh) as (HB & _ & _ & HZ).
  assert (Hd : NoDup (keys (wc w))).
  { pose proof (i_nodup _ _ HB) as H2. unfold recs in H2. rewrite map_app in H2. exact (nodup_left _ _ H2). }
  pose proof (HZ Hst (s_key s) s (keys_find w s Hd Hs) Hif (fun x => x)) as H.
  assert (EN : enabled (wc w) s = false <-> ~ may_start (wc w) s).
  { destruct (enabled (wc w) s) eqn:E.
    - split; [discriminate|]. intros Hn. destruct (Hn (enabled_may_start _ _ E)).
    - split; [|reflexivity]. intros _ Hm. apply may_enabled in Hm. congruence. }
  assert (EY : enabled (wc w) s = true -> may_start (wc w) s) by apply enabled_may_start.
  assert (AN : agg (wc w) s <> COn -> ~ conds_on (wc w) s).
  { intros Hn Hc. apply Hn. unfold agg. destruct (c_cond (s_cf s)) eqn:Ec; [reflexivity|]. rewrite <- Ec. apply agg_all_on.
    intros m Hm. apply Hc. exact Hm. }
  unfold still in H. unfold settled. destruct (s_state s).
  - tauto.
  - destruct H as [H1 H2]. split; [exact H1|]. intros Hm Hr. apply EN. rewrite Hr, Hm in H2. exact H2.
  - tauto.
  - tauto.
  - tauto.
  - tauto.
  - tauto.
  - destruct H as [(H1 & H2 & [H3|[H3|[]]])|H]; auto; left; auto.
  - destruct H as [H1 [H2|[H2|[]]]]; auto.
  - auto.
  - destruct H as [(H1 & H2 & H3)|H]; [|tauto]. left. split; [auto|]. split; [apply agg_conds_on, H2|exact H3].
Qed.
End Run.

Lemma enabled_start c s : enabled c s = true -> may_start c s.
Proof. apply enabled_may_start. Qed.
Lemma agg_conds c s : cond_get_agg (k_cond c) (c_cond (s_cf s)) = COn -> conds_on c s.
Proof. intros H. apply agg_conds_on. exact H. Qed.

Lemma wanted_lem n evs cfgl cmdl w s : tame evs ->
  (forall b, ~ In (EvNorespawn b) evs) ->
  (forall r, In r (regs evs) -> c_conflict (r_cfg r) = []) ->
  (forall r m, In r (regs evs) -> In m (c_cond (r_cfg r)) -> (String.length m < 43)%nat) ->
  history n evs cfgl cmdl w -> steady (wc w) -> k_work (wc w) = false ->
  In s (k_svcs (wc w)) -> c_if (s_cf s) = [] -> may_start (wc w) s -> conds_on (wc w) s ->
  s_state s <> Halted /\ s_state s <> Waiting /\ (s_state s = Paused -> s_pid s <= 1).
Proof.
  intros H1 H2 H3 H4 H5 H6 H7 H8 H9 H10 H11.
  pose proof (settled_lem n evs cfgl cmdl H1 H2 H3 H4 w s H5 H6 H8 H9) as H. unfold settled in H.
  split; [|split]; intros E; rewrite E in H.
  - tauto.
  - destruct H as [_ [H|H]]; [tauto|congruence].
  - destruct H as [(_ & _ & [H|H])|H]; [|congruence|exact H]. exfalso.
    assert (X : cond_get_agg (k_cond (wc w)) (c_cond (s_cf s)) = COn) by (apply agg_all_on; intros m Hm; apply H11, Hm).
    congruence.
Qed.
Lemma unwanted_lem n evs cfgl cmdl w s : tame evs ->
  (forall b, ~ In (EvNorespawn b) evs) ->
  (forall r, In r (regs evs) -> c_conflict (r_cfg r) = []) ->
  (forall r m, In r (regs evs) -> In m (c_cond (r_cfg r)) -> (String.length m < 43)%nat) ->
  history n evs cfgl cmdl w -> steady (wc w) ->
  In s (k_svcs (wc w)) -> c_if (s_cf s) = [] -> ~ may_start (wc w) s -> 1 < s_pid s ->
  ~ by_timer n evs cfgl cmdl (s_key s) (wl w) ->
  s_state s = Stopping \/ s_state s = Teardown \/ s_state s = Cleanup \/ s_state s = Done \/ s_state s = Dead \/ s_state s = Halted.
Proof.
  intros H1 H2 H3 H4 H5 H6 H8 H9 H10 H11 H12.
  pose proof (settled_lem n evs cfgl cmdl H1 H2 H3 H4 w s H5 H6 H8 H9) as H. unfold settled in H.
  destruct (s_state s); try tauto; exfalso.
  - destruct H as [H|H]; [tauto|lia].
  - destruct H as [H|H]; [tauto|lia].
  - destruct H as [H|[H|H]]; [tauto|lia|tauto].
Qed.
Lemma lost_lem n evs cfgl cmdl w s : tame evs ->
  (forall b, ~ In (EvNorespawn b) evs) ->
  (forall r, In r (regs evs) -> c_conflict (r_cfg r) = []) ->
  (forall r m, In r (regs evs) -> In m (c_cond (r_cfg r)) -> (String.length m < 43)%nat) ->
  history n evs cfgl cmdl w -> steady (wc w) ->
  In s (k_svcs (wc w)) -> c_if (s_cf s) = [] -> s_state s = Running -> 1 < s_pid s ->
  ~ by_timer n evs cfgl cmdl (s_key s) (wl w) -> conds_on (wc w) s.
Proof.
  intros H1 H2 H3 H4 H5 H6 H8 H9 H10 H11 H12.
  pose proof (settled_lem n evs cfgl cmdl H1 H2 H3 H4 w s H5 H6 H8 H9) as H. unfold settled in H. rewrite H10 in H.
  destruct H as [H|[H|H]]; [tauto|lia|tauto].
Qed.
Lemma acted_lem n evs cfgl cmdl w s : tame evs ->
  (forall b, ~ In (EvNorespawn b) evs) ->
  (forall r, In r (regs evs) -> c_conflict (r_cfg r) = []) ->
  (forall r m, In r (regs evs) -> In m (c_cond (r_cfg r)) -> (String.length m < 43)%nat) ->
  history n evs cfgl cmdl w -> steady (wc w) ->
  In s (k_svcs (wc w)) -> c_if (s_cf s) = [] -> s_state s = Running -> 1 < s_pid s ->
  ~ by_timer n evs cfgl cmdl (s_key s) (wl w) -> s_dirty s = false.
Proof.
  intros H1 H2 H3 H4 H5 H6 H8 H9 H10 H11 H12.
  pose proof (settled_lem n evs cfgl cmdl H1 H2 H3 H4 w s H5 H6 H8 H9) as H. unfold settled in H. rewrite H10 in H.
  destruct H as [H|[H|H]]; [tauto|lia|tauto].
Qed.
