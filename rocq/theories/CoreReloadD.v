(** C48: the proofs. *)
From Coq Require Import List String Ascii ZArith NArith Bool Lia Arith Relations.
From Coq Require Import ZifyBool ZifyNat.
From Verif Require Import CondModel CondProof CoreTypes CoreModel CoreLib CoreMicro CoreExec CoreCalm CoreLog CoreSpec CoreSpecE
  CoreAny CoreProof CoreIdent CoreProofC CoreLive CoreReload CoreReloadB CoreReloadC.
Import ListNotations.
Local Open Scope Z_scope.

Lemma lok_end c' l : lok ((c', EReconfEnd) :: l) -> exists c l0, l = (c, EReconf) :: l0 /\ c' = reload1 c.
Proof.
  cbn [lok]. intros [H _]. destruct l as [|[c []] l0]; try contradiction. eauto.
Qed.
Lemma log_wf n evs cfgl cmdl w c x older : history n evs cfgl cmdl w -> happened w c x older -> wf c.
Proof.
  intros Hh Hp. pose proof (happened_ubase _ _ _ _ _ _ _ _ Hh Hp) as U. apply (wf_of c older U).
  destruct Hp as (newer & Hl). apply (d_hist _ (history_dinv _ _ _ _ _ Hh) c x). rewrite Hl. apply in_or_app. right. left. reflexivity.
Qed.

Lemma reload_lem n evs cfgl cmdl w c' older : history n evs cfgl cmdl w -> happened w c' EReconfEnd older ->
  exists c l, older = (c, EReconf) :: l /\ reloaded c c'.
Proof.
  intros Hh (newer & Hl). destruct (history_lokt _ _ _ _ _ Hh) as [HL _]. rewrite Hl in HL. apply lok_app in HL.
  destruct (lok_end _ _ HL) as (c & l & -> & ->). exists c, l. split; [reflexivity|]. apply reload1_spec.
  apply (log_wf n evs cfgl cmdl w c EReconf l Hh). exists (newer ++ [(reload1 c, EReconfEnd)]). rewrite Hl, <- app_assoc. reflexivity.
Qed.
Lemma reload_ends_lem n evs cfgl cmdl w c older : history n evs cfgl cmdl w -> happened w c EReconf older ->
  exists c', happened w c' EReconfEnd ((c, EReconf) :: older).
Proof.
  intros Hh (newer & Hl). destruct (history_lokt _ _ _ _ _ Hh) as [HL HT]. rewrite Hl in HL, HT.
  destruct newer as [|[c' x] newer] using rev_ind; [exfalso; apply HT; exact I|].
  rewrite <- app_assoc in HL. apply lok_app in HL. cbn [List.app lok] in HL. destruct HL as [H _].
  assert (x = EReconfEnd) by (destruct x; try reflexivity; exfalso; apply H; exact I). subst x.
  exists c', newer. rewrite Hl, <- app_assoc. reflexivity.
Qed.

Lemma removed_lem n evs cfgl cmdl w s : history n evs cfgl cmdl w -> In s (k_svcs (wc w)) -> s_removed s = true ->
  exists c0, last_read (wl w) = Some c0 /\ forall r, the_entry c0 s r -> ~ taken c0 r.
Proof.
  intros Hh Hs Hr. destruct (history_lokt _ _ _ _ _ Hh) as [_ HT].
  destruct (history_Qd (fun _ => True) (or_introl (fun _ => I)) n evs cfgl cmdl w (fun _ _ => I) Hh) as [_ Q].
  exact (db_r _ _ _ (Q HT) s Hs Hr).
Qed.

Lemma log_Db n evs cfgl cmdl w c x older : no_hup_by_hand evs -> history n evs cfgl cmdl w ->
  happened w c x older -> x <> EReconfEnd -> Db (fun _ => False) c older.
Proof.
  intros HE Hh (newer & Hl) Hx. destruct (history_lokt _ _ _ _ _ Hh) as [HL HT]. rewrite Hl in HL. apply lok_app in HL.
  destruct (history_Qd (fun _ => False) (or_intror (fun _ X => X)) n evs cfgl cmdl w (fun k => HE k) Hh) as [Q _].
  apply (Q newer c x older Hl). cbn [lok] in HL. destruct HL as [H _]. destruct x; try exact H. congruence.
Qed.

Lemma agg_lost c s : agg c s = COff -> cond_lost c s.
Proof.
  intros H. apply (proj1 (agg_off _ _ _)) in H. destruct H as [H|H]; [discriminate H|exact H].
Qed.
Lemma lost_agg c s : cond_lost c s -> agg c s = COff.
Proof. intros H. apply (proj2 (agg_off _ _ _)). right. exact H. Qed.
Lemma rec_in c k s : lookup_svc c k = Some s -> In s (recs c) /\ s_key s = k.
Proof. intros H. apply lookup_record in H. exact H. Qed.

Lemma hup_lem n evs cfgl cmdl w k p c older : no_hup_by_hand evs -> history n evs cfgl cmdl w ->
  happened w c (EKill k p 1) older ->
  exists s, record_at c k s /\ s_pid s = p /\
    (s_state s = Running /\ may_start c s /\ conds_on c s /\ c_sighup (s_cf s) = true /\ touched older k /\ s_adirty s = false \/
     c_sighalt (s_cf s) = 1).
Proof.
  intros HE Hh Hp. destruct (happened_during _ _ _ _ _ _ _ _ Hh Hp) as (e & Hd).
  assert (He : In e evs) by (destruct Hd as (b & a & w1 & w2 & nn & rr & -> & _); apply in_or_app; right; left; reflexivity).
  apply during_facts in Hd. cbn [fact] in Hd.
  assert (HD := log_Db _ _ _ _ _ _ _ _ HE Hh Hp ltac:(discriminate)).
  inversion Hd; subst; try (exfalso; eapply HE; eassumption).
  - exists s. split; [apply lookup_record; assumption|]. split; [reflexivity|]. right. congruence.
  - destruct (rec_in _ _ _ H) as [R1 R2]. exists s. split; [apply lookup_record; assumption|]. split; [reflexivity|]. left.
    split; [assumption|]. split; [apply enabled_may_start; assumption|]. split; [apply agg_conds_on; assumption|]. split; [assumption|].
    rewrite <- R2. split; [|assumption]. apply (db_d _ _ _ HD s R1); [exact (fun X => X)|assumption].
Qed.

Lemma stop_why e c older s : Db (fun _ => False) c older -> In s (recs c) -> stopwhy e c s -> why_stopped e c older s.
Proof.
  intros HD HR [H|H|H1 H2|H|H].
  - apply ws_may_not. intros X. apply may_enabled in X. congruence.
  - apply ws_condition, agg_lost, H.
  - apply ws_changed; [apply (db_d _ _ _ HD s HR); [exact (fun X => X)|exact H1]|].
    apply orb_prop in H2. destruct H2 as [H2|H2]; [left; apply noreload_no, H2|right].
    apply (db_a _ _ _ HD s HR); [exact (fun X => X)|exact H2].
  - apply ws_may_not. intros [_ X _ _ _]. congruence.
  - apply ws_asked, H.
Qed.

Lemma leaves_running_lem n evs cfgl cmdl e k new c older : tame evs -> no_hup_by_hand evs ->
  during n evs cfgl cmdl e c (EState k Running new) older ->
  exists s, record_at c k s /\ s_state s = Running /\
    (new = Paused /\ ~ conds_on c s /\ ~ cond_lost c s \/ s_pid s = 0 \/ why_stopped e c older s).
Proof.
  intros HT HE Hd. pose proof (during_facts_tame _ _ _ _ _ _ _ _ HT Hd) as F. cbn [fact] in F.
  destruct F as (s & A & B & C & D & F).
  destruct (rec_in _ _ _ A) as [R1 R2].
  assert (HD : Db (fun _ => False) c older).
  { destruct Hd as (b & a & w1 & w2 & nn & rr & Ee & Hb & Ho & Hl & _).
    assert (Hh2 : history n (b ++ [e]) cfgl cmdl w2).
    { unfold history in *. rewrite run_app. unfold bind. rewrite Hb. rewrite run_one. exact Ho. }
    eapply (log_Db n (b ++ [e]) cfgl cmdl w2); [|exact Hh2|exists nn; exact Hl|discriminate].
    intros j Hj. apply (HE j). rewrite Ee. apply in_app_iff in Hj. apply in_app_iff. destruct Hj as [Hj|[Hj|[]]]; [left; exact Hj|right; left; exact Hj]. }
  exists s. split; [apply lookup_record, A|]. split; [exact B|].
  assert (SW := stop_why e c older s HD R1).
  inversion F; subst; try congruence;
    try (right; right; apply SW; assumption); try (right; left; assumption);
    try (exfalso; match goal with H : True -> _ |- _ => destruct (H Logic.I) as (X1 & X2); congruence end).
  - exfalso. match goal with H : True -> _ |- _ => destruct (H Logic.I) as (_ & _ & [X|X]); congruence end.
  - left. split; [reflexivity|]. split.
    + intros X. assert (Y : agg c s = COn) by (apply (proj2 (agg_on _ _ _)); split; [reflexivity|exact X]). congruence.
    + intros X. apply lost_agg in X. congruence.
Qed.
