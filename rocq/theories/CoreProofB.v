(** Proofs about every history of the supervisor: C07, C12, C21. *)
From Coq Require Import List String Ascii ZArith NArith Bool Lia Arith Relations.
From Coq Require Import ZifyBool ZifyNat.
From Verif Require Import CondModel CondProof CoreTypes CoreModel CoreLib CoreMicro CoreExec CoreCalm CoreLog
  CoreSpec CoreAny CoreProof CoreProc.
Import ListNotations.
Local Open Scope Z_scope.

Lemma history_ginv n evs cfgl cmdl w : history n evs cfgl cmdl w -> ginv (pidfile_names evs) w.
Proof.
  intros H. apply run_any in H. eapply reach_ginv; [|apply ginv_init|exact H]. intros k p Hp. exact Hp.
Qed.
Lemma happened_gbase n evs cfgl cmdl w c x older :
  history n evs cfgl cmdl w -> happened w c x older -> gbase (pidfile_names evs) (mkWorld c older).
Proof. intros Hh (newer & Hl). eapply g_hist; [eapply history_ginv, Hh|exact Hl]. Qed.

(** ** C07 *)

Lemma mfork_started l p k t : mfork p l = Some (k, t) -> started_as l k p t.
Proof.
  induction l as [|[c x] l IH]; [discriminate|].
  assert (G : mfork p l = Some (k, t) -> (forall k', x <> EFork k' FMain p) -> started_as ((c, x) :: l) k p t).
  { intros H Hx. destruct (IH H) as (nn & c1 & s1 & oo & A & B & C). exists ((c, x) :: nn), c1, s1, oo.
    rewrite A. split; [reflexivity|]. split; [|exact C]. intros c' k' [E|E]; [inversion E; subst; eapply Hx; reflexivity|eapply B, E]. }
  intros H. destruct x; try (apply G; [exact H|discriminate]).
  destruct f; try (apply G; [exact H|discriminate]). cbn [mfork] in H.
  destruct (pid =? p) eqn:E.
  - destruct (lookup_svc c k0) as [s|] eqn:El; [|discriminate]. inversion H; subst. apply Z.eqb_eq in E. subst pid.
    exists [], c, s, l. split; [reflexivity|]. split; [intros ? ? []|]. split; [apply lookup_record, El|reflexivity].
  - apply G; [exact H|]. intros k' X. inversion X; subst. lia.
Qed.

Theorem run_serialised_lem n evs cfgl cmdl w k p c older :
  history n evs cfgl cmdl w -> happened w c (EFork k FMain p) older ->
  forall p0 k0, In (p0, k0) (k_mains c) -> exists t, started_as older k0 p0 t /\ t <> TRun.
Proof.
  intros Hh Hp p0 k0 Hin. destruct (g_mains _ _ (happened_gbase _ _ _ _ _ _ _ _ Hh Hp) p0 k0 Hin) as ([A1 _] & t & A2 & A3).
  exists t. split; [apply mfork_started, A2|]. intros E. specialize (A3 E). cbn [wc] in A3.
  destruct (happened_facts _ _ _ _ _ _ _ _ Hh Hp) as (e & _ & _ & s & _ & _ & _ & _ & B & _). lia.
Qed.

(** ** C12 *)

Lemma own_belongs evs l k p : own (pidfile_names evs) l k p ->
  p = 0 \/ p = -1 /\ (exists c f, In (c, EForkFail k f) l) \/ belongs evs l k p.
Proof.
  intros [E|[(E & c & f & A)|[(E & c & f & A & B)|E]]].
  - auto.
  - right. right. left. split; [exact E|]. exists c, f. exact A.
  - right. left. split; [exact E|]. exists c, f. exact A.
  - right. right. right. exact E.
Qed.

Theorem kill_target_lem n evs cfgl cmdl w k p sig c older :
  history n evs cfgl cmdl w -> happened w c (EKill k p sig) older ->
  belongs evs older k p \/
  belongs evs older k (- p) /\ p < -1 /\ sig = 9 \/
  (p = 0 \/ p = -1 /\ exists c' f, In (c', EForkFail k f) older) /\
  (In (EvSignal k sig) evs \/ (sig = 18 \/ sig = 19) /\ exists s, record_at c k s /\ (s_state s = Running \/ s_state s = Paused)).
Proof.
  intros Hh Hp. destruct (happened_facts _ _ _ _ _ _ _ _ Hh Hp) as (e & He & F).
  pose proof (happened_gbase _ _ _ _ _ _ _ _ Hh Hp) as [_ _ _ G4 G5]. cbn [wc wl] in *.
  assert (G : forall s, lookup_svc c k = Some s ->
     s_pid s = 0 \/ s_pid s = -1 /\ (exists c f, In (c, EForkFail k f) older) \/ belongs evs older k (s_pid s)).
  { intros s Hs. apply own_belongs. apply lookup_in in Hs. destruct Hs as [A <-]. apply G4, A. }
  destruct F.
  - destruct (G _ H) as [E|[[E _]|E]]; [lia|lia|auto].
  - destruct (G _ H) as [E|[E|E]]; [contradiction|right; right|auto].
    split; [auto|]. right. split; [auto|]. exists s. split; [apply lookup_record, H|auto].
  - destruct (G _ H) as [E|[E|E]]; [right; right|right; right|auto];
    (split; [auto|]; right; split; [auto|]; exists s; split; [apply lookup_record, H|auto]).
  - destruct (G _ H) as [E|[[E _]|E]]; [lia|lia|auto].
  - destruct (G _ H) as [E|[[E _]|E]]; [lia|lia|auto].
  - destruct (G _ H) as [E|[[E _]|E]]; [lia|lia|auto].
  - left. destruct (G5 _ _ H) as (_ & c1 & A). left. split; [assumption|]. exists c1, FReady. exact A.
  - right. left. rewrite Z.opp_involutive. apply find_pid_lookup in H. destruct H as [A B].
    split; [|split; [lia|reflexivity]].
    destruct (own_belongs _ _ _ _ (G4 s (in_or_app _ _ _ (or_introl A)))) as [E|[[E _]|E]]; [lia|lia|].
    rewrite H0, B in E. exact E.
  - right. left. rewrite Z.opp_involutive. destruct (G5 _ _ H) as (_ & c1 & A). split; [|split; [lia|reflexivity]].
    left. split; [assumption|]. exists c1, FReady. exact A.
  - destruct (G _ H) as [E|[E|E]]; [right; right|right; right|auto]; (split; [auto|]; left; subst e; exact He).
Qed.

(** ** C21 *)

Theorem runlevel_lem n evs cfgl cmdl w :
  history n evs cfgl cmdl w ->
  k_rl (wc w) = level_of (wl w) /\ k_prev (wc w) = previous_level (wl w) /\
  forall c x older, happened w c x older ->
    k_rl c = level_of older /\
    (forall old new, x = ERunlevel old new -> old = level_of older) /\
    (forall s, x = EShutdown s -> s = k_halt c /\
       (level_of older = 0 \/ level_of older = 6 \/ k_emerg c = true)).
Proof.
  intros Hh. pose proof (history_ginv _ _ _ _ _ Hh) as [[G1 G2 _ _ _] _]. split; [exact G1|]. split; [exact G2|].
  intros c x older Hp. pose proof (happened_gbase _ _ _ _ _ _ _ _ Hh Hp) as [B1 B2 _ _ _]. cbn [wc wl] in *.
  split; [exact B1|]. split.
  - intros old new ->. destruct (happened_facts _ _ _ _ _ _ _ _ Hh Hp) as (e & _ & F). cbn in F. intuition congruence.
  - intros s ->. destruct (happened_facts _ _ _ _ _ _ _ _ Hh Hp) as (e & _ & F). cbn in F. rewrite <- B1.
    intuition congruence.
Qed.
