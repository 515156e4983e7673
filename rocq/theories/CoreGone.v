(** C52: what is no longer configured goes away.  The steps that mark stanzas for
    deletion are taken while the configuration is read, and a change of runlevel or a
    reload does not end before everything marked is gone. *)
From Coq Require Import List String Ascii ZArith NArith Bool Lia Arith.
From Verif Require Import CondModel CoreTypes CoreModel CoreTame CoreLib CoreSpec CoreMicro CoreExec CoreCalm CoreLog CoreAny CoreProof CoreSpecE CoreReloadB CoreReloadC.
Import ListNotations.
Local Open Scope Z_scope.

Definition unmarked (c : core) : Prop := forall s, In s (k_svcs c) -> s_removed s = false.
Section Step.
Variables (a : smst) (b : Z) (R : Prop).
Definition Kx (w : world) : Prop := k_sm (wc w) = a /\ k_rl (wc w) = b /\ (R -> unmarked (wc w)).
Lemma Kx_emit x w : Kx w -> Kx (wemit x w).
Proof. exact (fun H => H). Qed.
Definition tidy (f : svc -> svc) : Prop := forall s, s_removed s = false -> s_removed (f s) = false.
Lemma Kx_upd k f w : tidy f -> Kx w -> Kx (wupd k f w).
Proof.
  intros Hf (A & B & C). split; [exact A|]. split; [exact B|]. intros r s Hs. specialize (C r). unfold wupd in Hs. cbn in Hs.
  unfold map_key in Hs. apply in_map_iff in Hs. destruct Hs as (t & <- & Ht). destruct (_ =? _)%nat; auto.
Qed.
Lemma Kx_all f w : (forall c, tidy (f c)) -> Kx w -> Kx (wmod (f_all f) w).
Proof.
  intros Hf (A & B & C). split; [exact A|]. split; [exact B|]. intros r s Hs. specialize (C r). unfold f_all in Hs. cbn in Hs.
  apply in_map_iff in Hs. destruct Hs as (t & <- & Ht). apply Hf, C, Ht.
Qed.
Lemma Kx_mod g w : k_sm (g (wc w)) = k_sm (wc w) -> k_rl (g (wc w)) = k_rl (wc w) -> incl (k_svcs (g (wc w))) (k_svcs (wc w)) -> Kx w -> Kx (wmod g w).
Proof. intros E1 E2 E3 (A & B & C). split; [cbn; congruence|]. split; [cbn; congruence|]. intros r s Hs. exact (C r s (E3 s Hs)). Qed.
Lemma Kx_modc g w : (forall c, k_sm (g c) = k_sm c) -> (forall c, k_rl (g c) = k_rl c) -> (forall c, k_svcs (g c) = k_svcs c) -> Kx w -> Kx (wmod g w).
Proof. intros E1 E2 E3. apply Kx_mod; [apply E1|apply E2|]. rewrite E3. apply incl_refl. Qed.
Lemma Kx_went k new w : Kx w -> Kx (went k new w).
Proof.
  intros H. unfold went. destruct (lookup_svc (wc w) k) as [s|]; [|exact H]. unfold wenter. cbv zeta.
  assert (G : forall w1, Kx w1 -> Kx (if st_eqb (s_state s) new then w1
           else wupd k (set_s_state new) (wemit (EState k (s_state s) new) w1))).
  { intros w1 H1. destruct (st_eqb (s_state s) new); [exact H1|]. apply Kx_upd; [exact (fun _ x => x)|]. exact H1. }
  apply G. destruct (st_eqb new Stopping); [|exact H]. unfold wtimeout, wcancel.
  apply Kx_upd; [exact (fun _ x => x)|]. apply Kx_upd; [|apply Kx_upd; [exact (fun _ x => x)|exact H]].
  intros t Ht. unfold f_timeout. destruct (_ =? 0); [exact Ht|]. destruct (s_timer t); exact Ht.
Qed.
Lemma Kx_del k w : Kx w -> Kx (wmod (c_del k) w).
Proof.
  apply Kx_mod; unfold c_del; destruct (find_key k (k_svcs (wc w))); try reflexivity; [|apply incl_refl].
  cbn. intros t Ht. apply filter_In in Ht. tauto.
Qed.
End Step.

Ltac ti := let s := fresh "s" in let Hs := fresh "Hs" in intros s Hs;
  first [ exact Hs
        | unfold f_rtot, f_incr, f_retry, f_giveup, f_timeout, f_cleanup, f_clean, f_affected; cbv zeta;
          repeat match goal with |- context [if ?b then _ else _] => destruct b
                 | |- context [match s_timer ?s with _ => _ end] => destruct (s_timer s) end; exact Hs ].
Ltac kx1 :=
  lazymatch goal with
  | |- Kx _ _ _ (wemit _ _) => apply Kx_emit
  | |- Kx _ _ _ (went _ _ _) => apply Kx_went
  | |- Kx _ _ _ (wupd _ _ _) => apply Kx_upd; [ti|]
  | |- Kx _ _ _ (wmod (c_del _) _) => apply Kx_del
  | |- Kx _ _ _ (wmod _ _) => apply Kx_modc; [intros ?; reflexivity|intros ?; reflexivity|intros ?; reflexivity|]
  | |- Kx _ _ _ (if ?b then _ else _) => destruct b
  | |- Kx _ _ _ (match ?b with _ => _ end) => destruct b
  | H : Kx ?a ?b ?R ?w |- Kx ?a ?b ?R ?w => exact H
  end.
Ltac kxs := unfold w_aux, w_collect, w_forked, w_done, w_prep, wfork_ok, wcleanup, wclean, wcancel, wblock, wtimeout, wscript, wcond, wfork_fail;
  cbv zeta; repeat kx1.

Inductive moved (w w' : world) : Prop :=
  | mv_same : Kx (k_sm (wc w)) (k_rl (wc w)) (~ loading (wc w) /\ unmarked (wc w)) w' -> moved w w'
  | mv_sm s : sm_edge w s -> w' = wmod (set_k_sm s) w -> moved w w'
  | mv_reload : k_sm (wc w) = SmRunning -> k_sm (wc w') = SmReChange -> moved w w'
  | mv_level : k_sm (wc w) = SmRlChange -> k_sm (wc w') = SmRlChange -> moved w w'.

Lemma moved_micro e w w' : micro True e w w' -> moved w w'.
Proof.
  intros Hm.
  assert (H : Kx (k_sm (wc w)) (k_rl (wc w)) (~ loading (wc w) /\ unmarked (wc w)) w).
  { split; [reflexivity|]. split; [reflexivity|]. intros [_ X]; exact X. }
  destruct Hm;
    match goal with
    | |- moved _ (wmod (set_k_sm _) w) => idtac
    | |- moved _ (wmod (set_k_sm _) _) => idtac
    | |- moved _ (wmod c_rlchange _) => idtac
    | _ => apply mv_same
    end; try (kxs; fail).
  - subst w1. kxs.
  - split; [reflexivity|]. split; [reflexivity|]. intros [X _]. destruct (X (H0 Logic.I)).
  - split; [reflexivity|]. split; [reflexivity|]. intros [_ X] s Hs. cbn in Hs. apply in_app_or in Hs.
    destruct Hs as [Hs|[<-|[]]]; [exact (X s Hs)|]. unfold fresh_svc, f_fin. cbv zeta.
    repeat match goal with |- context [if ?b then _ else _] => destruct b end; reflexivity.
  - apply Kx_upd; [|exact H]. intros t Ht. unfold f_rereg, f_fin. cbv zeta.
    repeat match goal with |- context [if ?b then _ else _] => destruct b end; reflexivity.
  - apply Kx_all; [intros _; ti|exact H].
  - split; [reflexivity|]. split; [reflexivity|]. intros [X _]. destruct (X (H1 Logic.I)).
  - eapply mv_sm; [exact (H0 Logic.I)|reflexivity].
  - apply mv_reload; [exact (H0 Logic.I)|reflexivity].
  - apply mv_level; [exact H0|exact H0].
  - apply Kx_mod; [| | |exact H]; unfold c_nologin; cbv zeta;
    destruct (_ || _); cbn [k_prev set_k_nologin]; destruct (_ || _); try reflexivity; apply incl_refl.
  - apply Kx_all; [|exact H]. intros _ s Hs. destruct (_ && _); exact Hs.
Qed.

Record Jg (w : world) : Prop := {
  j_boot : k_sm (wc w) = SmBootstrap \/ k_sm (wc w) = SmBootstrapWait -> k_rl (wc w) = 10;
  j_gone : k_sm (wc w) = SmRunning -> k_rl (wc w) <> 10 -> unmarked (wc w)
}.

Lemma nodup_left {A} (l r : list A) : NoDup (l ++ r) -> NoDup l.
Proof. induction l as [|x l IH]; [constructor|]. cbn. intros H. inversion H; subst. constructor; [|auto]. intros X. apply H2, in_or_app. auto. Qed.

Lemma Jg_moved w w' : NoDup (map s_key (recs (wc w))) -> moved w w' -> Jg w -> Jg w'.
Proof.
  intros HN [(A & B & C)|s He ->|H1 H2|H1 H2] [J1 J2].
  - constructor.
    + rewrite A, B. exact J1.
    + rewrite A, B. intros H1 H2. apply C. split; [|exact (J2 H1 H2)].
      intros [X|[X|X]]; congruence.
  - constructor; cbn [wc wmod k_sm k_rl k_svcs set_k_sm].
    + intros [-> | ->]; unfold sm_edge in He; destruct (k_sm (wc w)) eqn:Es; try destruct He; apply J1; auto.
    + intros -> Hr. unfold sm_edge in He. destruct (k_sm (wc w)) eqn:Es; try (destruct He; fail).
      * destruct Hr. apply J1. auto.
      * intros t Ht. apply (He (s_key t) t). apply nodup_find; [|exact Ht]. unfold recs in HN. rewrite map_app in HN. apply nodup_left in HN; exact HN.
      * intros t Ht. apply (He (s_key t) t). apply nodup_find; [|exact Ht]. unfold recs in HN. rewrite map_app in HN. apply nodup_left in HN; exact HN.
  - constructor; rewrite H2; [intros [X|X]; discriminate X|discriminate].
  - constructor; rewrite H2; [intros [X|X]; discriminate X|discriminate].
Qed.

Lemma run_Jg evs (HT : tame evs) n l w0 w : incl l evs -> run n l w0 = Some (tt, w) ->
  binv evs w0 -> at_rest w0 -> uinv w0 -> Jg w0 -> Jg w.
Proof.
  revert w0. induction l as [|e l IH]; intros w0 Hi Hr Hb Ha HU HJ.
  - cbn in Hr. inversion Hr; subst. auto.
  - cbn [run] in Hr. unfold bind at 1 in Hr. destruct (on_event n e w0) as [[[] w1]|] eqn:E1; [|discriminate].
    assert (He : In e evs) by (apply Hi; left; reflexivity).
    destruct (event_tame evs HT n e w0 w1 He Hb Ha E1) as [R Ha1].
    assert (Hb1 : binv evs w1).
    { clear - HT He Hb R. revert w1 R. apply (reach_ind True (eq e) (fun w1 => binv evs w1)); [exact Hb|].
      intros e1 v v' <- Hm _ Hv. apply (inv_micro evs HT e v v' He Hm Hv). }
    assert (HU1 : uinv w1) by exact (reach_uinv True (eq e) w0 w1 HU R).
    apply (IH w1); auto; [intros x Hx; apply Hi; right; exact Hx|].
    clear - HU HJ R. revert w1 R. apply (reach_ind True (eq e) (fun w1 => Jg w1)); [exact HJ|].
    intros e1 v v' _ Hm Hv IHv. apply (Jg_moved v v'); [|exact (moved_micro _ _ _ Hm)|exact IHv].
    exact (u_nodup _ (u_now _ (reach_uinv True (eq e) w0 v HU Hv))).
Qed.

Lemma gone_lem n evs cfgl cmdl w s : tame evs -> history n evs cfgl cmdl w ->
  k_sm (wc w) = SmRunning -> k_rl (wc w) <> 10 -> In s (k_svcs (wc w)) -> s_removed s = false.
Proof.
  intros HT Hh Hs Hr Hi. refine (j_gone _ _ Hs Hr s Hi).
  eapply (run_Jg evs HT n evs); [apply incl_refl|exact Hh|apply inv_init|apply rest_init|apply uinv_init|].
  constructor; cbn; [reflexivity|discriminate].
Qed.

Lemma configured_lem n evs cfgl cmdl w s : history n evs cfgl cmdl w -> In s (k_svcs (wc w)) ->
  s_removed s = true \/ s_protect s = true \/
  exists c r, last_read (wl w) = Some c /\ In r (k_conf c) /\ names r s.
Proof.
  intros Hh Hi. destruct (history_Qd (fun _ => True) (or_introl (fun _ => Logic.I)) n evs cfgl cmdl w (fun _ _ => Logic.I) Hh) as [_ Q].
  destruct (history_lokt _ _ _ _ _ Hh) as [_ Ht].
  exact (db_k _ _ _ (Q Ht) s Hi).
Qed.

Lemma gone_configured_lem n evs cfgl cmdl w s : tame evs -> history n evs cfgl cmdl w ->
  k_sm (wc w) = SmRunning -> k_rl (wc w) <> 10 -> In s (k_svcs (wc w)) ->
  s_removed s = false /\
  (s_protect s = true \/ exists c r, last_read (wl w) = Some c /\ In r (k_conf c) /\ names r s).
Proof.
  intros HT Hh Hs Hr Hi. pose proof (gone_lem _ _ _ _ _ _ HT Hh Hs Hr Hi) as X. split; [exact X|].
  destruct (configured_lem _ _ _ _ _ _ Hh Hi) as [Y|Y]; [congruence|exact Y].
Qed.
