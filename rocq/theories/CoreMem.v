(** C40: when no stanza has a ready: script and none is for runlevel S alone,
    no callback ever gets a record that was freed. *)
From Coq Require Import List String Ascii ZArith NArith Bool Lia Arith Relations.
From Coq Require Import ZifyBool ZifyNat.
From Verif Require Import CondModel CoreTypes CoreModel CoreLib CoreMicro CoreExec CoreCalm CoreLog
  CoreSpec CoreSpecB CoreAny CoreConf.
Import ListNotations.
Local Open Scope Z_scope.

Definition unarmed (t : tmr) : Prop := forall cb ms, t <> TmArmed cb ms.
Definition fine (s : svc) : Prop := (s_state s = Dead \/ s_state s = Done) /\ unarmed (s_timer s).
Record minv (w : world) : Prop := {
  mi_gc : forall s, In s (k_gc (wc w)) -> fine s;
  mi_freed : forall k t, In (k, t) (k_freed (wc w)) -> unarmed t;
  mi_assoc : k_assoc (wc w) = [];
  mi_log : forall c k, ~ In (c, EUaf k) (wl w)
}.
Definition gone_key (k : nat) (w : world) : Prop := In k (map s_key (k_gc (wc w))).

Lemma minv_emit x w : (forall k, x <> EUaf k) -> minv w -> minv (wemit x w).
Proof.
  intros Hx [H1 H2 H3 H4]. constructor; [exact H1|exact H2|exact H3|].
  intros c k [E|E]; [injection E as _ E; exact (Hx k E)|exact (H4 c k E)].
Qed.
Lemma minv_mod g w : (forall c, k_gc (g c) = k_gc c) -> (forall c, k_freed (g c) = k_freed c) ->
  (forall c, k_assoc (g c) = k_assoc c) -> minv w -> minv (wmod g w).
Proof.
  intros A B C [H1 H2 H3 H4]. constructor; cbn [wc wmod]; rewrite ?A, ?B, ?C; assumption.
Qed.
Lemma minv_upd k f w : (forall s, fine s -> fine (f s)) -> minv w -> minv (wupd k f w).
Proof.
  intros Hf [H1 H2 H3 H4]. constructor; [|exact H2|exact H3|exact H4].
  intros s Hs. apply in_map_key in Hs. destruct Hs as (t & A & [[_ ->]|[_ ->]]); [apply Hf, H1, A|apply H1, A].
Qed.
Lemma minv_upd_free k f w : ~ gone_key k w -> minv w -> minv (wupd k f w).
Proof.
  intros Hk [H1 H2 H3 H4]. constructor; [|exact H2|exact H3|exact H4].
  intros s Hs. apply in_map_key in Hs. destruct Hs as (t & A & [[B ->]|[_ ->]]); [|apply H1, A].
  exfalso. apply Hk. rewrite <- B. apply in_map, A.
Qed.
Lemma gone_upd j k f w : (forall s, s_key (f s) = s_key s) -> gone_key j (wupd k f w) -> gone_key j w.
Proof.
  intros Hf. unfold gone_key, wupd, cupd. cbn [wc wmod k_gc set_k_gc set_k_svcs].
  rewrite map_key_keys by exact Hf. auto.
Qed.
Lemma gone_mod j g w : (forall c, k_gc (g c) = k_gc c) -> gone_key j (wmod g w) -> gone_key j w.
Proof. unfold gone_key. cbn [wc wmod]. intros ->. exact (fun x => x). Qed.
Lemma gone_emit j x w : gone_key j (wemit x w) -> gone_key j w.
Proof. auto. Qed.

Ltac keyq := let s := fresh "s" in intros s;
  first [ reflexivity
        | unfold f_rtot, f_incr, f_retry, f_giveup, f_timeout; cbv zeta;
          repeat match goal with |- context [if ?b then _ else _] => destruct b
                 | |- context [match s_timer ?s with _ => _ end] => destruct (s_timer s) end; reflexivity ].

Lemma gone_went j k n w : gone_key j (went k n w) -> gone_key j w.
Proof.
  unfold went. destruct (lookup_svc (wc w) k) as [s|] eqn:El; [|auto].
  unfold wenter. cbv zeta.
  assert (G : forall w1, (gone_key j w1 -> gone_key j w) -> gone_key j (if st_eqb (s_state s) n then w1
           else wupd k (set_s_state n) (wemit (EState k (s_state s) n) w1)) -> gone_key j w).
  { intros w1 H1. destruct (st_eqb (s_state s) n); [exact H1|]. intros H. apply H1. apply gone_upd in H; [exact H|keyq]. }
  apply G. destruct (st_eqb n Stopping); [|auto]. unfold wtimeout, wcancel. intros H.
  repeat (apply gone_upd in H; [|keyq]). exact H.
Qed.

Lemma minv_went_free k n w : ~ gone_key k w -> minv w -> minv (went k n w).
Proof.
  intros Hk H. unfold went. destruct (lookup_svc (wc w) k) as [s|] eqn:El; [|exact H].
  unfold wenter. cbv zeta.
  assert (G : forall w1, ~ gone_key k w1 -> minv w1 -> minv (if st_eqb (s_state s) n then w1
           else wupd k (set_s_state n) (wemit (EState k (s_state s) n) w1))).
  { intros w1 K1 H1. destruct (st_eqb (s_state s) n); [exact H1|]. apply minv_upd_free; [exact K1|].
    apply minv_emit; [discriminate|exact H1]. }
  destruct (st_eqb n Stopping); [|apply G; assumption].
  assert (K2 : ~ gone_key k (wcancel k w)).
  { intros X. apply Hk. refine (gone_upd _ _ _ _ _ X). keyq. }
  assert (K3 : ~ gone_key k (wtimeout k (c_killdelay (s_cf s)) TcKill (wcancel k w))).
  { intros X. apply K2. refine (gone_upd _ _ _ _ _ X). keyq. }
  apply G.
  - intros X. apply K3. refine (gone_upd _ _ _ _ _ X). keyq.
  - apply minv_upd_free; [exact K3|]. unfold wtimeout. apply minv_upd_free; [exact K2|]. apply minv_upd_free; assumption.
Qed.
Lemma minv_fork k f p w : minv w -> minv (wfork_ok k f p w).
Proof.
  intros H. unfold wfork_ok. do 2 (apply minv_mod; [destruct f; intros ?; reflexivity|destruct f; intros ?; reflexivity|destruct f; intros ?; reflexivity|]).
  apply minv_emit; [discriminate|]. apply minv_mod; [intros ?; reflexivity|intros ?; reflexivity|intros ?; reflexivity|exact H].
Qed.
Lemma gone_fork j k f p w : gone_key j (wfork_ok k f p w) -> gone_key j w.
Proof. unfold gone_key, wfork_ok. destruct f; exact (fun x => x). Qed.

Lemma gone_forked j k s p w : gone_key j (w_forked k s p w) -> gone_key j w.
Proof.
  unfold w_forked, w_prep. cbv zeta. intros H.
  assert (X : gone_key j (wupd k (set_s_pid p) (wfork_ok k FMain p (wupd k f_rtot (wupd k (set_s_starting true) w))))).
  { destruct (uses_socket s), (is_run_t (ty s)); exact H. }
  clear H. refine (gone_upd _ _ _ _ _ (gone_upd _ _ _ _ _ (gone_fork _ _ _ _ _ (gone_upd _ _ _ _ _ X)))); keyq.
Qed.
Lemma minv_forked k s p w : ~ gone_key k w -> minv w -> minv (w_forked k s p w).
Proof.
  intros Hk H. unfold w_forked, w_prep. cbv zeta.
  assert (K1 : ~ gone_key k (wupd k (set_s_starting true) w)).
  { intros X. apply Hk. refine (gone_upd _ _ _ _ _ X). keyq. }
  assert (K2 : ~ gone_key k (wupd k f_rtot (wupd k (set_s_starting true) w))).
  { intros X. apply K1. refine (gone_upd _ _ _ _ _ X). keyq. }
  assert (X : minv (wupd k (set_s_pid p) (wfork_ok k FMain p (wupd k f_rtot (wupd k (set_s_starting true) w))))).
  { apply minv_upd_free; [intros Y; exact (K2 (gone_fork _ _ _ _ _ Y))|]. apply minv_fork.
    apply minv_upd_free; [exact K1|]. apply minv_upd_free; [exact Hk|exact H]. }
  assert (Y : minv (if uses_socket s then wmod (fun c => set_k_notes (tl (k_notes c)) c)
     (wupd k (set_s_pid p) (wfork_ok k FMain p (wupd k f_rtot (wupd k (set_s_starting true) w))))
     else wupd k (set_s_pid p) (wfork_ok k FMain p (wupd k f_rtot (wupd k (set_s_starting true) w))))).
  { destruct (uses_socket s); [|exact X]. apply minv_mod; [intros ?; reflexivity|intros ?; reflexivity|intros ?; reflexivity|exact X]. }
  destruct (is_run_t (ty s)); [|exact Y]. apply minv_mod; [intros ?; reflexivity|intros ?; reflexivity|intros ?; reflexivity|exact Y].
Qed.
Ltac fineq := let s := fresh "s" in let H1 := fresh "H" in let H2 := fresh "H" in
  intros s [H1 H2]; unfold f_clean, f_cleanup, f_rtot, f_incr, f_retry, f_giveup; cbv zeta;
  repeat match goal with |- context [if ?b then _ else _] => destruct b end;
  split; cbn; first [exact H1 | exact H2 | intros ? ?; discriminate].
(* the record is not a removed one *)
Ltac nog :=
  match goal with
  | H : ~ gone_key ?k ?w |- ~ gone_key ?k ?w => exact H
  | |- ~ gone_key _ (if ?b then _ else _) => destruct b; nog
  | |- ~ gone_key _ (wemit _ _) => let X := fresh "X" in intros X; apply gone_emit in X; revert X; nog
  | |- ~ gone_key _ (wupd _ _ _) => let X := fresh "X" in intros X; apply gone_upd in X; [|keyq]; revert X; nog
  | |- ~ gone_key _ (w_forked _ _ _ _) => let X := fresh "X" in intros X; apply gone_forked in X; revert X; nog
  | |- ~ gone_key _ (wmod _ _) => let X := fresh "X" in intros X; apply gone_mod in X; [|intros ?; reflexivity]; revert X; nog
  | |- ~ gone_key _ (went _ _ _) => let X := fresh "X" in intros X; apply gone_went in X; revert X; nog
  | |- ~ gone_key _ (wfork_ok _ _ _ _) => let X := fresh "X" in intros X; apply gone_fork in X; revert X; nog
  | |- gone_key ?k ?w -> False => change (~ gone_key k w); nog
  end.
Ltac mi1 :=
  match goal with
  | H : minv ?w |- minv ?w' => constr_eq w w'; exact H
  | |- minv (wemit _ _) => apply minv_emit; [discriminate|]
  | |- minv (went _ _ _) => apply minv_went_free; [nog|]
  | |- minv (wupd _ (f_rereg _) _) => fail 1
  | |- minv (w_forked _ _ _ _) => apply minv_forked; [nog|]
  | |- minv (wupd _ _ _) => first [apply minv_upd; [fineq|] | apply minv_upd_free; [nog|]]
  | |- minv (wfork_ok _ _ _ _) => apply minv_fork
  | |- minv (wmod (c_del _) _) => fail 1
  | |- minv (wmod c_nologin _) => fail 1
  | |- minv (wmod (fun c => set_k_assoc _ _) _) => fail 1
  | |- minv (wmod (fun c => set_k_freed _ _) _) => fail 1
  | |- minv (wmod _ _) => apply minv_mod; [intros ?; reflexivity|intros ?; reflexivity|intros ?; reflexivity|]
  | |- minv (if ?b then _ else _) => destruct b
  | |- minv (match ?b with _ => _ end) => destruct b
  end.
Ltac mi := unfold w_done, w_prep, wcleanup, wcancel, wblock, wclean, wtimeout, wscript, wcond, wfork_fail; cbv zeta; repeat mi1.

Section Mem.
Variable evs : list ev.
Hypothesis HT : tame evs.
Hypothesis HR : forall r, In r (regs evs) -> c_ready (r_cfg r) = false /\ only_boot (c_levels (r_cfg r)) = false.

Lemma svcs_free w k : binv evs w -> In k (keys (wc w)) -> ~ gone_key k w.
Proof.
  intros B Hk Hg. pose proof (i_nodup _ _ B) as N. unfold recs in N. rewrite map_app in N.
  apply nodup_app_split in N. destruct N as (_ & _ & N). exact (N k Hk Hg).
Qed.
Lemma busy_free w k s : binv evs w -> minv w -> L w k s -> (s_state s <> Dead /\ s_state s <> Done) -> ~ gone_key k w.
Proof.
  intros B M HL [S1 S2]. unfold L in HL. destruct (lookup_in _ _ _ HL) as [Hin Hk].
  apply in_app_or in Hin. destruct Hin as [Hin|Hin].
  - apply svcs_free; [exact B|]. rewrite <- Hk. apply in_map, Hin.
  - exfalso. destruct (mi_gc _ M s Hin) as [[Z|Z] _]; auto.
Qed.
Definition okc (cf : cfg) : Prop := c_ready cf = false /\ only_boot (c_levels cf) = false.
Lemma rec_ok w k s : cinv okc w -> L w k s -> okc (s_cf s).
Proof. intros H HL. apply (cb_recs _ _ (ci_now _ _ H)). apply (proj1 (lookup_in _ _ _ HL)). Qed.


Ltac fr := try
  match goal with
  | F : forall k s, L ?w k s -> s_state s <> Dead -> s_state s <> Done -> ~ gone_key k ?w,
    HL : L ?w ?k ?s, Hs : s_state ?s = _ |- _ =>
      assert (~ gone_key k w) by (apply (F k s HL); rewrite Hs; discriminate)
  | F : forall k s, L ?w k s -> (st_num Stopping < _)%nat -> ~ gone_key k ?w,
    HL : L ?w ?k ?s, Hs : (st_num Stopping < st_num (s_state ?s))%nat |- _ =>
      assert (~ gone_key k w) by (apply (F k s HL Hs))
  | F : forall k s, start_guard _ ?w k s -> ~ gone_key k ?w, HL : start_guard _ ?w ?k ?s |- _ =>
      assert (~ gone_key k w) by (apply (F k s HL))
  | F : forall k, In k (keys (wc ?w)) -> ~ gone_key k ?w, HL : True -> _ |- minv ?w' =>
    match w' with context [went ?k] => assert (~ gone_key k w) by (apply F; exact (HL Logic.I))
    | context [w_done ?k] => assert (~ gone_key k w) by (apply F; exact (HL Logic.I)) end
  | F : forall k, In k (keys (wc ?w)) -> ~ gone_key k ?w, HL : In ?k (keys (wc ?w)) |- _ =>
    assert (~ gone_key k w) by (apply F; exact HL)
  end.

Lemma minv_micro e w w' : binv evs w -> cinv okc w -> micro True e w w' -> minv w -> minv w'.
Proof.
  intros B C Hm H.
  assert (F1 : forall k s, L w k s -> s_state s <> Dead -> s_state s <> Done -> ~ gone_key k w)
    by (intros k s HL A1 A2; eapply busy_free; eauto).
  assert (F2 : forall k, In k (keys (wc w)) -> ~ gone_key k w) by (intros k; apply svcs_free, B).
  assert (F3 : forall k s, find_key k (k_svcs (wc w)) = Some s -> ~ gone_key k w).
  { intros k s E. apply F2. apply find_key_in in E. destruct E as [E <-]. apply in_map, E. }
  assert (F4 : forall k s, start_guard True w k s -> ~ gone_key k w).
  { intros k s (_ & _ & _ & _ & _ & X). apply F2, X, Logic.I. }
  assert (F5 : forall k s, L w k s -> (st_num Stopping < st_num (s_state s))%nat -> ~ gone_key k w).
  { intros k s HL Q. eapply F1; [exact HL| |]; intros Z; rewrite Z in Q; cbn in Q; lia. }
  destruct Hm; try (fr; mi; fail).
  - (* done_wait *) assert (~ gone_key k w) by (apply F2, (H1 Logic.I)). mi.
  - (* stop_tear *) destruct (H3 Logic.I) as [X _]. fr. mi.
  - (* stop_clean *) destruct (H5 Logic.I) as [X _]. fr. mi.
  - (* stop_halt *) destruct (H4 Logic.I) as [X _]. fr. mi.
  - (* aux_ok *) destruct (H2 Logic.I) as (s & HL & G).
    assert (N : ~ gone_key k w).
    { apply (F1 k s HL); intros Z; unfold aux_guard in G; rewrite Z in G;
        destruct f; try exact G; repeat match goal with X : _ /\ _ |- _ => destruct X | X : _ \/ _ |- _ => destruct X end; discriminate. }
    unfold w_aux. cbv zeta.
    assert (N2 : ~ gone_key k (wupd k (set_s_pid p) (wfork_ok k f p w))) by nog.
    assert (X : minv (wupd k (set_s_pid p) (wfork_ok k f p w))) by mi.
    destruct (lookup_svc (wc (wupd k (set_s_pid p) (wfork_ok k f p w))) k) as [s1|] eqn:E1.
    + unfold wtimeout. apply minv_upd_free; assumption.
    + exfalso.
      assert (L (wfork_ok k f p w) k s) by (unfold L, wfork_ok in *; destruct f; exact HL).
      rewrite (lookup_wupd_same _ _ _ s) in E1; [discriminate|reflexivity|assumption].
  - (* run_retry *) destruct (H2 Logic.I) as (_ & _ & X & _). fr. mi.
  - (* sstop_script *) subst w1. fr. mi.
  - (* ready_ok *) exfalso. destruct (rec_ok _ _ _ C H0) as [X _]. rewrite (H2 Logic.I) in X. discriminate.
  - (* ready_uaf *) exfalso. auto.
  - (* uaf *) exfalso. destruct (H1 Logic.I) as (a & cb & ms & _ & E). apply find_some in E.
    destruct E as [E _]. exact (mi_freed _ H _ _ E cb ms eq_refl).
  - (* collect *) assert (N : ~ gone_key (s_key s) w).
    { apply F2. apply in_map. apply (find_pid_in _ _ _ H1). }
    unfold w_collect. mi.
  - (* reap *) assert (N : ~ gone_key (s_key s) w).
    { apply F2. apply in_map. apply (find_pid_in _ _ _ H3). }
    unfold w_collect. mi.
  - (* script_del *) exfalso. rewrite (mi_assoc _ H) in H0. discriminate.
  - (* del_boot *) exfalso. destruct (rec_ok _ _ _ C H0) as [_ X]. congruence.
  - (* unreg *) pose proof (F3 _ _ H0) as N. destruct H as [M1 M2 M3 M4].
    assert (E : k_gc (wc (wcancel k w)) = k_gc (wc w)).
    { cbn [wc wcancel wupd wmod]. unfold cupd. cbn [k_gc set_k_svcs set_k_gc]. unfold map_key.
      rewrite <- (map_id (k_gc (wc w))) at 2. apply map_ext_in. intros t Ht.
      destruct (Nat.eqb (s_key t) k) eqn:Ek; [|reflexivity]. exfalso. apply N. unfold gone_key.
      apply Nat.eqb_eq in Ek. rewrite <- Ek. apply in_map, Ht. }
    assert (E2 : find_key k (k_svcs (wc (wcancel k w))) = Some (set_s_timer TmNone s)).
    { cbn [wc wcancel wupd wmod]. unfold cupd. cbn [k_svcs set_k_svcs]. rewrite find_map_key by reflexivity.
      rewrite Nat.eqb_refl, H0. reflexivity. }
    assert (E3 : k_freed (wc (wcancel k w)) = k_freed (wc w)) by reflexivity.
    assert (E4 : k_assoc (wc (wcancel k w)) = k_assoc (wc w)) by reflexivity.
    assert (E5 : wl (wcancel k w) = wl w) by reflexivity.
    revert E E2 E3 E4 E5. generalize (wcancel k w). intros v E E2 E3 E4 E5.
    rewrite <- E3 in M2. rewrite <- E4 in M3. rewrite <- E5 in M4.
    constructor; cbn [wc wl wmod]; unfold c_del; try rewrite E2; cbn [k_gc k_freed k_assoc set_k_svcs set_k_gc].
    + rewrite E. intros t Ht. apply in_app_or in Ht. destruct Ht as [Ht|[<-|[]]]; [apply M1, Ht|].
      split; [|intros ? ?; discriminate]. cbn [s_state set_s_timer]. destruct H2 as [X|[X _]]; auto.
    + exact M2.
    + exact M3.
    + exact M4.
  - (* rereg *) assert (N : ~ gone_key (s_key s) w).
    { apply F2. apply in_map. apply (find_ident_in _ _ _ _ H2). }
    apply minv_upd_free; assumption.
  - (* nologin *) apply minv_mod; [| | |exact H]; intros c; unfold c_nologin; cbv zeta; destruct (_ || _);
      cbn [k_prev set_k_nologin]; destruct (_ || _); reflexivity.
  - (* forget *) destruct H as [M1 M2 M3 M4]. constructor; cbn [wc wmod k_gc k_freed k_assoc set_k_assoc]; auto.
    rewrite M3. reflexivity.
  - (* retry_arm *) destruct (H2 Logic.I) as (X & _). fr. mi.
  - (* gc *) destruct H as [M1 M2 M3 M4]. constructor; cbn [wc wmod k_gc k_freed k_assoc set_k_gc set_k_freed]; auto.
    + intros t Ht. apply filter_In in Ht. apply M1, Ht.
    + intros j t [E|E]; [|exact (M2 j t E)]. injection E as _ <-.
      apply find_key_in in H0. destruct (M1 s (proj1 H0)) as [_ X]. exact X.
  - (* forked *) exfalso. destruct (i_cf _ _ B s (proj1 (lookup_in _ _ _ H1))) as (r & b & Hr & E).
    rewrite E in H2. pose proof (t_noforking _ HT r Hr) as K. cbn in H2. congruence.
Qed.

Lemma minv_init cfgl cmdl : minv (init_world cfgl cmdl).
Proof. constructor; [intros ? []|intros ? ? []|reflexivity|intros ? ? []]. Qed.
Lemma okc_evs l : In (EvConf l) evs -> forall r, In r l -> okc (r_cfg r).
Proof. intros Hl r Hr. apply HR. unfold regs. apply in_flat_map. exists (EvConf l). auto. Qed.
Lemma minv_reach cfgl cmdl w : reach True (E evs) (init_world cfgl cmdl) w -> minv w.
Proof.
  intros H. enough (X : binv evs w /\ cinv okc w /\ minv w) by apply X. revert w H.
  apply reach_ind.
  - split; [apply inv_init|]. split; [apply cinv_init|apply minv_init].
  - intros e w w' He Hm _ (B & C & M). split; [eapply inv_micro; eauto|]. split.
    + refine (cinv_micro okc _ True e w w' _ Hm C); [intros b cf X; exact X|]. intros l ->. apply okc_evs, He.
    + eapply minv_micro; eauto.
Qed.
Lemma memory_lem n cfgl cmdl w c k older : run n evs (init_world cfgl cmdl) = Some (tt, w) ->
  ~ happened w c (EUaf k) older.
Proof.
  intros Hr (newer & Hl). apply (run_tame _ HT) in Hr. apply minv_reach in Hr.
  apply (mi_log _ Hr c k). rewrite Hl. apply in_or_app. right. left. reflexivity.
Qed.
End Mem.
