(** C41: a stanza that is reported as running has a process, with two
    exceptions. *)
From Coq Require Import List String Ascii ZArith NArith Bool Lia Arith Relations.
From Coq Require Import ZifyBool ZifyNat.
From Verif Require Import CondModel CoreTypes CoreModel CoreLib CoreMicro CoreExec CoreCalm CoreLog
  CoreSpec CoreSpecC CoreAny CoreProof CoreConf CoreProofC CoreProofD CoreProc CoreSlice CoreReap CoreGrow.
Import ListNotations.
Local Open Scope Z_scope.

(** it became running without a process, and none was started since *)
Definition upped (k : nat) (c : core) (o : sst) : Prop :=
  exists s, lookup_svc c k = Some s /\ s_state s = o /\ s_pid s <= 1 /\
    c_type (s_cf s) <> TRun /\ c_type (s_cf s) <> TTask /\ c_respawn (s_cf s) = false /\
    (o <> Halted \/ s_block s <> BRestarting) /\ (o = Paused -> s_pid s = 0) /\ c_forking (s_cf s) = false.
Lemma upped_promoted k c o : upped k c o -> promoted k c o.
Proof.
  intros (s & A & B1 & B2 & B3 & B4 & B5 & B6 & B7 & _). exists s. split; [apply lookup_in in A; exact A|].
  do 6 (split; [assumption|]). assumption.
Qed.
Definition rose (k : nat) (l : log) : Prop :=
  exists newer c o older, l = newer ++ (c, EState k o Running) :: older /\ upped k c o /\
    forall c' p, ~ In (c', EFork k FMain p) newer.
(** its process ended, and it did not change state since *)
Definition ended (D : core -> log -> Prop) (k : nat) (l : log) : Prop :=
  exists newer c p st older, l = newer ++ (c, EExit k p st) :: older /\
    (forall c' o n, ~ In (c', EState k o n) newer) /\ D c older.

Section Live.
Variable D : core -> log -> Prop.
Variable j : nat.

Definition fine (l : log) (s : svc) : Prop :=
  (s_state s = Running -> 1 < s_pid s \/ rose j l \/ s_pid s = 0 /\ ended D j l) /\
  (s_state s = Paused -> 1 < s_pid s \/ s_pid s = 0 \/ rose j l).
Definition fin (w : world) : Prop := forall s, find_key j (k_svcs (wc w)) = Some s -> fine (wl w) s.

Lemma rose_emit c x l : (forall p, x <> EFork j FMain p) -> rose j l -> rose j ((c, x) :: l).
Proof.
  intros Hx (nw & c0 & o & older & -> & A & C). exists ((c, x) :: nw), c0, o, older. split; [reflexivity|].
  split; [exact A|]. intros c' p [X|X]; [|exact (C _ _ X)]. injection X as _ X. exact (Hx _ X).
Qed.
Lemma ended_emit c x l : (forall o n, x <> EState j o n) -> ended D j l -> ended D j ((c, x) :: l).
Proof.
  intros Hx (nw & c0 & p & st & older & -> & A & B). exists ((c, x) :: nw), c0, p, st, older. split; [reflexivity|].
  split; [|exact B]. intros c' o n [X|X]; [|exact (A _ _ _ X)]. injection X as _ X. exact (Hx _ _ X).
Qed.
Lemma fine_emit c x l s : (forall o n, x <> EState j o n) -> (forall p, x <> EFork j FMain p) -> fine l s -> fine ((c, x) :: l) s.
Proof.
  intros Hx Hy [A B]. split; intros E.
  - destruct (A E) as [X|[X|[X Y]]]; [auto|right; left; apply rose_emit; auto|right; right; split; [exact X|apply ended_emit; auto]].
  - destruct (B E) as [X|[X|X]]; auto. right. right. apply rose_emit; auto.
Qed.
Lemma fin_emit x w : (forall o n, x <> EState j o n) -> (forall p, x <> EFork j FMain p) -> fin w -> fin (wemit x w).
Proof. intros Hx Hy H s Hs. apply fine_emit; [exact Hx|exact Hy|]. apply H, Hs. Qed.
Lemma fin_mod g w : (forall c, find_key j (k_svcs (g c)) = find_key j (k_svcs c)) -> fin w -> fin (wmod g w).
Proof. intros Hg H s Hs. cbn [wc wmod] in Hs. rewrite Hg in Hs. exact (H s Hs). Qed.
Lemma find_map f k l : (forall s, s_key (f s) = s_key s) ->
  find_key j (map_key k f l) = if Nat.eqb k j then option_map f (find_key j l) else find_key j l.
Proof.
  intros Hf. induction l as [|x l IH]; [cbn; destruct (Nat.eqb k j); reflexivity|].
  unfold find_key in *. cbn [map_key map find]. fold (map_key k f l).
  destruct (Nat.eqb (s_key x) k) eqn:E1; [rewrite Hf|]; destruct (Nat.eqb (s_key x) j) eqn:E2;
    destruct (Nat.eqb k j) eqn:E3; try reflexivity; try apply IH; lia.
Qed.
Lemma fin_updg k f w : (forall s, s_key (f s) = s_key s) ->
  (k = j -> forall s, find_key j (k_svcs (wc w)) = Some s -> fine (wl w) s -> fine (wl w) (f s)) ->
  fin w -> fin (wupd k f w).
Proof.
  intros Hk Hf H s Hs. unfold wupd, cupd in Hs. cbn [wc wmod k_svcs set_k_svcs set_k_gc] in Hs. rewrite find_map in Hs by exact Hk.
  change (wl (wupd k f w)) with (wl w). destruct (Nat.eqb k j) eqn:E; [|apply H, Hs].
  destruct (find_key j (k_svcs (wc w))) as [t|] eqn:Ef; [|discriminate Hs]. injection Hs as <-.
  apply Hf; [lia|reflexivity|apply H, Ef].
Qed.
Lemma fin_upd k f w : (forall s, s_key (f s) = s_key s /\ s_state (f s) = s_state s /\ s_pid (f s) = s_pid s) ->
  fin w -> fin (wupd k f w).
Proof.
  intros Hf. apply fin_updg; [intros s; apply Hf|]. intros _ s _ [A B]. destruct (Hf s) as (_ & E1 & E2).
  split; rewrite E1, E2; assumption.
Qed.
Lemma fin_all f w : (forall c s, s_key (f c s) = s_key s /\ s_state (f c s) = s_state s /\ s_pid (f c s) = s_pid s) ->
  fin w -> fin (wmod (f_all f) w).
Proof.
  intros Hf H s Hs. cbn [wmod wc wl f_all] in *. unfold f_all in Hs. cbn [k_svcs set_k_svcs] in Hs.
  assert (X : exists t, find_key j (k_svcs (wc w)) = Some t /\ s = f (wc w) t).
  { revert Hs. generalize (k_svcs (wc w)). intros l. induction l as [|x l IH]; [discriminate|].
    unfold find_key in *. cbn [map find]. destruct (Hf (wc w) x) as (-> & _). destruct (Nat.eqb (s_key x) j); [|exact IH].
    intros E. injection E as <-. eauto. }
  destruct X as (t & X & ->). destruct (Hf (wc w) t) as (_ & E1 & E2). destruct (H t X) as [A B].
  split; rewrite E1, E2; assumption.
Qed.
Lemma fin_del k w : fin w -> fin (wmod (c_del k) w).
Proof.
  intros H s Hs. cbn [wc wl wmod] in *. unfold c_del in Hs. destruct (find_key k (k_svcs (wc w))) eqn:Ef; [|exact (H s Hs)].
  cbn [k_svcs set_k_svcs set_k_gc] in Hs. destruct (Nat.eq_dec k j) as [->|Hn].
  - apply find_key_in in Hs. destruct Hs as [Hs Hk]. apply filter_In in Hs. exfalso. lia.
  - rewrite find_filter in Hs by exact Hn. exact (H s Hs).
Qed.

(** all stanzas but [k] *)
Lemma fin_other k f w : k <> j -> (forall s, s_key (f s) = s_key s) -> fin w -> fin (wupd k f w).
Proof. intros Hn Hk. apply fin_updg; [exact Hk|]. intros E. contradiction. Qed.

(** a state change *)
Lemma fin_wentg k new w : (k <> j -> fin w) ->
  (forall s, k = j -> find_key j (k_svcs (wc w)) = Some s -> s_state s <> new -> fine ((wc w, EState j (s_state s) new) :: wl w) (set_s_state new s)) ->
  (forall s, k = j -> find_key j (k_svcs (wc w)) = Some s -> s_state s = new -> fine (wl w) s) ->
  (forall s, new = Stopping -> k = j -> find_key j (k_svcs (wc w)) = Some s -> s_state s <> new ->
     forall c, fine ((c, EState j (s_state s) new) :: wl w) (set_s_state new s)) ->
  fin (went k new w).
Proof.
  intros H1 H2 H3 H4. unfold went. destruct (lookup_svc (wc w) k) as [s|] eqn:El.
  2:{ destruct (Nat.eq_dec k j) as [->|Hn]; [|apply H1, Hn]. intros s Hs. apply find_lookup in Hs. congruence. }
  unfold wenter. cbv zeta.
  assert (TK : forall a b t, s_key (f_timeout a b t) = s_key t /\ s_state (f_timeout a b t) = s_state t /\ s_pid (f_timeout a b t) = s_pid t).
  { intros a b t. unfold f_timeout. destruct (a =? 0); [auto|]. destruct (s_timer t); auto. }
  destruct (Nat.eq_dec k j) as [->|Hn].
  - destruct (find_key j (k_svcs (wc w))) as [t|] eqn:Ef.
    2:{ intros s0 Hs0. exfalso. revert Hs0.
        destruct (st_eqb new Stopping), (st_eqb (s_state s) new); unfold wtimeout, wcancel, wupd, cupd; cbn [wc wl wmod wemit k_svcs set_k_svcs set_k_gc];
        repeat (rewrite find_map by (first [reflexivity|intros; apply TK]); rewrite Nat.eqb_refl); rewrite Ef; discriminate. }
    pose proof (find_lookup _ _ _ Ef) as El2. assert (t = s) by congruence. subst t.
    intros s0 Hs0. destruct (st_eqb (s_state s) new) eqn:Es.
    + apply st_eqb_eq in Es. pose proof (H3 s eq_refl eq_refl Es) as [A B]. revert Hs0.
      destruct (st_eqb new Stopping) eqn:ES; unfold wtimeout, wcancel, wupd, cupd; cbn [wc wl wmod wemit k_svcs set_k_svcs set_k_gc];
        repeat (rewrite find_map by (first [reflexivity|intros; apply TK]); rewrite Nat.eqb_refl); rewrite Ef; cbn [option_map].
      * intros X. injection X as <-. split; cbn; rewrite ?(proj2 (proj2 (TK _ _ _))), ?(proj1 (proj2 (TK _ _ _))); cbn; assumption.
      * intros X. injection X as <-. split; assumption.
    + assert (En : s_state s <> new) by (intros X; apply st_eqb_eq in X; congruence). revert Hs0.
      destruct (st_eqb new Stopping) eqn:ES; unfold wtimeout, wcancel, wupd, cupd; cbn [wc wl wmod wemit k_svcs set_k_svcs set_k_gc];
        repeat (rewrite find_map by (first [reflexivity|intros; apply TK]); rewrite Nat.eqb_refl); rewrite Ef; cbn [option_map].
      * intros X. injection X as <-. match goal with |- fine ((?c, _) :: _) _ => pose proof (H4 s (proj1 (st_eqb_eq _ _) ES) eq_refl eq_refl En c) as [A B] end.
        split; cbn; cbn in A, B; rewrite (proj2 (proj2 (TK _ _ _))); cbn; assumption.
      * intros X. injection X as <-. exact (H2 s eq_refl eq_refl En).
  - specialize (H1 Hn).
    assert (G : forall w1, fin w1 -> fin (if st_eqb (s_state s) new then w1
           else wupd k (set_s_state new) (wemit (EState k (s_state s) new) w1))).
    { intros w1 X. destruct (st_eqb (s_state s) new); [exact X|]. apply fin_other; [exact Hn|reflexivity|].
      apply fin_emit; [intros o n Y; injection Y as Y _ _; contradiction|intros p Y; discriminate Y|exact X]. }
    apply G. destruct (st_eqb new Stopping); [|exact H1]. unfold wtimeout, wcancel.
    repeat (apply fin_upd; [intros s1; first [apply TK|auto]|]). exact H1.
Qed.
(** ... out of both states *)
Lemma fin_went k new w : new <> Running -> new <> Paused -> (k <> j -> fin w) -> fin (went k new w).
Proof.
  intros N1 N2 H. apply fin_wentg; [exact H|..].
  - intros s _ _ _. split; cbn; intros E; congruence.
  - intros s _ _ E. split; intros E1; congruence.
  - intros s _ _ _ _ c. split; cbn; intros E; congruence.
Qed.
Lemma rose_now c o l : upped j c o -> rose j ((c, EState j o Running) :: l).
Proof. intros A. exists [], c, o, l. split; [reflexivity|]. split; [exact A|]. intros c' p []. Qed.

Definition mute (f : svc -> svc) : Prop := forall s, s_key (f s) = s_key s /\ s_state (f s) = s_state s /\ s_pid (f s) = s_pid s.
Lemma mute_timeout a b : mute (f_timeout a b).
Proof. intros t. unfold f_timeout. destruct (a =? 0); [auto|]. destruct (s_timer t); auto. Qed.
Lemma mute_rtot : mute f_rtot.
Proof. intros t. unfold f_rtot. destruct (_ && _); auto. Qed.
Lemma mute_retry : mute f_retry.
Proof. intros t. unfold f_retry. cbv zeta. destruct (_ =? 1); auto. Qed.
Lemma mute_mark : mute svc_mark.
Proof. intros t. unfold svc_mark. destruct (s_protect t); auto. Qed.
Lemma mute_fin r h a : mute (f_fin r h a).
Proof. intros t. unfold f_fin. cbv zeta. destruct (is_runtask_t _ && _), (r_changed r || a), (r_static r); auto. Qed.
Lemma mute_rereg r : mute (f_rereg r).
Proof.
  intros t. unfold f_rereg. cbv zeta. set (t0 := if c_manual (r_cfg r) then t else set_s_block BNone t).
  assert (X : s_key t0 = s_key t /\ s_state t0 = s_state t /\ s_pid t0 = s_pid t) by (subst t0; destruct (c_manual (r_cfg r)); auto).
  destruct X as (<- & <- & <-). apply mute_fin.
Qed.
Ltac tk := first [ apply mute_timeout | apply mute_rtot | apply mute_retry | apply mute_rereg | apply mute_mark
                 | let s := fresh "s" in intros s; split; [|split]; reflexivity ].
Ltac f1 :=
  match goal with
  | H : fin ?w |- fin ?w' => constr_eq w w'; exact H
  | |- fin (wemit _ _) => apply fin_emit; [intros ? ?; discriminate|intros ?; discriminate|]
  | |- fin (went _ Running _) => fail 1
  | |- fin (went _ Paused _) => fail 1
  | |- fin (went _ _ _) => apply fin_went; [discriminate|discriminate|intros _]
  | |- fin (wupd _ _ _) => apply fin_upd; [tk|]
  | |- fin (wmod _ _) => apply fin_mod; [intros ?; reflexivity|]
  | |- fin (if ?b then _ else _) => destruct b
  | |- fin (match ?b with _ => _ end) => destruct b
  end.
Ltac ft := unfold w_done, w_prep, wcancel, wblock, wclean, wtimeout, wscript, wcond, wfork_fail, wfork_ok; cbv zeta; repeat f1.

Lemma fin_fork k f p w : (k = j -> f <> FMain) -> fin w -> fin (wfork_ok k f p w).
Proof.
  intros Hf H. unfold wfork_ok. apply fin_mod; [intros c; reflexivity|]. apply fin_mod; [intros c; reflexivity|].
  apply fin_emit; [intros o n X; discriminate X|intros q X; injection X as X Y _; exact (Hf X Y)|].
  apply fin_mod; [intros c; reflexivity|exact H].
Qed.
Lemma cleanup_key s : s_key (f_cleanup s) = s_key s.
Proof. reflexivity. Qed.

Lemma fin_micro evs e w w' : tame evs -> In e evs -> binv evs w -> (forall p st, e <> EvReap p st) ->
  micro True e w w' -> fin w -> fin w'.
Proof.
  intros HT He HB Hne Hm H.
  assert (LF : forall k s t, L w k s -> k = j -> find_key j (k_svcs (wc w)) = Some t -> t = s).
  { intros k s t HL -> Ht. apply find_lookup in Ht. unfold L in HL. congruence. }
  assert (SP : forall k p, (k = j -> forall s, find_key j (k_svcs (wc w)) = Some s ->
     1 < p \/ s_state s <> Running /\ s_state s <> Paused) -> fin (wupd k (set_s_pid p) w)).
  { intros k p Hp. apply fin_updg; [reflexivity| |exact H]. intros Ek s Hs _.
    destruct (Hp Ek s Hs) as [X|[X1 X2]]; split; cbn; intros E; auto; contradiction. }
  destruct Hm; try (ft; fail); try (exfalso; eapply Hne; eassumption).
  - destruct (c_pre (s_cf s)); ft.
  - (* aux *) destruct (H2 Logic.I) as (s & HL & Hg). unfold w_aux. cbv zeta.
    assert (X : fin (wupd k (set_s_pid p) (wfork_ok k f p w))).
    { apply fin_updg; [reflexivity| |apply fin_fork; [intros _ ->; discriminate|exact H]]. intros Ek t Ht _. destruct H0 as [Hp _]. split; intros _; left; exact Hp. }
    revert X. generalize (wupd k (set_s_pid p) (wfork_ok k f p w)). intros v X. destruct (lookup_svc _ k); ft.
  - destruct (H1 Logic.I) as (s & HL & Hg). apply fin_updg; [reflexivity| |ft]. intros Ek t Ht _. cbn in Ht.
    pose proof (LF _ _ _ HL Ek Ht) as ->. assert (Y : s_state s <> Running /\ s_state s <> Paused).
    { destruct f; cbn in Hg; try contradiction; [destruct Hg as (_ & ->)|destruct Hg as (_ & [(-> & _)|(-> & _)])|destruct Hg as (_ & -> & _)]; split; discriminate. }
    split; cbn; intros E; tauto.
  - (* start *) destruct H2 as [Hp _].
    assert (FP : forall t, k = j -> find_key j (k_svcs (wc (wclean k (w_forked k s p w)))) = Some t -> s_pid t = p).
    { intros t -> . unfold w_forked, wclean, w_prep, wupd, cupd. cbv zeta.
      destruct (uses_socket s), (is_run_t (ty s)); cbn [wc wl wmod wemit wfork_ok k_svcs set_k_svcs set_k_gc set_k_runblk set_k_notes set_k_mains set_k_procs set_k_forks];
        repeat (rewrite find_map by (first [reflexivity|intros; apply mute_rtot]); rewrite Nat.eqb_refl);
        destruct (find_key j (k_svcs (wc w))); cbn; intros X; try discriminate X; injection X as <-; reflexivity. }
    apply fin_wentg.
    + intros Hn. unfold w_forked. cbv zeta.
      assert (X : fin (wupd k (set_s_pid p) (wfork_ok k FMain p (w_prep k w)))) by (apply fin_other; [exact Hn|reflexivity|]; apply fin_fork; [intros X; contradiction|ft]).
      revert X. generalize (wupd k (set_s_pid p) (wfork_ok k FMain p (w_prep k w))). intros v X.
      destruct (uses_socket s), (is_run_t (ty s)); ft.
    + intros t Ek Ht _. split; cbn; intros _; left; rewrite (FP t Ek Ht); exact Hp.
    + intros t Ek Ht _. split; intros _; left; rewrite (FP t Ek Ht); exact Hp.
    + intros t X. discriminate X.
  - destruct H0 as (HL & Hst & _). destruct (Nat.eq_dec k j) as [->|Hn].
    + intros t Ht. assert (E : s_state t = Starting).
      { revert Ht. unfold w_forked, w_prep, wupd, cupd. cbv zeta.
        destruct (uses_socket s), (is_run_t (ty s)); cbn [wc wl wmod wemit wfork_ok k_svcs set_k_svcs set_k_gc set_k_runblk set_k_notes set_k_mains set_k_procs set_k_forks];
          repeat (rewrite find_map by (first [reflexivity|intros; apply mute_rtot]); rewrite Nat.eqb_refl);
          (destruct (find_key j (k_svcs (wc w))) as [u|] eqn:Eu; [|discriminate]); cbn [option_map]; intros X; injection X as <-;
          pose proof (LF _ _ _ HL eq_refl eq_refl) as ->; cbn; rewrite (proj1 (proj2 (mute_rtot _))); exact Hst. }
      split; intros E2; congruence.
    + assert (X : fin (w_forked k s p w)).
      { unfold w_forked. cbv zeta.
        assert (X : fin (wupd k (set_s_pid p) (wfork_ok k FMain p (w_prep k w)))) by (apply fin_other; [exact Hn|reflexivity|]; apply fin_fork; [intros X; contradiction|ft]).
        revert X. generalize (wupd k (set_s_pid p) (wfork_ok k FMain p (w_prep k w))). intros v X.
        destruct (uses_socket s), (is_run_t (ty s)); ft. }
      revert X. generalize (w_forked k s p w). intros v X. destruct (is_run_t (ty s)); ft.
  - (* pause *) apply fin_wentg.
    + intros _. ft.
    + intros t Ek Ht _. cbn in Ht. pose proof (LF _ _ _ H0 Ek Ht) as ->. destruct (H s Ht) as [A _].
      split; cbn; intros E; [discriminate E|]. destruct (A H1) as [X|[X|[X _]]]; [auto| |contradiction].
      right. right. repeat (apply rose_emit; [intros n X0; rewrite ?H1 in X0; discriminate X0|]). exact X.
    + intros t Ek Ht E. cbn in Ht. pose proof (LF _ _ _ H0 Ek Ht) as ->. congruence.
    + intros t X. discriminate X.
  - (* paused_run *) apply fin_wentg.
    + intros _. ft.
    + intros t Ek Ht _. cbn in Ht. pose proof (LF _ _ _ H0 Ek Ht) as ->. destruct (H s Ht) as [_ A].
      split; cbn; intros E; [|discriminate E]. destruct (A H1) as [X|[X|X]]; [auto|contradiction|].
      right. left. repeat (apply rose_emit; [intros n X0; rewrite ?H1 in X0; discriminate X0|]). exact X.
    + intros t Ek Ht E. cbn in Ht. pose proof (LF _ _ _ H0 Ek Ht) as ->. congruence.
    + intros t X. discriminate X.
  - (* gone *) apply fin_went; [discriminate|discriminate|]. intros Hn. unfold wcleanup. apply fin_other; [exact Hn|reflexivity|ft].
  - (* lost *) apply fin_updg; [reflexivity| |ft]. intros Ek t Ht _. exfalso.
    unfold wcancel, wupd, cupd in Ht. cbn [wc wmod k_svcs set_k_svcs set_k_gc] in Ht.
    rewrite !find_map in Ht by reflexivity. subst k. rewrite Nat.eqb_refl in Ht.
    destruct (find_key j (k_svcs (wc w))) as [u|] eqn:Eu; [|discriminate Ht].
    pose proof (LF _ _ _ H0 eq_refl eq_refl) as ->. apply find_key_in in Eu. destruct Eu as [Eu _].
    rewrite (i_alive _ _ HB s Eu) in H5; [discriminate|lia].
  - assert (X : fin w1) by (subst w1; ft). clearbody w1. destruct (rc =? 1); [|ft].
    apply fin_went; [discriminate|discriminate|]. intros Hn. unfold wcleanup. apply fin_other; [exact Hn|reflexivity|ft].
  - apply fin_went; [discriminate|discriminate|]. intros Hn. unfold wcleanup. apply fin_other; [exact Hn|reflexivity|ft].
  - (* reload without a process *) apply fin_updg; [reflexivity| |exact H]. intros Ek t Ht [A B].
    pose proof (LF _ _ _ H0 Ek Ht) as ->. split; cbn; intros E; [|auto].
    destruct (A E) as [X|[X|[X Y]]]; [lia|auto|auto].
  - (* collect *) exfalso. apply find_pid_lookup in H1. destruct H1 as [A B].
    rewrite <- B in H2. rewrite (i_alive _ _ HB s A) in H2; [discriminate|lia].
  - (* del_boot *) assert (X : fin (if s_pid s =? 0 then w else wemit (EForget k (s_pid s)) w)) by ft.
    revert X. generalize (if s_pid s =? 0 then w else wemit (EForget k (s_pid s)) w). intros v X.
    destruct (Nat.eq_dec k j) as [->|Hn].
    + intros t Ht. cbn [wc wmod] in Ht. rewrite find_del in Ht. discriminate Ht.
    + apply fin_del, fin_other; [exact Hn|reflexivity|exact X].
  - apply fin_del. ft.
  - apply fin_all; [intros _; apply mute_mark|]. ft.
  - (* new *) intros t Ht. cbn [wc wl wmod k_svcs set_k_next set_k_svcs] in *. rewrite find_app in Ht.
    destruct (find_key j (k_svcs (wc w))) eqn:Ef; [injection Ht as <-; exact (H s Ef)|].
    destruct (Nat.eqb _ j); [|discriminate Ht]. injection Ht as <-.
    assert (X : s_state (fresh_svc (k_next (wc w)) r) = Halted) by (apply fresh_cf).
    split; intros E; congruence.
  - apply fin_all; [|exact H]. intros _ t. unfold f_affected. destruct (_ && _); auto.
  - apply fin_all; [|exact H]. intros c t. unfold f_unavail. destruct (ifthen_conf _ _); [auto|]. apply mute_mark.
  - apply fin_mod; [|exact H]. intros c. unfold c_nologin. cbv zeta.
    destruct (_ || _); cbn [k_prev set_k_nologin]; destruct (_ || _); reflexivity.
  - (* up *) apply fin_wentg.
    + intros _. ft.
    + intros t Ek Ht En. split; cbn; intros E; [|discriminate E]. destruct (Z_lt_le_dec 1 (s_pid t)) as [X|X]; [left; exact X|].
      right. left.
      assert (Hq : (s_state t = Paused -> s_pid t = 0) \/ rose j (wl w)).
      { pose proof Ht as Ht2. subst k. unfold wupd, cupd in Ht2. cbn [wc wmod k_svcs set_k_svcs set_k_gc] in Ht2.
        rewrite find_map in Ht2 by reflexivity. rewrite Nat.eqb_refl in Ht2.
        destruct (find_key j (k_svcs (wc w))) as [u|] eqn:Eu; [|discriminate Ht2]. injection Ht2 as <-. cbn in *.
        destruct (H u Eu) as [_ B]. destruct (st_eqb (s_state u) Paused) eqn:Ep.
        - apply st_eqb_eq in Ep. destruct (B Ep) as [Y|[Y|Y]]; [lia|auto|auto].
        - apply st_eqb_neq in Ep. left. intros Y. contradiction. }
      destruct Hq as [Hq|Hq]; [|apply rose_emit; [intros q Y; discriminate Y|exact Hq]].
      apply rose_now. exists t.
      split; [assert (Y : lookup_svc (wc (wupd k (fun s => set_s_rtmo (s_rsaved s) s) w)) j = Some t) by (unfold lookup_svc; rewrite Ht; reflexivity); exact Y|].
      split; [reflexivity|]. split; [exact X|].
      subst k. unfold wupd, cupd in Ht. cbn [wc wmod k_svcs set_k_svcs set_k_gc] in Ht.
      rewrite find_map in Ht by reflexivity. rewrite Nat.eqb_refl in Ht.
      destruct (find_key j (k_svcs (wc w))) as [u|] eqn:Eu; [|discriminate Ht].
      pose proof (LF _ _ _ H0 eq_refl eq_refl) as ->. injection Ht as <-. cbn.
      match goal with Hd : True -> is_daemon _ || is_tty _ = true |- _ => pose proof (Hd Logic.I) as Hd2 end.
      unfold is_daemon, is_tty, ty in Hd2. split; [intros Et; rewrite Et in Hd2; discriminate Hd2|].
      split; [intros Et; rewrite Et in Hd2; discriminate Hd2|]. split; [assumption|]. split; [assumption|]. split; [exact Hq|].
      destruct (i_cf _ _ HB s (proj1 (lookup_in _ _ _ H0))) as (r0 & b0 & Hr0 & E0). rewrite E0. cbn. exact (t_noforking _ HT r0 Hr0).
    + intros t Ek Ht E. subst k. unfold wupd, cupd in Ht. cbn [wc wmod k_svcs set_k_svcs set_k_gc] in Ht.
      rewrite find_map in Ht by reflexivity. rewrite Nat.eqb_refl in Ht.
      destruct (find_key j (k_svcs (wc w))) as [u|] eqn:Eu; [|discriminate Ht]. injection Ht as <-. exact (H u Eu).
    + intros t X. discriminate X.
  - (* forking *) exfalso. destruct (i_cf _ _ HB s (proj1 (lookup_in _ _ _ H1))) as (r0 & b0 & Hr0 & E0).
    rewrite E0 in H2. cbn in H2. rewrite (t_noforking _ HT r0 Hr0) in H2. discriminate H2.
  - exfalso. destruct (H1 Logic.I) as (s & HL & X). destruct (i_cf _ _ HB s (proj1 (lookup_in _ _ _ HL))) as (r0 & b0 & Hr0 & E0).
    rewrite E0 in X. cbn in X. rewrite (t_noforking _ HT r0 Hr0) in X. discriminate X.
  - apply fin_all; [|ft]. intros _ t. cbv beta. destruct (_ && _); auto.
Qed.
End Live.

(** ** One event *)

Lemma monitor_wp rec p st w s (Q : unit -> world -> Prop) : 1 < p -> find_pid p (k_svcs (wc w)) = Some s ->
  wp (rec (CStep (s_key s) false false) ;;; clean_bootstrap (s_key s) ;;; rec CSm) Q (w_collect p st s w) ->
  wp (service_monitor rec p st) Q w.
Proof.
  intros Hp Hf HC. unfold service_monitor. replace (p <=? 1) with false by lia.
  apply wp_bind, wp_getc. rewrite Hf. cbv zeta.
  assert (G2 : forall w2, wp (rec (CStep (s_key s) false false) ;;; clean_bootstrap (s_key s) ;;; rec CSm) Q
      (if p =? k_runblk (wc w2) then wmod (set_k_runblk 0) (wclean (s_key s) w2) else w2) ->
     wp (c <- getc ;; when (p =? k_runblk c) (mark_clean (s_key s) ;;; modc (set_k_runblk 0)) ;;;
         rec (CStep (s_key s) false false) ;;; clean_bootstrap (s_key s) ;;; rec CSm) Q w2).
  { intros w2 H2. apply wp_bind, wp_getc, wp_bind.
    apply wp_when; intros Eb; rewrite Eb in H2; [apply wp_bind, wp_upd, wp_modc|]; exact H2. }
  revert HC G2. generalize (rec (CStep (s_key s) false false) ;;; clean_bootstrap (s_key s) ;;; rec CSm). intros m HC G2.
  unfold w_collect in HC. cbv zeta in HC.
  apply wp_bind, wp_emit, wp_bind.
  destruct (is_script_state (s_state s)).
  - apply wp_bind. apply wp_when; intros Es; rewrite Es in HC.
    + apply wp_upd, wp_bind, wp_upd, wp_bind, wp_kill, wp_upd. apply G2, HC.
    + apply wp_bind, wp_upd, wp_bind, wp_kill, wp_upd. apply G2, HC.
  - apply wp_bind, wp_upd. destruct (c_forking (s_cf s) && s_starting s).
    + apply wp_upd. apply G2, HC.
    + apply wp_bind, wp_kill, wp_bind. destruct (is_daemon s || is_tty s).
      * unfold service_cleanup. apply wp_bind, wp_upd, wp_upd, wp_upd. apply G2, HC.
      * apply wp_upd, wp_upd. apply G2, HC.
Qed.

Lemma collect_log2 p st s w : exists new, wl (w_collect p st s w) = new ++ (wc w, EExit (s_key s) p st) :: wl w /\
  (forall c o n, ~ In (c, EState (s_key s) o n) new).
Proof.
  unfold w_collect. cbv zeta.
  match goal with |- context [if _ then _ (_ _ ?x) else _] => assert (X : exists new, wl x = new ++ (wc w, EExit (s_key s) p st) :: wl w /\
    (forall c o n, ~ In (c, EState (s_key s) o n) new)) end.
  { destruct (is_script_state (s_state s)).
    - destruct (st_eqb (s_state s) Setup); eexists [(_, EKill (s_key s) (- p) 9)]; (split; [reflexivity|]);
      intros c o n [X|[]]; discriminate X.
    - destruct (c_forking (s_cf s) && s_starting s).
      + exists []. split; [reflexivity|]. intros c o n [].
      + destruct (is_daemon s || is_tty s); eexists [(_, EKill (s_key s) (- p) 9)]; (split; [reflexivity|]);
        intros c o n [X|[]]; discriminate X. }
  destruct (p =? _); exact X.
Qed.

(** the record of the stanza after its process was collected *)
Lemma collect_rec p st s w : find_key (s_key s) (k_svcs (wc w)) = Some s ->
  exists t, find_key (s_key s) (k_svcs (wc (w_collect p st s w))) = Some t /\
    s_state t = s_state s /\ s_pid t = 0 /\ s_cf t = s_cf s /\
    enabled (wc (w_collect p st s w)) t = enabled (wc w) s.
Proof.
  intros Hf. rewrite collect_shape.
  assert (F : forall run, s_state (f_collect run st s s) = s_state s /\ s_pid (f_collect run st s s) = 0 /\
    s_cf (f_collect run st s s) = s_cf s /\ s_removed (f_collect run st s s) = s_removed s /\ s_block (f_collect run st s s) = s_block s).
  { intros run. unfold f_collect.
    destruct (is_script_state (s_state s)), (st_eqb (s_state s) Setup), (c_forking (s_cf s) && s_starting s), (is_daemon s || is_tty s), run;
      repeat (split; [reflexivity|]); reflexivity. }
  assert (G : forall run c, k_rl c = k_rl (wc w) -> k_cond c = k_cond (wc w) -> k_boot c = k_boot (wc w) ->
    enabled c (f_collect run st s s) = enabled (wc w) s).
  { intros run c E1 E2 E3. destruct (F run) as (_ & _ & F3 & F4 & F5).
    unfold enabled, blocked, is_tty, ty. rewrite E1, E2, E3, F3, F4, F5. reflexivity. }
  destruct (p =? k_runblk (wc w)); [exists (f_collect true st s s)|exists (f_collect false st s s)]; unfold cupd; cbn [k_svcs set_k_svcs set_k_gc set_k_runblk];
    (split; [rewrite find_map by apply f_collect_key; rewrite Nat.eqb_refl, Hf; reflexivity|]);
    (split; [apply F|]); (split; [apply F|]); (split; [apply F|]); apply G; reflexivity.
Qed.

(** ** The end of a process is noticed at once *)
Lemma wp_ext {A} (m : ST A) w0 w : ext m -> grown w0 w -> wp m (fun _ w' => grown w0 w') w.
Proof.
  intros Hm Hg. unfold wp. destruct (m w) as [[a w']|] eqn:E; [|exact Logic.I]. eapply grown_trans; [exact Hg|eapply Hm, E].
Qed.

Lemma noticed n k t v : k_down (wc v) = false -> find_key k (k_svcs (wc v)) = Some t ->
  s_state t = Running -> s_pid t = 0 -> enabled (wc v) t = true ->
  wp (exec n (CStep k false false)) (fun _ w' =>
    exists c new, wl w' = new ++ (c, EState k Running (if is_runtask t then Stopping else Halted)) :: wl v) v.
Proof.
  intros Hd Hf Hs Hp He. destruct n as [|n]; [exact Logic.I|]. cbn [exec]. unfold body. apply wp_bind, wp_getc. rewrite Hd.
  pose proof (find_lookup _ _ _ Hf) as HL.
  assert (GE : forall w0 x w', grown (wemit x w0) w' -> wl w0 = wl v -> exists c new, wl w' = new ++ (c, x) :: wl v).
  { intros w0 x w' (new & E) E0. exists (wc w0), new. rewrite E. cbn [wl wemit]. rewrite E0. reflexivity. }
  unfold service_step. apply wp_with_svc; [|congruence]. intros s0 Hs0. assert (s0 = t) by congruence. subst s0.
  apply wp_bind, wp_getc, wp_bind. unfold step_switch. rewrite Hs.
  unfold step_running. rewrite He, Hp. cbn [negb Z.eqb andb].
  assert (TL : forall (d : bool), ext (if d then sched (false || false) else
      c <- getc ;; let waiting := negb (k_runblk c =? 0) in
      with_svc k tt (fun s' => if negb (st_eqb (s_state s') Running) then exec n (CStep k true waiting) else sched (false || waiting)))).
  { intros d. destruct d; [unfold sched; exs|]. apply ext_bind; [apply ext_getc|]. intros c. cbv zeta.
    pose proof (ext_exec n). unfold with_svc. exs. }
  destruct (is_daemon t || is_tty t) eqn:Ed.
  - assert (Er : is_runtask t = false) by (unfold is_runtask, is_daemon, is_tty in *; destruct (ty t); auto; discriminate).
    rewrite Er. apply wp_bind, wp_upd, wp_bind.
    assert (HL2 : L (wupd k (set_s_block BRestarting) v) k (set_s_block BRestarting t)) by (apply L_wupd; [reflexivity|exact HL]).
    apply wp_mono with (Q := fun _ w' => exists c new, wl w' = new ++ (c, EState k Running Halted) :: wl v).
    + unfold set_state. apply wp_with_svc; [|unfold L in HL2; congruence]. intros s1 Hs1.
      assert (s1 = set_s_block BRestarting t) by (unfold L in HL2; congruence). subst s1. cbv zeta.
      change (s_state (set_s_block BRestarting t)) with (s_state t). rewrite Hs.
      apply wp_bind, wp_when; intros C; [discriminate C|]. replace (st_eqb Running Halted) with false by reflexivity. apply wp_bind, wp_emit.
      match goal with |- wp ?m _ ?w => apply (wp_mono m (fun _ w' => grown w w') _ w) end.
      * apply wp_ext; [|apply grown_refl]. pose proof (ext_exec n). pose proof (ext_cclear (exec n) H).
        pose proof (ext_coneshot (exec n) H). pose proof (ext_delpath (exec n) H). exs.
      * intros a w' X. eapply GE; [exact X|reflexivity].
    + intros a w' (c & new & X).
      match goal with |- wp ?m _ ?w => apply (wp_mono m (fun _ w' => grown w w') _ w) end.
      * apply wp_ext; [|apply grown_refl]. exs.
      * intros d w1 (n1 & Y).
        match goal with |- wp ?m _ ?w => apply (wp_mono m (fun _ w' => grown w w') _ w) end.
        -- apply wp_ext; [apply (TL d)|apply grown_refl].
        -- intros b w3 (n2 & Z0). exists c, (n2 ++ n1 ++ new). rewrite Z0, Y, X, !app_assoc. reflexivity.
  - assert (Er : is_runtask t = true) by (unfold is_runtask, is_daemon, is_tty in *; destruct (ty t); auto; discriminate).
    rewrite Er. apply wp_bind.
    apply wp_mono with (Q := fun _ w' => exists c new, wl w' = new ++ (c, EState k Running Stopping) :: wl v).
    + unfold set_state. apply wp_with_svc; [|congruence]. intros s1 Hs1. assert (s1 = t) by congruence. subst s1. cbv zeta. rewrite Hs.
      apply wp_bind, wp_when; intros C; [|discriminate C]. apply wp_bind, wp_upd, wp_bind. unfold timeout_after. apply wp_upd, wp_upd.
      replace (st_eqb Running Stopping) with false by reflexivity. apply wp_bind, wp_emit.
      match goal with |- wp ?m _ ?w => apply (wp_mono m (fun _ w' => grown w w') _ w) end.
      * apply wp_ext; [|apply grown_refl]. pose proof (ext_exec n). pose proof (ext_cclear (exec n) H).
        pose proof (ext_coneshot (exec n) H). pose proof (ext_delpath (exec n) H). exs.
      * intros a w' X. eapply GE; [exact X|reflexivity].
    + intros a w' (c & new & X).
      match goal with |- wp ?m _ ?w => apply (wp_mono m (fun _ w' => grown w w') _ w) end.
      * apply wp_ext; [|apply grown_refl]. exs.
      * intros d w1 (n1 & Y).
        match goal with |- wp ?m _ ?w => apply (wp_mono m (fun _ w' => grown w w') _ w) end.
        -- apply wp_ext; [apply (TL d)|apply grown_refl].
        -- intros b w3 (n2 & Z0). exists c, (n2 ++ n1 ++ new). rewrite Z0, Y, X, !app_assoc. reflexivity.
Qed.

(** ** Histories *)

Lemma may_enabled c s : may_start c s -> enabled c s = true.
Proof.
  intros [H1 H2 H3 H4 H5]. unfold enabled. rewrite !andb_true_iff, !negb_true_iff. repeat split.
  - exact H1.
  - exact H2.
  - unfold blocked. rewrite H3. reflexivity.
  - unfold ifthen_run. apply forallb_forall. intros g Hg. specialize (H4 g Hg). unfold guard_holds in H4.
    destruct (fst g); apply negb_true_iff; destruct (cond_get (k_cond c) (snd g)); try reflexivity; congruence.
  - unfold is_tty, is_tty_t, ty. destruct (c_type (s_cf s)) eqn:E; try reflexivity. rewrite (H5 eq_refl). reflexivity.
Qed.

Section Hist.
Variable evs0 : list ev.
Hypothesis HT0 : tame evs0.
Let evs := EvWork :: evs0.
Lemma HT : tame evs.
Proof. destruct HT0. constructor; try assumption. intros p [X|X]; [discriminate X|exact (t_reported p X)]. Qed.

(** what is left of an event after the process was collected *)
Lemma rest_spec n k v w2 : binv evs v -> at_rest v -> In k (keys (wc v)) ->
  (exec n (CStep k false false) ;;; clean_bootstrap k ;;; exec n CSm) v = Some (tt, w2) ->
  reach True (eq EvWork) v w2.
Proof.
  intros Hb Ha Hk Hr. destruct (t_acyclic _ HT) as [rank Hrank].
  assert (He : In EvWork evs) by (left; reflexivity).
  assert (IR : forall w1, reach True (eq EvWork) v w1 -> inv evs (wc w1)).
  { apply reach_ind; [exact Hb|]. intros e1 w1 w3 <- Hm _ Hi. apply (inv_micro evs HT EvWork w1 w3 He Hm Hi). }
  assert (A1 : True -> forall w k s w' j t n, reach True (eq EvWork) v w -> L w k s -> reach True (eq EvWork) v w' -> L w' j t ->
     owns s n -> cond_affects n (c_cond (s_cf t)) = true -> (rank (ident s) < rank (ident t))%nat).
  { intros _ w1 k0 s w3 j t m R1 L1 R2 L2 Ho Haf.
    apply IR in R1, R2.
    destruct (i_cf _ _ R1 s (proj1 (lookup_in _ _ _ L1))) as (r0 & b0 & Hr0 & E0).
    destruct (i_cf _ _ R2 t (proj1 (lookup_in _ _ _ L2))) as (r1 & b1 & Hr1 & E1).
    assert (I0 : ident s = rident r0) by (unfold ident, rident; rewrite E0; reflexivity).
    assert (I1 : ident t = rident r1) by (unfold ident, rident; rewrite E1; reflexivity).
    rewrite I0, I1. apply Hrank; auto. exists m. split.
    + unfold owns, base_of, pidcond, readycond, servicedir, successcond, failurecond, typestr, ident, ty in *.
      rewrite E0 in Ho. exact Ho.
    + rewrite E1 in Haf. exact Haf. }
  assert (A2 : True -> forall w k s, reach True (eq EvWork) v w -> find_key k (k_svcs (wc w)) = Some s -> 1 < s_pid s -> alive (wc w) (s_pid s) = true).
  { intros _ w1 k0 s R1 Hf Hp. apply IR in R1. apply (i_alive _ _ R1); [|exact Hp].
    apply find_key_in in Hf. tauto. }
  assert (A3 : True -> forall w k s ms, reach True (eq EvWork) v w -> L w k s -> s_timer s = TmArmed TcRetry ms ->
     In k (keys (wc w)) /\ is_daemon s || is_tty s = true /\ s_block s <> BUser).
  { intros _ w1 k0 s ms R1 HL Ht. apply IR in R1.
    destruct (lookup_in _ _ _ HL) as [Hin Hk0]. apply in_app_or in Hin. destruct Hin as [Hin|Hin].
    + split; [rewrite <- Hk0; apply in_map, Hin|].
      destruct (i_tm _ _ R1 s Hin) as [Z|Z]; [exfalso; eapply Z, Ht|exact Z].
    + exfalso. eapply (i_gc _ _ R1 s Hin), Ht. }
  destruct (exec_all True (eq EvWork) v rank A1 A2 A3 EvWork eq_refl n) as (I1 & I2 & I3 & I4).
  assert (GV : good True (eq EvWork) v v) by (split; [apply rt_refl|intros _; exact Ha]).
  assert (X : wp (exec n (CStep k false false) ;;; clean_bootstrap k ;;; exec n CSm) (fun _ => good True (eq EvWork) v) v).
  { apply wp_bind. eapply wp_mono; [apply (I1 k false false v 0%nat)|].
    - apply rt_refl.
    - intros _ s _. lia.
    - intros _. exact Hk.
    - intros a w3 HP3. apply wp_bind. eapply wp_mono; [apply (clean_bootstrap_spec True (eq EvWork) v rank EvWork eq_refl)|].
      + exact (P_reach _ _ _ _ _ _ _ HP3).
      + eapply Rg_P; [|exact HP3]. intros _. exact Hk.
      + intros a4 w4 HG4. apply I4. apply good_to_do. eapply good_G; [|exact HG4]. eapply good_P; [exact GV|exact HP3]. }
  unfold wp in X. rewrite Hr in X. apply X.
Qed.

Definition lives (j : nat) (w : world) : Prop := fin (fun c _ => idle j c) j w.

Lemma find_reg w s : binv evs w -> In s (k_svcs (wc w)) -> find_key (s_key s) (k_svcs (wc w)) = Some s.
Proof.
  intros HB Hs. apply nodup_find; [|exact Hs]. pose proof (i_nodup _ _ HB) as N. unfold recs in N. rewrite map_app in N.
  apply nodup_app_split in N. apply N.
Qed.

Lemma fin_reach D j v w2 : binv evs v -> reach True (eq EvWork) v w2 -> fin D j v -> fin D j w2.
Proof.
  intros Hb R Hf. assert (X : binv evs w2 /\ fin D j w2); [|apply X]. revert w2 R.
  apply (reach_ind True (eq EvWork) (fun w => binv evs w /\ fin D j w)); [auto|].
  intros e0 v0 v' <- Hm _ (V1 & V2). assert (He : In EvWork evs) by (left; reflexivity).
  split; [apply (inv_micro evs HT _ v0 v' He Hm V1)|]. eapply (fin_micro D j evs EvWork v0 v' HT He V1); auto. discriminate.
Qed.

Lemma fin_collect_other D j p st s w : s_key s <> j -> fin D j w -> fin D j (w_collect p st s w).
Proof.
  intros Hn H t Ht. rewrite collect_shape in Ht.
  assert (Hf : find_key j (k_svcs (wc w)) = Some t).
  { destruct (p =? k_runblk (wc w)); unfold cupd in Ht; cbn [k_svcs set_k_svcs set_k_gc set_k_runblk] in Ht;
      rewrite find_map_other in Ht by (first [apply f_collect_key|exact Hn]); exact Ht. }
  specialize (H t Hf). clear Ht. unfold w_collect, wcleanup, wclean, wcancel. cbv zeta.
  destruct (is_script_state (s_state s)), (st_eqb (s_state s) Setup), (c_forking (s_cf s) && s_starting s), (is_daemon s || is_tty s);
    match goal with |- context [if ?b then _ else _] => destruct b end; cbn [wl wmod wupd wemit];
    repeat (apply fine_emit; [intros o n X; discriminate X|intros q X; discriminate X|]); exact H.
Qed.

Lemma lives_reap n p st w1 w2 : In (EvReap p st) evs0 -> binv evs w1 -> at_rest w1 ->
  on_event n (EvReap p st) w1 = Some (tt, w2) -> (forall j, lives j w1) -> forall j, lives j w2.
Proof.
  intros Hi Hb Ha He HL j. unfold on_event, bind at 1, getc at 1 in He.
  destruct (k_down (wc w1)) eqn:Ed; [injection He as <-; apply HL|].
  cbn [handle] in He. unfold bind at 1, getc at 1 in He.
  destruct (memZ p (k_procs (wc w1))) eqn:Em; [|injection He as <-; apply HL].
  unfold bind at 1, modc in He. set (wd := mkWorld _ _) in He.
  assert (Hd : wd = wmod (c_drop p) w1) by reflexivity. clearbody wd.
  assert (LD : forall i, lives i wd) by (intros i; subst wd; apply fin_mod; [reflexivity|apply HL]).
  destruct n as [|n]; [discriminate He|]. cbn [exec] in He. unfold body in He. unfold bind at 1, getc at 1 in He.
  replace (k_down (wc wd)) with false in He by (subst wd; symmetry; exact Ed).
  destruct (Z_le_gt_dec p 1) as [Hp|Hp].
  { unfold service_monitor in He. replace (p <=? 1) with true in He by lia. injection He as <-. apply LD. }
  assert (Hp1 : 1 < p) by lia. clear Hp.
  destruct (find_pid p (k_svcs (wc wd))) as [s|] eqn:Ef.
  2:{ unfold service_monitor in He. replace (p <=? 1) with false in He by lia. unfold bind at 1, getc at 1 in He. rewrite Ef in He.
      assert (X : wp (script_del p) (fun _ => lives j) wd).
      { unfold script_del. apply wp_bind, wp_getc. destruct (find _ _) as [[q k]|]; [|apply LD].
        apply wp_bind, wp_with_svc.
        - intros s _. apply wp_upd, wp_bind, wp_kill, wp_modc. apply fin_mod; [reflexivity|].
          apply fin_emit; [intros o n0 X; discriminate X|intros q0 X; discriminate X|]. apply fin_upd; [auto|apply LD].
        - intros _. apply wp_bind, wp_kill, wp_modc. apply fin_mod; [reflexivity|].
          apply fin_emit; [intros o n0 X; discriminate X|intros q0 X; discriminate X|].
          apply fin_emit; [intros o n0 X; discriminate X|intros q0 X; discriminate X|]. apply LD. }
      unfold wp in X. rewrite He in X. exact X. }
  set (v := w_collect p st s wd).
  assert (X : wp (service_monitor (exec n) p st) (fun _ w' => lives j w') wd).
  2:{ unfold wp in X. rewrite He in X. exact X. }
  clear He w2. apply (monitor_wp _ _ _ _ s); [exact Hp1|exact Ef|]. fold v. unfold wp.
  destruct ((exec n (CStep (s_key s) false false) ;;; clean_bootstrap (s_key s) ;;; exec n CSm) v) as [[[] w2]|] eqn:Er; [|exact Logic.I].
  destruct (find_pid_lookup _ _ _ Ef) as [Hs Hsp].
  assert (Hm : micro True (EvReap p st) w1 v).
  { subst v wd. apply m_reap; auto. }
  assert (Bv : binv evs v) by (refine (inv_micro evs HT _ w1 v _ Hm Hb); right; exact Hi).
  assert (Av : at_rest v).
  { pose proof (collect_same p st s wd) as (S1 & _ & _ & _ & _ & _ & _ & _ & _ & S2 & S3 & S4). fold v in S1, S2, S3, S4.
    destruct Ha as [Ha1 Ha2]. split.
    - rewrite S1. subst wd. intros X. apply S4. apply Ha1, X.
    - rewrite S2, S3. subst wd. exact Ha2. }
  assert (Fs : find_key (s_key s) (k_svcs (wc wd)) = Some s).
  { subst wd. exact (find_reg w1 s Hb Hs). }
  destruct (collect_rec p st s wd Fs) as (t & Ft & T1 & T2 & T3 & T4). fold v in Ft, T4.
  assert (Kv : In (s_key s) (keys (wc v))).
  { apply find_key_in in Ft. destruct Ft as [Ft1 Ft2]. rewrite <- Ft2. apply in_map, Ft1. }
  pose proof (rest_spec n (s_key s) v w2 Bv Av Kv Er) as R.
  destruct (Nat.eq_dec (s_key s) j) as [<-|Hn].
  2:{ apply (fin_reach (fun c _ => idle j c) j v w2 Bv R). apply fin_collect_other; [exact Hn|apply LD]. }
  destruct (collect_log2 p st s wd) as (nw & Lv & Nv). fold v in Lv.
  assert (FV : forall (D : core -> log -> Prop), (s_state s = Running -> D (wc wd) (wl wd)) -> fin D (s_key s) v).
  { intros D HD u Hu. assert (u = t) by congruence. subst u. split; intros Es; rewrite T1 in Es.
    - right. right. split; [exact T2|]. exists nw, (wc wd), p, st, (wl wd). split; [exact Lv|]. split; [exact Nv|apply HD, Es].
    - right. left. exact T2. }
  destruct (enabled (wc wd) s) eqn:En.
  2:{ apply (fin_reach (fun c _ => idle (s_key s) c) (s_key s) v w2 Bv R), FV. intros Es. exists s. split; [|split; [exact Es|]].
      - split; [apply in_or_app; left; exact Hs|reflexivity].
      - intros X. apply may_enabled in X. congruence. }
  assert (F2 : fin (fun c l => idle (s_key s) c \/ l = wl wd /\ s_state s = Running) (s_key s) w2).
  { apply (fin_reach _ _ v w2 Bv R), FV. intros Es. right. auto. }
  intros u Hu. specialize (F2 u Hu). destruct F2 as [A B]. split; [|exact B]. intros Eu.
  destruct (A Eu) as [Y|[Y|[Y (nw2 & c2 & p2 & st2 & o2 & Z1 & Z2 & Z3)]]]; [auto|auto|]. right. right. split; [exact Y|].
  destruct Z3 as [Z3|[Z3 Es]]; [exists nw2, c2, p2, st2, o2; auto|]. exfalso. subst o2.
  assert (NT : exists c new, wl w2 = new ++ (c, EState (s_key s) Running (if is_runtask t then Stopping else Halted)) :: wl v).
  { assert (NX : wp (exec n (CStep (s_key s) false false) ;;; clean_bootstrap (s_key s) ;;; exec n CSm) (fun _ w' =>
      exists c new, wl w' = new ++ (c, EState (s_key s) Running (if is_runtask t then Stopping else Halted)) :: wl v) v).
    { apply wp_bind. eapply wp_mono; [apply (noticed n (s_key s) t v)|].
      - destruct (k_down (wc v)) eqn:X; [|reflexivity]. rewrite <- X. unfold v. rewrite collect_shape. subst wd.
        destruct (p =? _); exact Ed.
      - exact Ft.
      - congruence.
      - exact T2.
      - congruence.
      - intros a w' (c & new & X).
        match goal with |- wp ?m _ ?w => apply (wp_mono m (fun _ w' => grown w w') _ w) end.
        + apply wp_ext; [|apply grown_refl]. pose proof (ext_exec n). exs.
        + intros b w3 (n2 & Z0). exists c, (n2 ++ new). rewrite Z0, X, app_assoc. reflexivity. }
    unfold wp in NX. rewrite Er in NX. exact NX. }
  destruct NT as (c & new & NT). rewrite Lv in NT.
  assert (LE : nw2 = new ++ (c, EState (s_key s) Running (if is_runtask t then Stopping else Halted)) :: nw).
  { rewrite Z1 in NT. change ((c2, EExit (s_key s) p2 st2) :: wl wd) with ([(c2, EExit (s_key s) p2 st2)] ++ wl wd) in NT.
    rewrite app_assoc in NT.
    assert (NT2 : (nw2 ++ [(c2, EExit (s_key s) p2 st2)]) ++ wl wd = ((new ++ (c, EState (s_key s) Running (if is_runtask t then Stopping else Halted)) :: nw) ++ [(wc wd, EExit (s_key s) p st)]) ++ wl wd).
    { rewrite NT, <- !app_assoc. cbn [app]. reflexivity. }
    apply app_inv_tail in NT2. apply app_inj_tail in NT2. apply NT2. }
  eapply (Z2 c). rewrite LE. apply in_or_app. right. left. reflexivity.
Qed.

Lemma lives_event n e w1 w2 : In e evs0 -> binv evs w1 -> at_rest w1 ->
  on_event n e w1 = Some (tt, w2) -> (forall j, lives j w1) -> forall j, lives j w2.
Proof.
  intros Hi Hb Ha He HL j.
  assert (Hi2 : In e evs) by (right; exact Hi).
  assert (Hd : (exists p st, e = EvReap p st) \/ forall p st, e <> EvReap p st).
  { destruct e; try (right; intros p0 st0 X; discriminate X). left. eauto. }
  destruct Hd as [(p & st & ->)|Hd]; [eapply lives_reap; eauto|].
  destruct (event_inv _ _ _ _ _ HT Hi2 Hb Ha He) as (_ & _ & R).
  assert (X : binv evs w2 /\ lives j w2); [|apply X]. clear He. revert w2 R.
  apply (reach_ind True (eq e) (fun w => binv evs w /\ lives j w)); [split; [exact Hb|apply HL]|].
  intros e0 v0 v' <- Hm _ (V1 & V2).
  split; [apply (inv_micro evs HT _ v0 v' Hi2 Hm V1)|]. apply (fin_micro (fun c _ => idle j c) j evs e v0 v' HT Hi2 V1); auto.
Qed.

Lemma lives_run n l w1 w2 : incl l evs0 -> binv evs w1 -> at_rest w1 -> run n l w1 = Some (tt, w2) ->
  (forall j, lives j w1) -> binv evs w2 /\ forall j, lives j w2.
Proof.
  revert w1. induction l as [|e l IH]; intros w1 Hi Hb Ha Hr HL.
  - injection Hr as <-. auto.
  - cbn [run] in Hr. unfold bind at 1 in Hr. destruct (on_event n e w1) as [[[] w3]|] eqn:E1; [|discriminate Hr].
    assert (He : In e evs0) by (apply Hi; left; reflexivity).
    destruct (event_inv _ _ _ _ _ HT (or_intror He) Hb Ha E1) as (B3 & A3 & _).
    apply (IH w3); auto; [intros x Hx; apply Hi; right; exact Hx|]. apply (lives_event n e w1); auto.
Qed.

Theorem live_lem n cfgl cmdl w s : history n evs0 cfgl cmdl w -> In s (k_svcs (wc w)) -> s_state s = Running ->
  1 < s_pid s /\ In (s_pid s) (k_procs (wc w)) \/ risen n evs0 cfgl cmdl (s_key s) (wl w) \/
  s_pid s = 0 /\ ended (fun c _ => idle (s_key s) c) (s_key s) (wl w).
Proof.
  intros Hh Hs Er. destruct (lives_run n evs0 _ _ (incl_refl _) (inv_init evs cfgl cmdl) (rest_init cfgl cmdl) Hh) as [Hb HL].
  { intros j t Ht. discriminate Ht. }
  destruct (HL (s_key s) s (find_reg w s Hb Hs)) as [A _]. destruct (A Er) as [X|[X|X]]; [| |auto].
  { left. split; [exact X|]. apply alive_in. apply (i_alive _ _ Hb s Hs X). }
  right. left. destruct X as (newer & c & o & older & X1 & X2 & X3). exists newer, c, o, older.
  split; [exact X1|]. split; [apply upped_promoted, X2|]. split; [|exact X3].
  destruct (happened_during n evs0 cfgl cmdl w c (EState (s_key s) o Running) older Hh (ex_intro _ _ X1)) as (e & D).
  pose proof (during_facts_tame _ _ _ _ _ _ _ _ HT0 D) as F. destruct F as (t & F1 & F2 & F3 & F4 & F5).
  destruct X2 as (u & U1 & U2 & U3 & U4 & U5 & U6 & U7 & U8 & U9). assert (u = t) by congruence. subst u. clear U2.
  inversion F5; subst; try congruence; try lia.
  - destruct (c_pre (s_cf t)); discriminate.
  - match goal with X : (if ?b then _ else _) = _ |- _ => destruct b; discriminate X end.
Qed.
End Hist.

(** The end of the process of a stanza that is running and allowed to run is
    noticed at once. *)
Theorem noticed_lem evs n cfgl cmdl w1 m s st w2 : tame evs -> history n evs cfgl cmdl w1 -> ~ over w1 ->
  In s (k_svcs (wc w1)) -> s_state s = Running -> 1 < s_pid s -> may_start (wc w1) s ->
  on_event m (EvReap (s_pid s) st) w1 = Some (tt, w2) ->
  since (wl w1) (wl w2) (fun x => x = EState (s_key s) Running
    (match c_type (s_cf s) with TRun | TTask => Stopping | _ => Halted end)).
Proof.
  intros HT1 Hh Ho Hs Er Hp Hm He. apply may_enabled in Hm.
  assert (Hb : binv evs w1) by (apply (run_binv evs HT1 n evs _ w1 (fun y Hy => Hy) Hh (inv_init evs cfgl cmdl) (rest_init cfgl cmdl))).
  assert (Ed : k_down (wc w1) = false).
  { destruct (k_down (wc w1)) eqn:E; [|reflexivity]. exfalso. apply Ho, (down_over _ _ _ _ _ Hh), E. }
  unfold on_event, bind at 1, getc at 1 in He. rewrite Ed in He. cbn [handle] in He. unfold bind at 1, getc at 1 in He.
  pose proof (i_alive _ _ Hb s Hs Hp) as Al. unfold alive in Al. rewrite Al in He. unfold bind at 1, modc in He. set (wd := mkWorld _ _) in He.
  assert (Hd : wd = wmod (c_drop (s_pid s)) w1) by reflexivity. clearbody wd.
  destruct m as [|m]; [discriminate He|]. cbn [exec] in He. unfold body in He. unfold bind at 1, getc at 1 in He.
  replace (k_down (wc wd)) with false in He by (subst wd; symmetry; exact Ed).
  assert (Ef : find_pid (s_pid s) (k_svcs (wc wd)) = Some s).
  { subst wd. change (k_svcs (wc (wmod (c_drop (s_pid s)) w1))) with (k_svcs (wc w1)).
    destruct (find_pid (s_pid s) (k_svcs (wc w1))) as [u|] eqn:E.
    - destruct (find_pid_in _ _ _ E) as [Hu Eu]. f_equal.
      assert (Ek : s_key u = s_key s) by (apply (i_dist _ _ Hb u s); auto; lia).
      pose proof (CoreSlice.find_in evs w1 u Hb Hu) as F1. rewrite Ek in F1. pose proof (CoreSlice.find_in evs w1 s Hb Hs) as F2. congruence.
    - exfalso. exact (find_pid_none _ _ E s Hs eq_refl). }
  assert (Fs : find_key (s_key s) (k_svcs (wc wd)) = Some s).
  { subst wd. exact (CoreSlice.find_in evs w1 s Hb Hs). }
  destruct (collect_rec (s_pid s) st s wd Fs) as (t & Ft & T1 & T2 & T3 & T4).
  destruct (collect_log2 (s_pid s) st s wd) as (nw & Lv & _).
  assert (X : wp (service_monitor (exec m) (s_pid s) st) (fun _ w' => exists c new, wl w' = new ++ (c, EState (s_key s) Running (if is_runtask t then Stopping else Halted)) :: wl (w_collect (s_pid s) st s wd)) wd).
  { apply (monitor_wp _ _ _ _ s); [exact Hp|exact Ef|]. set (v := w_collect (s_pid s) st s wd) in *.
    apply wp_bind. eapply wp_mono; [apply (noticed m (s_key s) t v)|].
    - destruct (k_down (wc v)) eqn:X; [|reflexivity]. rewrite <- X. unfold v. rewrite collect_shape. subst wd.
      destruct (_ =? _); exact Ed.
    - exact Ft.
    - congruence.
    - exact T2.
    - rewrite T4. subst wd. exact Hm.
    - intros a w' (c & new & X).
      match goal with |- wp ?m _ ?w => apply (wp_mono m (fun _ w' => grown w w') _ w) end.
      + apply wp_ext; [|apply grown_refl]. pose proof (ext_exec m). exs.
      + intros b w3 (n2 & Z0). exists c, (n2 ++ new). rewrite Z0, X, app_assoc. reflexivity. }
  unfold wp in X. rewrite He in X. destruct X as (c & new & X). rewrite Lv in X.
  exists (new ++ (c, EState (s_key s) Running (if is_runtask t then Stopping else Halted)) :: nw ++ [(wc wd, EExit (s_key s) (s_pid s) st)]), c,
    (EState (s_key s) Running (if is_runtask t then Stopping else Halted)).
  split; [rewrite X; subst wd; cbn [wl wmod]; rewrite <- app_assoc; cbn [app]; rewrite <- app_assoc; reflexivity|].
  split; [apply in_or_app; right; left; reflexivity|]. unfold is_runtask, ty. rewrite T3. destruct (c_type (s_cf s)); reflexivity.
Qed.

(** Whatever becomes running has a process at that moment. *)
Theorem entered_lem n evs cfgl cmdl e k c o older : tame evs ->
  during n evs cfgl cmdl e c (EState k o Running) older ->
  (exists s, record_at c k s /\ 1 < s_pid s) \/ e = EvTimer k \/
  (exists s, record_at c k s /\ s_pid s <> 0 /\ o = Paused).
Proof.
  intros HT1 D. pose proof (during_facts_tame _ _ _ _ _ _ _ _ HT1 D) as (t & F1 & F2 & F3 & F4 & F5).
  pose proof (lookup_in _ _ _ F1) as R.
  assert (R1 : record_at c k t) by (split; [apply R|exact F4]).
  assert (NF : c_forking (s_cf t) = false).
  { destruct D as (bf & af & w1 & w2 & newer & recent & Ee & Hb & Hv & Hl & _).
    assert (Hh : history n (bf ++ [e]) cfgl cmdl w2).
    { unfold history. rewrite run_app. unfold bind. rewrite Hb, run_one. exact Hv. }
    assert (Hi : incl (bf ++ [e]) evs).
    { intros y Hy. rewrite Ee. apply in_app_or in Hy. apply in_or_app. destruct Hy as [Hy|[<-|[]]]; [auto|].
      right. left. reflexivity. }
    pose proof (happened_cbase (fun cf => c_forking cf = false) (fun _ _ H => H) _ _ _ _ _ c
      (EState k o Running) older (fun r Hr => t_noforking _ HT1 r (regs_incl _ _ r Hi Hr)) Hh
      (ex_intro _ newer Hl)) as [B1 _].
    exact (B1 t (proj1 R)). }
  inversion F5; subst; eauto 8; try congruence.
  - destruct (c_pre (s_cf t)); discriminate.
  - match goal with X : (if ?b then _ else _) = _ |- _ => destruct b; discriminate X end.
Qed.
