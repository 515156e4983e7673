(** A class of histories in which updating a condition never steps a service
    that is in the middle of a transition, and what always holds in them. *)
From Coq Require Import List String Ascii ZArith Bool Lia Arith Relations.
From Coq Require Import ZifyBool ZifyNat.
From Verif Require Import CondModel CoreTypes CoreModel CoreLib CoreMicro CoreExec.
Import ListNotations.
Local Open Scope Z_scope.

(** ** Invariant *)

Section Tame.
Variable evs : list ev.
Hypothesis HT : tame evs.

Definition ok_cf (cf : cfg) : Prop :=
  exists r b, In r (regs evs) /\ cf = set_c_sighup b (r_cfg r).
Definition no_retry (s : svc) : Prop := forall ms, s_timer s <> TmArmed TcRetry ms.
Definition recs (c : core) : list svc := k_svcs c ++ k_gc c.

Record inv (c : core) : Prop := {
  i_nodup : NoDup (map s_key (recs c));
  i_next : forall s, In s (recs c) -> (s_key s < k_next c)%nat;
  i_conf : forall r, In r (k_conf c) -> exists r0, In r0 (regs evs) /\ r_cfg r = r_cfg r0;
  i_cf : forall s, In s (recs c) -> ok_cf (s_cf s);
  i_alive : forall s, In s (k_svcs c) -> 1 < s_pid s -> alive c (s_pid s) = true;
  i_dist : forall s t, In s (k_svcs c) -> In t (k_svcs c) -> 1 < s_pid s ->
             s_pid s = s_pid t -> s_key s = s_key t;
  i_gc : forall s, In s (k_gc c) -> no_retry s;
  i_tm : forall s, In s (k_svcs c) -> no_retry s \/ is_daemon s || is_tty s = true /\ s_block s <> BUser
}.

Lemma in_map_key k f l s' : In s' (map_key k f l) ->
  exists s, In s l /\ (s_key s = k /\ s' = f s \/ s_key s <> k /\ s' = s).
Proof.
  intros H. apply in_map_iff in H. destruct H as (s & A & B). exists s. split; [exact B|].
  destruct (Nat.eqb (s_key s) k) eqn:Ek.
  - left. apply Nat.eqb_eq in Ek. auto.
  - right. apply Nat.eqb_neq in Ek. auto.
Qed.

Lemma recs_upd k f c : recs (cupd k f c) = map_key k f (recs c).
Proof. unfold recs, cupd. cbn. unfold map_key. rewrite map_app. reflexivity. Qed.

(** a change of one record that neither makes up a pid nor a restart timer *)
Definition benign (f : svc -> svc) : Prop := forall s,
  s_key (f s) = s_key s /\ s_cf (f s) = s_cf s /\ (s_pid (f s) = s_pid s \/ s_pid (f s) <= 1) /\
  (s_timer (f s) = s_timer s /\ (s_block (f s) = s_block s \/ s_block (f s) <> BUser) \/ no_retry (f s)).

Lemma no_retry_same s t : s_timer t = s_timer s -> no_retry s -> no_retry t.
Proof. unfold no_retry. intros -> H. exact H. Qed.

Lemma inv_upd k f c : benign f -> inv c -> inv (cupd k f c).
Proof.
  intros Hf [H1 H2 H3 H4 H5 H6 H7 H8].
  assert (Hk : forall s, s_key (f s) = s_key s) by (intros s; apply Hf).
  constructor.
  - rewrite recs_upd, map_key_keys by exact Hk. exact H1.
  - rewrite recs_upd. intros s' Hs. apply in_map_key in Hs. destruct Hs as (s & A & [[_ ->]|[_ ->]]).
    + rewrite Hk. apply H2, A.
    + apply H2, A.
  - exact H3.
  - rewrite recs_upd. intros s' Hs. apply in_map_key in Hs. destruct Hs as (s & A & [[_ ->]|[_ ->]]).
    + destruct (Hf s) as (_ & -> & _). apply H4, A.
    + apply H4, A.
  - intros s' Hs Hp. apply in_map_key in Hs. change (alive (cupd k f c)) with (alive c).
    destruct Hs as (s & A & [[_ ->]|[_ ->]]).
    + destruct (Hf s) as (_ & _ & [E|E] & _); [rewrite E in *; apply H5; assumption|lia].
    + apply H5; assumption.
  - intros s' t' Hs Ht Hp E. apply in_map_key in Hs. apply in_map_key in Ht.
    destruct Hs as (s & A & Bs). destruct Ht as (t & A' & Bt).
    assert (Es : s_key s' = s_key s /\ s_pid s' = s_pid s).
    { destruct Bs as [[_ ->]|[_ ->]]; [|auto].
      destruct (Hf s) as (-> & _ & [Q|Q] & _); [auto|lia]. }
    assert (Et : s_key t' = s_key t /\ s_pid t' = s_pid t).
    { destruct Bt as [[_ ->]|[_ ->]]; [|auto].
      destruct (Hf t) as (-> & _ & [Q|Q] & _); [auto|lia]. }
    destruct Es as [-> Es], Et as [-> Et]. apply H6; auto; lia.
  - intros s' Hs. apply in_map_key in Hs. destruct Hs as (s & A & [[_ ->]|[_ ->]]).
    + destruct (Hf s) as (_ & _ & _ & [[Q _]|Q]); [eapply no_retry_same; eauto|exact Q].
    + apply H7, A.
  - intros s' Hs. apply in_map_key in Hs. destruct Hs as (s & A & [[_ ->]|[_ ->]]).
    + destruct (Hf s) as (_ & E & _ & [[Q Qb]|Q]); [|left; exact Q].
      unfold is_daemon, is_tty, ty. rewrite E.
      destruct (H8 s A) as [Z|[Z1 Z2]]; [left; eapply no_retry_same; eauto|right; split; [exact Z1|]].
      destruct Qb as [Qb|Qb]; [rewrite Qb; exact Z2|exact Qb].
    + apply H8, A.
Qed.

Definition binv (w : world) : Prop := inv (wc w).

Lemma binv_upd k f w : benign f -> binv w -> binv (wupd k f w).
Proof. apply inv_upd. Qed.
Lemma binv_emit e w : binv w -> binv (wemit e w).
Proof. auto. Qed.

(** a change of the other globals *)
Definition aside (g : core -> core) : Prop := forall c,
  k_svcs (g c) = k_svcs c /\ k_gc (g c) = k_gc c /\ k_next (g c) = k_next c /\
  k_conf (g c) = k_conf c /\ incl (k_procs c) (k_procs (g c)).

Lemma alive_in c p : alive c p = true <-> In p (k_procs c).
Proof.
  unfold alive, memZ. rewrite existsb_exists. split.
  - intros (x & A & B). apply Z.eqb_eq in B. subst. exact A.
  - intros A. exists p. split; [exact A|apply Z.eqb_refl].
Qed.

Lemma binv_mod g w : aside g -> binv w -> binv (wmod g w).
Proof.
  intros Hg [H1 H2 H3 H4 H5 H6 H7 H8]. unfold binv, wmod. cbn [wc].
  destruct (Hg (wc w)) as (E1 & E2 & E3 & E4 & E5).
  constructor; unfold recs in *; rewrite ?E1, ?E2, ?E3, ?E4; auto.
  intros s Hs Hp. apply alive_in. apply E5. apply alive_in. apply H5; assumption.
Qed.

Lemma benign_timeout ms cb : cb <> TcRetry -> benign (f_timeout ms cb).
Proof.
  intros Hcb s. rewrite f_timeout_key, f_timeout_cf. unfold f_timeout.
  destruct (ms =? 0); [repeat split; auto|]. destruct (s_timer s) eqn:Et; [|repeat split; rewrite ?Et; auto..].
  repeat split; auto. right. intros ms'. cbn. destruct (ms <? 0); [discriminate|congruence].
Qed.
Lemma benign_rtot : benign f_rtot.
Proof. intros s. unfold f_rtot. destruct (_ && _); repeat split; auto. Qed.
Lemma benign_retry : benign f_retry.
Proof. intros s. unfold f_retry. cbn. destruct (_ =? _); repeat split; auto; left; split; auto; right; discriminate. Qed.

Ltac bgn :=
  first [ exact benign_rtot | exact benign_retry | apply benign_timeout; discriminate
        | let s := fresh in intros s; cbn; repeat split;
          try (first [left; reflexivity | left; split; [reflexivity|first [left; reflexivity|right; discriminate]]
                     | right; first [lia | intros ?; discriminate]]) ].
Ltac asd := let c := fresh in intros c; cbn; repeat split; try reflexivity;
  try (intros ? ?; cbn; auto; fail).

Lemma binv_went k n w : binv w -> binv (went k n w).
Proof.
  intros H. unfold went. destruct (lookup_svc (wc w) k) as [s|]; [|exact H].
  unfold wenter, wtimeout, wcancel. destruct (st_eqb n Stopping), (st_eqb (s_state s) n);
    repeat first [ exact H | apply binv_emit | apply binv_upd; [bgn|] ].
Qed.

(** a fresh process *)
Lemma binv_fork k f p w : fresh_pid p w -> binv w -> binv (wupd k (set_s_pid p) (wfork_ok k f p w)).
Proof.
  intros [Hp Hfr] H. unfold binv in *.
  assert (Hw : inv (wc (wfork_ok k f p w))).
  { unfold wfork_ok. do 2 (apply binv_mod; [asd|]). apply binv_emit. apply binv_mod; [asd|]. exact H. }
  set (c := wc (wfork_ok k f p w)) in *.
  assert (Hnew : forall s, In s (k_svcs c) -> s_pid s <> p).
  { intros s Hs E. assert (1 < s_pid s) by lia.
    pose proof (i_alive _ H s Hs H0) as A. rewrite E in A. unfold alive in A. congruence. }
  destruct Hw as [H1 H2 H3 H4 H5 H6 H7 H8]. clear H.
  change (wc (wupd k (set_s_pid p) (wfork_ok k f p w))) with (cupd k (set_s_pid p) c).
  constructor.
  - rewrite recs_upd, map_key_keys by reflexivity. exact H1.
  - rewrite recs_upd. intros s' Hs. apply in_map_key in Hs. destruct Hs as (s & A & [[_ ->]|[_ ->]]); apply (H2 s A).
  - exact H3.
  - rewrite recs_upd. intros s' Hs. apply in_map_key in Hs. destruct Hs as (s & A & [[_ ->]|[_ ->]]); apply (H4 s A).
  - intros s' Hs Hq. apply in_map_key in Hs. destruct Hs as (s & A & [[_ ->]|[_ ->]]).
    + apply alive_in. left. reflexivity.
    + apply (H5 s A Hq).
  - intros s' t' Hs Ht Hq E. apply in_map_key in Hs. apply in_map_key in Ht.
    destruct Hs as (s & A & [[B1 ->]|[B1 ->]]), Ht as (t & A' & [[B2 ->]|[B2 ->]]); cbn in *.
    + congruence.
    + exfalso. eapply Hnew; [exact A'|congruence].
    + exfalso. eapply Hnew; [exact A|congruence].
    + apply H6; auto.
  - intros s' Hs. apply in_map_key in Hs. destruct Hs as (s & A & [[_ ->]|[_ ->]]); apply (H7 s A).
  - intros s' Hs. apply in_map_key in Hs. destruct Hs as (s & A & [[_ ->]|[_ ->]]); apply (H8 s A).
Qed.

Ltac bi1 :=
  match goal with
  | H : binv ?w |- binv ?w' => constr_eq w w'; exact H
  | |- binv (wemit _ _) => apply binv_emit
  | |- binv (went _ _ _) => apply binv_went
  | |- binv (wupd _ (set_s_pid _) (wfork_ok _ _ _ _)) => apply binv_fork; [assumption|]
  | |- binv (wupd _ _ _) => apply binv_upd; [bgn|]
  | |- binv (wmod _ _) => apply binv_mod; [asd|]
  | |- binv (if ?b then _ else _) => destruct b
  end.
Ltac bi :=
  unfold wcleanup, wcancel, wblock, wclean, wtimeout, wscript, wfork_fail, wcond;
  repeat bi1.

Lemma fresh_prep k p w : fresh_pid p w -> fresh_pid p (w_prep k w).
Proof. auto. Qed.

Lemma binv_prep k w : binv w -> binv (w_prep k w).
Proof. intros H. unfold w_prep. bi. Qed.

Lemma binv_forked k s p w : fresh_pid p w -> binv w -> binv (w_forked k s p w).
Proof.
  intros H1 H2. unfold w_forked.
  assert (H : binv (wupd k (set_s_pid p) (wfork_ok k FMain p (w_prep k w)))).
  { apply binv_fork; [apply fresh_prep, H1|apply binv_prep, H2]. }
  destruct (uses_socket s), (is_run_t (ty s)); bi.
Qed.

Lemma lookup_in c k s : lookup_svc c k = Some s -> In s (recs c) /\ s_key s = k.
Proof.
  unfold lookup_svc, recs. destruct (find_key k (k_svcs c)) as [t|] eqn:E; intros H.
  - inversion H; subst. apply find_key_in in E. split; [apply in_or_app; tauto|tauto].
  - apply find_key_in in H. split; [apply in_or_app; tauto|tauto].
Qed.

Lemma nodup_find l s : NoDup (map s_key l) -> In s l -> find_key (s_key s) l = Some s.
Proof.
  unfold find_key. induction l as [|x l IH]; intros H1 H2; [destruct H2|].
  cbn in *. inversion H1; subst. destruct H2 as [->|H2].
  - rewrite Nat.eqb_refl. reflexivity.
  - destruct (Nat.eqb (s_key x) (s_key s)) eqn:E; [|auto].
    apply Nat.eqb_eq in E. exfalso. apply H3. rewrite E. apply in_map, H2.
Qed.

Lemma nodup_lookup c s : NoDup (map s_key (recs c)) -> In s (recs c) -> lookup_svc c (s_key s) = Some s.
Proof.
  intros H1 H2. unfold recs in *.
  pose proof (nodup_find _ _ H1 H2) as F. unfold lookup_svc.
  assert (G : forall a b, find_key (s_key s) (a ++ b) =
    match find_key (s_key s) a with Some t => Some t | None => find_key (s_key s) b end).
  { intros a b. unfold find_key. induction a as [|x a IH]; cbn; [reflexivity|].
    destruct (Nat.eqb (s_key x) (s_key s)); auto. }
  rewrite G in F. exact F.
Qed.

(** arming a restart timer *)
Lemma binv_arm k s ms w : L w k s -> In k (keys (wc w)) -> is_daemon s || is_tty s = true -> s_block s <> BUser ->
  binv w -> binv (wtimeout k ms TcRetry w).
Proof.
  intros HL Hk Hty Hbu H. unfold binv in *. pose proof H as HI. destruct H as [H1 H2 H3 H4 H5 H6 H7 H8].
  change (wc (wtimeout k ms TcRetry w)) with (cupd k (f_timeout ms TcRetry) (wc w)).
  set (c := wc w) in *.
  assert (Hf : forall s, s_pid (f_timeout ms TcRetry s) = s_pid s).
  { intros t. unfold f_timeout. destruct (ms =? 0); [reflexivity|]. destruct (s_timer t); reflexivity. }
  constructor.
  - rewrite recs_upd, map_key_keys by (apply f_timeout_key). exact H1.
  - rewrite recs_upd. intros s' Hs. apply in_map_key in Hs.
    destruct Hs as (t & A & [[_ ->]|[_ ->]]); rewrite ?f_timeout_key; apply (H2 t A).
  - exact H3.
  - rewrite recs_upd. intros s' Hs. apply in_map_key in Hs.
    destruct Hs as (t & A & [[_ ->]|[_ ->]]); rewrite ?f_timeout_cf; apply (H4 t A).
  - intros s' Hs. apply in_map_key in Hs.
    destruct Hs as (t & A & [[_ ->]|[_ ->]]); rewrite ?Hf; apply (H5 t A).
  - intros s' t' Hs Ht. apply in_map_key in Hs. apply in_map_key in Ht.
    destruct Hs as (t & A & [[_ ->]|[_ ->]]), Ht as (u & B & [[_ ->]|[_ ->]]);
      rewrite ?Hf, ?f_timeout_key; apply (H6 t u A B).
  - intros s' Hs. apply in_map_key in Hs. destruct Hs as (t & A & [[B ->]|[_ ->]]); [|apply (H7 t A)].
    exfalso. unfold recs in H1. rewrite map_app in H1.
    apply in_map_iff in Hk. destruct Hk as (u & U1 & U2).
    assert (X : forall a b : list nat, NoDup (a ++ b) -> forall x, In x a -> In x b -> False).
    { clear. induction a; cbn; intros b N x P Q; [destruct P|].
      inversion N; subst. destruct P as [->|P]; [apply H1, in_or_app; auto|eauto]. }
    apply (X _ _ H1 k); [rewrite <- U1; apply in_map, U2|rewrite <- B; apply in_map, A].
  - intros s' Hs. apply in_map_key in Hs. destruct Hs as (t & A & [[B ->]|[_ ->]]); [|apply (H8 t A)].
    right. unfold is_daemon, is_tty, ty. rewrite f_timeout_cf.
    assert (Ht : In t (recs c)) by (apply in_or_app; auto).
    pose proof (nodup_lookup _ _ H1 Ht) as E. rewrite B in E. change (lookup_svc c k = Some s) in HL.
    assert (t = s) by congruence. subst t. split; [exact Hty|].
    unfold f_timeout. destruct (ms =? 0); [exact Hbu|]. destruct (s_timer s); exact Hbu.
Qed.

(** elementwise changes of all registered records *)
Lemma binv_all f w : (forall c, benign (f c)) -> binv w -> binv (wmod (f_all f) w).
Proof.
  intros Hf H. unfold binv in *. destruct H as [H1 H2 H3 H4 H5 H6 H7 H8].
  unfold wmod. cbn [wc]. set (c := wc w) in *. specialize (Hf c).
  assert (Hin : forall s, In s (k_svcs (f_all f c)) -> exists t, In t (k_svcs c) /\ s = f c t).
  { intros s Hs. apply in_map_iff in Hs. destruct Hs as (t & <- & A). eauto. }
  assert (Hin2 : forall s, In s (recs (f_all f c)) ->
            exists t, In t (recs c) /\ s_key s = s_key t /\ s_cf s = s_cf t).
  { intros s Hs. apply in_app_or in Hs. destruct Hs as [Hs|Hs].
    - destruct (Hin s Hs) as (t & A & ->). exists t. split; [apply in_or_app; auto|].
      destruct (Hf t) as (-> & -> & _). auto.
    - exists s. split; [apply in_or_app; auto|auto]. }
  constructor.
  - unfold recs, f_all in *. cbn. rewrite map_app, map_map in *.
    erewrite map_ext; [exact H1|]. intros s. apply Hf.
  - intros s Hs. destruct (Hin2 s Hs) as (t & A & -> & _). apply (H2 t A).
  - exact H3.
  - intros s Hs. destruct (Hin2 s Hs) as (t & A & _ & ->). apply (H4 t A).
  - intros s Hs Hp. change (alive (f_all f c)) with (alive c).
    destruct (Hin s Hs) as (t & A & ->). destruct (Hf t) as (_ & _ & [E|E] & _); [|lia].
    rewrite E in *. apply H5; assumption.
  - intros s s' Hs Hs' Hp E. destruct (Hin s Hs) as (t & A & ->). destruct (Hin s' Hs') as (t' & A' & ->).
    destruct (Hf t) as (-> & _ & [E1|E1] & _); [|lia].
    destruct (Hf t') as (-> & _ & [E2|E2] & _); [|lia].
    apply H6; auto; lia.
  - exact H7.
  - intros s Hs. destruct (Hin s Hs) as (t & A & ->). destruct (Hf t) as (_ & E & _ & [[Q Qb]|Q]); [|left; exact Q].
    unfold is_daemon, is_tty, ty. rewrite E.
    destruct (H8 t A) as [Z|[Z1 Z2]]; [left; eapply no_retry_same; eauto|right; split; [exact Z1|]].
    destruct Qb as [Qb|Qb]; [rewrite Qb; exact Z2|exact Qb].
Qed.

(** taking a record off the list *)
Lemma binv_del k w : (forall s, find_key k (k_svcs (wc w)) = Some s -> no_retry s) ->
  binv w -> binv (wmod (c_del k) w).
Proof.
  intros Hn H. unfold binv in *. unfold wmod, c_del. cbn [wc]. set (c := wc w) in *.
  destruct (find_key k (k_svcs c)) as [s|] eqn:Ef; [|exact H].
  specialize (Hn s eq_refl). pose proof (find_key_in _ _ _ Ef) as [Hs Hk].
  destruct H as [H1 H2 H3 H4 H5 H6 H7 H8].
  assert (Hin : forall t, In t (recs (set_k_svcs (filter (fun t => negb (Nat.eqb (s_key t) k)) (k_svcs c))
                (set_k_gc (k_gc c ++ [s]) c))) -> In t (recs c)).
  { intros t Ht. unfold recs in *. cbn in Ht. rewrite !in_app_iff in Ht. rewrite in_app_iff.
    destruct Ht as [Ht|[Ht|[Ht|[]]]]; [apply filter_In in Ht; tauto|tauto|subst; tauto]. }
  constructor; cbn [k_svcs k_gc k_conf k_next set_k_svcs set_k_gc].
  - unfold recs in *. cbn. rewrite map_app in H1. rewrite !map_app. cbn.
    assert (Hp : NoDup (map s_key (k_svcs c)) /\ NoDup (map s_key (k_gc c)) /\
      forall x, In x (map s_key (k_svcs c)) -> ~ In x (map s_key (k_gc c))).
    { clear -H1. revert H1. generalize (map s_key (k_gc c)). generalize (map s_key (k_svcs c)).
      induction l as [|a l IH]; cbn; intros m N.
      - split; [constructor|split; [exact N|tauto]].
      - inversion N; subst. destruct (IH m H2) as (A & B & C). rewrite in_app_iff in H1.
        split; [constructor; tauto|]. split; [exact B|]. intros x [->|Hx]; [tauto|auto]. }
    destruct Hp as (N1 & N2 & N3).
    assert (Nf : NoDup (map s_key (filter (fun t => negb (Nat.eqb (s_key t) k)) (k_svcs c)))).
    { clear -N1. revert N1. induction (k_svcs c) as [|a l IH]; cbn; intros N; [constructor|].
      inversion N; subst. destruct (negb (Nat.eqb (s_key a) k)); [|auto]. cbn. constructor; [|auto].
      intros X. apply H1. apply in_map_iff in X. destruct X as (y & E & Y).
      apply filter_In in Y. apply in_map_iff. exists y. tauto. }
    assert (App : forall a b : list nat, NoDup a -> NoDup b -> (forall x, In x a -> ~ In x b) -> NoDup (a ++ b)).
    { clear. induction a as [|x a IH]; cbn; intros b A B C; [exact B|]. inversion A; subst.
      constructor; [|apply IH; auto]. rewrite in_app_iff. intros [X|X]; [auto|]. eapply C; eauto. }
    apply App; [exact Nf| |].
    + apply App; [exact N2|repeat constructor; auto|]. intros x Hx [X|[]]. subst x.
      eapply N3; [|exact Hx]. rewrite Hk. rewrite <- Hk. apply in_map, Hs.
    + intros x Hx Hy. apply in_map_iff in Hx. destruct Hx as (y & E & Y). apply filter_In in Y.
      destruct Y as [Y1 Y2]. rewrite in_app_iff in Hy. destruct Hy as [Hy|[Hy|[]]].
      * eapply N3; [|exact Hy]. rewrite <- E. apply in_map, Y1.
      * rewrite E, <- Hy, Hk, Nat.eqb_refl in Y2. discriminate.
  - intros t Ht. apply H2, Hin, Ht.
  - exact H3.
  - intros t Ht. apply H4, Hin, Ht.
  - intros t Ht Hp. apply filter_In in Ht. apply (H5 t); tauto.
  - intros t u Ht Hu. apply filter_In in Ht. apply filter_In in Hu. apply H6; tauto.
  - intros t Ht. apply in_app_or in Ht. destruct Ht as [Ht|[<-|[]]]; auto.
  - intros t Ht. apply filter_In in Ht. apply H8; tauto.
Qed.

Lemma fin_cf r hup ad s : s_cf (f_fin r hup ad s) = set_c_sighup hup (r_cfg r) /\
  s_key (f_fin r hup ad s) = s_key s /\ s_pid (f_fin r hup ad s) = s_pid s /\
  s_timer (f_fin r hup ad s) = s_timer s /\ s_state (f_fin r hup ad s) = s_state s.
Proof.
  unfold f_fin. destruct (_ && _), (_ || _), (r_static r); repeat split.
Qed.

Lemma rereg_cf r s : (exists b, s_cf (f_rereg r s) = set_c_sighup b (r_cfg r)) /\
  s_key (f_rereg r s) = s_key s /\ s_pid (f_rereg r s) = s_pid s /\
  s_timer (f_rereg r s) = s_timer s /\ s_state (f_rereg r s) = s_state s.
Proof.
  unfold f_rereg.
  match goal with |- context [f_fin r ?h ?a ?t] => destruct (fin_cf r h a t) as (E1 & E2 & E3 & E4 & E5) end.
  rewrite E1, E2, E3, E4, E5. split; [eauto|]. destruct (c_manual (r_cfg r)); repeat split.
Qed.
Lemma rereg_block r s : s_block (f_rereg r s) = BUser -> s_block s = BUser.
Proof.
  unfold f_rereg, f_fin. cbv zeta. intros H.
  destruct (c_manual (r_cfg r)).
  - repeat match type of H with context [if ?b then _ else _] => destruct b end; exact H.
  - exfalso. repeat match type of H with context [if ?b then _ else _] => destruct b end; discriminate.
Qed.
Lemma fresh_cf k r : (exists b, s_cf (fresh_svc k r) = set_c_sighup b (r_cfg r)) /\
  s_key (fresh_svc k r) = k /\ s_pid (fresh_svc k r) = 0 /\ s_timer (fresh_svc k r) = TmNone /\
  s_state (fresh_svc k r) = Halted.
Proof.
  unfold fresh_svc.
  match goal with |- context [f_fin r ?h ?a ?t] => destruct (fin_cf r h a t) as (E1 & E2 & E3 & E4 & E5) end.
  rewrite E1, E2, E3, E4, E5. split; [eauto|]. destruct (c_manual (r_cfg r)); repeat split.
Qed.

Lemma find_ident_in n i l s : find_ident n i l = Some s ->
  In s l /\ c_name (s_cf s) = n /\ c_id (s_cf s) = i.
Proof.
  intros H. apply find_some in H. destruct H as [A B]. apply andb_prop in B.
  destruct B as [B1 B2]. apply String.eqb_eq in B1, B2. auto.
Qed.

Lemma set_sighup_id b cf : c_name (set_c_sighup b cf) = c_name cf /\ c_id (set_c_sighup b cf) = c_id cf /\
  c_type (set_c_sighup b cf) = c_type cf /\ c_levels (set_c_sighup b cf) = c_levels cf.
Proof. repeat split. Qed.

Lemma binv_rereg r s w : In r (k_conf (wc w)) ->
  find_ident (c_name (r_cfg r)) (c_id (r_cfg r)) (k_svcs (wc w)) = Some s ->
  binv w -> binv (wupd (s_key s) (f_rereg r) w).
Proof.
  intros Hr Hf H. apply find_ident_in in Hf. destruct Hf as (Hin & Hn & Hi).
  unfold binv in *. unfold wupd, wmod. cbn [wc]. set (c := wc w) in *.
  destruct H as [H1 H2 H3 H4 H5 H6 H7 H8].
  destruct (H3 r Hr) as (r0 & Hr0 & E0).
  assert (Huniq : forall t, In t (recs c) -> s_key t = s_key s -> t = s).
  { intros t Ht Ek. assert (Hs : In s (recs c)) by (apply in_or_app; auto).
    pose proof (nodup_lookup _ _ H1 Ht) as A. pose proof (nodup_lookup _ _ H1 Hs) as B. rewrite Ek in A. congruence. }
  constructor.
  - rewrite recs_upd, map_key_keys by (intros t; apply rereg_cf). exact H1.
  - rewrite recs_upd. intros s' Hs. apply in_map_key in Hs. destruct Hs as (t & A & [[_ ->]|[_ ->]]).
    + destruct (rereg_cf r t) as (_ & -> & _). apply (H2 t A).
    + apply (H2 t A).
  - exact H3.
  - rewrite recs_upd. intros s' Hs. apply in_map_key in Hs. destruct Hs as (t & A & [[_ ->]|[_ ->]]).
    + destruct (rereg_cf r t) as ([b Eb] & _). exists r0, b. split; [exact Hr0|congruence].
    + apply (H4 t A).
  - intros s' Hs Hp. apply in_map_key in Hs. change (alive (cupd (s_key s) (f_rereg r) c)) with (alive c).
    destruct Hs as (t & A & [[_ ->]|[_ ->]]).
    + destruct (rereg_cf r t) as (_ & _ & E & _). rewrite E in *. apply (H5 t A Hp).
    + apply (H5 t A Hp).
  - intros s' t' Hs Ht. apply in_map_key in Hs. apply in_map_key in Ht.
    destruct Hs as (t & A & Bt), Ht as (u & B & Bu).
    assert (Et : s_key s' = s_key t /\ s_pid s' = s_pid t).
    { destruct Bt as [[_ ->]|[_ ->]]; [destruct (rereg_cf r t) as (_ & -> & -> & _); auto|auto]. }
    assert (Eu : s_key t' = s_key u /\ s_pid t' = s_pid u).
    { destruct Bu as [[_ ->]|[_ ->]]; [destruct (rereg_cf r u) as (_ & -> & -> & _); auto|auto]. }
    destruct Et as [-> ->], Eu as [-> ->]. apply (H6 t u A B).
  - intros s' Hs. apply in_map_key in Hs. destruct Hs as (t & A & [[B ->]|[_ ->]]); [|apply (H7 t A)].
    destruct (rereg_cf r t) as (_ & _ & _ & E & _). eapply no_retry_same; [exact E|apply (H7 t A)].
  - intros s' Hs. apply in_map_key in Hs. destruct Hs as (t & A & [[B ->]|[_ ->]]); [|apply (H8 t A)].
    assert (t = s) by (apply Huniq; [apply in_or_app; auto|exact B]). subst t.
    destruct (rereg_cf r s) as ([b Eb] & _ & _ & E & _).
    destruct (H8 s A) as [Z|[Z Zb]]; [left; eapply no_retry_same; eauto|right].
    split; [|intros X; apply rereg_block in X; contradiction].
    unfold is_daemon, is_tty, ty in *. rewrite Eb. cbn [set_c_sighup c_type].
    destruct (H4 s) as (r1 & b1 & Hr1 & E1); [apply in_or_app; auto|].
    rewrite E1 in Z, Hn, Hi. cbn [set_c_sighup c_type c_name c_id] in *.
    pose proof (t_kind _ HT r1 r0 Hr1 Hr0 ltac:(congruence) ltac:(congruence)) as K.
    unfold respawns in K. rewrite E0. congruence.
Qed.

Lemma binv_new r w : In r (k_conf (wc w)) -> binv w ->
  binv (wmod (fun c => set_k_next (S (k_next c))
                         (set_k_svcs (k_svcs c ++ [fresh_svc (k_next c) r]) c)) w).
Proof.
  intros Hr H. unfold binv in *. unfold wmod. cbn [wc]. set (c := wc w) in *.
  destruct H as [H1 H2 H3 H4 H5 H6 H7 H8].
  destruct (H3 r Hr) as (r0 & Hr0 & E0).
  destruct (fresh_cf (k_next c) r) as ([b Eb] & Ek & Ep & Et & _).
  set (n := fresh_svc (k_next c) r) in *. clearbody n.
  assert (Hin : forall t, In t (recs (set_k_next (S (k_next c)) (set_k_svcs (k_svcs c ++ [n]) c))) ->
            In t (recs c) \/ t = n).
  { intros t Ht. unfold recs in *. cbn in Ht. rewrite !in_app_iff in *. cbn in Ht. intuition. }
  constructor; cbn [k_svcs k_gc k_conf k_next set_k_svcs set_k_next].
  - unfold recs in *. cbn. rewrite !map_app in *. cbn. rewrite Ek, <- app_assoc. cbn.
    apply NoDup_Add with (a := k_next c) (l := map s_key (k_svcs c) ++ map s_key (k_gc c)).
    + apply Add_app.
    + split; [exact H1|]. rewrite <- map_app. intros X. apply in_map_iff in X.
      destruct X as (y & Y1 & Y2). specialize (H2 y Y2). lia.
  - intros t Ht. destruct (Hin t Ht) as [A|A]; [specialize (H2 t A); lia|subst; lia].
  - exact H3.
  - intros t Ht. destruct (Hin t Ht) as [A|A]; [apply (H4 t A)|subst]. exists r0, b. split; [exact Hr0|congruence].
  - intros t Ht Hp. apply in_app_or in Ht. destruct Ht as [Ht|[<-|[]]]; [apply (H5 t Ht Hp)|lia].
  - intros t u Ht Hu Hp E. apply in_app_or in Ht. apply in_app_or in Hu.
    destruct Ht as [Ht|[<-|[]]]; [|lia]. destruct Hu as [Hu|[<-|[]]]; [|lia]. apply H6; auto.
  - exact H7.
  - intros t Ht. apply in_app_or in Ht. destruct Ht as [Ht|[<-|[]]]; [apply (H8 t Ht)|].
    left. unfold no_retry. rewrite Et. discriminate.
Qed.

Lemma nodup_filter P l : NoDup (map s_key l) -> NoDup (map s_key (filter P l)).
Proof.
  induction l as [|a l IH]; cbn; intros N; [constructor|].
  inversion N; subst. destruct (P a); [|auto]. cbn. constructor; [|auto].
  intros X. apply H1. apply in_map_iff in X. destruct X as (y & E & Y).
  apply filter_In in Y. apply in_map_iff. exists y. tauto.
Qed.

Lemma find_pid_in p l s : find_pid p l = Some s -> In s l /\ s_pid s = p.
Proof. intros H. apply find_some in H. destruct H as [A B]. apply Z.eqb_eq in B. auto. Qed.
Lemma find_pid_none p l : find_pid p l = None -> forall s, In s l -> s_pid s <> p.
Proof. intros H s Hs E. pose proof (find_none _ _ H s Hs) as X. cbn in X. lia. Qed.

(** a process is gone and no registered record has its pid *)
Lemma binv_drop p w : (forall s, In s (k_svcs (wc w)) -> 1 < p -> s_pid s <> p) ->
  binv w -> binv (wmod (c_drop p) w).
Proof.
  intros Hp [H1 H2 H3 H4 H5 H6 H7 H8]. unfold binv, wmod. cbn [wc].
  constructor; try assumption.
  intros s Hs Hq. apply alive_in. unfold c_drop. cbn [k_procs set_k_procs set_k_mains].
  apply filter_In. split.
  - apply alive_in. apply H5; assumption.
  - apply negb_true_iff, Z.eqb_neq. intros E. apply (Hp s Hs); lia.
Qed.

(** the bookkeeping of service_monitor on the record it belongs to *)
Definition f_collect (run : bool) (st : wstat) (s t : svc) : svc :=
  let t :=
    if is_script_state (s_state s) then
      set_s_pid 0 (set_s_timer TmNone (if st_eqb (s_state s) Setup then set_s_status st t else t))
    else
      let t := set_s_status st t in
      if c_forking (s_cf s) && s_starting s then set_s_pid 0 t
      else set_s_pid 0 (if is_daemon s || is_tty s then f_cleanup (set_s_timer TmNone t)
                        else set_s_started (wifexited st) t) in
  if run then f_clean t else t.

Lemma benign_collect run st s : benign (f_collect run st s).
Proof.
  intros t. unfold f_collect.
  destruct (is_script_state (s_state s)), (st_eqb (s_state s) Setup), (c_forking (s_cf s) && s_starting s), (is_daemon s || is_tty s), run; cbn;
    (repeat split; [right; lia|first [left; split; [reflexivity|left; reflexivity] | right; intros ?; discriminate]]).
Qed.
Lemma collect_pid run st s t : s_pid (f_collect run st s t) = 0.
Proof.
  unfold f_collect.
  destruct (is_script_state (s_state s)), (st_eqb (s_state s) Setup), (c_forking (s_cf s) && s_starting s), (is_daemon s || is_tty s), run; reflexivity.
Qed.

Lemma map_key_comp k f g l : (forall s, s_key (g s) = s_key s) ->
  map_key k f (map_key k g l) = map_key k (fun s => f (g s)) l.
Proof.
  intros Hg. unfold map_key. rewrite map_map. apply map_ext. intros s.
  destruct (Nat.eqb (s_key s) k) eqn:E; [rewrite Hg, E; reflexivity|rewrite E; reflexivity].
Qed.
Lemma cupd_comp k f g c : (forall s, s_key (g s) = s_key s) ->
  cupd k f (cupd k g c) = cupd k (fun s => f (g s)) c.
Proof.
  intros Hg. unfold cupd. cbn [k_svcs k_gc set_k_svcs set_k_gc]. rewrite !map_key_comp by exact Hg. reflexivity.
Qed.

Lemma collect_shape lost st s w :
  wc (w_collect lost st s w) =
    (if lost =? k_runblk (wc w) then set_k_runblk 0 (cupd (s_key s) (f_collect true st s) (wc w))
     else cupd (s_key s) (f_collect false st s) (wc w)).
Proof.
  unfold w_collect, wclean, wcleanup, wcancel, wupd, wemit, wmod, f_collect.
  destruct (is_script_state (s_state s)), (st_eqb (s_state s) Setup), (c_forking (s_cf s) && s_starting s), (is_daemon s || is_tty s); cbn [wc];
    (match goal with |- context [if (lost =? ?x) then _ else _] =>
       change x with (k_runblk (wc w)) end);
    destruct (lost =? k_runblk (wc w)); cbn [wc];
    rewrite ?cupd_comp by reflexivity; reflexivity.
Qed.

Lemma binv_runblk w p : binv w -> binv (wmod (set_k_runblk p) w).
Proof. apply binv_mod. asd. Qed.

Lemma binv_collect lost st s w : binv w -> binv (w_collect lost st s w).
Proof.
  intros H. unfold binv. rewrite collect_shape. destruct (lost =? k_runblk (wc w)).
  - apply (binv_runblk (wupd (s_key s) (f_collect true st s) w)), binv_upd; [apply benign_collect|exact H].
  - apply inv_upd; [apply benign_collect|exact H].
Qed.

Lemma binv_reap lost st s w : 1 < lost -> find_pid lost (k_svcs (wc w)) = Some s -> binv w ->
  binv (w_collect lost st s (wmod (c_drop lost) w)).
Proof.
  intros Hl Hf H. apply find_pid_in in Hf. destruct Hf as [Hs Hp].
  assert (E : wc (w_collect lost st s (wmod (c_drop lost) w)) = c_drop lost (wc (w_collect lost st s w))).
  { rewrite !collect_shape. change (k_runblk (wc (wmod (c_drop lost) w))) with (k_runblk (wc w)).
    destruct (lost =? k_runblk (wc w)); reflexivity. }
  unfold binv. rewrite E. apply (binv_drop lost (w_collect lost st s w)); [|apply binv_collect, H].
  intros t Ht _ Et. rewrite collect_shape in Ht.
  assert (Ht' : In t (map_key (s_key s) (f_collect (lost =? k_runblk (wc w)) st s) (k_svcs (wc w)))).
  { destruct (lost =? k_runblk (wc w)); exact Ht. }
  apply in_map_key in Ht'. destruct Ht' as (u & A & [[B ->]|[B ->]]).
  - rewrite collect_pid in Et. lia.
  - apply B. symmetry. apply (i_dist _ H s u); auto; lia.
Qed.

(** a run/task is blocked when it is done; an operator blocks after cancelling the timer *)
Lemma binv_block k s w : L w k s -> is_runtask s = true -> binv w -> binv (wblock k BUser w).
Proof.
  intros HL Hr H. unfold binv in *. unfold wblock, wupd, wmod. cbn [wc].
  pose proof (inv_upd k (set_s_block BRestarting) (wc w)) as X.
  destruct X as [X1 X2 X3 X4 X5 X6 X7 X8]; [bgn|exact H|].
  assert (Q : forall s', In s' (k_svcs (cupd k (set_s_block BUser) (wc w))) ->
     exists t, In t (k_svcs (wc w)) /\ s_key s' = s_key t /\ s_pid s' = s_pid t).
  { intros s' Hs. apply in_map_key in Hs. destruct Hs as (t & A & [[_ ->]|[_ ->]]); eauto. }
  destruct H as [H1 H2 H3 H4 H5 H6 H7 H8].
  constructor.
  - rewrite recs_upd, map_key_keys by reflexivity. exact H1.
  - rewrite recs_upd. intros s' Hs. apply in_map_key in Hs. destruct Hs as (t & A & [[_ ->]|[_ ->]]); apply (H2 t A).
  - exact H3.
  - rewrite recs_upd. intros s' Hs. apply in_map_key in Hs. destruct Hs as (t & A & [[_ ->]|[_ ->]]); apply (H4 t A).
  - intros s' Hs. destruct (Q s' Hs) as (t & A & _ & ->). apply (H5 t A).
  - intros s' t' Hs Ht. destruct (Q s' Hs) as (t & A & -> & ->). destruct (Q t' Ht) as (u & B & -> & ->). apply (H6 t u A B).
  - intros s' Hs. apply in_map_key in Hs. destruct Hs as (t & A & [[_ ->]|[_ ->]]); apply (H7 t A).
  - intros s' Hs. apply in_map_key in Hs. destruct Hs as (t & A & [[B ->]|[_ ->]]); [|apply (H8 t A)].
    left. assert (Ht : In t (recs (wc w))) by (apply in_or_app; auto).
    pose proof (nodup_lookup _ _ H1 Ht) as E. rewrite B in E. unfold L in HL.
    assert (t = s) by congruence. subst t. destruct (H8 s A) as [Z|[Z _]]; [exact Z|].
    unfold is_runtask, is_daemon, is_tty in *. destruct (ty s); discriminate.
Qed.
Lemma binv_ustop k w : binv w -> binv (wblock k BUser (wcancel k w)).
Proof.
  intros H. unfold binv, wblock, wcancel, wupd, wmod in *. cbn [wc]. rewrite cupd_comp by reflexivity.
  apply inv_upd; [|exact H]. intros s. cbn. repeat split; auto. right. intros ms. discriminate.
Qed.

(** ** Every change keeps it *)

Lemma inv_micro e w w' : In e evs -> micro True e w w' -> binv w -> binv w'.
Proof.
  intros He Hm H.
  assert (Hcf : forall k s, L w k s -> ok_cf (s_cf s)).
  { intros k s HL. apply (i_cf _ H). eapply lookup_in, HL. }
  assert (Hfk : forall k f p w, binv w -> binv (wfork_ok k f p w)).
  { clear. intros k f p w H. unfold wfork_ok. do 2 (apply binv_mod; [asd|]). apply binv_emit.
    apply binv_mod; [asd|]. exact H. }
  destruct Hm; try (bi; fail).
  - (* stop_done *)
    assert (X : binv (went k Done (if c_manual (s_cf s) then wblock k BUser w else w))).
    { apply binv_went. destruct (c_manual (s_cf s)); [eapply binv_block; eauto|exact H]. }
    unfold w_done. cbv zeta. destruct (st_eqb (s_state s) Done); [exact X|].
    unfold wcond. apply binv_mod; [asd|]. apply binv_emit, X.
  - (* aux_ok *) unfold w_aux. cbv zeta.
    assert (X : binv (wupd k (set_s_pid p) (wfork_ok k f p w))) by bi.
    destruct (lookup_svc _ k) as [s|]; [|bi]. unfold wtimeout. apply binv_upd; [bgn|exact X].
  - (* start_ok *) apply binv_went. unfold wclean. apply binv_upd; [bgn|]. apply binv_forked; assumption.
  - (* nosock *) assert (X : binv (w_forked k s p w)) by (apply binv_forked; assumption). bi.
  - (* start_fail *) assert (X : binv (w_prep k w)) by (apply binv_prep; assumption). bi.
  - (* run_retry *) destruct (H2 I) as (_ & A0 & A & B). eapply binv_arm; eauto. rewrite A0. discriminate.
  - (* sstop_script *) subst w1. destruct (rc =? 1); bi.
  - (* sstop_sysv *) apply binv_went, Hfk. bi.
  - (* ready_ok *) unfold wtimeout. apply binv_upd; [bgn|]. apply binv_mod; [asd|]. apply Hfk, H.
  - (* ready_uaf *) exfalso. auto.
  - (* collect *) apply binv_collect, H.
  - (* reap *) apply binv_reap; assumption.
  - (* reap_other *) apply binv_drop; [|exact H]. intros s Hs Hl. eapply find_pid_none; eauto.
  - (* del_boot *) apply binv_del; [|destruct (s_pid s =? 0); bi]. intros t Ht.
    replace (wc (wupd k (set_s_pid 0) (if s_pid s =? 0 then w else wemit (EForget k (s_pid s)) w)))
      with (wc (wupd k (set_s_pid 0) w)) in Ht by (destruct (s_pid s =? 0); reflexivity).
    cbn [wc wupd wmod] in Ht.
    unfold cupd in Ht. cbn [k_svcs set_k_svcs] in Ht. rewrite find_map_key in Ht by reflexivity.
    rewrite Nat.eqb_refl in Ht. destruct (find_key k (k_svcs (wc w))) as [u|] eqn:Eu; [|discriminate].
    inversion Ht; subst t. clear Ht.
    assert (u = s) by (apply find_lookup in Eu; unfold L in *; congruence). subst u.
    apply find_key_in in Eu. destruct (i_tm _ H s (proj1 Eu)) as [Z|[Z _]]; [exact Z|].
    exfalso. destruct (Hcf _ _ H0) as (r & b & Hr & E). rewrite E in H1.
    pose proof (t_boot _ HT r Hr H1) as K. unfold is_daemon, is_tty, ty in Z. rewrite E in Z.
    unfold respawns in K. cbn [set_c_sighup c_type] in Z. congruence.
  - (* unreg *) apply binv_del; [|bi]. intros t Ht. cbn [wc wcancel wupd wmod] in Ht.
    unfold cupd in Ht. cbn [k_svcs set_k_svcs] in Ht. rewrite find_map_key in Ht by reflexivity.
    rewrite Nat.eqb_refl in Ht. destruct (find_key k (k_svcs (wc w))) as [u|] eqn:Eu; [|discriminate].
    inversion Ht; subst t. intros ms. discriminate.
  - (* markall *) apply binv_all; [|exact H]. intros _ s. unfold svc_mark. destruct (s_protect s); repeat split; auto.
  - (* new *) apply binv_new; assumption.
  - (* rereg *) apply binv_rereg; assumption.
  - (* rdeps *) apply binv_all; [|exact H]. intros _ t. unfold f_affected. destruct (_ && _); repeat split; auto.
  - (* unavail *) apply binv_all; [|exact H]. intros c t. unfold f_unavail, svc_mark.
    destruct (ifthen_conf _ _); [repeat split; auto|]. destruct (s_protect t); repeat split; auto.
  - (* confdone *) destruct H as [H1 H2 H3 H4 H5 H6 H7 H8]. constructor; try assumption.
    intros r Hr. cbn in Hr. apply in_map_iff in Hr. destruct Hr as (r1 & <- & A). cbn. apply (H3 r1 A).
  - (* nologin *) apply binv_mod; [|exact H]. intros c. unfold c_nologin. cbv zeta.
    destruct ((k_rl c =? 1) || reserved (k_rl c)); cbn;
      (match goal with |- context [if ?b then _ else _] => destruct b end); cbn; repeat split; intros ? ?; auto.
  - (* giveup *) cbv zeta. assert (X : binv (wupd k f_giveup (wemit (EGiveup k) w))) by bi. destruct (c_oncrash (s_cf s)); bi.
  - (* retry_arm *) destruct (H2 I) as (A & B & B2). eapply binv_arm; eauto.
  - (* gc *) destruct H as [H1 H2 H3 H4 H5 H6 H7 H8].
    assert (Hin : forall t, In t (recs (set_k_gc (filter (fun t => negb (Nat.eqb (s_key t) k)) (k_gc (wc w))) (wc w))) ->
                            In t (recs (wc w))).
    { intros t Ht. unfold recs in *. cbn in Ht. rewrite in_app_iff in *. rewrite filter_In in Ht. tauto. }
    constructor; try assumption.
    + unfold recs in *. cbn. rewrite map_app in *.
      revert H1. generalize (map s_key (k_svcs (wc w))). induction l as [|a l IH]; cbn [List.app]; intros N.
      * apply nodup_filter, N.
      * inversion N as [|x0 l0 X1 X2]; subst. constructor; [|apply IH, X2]. rewrite in_app_iff in *. intros [Y|Y]; [tauto|].
        apply in_map_iff in Y. destruct Y as (y & E & Y). apply filter_In in Y.
        apply X1. right. rewrite <- E. apply in_map. tauto.
    + intros t Ht. apply H2, Hin, Ht.
    + intros t Ht. apply H4, Hin, Ht.
    + intros t Ht. cbn in Ht. apply filter_In in Ht. apply H7. tauto.
  - (* api_stop *) apply binv_ustop, H.
  - (* pidfile *) destruct (H1 I) as (s & A & B). exfalso. destruct (Hcf _ _ A) as (r & b & Hr & E).
    rewrite E in B. pose proof (t_noforking _ HT r Hr) as K. cbn in B. congruence.
  - (* interval *) apply binv_all; [|exact H]. intros _ t. destruct (_ && _); repeat split; auto.
  - (* gone *) exfalso. subst e. apply (t_reported _ HT _ He).
  - (* conf *) subst e. destruct H as [H1 H2 H3 H4 H5 H6 H7 H8]. constructor; try assumption.
    intros r Hr. exists r. split; [|reflexivity]. apply in_flat_map. exists (EvConf l). split; [exact He|exact Hr].
Qed.

Lemma inv_init cfgl cmdl : binv (init_world cfgl cmdl).
Proof. constructor; cbn; try tauto. constructor. Qed.

Definition E (e : ev) : Prop := In e evs.

Lemma inv_reach cfgl cmdl w : reach True E (init_world cfgl cmdl) w -> binv w.
Proof.
  intros H. apply clos_rt_rtn1 in H. induction H as [|w w' (e & He & M) _ IH]; [apply inv_init|].
  eapply inv_micro; eauto.
Qed.

(** ** Such histories decompose into calm changes *)
Lemma rest_init cfgl cmdl : at_rest (init_world cfgl cmdl).
Proof. split; [discriminate|reflexivity]. Qed.

Lemma run_tame_good n cfgl cmdl w :
  run n evs (init_world cfgl cmdl) = Some (tt, w) -> good True E (init_world cfgl cmdl) w.
Proof.
  intros Hr. destruct (t_acyclic _ HT) as [rank Hrank].
  pose proof (run_good True E (init_world cfgl cmdl) rank) as R.
  assert (X : wp (run n evs) (fun _ => good True E (init_world cfgl cmdl)) (init_world cfgl cmdl)).
  { apply R; clear R.
    - intros _ w1 k s w2 j t m R1 L1 R2 L2 Ho Ha.
      apply inv_reach in R1, R2.
      destruct (i_cf _ R1 s (proj1 (lookup_in _ _ _ L1))) as (r0 & b0 & Hr0 & E0).
      destruct (i_cf _ R2 t (proj1 (lookup_in _ _ _ L2))) as (r1 & b1 & Hr1 & E1).
      assert (I0 : ident s = rident r0) by (unfold ident, rident; rewrite E0; reflexivity).
      assert (I1 : ident t = rident r1) by (unfold ident, rident; rewrite E1; reflexivity).
      rewrite I0, I1. apply Hrank; auto. exists m. split.
      + unfold owns, base_of, pidcond, readycond, servicedir, successcond, failurecond, typestr, ident, ty in *.
        rewrite E0 in Ho. exact Ho.
      + rewrite E1 in Ha. exact Ha.
    - intros _ w1 k s R1 Hf Hp. apply inv_reach in R1. apply (i_alive _ R1); [|exact Hp].
      apply find_key_in in Hf. tauto.
    - intros _ w1 k s ms R1 HL Ht. apply inv_reach in R1.
      destruct (lookup_in _ _ _ HL) as [Hin Hk]. apply in_app_or in Hin. destruct Hin as [Hin|Hin].
      + split; [rewrite <- Hk; apply in_map, Hin|].
        destruct (i_tm _ R1 s Hin) as [Z|Z]; [exfalso; eapply Z, Ht|exact Z].
      + exfalso. eapply (i_gc _ R1 s Hin), Ht.
    - apply Forall_forall. intros e He. exact He.
    - split; [apply rt_refl|intros _; apply rest_init]. }
  unfold wp in X. rewrite Hr in X. exact X.
Qed.
Theorem run_tame n cfgl cmdl w :
  run n evs (init_world cfgl cmdl) = Some (tt, w) -> reach True E (init_world cfgl cmdl) w.
Proof. intros H. apply (run_tame_good n cfgl cmdl w H). Qed.
Theorem run_rest n cfgl cmdl w :
  run n evs (init_world cfgl cmdl) = Some (tt, w) -> at_rest w.
Proof. intros H. apply (run_tame_good n cfgl cmdl w H). exact I. Qed.
End Tame.
