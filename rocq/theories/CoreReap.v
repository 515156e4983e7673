(** C35: the end of one process touches the pid of no other stanza. *)
From Coq Require Import List String Ascii ZArith NArith Bool Lia Arith Relations.
From Coq Require Import ZifyBool ZifyNat.
From Verif Require Import CondModel CoreTypes CoreModel CoreLib CoreMicro CoreExec CoreCalm CoreLog
  CoreSpec CoreAny CoreProof CoreProc CoreMoment CoreHalt CoreProofD.
Import ListNotations.
Local Open Scope Z_scope.

Definition refork (k : nat) (x : eff) : bool :=
  match x with EFork j _ _ | EForkFail j _ | EScript j KStop _ => Nat.eqb j k | _ => false end.

Lemma tmo_kp ms cb s : s_key (f_timeout ms cb s) = s_key s /\ s_pid (f_timeout ms cb s) = s_pid s.
Proof. unfold f_timeout. destruct (_ =? _); [auto|]. destruct (s_timer s); auto. Qed.
Ltac kq := let s := fresh "s" in intros s;
  first [ split; reflexivity | apply tmo_kp
        | unfold f_rtot, f_incr, f_retry, f_giveup, f_cleanup, f_clean; cbv zeta;
          repeat match goal with |- context [if ?b then _ else _] => destruct b end; split; reflexivity ].

Section Reap.
Variables (k : nat) (q : Z) (base : log).

(** since [base], either [k] kept its process or another was forked for it *)
Definition kept (w : world) : Prop :=
  (k < k_next (wc w))%nat /\ (exists new, wl w = new ++ base) /\
  forall s, In s (k_svcs (wc w)) -> s_key s = k ->
    s_pid s = q \/ exists new c x, wl w = new ++ base /\ In (c, x) new /\ refork k x = true.

Lemma kept_emit x w : kept w -> kept (wemit x w).
Proof.
  intros (A & (new & B) & C). split; [exact A|]. split; [exists ((wc w, x) :: new); cbn; rewrite B; reflexivity|].
  intros s Hs Hk. destruct (C s Hs Hk) as [D|(n1 & c & y & D1 & D2 & D3)]; [auto|].
  right. exists ((wc w, x) :: n1), c, y. cbn. rewrite D1. auto.
Qed.
(** all that matters stays *)
Definition keeps (g : core -> core) : Prop := forall c,
  k_next (g c) = k_next c /\ forall s, In s (k_svcs (g c)) -> s_key s = k ->
    exists s0, In s0 (k_svcs c) /\ s_key s0 = k /\ s_pid s0 = s_pid s.
Lemma kept_mod g w : keeps g -> kept w -> kept (wmod g w).
Proof.
  intros Hg (A & B & C). destruct (Hg (wc w)) as [E1 E2]. split; [cbn; rewrite E1; exact A|]. split; [exact B|].
  intros s Hs Hk. destruct (E2 s Hs Hk) as (s0 & X & Y & Z0). rewrite <- Z0. exact (C s0 X Y).
Qed.
Lemma keeps_same g : (forall c, k_next (g c) = k_next c /\ k_svcs (g c) = k_svcs c) -> keeps g.
Proof. intros H c. destruct (H c) as [A B]. split; [exact A|]. rewrite B. eauto. Qed.
Lemma kept_same g w : (forall c, k_next (g c) = k_next c /\ k_svcs (g c) = k_svcs c) -> kept w -> kept (wmod g w).
Proof. intros H. apply kept_mod, keeps_same, H. Qed.
Lemma keeps_upd j f : (forall s, s_key (f s) = s_key s /\ s_pid (f s) = s_pid s) -> keeps (cupd j f).
Proof.
  intros Hf c. split; [reflexivity|]. intros s Hs Hk. unfold cupd in Hs. cbn in Hs. apply in_map_key in Hs.
  destruct Hs as (s0 & A & [[B ->]|[B ->]]); [|eauto]. destruct (Hf s0) as [F1 F2]. exists s0. rewrite F2, F1 in *. auto.
Qed.
Lemma kept_upd j f w : (forall s, s_key (f s) = s_key s /\ s_pid (f s) = s_pid s) -> kept w -> kept (wupd j f w).
Proof. intros Hf. unfold wupd. apply kept_mod, keeps_upd, Hf. Qed.
(** the pid of another stanza, or one that is no longer [q] *)
Lemma kept_set j p w : kept w ->
  (forall s, In s (k_svcs (wc w)) -> s_key s = k -> j = k -> s_pid s <> q \/
     exists new c x, wl w = new ++ base /\ In (c, x) new /\ refork k x = true) ->
  kept (wupd j (set_s_pid p) w).
Proof.
  intros (A & B & C) H. split; [exact A|]. split; [exact B|]. unfold wupd, wmod, cupd. cbn [wc wl k_svcs set_k_gc set_k_svcs].
  intros s Hs Hk. apply in_map_key in Hs. destruct Hs as (s0 & X & [[Y ->]|[Y ->]]).
  - cbn in Hk. destruct (C s0 X Hk) as [D|D]; [|right; exact D].
    destruct (H s0 X Hk) as [D2|D2]; [congruence|contradiction|right; exact D2].
  - apply C; assumption.
Qed.
Lemma kept_went j new w : kept w -> kept (went j new w).
Proof.
  intros H. unfold went. destruct (lookup_svc (wc w) j) as [s|]; [|exact H]. unfold wenter. cbv zeta.
  assert (G : forall w1, kept w1 -> kept (if st_eqb (s_state s) new then w1
           else wupd j (set_s_state new) (wemit (EState j (s_state s) new) w1))).
  { intros w1 H1. destruct (st_eqb (s_state s) new); [exact H1|]. apply kept_upd; [kq|]. apply kept_emit, H1. }
  apply G. destruct (st_eqb new Stopping); [|exact H]. unfold wtimeout, wcancel. repeat (apply kept_upd; [kq|]). exact H.
Qed.
Lemma kept_fork j f p w : kept w -> kept (wfork_ok j f p w).
Proof.
  intros H. unfold wfork_ok. apply kept_same; [intros ?; destruct f; auto|].
  apply kept_same; [auto|]. apply kept_emit, kept_same; [auto|exact H].
Qed.
Ltac kp1 :=
  match goal with
  | H : kept ?w |- kept ?w' => constr_eq w w'; exact H
  | |- kept (wemit _ _) => apply kept_emit
  | |- kept (went _ _ _) => apply kept_went
  | |- kept (wfork_ok _ _ _ _) => apply kept_fork
  | |- kept (wupd _ _ _) => apply kept_upd; [kq|]
  | |- kept (wmod _ _) => apply kept_same; [intros ?; auto|]
  | |- kept (if ?b then _ else _) => destruct b
  | |- kept (match ?b with _ => _ end) => destruct b
  end.
Ltac kp := unfold w_done, wcleanup, wcancel, wblock, wclean, wtimeout, wscript, wcond, wfork_fail, w_prep; cbv zeta; repeat kp1.

(** a fork for [j] *)
Lemma forked_log j f p w : kept w -> j = k ->
  exists new c x, wl (wfork_ok j f p w) = new ++ base /\ In (c, x) new /\ refork k x = true.
Proof.
  intros (_ & (new & B) & _) ->. eexists ((_, EFork k f p) :: new), _, _. split; [|split; [left; reflexivity|cbn; apply Nat.eqb_refl]].
  cbn. rewrite B. reflexivity.
Qed.
Lemma kept_forked j s p w : kept w -> kept (w_forked j s p w).
Proof.
  intros H. unfold w_forked. cbv zeta.
  assert (X : kept (wupd j (set_s_pid p) (wfork_ok j FMain p (w_prep j w)))).
  { assert (Y : kept (w_prep j w)) by kp. apply kept_set; [kp|]. intros t _ _ Ej. right. apply forked_log; assumption. }
  revert X. generalize (wupd j (set_s_pid p) (wfork_ok j FMain p (w_prep j w))). intros x X.
  destruct (uses_socket s), (is_run_t (ty s)); kp.
Qed.

Lemma nodup_same (l1 l2 : list svc) s t : NoDup (map s_key (l1 ++ l2)) -> In s (l1 ++ l2) -> In t (l1 ++ l2) -> s_key s = s_key t -> s = t.
Proof.
  generalize (l1 ++ l2). intros l. induction l as [|x l IH]; [intros _ []|]. cbn. intros Hk. inversion Hk; subst.
  intros [->|Hs] [->|Ht] E; auto.
  - exfalso. apply H1. rewrite E. apply in_map, Ht.
  - exfalso. apply H1. rewrite <- E. apply in_map, Hs.
Qed.
Lemma reg_lookup w s : uinv w -> In s (k_svcs (wc w)) -> L w (s_key s) s.
Proof.
  intros HU Hs. pose proof (u_nodup _ (u_now _ HU)) as N.
  apply nodup_lookup; [exact N|apply in_or_app; left; exact Hs].
Qed.

Variable p : Z.
Hypothesis Hpq : q <> p.
Hypothesis Hq : 1 < q.

(** a stanza whose process is not [q], or for which another was forked *)
Definition freed (j : nat) (w : world) : Prop :=
  kept w /\ (j = k -> (forall t, In t (k_svcs (wc w)) -> s_key t = j -> s_pid t <> q) \/
              exists new c x, wl w = new ++ base /\ In (c, x) new /\ refork k x = true).
Lemma freed_kept j w : freed j w -> kept w.
Proof. intros H. apply H. Qed.
Lemma freed_upd j f w : (forall s, s_key (f s) = s_key s /\ (s_pid (f s) = s_pid s \/ s_pid (f s) = 0)) ->
  freed j w -> freed j (wupd j f w).
Proof.
  intros Hf [(A & B & C) H]. split.
  - split; [exact A|]. split; [exact B|]. unfold wupd, wmod, cupd. cbn [wc wl k_svcs set_k_gc set_k_svcs].
    intros s Hs Hk. apply in_map_key in Hs. destruct Hs as (s0 & X & [[Y ->]|[Y ->]]); [|apply C; assumption].
    destruct (Hf s0) as [F1 F2]. rewrite F1 in Hk. destruct (C s0 X Hk) as [D|D]; [|right; exact D].
    destruct (H ltac:(congruence)) as [D2|D2]; [|right; exact D2]. exfalso. apply (D2 s0 X Y D).
  - intros Ej. destruct (H Ej) as [D|D]; [|right; exact D]. left.
    unfold wupd, wmod, cupd. cbn [wc k_svcs set_k_gc set_k_svcs]. intros t Ht Hk.
    apply in_map_key in Ht. destruct Ht as (s0 & X & [[Y ->]|[Y ->]]); [|apply D; assumption].
    destruct (Hf s0) as [_ [->| ->]]; [apply D; assumption|lia].
Qed.
Lemma freed_emit j x w : freed j w -> freed j (wemit x w).
Proof.
  intros [A H]. split; [apply kept_emit, A|]. intros Ej. destruct (H Ej) as [D|(n1 & c & y & D1 & D2 & D3)]; [left; exact D|].
  right. exists ((wc w, x) :: n1), c, y. cbn. rewrite D1. auto.
Qed.
Ltac kz := let s := fresh "s" in intros s;
  first [ split; [reflexivity|auto; fail] | split; [apply tmo_kp|left; apply tmo_kp] ].
Lemma freed_collect lost st s w : freed (s_key s) w -> kept (w_collect lost st s w).
Proof.
  intros H. unfold w_collect, wcleanup, wcancel, wclean. cbv zeta.
  match goal with |- kept (if _ then _ (_ _ ?x) else _) => assert (X : freed (s_key s) x) end.
  { repeat match goal with
    | |- freed _ (if ?b then _ else _) => destruct b
    | |- freed _ (wemit _ _) => apply freed_emit
    | |- freed _ (wupd _ _ _) => apply freed_upd; [kz|]
    end; exact H. }
  apply freed_kept in X. kp.
Qed.
Lemma freed_cleanup j w : freed j w -> kept (wcleanup j w).
Proof. intros H. unfold wcleanup, wcancel. apply (freed_kept j). repeat (apply freed_upd; [kz|]). exact H. Qed.
Lemma freed_not j s w : kept w -> uinv w -> L w j s -> (In s (k_svcs (wc w)) -> s_pid s <> q) -> freed j w.
Proof.
  intros H HU HL Hp. split; [exact H|]. intros _. left. intros t Ht Hk.
  pose proof (reg_lookup w t HU Ht) as HL2. rewrite Hk in HL2. unfold L in *. assert (t = s) by congruence. subst. auto.
Qed.
Lemma freed_log j w : kept w -> (exists c x l, wl w = (c, x) :: l /\ refork j x = true /\ exists new, l = new ++ base) -> freed j w.
Proof.
  intros H (c & x & l & E1 & E2 & new & E3). split; [exact H|]. intros ->. right.
  exists ((c, x) :: new), c, x. split; [rewrite E1, E3; reflexivity|]. split; [left; reflexivity|exact E2].
Qed.
Lemma kept_base w : kept w -> exists new, wl w = new ++ base.
Proof. intros H. apply H. Qed.

Lemma kept_del j w : kept w -> kept (wmod (c_del j) w).
Proof.
  apply kept_mod. intros c. unfold c_del. destruct (find_key j (k_svcs c)); [|split; [reflexivity|eauto]].
  split; [reflexivity|]. cbn. intros t Ht Hk. apply filter_In in Ht. exists t. tauto.
Qed.
Lemma kept_all f w : (forall c s, s_key (f c s) = s_key s /\ s_pid (f c s) = s_pid s) -> kept w -> kept (wmod (f_all f) w).
Proof.
  intros Hf. apply kept_mod. intros c. split; [reflexivity|]. cbn. intros s Hs Hk. apply in_map_iff in Hs.
  destruct Hs as (t & <- & Ht). destruct (Hf c t) as [A B]. exists t. rewrite A in Hk. auto.
Qed.

Lemma kept_micro evs st w w' : tame evs -> binv evs w -> uinv w -> micro True (EvReap p st) w w' -> kept w -> kept w'.
Proof.
  intros HT HB HU Hm H. destruct Hm; try (kp; fail); try discriminate.
  - (* aux *) unfold w_aux. cbv zeta.
    assert (X : kept (wupd k0 (set_s_pid p0) (wfork_ok k0 f p0 w))).
    { apply kept_set; [kp|]. intros t _ _ Ej. right. apply forked_log; assumption. }
    destruct (lookup_svc _ _); kp.
  - (* aux fails *) apply kept_set; [kp|]. intros t _ _ ->. right.
    destruct H as (_ & (new & B) & _). eexists ((_, EForkFail k f) :: new), _, _.
    split; [cbn; rewrite B; reflexivity|]. split; [left; reflexivity|cbn; apply Nat.eqb_refl].
  - kp. apply kept_forked, H.
  - destruct (is_run_t (ty s)); [apply kept_forked, H|apply kept_upd; [kq|apply kept_forked, H]].
  - (* gone *) kp. apply freed_cleanup. unfold wcancel. apply freed_upd; [kz|].
    eapply freed_not; [exact H|exact HU|exact H0|]. intros A E. rewrite (i_alive _ _ HB s A) in H5; [discriminate|lia].
  - (* lost *) apply freed_kept with (j := k0). unfold wcancel. repeat (apply freed_upd; [kz|]).
    eapply freed_not; [exact H|exact HU|exact H0|]. intros A E. rewrite (i_alive _ _ HB s A) in H5; [discriminate|lia].
  - assert (X : kept w1) by (subst w1; kp).
    assert (Y : freed k0 w1).
    { apply freed_log; [exact X|]. subst w1. unfold wscript. do 3 eexists. split; [reflexivity|].
      split; [cbn; apply Nat.eqb_refl|]. apply kept_base in H. exact H. }
    clearbody w1. destruct (rc =? 1); kp. apply freed_cleanup, Y.
  - (* sysv *) kp. apply freed_cleanup, freed_log; [kp|]. do 3 eexists. split; [reflexivity|].
      split; [cbn; apply Nat.eqb_refl|]. apply kept_base in H. exact H.
  - (* reload, no pid *) apply kept_set; [exact H|]. intros t Ht Hk Ej. left. intros E. subst k0.
    pose proof (reg_lookup w t HU Ht) as HL. rewrite Hk in HL. unfold L in *. assert (t = s) by congruence. subst. lia.
  - (* collect *) apply find_pid_lookup in H1. destruct H1 as [A B].
    exfalso. rewrite <- B in H2. rewrite (i_alive _ _ HB s A) in H2; [discriminate|lia].
  - apply find_pid_lookup in H3. destruct H3 as [A B]. inversion H0; subst.
    apply freed_collect. eapply freed_not; [apply kept_same; auto|apply uinv_mod; [ua|exact HU]|apply reg_lookup; [apply uinv_mod; [ua|exact HU]|exact A]|]. congruence.
  - assert (X : kept (if s_pid s =? 0 then w else wemit (EForget k0 (s_pid s)) w)) by kp.
    revert X. generalize (if s_pid s =? 0 then w else wemit (EForget k0 (s_pid s)) w). clear. intros w H.
    change (kept (wmod (fun c => c_del k0 (cupd k0 (set_s_pid 0) c)) w)). revert H. apply kept_mod. intros c.
    unfold c_del. destruct (find_key k0 (k_svcs (cupd k0 (set_s_pid 0) c))) eqn:Ef.
    + split; [reflexivity|]. cbn. intros t Ht Hk. apply filter_In in Ht. destruct Ht as [Ht Hn].
      apply in_map_key in Ht. destruct Ht as (t0 & A & [[B ->]|[B ->]]); [|eauto].
      exfalso. cbn in Hn. rewrite B, Nat.eqb_refl in Hn. discriminate.
    + split; [reflexivity|]. intros t Ht Hk. cbn in Ht. unfold find_key in Ef.
      pose proof (find_none _ _ Ef t Ht) as Hn. cbn beta in Hn. rewrite Hk in Hn.
      apply in_map_key in Ht. destruct Ht as (t0 & A & [[B ->]|[B ->]]); [|eauto].
      cbn in Hk. exfalso. rewrite <- Hk, B, Nat.eqb_refl in Hn. discriminate.
  - apply kept_del. kp.
  - apply kept_all; [|kp]. intros _ s. unfold svc_mark. destruct (s_protect s); auto.
  - (* a new record *) destruct H as (A & B & C). split; [cbn; lia|]. split; [exact B|].
    unfold wmod. cbn [wc wl k_svcs set_k_next set_k_svcs]. intros s Hs Hk. apply in_app_or in Hs.
    destruct Hs as [Hs|[<-|[]]]; [apply C; assumption|]. exfalso.
    destruct (fresh_cf (k_next (wc w)) r) as (_ & Ek & _). lia.
  - apply kept_upd; [|exact H]. intros t. unfold f_rereg. cbv zeta.
    destruct (fin_same r (if is_daemon_t (c_type (r_cfg r)) then c_sighup (r_cfg r)
      else if is_runtask_t (c_type (r_cfg r))
        then c_sighup (s_cf (if c_manual (r_cfg r) then t else set_s_block BNone t)) || c_sighup (r_cfg r)
        else c_sighup (s_cf (if c_manual (r_cfg r) then t else set_s_block BNone t)) && c_sighup (r_cfg r))
      (negb (String.eqb (c_args (r_cfg r)) (c_args (s_cf (if c_manual (r_cfg r) then t else set_s_block BNone t)))))
      (if c_manual (r_cfg r) then t else set_s_block BNone t)) as [-> ->].
    destruct (c_manual (r_cfg r)); auto.
  - apply kept_all; [|exact H]. intros _ t. unfold f_affected. destruct (_ && _); auto.
  - apply kept_all; [|exact H]. intros c t. unfold f_unavail, svc_mark. destruct (ifthen_conf _ _); [auto|]. destruct (s_protect t); auto.
  - apply kept_same; [|exact H]. intros c. unfold c_nologin. cbv zeta.
    destruct (_ || _); cbn [k_prev set_k_nologin]; destruct (_ || _); auto.
  - apply kept_all; [|kp]. intros _ t. cbv beta. destruct (_ && _); auto.
Qed.
End Reap.

(** a record's process is in the process table, and is not another record's *)
Lemma prefix_rest evs n before e after cfgl cmdl w1 : tame evs -> evs = before ++ e :: after ->
  history n before cfgl cmdl w1 -> binv evs w1 /\ at_rest w1.
Proof.
  intros HT Ee Hb. eapply (run_binv evs HT n before); [|exact Hb|apply inv_init|apply rest_init].
  intros y Hy. rewrite Ee. apply in_or_app. left. exact Hy.
Qed.
Lemma event_inv evs n e w1 w2 : tame evs -> In e evs -> binv evs w1 -> at_rest w1 ->
  on_event n e w1 = Some (tt, w2) -> binv evs w2 /\ at_rest w2 /\ reach True (eq e) w1 w2.
Proof.
  intros HT Hi Hb Ha H. destruct (event_tame evs HT n e w1 w2 Hi Hb Ha H) as [R Ha2].
  split; [|auto]. revert w2 H Ha2 R. intros w2 _ _. revert w2.
  apply (reach_ind True (eq e) (fun w => binv evs w)); [exact Hb|].
  intros e0 v v' <- Hm _ Hv. apply (inv_micro evs HT e v v' Hi Hm Hv).
Qed.

Theorem reap_others_lem evs n before p st after cfgl cmdl w1 w2 s1 s2 : tame evs ->
  evs = before ++ EvReap p st :: after -> history n before cfgl cmdl w1 ->
  on_event n (EvReap p st) w1 = Some (tt, w2) ->
  In s1 (k_svcs (wc w1)) -> In s2 (k_svcs (wc w2)) -> s_key s2 = s_key s1 ->
  1 < s_pid s1 -> s_pid s1 <> p ->
  s_pid s2 = s_pid s1 \/ exists new c x, wl w2 = new ++ wl w1 /\ In (c, x) new /\ refork (s_key s1) x = true.
Proof.
  intros HT Ee Hb He H1 H2 Hk Hq Hp.
  destruct (prefix_rest _ _ _ _ _ _ _ _ HT Ee Hb) as [B1 A1].
  assert (Hi : In (EvReap p st) evs) by (rewrite Ee; apply in_or_app; right; left; reflexivity).
  destruct (event_inv _ _ _ _ _ HT Hi B1 A1 He) as (_ & _ & R).
  pose proof (history_uinv _ _ _ _ _ Hb) as U1.
  assert (X : binv evs w2 /\ uinv w2 /\ kept (s_key s1) (s_pid s1) (wl w1) w2).
  { clear He H2. revert w2 R.
    apply (reach_ind True (eq (EvReap p st)) (fun w => binv evs w /\ uinv w /\ kept (s_key s1) (s_pid s1) (wl w1) w)).
    - split; [exact B1|]. split; [exact U1|]. split; [apply (u_next _ (u_now _ U1)), in_or_app; left; exact H1|].
      split; [exists []; reflexivity|]. intros s Hs E. left. f_equal.
      eapply nodup_same; [exact (u_nodup _ (u_now _ U1))|apply in_or_app; left; exact Hs|apply in_or_app; left; exact H1|exact E].
    - intros e0 v v' <- Hm _ (V1 & V2 & V3). split; [apply (inv_micro evs HT _ v v' Hi Hm V1)|].
      split; [eapply uinv_micro; eauto|]. eapply kept_micro; eauto. }
  destruct X as (_ & _ & _ & _ & X). apply X; assumption.
Qed.

(** ** a process that was collected is gone, until the kernel uses its number again *)
Section Gone.
Variables (p : Z) (base : log).
Definition again (l : log) : Prop := exists new c k f, l = new ++ base /\ In (c, EFork k f p) new.
Definition np (w : world) : Prop :=
  (exists new, wl w = new ++ base) /\ (In p (k_procs (wc w)) -> again (wl w)).
Lemma again_emit c x l : again l -> again ((c, x) :: l).
Proof. intros (new & c' & k & f & E & H). exists ((c, x) :: new), c', k, f. rewrite E. split; [reflexivity|right; exact H]. Qed.
Lemma np_emit x w : np w -> np (wemit x w).
Proof.
  intros ((new & A) & B). split; [exists ((wc w, x) :: new); cbn; rewrite A; reflexivity|].
  intros H. apply again_emit, B, H.
Qed.
Lemma np_mod g w : (forall c, incl (k_procs (g c)) (k_procs c)) -> np w -> np (wmod g w).
Proof. intros Hg (A & B). split; [exact A|]. intros H. apply B, (Hg (wc w)), H. Qed.
Lemma np_upd k f w : np w -> np (wupd k f w).
Proof. apply np_mod. intros c. apply incl_refl. Qed.
Lemma np_went k new w : np w -> np (went k new w).
Proof.
  intros H. unfold went. destruct (lookup_svc (wc w) k) as [s|]; [|exact H]. unfold wenter. cbv zeta.
  assert (G : forall w1, np w1 -> np (if st_eqb (s_state s) new then w1
           else wupd k (set_s_state new) (wemit (EState k (s_state s) new) w1))).
  { intros w1 H1. destruct (st_eqb (s_state s) new); [exact H1|]. apply np_upd, np_emit, H1. }
  apply G. destruct (st_eqb new Stopping); [|exact H]. unfold wtimeout, wcancel. repeat apply np_upd. exact H.
Qed.
Lemma np_fork k f q w : np w -> np (wfork_ok k f q w).
Proof.
  intros H. unfold wfork_ok. apply np_mod; [intros c; destruct f; apply incl_refl|].
  destruct H as ((new & A) & B). split; [eexists (_ :: new); cbn; rewrite A; reflexivity|].
  cbn. intros [->|H].
  - eexists (_ :: new), _, k, f. rewrite A. split; [reflexivity|left; reflexivity].
  - apply again_emit, B, H.
Qed.
Ltac np1 :=
  match goal with
  | H : np ?w |- np ?w' => constr_eq w w'; exact H
  | |- np (wemit _ _) => apply np_emit
  | |- np (went _ _ _) => apply np_went
  | |- np (wfork_ok _ _ _ _) => apply np_fork
  | |- np (wupd _ _ _) => apply np_upd
  | |- np (wmod _ _) => apply np_mod; [intros ?; apply incl_refl|]
  | |- np (if ?b then _ else _) => destruct b
  | |- np (match ?b with _ => _ end) => destruct b
  end.
Ltac npt := unfold w_done, w_aux, w_collect, w_forked, w_prep, wcleanup, wcancel, wblock, wclean, wtimeout, wscript, wcond, wfork_fail; cbv zeta; repeat np1.
Lemma np_micro calm e w w' : (forall q, e <> EvSpawn q) -> micro calm e w w' -> np w -> np w'.
Proof.
  intros He Hm H.
  assert (DR : forall q, np (wmod (c_drop q) w)).
  { intros q. apply np_mod; [|exact H]. intros c x. cbn. rewrite filter_In. tauto. }
  destruct Hm; try (npt; fail); try (exfalso; eapply He; eassumption).
  - subst w1. npt.
  - specialize (DR lost). npt.
  - apply DR.
  - apply np_mod; [intros c; unfold c_del; destruct (find_key _ (k_svcs c)); apply incl_refl|npt].
  - apply np_mod; [intros c; unfold c_del; destruct (find_key _ (k_svcs c)); apply incl_refl|npt].
  - apply np_mod; [|exact H]. intros c. unfold c_nologin. cbv zeta.
    destruct (_ || _); cbn [k_prev set_k_nologin]; destruct (_ || _); apply incl_refl.
  - apply DR.
Qed.
End Gone.

Theorem reap_gone_lem n evs cfgl cmdl w1 m p st w2 : history n evs cfgl cmdl w1 -> ~ over w1 ->
  on_event m (EvReap p st) w1 = Some (tt, w2) -> In p (k_procs (wc w2)) -> again p (wl w1) (wl w2).
Proof.
  intros Hh Ho He.
  assert (Ed : k_down (wc w1) = false).
  { destruct (k_down (wc w1)) eqn:E; [|reflexivity]. exfalso. apply Ho, (down_over _ _ _ _ _ Hh), E. }
  cut (np p (wl w1) w2); [intros [_ H]; exact H|].
  assert (N0 : forall w, wl w = wl w1 -> ~ In p (k_procs (wc w)) -> np p (wl w1) w).
  { intros w E1 E2. split; [exists []; exact E1|]. intros X. contradiction. }
  unfold on_event, bind at 1, getc at 1 in He. rewrite Ed in He. cbn [handle] in He. unfold bind at 1, getc at 1 in He.
  destruct (memZ p (k_procs (wc w1))) eqn:Em.
  - unfold bind at 1, modc in He.
    set (wd := mkWorld _ _) in He.
    assert (Hd : wd = wmod (c_drop p) w1) by reflexivity. clearbody wd.
    assert (Nd : np p (wl w1) wd).
    { apply N0; [subst; reflexivity|]. subst wd. cbn. rewrite filter_In. intros [_ X]. lia. }
    assert (X : wp (exec m (CMonitor p st)) (fun _ => good False (eq (EvReap p st)) wd) wd).
    { assert (Y : forall n, wp (exec n (CMonitor p st)) (fun _ => good False (eq (EvReap p st)) wd) wd).
      { intros n0. pose proof (exec_all False (eq (EvReap p st)) wd (fun _ => 0%nat)) as Q.
        specialize (Q ltac:(intros []) ltac:(intros []) ltac:(intros []) (EvReap p st) eq_refl n0).
        destruct Q as (_ & _ & I3 & _). apply I3.
        - split; [apply rt_refl|intros []].
        - subst wd. apply (alive_drop (fun _ _ => True)). }
      apply Y. }
    unfold wp in X. rewrite He in X. destruct X as [X _]. clear He. revert w2 X.
    apply (reach_ind False (eq (EvReap p st)) (np p (wl w1))); [exact Nd|].
    intros e v v' <- Hm _. eapply np_micro, Hm. discriminate.
  - inversion He; subst. apply N0; [reflexivity|]. intros X. apply memZ_false in Em. contradiction.
Qed.

Theorem reap_owner_lem evs n before p st after cfgl cmdl w1 w2 : tame evs ->
  evs = before ++ EvReap p st :: after -> history n before cfgl cmdl w1 -> ~ over w1 ->
  on_event n (EvReap p st) w1 = Some (tt, w2) -> 1 < p ->
  (forall s t, In s (k_svcs (wc w1)) -> In t (k_svcs (wc w1)) -> s_pid s = p -> s_pid t = p -> s = t) /\
  (~ again p (wl w1) (wl w2) ->
     (forall s, In s (k_svcs (wc w2)) -> s_pid s <> p) /\
     forall m st', on_event m (EvReap p st') w2 = Some (tt, w2)).
Proof.
  intros HT Ee Hb Ho He Hp.
  destruct (prefix_rest _ _ _ _ _ _ _ _ HT Ee Hb) as [B1 A1].
  assert (Hi : In (EvReap p st) evs) by (rewrite Ee; apply in_or_app; right; left; reflexivity).
  destruct (event_inv _ _ _ _ _ HT Hi B1 A1 He) as (B2 & _ & _).
  split.
  - intros s t Hs Ht E1 E2. eapply nodup_same; [exact (i_nodup _ _ B1)|apply in_or_app; left; exact Hs|apply in_or_app; left; exact Ht|].
    apply (i_dist _ _ B1 s t Hs Ht); lia.
  - intros Hn. assert (Np : ~ In p (k_procs (wc w2))).
    { intros X. apply Hn. eapply reap_gone_lem; eauto. }
    split.
    + intros s Hs E. apply Np. pose proof (i_alive _ _ B2 s Hs ltac:(lia)) as X. apply alive_in in X. congruence.
    + intros m st'. unfold on_event, bind at 1, getc at 1. destruct (k_down (wc w2)); [reflexivity|].
      cbn [handle]. unfold bind at 1, getc at 1.
      destruct (memZ p (k_procs (wc w2))) eqn:Em; [|reflexivity]. exfalso. apply Np, alive_in, Em.
Qed.
