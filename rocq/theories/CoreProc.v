(** More facts about every history: which processes exist, what pids records
    hold, and the runlevel. *)
From Coq Require Import List String Ascii ZArith NArith Bool Lia Arith Relations.
From Coq Require Import ZifyBool ZifyNat.
From Verif Require Import CondModel CoreTypes CoreModel CoreLib CoreMicro CoreExec CoreCalm CoreLog
  CoreSpec CoreAny.
Import ListNotations.
Local Open Scope Z_scope.

(** for whom, and as what, [p] was last started as a main process *)
Fixpoint mfork (p : Z) (l : log) : option (nat * sty) :=
  match l with
  | [] => None
  | (c, EFork k FMain q) :: l =>
      if Z.eqb q p then match lookup_svc c k with Some s => Some (k, ty s) | None => None end
      else mfork p l
  | _ :: l => mfork p l
  end.

(** [named k p]: the pid file of [k] may name [p] *)
Section Proc.
Variable named : nat -> Z -> Prop.

(** where the pid of [s] comes from *)
Definition own (l : log) (k : nat) (p : Z) : Prop :=
  p = 0 \/ (1 < p /\ exists c f, In (c, EFork k f p) l) \/
  (p = -1 /\ exists c f, In (c, EForkFail k f) l /\ is_aux f = true) \/ named k p.
Lemma own_mono l l' k p : (forall x, In x l -> In x l') -> own l k p -> own l' k p.
Proof.
  intros H [E|[(E & c & f & A)|[(E & c & f & A & B)|E]]].
  - left. exact E.
  - right. left. split; [exact E|]. exists c, f. apply H, A.
  - right. right. left. split; [exact E|]. exists c, f. split; [apply H, A|exact B].
  - right. right. right. exact E.
Qed.

Record gbase (w : world) : Prop := {
  g_rl : k_rl (wc w) = level_of (wl w);
  g_prev : k_prev (wc w) = previous_level (wl w);
  g_mains : forall p k, In (p, k) (k_mains (wc w)) ->
     (1 < p /\ memZ p (k_procs (wc w)) = true) /\
     exists t, mfork p (wl w) = Some (k, t) /\ (t = TRun -> k_runblk (wc w) = p);
  g_pid : forall s, In s (recs (wc w)) -> own (wl w) (s_key s) (s_pid s);
  g_assoc : forall p k, In (p, k) (k_assoc (wc w)) -> 1 < p /\ exists c, In (c, EFork k FReady p) (wl w)
}.
Record ginv (w : world) : Prop := {
  g_now : gbase w;
  g_hist : forall l1 c x l2, wl w = l1 ++ (c, x) :: l2 -> gbase (mkWorld c l2)
}.
Lemma ginv_same w w' : wl w' = wl w -> (gbase w -> gbase w') -> ginv w -> ginv w'.
Proof. intros E H [H1 H2]. constructor; [auto|]. rewrite E. exact H2. Qed.
Lemma ginv_log w x c' : ginv w -> gbase (mkWorld c' ((wc w, x) :: wl w)) -> ginv (mkWorld c' ((wc w, x) :: wl w)).
Proof.
  intros [H1 H2] H3. constructor; [exact H3|]. intros l1 c y l2 Hl. destruct l1 as [|z l1]; cbn in Hl.
  - inversion Hl; subst. destruct w; exact H1.
  - inversion Hl; subst. eapply H2. eassumption.
Qed.

Definition plain_eff (x : eff) : bool :=
  match x with ERunlevel _ _ => false | EFork _ FMain _ => false | _ => true end.

Lemma gbase_emit x w : plain_eff x = true -> gbase w -> gbase (wemit x w).
Proof.
  intros Hx [H1 H2 H3 H4 H5]. constructor; cbn [wc wemit wl]; auto.
  - cbn [level_of]. destruct x; try discriminate; exact H1.
  - cbn [previous_level]. destruct x; try discriminate; exact H2.
  - intros p k Hp. destruct (H3 p k Hp) as (A & t & B & C). split; [exact A|]. exists t. split; [|exact C].
    cbn [mfork]. destruct x; try discriminate; try exact B. destruct f; try discriminate; exact B.
  - intros s Hs. eapply own_mono; [|apply H4, Hs]. intros y. apply in_cons.
  - intros p k Hp. destruct (H5 p k Hp) as (A & c & B). split; [exact A|]. exists c. apply in_cons, B.
Qed.
Lemma ginv_emit x w : plain_eff x = true -> ginv w -> ginv (wemit x w).
Proof. intros Hx H. apply ginv_log; [exact H|]. apply (gbase_emit x w Hx), H. Qed.

Lemma ginv_upd k f w : (forall s, s_key (f s) = s_key s /\ (s_pid (f s) = s_pid s \/ s_pid (f s) = 0)) -> ginv w -> ginv (wupd k f w).
Proof.
  intros Hf. apply ginv_same; [reflexivity|]. intros [H1 H2 H3 H4 H5]. constructor; try assumption.
  unfold wupd, wmod. cbn [wc wl]. rewrite recs_upd. intros s' Hin. apply in_map_key in Hin.
  destruct Hin as (s & A & [[_ ->]|[_ ->]]); [|exact (H4 s A)]. destruct (Hf s) as [-> [->| ->]]; [exact (H4 s A)|left; reflexivity].
Qed.

Lemma ginv_mod g w : (forall c, (forall s, In s (recs (g c)) -> In s (recs c)) /\
     k_rl (g c) = k_rl c /\ k_prev (g c) = k_prev c /\
     (forall x, In x (k_mains (g c)) -> In x (k_mains c)) /\
     (forall p, memZ p (k_procs c) = true -> memZ p (k_procs (g c)) = true) /\ k_runblk (g c) = k_runblk c /\
     (forall p k, In (p, k) (k_assoc (g c)) -> In (p, k) (k_assoc c))) ->
  ginv w -> ginv (wmod g w).
Proof.
  intros Hg. apply ginv_same; [reflexivity|]. intros [H1 H2 H3 H4 H5].
  destruct (Hg (wc w)) as (E1 & E2 & E3 & E4 & E5 & E6 & E7).
  constructor; unfold wmod; cbn [wc wl].
  - congruence.
  - congruence.
  - intros p k Hp. destruct (H3 p k (E4 _ Hp)) as ([A1 A] & t & B & C). split; [split; [exact A1|apply E5, A]|]. exists t. split; [exact B|]. rewrite E6. exact C.
  - intros s Hin. apply (H4 s), E1, Hin.
  - intros p k Hp. eapply H5, E7, Hp.
Qed.

Lemma ginv_all f w : (forall c s, s_key (f c s) = s_key s /\ s_pid (f c s) = s_pid s) -> ginv w -> ginv (wmod (f_all f) w).
Proof.
  intros Hf. apply ginv_same; [reflexivity|]. intros [H1 H2 H3 H4 H5]. constructor; try assumption.
  unfold wmod. cbn [wc wl]. intros s' Hin. unfold recs, f_all in Hin. cbn in Hin. apply in_app_or in Hin.
  destruct Hin as [Hin|Hin].
  - apply in_map_iff in Hin. destruct Hin as (s & <- & A). destruct (Hf (wc w) s) as [-> ->]. apply H4. apply in_or_app. auto.
  - apply H4. apply in_or_app. auto.
Qed.

Lemma tmo_same ms cb s : s_key (f_timeout ms cb s) = s_key s /\ s_pid (f_timeout ms cb s) = s_pid s.
Proof. unfold f_timeout. destruct (ms =? 0); [auto|]. destruct (s_timer s); auto. Qed.
Ltac pk := let s := fresh "s" in intros s;
  first [ split; [reflexivity|first [left; reflexivity|right; reflexivity]]
        | split; [apply tmo_same|left; apply tmo_same]
        | unfold f_rtot, f_incr, f_retry, f_giveup; cbv zeta;
          repeat match goal with |- context [if ?b then _ else _] => destruct b end;
          (split; [reflexivity|left; reflexivity]) ].
Ltac ga := let c := fresh in intros c; cbn;
  repeat split; try reflexivity; try (let x := fresh in intros x; exact (fun y => y));
  try (let x := fresh in let y := fresh in intros x y; exact (fun z => z)).

Lemma ginv_went k new w : ginv w -> ginv (went k new w).
Proof.
  intros H. unfold went. destruct (lookup_svc (wc w) k) as [s|] eqn:El; [|exact H].
  unfold wenter. cbv zeta.
  assert (G : forall w1, ginv w1 -> ginv (if st_eqb (s_state s) new then w1
           else wupd k (set_s_state new) (wemit (EState k (s_state s) new) w1))).
  { intros w1 H1. destruct (st_eqb (s_state s) new); [exact H1|]. apply ginv_upd; [pk|]. apply ginv_emit; [reflexivity|exact H1]. }
  apply G. destruct (st_eqb new Stopping); [|exact H]. unfold wtimeout, wcancel. repeat (apply ginv_upd; [pk|]). exact H.
Qed.

Lemma memZ_cons p q l : memZ p l = true -> memZ p (q :: l) = true.
Proof. unfold memZ. cbn. intros ->. apply orb_true_r. Qed.
Ltac gf := let c := fresh in intros c; cbn [recs k_svcs k_gc k_rl k_prev k_mains k_procs k_runblk k_assoc set_k_procs];
  repeat split; first [exact (fun x => x) | reflexivity | intros ?; exact (fun x => x) | intros ? ?; exact (fun x => x)
                       | intros ?; apply memZ_cons].
Lemma ginv_fork k f p w : f <> FMain -> ginv w -> ginv (wfork_ok k f p w).
Proof.
  intros Hf H. unfold wfork_ok.
  apply ginv_mod; [destruct f; try congruence; ga|].
  apply ginv_mod.
  { intros c. repeat split; auto. intros q. apply memZ_cons. }
  apply ginv_emit; [destruct f; try congruence; reflexivity|]. apply ginv_mod; [ga|exact H].
Qed.

Lemma ginv_log' w w' x : ginv w -> wl w' = (wc w, x) :: wl w -> gbase w' -> ginv w'.
Proof.
  intros H E Hb. destruct w' as [c' l']. cbn in E. subst l'. apply ginv_log; assumption.
Qed.

Ltac fkd := try match goal with w1 := _ : world |- _ => subst w1 end; unfold w_forked, wfork_ok; cbv zeta; repeat match goal with |- context [if ?b then _ else _] => destruct b end; cbn; reflexivity.
Lemma ginv_forked k s p w : ginv w -> L w k s -> fresh_pid p w -> k_runblk (wc w) = 0 ->
  ginv (w_forked k s p w).
Proof.
  intros H HL [Hp1 Hp2] Hr.
  set (w1 := wmod (fun c => set_k_forks (tl (k_forks c)) c) (w_prep k w)).
  assert (H1 : ginv w1).
  { subst w1. apply ginv_mod; [ga|]. unfold w_prep. apply ginv_upd; [pk|]. apply ginv_upd; [pk|]. exact H. }
  assert (HL1 : exists s1, lookup_svc (wc w1) k = Some s1 /\ ty s1 = ty s).
  { exists (f_rtot (set_s_starting true s)). split.
    - change (L (w_prep k w) k (f_rtot (set_s_starting true s))). unfold w_prep. lk.
    - unfold ty. unfold f_rtot. destruct (_ && _); reflexivity. }
  destruct HL1 as (s1 & HL1 & Ht1).
  apply (ginv_log' w1 _ (EFork k FMain p) H1).
  { fkd. }
  destruct (g_now _ H1) as [B1 B2 B3 B4 B5].
  assert (El : wl (w_forked k s p w) = (wc w1, EFork k FMain p) :: wl w1).
  { fkd. }
  constructor; rewrite ?El.
  - cbn [level_of]. rewrite <- B1. fkd.
  - cbn [previous_level]. rewrite <- B2. fkd.
  - assert (Em : k_mains (wc (w_forked k s p w)) = (p, k) :: k_mains (wc w1)).
    { fkd. }
    assert (Ep : k_procs (wc (w_forked k s p w)) = p :: k_procs (wc w1)).
    { fkd. }
    assert (Er : k_runblk (wc (w_forked k s p w)) = if is_run_t (ty s) then p else k_runblk (wc w1)).
    { fkd. }
    rewrite Em, Ep, Er. intros q j [E|Hq].
    + inversion E; subst q j. split; [split; [exact Hp1|unfold memZ; cbn; rewrite Z.eqb_refl; reflexivity]|].
      exists (ty s). cbn [mfork]. rewrite Z.eqb_refl, HL1, Ht1. split; [reflexivity|].
      intros E2. rewrite E2. reflexivity.
    + destruct (B3 q j Hq) as ([A1 A2] & t & A3 & A4).
      assert (Hne : p <> q).
      { intros ->. change (k_procs (wc w1)) with (k_procs (wc w)) in A2. congruence. }
      split; [split; [exact A1|apply memZ_cons, A2]|]. exists t. cbn [mfork].
      replace (p =? q) with false by lia. split; [exact A3|]. intros E. specialize (A4 E).
      change (k_runblk (wc w1)) with (k_runblk (wc w)) in A4. lia.
  - intros t Ht.
    assert (G : In t (recs (cupd k (set_s_pid p) (wc w1)))).
    { unfold w_forked in Ht. cbv zeta in Ht. destruct (uses_socket s), (is_run_t (ty s)); exact Ht. }
    rewrite recs_upd in G. apply in_map_key in G. destruct G as (t0 & A & [[E ->]|[_ ->]]).
    + right. left. split; [exact Hp1|]. exists (wc w1), FMain. left. cbn. congruence.
    + eapply own_mono; [|apply B4, A]. intros y. apply in_cons.
  - assert (Ea : k_assoc (wc (w_forked k s p w)) = k_assoc (wc w1)).
    { fkd. }
    rewrite Ea. intros q j Hq. destruct (B5 q j Hq) as (A & c & B). split; [exact A|]. exists c. apply in_cons, B.
Qed.

(** a process that is gone *)
Definition fgone (p : Z) (w : world) : Prop := memZ p (k_procs (wc w)) = false.
Lemma memZ_filter p q l : p <> q -> memZ p l = true -> memZ p (filter (fun x => negb (x =? q)) l) = true.
Proof.
  intros Hn. unfold memZ. rewrite !existsb_exists. intros (x & Hx & E). exists x. split; [|exact E].
  apply filter_In. split; [exact Hx|]. lia.
Qed.
Lemma ginv_drop p w : ginv w -> ginv (wmod (c_drop p) w).
Proof.
  apply ginv_same; [reflexivity|]. intros [H1 H2 H3 H4 H5]. constructor; try assumption.
  unfold wmod. cbn [wc wl]. intros q k. unfold c_drop. cbn [k_mains k_procs k_runblk set_k_procs set_k_mains].
  intros Hq. apply filter_In in Hq. destruct Hq as [Hq Hne]. cbn in Hne.
  destruct (H3 q k Hq) as ([A1 A2] & t & A3). split; [split; [exact A1|]|eauto].
  apply memZ_filter; [lia|exact A2].
Qed.
Lemma alive_drop p w : alive (c_drop p (wc w)) p = false.
Proof.
  unfold alive, c_drop, memZ. cbn. destruct (existsb _ _) eqn:E; [|reflexivity].
  apply existsb_exists in E. destruct E as (x & Hx & E). apply filter_In in Hx. lia.
Qed.
Lemma ginv_collect lost st s w : alive (wc w) lost = false -> ginv w -> ginv (w_collect lost st s w).
Proof.
  intros Ha H. unfold w_collect. cbv zeta.
  match goal with |- ginv (if _ then _ (_ _ ?x) else _) => set (w1 := x);
    assert (X : ginv w1); [subst w1|] end.
  { unfold wcleanup, wcancel.
    repeat match goal with
    | |- ginv (if ?b then _ else _) => destruct b
    | |- ginv (wemit _ _) => apply ginv_emit; [reflexivity|]
    | |- ginv (wupd _ _ _) => apply ginv_upd; [pk|]
    end; exact H. }
  assert (Ea : alive (wc w1) lost = false).
  { subst w1. unfold wcleanup, wcancel.
    repeat match goal with |- context [if ?b then _ else _] => destruct b end; exact Ha. }
  destruct (lost =? k_runblk (wc w1)) eqn:El; [|exact X]. apply Z.eqb_eq in El.
  apply ginv_same with (w := wclean (s_key s) w1); [reflexivity| |unfold wclean; apply ginv_upd; [pk|exact X]].
  intros [H1 H2 H3 H4 H5]. constructor; try assumption.
  intros q k Hq. destruct (H3 q k Hq) as ([A1 A2] & t & A3 & A4). split; [split; assumption|].
  exists t. split; [exact A3|]. intros E. specialize (A4 E).
  change (k_runblk (wc (wclean (s_key s) w1))) with (k_runblk (wc w1)) in A4.
  change (k_procs (wc (wclean (s_key s) w1))) with (k_procs (wc w1)) in A2.
  exfalso. unfold alive in Ea. congruence.
Qed.

Ltac gi1 :=
  match goal with
  | H : ginv ?w |- ginv ?w' => constr_eq w w'; exact H
  | |- ginv (wemit _ _) => apply ginv_emit; [reflexivity|]
  | |- ginv (went _ _ _) => apply ginv_went
  | |- ginv (wupd _ _ _) => apply ginv_upd; [pk|]
  | |- ginv (wfork_ok _ _ _ _) => apply ginv_fork; [discriminate|]
  | |- ginv (wmod _ _) => apply ginv_mod; [ga|]
  | |- ginv (if ?b then _ else _) => destruct b
  end.
Ltac gi := unfold w_done, wcleanup, wcancel, wblock, wclean, wtimeout, wscript, wcond, wfork_fail, w_prep; cbv zeta; repeat gi1.

Lemma mark_same s : s_key (svc_mark s) = s_key s /\ s_pid (svc_mark s) = s_pid s.
Proof. unfold svc_mark. destruct (s_protect s); auto. Qed.
Lemma fin_same r hup ad s : s_key (f_fin r hup ad s) = s_key s /\ s_pid (f_fin r hup ad s) = s_pid s.
Proof.
  unfold f_fin. cbv zeta. destruct (is_runtask_t _ && _), (r_changed r || ad), (r_static r); auto.
Qed.

Lemma ginv_micro calm e w w' : (forall k p, e = EvPidfile k (Some p) -> named k p) -> micro calm e w w' -> ginv w -> ginv w'.
Proof.
  intros He Hm H. destruct Hm; try (gi; fail).
  - unfold w_aux. cbv zeta. assert (f <> FMain) by (intros ->; discriminate).
    assert (X : ginv (wupd k (set_s_pid p) (wfork_ok k f p w))).
    { assert (Y : ginv (wfork_ok k f p w)) by (apply ginv_fork; assumption). revert Y. apply ginv_same; [reflexivity|].
      intros [B1 B2 B3 B4 B5]. constructor; try assumption.
      intros t Ht. unfold wupd, wmod in Ht. cbn [wc] in Ht. rewrite recs_upd in Ht. apply in_map_key in Ht.
      destruct Ht as (t0 & A & [[E ->]|[_ ->]]); [|exact (B4 _ A)].
      right. left. split; [apply H0|]. cbn. rewrite E. eexists. exists f. left. reflexivity. }
    destruct (lookup_svc _ _); [unfold wtimeout; apply ginv_upd; [pk|exact X]|apply ginv_emit; [reflexivity|exact X]].
  - assert (Y : ginv (wfork_fail k f w)) by gi. revert Y. apply ginv_same; [reflexivity|].
    intros [B1 B2 B3 B4 B5]. constructor; try assumption.
    intros t Ht. unfold wupd, wmod in Ht. cbn [wc] in Ht. rewrite recs_upd in Ht. apply in_map_key in Ht.
    destruct Ht as (t0 & A & [[E ->]|[_ ->]]); [|exact (B4 _ A)].
    right. right. left. split; [reflexivity|]. cbn. rewrite E. eexists. exists f. split; [left; reflexivity|exact H0].
  - destruct H0 as (HL & _ & _ & _ & Hr & _). gi. apply ginv_forked; assumption.
  - destruct H0 as (HL & _ & _ & _ & Hr & _). gi; apply ginv_forked; assumption.
  - subst w1. gi.
  - unfold wtimeout. apply ginv_upd; [pk|].
    assert (X : ginv (wfork_ok k FReady p w)) by gi. revert X. apply ginv_same; [reflexivity|].
    intros [H3 H4 H5 H6 H7]. constructor; try assumption.
    cbn. intros q j Hq. apply in_app_or in Hq. destruct Hq as [Hq|[Hq|[]]]; [eapply H7, Hq|]. inversion Hq; subst. split; [apply H1|]. eexists. left. reflexivity.
  - assert (X : ginv (wfork_ok k FReady p w)) by gi. revert X. apply ginv_same; [reflexivity|].
    intros [H3 H4 H5 H6 H7]. constructor; try assumption.
    cbn. intros q j Hq. apply in_app_or in Hq. destruct Hq as [Hq|[Hq|[]]]; [eapply H7, Hq|]. inversion Hq; subst. split; [apply H1|]. eexists. left. reflexivity.
  - apply ginv_collect; assumption.
  - apply ginv_collect; [apply alive_drop|]. apply ginv_drop, H.
  - apply ginv_drop, H.
  - apply ginv_mod.
    { intros c. repeat split; auto. cbn. intros a b Ha. apply filter_In in Ha. tauto. }
    apply ginv_emit; [reflexivity|]. destruct (lookup_svc _ _); gi.
  - apply ginv_mod; [|gi]. intros c. split; [apply recs_del|]. unfold c_del. destruct (find_key _ (k_svcs c)); cbn; repeat split; auto.
  - apply ginv_mod; [|gi]. intros c. split; [apply recs_del|]. unfold c_del. destruct (find_key _ (k_svcs c)); cbn; repeat split; auto.
  - apply ginv_all; [|gi]. intros _. apply mark_same.
  - revert H. apply ginv_same; [reflexivity|]. intros [B3 B4 B5 B6 B7]. constructor; try assumption.
    unfold wmod. cbn [wc wl]. intros t Ht. unfold recs in Ht. cbn in Ht. rewrite !in_app_iff in Ht. cbn in Ht.
    assert (In t (recs (wc w)) \/ t = fresh_svc (k_next (wc w)) r) as [Ha|Ha]
      by (unfold recs; rewrite in_app_iff; intuition).
    + apply B6, Ha.
    + subst t. unfold fresh_svc. cbv zeta. left. rewrite (proj2 (fin_same _ _ _ _)). destruct (c_manual (r_cfg r)); reflexivity.
  - apply ginv_upd; [|exact H]. intros t. unfold f_rereg. cbv zeta. rewrite (proj1 (fin_same _ _ _ _)), (proj2 (fin_same _ _ _ _)). destruct (c_manual (r_cfg r)); auto.
  - apply ginv_all; [|exact H]. intros _ t. unfold f_affected. destruct (_ && _); auto.
  - apply ginv_all; [|exact H]. intros c t. unfold f_unavail. destruct (ifthen_conf _ _); [auto|apply mark_same].
  - apply ginv_log' with (w := w) (x := ERunlevel (k_rl (wc w)) (k_newl (wc w))); [exact H|reflexivity|].
    destruct (g_now _ H) as [H3 H4 H5 H6 H7]. constructor; cbn [wl wc wmod wemit]; try assumption; try reflexivity.
    + intros s Hs. eapply own_mono; [|apply H6, Hs]. intros y. apply in_cons.
    + intros p k Hp. destruct (H7 p k Hp) as (A & c & B). split; [exact A|]. exists c. apply in_cons, B.
  - apply ginv_mod; [|exact H]. intros c. unfold c_nologin. cbv zeta.
    destruct (_ || _); cbn [k_prev set_k_nologin]; destruct (_ || _); cbn; auto 10.
  - apply ginv_mod; [|exact H].
    intros c. repeat split; auto. cbn. intros a b Ha. apply filter_In in Ha. tauto.
  - cbv zeta. destruct (c_oncrash (s_cf s)); gi.
  - apply ginv_mod; [|exact H]. intros c. cbn. repeat split; auto.
    intros t. unfold recs. cbn. rewrite !in_app_iff, filter_In. tauto.
  - revert H. apply ginv_same; [reflexivity|]. intros [H3 H4 H5 H6 H7]. constructor; try assumption.
    intros t Ht. unfold wupd, wmod in Ht. cbn [wc] in Ht. rewrite recs_upd in Ht. apply in_map_key in Ht.
    destruct Ht as (t0 & A & [[E ->]|[_ ->]]); [|exact (H6 _ A)].
    right. right. right. cbn. rewrite E. exact (He k p H0).
  - apply ginv_all; [|gi]. intros _ t. cbv beta. destruct (_ && _); auto.
  - apply ginv_drop, H.
  - apply ginv_mod; [|exact H]. intros c. cbn. repeat split; auto. intros q. apply memZ_cons.
Qed.

Lemma ginv_init cfgl cmdl : ginv (init_world cfgl cmdl).
Proof.
  constructor; [constructor; cbn; tauto|]. intros l1 c x l2 Hl. destruct l1; discriminate.
Qed.
Lemma reach_ginv calm (E : ev -> Prop) w00 w : (forall k p, E (EvPidfile k (Some p)) -> named k p) ->
  ginv w00 -> reach calm E w00 w -> ginv w.
Proof.
  intros HE H0. apply reach_ind; [exact H0|]. intros e w1 w2 He Hm _. apply (ginv_micro calm e); [intros k p ->; apply HE, He|exact Hm].
Qed.
End Proc.
