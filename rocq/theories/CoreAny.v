(** Facts about every history, whatever the configuration.

    [uinv]: records are unique, keys are never reused, and the state of a
    record is the one its last state change in the log says. *)
From Coq Require Import List String Ascii ZArith Bool Lia Arith Relations.
From Coq Require Import ZifyBool ZifyNat.
From Verif Require Import CondModel CoreTypes CoreModel CoreLib CoreMicro CoreExec CoreCalm CoreLog CoreSpec.
Import ListNotations.
Local Open Scope Z_scope.

(** the state the log says record [k] is in *)
Fixpoint laststate (k : nat) (l : log) : sst :=
  match l with
  | [] => Halted
  | (_, EState j _ new) :: l => if Nat.eqb j k then new else laststate k l
  | _ :: l => laststate k l
  end.


Record ubase (w : world) : Prop := {
  u_nodup : NoDup (map s_key (recs (wc w)));
  u_next : forall s, In s (recs (wc w)) -> (s_key s < k_next (wc w))%nat;
  u_log : forall k, (k_next (wc w) <= k)%nat -> laststate k (wl w) = Halted;
  u_state : forall s, In s (recs (wc w)) -> s_state s = laststate (s_key s) (wl w);
  u_phase : k_inrl (wc w) = false -> in_stop_phase (wl w) = false
}.
(** now, and whenever something was done *)
Record uinv (w : world) : Prop := {
  u_now : ubase w;
  u_hist : forall l1 c x l2, wl w = l1 ++ (c, x) :: l2 -> ubase (mkWorld c l2)
}.
Lemma uinv_same w w' : wl w' = wl w -> (ubase w -> ubase w') -> uinv w -> uinv w'.
Proof. intros E H [H1 H2]. constructor; [auto|]. rewrite E. exact H2. Qed.
Lemma uinv_log w x : uinv w -> ubase (wemit x w) -> uinv (wemit x w).
Proof.
  intros [H1 H2] H3. constructor; [exact H3|]. intros l1 c y l2 Hl. destruct l1 as [|z l1]; cbn in Hl.
  - inversion Hl; subst. destruct w; exact H1.
  - inversion Hl; subst. eapply H2. eassumption.
Qed.

Definition no_state (x : eff) : bool :=
  match x with EState _ _ _ | EStopBegin => false | _ => true end.

Lemma uinv_emit x w : no_state x = true -> uinv w -> uinv (wemit x w).
Proof.
  intros Hx H. apply uinv_log; [exact H|]. destruct (u_now _ H) as [H1 H2 H3 H4 H5].
  assert (E : forall k, laststate k (wl (wemit x w)) = laststate k (wl w)).
  { intros k. destruct x; try discriminate; reflexivity. }
  constructor; try assumption.
  - intros k Hk. rewrite E. apply H3, Hk.
  - intros s Hs. rewrite E. apply H4, Hs.
  - cbn [wc wemit wl in_stop_phase]. intros Hi. specialize (H5 Hi). destruct x; try discriminate; auto.
Qed.

Definition quiet (f : svc -> svc) : Prop := forall s, s_key (f s) = s_key s /\ s_state (f s) = s_state s.

Lemma uinv_upd k f w : quiet f -> uinv w -> uinv (wupd k f w).
Proof.
  intros Hf. apply uinv_same; [reflexivity|]. intros [H1 H2 H3 H4 H5].
  assert (Hin : forall s', In s' (recs (wc (wupd k f w))) ->
            exists s, In s (recs (wc w)) /\ s_key s' = s_key s /\ s_state s' = s_state s).
  { unfold wupd, wmod. cbn [wc]. rewrite recs_upd. intros s' Hs. apply in_map_key in Hs.
    destruct Hs as (s & A & [[_ ->]|[_ ->]]); exists s; [destruct (Hf s)|]; auto. }
  constructor.
  - unfold wupd, wmod. cbn [wc]. rewrite recs_upd, map_key_keys by (intros; apply Hf). exact H1.
  - intros s' Hs. destruct (Hin s' Hs) as (s & A & -> & _). apply (H2 s A).
  - exact H3.
  - intros s' Hs. destruct (Hin s' Hs) as (s & A & -> & ->). apply (H4 s A).
  - exact H5.
Qed.

Lemma uinv_mod g w : (forall c, k_svcs (g c) = k_svcs c /\ k_gc (g c) = k_gc c /\ k_next (g c) = k_next c
     /\ (k_inrl (g c) = false -> k_inrl c = false)) ->
  uinv w -> uinv (wmod g w).
Proof.
  intros Hg. apply uinv_same; [reflexivity|]. intros [H1 H2 H3 H4 H5]. destruct (Hg (wc w)) as (E1 & E2 & E3 & E4).
  constructor; unfold recs, wmod in *; cbn [wc wl]; rewrite ?E1, ?E2, ?E3; auto.
Qed.

Lemma uinv_all f w : (forall c, quiet (f c)) -> uinv w -> uinv (wmod (f_all f) w).
Proof.
  intros Hf. apply uinv_same; [reflexivity|]. intros [H1 H2 H3 H4 H5]. unfold wmod in *. specialize (Hf (wc w)).
  assert (Hin : forall s', In s' (recs (f_all f (wc w))) ->
            exists s, In s (recs (wc w)) /\ s_key s' = s_key s /\ s_state s' = s_state s).
  { intros s' Hs. unfold recs, f_all in Hs. cbn in Hs. apply in_app_or in Hs. destruct Hs as [Hs|Hs].
    - apply in_map_iff in Hs. destruct Hs as (s & <- & A). exists s. destruct (Hf s). split; [apply in_or_app; auto|auto].
    - exists s'. split; [apply in_or_app; auto|auto]. }
  constructor; cbn [wc wl].
  - unfold recs, f_all in *. cbn. rewrite map_app, map_map in *.
    erewrite map_ext; [exact H1|]. intros s. apply Hf.
  - intros s' Hs. destruct (Hin s' Hs) as (s & A & -> & _). apply (H2 s A).
  - exact H3.
  - intros s' Hs. destruct (Hin s' Hs) as (s & A & -> & ->). apply (H4 s A).
  - exact H5.
Qed.

Lemma quiet_timeout ms cb : quiet (f_timeout ms cb).
Proof. intros s. unfold f_timeout. destruct (ms =? 0); [auto|]. destruct (s_timer s); auto. Qed.
Lemma quiet_rtot : quiet f_rtot.
Proof. intros s. unfold f_rtot. destruct (_ && _); auto. Qed.
Lemma quiet_retry : quiet f_retry.
Proof. intros s. unfold f_retry. cbn. destruct (_ =? _); auto. Qed.
Ltac qt := first [ exact quiet_rtot | exact quiet_retry | apply quiet_timeout
                 | let s := fresh in intros s; cbn; split; reflexivity ].
Ltac ua := let c := fresh in intros c; cbn; repeat split; first [reflexivity | let X := fresh in intros X; first [exact X | discriminate X]].

(** the only way the state of a record changes *)
Lemma uinv_went k new w : uinv w -> uinv (went k new w).
Proof.
  intros H. unfold went. destruct (lookup_svc (wc w) k) as [s|] eqn:El; [|exact H].
  assert (G : forall w1, uinv w1 -> (exists s1, lookup_svc (wc w1) k = Some s1 /\ s_state s1 = s_state s) ->
     uinv (if st_eqb (s_state s) new then w1
           else wupd k (set_s_state new) (wemit (EState k (s_state s) new) w1))).
  { clear. intros w1 H (s1 & El & Es). destruct (st_eqb (s_state s) new) eqn:E; [exact H|].
    assert (HE : uinv (mkWorld (wc (wupd k (set_s_state new) w1)) ((wc w1, EState k (s_state s) new) :: wl w1))).
    2: exact HE.
    destruct (u_now _ H) as [H1 H2 H3 H4 H5]. destruct (lookup_in _ _ _ El) as [Hin Hk].
    split.
    2:{ intros l1 c x l2 Hl. destruct l1 as [|y l1]; cbn in Hl; inversion Hl; subst;
        [destruct w1; exact (u_now _ H)|eapply (u_hist _ H); eassumption]. }
    constructor; cbn [wl wc].
    - unfold wupd, wmod. cbn [wc wemit]. rewrite recs_upd, map_key_keys by reflexivity. exact H1.
    - unfold wupd, wmod. cbn [wc wemit]. rewrite recs_upd. intros s' Hs. apply in_map_key in Hs.
      destruct Hs as (t & A & [[_ ->]|[_ ->]]); apply (H2 t A).
    - intros j Hj. cbn [laststate]. destruct (Nat.eqb k j) eqn:Ej; [|apply H3, Hj].
      apply Nat.eqb_eq in Ej. subst j. specialize (H2 s1 Hin). cbn in Hj. lia.
    - unfold wupd, wmod. cbn [wc wemit]. rewrite recs_upd. intros s' Hs. apply in_map_key in Hs.
      cbn [laststate]. destruct Hs as (t & A & [[B ->]|[B ->]]).
      + cbn [s_key set_s_state s_state]. rewrite B, Nat.eqb_refl. reflexivity.
      + replace (Nat.eqb k (s_key t)) with false; [apply (H4 t A)|]. symmetry. apply Nat.eqb_neq. auto.
    - exact H5. }
  unfold wenter. cbv zeta. destruct (st_eqb new Stopping).
  - apply G.
    + unfold wtimeout, wcancel. repeat (apply uinv_upd; [qt|]). exact H.
    + eexists. split; [apply (L_wupd k (set_s_killed false)); [keyid|]; unfold wtimeout, wcancel; lk; exact El|].
      exact (proj2 (quiet_timeout _ _ (set_s_timer TmNone s))).
  - apply G; [exact H|]. eauto.
Qed.

Lemma recs_del k c t : In t (recs (c_del k c)) -> In t (recs c).
Proof.
  unfold c_del. destruct (find_key k (k_svcs c)) as [s|] eqn:Ef; [|auto].
  pose proof (find_key_in _ _ _ Ef) as [Hs Hk].
  intros Ht. unfold recs in *. cbn in Ht. rewrite !in_app_iff in *. rewrite filter_In in Ht. cbn in Ht.
  intuition. subst. auto.
Qed.
Lemma nodup_app_split {A} (a b : list A) : NoDup (a ++ b) <-> NoDup a /\ NoDup b /\ forall x, In x a -> ~ In x b.
Proof.
  induction a as [|x a IH]; cbn.
  - split; [intros H; split; [constructor|auto]|tauto].
  - split.
    + intros H. inversion H; subst. apply IH in H3. destruct H3 as (A1 & A2 & A3). rewrite in_app_iff in H2.
      split; [constructor; tauto|]. split; [exact A2|]. intros y [->|Hy]; [tauto|auto].
    + intros (H1 & H2 & H3). inversion H1; subst. constructor.
      * rewrite in_app_iff. intros [X|X]; [auto|]. eapply H3; eauto.
      * apply IH. split; [assumption|]. split; [assumption|]. intros y Hy. apply H3. auto.
Qed.
Lemma nodup_del k c : NoDup (map s_key (recs c)) -> NoDup (map s_key (recs (c_del k c))).
Proof.
  intros H1. unfold c_del. destruct (find_key k (k_svcs c)) as [s|] eqn:Ef; [|exact H1].
  pose proof (find_key_in _ _ _ Ef) as [Hs Hk].
  unfold recs in *. cbn. rewrite !map_app in *. cbn. apply nodup_app_split in H1. destruct H1 as (N1 & N2 & N3).
  apply nodup_app_split. split; [apply nodup_filter, N1|]. split.
  - apply nodup_app_split. split; [exact N2|]. split; [repeat constructor; auto|].
    intros x Hx [X|[]]. subst x. eapply N3; [|exact Hx]. apply in_map, Hs.
  - intros x Hx Hy. apply in_map_iff in Hx. destruct Hx as (y & E & Y). apply filter_In in Y.
    destruct Y as [Y1 Y2]. rewrite in_app_iff in Hy. destruct Hy as [Hy|[Hy|[]]].
    + eapply N3; [|exact Hy]. rewrite <- E. apply in_map, Y1.
    + rewrite E, <- Hy, Hk, Nat.eqb_refl in Y2. discriminate.
Qed.
Lemma uinv_del k w : uinv w -> uinv (wmod (c_del k) w).
Proof.
  apply uinv_same; [reflexivity|]. intros [H1 H2 H3 H4 H5]. assert (E : k_next (c_del k (wc w)) = k_next (wc w))
    by (unfold c_del; destruct (find_key _ _); reflexivity).
  constructor; unfold wmod; cbn [wc wl].
  - apply nodup_del, H1.
  - intros s Hs. rewrite E. apply H2, (recs_del k), Hs.
  - rewrite E. exact H3.
  - intros s Hs. apply H4, (recs_del k), Hs.
  - replace (k_inrl (c_del k (wc w))) with (k_inrl (wc w)); [exact H5|].
    unfold c_del. destruct (find_key _ _); reflexivity.
Qed.

Lemma uinv_new r w : uinv w ->
  uinv (wmod (fun c => set_k_next (S (k_next c)) (set_k_svcs (k_svcs c ++ [fresh_svc (k_next c) r]) c)) w).
Proof.
  apply uinv_same; [reflexivity|]. intros [H1 H2 H3 H4 H5]. unfold wmod. set (c := wc w) in *.
  destruct (fresh_cf (k_next c) r) as (_ & Ek & _ & _ & Es).
  set (n := fresh_svc (k_next c) r) in *. clearbody n.
  assert (Hin : forall t, In t (recs (set_k_next (S (k_next c)) (set_k_svcs (k_svcs c ++ [n]) c))) ->
            In t (recs c) \/ t = n).
  { intros t Ht. unfold recs in *. cbn in Ht. rewrite !in_app_iff in *. cbn in Ht. intuition. }
  constructor; cbn [wc wl].
  - unfold recs in *. cbn. rewrite !map_app in *. cbn. rewrite Ek, <- app_assoc. cbn.
    apply NoDup_Add with (a := k_next c) (l := map s_key (k_svcs c) ++ map s_key (k_gc c)).
    + apply Add_app.
    + split; [exact H1|]. rewrite <- map_app. intros X. apply in_map_iff in X.
      destruct X as (y & Y1 & Y2). specialize (H2 y Y2). lia.
  - intros t Ht. cbn. destruct (Hin t Ht) as [A|A]; [specialize (H2 t A); lia|subst; lia].
  - intros k Hk. apply H3. cbn in Hk. lia.
  - intros t Ht. destruct (Hin t Ht) as [A|A]; [apply (H4 t A)|subst t]. rewrite Es, Ek. symmetry. apply H3. lia.
  - exact H5.
Qed.

Ltac ui1 :=
  match goal with
  | H : uinv ?w |- uinv ?w' => constr_eq w w'; exact H
  | |- uinv (wemit _ _) => apply uinv_emit; [reflexivity|]
  | |- uinv (went _ _ _) => apply uinv_went
  | |- uinv (wupd _ _ _) => apply uinv_upd; [qt|]
  | |- uinv (wmod _ _) => apply uinv_mod; [ua|]
  | |- uinv (if ?b then _ else _) => destruct b
  end.
Ltac ui := unfold w_done, wcleanup, wcancel, wblock, wclean, wtimeout, wscript, wcond, wfork_fail, wfork_ok, w_prep; cbv zeta; repeat ui1.

Lemma uinv_collect lost st s w : uinv w -> uinv (w_collect lost st s w).
Proof. 
  intros H. unfold w_collect. cbv zeta.
  match goal with |- uinv (if _ then _ (_ _ ?x) else _) => assert (X : uinv x) by (ui) end.
  ui.
Qed.

Lemma quiet_fin r hup ad : quiet (f_fin r hup ad).
Proof.
  intros s. unfold f_fin. cbv zeta.
  destruct (is_runtask_t _ && _), (r_changed r || ad), (r_static r); auto.
Qed.
Lemma quiet_rereg r : quiet (f_rereg r).
Proof.
  intros s. unfold f_rereg. cbv zeta.
  destruct (c_manual (r_cfg r)); match goal with |- context [f_fin ?a ?b ?c ?d] => destruct (quiet_fin a b c d) as [-> ->] end; auto.
Qed.
Lemma quiet_mark : quiet svc_mark.
Proof. intros s. unfold svc_mark. destruct (s_protect s); auto. Qed.

Lemma uinv_micro calm e w w' : micro calm e w w' -> uinv w -> uinv w'.
Proof.
  intros Hm H. destruct Hm; try (ui; fail).
  - unfold w_aux. cbv zeta.
    match goal with |- context [lookup_svc (wc ?x) _] => assert (X : uinv x) by ui end.
    destruct (lookup_svc _ _); ui.
  - unfold w_forked. ui.
  - unfold w_forked. ui.
  - subst w1. ui.
  - apply uinv_collect, H.
  - apply uinv_collect, uinv_mod; [ua|exact H].
  - apply uinv_del. ui.
  - apply uinv_del. ui.
  - apply uinv_all; [intros; apply quiet_mark|ui].
  - apply uinv_new, H.
  - apply uinv_upd; [apply quiet_rereg|exact H].
  - apply uinv_all; [|exact H]. intros c t. unfold f_affected. destruct (_ && _); auto.
  - apply uinv_all; [|exact H]. intros c t. unfold f_unavail. destruct (ifthen_conf _ _); [auto|apply quiet_mark].
  - (* stopping begins *)
    assert (X : uinv (wmod (set_k_inrl true) w)) by ui.
    apply uinv_log; [exact X|]. destruct (u_now _ X) as [H1 H2 H3 H4 H5]. constructor; try assumption. discriminate.
  - (* starting begins *)
    apply uinv_log with (x := EStartBegin) in H.
    + revert H. apply uinv_same; [reflexivity|]. intros [H1 H2 H3 H4 H5]. constructor; cbn [wc wl wmod] in *; try assumption.
      reflexivity.
    + destruct (u_now _ H) as [H1 H2 H3 H4 H5]. constructor; try assumption. reflexivity.
  - apply uinv_mod; [|exact H]. intros c. unfold c_nologin. cbv zeta.
    destruct (_ || _); cbn [k_prev set_k_nologin]; destruct (_ || _); cbn; auto.
  - cbv zeta. destruct (c_oncrash (s_cf s)); ui.
  - (* collecting a dead record *)
    revert H. apply uinv_same; [reflexivity|]. intros [H1 H2 H3 H4 H5]. constructor; unfold wmod; cbn [wc wl]; unfold recs in *; cbn.
    + rewrite !map_app in *. apply nodup_app_split in H1. destruct H1 as (N1 & N2 & N3).
      apply nodup_app_split. split; [exact N1|]. split; [apply nodup_filter, N2|].
      intros x Hx Hy. apply (N3 x Hx). apply in_map_iff in Hy. destruct Hy as (y & <- & Hy).
      apply filter_In in Hy. apply in_map. tauto.
    + intros t Ht. apply H2. rewrite in_app_iff in *. rewrite filter_In in Ht. tauto.
    + exact H3.
    + intros t Ht. apply H4. rewrite in_app_iff in *. rewrite filter_In in Ht. tauto.
    + exact H5.
  - apply uinv_all; [|ui]. intros c t. cbv beta. destruct (_ && _); auto.
Qed.

Lemma uinv_init cfgl cmdl : uinv (init_world cfgl cmdl).
Proof.
  constructor; [constructor; cbn; try tauto; constructor|]. intros l1 c x l2 Hl. destruct l1; discriminate.
Qed.

(** ** Histories *)

Section Reach.
Variable calm : Prop.
Variable E : ev -> Prop.

Lemma reach_ind (P : world -> Prop) w00 :
  P w00 ->
  (forall e w w', E e -> micro calm e w w' -> reach calm E w00 w -> P w -> P w') ->
  forall w, reach calm E w00 w -> P w.
Proof.
  intros H0 Hs w Hr. unfold reach in Hr. apply clos_rt_rtn1 in Hr.
  induction Hr as [|y z (e & He & Hm) Hr IH]; [exact H0|].
  apply (Hs e y z He Hm); [|exact IH]. apply clos_rtn1_rt, Hr.
Qed.

Lemma reach_uinv w00 w : uinv w00 -> reach calm E w00 w -> uinv w.
Proof. intros H0. apply reach_ind; [exact H0|]. intros e w1 w2 _ Hm _. apply (uinv_micro calm e), Hm. Qed.

(** every entry of the log is justified *)
Lemma reach_facts w00 w : wl w00 = [] -> reach calm E w00 w ->
  forall l1 c x l2, wl w = l1 ++ (c, x) :: l2 -> exists e, E e /\ fact calm e c x l2.
Proof.
  intros H0. revert w. apply (reach_ind (fun w => forall l1 c x l2, wl w = l1 ++ (c, x) :: l2 -> exists e, E e /\ fact calm e c x l2)).
  - intros l1 c x l2 H. rewrite H0 in H. destruct l1; discriminate.
  - intros e w w' He Hm _ IH l1 c x l2 Hl.
    destruct (micro_facts calm e w w' Hm) as (new & En & Hf). rewrite En in Hl.
    clear En Hm. revert l1 Hl. induction new as [|(c1, x1) new IHn]; intros l1 Hl.
    + apply (IH _ _ _ _ Hl).
    + destruct l1 as [|y l1]; cbn in Hl, Hf; destruct Hf as [Hf1 Hf2]; inversion Hl; subst.
      * eauto.
      * eapply IHn; eauto.
Qed.

End Reach.

(** Without assumptions on the configuration *)
Lemma run_any n evs cfgl cmdl w :
  run n evs (init_world cfgl cmdl) = Some (tt, w) ->
  reach False (fun e => In e evs) (init_world cfgl cmdl) w.
Proof.
  intros Hr.
  assert (X : wp (run n evs) (fun _ => good False (fun e => In e evs) (init_world cfgl cmdl)) (init_world cfgl cmdl)).
  { apply (run_good False (fun e => In e evs) (init_world cfgl cmdl) (fun _ => 0%nat)); try tauto.
    - apply Forall_forall. auto.
    - split; [apply rt_refl|intros []]. }
  unfold wp in X. rewrite Hr in X. apply X.
Qed.

Lemma event_any n e w w' : on_event n e w = Some (tt, w') -> reach False (eq e) w w'.
Proof.
  intros Hr.
  assert (X : wp (on_event n e) (fun _ => good False (eq e) w) w).
  { apply (on_event_good False (eq e) w (fun _ => 0%nat)); try tauto. split; [apply rt_refl|intros []]. }
  unfold wp in X. rewrite Hr in X. apply X.
Qed.

(** With them *)
Lemma event_tame evs (HT : tame evs) n e w w' : In e evs -> binv evs w -> at_rest w ->
  on_event n e w = Some (tt, w') -> reach True (eq e) w w' /\ at_rest w'.
Proof.
  intros He Hb Ha Hr. destruct (t_acyclic _ HT) as [rank Hrank].
  assert (IR : forall w1, reach True (eq e) w w1 -> inv evs (wc w1)).
  { apply reach_ind; [exact Hb|]. intros e1 w1 w2 <- Hm _ Hi. apply (inv_micro evs HT e w1 w2 He Hm Hi). }
  assert (X : wp (on_event n e) (fun _ => good True (eq e) w) w).
  { apply (on_event_good True (eq e) w rank).
    - intros _ w1 k s w2 j t m R1 L1 R2 L2 Ho Haf.
      apply IR in R1, R2.
      destruct (i_cf _ _ R1 s (proj1 (lookup_in _ _ _ L1))) as (r0 & b0 & Hr0 & E0).
      destruct (i_cf _ _ R2 t (proj1 (lookup_in _ _ _ L2))) as (r1 & b1 & Hr1 & E1).
      assert (I0 : ident s = rident r0) by (unfold ident, rident; rewrite E0; reflexivity).
      assert (I1 : ident t = rident r1) by (unfold ident, rident; rewrite E1; reflexivity).
      rewrite I0, I1. apply Hrank; auto. exists m. split.
      + unfold owns, base_of, pidcond, readycond, servicedir, successcond, failurecond, typestr, ident, ty in *.
        rewrite E0 in Ho. exact Ho.
      + rewrite E1 in Haf. exact Haf.
    - intros _ w1 k s R1 Hf Hp. apply IR in R1. apply (i_alive _ _ R1); [|exact Hp].
      apply find_key_in in Hf. tauto.
    - intros _ w1 k s ms R1 HL Ht. apply IR in R1.
      destruct (lookup_in _ _ _ HL) as [Hin Hk]. apply in_app_or in Hin. destruct Hin as [Hin|Hin].
      + split; [rewrite <- Hk; apply in_map, Hin|].
        destruct (i_tm _ _ R1 s Hin) as [Z|Z]; [exfalso; eapply Z, Ht|exact Z].
      + exfalso. eapply (i_gc _ _ R1 s Hin), Ht.
    - reflexivity.
    - split; [apply rt_refl|auto]. }
  unfold wp in X. rewrite Hr in X. destruct X as [X1 X2]. auto.
Qed.
