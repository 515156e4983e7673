(** Every history: no two registered stanzas have the same NAME:ID. *)
From Coq Require Import List String Ascii ZArith NArith Bool Lia Arith Relations.
From Coq Require Import ZifyBool ZifyNat.
From Verif Require Import CondModel CoreTypes CoreModel CoreLib CoreMicro CoreExec CoreCalm CoreLog
  CoreSpec CoreAny.
Import ListNotations.
Local Open Scope Z_scope.

Definition nid (s : svc) : string * string := (c_name (s_cf s), c_id (s_cf s)).
Definition nids (c : core) : list (string * string) := map nid (k_svcs c).

Record dinv (w : world) : Prop := {
  d_now : NoDup (nids (wc w));
  d_hist : forall c x, In (c, x) (wl w) -> NoDup (nids c)
}.
Lemma dinv_emit x w : dinv w -> dinv (wemit x w).
Proof. intros [H1 H2]. constructor; [exact H1|]. intros c y [E|E]; [inversion E; subst; exact H1|eapply H2, E]. Qed.
Lemma dinv_mod g w : (nids (g (wc w)) = nids (wc w) \/ NoDup (nids (g (wc w)))) -> dinv w -> dinv (wmod g w).
Proof. intros H [H1 H2]. constructor; [|exact H2]. destruct H as [H|H]; [cbn; rewrite H; exact H1|exact H]. Qed.
Lemma dinv_modc g w : (forall c, nids (g c) = nids c) -> dinv w -> dinv (wmod g w).
Proof. intros H. apply dinv_mod. left. apply H. Qed.
Lemma nids_map_key k f l : (forall s, nid (f s) = nid s) -> map nid (map_key k f l) = map nid l.
Proof.
  intros Hf. unfold map_key. rewrite map_map. apply map_ext. intros s. destruct (_ =? _)%nat; [apply Hf|reflexivity].
Qed.
Lemma dinv_upd k f w : (forall s, nid (f s) = nid s) -> dinv w -> dinv (wupd k f w).
Proof. intros Hf. unfold wupd. apply dinv_mod. left. unfold cupd, nids. cbn. apply nids_map_key, Hf. Qed.
Lemma dinv_all f w : (forall c s, nid (f c s) = nid s) -> dinv w -> dinv (wmod (f_all f) w).
Proof.
  intros Hf. apply dinv_mod. left. unfold f_all, nids. cbn. rewrite map_map. apply map_ext. intros s. apply Hf.
Qed.
Ltac dk := let s := fresh "s" in intros s;
  first [ reflexivity
        | unfold f_rtot, f_incr, f_retry, f_giveup, f_timeout; cbv zeta;
          repeat match goal with |- context [if ?b then _ else _] => destruct b
                 | |- context [match s_timer ?s with _ => _ end] => destruct (s_timer s) end; reflexivity ].
Lemma dinv_went k new w : dinv w -> dinv (went k new w).
Proof.
  intros H. unfold went. destruct (lookup_svc (wc w) k) as [s|] eqn:El; [|exact H].
  unfold wenter. cbv zeta.
  assert (G : forall w1, dinv w1 -> dinv (if st_eqb (s_state s) new then w1
           else wupd k (set_s_state new) (wemit (EState k (s_state s) new) w1))).
  { intros w1 H1. destruct (st_eqb (s_state s) new); [exact H1|]. apply dinv_upd; [dk|]. apply dinv_emit, H1. }
  apply G. destruct (st_eqb new Stopping); [|exact H]. unfold wtimeout, wcancel. repeat (apply dinv_upd; [dk|]). exact H.
Qed.
Lemma dinv_fork k f p w : dinv w -> dinv (wfork_ok k f p w).
Proof.
  intros H. unfold wfork_ok. apply dinv_mod; [left; destruct f; reflexivity|].
  apply dinv_mod; [left; reflexivity|]. apply dinv_emit. apply dinv_mod; [left; reflexivity|exact H].
Qed.
Ltac di1 :=
  match goal with
  | H : dinv ?w |- dinv ?w' => constr_eq w w'; exact H
  | |- dinv (wemit _ _) => apply dinv_emit
  | |- dinv (went _ _ _) => apply dinv_went
  | |- dinv (wupd _ _ _) => apply dinv_upd; [dk|]
  | |- dinv (wfork_ok _ _ _ _) => apply dinv_fork
  | |- dinv (wmod _ _) => apply dinv_modc; [intros ?; reflexivity|]
  | |- dinv (if ?b then _ else _) => destruct b
  end.
Ltac di := unfold w_done, w_forked, w_prep, wcleanup, wcancel, wblock, wclean, wtimeout, wscript, wcond, wfork_fail, w_prep, w_forked; cbv zeta; repeat di1.

Lemma nid_mark s : nid (svc_mark s) = nid s.
Proof. unfold svc_mark. destruct (s_protect s); reflexivity. Qed.
Lemma nid_fin r hup ad s : nid (f_fin r hup ad s) = (c_name (r_cfg r), c_id (r_cfg r)).
Proof. unfold f_fin. cbv zeta. destruct (is_runtask_t _ && _), (r_changed r || ad), (r_static r); reflexivity. Qed.

Lemma find_ident_none n i l : find_ident n i l = None -> ~ In (n, i) (map nid l).
Proof.
  unfold find_ident. intros H Hin. apply in_map_iff in Hin. destruct Hin as (s & E & Hs).
  apply (find_none _ _ H) in Hs. inversion E; subst. rewrite !String.eqb_refl in Hs. discriminate.
Qed.
Lemma find_ident_some n i l s : find_ident n i l = Some s -> In s l /\ nid s = (n, i).
Proof.
  unfold find_ident. intros H. apply find_some in H. destruct H as [A B]. split; [exact A|].
  apply andb_prop in B. destruct B as [B1 B2]. apply String.eqb_eq in B1, B2. unfold nid. congruence.
Qed.
Lemma find_ident_unique n i l s : NoDup (map nid l) -> In s l -> nid s = (n, i) -> find_ident n i l = Some s.
Proof.
  intros Hn Hs E. destruct (find_ident n i l) as [t|] eqn:F.
  - apply find_ident_some in F. destruct F as [A B]. f_equal.
    revert Hs A. induction l as [|x l IH]; [intros []|]. cbn in Hn. inversion Hn; subst.
    intros [->|Hs] [->|A]; auto.
    + exfalso. apply H1. rewrite E, <- B. apply in_map, A.
    + exfalso. apply H1. rewrite B, <- E. apply in_map, Hs.
  - exfalso. apply (find_ident_none _ _ _ F). rewrite <- E. apply in_map, Hs.
Qed.

(** re-registering touches one record only, the one with that identity *)
Lemma nids_rereg r s l : NoDup (map s_key l) -> NoDup (map nid l) -> In s l ->
  nid s = (c_name (r_cfg r), c_id (r_cfg r)) ->
  map nid (map_key (s_key s) (f_rereg r) l) = map nid l.
Proof.
  intros Hk _ Hs E. unfold map_key. rewrite map_map. apply map_ext_in. intros t Ht.
  destruct (s_key t =? s_key s)%nat eqn:Ek; [|reflexivity]. apply Nat.eqb_eq in Ek.
  assert (t = s) as ->.
  { revert Hk Hs Ht. clear -Ek. induction l as [|x l IH]; [intros _ []|]. cbn. intros Hk. inversion Hk; subst.
    intros [->|Hs] [->|Ht]; auto.
    - exfalso. apply H1. rewrite <- Ek. apply in_map, Ht.
    - exfalso. apply H1. rewrite Ek. apply in_map, Hs. }
  unfold f_rereg. cbv zeta. rewrite nid_fin. congruence.
Qed.

Lemma dinv_micro calm e w w' : uinv w -> micro calm e w w' -> dinv w -> dinv w'.
Proof.
  intros HU Hm H. destruct Hm; try (di; fail).
  - unfold w_aux. cbv zeta. destruct (lookup_svc _ _); di.
  - subst w1. di.
  - unfold w_collect. di.
  - unfold w_collect. di.
  - assert (X : dinv (if s_pid s =? 0 then w else wemit (EForget k (s_pid s)) w)) by di.
    revert X. generalize (if s_pid s =? 0 then w else wemit (EForget k (s_pid s)) w). intros w0 X.
    apply dinv_mod; [|di]. right. unfold c_del, nids. clear - X.
    assert (N : NoDup (nids (wc (wupd k (set_s_pid 0) w0)))) by (apply d_now; di).
    destruct (find_key _ _); [cbn [k_svcs set_k_svcs]|exact N].
    unfold nids in N. revert N. generalize (k_svcs (wc (wupd k (set_s_pid 0) w0))). clear.
    intros l. induction l as [|x l IH]; [auto|]. cbn. intros N. inversion N; subst.
    destruct (negb _); cbn; [|auto]. constructor; [|auto]. intros X. apply H1.
    apply in_map_iff in X. destruct X as (y & A & B). apply filter_In in B. rewrite <- A. apply in_map, B.
  - apply dinv_mod; [|di]. right. unfold c_del, nids.
    assert (N : NoDup (nids (wc (wcancel k w)))) by (apply d_now; di).
    destruct (find_key _ (k_svcs (wc (wcancel k w)))); [cbn [k_svcs set_k_svcs]|exact N].
    unfold nids in N. revert N. generalize (k_svcs (wc (wcancel k w))). clear.
    intros l. induction l as [|x l IH]; [auto|]. cbn. intros N. inversion N; subst.
    destruct (negb _); cbn; [|auto]. constructor; [|auto]. intros X. apply H1.
    apply in_map_iff in X. destruct X as (y & A & B). apply filter_In in B. rewrite <- A. apply in_map, B.
  - apply dinv_all; [|di]. intros _. apply nid_mark.
  - apply dinv_mod; [|exact H]. right. unfold nids. cbn [k_svcs set_k_svcs set_k_next]. rewrite map_app. cbn [map].
    assert (N : NoDup (map nid (k_svcs (wc w)))) by apply H.
    replace (nid (fresh_svc (k_next (wc w)) r)) with (c_name (r_cfg r), c_id (r_cfg r))
      by (unfold fresh_svc; cbv zeta; rewrite nid_fin; reflexivity).
    apply find_ident_none in H2. revert N H2. generalize (map nid (k_svcs (wc w))). clear.
    intros l. induction l as [|x l IH]; cbn; intros N Hn; [constructor; [intros []|constructor]|].
    inversion N; subst. constructor; [|apply IH; auto]. rewrite in_app_iff. cbn. intuition.
  - apply dinv_mod; [|exact H]. left. unfold cupd, nids. cbn. apply find_ident_some in H2.
    apply nids_rereg; [|apply H|apply H2|apply H2].
    pose proof (u_nodup _ (u_now _ HU)) as N. unfold recs in N. rewrite map_app in N. apply nodup_app_split in N. tauto.
  - apply dinv_all; [|di]. intros _ s0. unfold f_affected. destruct (_ && _); reflexivity.
  - apply dinv_all; [|di]. intros c s0. unfold f_unavail. destruct (ifthen_conf _ _); [reflexivity|apply nid_mark].
  - apply dinv_mod; [|exact H]. left. unfold c_nologin. cbv zeta.
    destruct (_ || _); cbn [k_prev set_k_nologin]; destruct (_ || _); reflexivity.
  - cbv zeta. destruct (c_oncrash (s_cf s)); di.
  - apply dinv_all; [|di]. intros _ s0. cbv beta. destruct (_ && _); reflexivity.
Qed.

Lemma dinv_init cfgl cmdl : dinv (init_world cfgl cmdl).
Proof. constructor; [constructor|intros c x []]. Qed.
Lemma reach_dinv calm (E : ev -> Prop) w00 w : uinv w00 -> dinv w00 -> reach calm E w00 w -> dinv w.
Proof.
  intros HU H0 Hr. cut (uinv w /\ dinv w); [tauto|]. revert w Hr. apply (reach_ind calm E (fun w => uinv w /\ dinv w)); [auto|].
  intros e w1 w2 He Hm _ [IH1 IH2]. split; [eapply uinv_micro; eauto|eapply dinv_micro; eauto].
Qed.
