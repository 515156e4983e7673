(** Every history: the settings of a record are those of some stanza that was
    in the configuration. *)
From Coq Require Import List String Ascii ZArith NArith Bool Lia Arith Relations.
From Coq Require Import ZifyBool ZifyNat.
From Verif Require Import CondModel CoreTypes CoreModel CoreLib CoreMicro CoreExec CoreCalm CoreLog
  CoreSpec CoreAny.
Import ListNotations.
Local Open Scope Z_scope.

Section Conf.
(** [C]: a property of stanzas that does not depend on <!> *)
Variable C : cfg -> Prop.
Hypothesis C_hup : forall b cf, C cf -> C (set_c_sighup b cf).

Record cbase (c : core) : Prop := {
  cb_recs : forall s, In s (recs c) -> C (s_cf s);
  cb_conf : forall r, In r (k_conf c) -> C (r_cfg r)
}.
Record cinv (w : world) : Prop := {
  ci_now : cbase (wc w);
  ci_hist : forall c x, In (c, x) (wl w) -> cbase c
}.
Lemma cinv_emit x w : cinv w -> cinv (wemit x w).
Proof. intros [H1 H2]. constructor; [exact H1|]. intros c y [E|E]; [inversion E; subst; exact H1|eapply H2, E]. Qed.
Lemma cinv_same g w : (cbase (wc w) -> cbase (g (wc w))) -> cinv w -> cinv (wmod g w).
Proof. intros H [H1 H2]. constructor; [|exact H2]. exact (H H1). Qed.
Lemma cinv_mod g w : (forall s, In s (recs (g (wc w))) -> In s (recs (wc w))) -> k_conf (g (wc w)) = k_conf (wc w) ->
  cinv w -> cinv (wmod g w).
Proof.
  intros H E. apply cinv_same. intros [H1 H2]. constructor; [intros s Hs; apply H1, H, Hs|].
  intros r. rewrite E. apply H2.
Qed.
Lemma cinv_modc g w : (forall c, recs (g c) = recs c) -> (forall c, k_conf (g c) = k_conf c) -> cinv w -> cinv (wmod g w).
Proof. intros H E. apply cinv_mod; [rewrite H; auto|apply E]. Qed.
Lemma cinv_upd k f w : (forall s, s_cf (f s) = s_cf s) -> cinv w -> cinv (wupd k f w).
Proof.
  intros Hf. unfold wupd. apply cinv_same. intros [H1 H2]. constructor; [|exact H2].
  intros s Hs. rewrite recs_upd in Hs. apply in_map_key in Hs.
  destruct Hs as (t & A & [[_ ->]|[_ ->]]); [rewrite Hf|]; apply H1, A.
Qed.
Lemma cinv_all f w : (forall c s, s_cf (f c s) = s_cf s) -> cinv w -> cinv (wmod (f_all f) w).
Proof.
  intros Hf. apply cinv_same. intros [H1 H2]. constructor; [|exact H2].
  intros s Hs. unfold recs, f_all in Hs. cbn in Hs. apply in_app_or in Hs. destruct Hs as [Hs|Hs].
  - apply in_map_iff in Hs. destruct Hs as (t & <- & A). rewrite Hf. apply H1, in_or_app. auto.
  - apply H1, in_or_app. auto.
Qed.
Ltac ck := let s := fresh "s" in intros s;
  first [ reflexivity
        | unfold f_rtot, f_incr, f_retry, f_giveup, f_timeout; cbv zeta;
          repeat match goal with |- context [if ?b then _ else _] => destruct b
                 | |- context [match s_timer ?s with _ => _ end] => destruct (s_timer s) end; reflexivity ].
Ltac cm := apply cinv_modc; [intros ?; reflexivity|intros ?; reflexivity|].
Lemma cinv_went k new w : cinv w -> cinv (went k new w).
Proof.
  intros H. unfold went. destruct (lookup_svc (wc w) k) as [s|] eqn:El; [|exact H].
  unfold wenter. cbv zeta.
  assert (G : forall w1, cinv w1 -> cinv (if st_eqb (s_state s) new then w1
           else wupd k (set_s_state new) (wemit (EState k (s_state s) new) w1))).
  { intros w1 H1. destruct (st_eqb (s_state s) new); [exact H1|]. apply cinv_upd; [ck|]. apply cinv_emit, H1. }
  apply G. destruct (st_eqb new Stopping); [|exact H]. unfold wtimeout, wcancel. repeat (apply cinv_upd; [ck|]). exact H.
Qed.
Lemma cinv_fork k f p w : cinv w -> cinv (wfork_ok k f p w).
Proof.
  intros H. unfold wfork_ok. apply cinv_mod; [destruct f; exact (fun _ x => x)|destruct f; reflexivity|].
  cm. apply cinv_emit. cm. exact H.
Qed.
Ltac di1 :=
  match goal with
  | H : cinv ?w |- cinv ?w' => constr_eq w w'; exact H
  | |- cinv (wemit _ _) => apply cinv_emit
  | |- cinv (went _ _ _) => apply cinv_went
  | |- cinv (wupd _ _ _) => apply cinv_upd; [ck|]
  | |- cinv (wfork_ok _ _ _ _) => apply cinv_fork
  | |- cinv (wmod _ _) => cm
  | |- cinv (if ?b then _ else _) => destruct b
  end.
Ltac di := unfold w_done, w_forked, w_prep, wcleanup, wcancel, wblock, wclean, wtimeout, wscript, wcond, wfork_fail; cbv zeta; repeat di1.

Lemma cf_mark s : s_cf (svc_mark s) = s_cf s.
Proof. unfold svc_mark. destruct (s_protect s); reflexivity. Qed.
Lemma cf_fin r hup ad s : s_cf (f_fin r hup ad s) = set_c_sighup hup (r_cfg r).
Proof. unfold f_fin. cbv zeta. destruct (is_runtask_t _ && _), (r_changed r || ad), (r_static r); reflexivity. Qed.

Lemma cinv_micro calm e w w' : (forall l, e = EvConf l -> forall r, In r l -> C (r_cfg r)) ->
  micro calm e w w' -> cinv w -> cinv w'.
Proof.
  intros He Hm H. destruct Hm; try (di; fail).
  - unfold w_aux. cbv zeta. destruct (lookup_svc _ _); di.
  - subst w1. di.
  - unfold w_collect. di.
  - unfold w_collect. di.
  - apply cinv_mod; [apply recs_del|unfold c_del; match goal with |- context [match ?x with _ => _ end] => destruct x end; reflexivity|di].
  - apply cinv_mod; [apply recs_del|unfold c_del; match goal with |- context [match ?x with _ => _ end] => destruct x end; reflexivity|di].
  - apply cinv_all; [|di]. intros _. apply cf_mark.
  - apply cinv_same; [|exact H]. intros [B1 B2]. constructor; [|exact B2].
    intros t Ht. unfold recs in Ht. cbn in Ht. rewrite !in_app_iff in Ht. cbn in Ht.
    assert (In t (recs (wc w)) \/ t = fresh_svc (k_next (wc w)) r) as [Ha| ->]
      by (unfold recs; rewrite in_app_iff; intuition).
    + apply B1, Ha.
    + unfold fresh_svc. cbv zeta. rewrite cf_fin. apply C_hup, B2. assumption.
  - apply cinv_same; [|exact H]. intros [B1 B2]. constructor; [|exact B2].
    intros t Ht. rewrite recs_upd in Ht. apply in_map_key in Ht. destruct Ht as (t0 & A & [[_ ->]|[_ ->]]); [|apply B1, A].
    unfold f_rereg. cbv zeta. rewrite cf_fin. apply C_hup, B2. assumption.
  - apply cinv_all; [|di]. intros _ t. unfold f_affected. destruct (_ && _); reflexivity.
  - apply cinv_all; [|di]. intros c t. unfold f_unavail. destruct (ifthen_conf _ _); [reflexivity|apply cf_mark].
  - apply cinv_same; [|apply cinv_emit, H]. intros [B1 B2]. constructor; [exact B1|]. cbn. intros r Hr.
    apply in_map_iff in Hr. destruct Hr as (r0 & <- & Hr). apply (B2 _ Hr).
  - apply cinv_mod; [| |exact H]; unfold c_nologin; cbv zeta;
    destruct (_ || _); cbn [k_prev set_k_nologin]; destruct (_ || _); auto.
  - cbv zeta. destruct (c_oncrash (s_cf s)); di.
  - apply cinv_mod; [|reflexivity|exact H]. intros t. unfold recs. cbn. rewrite !in_app_iff, filter_In. tauto.
  - apply cinv_all; [|di]. intros _ t. cbv beta. destruct (_ && _); reflexivity.
  - apply cinv_same; [|exact H]. intros [B1 B2]. constructor; [exact B1|]. cbn. exact (He l H0).
Qed.

Lemma cinv_init cfgl cmdl : cinv (init_world cfgl cmdl).
Proof. constructor; [constructor; intros ? []|intros c x []]. Qed.
Lemma reach_cinv calm (E : ev -> Prop) w00 w : (forall l, E (EvConf l) -> forall r, In r l -> C (r_cfg r)) ->
  cinv w00 -> reach calm E w00 w -> cinv w.
Proof.
  intros HE H0. apply reach_ind; [exact H0|].
  intros e w1 w2 He Hm _ IH. eapply cinv_micro; [|exact Hm|exact IH]. intros l -> r Hr. eapply HE; eauto.
Qed.

Lemma history_cinv n evs cfgl cmdl w : (forall r, In r (regs evs) -> C (r_cfg r)) ->
  history n evs cfgl cmdl w -> cinv w.
Proof.
  intros HC H. apply run_any in H. eapply reach_cinv; [|apply cinv_init|exact H].
  intros l Hl r Hr. apply HC. unfold regs. apply in_flat_map. exists (EvConf l). auto.
Qed.
Lemma happened_cbase n evs cfgl cmdl w c x older : (forall r, In r (regs evs) -> C (r_cfg r)) ->
  history n evs cfgl cmdl w -> happened w c x older -> cbase c.
Proof.
  intros HC Hh (newer & Hl). apply (history_cinv _ _ _ _ _ HC) in Hh. eapply (ci_hist _ Hh c x).
  rewrite Hl. apply in_or_app. right. left. reflexivity.
Qed.
End Conf.
