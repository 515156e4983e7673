(** Proofs about every history of the supervisor: C13, C16, C18. *)
From Coq Require Import List String Ascii ZArith NArith Bool Lia Arith Relations.
From Coq Require Import ZifyBool ZifyNat.
From Verif Require Import CondModel CondProof CoreTypes CoreModel CoreLib CoreMicro CoreExec CoreCalm CoreLog
  CoreSpec CoreAny CoreProof CoreProc CoreIdent CoreConf.
Import ListNotations.
Local Open Scope Z_scope.

(** ** C18 *)

Lemma history_dinv n evs cfgl cmdl w : history n evs cfgl cmdl w -> dinv w.
Proof. intros H. apply run_any in H. eapply reach_dinv; [apply uinv_init|apply dinv_init|exact H]. Qed.

Lemma identity_unique_lem n evs cfgl cmdl w s t :
  history n evs cfgl cmdl w -> In s (k_svcs (wc w)) -> In t (k_svcs (wc w)) -> identity s = identity t -> s = t.
Proof.
  intros Hh Hs Ht E. apply history_dinv in Hh.
  pose proof (find_ident_unique _ _ _ s (d_now _ Hh) Hs eq_refl) as A.
  pose proof (find_ident_unique _ _ _ t (d_now _ Hh) Ht eq_refl) as B.
  inversion E. rewrite H0, H1 in A. congruence.
Qed.

Lemma find_by_identity_lem n evs cfgl cmdl w nm i s :
  history n evs cfgl cmdl w ->
  (find_ident nm i (k_svcs (wc w)) = Some s <-> In s (k_svcs (wc w)) /\ identity s = (nm, i)).
Proof.
  intros Hh. apply history_dinv in Hh. split.
  - apply find_ident_some.
  - intros [A B]. apply find_ident_unique; [apply Hh|exact A|exact B].
Qed.

Lemma fin_fields r hup ad s : s_cf (f_fin r hup ad s) = set_c_sighup hup (r_cfg r) /\
  s_key (f_fin r hup ad s) = s_key s /\ s_state (f_fin r hup ad s) = s_state s /\
  s_pid (f_fin r hup ad s) = s_pid s /\ s_removed (f_fin r hup ad s) = false.
Proof. unfold f_fin. cbv zeta. destruct (is_runtask_t _ && _), (r_changed r || ad), (r_static r); auto. Qed.

Lemma register_any n evs cfgl cmdl w r w' :
  history n evs cfgl cmdl w -> register r w = Some (tt, w') ->
  wl w' = wl w /\
  (w' = w \/
   (exists hup, wc w' = set_k_next (S (k_next (wc w)))
      (set_k_svcs (k_svcs (wc w) ++ [f_fin r hup (negb (String.eqb (c_args (r_cfg r)) ""))
         (if c_manual (r_cfg r) then set_s_block BUser (svc_new (k_next (wc w)) r) else svc_new (k_next (wc w)) r)]) (wc w))
      /\ find_ident (c_name (r_cfg r)) (c_id (r_cfg r)) (k_svcs (wc w)) = None) \/
   exists s, find_ident (c_name (r_cfg r)) (c_id (r_cfg r)) (k_svcs (wc w)) = Some s /\
     wc w' = cupd (s_key s) (f_rereg r) (wc w)).
Proof.
  intros _ H. unfold register, bind, getc in H. cbv zeta in H. cbn [fst snd] in H.
  destruct (negb (ifthen_conf _ _)); [inversion H; auto|].
  destruct (only_boot _ && _); [inversion H; auto|].
  destruct (mem_str _ _); [inversion H; auto|].
  destruct (find_ident _ _ _) as [s|] eqn:F.
  - unfold upd, modc in H. inversion H; subst. split; [reflexivity|]. right. right. exists s. split; [reflexivity|reflexivity].
  - unfold modc in H. inversion H; subst. split; [reflexivity|]. right. left.
    exists (negb (is_tty_t (c_type (r_cfg r))) && c_sighup (r_cfg r)). split; [reflexivity|reflexivity].
Qed.

Lemma rereg_fields r s : nid (f_rereg r s) = reg_identity r /\
  (exists b, s_cf (f_rereg r s) = set_c_sighup b (r_cfg r)) /\
  s_key (f_rereg r s) = s_key s /\ s_state (f_rereg r s) = s_state s /\
  s_pid (f_rereg r s) = s_pid s /\ s_removed (f_rereg r s) = false.
Proof.
  unfold f_rereg. cbv zeta. split; [apply nid_fin|].
  match goal with |- context [f_fin r ?h ?a ?x] => destruct (fin_fields r h a x) as (A & B & C & D & E) end.
  split; [eexists; exact A|]. rewrite B, C, D. destruct (c_manual (r_cfg r)); auto.
Qed.

Lemma nodup_keys w : uinv w -> NoDup (map s_key (k_svcs (wc w))).
Proof.
  intros HU. pose proof (u_nodup _ (u_now _ HU)) as N. unfold recs in N. rewrite map_app in N.
  apply nodup_app_split in N. tauto.
Qed.
Lemma nodup_key_eq l (s t : svc) : NoDup (map s_key l) -> In s l -> In t l -> s_key s = s_key t -> s = t.
Proof.
  induction l as [|x l IH]; [intros _ []|]. cbn. intros Hk. inversion Hk; subst.
  intros [->|Hs] [->|Ht] E; auto.
  - exfalso. apply H1. rewrite E. apply in_map, Ht.
  - exfalso. apply H1. rewrite <- E. apply in_map, Hs.
Qed.

Theorem register_lem n evs cfgl cmdl w r w' :
  history n evs cfgl cmdl w -> register r w = Some (tt, w') ->
  (forall t, identity t <> reg_identity r -> (In t (k_svcs (wc w')) <-> In t (k_svcs (wc w)))) /\
  (forall s, In s (k_svcs (wc w)) -> identity s = reg_identity r ->
     exists s', In s' (k_svcs (wc w')) /\ identity s' = reg_identity r /\
       s_key s' = s_key s /\ s_state s' = s_state s /\ s_pid s' = s_pid s /\
       (s' = s \/ s_removed s' = false /\ exists b, s_cf s' = set_c_sighup b (r_cfg r))) /\
  (forall s t, In s (k_svcs (wc w')) -> In t (k_svcs (wc w')) -> identity s = identity t -> s = t).
Proof.
  intros Hh H. pose proof (history_dinv _ _ _ _ _ Hh) as HD. pose proof (history_uinv _ _ _ _ _ Hh) as HU.
  destruct (register_any _ _ _ _ _ _ _ Hh H) as [_ [->|[(hup & E & F)|(s & F & E)]]].
  - split; [tauto|]. split; [intros s A B; exists s; auto 10|].
    intros s t. apply (identity_unique_lem _ _ _ _ _ s t Hh).
  - rewrite E. cbn [k_svcs set_k_svcs set_k_next]. clear E.
    assert (X : identity (f_fin r hup (negb (String.eqb (c_args (r_cfg r)) "")) (if c_manual (r_cfg r) then set_s_block BUser (svc_new (k_next (wc w)) r) else svc_new (k_next (wc w)) r)) = reg_identity r) by apply nid_fin.
    match goal with |- context [[?y]] => set (z := y) in * end. clearbody z.
    assert (Hn : forall u, In u (k_svcs (wc w)) -> identity u <> reg_identity r).
    { intros u Hu Eu. apply (find_ident_none _ _ _ F). change (In (reg_identity r) (map nid (k_svcs (wc w)))). rewrite <- Eu. apply in_map, Hu. }
    split; [|split].
    + intros t Ht. rewrite in_app_iff. cbn. split; [intros [A|[A|[]]]; [exact A|congruence]|auto].
    + intros s A B. exfalso. exact (Hn s A B).
    + intros s t. rewrite !in_app_iff. cbn. intros [A|[A|[]]] [B|[B|[]]] EQ.
      * eapply identity_unique_lem; eauto.
      * exfalso. apply (Hn s A). congruence.
      * exfalso. apply (Hn t B). congruence.
      * congruence.
  - rewrite E. unfold cupd. cbn [k_svcs set_k_svcs set_k_gc]. clear E.
    apply find_ident_some in F. destruct F as [F1 F2].
    assert (G : forall t, In t (map_key (s_key s) (f_rereg r) (k_svcs (wc w))) <->
                          (In t (k_svcs (wc w)) /\ identity t <> reg_identity r) \/ t = f_rereg r s).
    { intros t. unfold map_key. rewrite in_map_iff. split.
      - intros (u & E1 & E2). destruct (s_key u =? s_key s)%nat eqn:Ek.
        + apply Nat.eqb_eq in Ek. assert (u = s) as -> by (eapply nodup_key_eq; [apply nodup_keys, HU| | |]; auto). auto.
        + left. subst u. split; [exact E2|]. intros X. assert (t = s) as ->
            by (eapply identity_unique_lem; eauto; exact (eq_trans X (eq_sym F2))).
          rewrite Nat.eqb_refl in Ek. discriminate.
      - intros [[A B]|A].
        + exists t. split; [|exact A]. destruct (s_key t =? s_key s)%nat eqn:Ek; [|reflexivity].
          apply Nat.eqb_eq in Ek. exfalso. apply B.
          assert (t = s) as -> by (eapply nodup_key_eq; [apply nodup_keys, HU| | |]; auto). exact F2.
        + exists s. rewrite Nat.eqb_refl. auto. }
    destruct (rereg_fields r s) as (R1 & R2 & R3 & R4 & R5 & R6).
    split; [|split].
    + intros t Ht. rewrite G. split; [intros [A|A]; [tauto|]|tauto]. subst t. contradiction.
    + intros s1 A B. assert (s1 = s) as -> by (eapply identity_unique_lem; eauto; exact (eq_trans B (eq_sym F2))).
      exists (f_rereg r s). split; [apply G; auto|]. split; [exact R1|]. auto 10.
    + intros a b. rewrite !G. intros [[A1 A2]|A] [[B1 B2]|B] EQ.
      * eapply identity_unique_lem; eauto.
      * exfalso. subst b. apply A2. rewrite EQ. exact R1.
      * exfalso. subst a. apply B2. rewrite <- EQ. exact R1.
      * congruence.
Qed.

(** ** C16 *)

Lemma happened_dinv n evs cfgl cmdl w c x older :
  history n evs cfgl cmdl w -> happened w c x older -> NoDup (nids c).
Proof.
  intros Hh (newer & Hl). apply history_dinv in Hh. eapply (d_hist _ Hh c x). rewrite Hl. apply in_or_app. right. left. reflexivity.
Qed.

Theorem conflict_gate_lem n evs cfgl cmdl w k c new older :
  history n evs cfgl cmdl w -> happened w c (EState k Waiting new) older -> new = Setup \/ new = Starting ->
  exists s, record_at c k s /\ forall before nm after, c_conflict (s_cf s) = before ++ nm :: after ->
    (forall other t, In other before -> In t (k_svcs c) -> identity t <> cut_colon other) ->
    forall t, In t (k_svcs c) -> identity t = cut_colon nm -> ~ is_active t.
Proof.
  intros Hh Hp Hn. destruct (happened_facts _ _ _ _ _ _ _ _ Hh Hp) as (e & _ & s & A & B & _ & _ & Hd).
  exists s. split; [apply lookup_record, A|]. intros before nm after Hc Hb t Ht Hi.
  assert (G : conflicts c s = false).
  { revert Hn. destruct Hd; intros [Hn|Hn]; try discriminate; try assumption; try congruence.
    - exfalso. destruct (rc =? 1); discriminate.
    - exfalso. destruct (rc =? 1); discriminate. }
  unfold conflicts in G. rewrite Hc in G. clear Hc.
  pose proof (happened_dinv _ _ _ _ _ _ _ _ Hh Hp) as HD.
  induction before as [|o before IH].
  2:{ cbn [conflicts_in app] in G. unfold find_str in G. apply IH; [intros other u Ho; apply Hb; right; exact Ho|].
      destruct (cut_colon o) as [a b] eqn:Eo. destruct (find_ident a b (k_svcs c)) as [u|] eqn:Fu; [|exact G].
      exfalso. apply find_ident_some in Fu. destruct Fu as [F1 F2]. eapply (Hb o u); [left; reflexivity|exact F1|]. rewrite Eo. exact F2. }
  cbn [conflicts_in app] in G. unfold find_str in G.
  destruct (cut_colon nm) as [a b] eqn:Ecc.
  rewrite (find_ident_unique _ _ _ t HD Ht Hi) in G. unfold is_active. destruct (s_state t); cbn in G; congruence || auto.
Qed.

(** ** C13 *)

Lemma regs_incl l l' r : incl l l' -> In r (regs l) -> In r (regs l').
Proof. intros Hi Hr. unfold regs in *. rewrite in_flat_map in *. destruct Hr as (e & A & B). exists e. auto. Qed.

Theorem lifecycle_lem n evs cfgl cmdl e k c old new older : tame evs ->
  during n evs cfgl cmdl e c (EState k old new) older ->
  lifecycle old new \/ new = Running /\ e = EvTimer k.
Proof.
  intros HT Hp. pose proof Hp as Hp'. apply (during_facts_tame _ _ _ _ _ _ _ _ HT) in Hp.
  destruct Hp as (s & A & B & Hne & Hk & Hd).
  subst k. rewrite <- B in *. clear B. destruct Hd.
  all: try match goal with H : s_state ?t = _ |- context [s_state ?t] => rewrite H; left; exact I end.
  all: try match goal with H : True -> _ |- _ => specialize (H I) end.
  all: try match goal with H : s_state ?t = _ /\ _ |- _ => destruct H as [H _]; rewrite H; left; exact I end.
  all: try match goal with H : (st_num Stopping < st_num (s_state ?t))%nat |- _ =>
     left; destruct (s_state t); cbn in H; try lia; try (destruct (_ =? _)); exact I end.
  - destruct H as (_ & _ & [H|H]); rewrite H; left; exact I.
  - left. rewrite H. destruct (c_pre (s_cf s)); exact I.
  - right. split; [reflexivity|]. assumption.
  - exfalso. destruct Hp' as (bf & af & w1 & w2 & newer & recent & Ee & Hb & Hv & Hl & _).
    assert (Hh : history n (bf ++ [e]) cfgl cmdl w2).
    { unfold history. rewrite run_app. unfold bind. rewrite Hb, run_one. exact Hv. }
    assert (Hi : incl (bf ++ [e]) evs).
    { intros y Hy. rewrite Ee. apply in_app_or in Hy. apply in_or_app. destruct Hy as [Hy|[<-|[]]]; [auto|].
      right. left. reflexivity. }
    pose proof (happened_cbase (fun cf => c_forking cf = false) (fun _ _ H => H) _ _ _ _ _ c
      (EState (s_key s) (s_state s) Running) l
      (fun r Hr => t_noforking _ HT r (regs_incl _ _ r Hi Hr)) Hh
      (ex_intro _ newer Hl)) as [B1 _].
    apply lookup_in in A. specialize (B1 s (proj1 A)). congruence.
Qed.
