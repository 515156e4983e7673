(** C52: what it takes for a task to count as done. *)
From Coq Require Import List String Ascii ZArith NArith Bool Lia Arith.
From Coq Require Import ZifyBool ZifyNat.
From Verif Require Import CondModel CoreTypes CoreModel CoreTame CoreLib CoreSpec CoreMicro CoreExec CoreCalm CoreProof CoreGrow CoreLive CoreAct CoreSpecE CoreSpecH.
Import ListNotations.
Local Open Scope Z_scope.

Section Evs.
Variable evs : list ev.

Definition all (c : core) : list svc := k_svcs c ++ k_gc c.
Definition conf_ok (r : reg) : Prop :=
  exists conf r0, In (EvConf conf) evs /\ In r0 conf /\ r_cfg r0 = r_cfg r.
Definition okrec (l : log) (s : svc) : Prop :=
  (c_sighup (s_cf s) = true -> declared_nowait evs s) /\
  (s_once s <> 0 -> declared_nowait evs s \/ has_run l (s_key s)).
Definition alike (s t : svc) : Prop := c_name (s_cf s) = c_name (s_cf t) /\ c_id (s_cf s) = c_id (s_cf t).
Record Inv (w : world) : Prop := {
  iv_conf : forall r, In r (k_conf (wc w)) -> conf_ok r;
  iv_next : forall s, In s (all (wc w)) -> (s_key s < k_next (wc w))%nat;
  iv_same : forall s t, In s (all (wc w)) -> In t (all (wc w)) -> s_key s = s_key t -> alike s t;
  iv_rec : forall s, In s (all (wc w)) -> okrec (wl w) s }.

Definition keep {A} (m : ST A) : Prop := forall w, Inv w -> wp m (fun _ => Inv) w.
(** the fields of interest are the same *)
Definition same (s t : svc) : Prop := s_key t = s_key s /\ s_once t = s_once s /\ s_cf t = s_cf s.

Lemma same_refl s : same s s. Proof. repeat split. Qed.
Lemma has_run_mono l l' k : incl l l' -> has_run l k -> has_run l' k.
Proof. intros H (c & s & A & B). exists c, s. split; [apply H, A|exact B]. Qed.
Lemma okrec_mono l l' s : incl l l' -> okrec l s -> okrec l' s.
Proof. intros H [A B]. split; [exact A|]. intros Ho. destruct (B Ho) as [C|C]; [left; exact C|right; eapply has_run_mono; eauto]. Qed.
Lemma declared_alike s t : alike s t -> declared_nowait evs s -> declared_nowait evs t.
Proof.
  intros [A B] (conf & r & C & D & [F G] & H). exists conf, r. split; [exact C|]. split; [exact D|]. split; [|exact H].
  split; congruence.
Qed.
Lemma okrec_same l s t : same s t -> okrec l s -> okrec l t.
Proof.
  intros (A & B & C) [D F]. assert (HA : alike s t) by (split; rewrite C; reflexivity). split.
  - rewrite C. intros H. apply (declared_alike _ _ HA), D, H.
  - rewrite A, B. intros H. destruct (F H) as [G|G]; [left; apply (declared_alike _ _ HA), G|right; exact G].
Qed.
Lemma Inv_step w w' : Inv w -> k_conf (wc w') = k_conf (wc w) -> (k_next (wc w) <= k_next (wc w'))%nat -> incl (wl w) (wl w') ->
  (forall s, In s (all (wc w')) -> exists s0, In s0 (all (wc w)) /\ same s0 s) -> Inv w'.
Proof.
  intros [I1 I2 I3 I4] H1 H2 H3 H4. constructor.
  - rewrite H1. exact I1.
  - intros s Hs. destruct (H4 s Hs) as (s0 & A & B & _). rewrite B. specialize (I2 _ A). lia.
  - intros s t Hs Ht E. destruct (H4 s Hs) as (s0 & A & A1 & _ & A2). destruct (H4 t Ht) as (t0 & B & B1 & _ & B2).
    destruct (I3 s0 t0 A B) as [X Y]; [congruence|]. unfold alike. rewrite A2, B2. auto.
  - intros s Hs. destruct (H4 s Hs) as (s0 & A & B). eapply okrec_same; [exact B|]. eapply okrec_mono; [exact H3|]. apply I4, A.
Qed.

Lemma keep_ret {A} (a : A) : keep (ret a).
Proof. intros w H. exact H. Qed.
Lemma keep_getc : keep getc.
Proof. intros w H. exact H. Qed.
Lemma keep_emit x : keep (emit x).
Proof.
  intros w H. apply wp_emit. apply (Inv_step w); [exact H|reflexivity|apply le_n| |].
  - intros y Hy. right. exact Hy.
  - intros s Hs. exists s. split; [exact Hs|apply same_refl].
Qed.
Lemma keep_modc f : (forall c, k_conf (f c) = k_conf c /\ k_next (f c) = k_next c /\
    forall s, In s (all (f c)) -> exists s0, In s0 (all c) /\ same s0 s) -> keep (modc f).
Proof.
  intros Hf w H. apply wp_modc. destruct (Hf (wc w)) as (A & B & C). apply (Inv_step w); [exact H|exact A| | |exact C].
  - cbn [wc wmod]. rewrite B. apply le_n.
  - apply incl_refl.
Qed.
Lemma keep_upd k f : (forall s, same s (f s)) -> keep (upd k f).
Proof.
  intros Hf. apply keep_modc. intros c. split; [reflexivity|]. split; [reflexivity|]. intros s Hs.
  unfold all in *. cbn [k_svcs k_gc set_k_svcs set_k_gc] in Hs. apply in_app_or in Hs.
  destruct Hs as [Hs|Hs]; apply in_map_key in Hs; destruct Hs as (s0 & A & B); exists s0;
    (split; [apply in_or_app; auto|]); destruct B as [[_ ->]|[_ ->]]; [apply Hf|apply same_refl|apply Hf|apply same_refl].
Qed.
Lemma keep_upd_all f : (forall c s, same s (f c s)) -> keep (upd_all f).
Proof.
  intros Hf. apply keep_modc. intros c. split; [reflexivity|]. split; [reflexivity|]. intros s Hs.
  unfold all in *. cbn [k_svcs k_gc set_k_svcs] in Hs. apply in_app_or in Hs. destruct Hs as [Hs|Hs].
  - apply in_map_iff in Hs. destruct Hs as (s0 & A & B). exists s0. split; [apply in_or_app; auto|]. subst s. apply Hf.
  - exists s. split; [apply in_or_app; auto|apply same_refl].
Qed.
Lemma keep_bind {A B} (m : ST A) (f : A -> ST B) : keep m -> (forall a, keep (f a)) -> keep (bind m f).
Proof. intros H1 H2 w H. apply wp_bind. eapply wp_mono; [apply H1, H|]. intros a w' H'. apply H2, H'. Qed.
Lemma keep_foreach l f : (forall k, keep (f k)) -> keep (foreach l f).
Proof. intros H. induction l as [|x l IH]; [apply keep_ret|]. cbn [foreach]. apply keep_bind; auto. Qed.
Lemma keep_svc_del k : keep (svc_del k).
Proof.
  apply keep_modc. intros c. destruct (find_key k (k_svcs c)) as [t|] eqn:Ef.
  2:{ split; [reflexivity|]. split; [reflexivity|]. intros s Hs. exists s. split; [exact Hs|apply same_refl]. }
  split; [reflexivity|]. split; [reflexivity|]. intros s Hs. exists s. split; [|apply same_refl].
  unfold all in *. cbn [k_svcs k_gc set_k_svcs set_k_gc] in Hs. apply in_app_or in Hs. destruct Hs as [Hs|Hs].
  - apply filter_In in Hs. apply in_or_app. left. apply Hs.
  - apply in_app_or in Hs. destruct Hs as [Hs|[<-|[]]]; apply in_or_app; [right; exact Hs|left]. apply (find_key_in _ _ _ Ef).
Qed.
Lemma keep_gc_mod k tm : keep (modc (fun c => set_k_freed ((k, tm) :: k_freed c)
                       (set_k_gc (filter (fun t => negb (Nat.eqb (s_key t) k)) (k_gc c)) c))).
Proof.
  apply keep_modc. intros c. split; [reflexivity|]. split; [reflexivity|]. intros s Hs. exists s. split; [|apply same_refl].
  unfold all in *. cbn [k_svcs k_gc set_k_freed set_k_gc] in Hs. apply in_app_or in Hs. destruct Hs as [Hs|Hs]; apply in_or_app; [left; exact Hs|right].
  apply filter_In in Hs. apply Hs.
Qed.
Lemma find_ident_alike n i l s : find_ident n i l = Some s -> In s l /\ c_name (s_cf s) = n /\ c_id (s_cf s) = i.
Proof.
  intros H. apply find_some in H. destruct H as [A B]. apply andb_prop in B. destruct B as [B C].
  apply String.eqb_eq in B, C. auto.
Qed.

Lemma fin_cf r h a s : s_cf (f_fin r h a s) = set_c_sighup h (r_cfg r).
Proof. unfold f_fin. destruct (is_runtask_t _ && _), (r_changed r || a), (r_static r); reflexivity. Qed.
Lemma fin_key r h a s : s_key (f_fin r h a s) = s_key s.
Proof. unfold f_fin. destruct (is_runtask_t _ && _), (r_changed r || a), (r_static r); reflexivity. Qed.
Lemma fin_once r h a s : s_once (f_fin r h a s) <> 0 -> s_once s <> 0 \/ c_sighup (r_cfg r) = true.
Proof.
  unfold f_fin. destruct (is_runtask_t _ && c_sighup (r_cfg r)) eqn:E.
  - intros _. right. apply andb_prop in E. apply E.
  - destruct (r_changed r || a), (r_static r); intros H; left; exact H.
Qed.
Lemma conf_declared r s : conf_ok r -> c_sighup (r_cfg r) = true -> c_name (s_cf s) = c_name (r_cfg r) -> c_id (s_cf s) = c_id (r_cfg r) ->
  declared_nowait evs s.
Proof.
  intros (conf & r0 & A & B & C) H H1 H2. exists conf, r0. split; [exact A|]. split; [exact B|]. unfold names. rewrite C, H1, H2. auto.
Qed.
Lemma rereg_cf r s : exists h, s_cf (f_rereg r s) = set_c_sighup h (r_cfg r) /\
  (h = true -> c_sighup (r_cfg r) = true \/ c_sighup (s_cf s) = true).
Proof.
  unfold f_rereg. eexists. split; [apply fin_cf|].
  destruct (is_daemon_t _); [auto|]. destruct (is_runtask_t _).
  - destruct (c_manual (r_cfg r)); cbn [s_cf set_s_block]; destruct (c_sighup (s_cf s)); auto.
  - intros H. apply andb_prop in H. left. apply H.
Qed.
Lemma rereg_key r s : s_key (f_rereg r s) = s_key s.
Proof. unfold f_rereg. cbv zeta. rewrite fin_key. destruct (c_manual _); reflexivity. Qed.
Lemma rereg_once r s : s_once (f_rereg r s) <> 0 -> s_once s <> 0 \/ c_sighup (r_cfg r) = true.
Proof. unfold f_rereg. cbv zeta. intros H. apply fin_once in H. destruct (c_manual _); exact H. Qed.

Lemma keep_register r : conf_ok r -> keep (register r).
Proof.
  intros Hr w H. unfold register. apply wp_bind, wp_getc. cbv zeta.
  destruct (negb (ifthen_conf _ _)); [exact H|]. destruct (only_boot _ && _); [exact H|]. destruct (mem_str _ _); [exact H|].
  destruct (find_ident _ _ _) as [s0|] eqn:Ef.
  - apply wp_upd. destruct (find_ident_alike _ _ _ _ Ef) as (A & B & C).
    change (Inv (wupd (s_key s0) (f_rereg r) w)). destruct H as [I1 I2 I3 I4].
    assert (HA : In s0 (all (wc w))) by (apply in_or_app; left; exact A).
    assert (X : forall s, In s (all (wc (wupd (s_key s0) (f_rereg r) w))) ->
       exists s1, In s1 (all (wc w)) /\ s_key s = s_key s1 /\ (s = s1 \/ s_key s1 = s_key s0 /\ s = f_rereg r s1)).
    { intros s Hs. unfold all in *. cbn [wc wupd k_svcs k_gc set_k_svcs set_k_gc] in Hs.
      apply in_app_or in Hs; destruct Hs as [Hs|Hs]; apply in_map_key in Hs; destruct Hs as (s1 & D & [[F ->]|[F ->]]); exists s1;
        (split; [apply in_or_app; auto|]); (split; [try apply rereg_key; reflexivity|auto]). }
    assert (Y : forall s, In s (all (wc (wupd (s_key s0) (f_rereg r) w))) ->
       exists s1, In s1 (all (wc w)) /\ s_key s = s_key s1 /\ alike s s1 /\ okrec (wl w) s).
    { intros s Hs. destruct (X s Hs) as (s1 & D & F & G). exists s1. split; [exact D|]. split; [exact F|].
      destruct G as [->|[G ->]]; [split; [split; reflexivity|apply I4, D]|].
      destruct (I3 s1 s0 D HA G) as [N1 N2]. destruct (rereg_cf r s1) as (h & E1 & E2).
      assert (N3 : alike s1 (f_rereg r s1)) by (unfold alike; rewrite E1; cbn [c_name c_id set_c_sighup]; split; congruence).
      assert (N4 : c_name (s_cf (f_rereg r s1)) = c_name (r_cfg r)) by (rewrite E1; reflexivity).
      assert (N5 : c_id (s_cf (f_rereg r s1)) = c_id (r_cfg r)) by (rewrite E1; reflexivity).
      split; [destruct N3; split; congruence|]. destruct (I4 s1 D) as [O1 O2]. split.
      - rewrite E1. cbn [c_sighup set_c_sighup]. intros Hh. destruct (E2 Hh) as [K|K].
        + exact (conf_declared r _ Hr K N4 N5).
        + apply (declared_alike _ _ N3), O1, K.
      - intros Ho. destruct (rereg_once _ _ Ho) as [K|K].
        + destruct (O2 K) as [O|O]; [left; apply (declared_alike _ _ N3), O|right; rewrite rereg_key; exact O].
        + left. exact (conf_declared r _ Hr K N4 N5). }
    constructor.
    + exact I1.
    + intros s Hs. destruct (Y s Hs) as (s1 & D & F & _). rewrite F. exact (I2 _ D).
    + intros s t Hs Ht E. destruct (Y s Hs) as (s1 & D & F & [G1 G2] & _). destruct (Y t Ht) as (t1 & D' & F' & [G1' G2'] & _).
      destruct (I3 s1 t1 D D') as [Z1 Z2]; [congruence|]. split; congruence.
    + intros s Hs. destruct (Y s Hs) as (s1 & _ & _ & _ & O). exact O.
  - apply wp_modc. destruct H as [I1 I2 I3 I4].
    match goal with |- Inv (wmod (fun c => set_k_next _ (set_k_svcs (k_svcs c ++ [?x]) c)) w) => set (nw := x) end.
    assert (K : s_key nw = k_next (wc w)).
    { subst nw. change (s_key (fresh_svc (k_next (wc w)) r) = k_next (wc w)). unfold fresh_svc. rewrite fin_key. destruct (c_manual _); reflexivity. }
    assert (O : okrec (wl w) nw).
    { subst nw. change (okrec (wl w) (fresh_svc (k_next (wc w)) r)). unfold fresh_svc. split.
      - rewrite fin_cf. cbn [c_sighup set_c_sighup]. intros Hh. apply andb_prop in Hh. destruct Hh as [_ Hh].
        apply (conf_declared r); [exact Hr|exact Hh| |]; rewrite fin_cf; reflexivity.
      - intros Ho. left. apply fin_once in Ho. destruct Ho as [Ho|Ho]; [exfalso; apply Ho; destruct (c_manual _); reflexivity|].
        apply (conf_declared r); [exact Hr|exact Ho| |]; rewrite fin_cf; reflexivity. }
    clearbody nw.
    assert (X : forall s, In s (all (wc (wmod (fun c => set_k_next (S (k_next c)) (set_k_svcs (k_svcs c ++ [nw]) c)) w))) -> s = nw \/ In s (all (wc w))).
    { intros s Hs. unfold all in *. cbn [wc wmod k_svcs k_gc set_k_svcs set_k_next] in Hs.
      rewrite !in_app_iff in *. cbn in Hs. intuition auto. }
    constructor.
    + exact I1.
    + intros s Hs. cbn [wc wmod k_next set_k_next]. destruct (X s Hs) as [->|Hi]; [rewrite K; apply le_n|]. specialize (I2 _ Hi). lia.
    + intros s t Hs Ht E. destruct (X s Hs) as [->|Hi], (X t Ht) as [->|Hj].
      * split; reflexivity.
      * specialize (I2 _ Hj). rewrite <- E, K in I2. lia.
      * specialize (I2 _ Hi). rewrite E, K in I2. lia.
      * exact (I3 _ _ Hi Hj E).
    + intros s Hs. destruct (X s Hs) as [->|Hi]; [exact O|exact (I4 _ Hi)].
Qed.
Lemma keep_regall l : (forall r, In r l -> conf_ok r) -> keep (register_all l).
Proof.
  induction l as [|r l IH]; intros H; [apply keep_ret|]. cbn [register_all]. apply keep_bind; [apply keep_register, H; left; reflexivity|].
  intros _. apply IH. intros x Hx. apply H. right. exact Hx.
Qed.

Ltac same1 := intros; cbv beta zeta;
  repeat match goal with
  | |- context [match ?b with _ => _ end] => destruct b
  end; repeat split; reflexivity.
Ltac leaf := let c := fresh in intros c; cbv beta zeta;
  repeat match goal with
  | |- context [if ?b then _ else _] => destruct b
  end; (split; [reflexivity|]); (split; [reflexivity|]);
  let s := fresh in let H := fresh in intros s H; exists s; (split; [exact H|apply same_refl]).
Ltac ke1 :=
  match goal with
  | H : _ |- _ => solve [apply H]
  | |- keep (ret _) => apply keep_ret
  | |- keep getc => apply keep_getc
  | |- keep (upd _ _) => apply keep_upd; same1
  | |- keep (upd_all _) => apply keep_upd_all; same1
  | |- keep (svc_del _) => apply keep_svc_del
  | |- keep (modc _) => first [apply keep_gc_mod|apply keep_modc; leaf]
  | |- keep (emit _) => apply keep_emit
  | |- keep (bind _ _) => apply keep_bind; [|intros ?]
  | |- keep (foreach _ _) => apply keep_foreach; intros ?
  | |- keep (if ?b then _ else _) => destruct b
  | |- keep (match ?b with _ => _ end) => destruct b
  | |- keep (let _ := _ in _) => cbv zeta
  | |- keep ?m => let rec hd t := lazymatch t with ?f _ => hd f | _ => t end in
                 let h := hd m in unfold h
  end.
Ltac kes := repeat ke1.

Lemma keep_rdeps : keep update_rdeps.
Proof. kes. Qed.
Lemma keep_unavail : keep mark_unavail.
Proof. unfold mark_unavail. apply keep_upd_all. intros c s. unfold svc_mark. destruct (ifthen_conf _ _); [apply same_refl|]. destruct (s_protect s); repeat split. Qed.
Lemma keep_mark : keep (upd_all (fun _ => svc_mark)).
Proof. apply keep_upd_all. intros _ s. unfold svc_mark. destruct (s_protect s); repeat split. Qed.
Lemma keep_reload : keep conf_reload.
Proof.
  intros w H. unfold conf_reload. apply wp_bind. eapply wp_mono; [apply keep_emit, H|]. intros ? w1 H1.
  apply wp_bind. eapply wp_mono; [apply keep_mark, H1|]. intros ? w2 H2.
  apply wp_bind, wp_getc, wp_bind. eapply wp_mono; [apply keep_regall; [exact (iv_conf _ H2)|exact H2]|]. intros ? w3 H3.
  apply wp_bind. eapply wp_mono; [apply keep_rdeps, H3|]. intros ? w4 H4.
  apply wp_bind. eapply wp_mono; [apply keep_unavail, H4|]. intros ? w5 H5.
  apply wp_bind. eapply wp_mono; [apply keep_emit, H5|]. intros ? w6 [I1 I2 I3 I4].
  apply wp_modc. constructor; [|exact I2|exact I3|exact I4].
  intros r Hr. cbn [wc wmod k_conf set_k_confchg set_k_conf] in Hr. apply in_map_iff in Hr. destruct Hr as (r1 & <- & Hr).
  destruct (I1 r1 Hr) as (conf & r0 & A & B & C). exists conf, r0. auto.
Qed.
Lemma keep_once k w s : Inv w -> find_key k (k_svcs (wc w)) = Some s -> Inv (wupd k (set_s_once (if c_sighup (s_cf s) then 1 else 0)) w).
Proof.
  intros [I1 I2 I3 I4] Hf. apply find_key_in in Hf. destruct Hf as [Hs Hk].
  assert (HA : In s (all (wc w))) by (apply in_or_app; left; exact Hs).
  set (f := set_s_once (if c_sighup (s_cf s) then 1 else 0)).
  assert (X : forall t, In t (all (wc (wupd k f w))) -> exists t0, In t0 (all (wc w)) /\ s_key t = s_key t0 /\ s_cf t = s_cf t0 /\ okrec (wl w) t).
  { intros t Ht. unfold all in Ht. cbn [wc wupd k_svcs k_gc set_k_svcs set_k_gc] in Ht.
    apply in_app_or in Ht; destruct Ht as [Ht|Ht]; apply in_map_key in Ht; destruct Ht as (t1 & D & [[F ->]|[F ->]]); exists t1;
      (assert (D' : In t1 (all (wc w))) by (apply in_or_app; auto)); (split; [exact D'|]); (split; [reflexivity|]); (split; [reflexivity|]);
      try (apply I4, D').
    all: destruct (I4 t1 D') as [O1 O2]; split; [exact O1|]; intros Ho; left; subst f; cbn [s_once set_s_once] in Ho;
      destruct (c_sighup (s_cf s)) eqn:E; [|exfalso; apply Ho; reflexivity];
      apply (declared_alike s); [apply (I3 s t1 HA D'); congruence|apply (I4 s HA), E]. }
  constructor.
  - exact I1.
  - intros t Ht. destruct (X t Ht) as (t0 & A & B & _). rewrite B. exact (I2 _ A).
  - intros t u Ht Hu E. destruct (X t Ht) as (t0 & A & B & C & _). destruct (X u Hu) as (u0 & A' & B' & C' & _).
    unfold alike. rewrite C, C'. apply (I3 t0 u0 A A'). congruence.
  - intros t Ht. destruct (X t Ht) as (t0 & _ & _ & _ & O). exact O.
Qed.

Section Rec.
Variable rec : call -> ST unit.
Hypothesis Hr : forall cl, keep (rec cl).
Hypothesis He : forall cl, ext (rec cl).

Lemma keep_delpath l : keep (c_delpath rec l).
Proof. clear He. induction l as [|q l IH]; cbn [c_delpath]; kes. Qed.
Lemma keep_skl k l : keep (script_kill_list k l).
Proof. clear He. induction l as [|[p q] l IH]; cbn [script_kill_list]; kes. Qed.
Lemma keep_set_state k n : keep (set_state rec k n).
Proof. clear He. pose proof keep_delpath. kes. Qed.
Lemma keep_cset n : keep (c_set rec n). Proof. clear He. kes. Qed.
Lemma keep_coneshot n : keep (c_oneshot rec n). Proof. clear He. kes. Qed.
Lemma keep_cclear n : keep (c_clear rec n). Proof. clear He. pose proof keep_delpath. kes. Qed.
Lemma keep_ready k b : keep (service_ready rec k b).
Proof. clear He. pose proof keep_cset. pose proof keep_cclear. kes. Qed.
Lemma keep_step_all m : keep (step_all rec m). Proof. clear He. kes. Qed.
Lemma keep_stop k : keep (service_stop rec k).
Proof. clear He. pose proof keep_set_state. kes. Qed.
Lemma keep_hook h : keep (run_hook rec h).
Proof. clear He. pose proof keep_step_all. pose proof keep_coneshot. pose proof keep_ready. kes. Qed.
Lemma keep_rtclean : keep (runtask_clean rec).
Proof.
  unfold runtask_clean. apply keep_bind; [apply keep_getc|]. intros c0. apply keep_foreach. intros k w H.
  apply wp_bind, wp_getc. destruct (find_key k (k_svcs (wc w))) as [s|] eqn:Ef; [|exact H].
  apply wp_when; intros _; [|exact H]. apply wp_bind, wp_upd.
  apply wp_when; intros _; [apply keep_set_state|]; exact (keep_once _ _ _ H Ef).
Qed.

(** the process of a task that was running has ended: it is counted *)
Lemma stopping_logged k s w : L w k s -> s_state s = Running -> s_pid s = 0 -> is_runtask s = true ->
  wp (set_state rec k Stopping) (fun _ w' => has_run (wl w') k) w.
Proof.
  intros HL Hst Hp Ht. unfold set_state. apply wp_with_svc; [|unfold L in HL; congruence].
  intros s0 HL0. assert (s0 = s) by (unfold L in HL; congruence). subst s0. clear HL0.
  cbv zeta. change (st_eqb Stopping Stopping) with true. cbn [when]. apply wp_bind, wp_bind, wp_upd, wp_bind, wp_upd, wp_upd.
  rewrite Hst. change (st_eqb Running Stopping) with false. cbv iota. apply wp_bind, wp_emit.
  match goal with |- wp _ _ (wemit _ ?x) => set (w1 := x) end.
  assert (X : exists s1, L w1 k s1 /\ s_cf s1 = s_cf s /\ s_state s1 = s_state s /\ s_pid s1 = s_pid s).
  { eexists. split; [subst w1; lk|]. destruct (c_killdelay (s_cf s) =? 0); repeat split; reflexivity. }
  destruct X as (s1 & HL1 & C1 & C2 & C3).
  apply wp_ext.
  - pose proof (ext_coneshot rec He). pose proof (ext_cclear rec He). pose proof (ext_delpath rec He). exs.
  - intros _ w5 (new & E5). exists (wc w1), s1. split; [rewrite E5; apply in_or_app; right; left; reflexivity|].
    split; [apply lookup_record, HL1|]. split; [|split; congruence].
    unfold a_task. rewrite C1. unfold is_runtask, ty in Ht. destruct (c_type (s_cf s)); try discriminate Ht; auto.
Qed.
Lemma keep_count k w f : (forall s, s_key (f s) = s_key s /\ s_cf (f s) = s_cf s) -> Inv w -> has_run (wl w) k -> Inv (wupd k f w).
Proof.
  intros Hf [I1 I2 I3 I4] Hh.
  assert (X : forall t, In t (all (wc (wupd k f w))) -> exists t0, In t0 (all (wc w)) /\ s_key t = s_key t0 /\ s_cf t = s_cf t0 /\ okrec (wl w) t).
  { intros t Ht. unfold all in Ht. cbn [wc wupd k_svcs k_gc set_k_svcs set_k_gc] in Ht.
    apply in_app_or in Ht; destruct Ht as [Ht|Ht]; apply in_map_key in Ht; destruct Ht as (t1 & D & [[F ->]|[F ->]]); exists t1;
      (assert (D' : In t1 (all (wc w))) by (apply in_or_app; auto)); (split; [exact D'|]).
    2,4: (split; [reflexivity|]); (split; [reflexivity|]); apply I4, D'.
    all: destruct (Hf t1) as [G1 G2]; split; [exact G1|]; split; [exact G2|]; destruct (I4 t1 D') as [O1 O2]; split;
      [rewrite G2; intros Hs; apply (declared_alike t1); [unfold alike; rewrite G2; auto|apply O1, Hs]
      |intros _; right; rewrite G1, F; exact Hh]. }
  constructor.
  - exact I1.
  - intros t Ht. destruct (X t Ht) as (t0 & A & B & _). rewrite B. exact (I2 _ A).
  - intros t u Ht Hu E. destruct (X t Ht) as (t0 & A & B & C & _). destruct (X u Hu) as (u0 & A' & B' & C' & _).
    unfold alike. rewrite C, C'. apply (I3 t0 u0 A A'). congruence.
  - intros t Ht. destruct (X t Ht) as (t0 & _ & _ & _ & O). exact O.
Qed.
Lemma keep_running k s w : Inv w -> L w k s -> s_state s = Running -> wp (step_running rec k s (wc w)) (fun _ => Inv) w.
Proof.
  intros H HL Hst. unfold step_running.
  assert (K : forall b, keep b -> wp b (fun (_ : bool) => Inv) w) by (intros b Hb; apply Hb, H).
  destruct (negb (enabled (wc w) s)).
  { apply K. pose proof keep_stop. clear He. kes. }
  destruct ((s_pid s =? 0) && (is_daemon s || is_tty s)).
  { apply K. pose proof keep_set_state. clear He. kes. }
  destruct ((s_pid s =? 0) && is_runtask s) eqn:E.
  { apply andb_prop in E. destruct E as [E1 E2]. apply Z.eqb_eq in E1. apply wp_bind.
    eapply wp_mono; [apply wp_conj; [apply keep_set_state, H|apply (stopping_logged k s w HL Hst E1 E2)]|].
    intros ? w1 [H1 H2]. apply wp_bind, wp_upd, wp_ret. apply keep_count; [|exact H1|exact H2]. intros t. split; reflexivity. }
  apply K. pose proof keep_stop. pose proof keep_set_state. pose proof keep_ready. pose proof keep_cclear. clear He. kes.
Qed.
Lemma keep_switch k s w : Inv w -> L w k s -> wp (step_switch rec k s (wc w)) (fun _ => Inv) w.
Proof.
  intros H HL. pose proof (keep_running k s w H HL) as KR.
  pose proof keep_set_state. pose proof keep_ready. pose proof keep_stop. pose proof keep_cclear.
  unfold step_switch. destruct (s_state s) eqn:Es; try (apply KR; reflexivity); clear KR He;
    (match goal with |- wp ?m _ _ => cut (keep m); [intros X; apply X, H|] end); clear H HL Es; generalize (wc w); clear w; intros c0; kes.
Qed.
Lemma keep_service_step k a b : keep (service_step rec k a b).
Proof.
  intros w H. unfold service_step. apply wp_with_svc.
  2:{ intros Hn. exact (keep_emit (EUaf k) w H). }
  intros s HL. apply wp_bind, wp_getc, wp_bind. eapply wp_mono; [apply keep_switch; eassumption|]. intros d w1 H1.
  match goal with |- wp ?m _ _ => cut (keep m); [intros X; apply X, H1|] end. clear H HL H1 w w1 He. kes.
Qed.
Lemma keep_body cl : keep (body rec cl).
Proof.
  pose proof keep_set_state. pose proof keep_ready. pose proof keep_stop. pose proof keep_cclear. pose proof keep_service_step.
  pose proof keep_hook. pose proof keep_step_all. pose proof keep_coneshot. pose proof keep_rtclean. pose proof keep_reload.
  clear He. kes.
Qed.
Lemma keep_handle e : In e evs -> keep (handle rec e).
Proof.
  intros Hin.
  pose proof keep_set_state. pose proof keep_ready. pose proof keep_stop. pose proof keep_cclear.
  pose proof keep_hook. pose proof keep_step_all. pose proof keep_coneshot. pose proof keep_cset. pose proof keep_skl. pose proof keep_reload.
  clear He. unfold handle. destruct e; try solve [clear Hin; kes].
  intros w [I1 I2 I3 I4]. change (Inv (wmod (fun c => set_k_confchg true (set_k_conf l c)) w)).
  constructor; [|exact I2|exact I3|exact I4].
  intros r Hr0. cbn [wc wmod k_conf set_k_confchg set_k_conf] in Hr0. eexists _, r. eauto.
Qed.
End Rec.

Lemma keep_exec n cl : keep (exec n cl).
Proof. revert cl. induction n as [|n IH]; intros cl; [intros w H; exact Logic.I|]. cbn [exec]. apply keep_body; [exact IH|]. apply ext_exec. Qed.
Lemma keep_event n e : In e evs -> keep (on_event n e).
Proof. intros Hin. unfold on_event. apply keep_bind; [apply keep_getc|]. intros c. destruct (k_down c); [apply keep_ret|]. apply keep_handle; [apply keep_exec|exact Hin]. Qed.
End Evs.
