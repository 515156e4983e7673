(** What is marked changed, or removed, and since when. *)
From Coq Require Import List String Ascii ZArith NArith Bool Lia Arith Relations.
From Coq Require Import ZifyBool ZifyNat.
From Verif Require Import CondModel CoreTypes CoreModel CoreLib CoreMicro CoreExec CoreCalm CoreLog CoreSpec CoreSpecE CoreAny CoreProof CoreIdent CoreReload CoreReloadB.
Import ListNotations.
Local Open Scope Z_scope.

Section Marks.
(** the stanzas left out: none of them, or all *)
Variable none : nat -> Prop.
Hypothesis Hnone : (forall k, none k) \/ (forall k, ~ none k).
Definition also (k j : nat) : Prop := none j \/ k = j.
(** [X]: the stanzas left out for a moment *)
Record Db (X : nat -> Prop) (c : core) (l : log) : Prop := {
  db_d : forall s, In s (recs c) -> ~ X (s_key s) -> s_dirty s = true -> touched l (s_key s);
  db_a : forall s, In s (recs c) -> ~ X (s_key s) -> s_adirty s = true -> rearmed l (s_key s);
  db_r : forall s, In s (k_svcs c) -> s_removed s = true ->
    exists c0, last_read l = Some c0 /\ forall r, the_entry c0 s r -> ~ taken c0 r;
  db_k : forall s, In s (k_svcs c) -> s_removed s = true \/ s_protect s = true \/
    exists c0 r, last_read l = Some c0 /\ In r (k_conf c0) /\ names r s
}.
Definition hist (l : log) : Prop := forall l1 c x l2, l = l1 ++ (c, x) :: l2 -> ~ atread l2 -> Db none c l2.
Record Dx (X : nat -> Prop) (w : world) : Prop := {
  dx_top : ~ atread (wl w);
  dx_now : Db X (wc w) (wl w);
  dx_hist : hist (wl w)
}.

Lemma touched_cons c x l k : plain_eff x = true -> touched l k -> ~ told_again k c x -> touched ((c, x) :: l) k.
Proof. intros Hx H1 H2. destruct x; try discriminate; try (split; assumption). destruct r; try (split; assumption). right. exact H1. Qed.
Lemma rearmed_cons c x l k : plain_eff x = true -> rearmed l k -> ~ told_again k c x -> rearmed ((c, x) :: l) k.
Proof. intros Hx H1 H2. destruct x; try discriminate; split; assumption. Qed.
Lemma last_read_cons c x l : plain_eff x = true -> last_read ((c, x) :: l) = last_read l.
Proof. intros Hx. destruct x; try discriminate; reflexivity. Qed.

Lemma hist_cons c x l : (~ atread l -> Db none c l) -> hist l -> hist ((c, x) :: l).
Proof.
  intros H1 H2 l1 c1 x1 l2 E Ht. destruct l1 as [|z l1]; cbn in E; inversion E; subst; [auto|]. eapply H2; [reflexivity|exact Ht].
Qed.

(** leaving out more *)
Lemma Db_emit X c x l : plain_eff x = true -> (forall k, ~ X k -> ~ told_again k c x) -> Db X c l -> Db X c ((c, x) :: l).
Proof.
  intros Hx Ht [H1 H2 H3 H4]. constructor.
  - intros s A B D. apply touched_cons; auto.
  - intros s A B D. apply rearmed_cons; auto.
  - intros s A D. rewrite last_read_cons by exact Hx. auto.
  - intros s A. rewrite last_read_cons by exact Hx. auto.
Qed.
Lemma top_plain c x l : plain_eff x = true -> ~ atread ((c, x) :: l).
Proof. destruct x; try discriminate; intros _ H; exact H. Qed.
Lemma Dx_emit x w : plain_eff x = true -> (forall k, ~ none k -> ~ told_again k (wc w) x) -> Dx none w -> Dx none (wemit x w).
Proof.
  intros Hx Ht [H1 H2 H3]. constructor; cbn.
  - exact (top_plain (wc w) x (wl w) Hx).
  - apply Db_emit; auto.
  - apply hist_cons; auto.
Qed.
Lemma Dx_tell x k w : plain_eff x = true -> (forall j, ~ none j -> j <> k -> ~ told_again j (wc w) x) -> Dx none w -> Dx (also k) (wemit x w).
Proof.
  intros Hx Ht [H1 [A B C D] H3]. constructor; cbn.
  - exact (top_plain (wc w) x (wl w) Hx).
  - apply Db_emit; [exact Hx| |].
    + intros j Hj. apply Ht; intros X; apply Hj; [left; exact X|right; symmetry; exact X].
    + constructor; [| |exact C|exact D]; intros s Hs Hx'; [apply A|apply B]; auto; intros X; apply Hx'; left; exact X.
  - apply hist_cons; auto. intros _. constructor; assumption.
Qed.

Definition meek (f : svc -> svc) : Prop := forall s, s_key (f s) = s_key s /\ s_cf (f s) = s_cf s /\ (s_removed (f s) = s_removed s /\ s_protect (f s) = s_protect s) /\
  (s_dirty (f s) = true -> s_dirty s = true) /\ (s_adirty (f s) = true -> s_adirty s = true).
Lemma entry_cf c s s' r : s_cf s' = s_cf s -> the_entry c s' r -> the_entry c s r.
Proof.
  intros E. unfold the_entry, names. rewrite E. auto.
Qed.
Lemma Dx_same X w w' : wl w' = wl w ->
  (forall s', In s' (recs (wc w')) -> exists s, In s (recs (wc w)) /\ s_key s = s_key s' /\
     (s_dirty s' = true -> s_dirty s = true) /\ (s_adirty s' = true -> s_adirty s = true)) ->
  (forall s', In s' (k_svcs (wc w')) -> exists s, In s (k_svcs (wc w)) /\ s_cf s = s_cf s' /\ (s_removed s' = s_removed s /\ s_protect s' = s_protect s)) ->
  Dx X w -> Dx X w'.
Proof.
  intros El H1 H2 [A [B1 B2 B3 B4] C]. constructor; rewrite El; [exact A| |exact C]. constructor.
  - intros s' Hs Hx Hd. destruct (H1 s' Hs) as (s & S1 & S2 & S3 & S4). rewrite <- S2 in Hx |- *. apply B1; auto.
  - intros s' Hs Hx Hd. destruct (H1 s' Hs) as (s & S1 & S2 & S3 & S4). rewrite <- S2 in Hx |- *. apply B2; auto.
  - intros s' Hs Hr. destruct (H2 s' Hs) as (s & S1 & S2 & S3 & S4). rewrite S3 in Hr. destruct (B3 s S1 Hr) as (c0 & C1 & C2).
    exists c0. split; [exact C1|]. intros r Hr'. apply C2. eapply entry_cf; [symmetry; exact S2|exact Hr'].
  - intros s' Hs. destruct (H2 s' Hs) as (s & S1 & S2 & S3 & S4). rewrite S3, S4. unfold names. rewrite <- S2. exact (B4 s S1).
Qed.
Lemma Dx_upd X k f w : meek f -> Dx X w -> Dx X (wupd k f w).
Proof.
  intros Hf. apply Dx_same; [reflexivity| |].
  - intros s' Hs. unfold wupd in Hs. cbn [wc wmod] in Hs. rewrite recs_upd in Hs. apply in_map_key in Hs.
    destruct Hs as (t & A & [[_ ->]|[_ ->]]); exists t; (split; [exact A|]); [|auto]. destruct (Hf t) as (F1 & F2 & F3 & F4 & F5).
    rewrite F1. auto.
  - intros s' Hs. unfold wupd in Hs. cbn in Hs. apply in_map_key in Hs.
    destruct Hs as (t & A & [[_ ->]|[_ ->]]); exists t; (split; [exact A|]); [|auto]. destruct (Hf t) as (F1 & F2 & F3 & F4 & F5).
    destruct F3 as [F3 F3']. rewrite F2, F3, F3'. auto.
Qed.
Lemma Dx_mod X g w : (forall t, In t (recs (g (wc w))) -> In t (recs (wc w))) ->
  (forall t, In t (k_svcs (g (wc w))) -> In t (k_svcs (wc w))) -> Dx X w -> Dx X (wmod g w).
Proof. intros H1 H2. apply Dx_same; [reflexivity| |]; intros s' Hs; exists s'; auto. Qed.
Lemma Dx_modc X g w : (forall c, recs (g c) = recs c) -> (forall c, k_svcs (g c) = k_svcs c) -> Dx X w -> Dx X (wmod g w).
Proof. intros H1 H2. apply Dx_mod; intros t; rewrite ?H1, ?H2; auto. Qed.
Lemma Dx_all X f w : (forall c, meek (f c)) -> Dx X w -> Dx X (wmod (f_all f) w).
Proof.
  intros Hf. apply Dx_same; [reflexivity| |].
  - intros s' Hs. unfold recs, f_all in Hs. cbn in Hs. apply in_app_or in Hs. destruct Hs as [Hs|Hs].
    + apply in_map_iff in Hs. destruct Hs as (t & <- & A). exists t. destruct (Hf (wc w) t) as (F1 & F2 & F3 & F4 & F5).
      rewrite F1. split; [apply in_or_app; auto|]. auto.
    + exists s'. split; [apply in_or_app; auto|]. auto.
  - intros s' Hs. unfold f_all in Hs. cbn in Hs. apply in_map_iff in Hs. destruct Hs as (t & <- & A). exists t.
    destruct (Hf (wc w) t) as (F1 & F2 & [F3 F3'] & F4 & F5). rewrite F2, F3, F3'. auto.
Qed.
Lemma Dx_clean k w : Dx (also k) w -> Dx none (wclean k w).
Proof.
  intros [A [B1 B2 B3 B4] C]. constructor; [exact A| |exact C]. constructor.
  - intros s' Hs Hn Hd. unfold wclean, wupd in Hs. cbn [wc wmod] in Hs. rewrite recs_upd in Hs. apply in_map_key in Hs.
    destruct Hs as (t & T & [[_ ->]|[Hk ->]]); [discriminate Hd|]. apply B1; auto. intros [X|X]; auto.
  - intros s' Hs Hn Hd. unfold wclean, wupd in Hs. cbn [wc wmod] in Hs. rewrite recs_upd in Hs. apply in_map_key in Hs.
    destruct Hs as (t & T & [[_ ->]|[Hk ->]]); [discriminate Hd|]. apply B2; auto. intros [X|X]; auto.
  - intros s' Hs Hr. unfold wclean, wupd in Hs. cbn in Hs. apply in_map_key in Hs.
    destruct Hs as (t & T & [[_ ->]|[_ ->]]); [|auto]. apply (B3 t T Hr).
  - intros s' Hs. unfold wclean, wupd in Hs. cbn in Hs. apply in_map_key in Hs.
    destruct Hs as (t & T & [[_ ->]|[_ ->]]); exact (B4 t T).
Qed.

Ltac mk := let s := fresh "s" in intros s;
  first [ repeat split; try reflexivity; auto; fail
        | unfold f_rtot, f_incr, f_retry, f_giveup, f_timeout, f_cleanup; cbv zeta;
          repeat match goal with |- context [if ?b then _ else _] => destruct b
                 | |- context [match s_timer ?s with _ => _ end] => destruct (s_timer s) end;
          repeat split; try reflexivity; auto ].
Lemma meek_clean : meek f_clean.
Proof. intros s. repeat split; cbn; discriminate. Qed.
Ltac nt := let j := fresh in intros j _; cbn [told_again]; intros [].
Ltac dmc := apply Dx_modc; [intros ?; reflexivity|intros ?; reflexivity|].
Lemma Dx_went k new w : Dx none w -> Dx none (went k new w).
Proof.
  intros H. unfold went. destruct (lookup_svc (wc w) k) as [s|] eqn:El; [|exact H].
  unfold wenter. cbv zeta.
  assert (G : forall w1, Dx none w1 -> Dx none (if st_eqb (s_state s) new then w1
           else wupd k (set_s_state new) (wemit (EState k (s_state s) new) w1))).
  { intros w1 H1. destruct (st_eqb (s_state s) new); [exact H1|]. apply Dx_upd; [mk|]. apply Dx_emit; [reflexivity|nt|exact H1]. }
  apply G. destruct (st_eqb new Stopping); [|exact H]. unfold wtimeout, wcancel. repeat (apply Dx_upd; [mk|]). exact H.
Qed.
Lemma Dx_forked X k f p w : Dx X (wemit (EFork k f p) (wmod (fun c => set_k_forks (tl (k_forks c)) c) w)) -> Dx X (wfork_ok k f p w).
Proof.
  intros H. unfold wfork_ok. apply Dx_mod; [destruct f; exact (fun _ x => x)|destruct f; exact (fun _ x => x)|]. dmc. exact H.
Qed.
Lemma Dx_fork k f p w : f <> FMain -> Dx none w -> Dx none (wfork_ok k f p w).
Proof.
  intros Hf H. apply Dx_forked. apply Dx_emit; [reflexivity| |dmc; exact H].
  intros j _. destruct f; cbn [told_again]; try (intros []; fail). congruence.
Qed.
Lemma clean_upd X k w : Dx X w -> Dx X (wclean k w).
Proof. apply Dx_upd, meek_clean. Qed.
Ltac dx1 :=
  match goal with
  | H : Dx ?X ?w |- Dx ?Y ?w' => constr_eq w w'; constr_eq X Y; exact H
  | |- Dx _ (wemit _ _) => apply Dx_emit; [reflexivity|nt|]
  | |- Dx _ (went _ _ _) => apply Dx_went
  | |- Dx _ (wclean _ _) => apply clean_upd
  | |- Dx _ (wupd _ _ _) => apply Dx_upd; [mk|]
  | |- Dx _ (wfork_ok _ _ _ _) => apply Dx_fork; [discriminate|]
  | |- Dx _ (wmod _ _) => dmc
  | |- Dx _ (if ?b then _ else _) => destruct b
  end.
Ltac dx := unfold w_done, w_prep, wcleanup, wcancel, wblock, wtimeout, wscript, wcond, wfork_fail; cbv zeta; repeat dx1.

Lemma Dx_main_told k p w : Dx none w -> Dx (also k) (wfork_ok k FMain p w).
Proof.
  intros H. apply Dx_forked. apply Dx_tell; [reflexivity| |dmc; exact H].
  intros j _ Hj. cbn [told_again]. intros [E _]. congruence.
Qed.
Lemma Dx_main_sock k p s w : L w k s -> uses_socket s = true -> Dx none w -> Dx none (wfork_ok k FMain p w).
Proof.
  intros HL Hu H. apply Dx_forked. apply Dx_emit; [reflexivity| |dmc; exact H].
  intros j _. cbn [told_again]. intros [-> E]. specialize (E s HL). unfold uses_socket in Hu. destruct (c_notify (s_cf s)); (discriminate || exact E).
Qed.
Lemma prep_Dx X k w : Dx X w -> Dx X (w_prep k w).
Proof. intros H. unfold w_prep. apply Dx_upd; [mk|]. apply Dx_upd; [mk|]. exact H. Qed.
Lemma forked_told k s p w : Dx none w -> Dx (also k) (w_forked k s p w).
Proof.
  intros H. unfold w_forked. cbv zeta.
  assert (G : Dx (also k) (wupd k (set_s_pid p) (wfork_ok k FMain p (w_prep k w)))).
  { apply Dx_upd; [mk|]. apply Dx_main_told, prep_Dx, H. }
  destruct (uses_socket s), (is_run_t (ty s)); repeat dmc; exact G.
Qed.
Lemma forked_sock k s p w : L w k s -> uses_socket s = true -> Dx none w -> Dx none (w_forked k s p w).
Proof.
  intros HL Hu H. unfold w_forked. cbv zeta.
  assert (G : Dx none (wupd k (set_s_pid p) (wfork_ok k FMain p (w_prep k w)))).
  { apply Dx_upd; [mk|]. apply (Dx_main_sock k p (f_rtot (set_s_starting true s))); [|unfold f_rtot; destruct (_ && _); exact Hu|apply prep_Dx, H].
    unfold w_prep. lk. }
  rewrite Hu. destruct (is_run_t (ty s)); repeat dmc; exact G.
Qed.

Lemma svcs_del k c t : In t (k_svcs (c_del k c)) -> In t (k_svcs c).
Proof. unfold c_del. destruct (find_key k (k_svcs c)); [|auto]. cbn. rewrite filter_In. tauto. Qed.
Lemma memZ_in p l : In p l -> memZ p l = true.
Proof. intros H. unfold memZ. apply existsb_exists. exists p. split; [exact H|apply Z.eqb_refl]. Qed.
Lemma mark_none w : ~ atread (wl w) -> forall c l, wl w = (c, EReconf) :: l -> False.
Proof. intros H c l E. rewrite E in H. apply H. exact I. Qed.

Lemma Dx_micro calm e w w' : (forall k, e = EvSignal k 1 -> none k) -> micro calm e w w' -> Dx none w ->
  Dx none w' \/ w' = wmod (f_all (fun _ => svc_mark)) (wemit EReconf w).
Proof.
  intros He Hm H.
  assert (Hm1 := dx_top _ _ H).
  destruct Hm; try (exfalso; match goal with H : exists c l, wl w = (c, EReconf) :: l |- _ => destruct H as (? & ? & X); exact (mark_none w Hm1 _ _ X) end);
    try (right; reflexivity); left; try (dx; fail).
  - unfold w_aux. cbv zeta. assert (G : Dx none (wupd k (set_s_pid p) (wfork_ok k f p w))).
    { apply Dx_upd; [mk|]. apply Dx_fork; [intros ->; discriminate|exact H]. }
    destruct (lookup_svc _ _); [unfold wtimeout; apply Dx_upd; [mk|exact G]|apply Dx_emit; [reflexivity|nt|exact G]].
  - apply Dx_went, Dx_clean, forked_told, H.
  - destruct H0 as (A1 & _). pose proof (forked_sock k s p w A1 H3 H) as G.
    destruct (is_run_t (ty s)); [exact G|]. apply Dx_upd; [mk|exact G].
  - apply Dx_went. apply Dx_emit; [reflexivity| |dx].
    intros j _. cbn [told_again]. intros Ht. destruct (Z.eq_dec (c_sighalt (s_cf s)) 1) as [E1|E1].
    + rewrite E1 in Ht. destruct Ht as (-> & _ & X).
      assert (HL : L (wupd j (set_s_starting false) (wcancel j w)) j (set_s_starting false (set_s_timer TmNone s))) by lk.
      apply (X _ HL). exact E1.
    + destruct (c_sighalt (s_cf s)) as [|q|q]; try exact Ht. destruct q; try exact Ht. apply E1. reflexivity.
  - subst w1. dx.
  - cbv zeta. destruct (alive (wc w) (s_pid s)) eqn:Ea.
    + apply Dx_clean. apply Dx_upd; [mk|]. apply Dx_tell; [reflexivity| |exact H].
      intros j _ Hj. cbn [told_again]. intros [E _]. congruence.
    + apply Dx_emit; [reflexivity| |exact H]. intros j _. cbn [told_again]. intros (_ & X & _).
      unfold alive in Ea. apply memZ_in in X. congruence.
  - unfold w_collect. dx.
  - unfold w_collect. dx.
  - apply Dx_mod; [apply recs_del|apply svcs_del|dx].
  - apply Dx_mod; [apply recs_del|apply svcs_del|dx].
  - apply Dx_mod; [| |exact H]; unfold c_nologin; cbv zeta;
    destruct (_ || _); cbn [k_prev set_k_nologin]; destruct (_ || _); auto.
  - cbv zeta. destruct (c_oncrash (s_cf s)); dx.
  - apply Dx_mod; [| |exact H].
    + intros t. unfold recs. cbn. rewrite !in_app_iff, filter_In. tauto.
    + auto.
  - destruct H1 as (c & l & El). destruct H as [A [B1 B2 B3 B4] C]. constructor; [exact A| |exact C]. constructor.
    + intros s' Hs Hx Hd. unfold wupd in Hs. cbn [wc wmod] in Hs. rewrite recs_upd in Hs. apply in_map_key in Hs.
      destruct Hs as (t & T & [[Hk ->]|[Hk ->]]); [|apply B1; auto]. cbn [wupd wmod wl]. rewrite El. cbn. left. symmetry. exact Hk.
    + intros s' Hs Hx Hd. unfold wupd in Hs. cbn [wc wmod] in Hs. rewrite recs_upd in Hs. apply in_map_key in Hs.
      destruct Hs as (t & T & [[Hk ->]|[Hk ->]]); [|apply B2; auto]. apply (B2 t T Hx Hd).
    + intros s' Hs Hr. unfold wupd in Hs. cbn in Hs. apply in_map_key in Hs.
      destruct Hs as (t & T & [[_ ->]|[_ ->]]); [|auto]. apply (B3 t T Hr).
    + intros s' Hs. unfold wupd in Hs. cbn in Hs. apply in_map_key in Hs.
      destruct Hs as (t & T & [[_ ->]|[_ ->]]); exact (B4 t T).
  - apply Dx_emit; [reflexivity| |exact H]. intros j Hj. cbn [told_again]. intros Ht.
    destruct sig as [|q|q]; try exact Ht. destruct q; try exact Ht. destruct Ht as (-> & _). apply Hj, (He j), H0.
  - apply Dx_all; [|dx]. intros _. mk.
Qed.

(** ** Only the end of a reading follows its beginning *)

Definition em (w w' : world) : Prop := wl w' = wl w \/ exists l c x, wl w' = l ++ (c, x) :: wl w /\ x <> EReconfEnd.
Lemma em_refl w : em w w.
Proof. left. reflexivity. Qed.
Lemma em_same w v v' : wl v' = wl v -> em w v -> em w v'.
Proof. intros E. unfold em. rewrite E. auto. Qed.
Lemma em_emit x w v : x <> EReconfEnd -> em w v -> em w (wemit x v).
Proof.
  intros Hx [H|(l & c & y & H & Hy)]; right.
  - exists [], (wc v), x. cbn. rewrite H. auto.
  - exists ((wc v, x) :: l), c, y. cbn. rewrite H. auto.
Qed.
Lemma em_went k new w v : em w v -> em w (went k new v).
Proof.
  intros H. unfold went. destruct (lookup_svc (wc v) k) as [s|]; [|exact H]. unfold wenter. cbv zeta.
  assert (G : forall w1, em w w1 -> em w (if st_eqb (s_state s) new then w1
           else wupd k (set_s_state new) (wemit (EState k (s_state s) new) w1))).
  { intros w1 H1. destruct (st_eqb (s_state s) new); [exact H1|]. eapply em_same; [reflexivity|]. apply em_emit; [discriminate|exact H1]. }
  apply G. destruct (st_eqb new Stopping); [|exact H]. eapply em_same; [reflexivity|exact H].
Qed.
Lemma em_upd k f w v : em w v -> em w (wupd k f v).
Proof. apply em_same. reflexivity. Qed.
Lemma em_mod g w v : em w v -> em w (wmod g v).
Proof. apply em_same. reflexivity. Qed.
Lemma em_fork k f p w v : em w v -> em w (wfork_ok k f p v).
Proof. intros H. unfold wfork_ok. apply em_mod, em_mod, em_emit; [discriminate|]. apply em_mod, H. Qed.
Ltac em1 :=
  match goal with
  | |- em ?w ?w' => constr_eq w w'; apply em_refl
  | |- em _ (wemit _ _) => apply em_emit; [discriminate|]
  | |- em _ (went _ _ _) => apply em_went
  | |- em _ (wupd _ _ _) => apply em_upd
  | |- em _ (wfork_ok _ _ _ _) => apply em_fork
  | |- em _ (wmod _ _) => apply em_mod
  | |- em _ (if ?b then _ else _) => destruct b
  | |- em _ (match ?b with _ => _ end) => destruct b
  end.
Ltac ems := unfold w_aux, w_collect, w_forked, w_done, w_prep, wcleanup, wclean, wcancel, wblock, wtimeout, wscript, wcond, wfork_fail; cbv zeta; repeat em1.
Lemma em_micro calm e w w' : micro calm e w w' -> em w w' \/ w' = wmod c_confdone (wemit EReconfEnd w).
Proof.
  intros Hm. destruct Hm; try (right; reflexivity); left; try (ems; fail).
  subst w1. ems.
Qed.

(** ** The reading itself *)

Lemma marked_mono c c' (a b : nat -> Prop) k : (forall k, a k -> b k) -> marked c c' a k -> marked c c' b k.
Proof.
  intros H M. induction M as [s r A B C D|s A B|s t A B C IH D F|k A B].
  - exact (mk_edited _ _ _ s r A B C D).
  - exact (mk_new _ _ _ s A B).
  - exact (mk_depends _ _ _ s t A B IH D F).
  - exact (mk_still _ _ _ k (H k A) B).
Qed.
Lemma remarked_mono c c' (a b : nat -> Prop) k : (forall k, a k -> b k) -> remarked c c' a k -> remarked c c' b k.
Proof.
  intros H M. destruct M as [s r A B C D|s A B|k A B].
  - exact (rm_edited _ _ _ s r A B C D).
  - exact (rm_new _ _ _ s A B).
  - exact (rm_still _ _ _ k (H k A) B).
Qed.
Lemma entry_names c s s' r : c_name (s_cf s') = c_name (s_cf s) /\ c_id (s_cf s') = c_id (s_cf s) -> the_entry c s' r -> the_entry c s r.
Proof. intros [E1 E2]. unfold the_entry, names. rewrite E1, E2. auto. Qed.

Lemma named_dec c s : (exists r, In r (k_conf c) /\ names r s) \/ (forall r, In r (k_conf c) -> ~ names r s).
Proof.
  unfold names. induction (k_conf c) as [|r l IH]; [right; intros r []|].
  destruct (string_dec (c_name (r_cfg r)) (c_name (s_cf s))) as [E1|E1].
  1: destruct (string_dec (c_id (r_cfg r)) (c_id (s_cf s))) as [E2|E2].
  1:{ left. exists r. split; [left; reflexivity|auto]. }
  all: (destruct IH as [(x & X1 & X2)|IH]; [left; exists x; split; [right; exact X1|exact X2]|right];
    intros x [<-|Hx]; [intros [A B]; contradiction|exact (IH x Hx)]).
Qed.

Lemma reload_Db c l : wf c -> Db none c l -> Db none (c_confdone (reload1 c)) ((reload1 c, EReconfEnd) :: (c, EReconf) :: l).
Proof.
  intros Hw [H1 H2 H3 H4]. pose proof (reload1_spec c Hw) as R.
  assert (Hgc : k_gc (reload1 c) = k_gc c) by (pose proof (rl_rest _ _ R) as E; apply (f_equal k_gc) in E; exact E).
  assert (Hsep : forall s t, In s (k_svcs c) -> In t (k_gc c) -> s_key s <> s_key t).
  { intros s t Hs Ht E. pose proof (wf_keys _ Hw) as N. rewrite map_app in N.
    apply in_split in Hs. destruct Hs as (a & b & Hs). rewrite Hs in N. rewrite map_app in N. cbn [map] in N.
    rewrite <- app_assoc in N. cbn [List.app] in N. apply NoDup_remove_2 in N. apply N. rewrite !in_app_iff. right. right.
    rewrite E. apply in_map, Ht. }
  constructor.
  - intros s Hs Hn Hd. change (marked c (reload1 c) (touched l) (s_key s)).
    change (In s (k_svcs (reload1 c) ++ k_gc (reload1 c))) in Hs. apply in_app_iff in Hs. destruct Hs as [Hs|Hs].
    + eapply marked_mono; [|apply (rl_marked _ _ R); assumption]. intros k (t & T1 & <- & T2). apply H1; [apply in_or_app; auto|destruct Hnone as [Hx|Hx]; [contradiction (Hn (Hx _))|apply Hx]|exact T2].
    + rewrite Hgc in Hs. apply mk_still; [apply H1; [apply in_or_app; auto|exact Hn|exact Hd]|].
      intros t r T1 T2. exfalso. exact (Hsep t s T1 Hs T2).
  - intros s Hs Hn Hd. change (remarked c (reload1 c) (rearmed l) (s_key s)).
    change (In s (k_svcs (reload1 c) ++ k_gc (reload1 c))) in Hs. apply in_app_iff in Hs. destruct Hs as [Hs|Hs].
    + eapply remarked_mono; [|apply (rl_remarked _ _ R); assumption]. intros k (t & T1 & <- & T2). apply H2; [apply in_or_app; auto|destruct Hnone as [Hx|Hx]; [contradiction (Hn (Hx _))|apply Hx]|exact T2].
    + rewrite Hgc in Hs. apply rm_still; [apply H2; [apply in_or_app; auto|exact Hn|exact Hd]|].
      intros t r T1 T2. exfalso. exact (Hsep t s T1 Hs T2).
  - intros s' Hs Hr. exists c. split; [reflexivity|]. intros r He Ht. change (In s' (k_svcs (reload1 c))) in Hs.
    destruct (in_dec Nat.eq_dec (s_key s') (map s_key (k_svcs c))) as [Hk|Hk].
    + apply in_map_iff in Hk. destruct Hk as (s & Ek & Hs0). destruct (rl_kept _ _ R s Hs0) as (s2 & A & B & _ & D).
      assert (s2 = s') by (apply (nodup_key_eq (k_svcs (reload1 c))); [apply reload1_keys, Hw|exact A|exact Hs|destruct B as (-> & _); exact Ek]).
      subst s2. destruct B as (_ & Bn & _). destruct (D r (entry_names _ _ _ _ Bn He) Ht) as (_ & _ & F & _). congruence.
    + assert (Hn : forall s, In s (k_svcs c) -> s_key s <> s_key s') by (intros s Hs0 E; apply Hk; rewrite <- E; apply in_map, Hs0).
      destruct (rl_new _ _ R s' Hs Hn) as (_ & _ & _ & F). rewrite (F r He Ht) in Hr. discriminate Hr.
  - intros s' Hs. change (In s' (k_svcs (reload1 c))) in Hs.
    change (s_removed s' = true \/ s_protect s' = true \/ exists c0 r, Some c = Some c0 /\ In r (k_conf c0) /\ names r s').
    destruct (in_dec Nat.eq_dec (s_key s') (map s_key (k_svcs c))) as [Hk|Hk].
    + apply in_map_iff in Hk. destruct Hk as (s & Ek & Hs0). destruct (rl_kept _ _ R s Hs0) as (s2 & A & B & D & _).
      assert (s2 = s') by (apply (nodup_key_eq (k_svcs (reload1 c))); [apply reload1_keys, Hw|exact A|exact Hs|destruct B as (-> & _); exact Ek]).
      subst s2. destruct B as (_ & Bn & _). destruct (named_dec c s) as [(r & R1 & R2)|Hno].
      * right. right. exists c, r. split; [reflexivity|]. split; [exact R1|]. unfold names in *. destruct Bn as [-> ->]. exact R2.
      * destruct (D Hno) as (_ & _ & D1 & D2). rewrite D2, D1. destruct (s_protect s); [right; left; reflexivity|left]. apply orb_true_r.
    + assert (Hn : forall s, In s (k_svcs c) -> s_key s <> s_key s') by (intros s Hs0 E; apply Hk; rewrite <- E; apply in_map, Hs0).
      destruct (rl_new _ _ R s' Hs Hn) as (_ & _ & (r & R1 & R2) & _). right. right. exists c, r. auto.
Qed.

(** ** Every history *)

Lemma lok_app a b : lok (a ++ b) -> lok b.
Proof. induction a as [|[c x] a IH]; [auto|]. cbn [List.app lok]. intros [_ H]. auto. Qed.
Record Qd (w : world) : Prop := {
  q_hist : hist (wl w);
  q_now : ~ atread (wl w) -> Db none (wc w) (wl w)
}.
Lemma wf_of c l : ubase (mkWorld c l) -> NoDup (nids c) -> wf c.
Proof. intros [U1 U2 _ _ _] D. constructor; [exact U1|exact D|exact U2]. Qed.
Lemma atread_dec l : atread l \/ ~ atread l.
Proof. destruct l as [|[c []] l]; cbn; auto. Qed.

Lemma reach_Qd (E : ev -> Prop) w00 Lf w : (forall e, E e -> forall k, e = EvSignal k 1 -> none k) -> lok Lf ->
  uinv w00 -> dinv w00 -> Qd w00 -> reach False E w00 w -> (exists l, Lf = l ++ wl w) -> Qd w.
Proof.
  intros HE HL HU HD H0 Hr. revert w Hr.
  apply (reach_ind False E (fun w => (exists l, Lf = l ++ wl w) -> Qd w)); [auto|].
  intros e w w' He Hm Hw IH (l & El).
  destruct (micro_facts False e w w' Hm) as (new & En & _).
  assert (HQ : Qd w) by (apply IH; exists (l ++ new); rewrite <- app_assoc, <- En; exact El).
  assert (Hlok : lok (wl w')) by (rewrite El in HL; eapply lok_app, HL).
  destruct HQ as [Q1 Q2]. destruct (atread_dec (wl w)) as [Ha|Ha].
  - destruct (em_micro _ _ _ _ Hm) as [[Hs|(l1 & c1 & x1 & Hs & Hx)]|Hs].
    + constructor; rewrite Hs; [exact Q1|]. intros X. exfalso. auto.
    + exfalso. rewrite Hs in Hlok. apply lok_app in Hlok. cbn [lok] in Hlok. destruct Hlok as [X _].
      destruct x1; try (apply X; exact Ha). apply Hx. reflexivity.
    + subst w'. destruct (wl w) as [|[c x] l0] eqn:Ew; [destruct Ha|]. destruct x; try destruct Ha.
      cbn in Hlok. rewrite Ew in Hlok. destruct Hlok as [Ec Hlok].
      pose proof (reach_uinv False E w00 w HU Hw) as U. pose proof (reach_dinv False E w00 w HU HD Hw) as D.
      assert (Hwf : wf c).
      { apply (wf_of c l0); [apply (u_hist _ U [] c EReconf l0 Ew)|apply (d_hist _ D c EReconf)]. rewrite Ew. left. reflexivity. }
      assert (HDb : Db none c l0).
      { apply (Q1 [] c EReconf l0 eq_refl). destruct Hlok as [X _]. exact X. }
      assert (El' : wl (wmod c_confdone (wemit EReconfEnd w)) = (reload1 c, EReconfEnd) :: (c, EReconf) :: l0) by (cbn; rewrite Ew, Ec; reflexivity).
      constructor; rewrite El'.
      * apply hist_cons; [|exact Q1]. intros X. exfalso. apply X. exact I.
      * intros _. cbn [wc wmod wemit]. rewrite Ec. apply reload_Db; assumption.
  - assert (HX : Dx none w) by (constructor; [exact Ha|exact (Q2 Ha)|exact Q1]).
    destruct (Dx_micro _ _ _ _ (HE e He) Hm HX) as [[X1 X2 X3]| ->].
    + constructor; auto.
    + constructor; cbn.
      * apply hist_cons; [exact Q2|exact Q1].
      * intros X. exfalso. apply X. exact I.
Qed.


Lemma history_Qd n evs cfgl cmdl w : (forall k, In (EvSignal k 1) evs -> none k) -> history n evs cfgl cmdl w -> Qd w.
Proof.
  intros HE Hh. pose proof (history_lokt _ _ _ _ _ Hh) as [HL _].
  apply (reach_Qd (fun e => In e evs) (init_world cfgl cmdl) (wl w)); [|exact HL|apply uinv_init|apply dinv_init| |apply (run_any n); exact Hh|exists []; reflexivity].
  - intros e He k ->. apply HE, He.
  - constructor; cbn; [intros l1 c x l2 E; destruct l1; discriminate|].
    intros _. constructor; intros s [].
Qed.
End Marks.
