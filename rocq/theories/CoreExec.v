(** Every run of the supervisor model is a sequence of [micro] changes. *)
From Coq Require Import List String Ascii ZArith Bool Lia Arith Relations.
From Coq Require Import ZifyBool ZifyNat.
From Verif Require Import CondModel CoreTypes CoreModel CoreLib CoreMicro.
Import ListNotations.
Local Open Scope Z_scope.

(** the globals that no service transition touches *)
Definition same_glob (w w' : world) : Prop :=
  k_sm (wc w') = k_sm (wc w) /\ k_inrl (wc w') = k_inrl (wc w) /\
  k_rl (wc w') = k_rl (wc w) /\ k_prev (wc w') = k_prev (wc w) /\
  k_newl (wc w') = k_newl (wc w) /\ k_boot (wc w') = k_boot (wc w) /\
  k_cfgl (wc w') = k_cfgl (wc w) /\ k_cmdl (wc w') = k_cmdl (wc w) /\
  lastmark (wl w') = lastmark (wl w) /\ k_nologin (wc w') = k_nologin (wc w) /\
  levels (wl w') = levels (wl w) /\ (k_down (wc w) = true -> k_down (wc w') = true).

Definition same_loc (w w' : world) : Prop := same_glob w w' /\ keys (wc w') = keys (wc w).

(** a service step keeps the configuration of every record, and only run and
    task records are ever stopped the way a user does it *)
Definition keeps (s s' : svc) : Prop :=
  s_cf s' = s_cf s /\ (s_block s' = BUser -> s_block s = BUser \/ is_runtask s = true) /\ s_removed s' = s_removed s.
Lemma keeps_refl s : keeps s s. Proof. split; [|split]; auto. Qed.
Lemma keeps_trans a b c : keeps a b -> keeps b c -> keeps a c.
Proof.
  intros (A1 & A2 & A3) (B1 & B2 & B3). split; [congruence|]. split; [|congruence]. intros H. destruct (B2 H) as [H1|H1]; [auto|].
  right. unfold is_runtask, ty in *. congruence.
Qed.

(** nothing but record [k] and the world around the records changes *)
Definition local (k : nat) (w w' : world) : Prop :=
  (forall j, j <> k -> lookup_svc (wc w') j = lookup_svc (wc w) j) /\ same_loc w w' /\
  (forall s', L w' k s' -> exists s, L w k s /\ keeps s s') /\
  (lookup_svc (wc w') k = None -> lookup_svc (wc w) k = None).
Definition globl (w w' : world) : Prop :=
  (forall j, lookup_svc (wc w') j = lookup_svc (wc w) j) /\ same_loc w w'.

Lemma same_refl w : same_glob w w. Proof. unfold same_glob; tauto. Qed.
Lemma same_trans a b c : same_glob a b -> same_glob b c -> same_glob a c.
Proof. unfold same_glob. intuition congruence. Qed.
Lemma sl_refl w : same_loc w w. Proof. split; [apply same_refl|reflexivity]. Qed.
Lemma sl_trans a b c : same_loc a b -> same_loc b c -> same_loc a c.
Proof. intros [A1 A2] [B1 B2]. split; [eapply same_trans; eauto|congruence]. Qed.
Lemma map_key_keys k f l : (forall s, s_key (f s) = s_key s) -> map s_key (map_key k f l) = map s_key l.
Proof.
  intros Hf. unfold map_key. rewrite map_map. apply map_ext. intros s.
  destruct (Nat.eqb (s_key s) k); auto.
Qed.
Lemma local_refl k w : local k w w. Proof. split; [auto|]. split; [apply sl_refl|]. split; [|auto]. intros s H. exists s. split; [exact H|apply keeps_refl]. Qed.
Lemma globl_refl w : globl w w. Proof. split; [auto|apply sl_refl]. Qed.
Lemma globl_local k w w' : globl w w' -> local k w w'.
Proof.
  intros [H1 H2]; split; [auto|]. split; [auto|]. split; [|rewrite H1; auto].
  intros s' Hs'. exists s'. split; [|apply keeps_refl]. unfold L in *. rewrite <- H1. exact Hs'.
Qed.
Lemma local_trans k a b c : local k a b -> local k b c -> local k a c.
Proof.
  intros (H1 & H2 & H5 & H7) (H3 & H4 & H6 & H8). split; [|split; [eapply sl_trans; eauto|split; [|auto]]].
  - intros j Hj. rewrite H3, H1; auto.
  - intros s' Hs'. destruct (H6 _ Hs') as (t & A & B). destruct (H5 _ A) as (u & C & D).
    exists u. split; [exact C|eapply keeps_trans; eauto].
Qed.

Lemma local_wupd k f w0 w :
  (forall s, s_key (f s) = s_key s) -> (forall s, L w k s -> keeps s (f s)) ->
  local k w0 w -> local k w0 (wupd k f w).
Proof.
  intros Hf Hg (H1 & H2 & H3 & H4). split; [|split; [|split]].
  - intros j Hj. rewrite lookup_wupd_other; auto.
  - eapply sl_trans; [exact H2|]. split; [exact (same_refl w)|]. apply map_key_keys, Hf.
  - intros s' Hs'. unfold L, wupd, wmod in Hs'. cbn [wc] in Hs'. rewrite lookup_upd in Hs' by exact Hf.
    rewrite Nat.eqb_refl in Hs'. destruct (lookup_svc (wc w) k) as [t|] eqn:Et; [|discriminate].
    cbn in Hs'. inversion Hs'; subst s'. destruct (H3 t Et) as (u & A & B).
    exists u. split; [exact A|]. eapply keeps_trans; [exact B|apply Hg, Et].
  - intros Hn. apply H4. unfold wupd, wmod in Hn. cbn [wc] in Hn. rewrite lookup_upd in Hn by exact Hf.
    rewrite Nat.eqb_refl in Hn. destruct (lookup_svc (wc w) k); [discriminate|reflexivity].
Qed.
Lemma lastmark_emit e w : eff_mark e = None -> lastmark (wl (wemit e w)) = lastmark (wl w).
Proof. intros H. cbn. rewrite H. reflexivity. Qed.
Definition unmarked (e : eff) : Prop := eff_mark e = None /\ eff_level e = None.
Lemma levels_emit e w : eff_level e = None -> levels (wl (wemit e w)) = levels (wl w).
Proof. intros H. cbn. rewrite H. reflexivity. Qed.
Lemma same_emit e w0 w : unmarked e -> same_glob w0 w -> same_glob w0 (wemit e w).
Proof.
  intros [H H'] (? & ? & ? & ? & ? & ? & ? & ? & ? & ?). unfold same_glob.
  rewrite lastmark_emit, levels_emit by assumption. cbn [wc wemit]. tauto.
Qed.
Lemma local_wemit k e w0 w : unmarked e -> local k w0 w -> local k w0 (wemit e w).
Proof.
  intros He (H1 & [H2 H2'] & H3). split; [exact H1|]. split; [|exact H3].
  split; [apply same_emit; assumption|exact H2'].
Qed.
Lemma local_wmod k f w0 w :
  (forall c, k_svcs (f c) = k_svcs c /\ k_gc (f c) = k_gc c) ->
  (forall c, k_sm (f c) = k_sm c /\ k_inrl (f c) = k_inrl c /\ k_rl (f c) = k_rl c /\
     k_prev (f c) = k_prev c /\ k_newl (f c) = k_newl c /\ k_boot (f c) = k_boot c /\
     k_cfgl (f c) = k_cfgl c /\ k_cmdl (f c) = k_cmdl c /\ k_nologin (f c) = k_nologin c /\
     (k_down c = true -> k_down (f c) = true)) ->
  local k w0 w -> local k w0 (wmod f w).
Proof.
  intros Hf Hg (H1 & H2 & H3 & H4). split; [|split; [|split]].
  - intros j Hj. unfold wmod, lookup_svc. cbn [wc]. destruct (Hf (wc w)) as [-> ->]. apply H1, Hj.
  - eapply sl_trans; [exact H2|]. split.
    + unfold same_glob, wmod; cbn [wc]. destruct (Hg (wc w)) as (? & ? & ? & ? & ? & ? & ? & ? & ? & ?). tauto.
    + unfold keys, wmod; cbn [wc]. destruct (Hf (wc w)) as [-> _]. reflexivity.
  - intros s' Hs'. apply H3. unfold L, wmod, lookup_svc in Hs'. cbn [wc] in Hs'.
    destruct (Hf (wc w)) as [Ha Hb]. rewrite Ha, Hb in Hs'. exact Hs'.
  - intros Hn. apply H4. unfold wmod, lookup_svc in Hn. cbn [wc] in Hn.
    destruct (Hf (wc w)) as [Ha Hb]. rewrite Ha, Hb in Hn. exact Hn.
Qed.
Lemma globl_wmod f w0 w :
  (forall c, k_svcs (f c) = k_svcs c /\ k_gc (f c) = k_gc c) ->
  (forall c, k_sm (f c) = k_sm c /\ k_inrl (f c) = k_inrl c /\ k_rl (f c) = k_rl c /\
     k_prev (f c) = k_prev c /\ k_newl (f c) = k_newl c /\ k_boot (f c) = k_boot c /\
     k_cfgl (f c) = k_cfgl c /\ k_cmdl (f c) = k_cmdl c /\ k_nologin (f c) = k_nologin c /\
     (k_down c = true -> k_down (f c) = true)) ->
  globl w0 w -> globl w0 (wmod f w).
Proof.
  intros Hf Hg [H1 H2]. split.
  - intros j. unfold wmod, lookup_svc. cbn [wc]. destruct (Hf (wc w)) as [-> ->]. apply H1.
  - eapply sl_trans; [exact H2|]. split.
    + unfold same_glob, wmod; cbn [wc]. destruct (Hg (wc w)) as (? & ? & ? & ? & ? & ? & ? & ? & ? & ?). tauto.
    + unfold keys, wmod; cbn [wc]. destruct (Hf (wc w)) as [-> _]. reflexivity.
Qed.
Lemma globl_wemit e w0 w : unmarked e -> globl w0 w -> globl w0 (wemit e w).
Proof.
  intros He (H1 & [H2 H2']). split; [exact H1|]. split; [apply same_emit; assumption|exact H2'].
Qed.

Lemma f_timeout_key ms cb s : s_key (f_timeout ms cb s) = s_key s.
Proof. unfold f_timeout. destruct (ms =? 0); [reflexivity|]. destruct (s_timer s); reflexivity. Qed.
Lemma f_rtot_key s : s_key (f_rtot s) = s_key s.
Proof. unfold f_rtot. destruct (_ && _); reflexivity. Qed.
Lemma f_retry_key s : s_key (f_retry s) = s_key s.
Proof. unfold f_retry. cbn. destruct (_ =? _); reflexivity. Qed.

Lemma f_timeout_cf ms cb s : s_cf (f_timeout ms cb s) = s_cf s.
Proof. unfold f_timeout. destruct (ms =? 0); [reflexivity|]. destruct (s_timer s); reflexivity. Qed.
Lemma f_rtot_cf s : s_cf (f_rtot s) = s_cf s.
Proof. unfold f_rtot. destruct (_ && _); reflexivity. Qed.
Lemma f_retry_cf s : s_cf (f_retry s) = s_cf s.
Proof. unfold f_retry. cbn. destruct (_ =? _); reflexivity. Qed.
Lemma keeps_same s s' : s_cf s' = s_cf s -> s_removed s' = s_removed s -> s_block s' = s_block s -> keeps s s'.
Proof. intros H1 H0 H2. split; [exact H1|]. split; [|exact H0]. intros H3. left. congruence. Qed.
Lemma keeps_timeout ms cb s : keeps s (f_timeout ms cb s).
Proof. apply keeps_same; [apply f_timeout_cf| |]; unfold f_timeout; (destruct (ms =? 0); [reflexivity|]); destruct (s_timer s); reflexivity. Qed.
Lemma keeps_rtot s : keeps s (f_rtot s).
Proof. apply keeps_same; [apply f_rtot_cf| |]; unfold f_rtot; destruct (_ && _); reflexivity. Qed.
Lemma keeps_retry s : keeps s (f_retry s).
Proof. split; [apply f_retry_cf|]. unfold f_retry. cbn. split; [discriminate|]. destruct (_ =? _); reflexivity. Qed.
Ltac keepid :=
  intros ? _;
  first [ exact (keeps_same _ _ eq_refl eq_refl eq_refl) | apply keeps_timeout | apply keeps_rtot | apply keeps_retry
        | split; [reflexivity|split; [cbn; discriminate|reflexivity]] ].

Ltac keyid := first [ exact (fun s => eq_refl) | exact (f_timeout_key _ _) | exact f_rtot_key | exact f_retry_key ].

Lemma local_wenter k s new w0 w : local k w0 w -> local k w0 (wenter k s new w).
Proof.
  intros H. unfold wenter, wcancel, wtimeout.
  destruct (st_eqb new Stopping), (st_eqb (s_state s) new);
    repeat first [ exact H | apply local_wemit; [split; reflexivity|] | apply local_wupd; [keyid|keepid|] ].
Qed.
Lemma local_went k new w0 w : local k w0 w -> local k w0 (went k new w).
Proof. intros H. unfold went. destruct (lookup_svc (wc w) k); [apply local_wenter|]; exact H. Qed.
Lemma local_wfork_ok k j f p w0 w : local k w0 w -> local k w0 (wfork_ok j f p w).
Proof.
  intros H. unfold wfork_ok.
  apply local_wmod; [split; reflexivity|intros; cbn; tauto|].
  apply local_wmod; [split; reflexivity|intros; cbn; tauto|].
  apply local_wemit; [split; reflexivity|].
  apply local_wmod; [split; reflexivity|intros; cbn; tauto|]. exact H.
Qed.
Lemma local_wfork_fail k j f w0 w : local k w0 w -> local k w0 (wfork_fail j f w).
Proof.
  intros H. unfold wfork_fail. apply local_wemit; [split; reflexivity|].
  apply local_wmod; [split; reflexivity|intros; cbn; tauto|]. exact H.
Qed.
Lemma local_wscript k j s rc w0 w : local k w0 w -> local k w0 (wscript j s rc w).
Proof.
  intros H. unfold wscript. apply local_wemit; [split; reflexivity|].
  apply local_wmod; [split; reflexivity|intros; cbn; tauto|]. exact H.
Qed.

Ltac loc1 :=
  match goal with
  | |- local _ ?w ?w => apply local_refl
  | H : local ?k ?a ?b |- local ?k ?a ?b => exact H
  | |- local _ _ (went _ _ _) => apply local_went
  | |- local _ _ (wemit _ _) => apply local_wemit; [split; reflexivity|]
  | |- local _ _ (wfork_ok _ _ _ _) => apply local_wfork_ok
  | |- local _ _ (wfork_fail _ _ _) => apply local_wfork_fail
  | |- local _ _ (wscript _ _ _ _) => apply local_wscript
  | |- local _ _ (wcancel _ _) => unfold wcancel at 1
  | |- local _ _ (wclean _ _) => unfold wclean at 1
  | |- local _ _ (wblock _ _ _) => unfold wblock at 1
  | |- local _ _ (wcleanup _ _) => unfold wcleanup at 1
  | |- local _ _ (wtimeout _ _ _ _) => unfold wtimeout at 1
  | |- local _ _ (w_prep _ _) => unfold w_prep at 1
  | |- local _ _ (wupd _ _ _) => apply local_wupd; [keyid|keepid|]
  | |- local _ _ (wmod _ _) => apply local_wmod; [split; reflexivity|intros; cbn; tauto|]
  | |- local _ _ (if ?b then _ else _) => destruct b
  end.
Ltac loc := cbv zeta; repeat loc1.

Lemma L_wupd k f w s :
  (forall s, s_key (f s) = s_key s) -> L w k s -> L (wupd k f w) k (f s).
Proof. intros Hf H. apply lookup_wupd_same; assumption. Qed.
Lemma L_wemit e w k s : L w k s -> L (wemit e w) k s.
Proof. intros H; exact H. Qed.
Lemma L_wmod f w k s :
  (forall c, k_svcs (f c) = k_svcs c /\ k_gc (f c) = k_gc c) -> L w k s -> L (wmod f w) k s.
Proof. intros Hf H. unfold L, wmod, lookup_svc. cbn [wc]. destruct (Hf (wc w)) as [-> ->]. exact H. Qed.
Lemma L_wfork_ok j f p w k s : L w k s -> L (wfork_ok j f p w) k s.
Proof.
  intros H. unfold wfork_ok. do 2 (apply L_wmod; [split; reflexivity|]). apply L_wemit.
  apply L_wmod; [split; reflexivity|]. exact H.
Qed.
Lemma L_wfork_fail j f w k s : L w k s -> L (wfork_fail j f w) k s.
Proof. intros H. unfold wfork_fail. apply L_wemit. apply L_wmod; [split; reflexivity|]. exact H. Qed.
Lemma L_wscript j t rc w k s : L w k s -> L (wscript j t rc w) k s.
Proof. intros H. unfold wscript. apply L_wemit. apply L_wmod; [split; reflexivity|]. exact H. Qed.

(** what entering a state does to the record *)
Definition f_enter (new : sst) (s : svc) : svc :=
  let s1 := if st_eqb new Stopping
            then set_s_killed false (f_timeout (c_killdelay (s_cf s)) TcKill (set_s_timer TmNone s))
            else s in
  if st_eqb (s_state s) new then s1 else set_s_state new s1.

Lemma f_timeout_fields ms cb s :
  s_key (f_timeout ms cb s) = s_key s /\ s_cf (f_timeout ms cb s) = s_cf s /\
  s_state (f_timeout ms cb s) = s_state s /\ s_block (f_timeout ms cb s) = s_block s /\
  s_pid (f_timeout ms cb s) = s_pid s /\ s_removed (f_timeout ms cb s) = s_removed s /\
  s_dirty (f_timeout ms cb s) = s_dirty s /\ s_started (f_timeout ms cb s) = s_started s /\
  s_status (f_timeout ms cb s) = s_status s /\ s_starting (f_timeout ms cb s) = s_starting s.
Proof. unfold f_timeout. destruct (ms =? 0); [tauto|]. destruct (s_timer s); cbn; tauto. Qed.

Lemma f_enter_fields new s :
  s_key (f_enter new s) = s_key s /\ s_cf (f_enter new s) = s_cf s /\
  s_state (f_enter new s) = new /\ s_block (f_enter new s) = s_block s /\
  s_pid (f_enter new s) = s_pid s /\ s_removed (f_enter new s) = s_removed s /\
  s_dirty (f_enter new s) = s_dirty s /\ s_started (f_enter new s) = s_started s /\
  s_status (f_enter new s) = s_status s /\ s_starting (f_enter new s) = s_starting s.
Proof.
  unfold f_enter.
  destruct (f_timeout_fields (c_killdelay (s_cf s)) TcKill (set_s_timer TmNone s))
    as (A1 & A2 & A3 & A4 & A5 & A6 & A7 & A8 & A9 & A10).
  destruct (st_eqb new Stopping), (st_eqb (s_state s) new) eqn:E;
    try (apply st_eqb_eq in E); cbn;
    rewrite ?A1, ?A2, ?A3, ?A4, ?A5, ?A6, ?A7, ?A8, ?A9, ?A10; cbn; tauto.
Qed.
Lemma f_enter_key new s : s_key (f_enter new s) = s_key s.
Proof. apply f_enter_fields. Qed.
Lemma f_enter_cf new s : s_cf (f_enter new s) = s_cf s.
Proof. apply f_enter_fields. Qed.
Lemma f_enter_state new s : s_state (f_enter new s) = new.
Proof. apply f_enter_fields. Qed.
Lemma f_enter_pid new s : s_pid (f_enter new s) = s_pid s.
Proof. apply f_enter_fields. Qed.
Lemma f_enter_block new s : s_block (f_enter new s) = s_block s.
Proof. apply f_enter_fields. Qed.
Lemma f_enter_removed new s : s_removed (f_enter new s) = s_removed s.
Proof. apply f_enter_fields. Qed.

Lemma L_wenter k s new w : L w k s -> L (wenter k s new w) k (f_enter new s).
Proof.
  intros H. unfold wenter, f_enter, wcancel, wtimeout.
  destruct (st_eqb new Stopping), (st_eqb (s_state s) new);
    repeat first [ exact H | apply L_wemit
                 | apply (L_wupd k (set_s_killed false)); [keyid|]
                 | apply (L_wupd k (f_timeout (c_killdelay (s_cf s)) TcKill)); [keyid|]
                 | apply (L_wupd k (set_s_timer TmNone)); [keyid|]
                 | apply (L_wupd k (set_s_state new)); [keyid|] ].
Qed.
Lemma L_went k s new w : L w k s -> L (went k new w) k (f_enter new s).
Proof. intros H. unfold went. rewrite H. apply L_wenter, H. Qed.

Lemma L_fun w k s t : L w k s -> L w k t -> s = t.
Proof. unfold L. congruence. Qed.

Ltac lk1 :=
  match goal with
  | H : L ?w ?k _ |- L ?w ?k _ => exact H
  | |- L (wemit _ _) _ _ => apply L_wemit
  | |- L (wfork_ok _ _ _ _) _ _ => apply L_wfork_ok
  | |- L (wfork_fail _ _ _) _ _ => apply L_wfork_fail
  | |- L (wscript _ _ _ _) _ _ => apply L_wscript
  | |- L (went _ _ _) _ _ => apply L_went
  | |- L (wcancel _ _) _ _ => unfold wcancel at 1
  | |- L (wclean _ _) _ _ => unfold wclean at 1
  | |- L (wblock _ _ _) _ _ => unfold wblock at 1
  | |- L (wcleanup _ _) _ _ => unfold wcleanup at 1
  | |- L (wtimeout _ _ _ _) _ _ => unfold wtimeout at 1
  | |- L (w_prep _ _) _ _ => unfold w_prep at 1
  | |- L (wupd _ _ _) _ _ => apply L_wupd; [keyid|]
  | |- L (wmod _ _) _ _ => apply L_wmod; [split; reflexivity|]
  end.
Ltac lk := repeat lk1.

Lemma wupd_none k f w : lookup_svc (wc w) k = None -> wupd k f w = w.
Proof.
  intros H. unfold wupd, wmod, cupd. destruct w as [c l]; cbn [wc wl] in *. f_equal.
  unfold lookup_svc in H. destruct (find_key k (k_svcs c)) eqn:E1; [discriminate|].
  assert (G : forall l, find_key k l = None -> map_key k f l = l).
  { clear. induction l as [|x l IH]; [reflexivity|]. unfold find_key, map_key in *. cbn.
    destruct (Nat.eqb (s_key x) k); [discriminate|]. intros H. rewrite (IH H). reflexivity. }
  rewrite (G _ E1), (G _ H). destruct c; reflexivity.
Qed.

(** * The proof, for one event *)
Section Exec.
Variable calm : Prop.
Variable E : ev -> Prop.
Variable w00 : world.
Variable rank : string -> nat.

Definition change (w w' : world) : Prop := exists e, E e /\ micro calm e w w'.
Definition reach (w : world) : Prop := clos_refl_trans world change w00 w.

(** conditions never form a circle, and the processes on record exist *)
Hypothesis Hacyc : calm -> forall w k s w' j t n, reach w -> L w k s -> reach w' -> L w' j t ->
  owns s n -> cond_affects n (c_cond (s_cf t)) = true -> (rank (ident s) < rank (ident t))%nat.
Hypothesis Halive : calm -> forall w k s, reach w -> find_key k (k_svcs (wc w)) = Some s ->
  1 < s_pid s -> alive (wc w) (s_pid s) = true.
(** only registered daemons and ttys wait for a restart *)
Hypothesis Hretry : calm -> forall w k s ms, reach w -> L w k s -> s_timer s = TmArmed TcRetry ms ->
  In k (keys (wc w)) /\ is_daemon s || is_tty s = true /\ s_block s <> BUser.

Variable e : ev.
Hypothesis He : E e.
Notation mic := (micro calm e).

Lemma reach_mic w w' : reach w -> mic w w' -> reach w'.
Proof. intros H H1. eapply rt_trans; [exact H|]. apply rt_step. exists e; auto. Qed.

Definition low (r : nat) (w w' : world) : Prop :=
  calm -> forall j s, L w j s -> (rank (ident s) < r)%nat -> L w' j s.
Definition P (r : nat) (w w' : world) : Prop :=
  reach w' /\ low r w w' /\ (calm -> same_loc w w') /\
  (calm -> forall j s', L w' j s' -> exists s, L w j s /\ keeps s s') /\
  (calm -> forall j, lookup_svc (wc w') j = None -> lookup_svc (wc w) j = None).

Lemma P_refl r w : reach w -> P r w w.
Proof.
  intros H. split; [exact H|]. split; [intros _ j s Hj _; exact Hj|].
  split; [intros _; apply sl_refl|]. split; [|auto].
  intros _ j s' Hs'. exists s'. split; [exact Hs'|apply keeps_refl].
Qed.
Lemma P_trans r a b c : P r a b -> P r b c -> P r a c.
Proof.
  intros (A1 & A2 & A3 & A4 & A5) (B1 & B2 & B3 & B4 & B5). split; [exact B1|]. split; [|split; [|split]].
  - intros Hc j s Hj Hr. apply (B2 Hc); auto.
  - intros Hc. eapply sl_trans; eauto.
  - intros Hc j s' Hs'. destruct (B4 Hc j s' Hs') as (t & C & D). destruct (A4 Hc j t C) as (u & F & G).
    exists u. split; [exact F|eapply keeps_trans; eauto].
  - intros Hc j Hj. apply (A5 Hc), (B5 Hc), Hj.
Qed.
Lemma P_le r r' w w' : (calm -> r <= r')%nat -> P r' w w' -> P r w w'.
Proof.
  intros Hr (A1 & A2 & A3). split; [exact A1|]. split; [|exact A3].
  intros Hc j s Hj Hlt. apply (A2 Hc); auto. specialize (Hr Hc). lia.
Qed.
Lemma P_reach r w w' : P r w w' -> reach w'. Proof. intros (A & _); exact A. Qed.

(** the record [k] ranks at least [r] *)
Definition Kr (k r : nat) (w : world) : Prop :=
  calm -> forall s, L w k s -> (r <= rank (ident s))%nat.

Lemma P_mic k r w w' : reach w -> mic w w' -> local k w w' -> Kr k r w -> P r w w'.
Proof.
  intros H1 H2 (H3 & H4 & H6 & H7) H5. split; [eapply reach_mic; eauto|]. split; [|split; [auto|split]].
  - intros Hc j s Hj Hr. unfold L. destruct (Nat.eq_dec j k) as [->|Hne].
    + specialize (H5 Hc s Hj). lia.
    + rewrite H3; auto.
  - intros Hc j s' Hs'. destruct (Nat.eq_dec j k) as [->|Hne]; [auto|].
    exists s'. unfold L in *. rewrite H3 in Hs' by exact Hne. split; [exact Hs'|apply keeps_refl].
  - intros Hc j. destruct (Nat.eq_dec j k) as [->|Hne]; [auto|]. rewrite H3 by exact Hne. auto.
Qed.
Lemma P_glob r w w' : reach w -> mic w w' -> globl w w' -> P r w w'.
Proof.
  intros H1 H2 [H3 H4]. split; [eapply reach_mic; eauto|]. split; [|split; [auto|split]].
  - intros Hc j s Hj Hr. unfold L. rewrite H3. exact Hj.
  - intros Hc j s' Hs'. exists s'. unfold L in *. rewrite H3 in Hs'. split; [exact Hs'|apply keeps_refl].
  - intros Hc j. rewrite H3. auto.
Qed.

Lemma ident_cf s t : s_cf s = s_cf t -> ident s = ident t.
Proof. unfold ident. intros ->. reflexivity. Qed.

(** the condition [n] only concerns records that rank at least [r] *)
Definition Cr (n : string) (r : nat) : Prop :=
  calm -> forall w j t, reach w -> L w j t -> cond_affects n (c_cond (s_cf t)) = true ->
  (r <= rank (ident t))%nat.

Lemma Cr_owned w k s n : reach w -> L w k s -> owns s n -> Cr n (S (rank (ident s))).
Proof.
  intros H1 H2 H3 Hc w' j t H4 H5 H6. pose proof (Hacyc Hc _ _ _ _ _ _ _ H1 H2 H4 H5 H3 H6). lia.
Qed.
Lemma Cr_0 n : Cr n 0. Proof. intros Hc w j t H1 H2 H3. lia. Qed.

(** Between two events, and while services are stepped, no runlevel change is
    half done; sm_step is called with a change to do, if any, to another
    runlevel.  /etc/nologin is as the runlevel changes left it. *)
Definition at_rest (w : world) : Prop :=
  (k_sm (wc w) = SmRlChange -> k_down (wc w) = true) /\
  k_nologin (wc w) = nologin_after (levels (wl w)).
Definition to_do (w : world) : Prop :=
  (k_sm (wc w) = SmRlChange -> k_down (wc w) = true \/
     0 <= k_newl (wc w) <= 9 /\ k_rl (wc w) <> k_newl (wc w)) /\
  k_nologin (wc w) = nologin_after (levels (wl w)).
Definition good (w : world) : Prop := reach w /\ (calm -> at_rest w).
Definition good_sm (w : world) : Prop := reach w /\ (calm -> to_do w).
Lemma good_reach w : good w -> reach w. Proof. intros [H _]; exact H. Qed.
Lemma good_to_do w : good w -> good_sm w.
Proof. intros [H1 H2]. split; [exact H1|]. intros Hc. destruct (H2 Hc) as [A B]. split; auto. Qed.
Lemma good_same w w' : good w -> reach w' -> (calm -> same_glob w w') -> good w'.
Proof.
  intros [H1 H2] H3 H4. split; [exact H3|]. intros Hc. destruct (H2 Hc) as [A B].
  destruct (H4 Hc) as (E1 & _ & _ & _ & _ & _ & _ & _ & _ & E2 & E3 & E4).
  split; [rewrite E1; auto|congruence].
Qed.
Lemma good_mic w w' : good w -> same_glob w w' -> mic w w' -> good w'.
Proof. intros H1 H2 H3. eapply good_same; [exact H1|eapply reach_mic; [apply H1|exact H3]|auto]. Qed.
Lemma good_P r w w' : good w -> P r w w' -> good w'.
Proof. intros H1 (H2 & _ & H3 & _). eapply good_same; [exact H1|exact H2|]. intros Hc. apply (H3 Hc). Qed.

(** the record [k] is registered *)
Definition Rg (k : nat) (w : world) : Prop := calm -> In k (keys (wc w)).
Lemma Rg_P k r w w' : Rg k w -> P r w w' -> Rg k w'.
Proof. intros H (_ & _ & H2 & _) Hc. destruct (H2 Hc) as [_ ->]. apply H, Hc. Qed.
Lemma Rg_find k w s : find_key k (k_svcs (wc w)) = Some s -> Rg k w.
Proof.
  intros H _. apply find_key_in in H. destruct H as [H1 <-]. apply in_map, H1.
Qed.
Lemma Rg_in k w s : find_key k (k_svcs (wc w)) = Some s -> In k (keys (wc w)).
Proof. intros H. apply find_key_in in H. destruct H as [H1 <-]. apply in_map, H1. Qed.
Lemma Rg_keys k w w' : Rg k w -> keys (wc w') = keys (wc w) -> Rg k w'.
Proof. intros H E1 Hc. rewrite E1. apply H, Hc. Qed.
Lemma Rg_local k j w w' : Rg k w -> local j w w' -> Rg k w'.
Proof. intros H (_ & [_ E1] & _ & _). eapply Rg_keys; eauto. Qed.
Lemma Rg_L k w s : Rg k w -> L w k s -> calm -> find_key k (k_svcs (wc w)) = Some s.
Proof.
  intros H1 H2 Hc. specialize (H1 Hc). unfold L, lookup_svc in H2.
  destruct (find_key k (k_svcs (wc w))) eqn:Ef; [exact H2|].
  exfalso. unfold keys in H1. apply in_map_iff in H1. destruct H1 as (t & A & B).
  unfold find_key in Ef. pose proof (find_none _ _ Ef t B) as D. cbn in D. rewrite A, Nat.eqb_refl in D.
  discriminate.
Qed.

Variable rec : call -> ST unit.
Hypothesis Rstep : forall k ch wa w r, reach w -> Kr k r w -> Rg k w ->
  wp (rec (CStep k ch wa)) (fun _ => P r w) w.
Hypothesis Rupd : forall n w r, reach w -> Cr n r -> wp (rec (CUpdate n)) (fun _ => P r w) w.
Hypothesis Rmon : forall p st w, good w -> alive (wc w) p = false ->
  wp (rec (CMonitor p st)) (fun _ => good) w.
Hypothesis Rsm : forall w, good_sm w -> wp (rec CSm) (fun _ => good) w.

Lemma Kr_P k r r' w w' : Kr k r w -> P r' w w' -> Kr k r w'.
Proof.
  intros H1 (_ & _ & _ & H2 & _) Hc s Hs. destruct (H2 Hc k s Hs) as (t & A & B & _).
  rewrite (ident_cf _ _ B). apply H1; auto.
Qed.

Lemma Kr_same k r w w' s s' : Kr k r w -> L w k s -> (calm -> L w' k s') -> s_cf s' = s_cf s -> Kr k r w'.
Proof.
  intros H1 H2 H3 H4 Hc t Ht. specialize (H3 Hc). rewrite (L_fun _ _ _ _ Ht H3).
  rewrite (ident_cf _ _ H4). apply H1; auto.
Qed.

Lemma P_keep w w' k s : P (S (rank (ident s))) w w' -> L w k s -> calm -> L w' k s.
Proof. intros (A1 & A2 & A3 & A4) H Hc. apply (A2 Hc); auto. Qed.

(** ** conditions *)

(** a record that could not be found was never there *)
Lemma wp_uaf k r w : reach w -> ~ calm -> lookup_svc (wc w) k = None -> P r w (wemit (EUaf k) w).
Proof.
  intros H1 H2 H3. apply P_glob; [exact H1|apply m_uaf; [exact H3|intros Hc; destruct (H2 Hc)]|].
  apply globl_wemit; [split; reflexivity|apply globl_refl].
Qed.
Lemma not_lost k s w w' r : P r w w' -> L w k s -> lookup_svc (wc w') k = None -> ~ calm.
Proof. intros (_ & _ & _ & _ & H) H1 H2 Hc. unfold L in H1. rewrite (H Hc _ H2) in H1. discriminate. Qed.
Lemma not_unreg k w : Rg k w -> lookup_svc (wc w) k = None -> ~ calm.
Proof.
  intros H1 H2 Hc. specialize (H1 Hc). unfold lookup_svc in H2.
  destruct (find_key k (k_svcs (wc w))) eqn:Ef; [discriminate|].
  unfold keys in H1. apply in_map_iff in H1. destruct H1 as (t & A & B).
  unfold find_key in Ef. pose proof (find_none _ _ Ef t B) as D. cbn in D. rewrite A, Nat.eqb_refl in D.
  discriminate.
Qed.

Lemma P_cond r w o : reach w -> cwhy calm e w o -> P r w (wcond o w).
Proof.
  intros H1 H2. apply P_glob; [exact H1|apply m_cond, H2|].
  apply globl_wmod; [split; reflexivity|intros; cbn; tauto|].
  apply globl_wemit; [split; reflexivity|apply globl_refl].
Qed.

Lemma c_set_spec n w r : reach w -> cwhy calm e w (OpSet n) -> Cr n r ->
  wp (c_set rec n) (fun _ => P r w) w.
Proof.
  intros H1 H2 H3. unfold c_set. apply wp_bind, wp_getc.
  pose proof (P_cond r w _ H1 H2) as HP.
  apply wp_bind, wp_op. apply wp_when; intros _.
  - eapply wp_mono; [apply Rupd; [eapply P_reach, HP|exact H3]|]. intros a w' H. eapply P_trans; eauto.
  - exact HP.
Qed.

Lemma c_oneshot_spec n w r : reach w -> cwhy calm e w (OpOneshot n) -> Cr n r ->
  wp (c_oneshot rec n) (fun _ => P r w) w.
Proof.
  intros H1 H2 H3. unfold c_oneshot. apply wp_bind, wp_getc.
  pose proof (P_cond r w _ H1 H2) as HP.
  apply wp_bind, wp_op. apply wp_when; intros _.
  - eapply wp_mono; [apply Rupd; [eapply P_reach, HP|exact H3]|]. intros a w' H. eapply P_trans; eauto.
  - exact HP.
Qed.

Lemma c_delpath_spec n r l w0 :
  (forall w, P r w0 w -> forall o, clears n o -> cwhy calm e w o) ->
  (forall q, below (strip_slash (cond_path n)) q = true -> Cr q r) ->
  (forall q, In q l -> below (strip_slash (cond_path n)) q = true) ->
  forall w, P r w0 w -> wp (c_delpath rec l) (fun _ => P r w0) w.
Proof.
  intros H1 H2. induction l as [|q l IH]; intros H3 w Hw; cbn [c_delpath]; [exact Hw|].
  assert (Hq : below (strip_slash (cond_path n)) q = true) by (apply H3; left; reflexivity).
  assert (HP : P r w0 (wcond (OpUnlink q) w)).
  { eapply P_trans; [exact Hw|]. apply (P_cond r w (OpUnlink q)); [eapply P_reach, Hw|].
    apply H1; [exact Hw|]. right. exists q. auto. }
  apply wp_bind, wp_op, wp_bind, wp_getc, wp_bind. apply wp_when; intros _.
  - eapply wp_mono; [apply Rupd; [eapply P_reach, HP|apply H2, Hq]|].
    intros a w' H. apply IH; [intros; apply H3; right; assumption|]. eapply P_trans; eauto.
  - apply IH; [intros; apply H3; right; assumption|exact HP].
Qed.

Lemma dir_children_below cs n q : In q (dir_children cs n) -> below (strip_slash n) q = true.
Proof.
  unfold dir_children. intros H. apply in_map_iff in H. destruct H as (x & <- & H).
  apply filter_In in H. apply H.
Qed.

Lemma c_clear_spec n w r : reach w ->
  (forall w', P r w w' -> forall o, clears n o -> cwhy calm e w' o) ->
  Cr n r -> (forall q, below (strip_slash (cond_path n)) q = true -> Cr q r) ->
  wp (c_clear rec n) (fun _ => P r w) w.
Proof.
  intros H1 H2 H3 H4. unfold c_clear. apply wp_bind, wp_getc.
  destruct (is_nop n); [apply P_refl, H1|].
  destruct (is_dir (k_cond (wc w)) (cond_path n)).
  - apply (c_delpath_spec n r _ w); auto.
    + intros q Hq. eapply dir_children_below, Hq.
    + apply P_refl, H1.
  - assert (HP : P r w (wcond (OpClear n) w)).
    { apply P_cond; [exact H1|]. apply H2; [apply P_refl, H1|left; reflexivity]. }
    apply wp_bind, wp_op. apply wp_when; intros _.
    + eapply wp_mono; [apply Rupd; [eapply P_reach, HP|exact H3]|]. intros a w' H. eapply P_trans; eauto.
    + exact HP.
Qed.

Lemma c_clear_nu_spec n w r : reach w ->
  (forall w', P r w w' -> forall o, clears n o -> cwhy calm e w' o) ->
  (forall q, below (strip_slash (cond_path n)) q = true -> Cr q r) ->
  wp (c_clear_nu rec n) (fun _ => P r w) w.
Proof.
  intros H1 H2 H4. unfold c_clear_nu. apply wp_bind, wp_getc.
  destruct (is_nop n); [apply P_refl, H1|].
  destruct (is_dir (k_cond (wc w)) (cond_path n)).
  - apply (c_delpath_spec n r _ w); auto.
    + intros q Hq. eapply dir_children_below, Hq.
    + apply P_refl, H1.
  - apply wp_op. apply P_cond; [exact H1|]. apply H2; [apply P_refl, H1|left; reflexivity].
Qed.

Lemma owns_base s m : base_of s m -> owns s m.
Proof. intros H. right. exists m. auto. Qed.
Lemma owns_below s m q : base_of s m -> below (strip_slash (cond_path m)) q = true -> owns s q.
Proof. intros H H1. right. exists m. auto. Qed.
Lemma prefix_app a b : String.prefix a (a ++ b) = true.
Proof. induction a as [|c a IH]; cbn; [destruct b; reflexivity|]. rewrite IH.
  destruct (ascii_dec c c); congruence. Qed.

(** ** svc_set_state *)

Lemma base_cf s t m : s_cf s = s_cf t -> base_of s m -> base_of t m.
Proof.
  unfold base_of, pidcond, readycond, servicedir, successcond, failurecond, typestr, ty, ident.
  intros ->. auto.
Qed.

(** clearing a condition that belongs to the record *)
Lemma clear_own (f : string -> ST unit) k s m w :
  (f = c_clear rec \/ f = c_clear_nu rec) ->
  reach w -> L w k s -> base_of s m ->
  (forall w', reach w' -> (calm -> L w' k s) -> forall o, clears m o -> cwhy calm e w' o) ->
  wp (f m) (fun _ => P (S (rank (ident s))) w) w.
Proof.
  intros Hf H1 H2 H3 H4.
  assert (G1 : forall w', P (S (rank (ident s))) w w' -> forall o, clears m o -> cwhy calm e w' o).
  { intros w' HP. apply H4; [eapply P_reach, HP|]. intros Hc. eapply P_keep; eauto. }
  assert (G2 : Cr m (S (rank (ident s)))) by (eapply Cr_owned; eauto; apply owns_base, H3).
  assert (G3 : forall q, below (strip_slash (cond_path m)) q = true -> Cr q (S (rank (ident s)))).
  { intros q Hq. eapply Cr_owned; eauto. eapply owns_below; eauto. }
  destruct Hf as [-> | ->]; [apply c_clear_spec|apply c_clear_nu_spec]; auto.
Qed.

Lemma wp_seq {A B} (m : ST A) (f : A -> ST B) r w0 w (Q : B -> world -> Prop) :
  wp m (fun _ => P r w0) w -> (forall a w', P r w0 w' -> wp (f a) Q w') -> wp (bind m f) Q w.
Proof. intros H1 H2. apply wp_bind. eapply wp_mono; [exact H1|]. auto. Qed.

Lemma wp_when_P b m r w0 w :
  P r w0 w -> (b = true -> wp m (fun _ => P r w0) w) -> wp (when b m) (fun _ => P r w0) w.
Proof. intros H1 H2. apply wp_when; auto. Qed.

Lemma wp_P_from {A} (m : ST A) r w0 w :
  P r w0 w -> wp m (fun _ => P r w) w -> wp m (fun _ => P r w0) w.
Proof. intros H1 H2. eapply wp_mono; [exact H2|]. intros a w' H. eapply P_trans; eauto. Qed.

(** any new state but Done *)
Class not_done (n : sst) : Prop := not_done_pf : st_eqb n Done = false.
#[local] Hint Extern 1 (not_done _) => reflexivity : typeclass_instances.

Definition state_tail (k : nat) (s : svc) (old new : sst) : ST unit :=
      when (is_runtask s)
        (when (st_eqb new Done)
           (if s_started s && (wexitstatus (s_status s) =? 0)
            then c_oneshot rec (successcond s) else c_oneshot rec (failurecond s)) ;;;
         when (st_eqb new Halted)
           (c_clear rec (successcond s) ;;; c_clear rec (failurecond s))) ;;;
      when (is_daemon s)
        ((if (st_eqb old Running && st_eqb new Paused) || (st_eqb old Paused && st_eqb new Running)
          then ret tt
          else c <- getc ;;
               if k_inrl c then c_clear_nu rec (servicedir s) else c_clear rec (servicedir s)) ;;;
         when (st_eqb new Halted || st_eqb new Running)
           (with_svc k tt (fun s2 => c_oneshot rec (servicedir s ++ status_str s2)%string))).

Lemma state_tail_spec k s s2 old new w : st_eqb new Done = false ->
  reach w -> L w k s2 -> s_cf s2 = s_cf s -> s_started s2 = s_started s -> s_status s2 = s_status s ->
  s_state s2 = new ->
  wp (state_tail k s old new) (fun _ => P (S (rank (ident s2))) w) w.
Proof.
  intros ND H1 H2 Hcf Hst Hss Hnew. unfold state_tail.
  set (r := S (rank (ident s2))).
  assert (Eid : ident s = ident s2) by (symmetry; apply ident_cf, Hcf).
  assert (Ety : typestr s = typestr s2) by (unfold typestr, ty; rewrite Hcf; reflexivity).
  assert (HB : forall m, base_of s m -> base_of s2 m) by (intros m; apply base_cf; congruence).
  assert (Hkeep : forall w', P r w w' -> calm -> L w' k s2).
  { intros w' HP Hc. eapply P_keep; eauto. }
  apply wp_seq with (r := r) (w0 := w).
  - apply wp_when_P; [apply P_refl, H1|]. intros Hrt.
    apply wp_seq with (r := r) (w0 := w).
    + apply wp_when_P; [apply P_refl, H1|]. intros HD. rewrite ND in HD. discriminate HD.
    + intros a1 w1 HP1. apply wp_when_P; [exact HP1|]. intros HH. apply st_eqb_eq in HH.
      assert (Hwhy : forall n, n = successcond s \/ n = failurecond s -> forall w', reach w' ->
                (calm -> L w' k s2) -> forall o, clears n o -> cwhy calm e w' o).
      { intros n Hn w' Hr' HL o Ho. eapply (cw_rtclear calm e w' k s n o); auto.
        intros Hc. exists s2. repeat split; auto; congruence. }
      apply wp_seq with (r := r) (w0 := w).
      * apply wp_P_from; [exact HP1|].
        apply (c_clear_spec (successcond s) w1 r); [eapply P_reach, HP1| | |].
        -- intros w' HP'. apply (Hwhy (successcond s)); [auto|eapply P_reach, HP'|].
           intros Hc. apply Hkeep; [eapply P_trans; eauto|exact Hc].
        -- eapply Cr_owned; eauto. apply owns_base, HB. unfold base_of; tauto.
        -- intros q Hq. eapply Cr_owned; eauto. apply (owns_below _ (successcond s)); [apply HB; unfold base_of; tauto|exact Hq].
      * intros a2 w2 HP2. apply wp_P_from; [exact HP2|].
        apply (c_clear_spec (failurecond s) w2 r); [eapply P_reach, HP2| | |].
        -- intros w' HP'. apply (Hwhy (failurecond s)); [auto|eapply P_reach, HP'|].
           intros Hc. apply Hkeep; [eapply P_trans; eauto|exact Hc].
        -- eapply Cr_owned; eauto. apply owns_base, HB. unfold base_of; tauto.
        -- intros q Hq. eapply Cr_owned; eauto.
           apply (owns_below _ (failurecond s)); [apply HB; unfold base_of; tauto|exact Hq].
  - intros a1 w1 HP1. apply wp_when_P; [exact HP1|]. intros HD.
    apply wp_seq with (r := r) (w0 := w).
    + destruct ((st_eqb old Running && st_eqb new Paused) || (st_eqb old Paused && st_eqb new Running));
        [exact HP1|].
      apply wp_bind, wp_getc. apply wp_P_from; [exact HP1|].
      assert (Q2 : forall w', P r w1 w' -> forall o, clears (servicedir s) o -> cwhy calm e w' o).
      { intros w' _ o Ho. eapply cw_dir; eauto. }
      assert (Q3 : Cr (servicedir s) r).
      { eapply Cr_owned; eauto. apply owns_base, HB. unfold base_of; tauto. }
      assert (Q4 : forall q, below (strip_slash (cond_path (servicedir s))) q = true -> Cr q r).
      { intros q Hq. eapply Cr_owned; eauto. apply (owns_below _ (servicedir s)); [apply HB; unfold base_of; tauto|exact Hq]. }
      destruct (k_inrl (wc w1)); [apply c_clear_nu_spec|apply c_clear_spec]; auto; eapply P_reach, HP1.
    + intros a2 w2 HP2. apply wp_when_P; [exact HP2|]. intros _.
      apply wp_with_svc.
      * intros s3 HL3. apply wp_P_from; [exact HP2|].
        apply c_oneshot_spec; [eapply P_reach, HP2|apply cw_status, HD|].
        eapply Cr_owned; eauto. left.
        replace (servicedir s) with (servicedir s2) by (unfold servicedir; congruence).
        apply prefix_app.
      * intros HN. eapply P_trans; [exact HP2|]. apply wp_uaf; [eapply P_reach, HP2| |exact HN].
        eapply not_lost; [exact HP2|exact H2|exact HN].
Qed.

Lemma set_state_spec k new {ND : not_done new} wb w1 s r :
  reach wb -> mic wb (went k new w1) -> local k wb w1 -> L w1 k s -> Kr k r wb ->
  (calm -> r <= rank (ident s))%nat ->
  wp (set_state rec k new) (fun _ w' => P r wb w' /\ (calm -> L w' k (f_enter new s))) w1.
Proof.
  intros H1 H2 H3 H4 H5 H6. unfold set_state. apply wp_with_svc; [|rewrite H4; discriminate].
  intros s0 Hs0. pose proof (L_fun _ _ _ _ H4 Hs0) as <-. clear Hs0.
  pose proof (P_mic k r wb _ H1 H2 (local_went _ _ _ _ H3) H5) as HP.
  assert (HL2 : L (went k new w1) k (f_enter new s)) by (apply L_went, H4).
  unfold went in *. rewrite H4 in *. unfold wenter in *. cbv zeta.
  apply wp_bind.
  set (wa := if st_eqb new Stopping then _ else w1) in *.
  assert (Hwhen : forall Q : unit -> world -> Prop, Q tt wa -> wp (when (st_eqb new Stopping)
     (cancel k ;;; timeout_after k (c_killdelay (s_cf s)) TcKill ;;; upd k (set_s_killed false))) Q w1).
  { intros Q HQ. subst wa. destruct (st_eqb new Stopping); exact HQ. }
  apply Hwhen. clear Hwhen.
  destruct (st_eqb (s_state s) new) eqn:Eq.
  - apply wp_ret. split; [exact HP|auto].
  - apply wp_bind, wp_emit, wp_bind, wp_upd.
    set (w2 := wupd k (set_s_state new) (wemit (EState k (s_state s) new) wa)) in *.
    eapply wp_mono.
    + apply (state_tail_spec k s (f_enter new s) (s_state s) new w2); [exact ND|..].
      * eapply P_reach, HP.
      * exact HL2.
      * apply f_enter_fields.
      * apply f_enter_fields.
      * apply f_enter_fields.
      * apply f_enter_fields.
    + intros a w' HP'. cbn beta in HP'. split.
      * eapply P_trans; [exact HP|]. eapply P_le; [|exact HP'].
        intros Hc. rewrite (ident_cf _ s (f_enter_cf new s)). specialize (H6 Hc). lia.
      * intros Hc. eapply P_keep; eauto.
Qed.

Lemma set_state_none k new r w : reach w -> ~ calm -> lookup_svc (wc w) k = None ->
  wp (set_state rec k new) (fun _ => P r w) w.
Proof.
  intros H1 Hn H2. unfold set_state. apply wp_with_svc; [rewrite H2; discriminate|].
  intros _. apply wp_uaf; assumption.
Qed.

(** completing a run/task: the state change and the result condition are one step *)
Lemma set_done_P k wb w1 s r :
  reach wb ->
  mic wb (if st_eqb (s_state s) Done then went k Done w1
          else wcond (OpOneshot (if succeeded s then successcond s else failurecond s)) (went k Done w1)) ->
  local k wb w1 -> L w1 k s -> is_runtask s = true -> Kr k r wb ->
  (calm -> r <= rank (ident s))%nat ->
  wp (set_state rec k Done) (fun _ => P r wb) w1.
Proof.
  intros H1 H2 H3 H4 Hrt H5 H6.
  destruct (st_eqb (s_state s) Done) eqn:Eq.
  { unfold set_state. apply wp_with_svc; [|rewrite H4; discriminate].
    intros s0 Hs0. pose proof (L_fun _ _ _ _ H4 Hs0) as <-. clear Hs0. cbv zeta.
    apply wp_bind. cbn [st_eqb st_num Nat.eqb when]. apply wp_ret.
    change (Nat.eqb (st_num (s_state s)) 1) with (st_eqb (s_state s) Done). rewrite Eq. apply wp_ret.
    pose proof (P_mic k r wb _ H1 H2 (local_went _ _ _ _ H3) H5) as HP.
    unfold went in HP. rewrite H4 in HP. unfold wenter in HP. cbv zeta in HP. rewrite Eq in HP. exact HP. }
  unfold set_state. apply wp_with_svc; [|rewrite H4; discriminate].
  intros s0 Hs0. pose proof (L_fun _ _ _ _ H4 Hs0) as <-. clear Hs0.
  assert (HP : P r wb (wcond (OpOneshot (if succeeded s then successcond s else failurecond s)) (went k Done w1))).
  { apply (P_mic k r wb _ H1 H2); [|exact H5]. unfold wcond. loc. }
  unfold went in HP. rewrite H4 in HP. unfold wenter in HP. cbv zeta in HP.
  cbn [st_eqb st_num Nat.eqb] in HP. cbv zeta.
  apply wp_bind. cbn [st_eqb st_num Nat.eqb when]. apply wp_ret.
  rewrite Eq in HP. change (Nat.eqb (st_num (s_state s)) 1) with (st_eqb (s_state s) Done). rewrite Eq.
  apply wp_bind, wp_emit, wp_bind, wp_upd.
  set (w2 := wupd k (set_s_state Done) _) in *.
  assert (Hd : is_daemon s = false).
  { unfold is_runtask, is_daemon, ty in *. destruct (c_type (s_cf s)); try discriminate Hrt; reflexivity. }
  rewrite Hrt, Hd. cbn [when].
  assert (HC : Cr (if succeeded s then successcond s else failurecond s) r).
  { assert (X : Cr (if succeeded s then successcond s else failurecond s) (S (rank (ident s)))).
    { apply (Cr_owned _ k (set_s_state Done s) _ (P_reach _ _ _ HP)).
      - unfold wcond, w2. lk.
      - apply owns_base. destruct (succeeded s); [right; right; right; left|right; right; right; right]; reflexivity. }
    intros Hc w j t A1 A2 A3. specialize (X Hc w j t A1 A2 A3). specialize (H6 Hc). lia. }
  apply wp_bind. eapply wp_mono with (Q := fun _ => P r wb); [|intros a w' H; exact H].
  apply wp_bind. eapply wp_mono with (Q := fun _ => P r wb); [|intros a w' H; exact H].
  assert (G : wp (c_oneshot rec (if succeeded s then successcond s else failurecond s)) (fun _ => P r wb) w2).
  { unfold c_oneshot. apply wp_bind, wp_getc, wp_bind, wp_op. apply wp_when; intros _.
    - eapply wp_mono; [apply Rupd; [eapply P_reach, HP|exact HC]|]. intros a w' H. eapply P_trans; eauto.
    - exact HP. }
  unfold succeeded in G. destruct (s_started s && (wexitstatus (s_status s) =? 0)); exact G.
Qed.

(** ** pieces of service_step *)

Lemma wp_setst {A} k new {ND : not_done new} wb w1 s r (f : unit -> ST A) (Q : A -> world -> Prop) :
  reach wb -> mic wb (went k new w1) -> local k wb w1 -> L w1 k s -> Kr k r wb ->
  (calm -> r <= rank (ident s))%nat ->
  (forall a w', P r wb w' -> (calm -> L w' k (f_enter new s)) -> wp (f a) Q w') ->
  wp (bind (set_state rec k new) f) Q w1.
Proof.
  intros H1 H2 H3 H4 H5 H6 H7. apply wp_bind. eapply wp_mono; [eapply set_state_spec; eauto|].
  intros a w' [HA HB]. auto.
Qed.
Lemma set_state_P k new {ND : not_done new} wb w1 s r :
  reach wb -> mic wb (went k new w1) -> local k wb w1 -> L w1 k s -> Kr k r wb ->
  (calm -> r <= rank (ident s))%nat ->
  wp (set_state rec k new) (fun _ => P r wb) w1.
Proof.
  intros H1 H2 H3 H4 H5 H6. eapply wp_mono; [eapply set_state_spec; eauto|].
  intros a w' [HA HB]. exact HA.
Qed.

Lemma Kr_L k r w s : Kr k r w -> L w k s -> (calm -> r <= rank (ident s))%nat.
Proof. intros H1 H2 Hc. apply H1; auto. Qed.
Lemma Kr_keep k r w w' s s' : Kr k r w -> L w k s -> (calm -> L w' k s') -> s_cf s' = s_cf s -> Kr k r w'.
Proof. apply Kr_same. Qed.

Lemma aux_spec k f tmo r w :
  reach w -> Kr k r w -> (calm -> exists s, L w k s /\ aux_guard f s) -> tmo = aux_tmo f ->
  is_aux f = true -> wp (aux_script k f tmo) (fun _ => P r w) w.
Proof.
  intros H1 H2 H3 -> Hax. unfold aux_script. apply wp_bind, wp_fork.
  - intros p Hp. apply wp_bind, wp_upd. destruct Hp as [Hp1 Hp2].
    replace (p <? 0) with false by lia.
    pose proof (m_aux_ok calm e w k f p (conj Hp1 Hp2) Hax H3) as M.
    assert (HP : P r w (w_aux k f p w)).
    { apply (P_mic k r); auto. unfold w_aux. cbv zeta. destruct (lookup_svc _ k); loc. }
    unfold w_aux in HP. cbv zeta in HP. apply wp_with_svc.
    + intros s Hs. rewrite Hs in HP. apply wp_upd. exact HP.
    + intros Hs. rewrite Hs in HP. exact HP.
  - apply wp_bind, wp_upd. apply (P_mic k r); auto; [apply m_aux_fail; [exact Hax|exact H3]|loc].
Qed.

Lemma ready_script_spec k r w :
  reach w -> Kr k r w -> (lookup_svc (wc w) k = None -> ~ calm) -> (calm -> forall s, L w k s -> c_ready (s_cf s) = true) ->
  wp (ready_script k) (fun _ => P r w) w.
Proof.
  intros H1 H2 HN H3. unfold ready_script. apply wp_bind, wp_fork.
  - intros p Hp. pose proof Hp as [Hp1 Hp2]. replace (p <? 0) with false by lia.
    apply wp_bind, wp_modc. apply wp_with_svc.
    + intros s Hs. apply wp_upd. apply (P_mic k r w); auto.
      * apply m_ready_ok; auto.
      * loc.
    + intros Hs. change (lookup_svc (wc w) k = None) in Hs.
      assert (G : P r w (wmod (fun c => set_k_assoc (k_assoc c ++ [(p, k)]) c) (wfork_ok k FReady p w))).
      { apply (P_mic k r); auto; [apply m_ready_uaf; auto|loc]. }
      eapply P_trans; [exact G|]. apply wp_uaf; [eapply P_reach, G|auto|exact Hs].
  - apply (P_mic k r); auto; [apply m_ready_fail|loc].
Qed.

Lemma service_ready_spec k rdy r w :
  reach w -> Kr k r w -> (lookup_svc (wc w) k = None -> ~ calm) ->
  (rdy = true -> forall s, L w k s -> readywhy calm e k s) ->
  wp (service_ready rec k rdy) (fun _ => P r w) w.
Proof.
  intros H1 H2 HN HW. unfold service_ready. apply wp_with_svc; [|intros Hs; apply wp_uaf; auto].
  intros s Hs. change (L w k s) in Hs. destruct (is_daemon s) eqn:Hd; cbn [negb]; [|apply P_refl, H1].
  set (r' := S (rank (ident s))).
  assert (Hr : (calm -> r <= r')%nat) by (intros Hc; pose proof (Kr_L _ _ _ _ H2 Hs Hc); subst r'; lia).
  destruct rdy.
  - apply wp_seq with (r := r') (w0 := w).
    + apply c_set_spec; [exact H1|apply (cw_ready calm e w k s Hs Hd), HW; [reflexivity|exact Hs]|].
      eapply Cr_owned; eauto. apply owns_base. unfold base_of; tauto.
    + intros a w1 HP1.
      assert (HP : P r w w1) by (eapply P_le; eauto).
      assert (HL : calm -> L w1 k s) by (intros Hc; eapply P_keep; eauto).
      apply wp_when_P; [exact HP|]. intros Hrs. apply wp_P_from; [exact HP|].
      apply ready_script_spec; [eapply P_reach, HP| | |].
      * eapply Kr_same; eauto.
      * eapply not_lost; eauto.
      * intros Hc s' Hs'. rewrite (L_fun _ _ _ _ Hs' (HL Hc)). exact Hrs.
  - eapply wp_mono.
    + apply (clear_own (c_clear rec) k s (readycond s) w); auto.
      * unfold base_of; tauto.
      * intros w' _ _ o Ho. eapply cw_unready; eauto.
    + intros a w' HP. eapply P_le; eauto.
Qed.

Lemma wp_conj {A} (m : ST A) (Q R : A -> world -> Prop) w : wp m Q w -> wp m R w -> wp m (fun a w' => Q a w' /\ R a w') w.
Proof. unfold wp. destruct (m w) as [[a w']|]; auto. Qed.

Lemma service_ready_keeps k s w :
  reach w -> L w k s -> readywhy calm e k s ->
  wp (service_ready rec k true) (fun _ w' => calm -> exists s', L w' k s' /\ s_cf s' = s_cf s /\ s_state s' = s_state s /\ s_dirty s' = s_dirty s) w.
Proof.
  intros H1 H2 HW. unfold service_ready. apply wp_with_svc; [|rewrite H2; discriminate].
  intros s0 Hs0. pose proof (L_fun _ _ _ _ H2 Hs0) as <-. clear Hs0.
  destruct (is_daemon s) eqn:Hd; cbn [negb]; [|intros _; exists s; auto].
  apply wp_bind. eapply wp_mono.
  { apply (c_set_spec (readycond s) w (S (rank (ident s)))); [exact H1|exact (cw_ready calm e w k s H2 Hd HW)|].
    eapply Cr_owned; eauto. apply owns_base. unfold base_of; tauto. }
  intros a w1 HP1. cbn beta in HP1.
  assert (HL : calm -> L w1 k s) by (intros Hc; eapply P_keep; eauto).
  assert (K0 : forall w', (calm -> L w' k s) -> calm -> exists s', L w' k s' /\ s_cf s' = s_cf s /\ s_state s' = s_state s /\ s_dirty s' = s_dirty s)
    by (intros w' H Hc; exists s; auto).
  apply wp_when; intros _; [|exact (K0 w1 HL)].
  unfold ready_script. apply wp_bind, wp_fork.
  - intros p [Hp _]. replace (p <? 0) with false by lia. apply wp_bind, wp_modc.
    apply wp_with_svc; [|intros HN Hc; exfalso; exact (eq_ind None (fun x => match x with None => True | Some _ => False end) Logic.I _ (eq_trans (eq_sym HN) (HL Hc)))].
    intros t Ht. unfold timeout_after. apply wp_upd. intros Hc.
    pose proof (eq_trans (eq_sym Ht) (HL Hc)) as Ets; injection Ets as ->.
    eexists. split; [apply L_wupd; [keyid|exact Ht]|]. destruct (c_ready_tmo (s_cf s) =? 0); [auto|]. destruct (s_timer s); auto.
  - cbn [Z.ltb Z.compare]. apply wp_ret. apply K0. intros Hc. exact (HL Hc).
Qed.

Definition kept (s s' : svc) : Prop := s_cf s' = s_cf s /\ s_removed s' = s_removed s /\
  (s_state s' = s_state s \/ s_state s' = Stopping \/ s_state s' = Halted).
Ltac kp := split; [rewrite ?f_enter_cf; reflexivity|split; [rewrite ?f_enter_removed; reflexivity|rewrite ?f_enter_state; cbn; auto]].

Lemma service_stop_spec k s r w :
  reach w -> L w k s -> Kr k r w -> stopwhy e (wc w) s ->
  wp (service_stop rec k) (fun _ w' => P r w w' /\ (calm -> exists s', L w' k s' /\ kept s s')) w.
Proof.
  intros H1 H2 H3 H4. unfold service_stop. apply wp_with_svc; [|rewrite H2; discriminate].
  intros s0 Hs0. pose proof (L_fun _ _ _ _ H2 Hs0) as <-. clear Hs0.
  pose proof (Kr_L _ _ _ _ H3 H2) as Hr.
  destruct (Nat.leb (st_num (s_state s)) (st_num Stopping)) eqn:EL.
  { split; [apply P_refl, H1|]. intros _. exists s. split; [exact H2|kp]. }
  apply Nat.leb_gt in EL.
  apply wp_bind, wp_upd, wp_bind, wp_getc. fold (wcancel k w).
  fold (plain s).
  assert (HLc : L (wcancel k w) k (set_s_timer TmNone s)) by lk.
  change (alive (wc (wcancel k w)) (s_pid s)) with (alive (wc w) (s_pid s)).
  cbv zeta.
  destruct (plain s && (s_pid s <=? 1)) eqn:E1.
  { apply andb_prop in E1. destruct E1 as [E1 E2]. split.
    - apply (P_mic k r); auto; [eapply m_sstop_none; eauto; lia|loc].
    - intros _. eexists; split; [exact HLc|kp]. }
  destruct (plain s && negb (alive (wc w) (s_pid s))) eqn:E2.
  { apply andb_prop in E2. destruct E2 as [E2 E3]. apply negb_true_iff in E3.
    rewrite E2 in E1. cbn [andb] in E1. unfold service_cleanup.
    apply wp_bind, wp_bind, wp_upd, wp_upd.
    change (wp (set_state rec k Halted)
      (fun _ w' => P r w w' /\ (calm -> exists s', L w' k s' /\ kept s s')) (wcleanup k (wcancel k w))).
    eapply wp_mono.
    - eapply (set_state_spec k Halted w _ _ r); [assumption| | | |assumption|].
      + eapply m_sstop_gone; eauto. lia.
      + loc.
      + lk.
      + exact Hr.
    - intros a w' [HA HB]. split; [exact HA|]. intros Hc.
      eexists. split; [apply HB, Hc|]. kp. }
  apply wp_bind, wp_upd.
  set (wx := wupd k (set_s_starting false) (wcancel k w)).
  destruct ((1 <? s_pid s) && negb (alive (wc w) (s_pid s))) eqn:E3.
  { apply andb_prop in E3. destruct E3 as [E3 E4]. rewrite E4, andb_true_r in E2.
    apply negb_true_iff in E4.
    apply wp_upd. subst wx. split.
    - apply (P_mic k r); auto; [eapply m_sstop_lost; eauto; lia|loc].
    - intros _. eexists; split; [lk|kp]. }
  assert (HLx : L wx k (set_s_starting false (set_s_timer TmNone s))) by (subst wx; lk).
  destruct (c_stop (s_cf s)) eqn:ES.
  { apply wp_bind, wp_script. intros rc.
    pose proof (m_sstop_script calm e w k s rc H2 H4 EL ES) as M. cbv zeta in M. fold wx in M.
    destruct (rc =? 1).
    - unfold service_cleanup. apply wp_bind, wp_bind, wp_upd, wp_upd.
      eapply wp_mono.
      + eapply (set_state_spec k Halted w (wcleanup k (wscript k KStop rc wx)) _ r); [assumption| | | |assumption|].
        * exact M.
        * subst wx; loc.
        * lk.
        * exact Hr.
      + intros a w' [HA HB]. split; [exact HA|]. intros Hc.
        eexists. split; [apply HB, Hc|]. kp.
    - eapply wp_mono.
      + eapply (set_state_spec k Stopping w (wscript k KStop rc wx) _ r); [assumption| | | |assumption|].
        * exact M.
        * subst wx; loc.
        * lk.
        * exact Hr.
      + intros a w' [HA HB]. split; [exact HA|]. intros Hc.
        eexists. split; [apply HB, Hc|]. kp. }
  destruct (is_sysv s) eqn:EV; cbn [negb].
  { apply wp_bind, wp_bind, wp_fork.
    - intros p Hp. pose proof Hp as [Hp1 Hp2]. apply wp_ret.
      replace (p <? 0) with false by lia. cbn [Z.eqb].
      eapply wp_mono.
      + eapply (set_state_spec k Stopping w (wfork_ok k FSysvStop p wx) _ r); [assumption| | | |assumption|].
        * eapply m_sstop_sysv; eauto.
        * subst wx; loc.
        * lk.
        * exact Hr.
      + intros a w' [HA HB]. split; [exact HA|]. intros Hc.
        eexists. split; [apply HB, Hc|]. kp.
    - apply wp_ret. cbn [Z.ltb Z.compare Z.eqb].
      unfold service_cleanup. apply wp_bind, wp_bind, wp_upd, wp_upd.
      eapply wp_mono.
      + eapply (set_state_spec k Halted w (wcleanup k (wfork_fail k FSysvStop wx)) _ r); [assumption| | | |assumption|].
        * eapply m_sstop_sysvfail; eauto.
        * subst wx; loc.
        * lk.
        * exact Hr.
      + intros a w' [HA HB]. split; [exact HA|]. intros Hc.
        eexists. split; [apply HB, Hc|]. kp. }
  assert (Epl : plain s = true) by (unfold plain; rewrite ES, EV; reflexivity).
  rewrite Epl in E1, E2. cbn [andb] in E1, E2. apply negb_false_iff in E2.
  apply wp_bind, wp_bind, wp_kill, wp_ret.
  assert (EK : memZ (s_pid s) (k_procs (wc wx)) = true) by exact E2. rewrite EK.
  rewrite andb_false_r. cbn [Z.eqb].
  eapply wp_mono.
  + eapply (set_state_spec k Stopping w (wemit (EKill k (s_pid s) (c_sighalt (s_cf s))) wx) _ r); [assumption| | | |assumption|].
    * eapply m_sstop_kill; eauto. lia.
    * subst wx; loc.
    * lk.
    * exact Hr.
  + intros a w' [HA HB]. split; [exact HA|]. intros Hc.
    eexists. split; [apply HB, Hc|]. kp.
Qed.

Lemma Kr_kept k r w w' s :
  Kr k r w -> L w k s -> (calm -> exists s', L w' k s' /\ s_cf s' = s_cf s) -> Kr k r w'.
Proof.
  intros H1 H2 H3 Hc t Ht. destruct (H3 Hc) as (s' & A & B).
  rewrite (L_fun _ _ _ _ Ht A), (ident_cf _ _ B). apply H1; auto.
Qed.

Lemma P_not_calm r w w' : (calm -> False) -> reach w' -> P r w w'.
Proof. intros H1 H2. split; [exact H2|]. split; [|split; [|split]]; intros Hc; destruct (H1 Hc). Qed.

Lemma P_clean k r w w' s :
  P r w w' -> Kr k r w -> L w k s -> (calm -> exists s', L w' k s' /\ kept s s') ->
  P r w (wclean k w').
Proof.
  intros H1 H2 H3 H4. eapply P_trans; [exact H1|].
  apply (P_mic k r); [eapply P_reach, H1|apply m_clean|loc|].
  eapply Kr_kept; eauto. intros Hc. destruct (H4 Hc) as (s' & A & B & _). eauto.
Qed.

Lemma service_reload_spec k s r w :
  reach w -> L w k s -> Kr k r w -> s_state s = Running -> enabled (wc w) s = true ->
  agg (wc w) s = COn -> s_dirty s = true -> s_adirty s = false -> k_inrl (wc w) = false -> Rg k w ->
  wp (service_reload rec k) (fun _ w' => P r w (wclean k w') /\ (calm -> exists s', L w' k s' /\ kept s s')) w.
Proof.
  intros H1 H2 H3 Hst Hen Hag Hdi Had Hin Hrg.
  assert (HC : forall v, P r w v /\ (calm -> exists s', L v k s' /\ kept s s') ->
    P r w (wclean k v) /\ (calm -> exists s', L v k s' /\ kept s s')).
  { intros v [A B]. split; [eapply P_clean; eauto|exact B]. }
  unfold service_reload.
  apply wp_with_svc; [|rewrite H2; discriminate].
  intros s0 Hs0. pose proof (L_fun _ _ _ _ H2 Hs0) as <-. clear Hs0.
  apply wp_bind, wp_getc.
  assert (G0 : P r w w /\ (calm -> exists s', L w k s' /\ kept s s')).
  { split; [apply P_refl, H1|]. intros _. exists s. split; [exact H2|kp]. }
  destruct (k_norespawn (wc w)) eqn:En; [exact (HC w G0)|].
  destruct (c_reload (s_cf s)) eqn:Er.
  { apply wp_bind, wp_script. intros rc.
    pose proof (m_reload_script calm e w k s rc H2 Hst Hen Hag Hdi Hin En Er) as M. cbv zeta in M.
    apply wp_when; intros Erc; rewrite Erc in M.
    - apply wp_upd, HC. split; [apply (P_mic k r); auto; loc|].
      intros _. eexists; split; [lk|kp].
    - apply HC. split; [apply (P_mic k r); auto; loc|].
      intros _. eexists; split; [lk|kp]. }
  destruct (c_sighup (s_cf s)) eqn:Eh; [|exact (HC w G0)].
  destruct (s_pid s <=? 1) eqn:Ep.
  { apply wp_upd, HC. split; [apply (P_mic k r); auto; [eapply m_reload_nopid; eauto; lia|loc]|].
    intros _. eexists; split; [lk|kp]. }
  assert (Hpid : 1 < s_pid s) by lia.
  pose proof (m_reload_hup calm e w k s H2 Hst Hen Hag Hdi Had Hin En Eh Hpid) as M. cbv zeta in M.
  apply wp_bind, wp_kill.
  replace (0 <? s_pid s) with true by lia. cbn [andb].
  unfold alive in M. destruct (memZ (s_pid s) (k_procs (wc w))) eqn:Em; cbn [negb].
  - cbn [Z.eqb]. apply wp_upd. split; [apply (P_mic k r); auto; loc|].
    intros _. eexists; split; [lk|kp].
  - cbn [Z.eqb].
    assert (NC : calm -> False).
    { intros Hc. pose proof (Halive Hc _ _ _ H1 (Rg_L _ _ _ Hrg H2 Hc) Hpid) as HA. unfold alive in HA. congruence. }
    eapply wp_mono.
    + apply Rmon; [split; [eapply reach_mic; eauto|intros Hc; destruct (NC Hc)]|exact Em].
    + intros a w' Hw'. split; [apply P_not_calm; [exact NC|eapply reach_mic; [apply Hw'|apply m_clean]]|]. intros Hc; destruct (NC Hc).
Qed.

Lemma enabled_block c s : enabled c s = true -> s_block s = BNone.
Proof.
  unfold enabled, blocked. intros H. repeat (apply andb_prop in H; destruct H as [H ?]).
  destruct (s_block s); cbn in *; congruence.
Qed.

Ltac endret := intros; apply wp_ret.

Lemma step_halted_spec k s r w : reach w -> L w k s -> Kr k r w -> s_state s = Halted ->
  wp (step_halted rec k s (wc w)) (fun _ => P r w) w.
Proof.
  intros H1 H2 H3 Hs. pose proof (Kr_L _ _ _ _ H3 H2) as Hr. unfold step_halted.
  apply wp_seq with (r := r) (w0 := w); [|intros a w' H; exact H].
  destruct (enabled (wc w) s) eqn:Een.
  - eapply (set_state_P k Waiting); [exact H1| | |exact H2|exact H3|exact Hr]; [eapply m_halt_wait; eauto|loc].
  - destruct (s_removed s) eqn:Erm.
    + eapply (set_state_P k Dead); [exact H1| | |exact H2|exact H3|exact Hr]; [eapply m_halt_dead; eauto|loc].
    + apply wp_when_P; [apply P_refl, H1|]. intros Hb. apply andb_prop in Hb. destruct Hb as [Hb1 Hb2].
      apply blk_eqb_eq in Hb1. apply negb_true_iff in Hb2.
      apply wp_upd. apply (P_mic k r); auto; [eapply m_unconflict; eauto|loc].
Qed.

Lemma step_teardown_spec k s r w : reach w -> L w k s -> Kr k r w -> s_state s = Teardown ->
  wp (step_teardown rec k s) (fun _ => P r w) w.
Proof.
  intros H1 H2 H3 Hs. pose proof (Kr_L _ _ _ _ H3 H2) as Hr. unfold step_teardown.
  apply wp_seq with (r := r) (w0 := w); [|intros a w' H; exact H].
  apply wp_when_P; [apply P_refl, H1|]. intros Hp. apply Z.eqb_eq in Hp.
  apply wp_bind, wp_upd. fold (wcancel k w).
  destruct (s_removed s && c_cleanup (s_cf s)) eqn:Ec.
  - apply andb_prop in Ec. destruct Ec as [Ec1 Ec2].
    eapply (wp_setst k Cleanup w (wcancel k w));
      [exact H1|eapply m_tear_clean; eauto|loc|lk|exact H3|exact Hr|].
    intros a w' HP HL. apply wp_P_from; [exact HP|].
    apply aux_spec; [eapply P_reach, HP| | |reflexivity|reflexivity].
    + eapply Kr_keep; [exact H3|exact H2|exact HL|]. rewrite f_enter_cf; reflexivity.
    + intros Hc. eexists. split; [apply HL, Hc|]. cbn [aux_guard].
      rewrite f_enter_cf, f_enter_state, f_enter_pid. auto.
  - eapply (set_state_P k Halted w (wcancel k w));
      [exact H1|eapply m_tear_halt; eauto|loc|lk|exact H3|exact Hr].
Qed.

Lemma step_cleanup_spec k s r w : reach w -> L w k s -> Kr k r w -> s_state s = Cleanup ->
  wp (step_cleanup rec k s) (fun _ => P r w) w.
Proof.
  intros H1 H2 H3 Hs. pose proof (Kr_L _ _ _ _ H3 H2) as Hr. unfold step_cleanup.
  apply wp_seq with (r := r) (w0 := w); [|intros a w' H; exact H].
  apply wp_when_P; [apply P_refl, H1|]. intros Hp. apply Z.eqb_eq in Hp.
  eapply (set_state_P k Halted w w);
      [exact H1|eapply m_clean_halt; eauto|loc|lk|exact H3|exact Hr].
Qed.

Lemma step_done_spec k s r w : reach w -> L w k s -> Kr k r w -> Rg k w -> s_state s = Done ->
  wp (step_done rec k s (wc w)) (fun _ => P r w) w.
Proof.
  intros H1 H2 H3 Hrg Hs. pose proof (Kr_L _ _ _ _ H3 H2) as Hr. unfold step_done. cbv zeta.
  apply wp_bind.
  assert (G : forall w', P r w w' -> (calm -> exists s', L w' k s' /\ s_cf s' = s_cf s /\
               (s_state s' = Done \/ s_state s' = Halted)) ->
    wp (when (is_runtask s && c_manual (s_cf s) && enabled (wc w) s) (set_state rec k Waiting) ;;; ret false)
      (fun _ => P r w) w').
  { intros w' HP HL. apply wp_seq with (r := r) (w0 := w); [|intros a w2 H; exact H].
    apply wp_when_P; [exact HP|]. intros Hb. apply andb_prop in Hb. destruct Hb as [Hb Hb3].
    apply andb_prop in Hb. destruct Hb as [Hb1 Hb2].
    apply wp_P_from; [exact HP|].
    assert (HKr : Kr k r w').
    { eapply Kr_kept; [exact H3|exact H2|]. intros Hc. destruct (HL Hc) as (s' & A & B & _). eauto. }
    destruct (lookup_svc (wc w') k) as [s'|] eqn:El.
    - eapply (set_state_P k Waiting w' w'); [eapply P_reach, HP| |loc|exact El|exact HKr|].
      + eapply m_done_wait; [exact El|]. intros Hc. destruct (HL Hc) as (s2 & A & B & C).
        pose proof (L_fun _ _ _ _ El A) as <-. unfold is_runtask, ty in *. rewrite B.
        pose proof (Rg_P _ _ _ _ Hrg HP Hc). auto.
      + apply (Kr_L _ _ _ _ HKr El).
    - apply set_state_none; [eapply P_reach, HP|eapply not_lost; eauto|exact El]. }
  apply wp_when.
  - intros Hd. eapply wp_mono.
    + eapply (set_state_spec k Halted w w); [exact H1|eapply m_done_halt; eauto|loc|lk|exact H3|exact Hr].
    + intros a w' [HP HL]. apply G; [exact HP|]. intros Hc. eexists. split; [apply HL, Hc|].
      rewrite f_enter_cf, f_enter_state. auto.
  - intros _. apply G; [apply P_refl, H1|]. intros Hc. exists s. auto.
Qed.

Lemma step_stopping_spec k s r w : reach w -> L w k s -> Kr k r w -> Rg k w -> s_state s = Stopping ->
  wp (step_stopping rec k s) (fun _ => P r w) w.
Proof.
  intros H1 H2 H3 Hrg Hs. pose proof (Kr_L _ _ _ _ H3 H2) as Hr. unfold step_stopping.
  apply wp_seq with (r := r) (w0 := w); [|intros a w' H; exact H].
  apply wp_when_P; [apply P_refl, H1|]. intros Hp. apply Z.eqb_eq in Hp.
  apply wp_bind, wp_upd. fold (wcancel k w).
  assert (HPc : P r w (wcancel k w)) by (apply (P_mic k r); auto; [eapply m_stop_cancel; eauto|loc]).
  set (w1 := wcancel k w) in *. set (s1 := set_s_timer TmNone s).
  assert (HL1 : L w1 k s1) by (subst w1 s1; lk).
  apply wp_bind. eapply wp_mono.
  { apply (clear_own (c_clear rec) k s1 (pidcond s) w1); [auto|eapply P_reach, HPc|exact HL1| |].
    - unfold base_of; left; reflexivity.
    - intros w' _ _ o Ho. eapply cw_unpid; eauto. }
  intros a2 w2 HPk. cbn beta in HPk.
  assert (HP2 : P r w w2).
  { eapply P_trans; [exact HPc|]. eapply P_le; [|exact HPk]. intros Hc. specialize (Hr Hc).
    change (ident s1) with (ident s). lia. }
  assert (HL2 : calm -> L w2 k s1) by (intros Hc; eapply P_keep; eauto).
  assert (HR2 : reach w2) by (eapply P_reach, HP2).
  assert (HK2 : Kr k r w2) by (eapply Kr_keep; [exact H3|exact H2|exact HL2|reflexivity]).
  apply wp_P_from; [exact HP2|]. clear HPk.
  apply wp_with_svc; [|intros HN; apply wp_uaf; [exact HR2|eapply not_lost; eauto|exact HN]].
  intros t Ht. change (L w2 k t) in Ht.
  assert (Hfacts : calm -> s_state t = Stopping /\ s_pid t = 0).
  { intros Hc. rewrite (L_fun _ _ _ _ Ht (HL2 Hc)). auto. }
  pose proof (Kr_L _ _ _ _ HK2 Ht) as Hrt.
  destruct (is_runtask t) eqn:Ety.
  { pose proof (m_stop_done calm e w2 k t Ht Ety Hfacts (Rg_P _ _ _ _ Hrg HP2)) as M. unfold w_done in M.
    apply wp_bind. apply wp_when; intros Em; rewrite Em in M.
    - apply wp_upd. eapply (set_done_P k w2 (wblock k BUser w2) (set_s_block BUser t)); [exact HR2|exact M| |lk|exact Ety|exact HK2|exact Hrt].
      unfold wblock. apply local_wupd; [keyid| |loc]. intros u Hu.
      split; [reflexivity|]. split; [|reflexivity]. intros _. right. rewrite (L_fun _ _ _ _ Hu Ht). exact Ety.
    - eapply (set_done_P k w2 w2 t); [exact HR2|exact M|loc|lk|exact Ety|exact HK2|exact Hrt]. }
  destruct (c_post (s_cf t)) eqn:Epo.
  { eapply (wp_setst k Teardown w2 w2); [exact HR2|eapply m_stop_tear; eauto|loc|lk|exact HK2|exact Hrt|].
    intros a3 w3 HP3 HL3. apply wp_P_from; [exact HP3|].
    apply aux_spec; [eapply P_reach, HP3| | |reflexivity|reflexivity].
    + eapply Kr_keep; [exact HK2|exact Ht|exact HL3|]. rewrite f_enter_cf; reflexivity.
    + intros Hc. eexists. split; [apply HL3, Hc|]. cbn [aux_guard].
      rewrite f_enter_cf, f_enter_state, f_enter_pid. destruct (Hfacts Hc). auto. }
  destruct (s_removed t && c_cleanup (s_cf t)) eqn:Ecl.
  { apply andb_prop in Ecl. destruct Ecl as [Ec1 Ec2].
    eapply (wp_setst k Cleanup w2 w2); [exact HR2|eapply m_stop_clean; eauto|loc|lk|exact HK2|exact Hrt|].
    intros a3 w3 HP3 HL3. apply wp_P_from; [exact HP3|].
    apply aux_spec; [eapply P_reach, HP3| | |reflexivity|reflexivity].
    + eapply Kr_keep; [exact HK2|exact Ht|exact HL3|]. rewrite f_enter_cf; reflexivity.
    + intros Hc. eexists. split; [apply HL3, Hc|]. cbn [aux_guard].
      rewrite f_enter_cf, f_enter_state, f_enter_pid. destruct (Hfacts Hc). auto. }
  eapply (set_state_P k Halted w2 w2); [exact HR2|eapply m_stop_halt; eauto|loc|lk|exact HK2|exact Hrt].
Qed.

Lemma step_setup_spec k s r w : reach w -> L w k s -> Kr k r w -> s_state s = Setup ->
  wp (step_setup rec k s (wc w)) (fun _ => P r w) w.
Proof.
  intros H1 H2 H3 Hs. pose proof (Kr_L _ _ _ _ H3 H2) as Hr. unfold step_setup.
  apply wp_seq with (r := r) (w0 := w); [|intros a w' H; exact H].
  destruct (enabled (wc w) s) eqn:Een; cbn [negb].
  - apply wp_when_P; [apply P_refl, H1|]. intros Hp. apply Z.eqb_eq in Hp.
    destruct (negb (wifexited (s_status s)) || negb (wexitstatus (s_status s) =? 0)) eqn:Ex.
    + eapply (wp_setst k Stopping w w); [exact H1|eapply m_setup_fail; eauto|loc|lk|exact H3|exact Hr|].
      intros a w' HP HL. apply wp_upd. eapply P_trans; [exact HP|].
      apply (P_mic k r); [eapply P_reach, HP| |loc|].
      * apply m_setup_crash. intros Hc. eexists. split; [apply HL, Hc|].
        rewrite f_enter_state, f_enter_pid, f_enter_block. pose proof (enabled_block _ _ Een). auto.
      * eapply Kr_keep; [exact H3|exact H2|exact HL|apply f_enter_cf].
    + apply orb_false_iff in Ex. destruct Ex as [Ex1 Ex2].
      eapply (set_state_P k Starting w w); [exact H1| |loc|lk|exact H3|exact Hr].
      eapply m_setup_start; eauto.
      * destruct (wifexited (s_status s)); auto.
      * apply negb_false_iff in Ex2. lia.
  - eapply wp_mono; [eapply service_stop_spec; eauto; apply sw_disabled, Een|].
    intros a w' [HP _]. exact HP.
Qed.

Lemma step_waiting_spec k s r w : reach w -> L w k s -> Kr k r w -> s_state s = Waiting ->
  wp (step_waiting rec k s (wc w)) (fun _ => P r w) w.
Proof.
  intros H1 H2 H3 Hs. pose proof (Kr_L _ _ _ _ H3 H2) as Hr. unfold step_waiting.
  apply wp_seq with (r := r) (w0 := w); [|intros a w' H; exact H].
  destruct (enabled (wc w) s) eqn:Een; cbn [negb].
  - apply wp_when_P; [apply P_refl, H1|]. intros Hc. apply cs_eqb_eq in Hc.
    destruct (k_inrl (wc w)) eqn:Ei; [apply P_refl, H1|].
    destruct (k_norespawn (wc w)) eqn:En; [apply P_refl, H1|].
    destruct (conflicts (wc w) s) eqn:Ec.
    + apply wp_bind, wp_upd.
      eapply (set_state_P k Halted w (wblock k BConflict w));
        [exact H1|eapply m_wait_conflict; eauto|loc|lk|exact H3|exact Hr].
    + pose proof (m_wait_go calm e w k s H2 Hs Een Hc Ei En Ec) as M.
      destruct (c_pre (s_cf s)) eqn:Epre.
      * eapply (wp_setst k Setup w w); [exact H1|exact M|loc|lk|exact H3|exact Hr|].
        intros a w' HP HL. apply wp_P_from; [exact HP|].
        apply aux_spec; [eapply P_reach, HP| | |reflexivity|reflexivity].
        -- eapply Kr_keep; [exact H3|exact H2|exact HL|]. rewrite f_enter_cf; reflexivity.
        -- intros Hcalm. eexists. split; [apply HL, Hcalm|]. cbn [aux_guard].
           rewrite f_enter_cf, f_enter_state. auto.
      * eapply (set_state_P k Starting w w); [exact H1|exact M|loc|lk|exact H3|exact Hr].
  - eapply (set_state_P k Halted w w); [exact H1|eapply m_wait_halt; eauto|loc|lk|exact H3|exact Hr].
Qed.

Lemma wp_notes (s : svc) (Q : Z -> world -> Prop) w :
  (forall b : bool, (b = true -> uses_socket s = true /\ exists l, k_notes (wc w) = true :: l) -> Q (if b then -1 else 0)
     (if uses_socket s then wmod (fun c => set_k_notes (tl (k_notes c)) c) w else w)) ->
  wp (match c_notify (s_cf s) with
      | NfSystemd | NfS6 =>
          c <- getc ;;
          match k_notes c with
          | [] => ret 0
          | b :: l => modc (set_k_notes l) ;;; ret (if b then -1 else 0)
          end
      | _ => ret 0
      end) Q w.
Proof.
  intros H.
  assert (G : uses_socket s = true -> wp (c <- getc ;;
          match k_notes c with
          | [] => ret 0
          | b :: l => modc (set_k_notes l) ;;; ret (if b then -1 else 0)
          end) Q w).
  { intros Hu. rewrite Hu in H. apply wp_bind, wp_getc.
    destruct (k_notes (wc w)) as [|b l] eqn:En.
    - apply wp_ret. specialize (H false ltac:(discriminate)). unfold wmod in H. rewrite En in H. cbn [tl] in H.
      replace (set_k_notes [] (wc w)) with (wc w) in H; [destruct w; exact H|].
      destruct (wc w); cbn in En; subst; reflexivity.
    - apply wp_bind, wp_modc, wp_ret. assert (Hb : b = true -> true = true /\ (exists l0, b :: l = true :: l0)) by (intros ->; eauto).
      specialize (H b Hb). unfold wmod in H. rewrite En in H. exact H. }
  unfold uses_socket in *. destruct (c_notify (s_cf s)) eqn:En.
  - apply (H false). discriminate.
  - apply (H false). discriminate.
  - apply G. reflexivity.
  - apply G. reflexivity.
Qed.

Lemma local_w_forked k s p w : local k w (w_forked k s p w).
Proof. unfold w_forked. cbv zeta. loc. Qed.

Lemma L_w_forked k s p w : L w k s -> L (w_forked k s p w) k (set_s_pid p (f_rtot (set_s_starting true s))).
Proof.
  intros H. unfold w_forked. cbv zeta.
  destruct (is_run_t (ty s)), (uses_socket s); lk.
Qed.

Lemma f_rtot_block s : s_block (f_rtot s) = s_block s.
Proof. unfold f_rtot. destruct (_ && _); reflexivity. Qed.
Lemma f_rtot_state s : s_state (f_rtot s) = s_state s.
Proof. unfold f_rtot. destruct (_ && _); reflexivity. Qed.
Lemma f_rtot_pid s : s_pid (f_rtot s) = s_pid s.
Proof. unfold f_rtot. destruct (_ && _); reflexivity. Qed.

Lemma w_forked_runblk k s p w :
  k_runblk (wc (w_forked k s p w)) = if is_run_t (ty s) then p else k_runblk (wc w).
Proof. unfold w_forked. cbv zeta. destruct (is_run_t (ty s)), (uses_socket s); reflexivity. Qed.

Lemma step_starting_spec k s r w : reach w -> L w k s -> Kr k r w -> Rg k w -> s_state s = Starting ->
  wp (step_starting rec k s (wc w)) (fun _ => P r w) w.
Proof.
  intros H1 H2 H3 Hrg Hs. pose proof (Kr_L _ _ _ _ H3 H2) as Hr. unfold step_starting.
  apply wp_seq with (r := r) (w0 := w); [|intros a w' H; exact H].
  destruct (enabled (wc w) s) eqn:Een; cbn [negb].
  2:{ eapply (set_state_P k Halted w w); [exact H1|eapply m_start_halt; eauto|loc|lk|exact H3|exact Hr]. }
  pose proof (enabled_block _ _ Een) as Hbl.
  apply wp_bind. unfold service_start. apply wp_with_svc; [|rewrite H2; discriminate].
  intros s0 Hs0. pose proof (L_fun _ _ _ _ H2 Hs0) as <-. clear Hs0.
  apply wp_bind, wp_getc.
  destruct (k_norespawn (wc w)) eqn:En.
  { apply wp_ret. cbn [Z.eqb negb]. apply wp_bind, wp_getc.
    destruct (k_runblk (wc w) =? 0) eqn:Erb; cbn [negb]; [|apply P_refl, H1].
    apply wp_with_svc; [|rewrite H2; discriminate].
    intros s0 Hs0. pose proof (L_fun _ _ _ _ H2 Hs0) as <-. rewrite Hbl. cbn [blk_eqb blk_num Nat.eqb].
    apply wp_upd. apply (P_mic k r); auto; [eapply m_start_held; eauto; lia|loc]. }
  destruct (k_runblk (wc w) =? 0) eqn:Erb; cbn [negb].
  2:{ apply wp_ret. cbn [Z.eqb negb]. apply wp_bind, wp_getc. rewrite Erb. cbn [negb]. apply P_refl, H1. }
  apply Z.eqb_eq in Erb.
  assert (SG : start_guard calm w k s) by (repeat split; auto).
  destruct (mem_str (ident s) (k_unavail (wc w))) eqn:Eu.
  { apply wp_bind, wp_upd, wp_ret. cbn [Z.eqb negb]. apply wp_bind, wp_getc.
    change (k_runblk (wc (wupd k (set_s_block BMissing) w))) with (k_runblk (wc w)).
    rewrite Erb. cbn [Z.eqb negb].
    fold (wblock k BMissing w).
    assert (HL1 : L (wblock k BMissing w) k (set_s_block BMissing s)) by lk.
    apply wp_with_svc; [|rewrite HL1; discriminate].
    intros s0 Hs0. pose proof (L_fun _ _ _ _ HL1 Hs0) as <-. cbn [s_block set_s_block blk_eqb blk_num Nat.eqb].
    eapply (set_state_P k Halted w (wblock k BMissing w));
      [exact H1|eapply m_start_missing; eauto|loc|lk|exact H3|exact Hr]. }
  apply wp_bind, wp_upd, wp_bind, wp_upd. apply wp_bind.
  change (wupd k (fun s2 : svc =>
          if is_daemon s2 && (negb (s_rcnt s2 =? 0) || negb (s_rtot s2 =? 0))
          then set_s_rtot (s_rtot s2 + 1) s2 else s2) (wupd k (set_s_starting true) w)) with (w_prep k w).
  apply wp_fork.
  - intros p Hp. assert (Hp' : fresh_pid p w) by exact Hp. pose proof Hp' as [Hp1 Hp2].
    replace (p <? 0) with false by lia.
    apply wp_bind, wp_upd, wp_bind, wp_notes. intros b Hb.
    set (wn := if uses_socket s then _ else _).
    assert (Hwhen : forall Q : unit -> world -> Prop, Q tt (w_forked k s p w) ->
       wp (when (is_run_t (ty s)) (modc (set_k_runblk p))) Q wn).
    { intros Q HQ. unfold w_forked in HQ. subst wn. cbv zeta in HQ. destruct (is_run_t (ty s)); exact HQ. }
    apply wp_bind, Hwhen, wp_ret. clear Hwhen wn.
    pose proof (L_w_forked k s p w H2) as HLf. pose proof (local_w_forked k s p w) as Hlf.
    destruct b.
    + cbn [Z.eqb negb]. apply wp_bind, wp_getc. rewrite w_forked_runblk.
      pose proof (m_start_nosock calm e w k s p SG Eu Hp' (proj1 (Hb eq_refl)) (proj2 (Hb eq_refl))) as M.
      destruct (is_run_t (ty s)) eqn:Ert.
      * replace (p =? 0) with false by lia. cbn [negb]. apply (P_mic k r); auto.
      * rewrite Erb. cbn [Z.eqb negb]. apply wp_with_svc; [|rewrite HLf; discriminate].
        intros s0 Hs0. pose proof (L_fun _ _ _ _ HLf Hs0) as <-. cbn [s_block set_s_pid].
        rewrite f_rtot_block. cbn [s_block set_s_starting]. rewrite Hbl. cbn [blk_eqb blk_num Nat.eqb].
        apply wp_upd. apply (P_mic k r); auto. loc.
    + cbn [Z.eqb negb]. apply wp_bind, wp_upd.
      eapply (set_state_P k Running w (wclean k (w_forked k s p w)));
        [exact H1|eapply m_start_ok; eauto|loc; exact Hlf|unfold wclean; apply L_wupd; [keyid|exact HLf]|exact H3|].
      intros Hc. specialize (Hr Hc).
      erewrite ident_cf; [exact Hr|]. unfold f_clean. cbn. rewrite f_rtot_cf. reflexivity.
  - cbn [Z.ltb Z.compare]. apply wp_ret. cbn [Z.eqb negb]. apply wp_bind, wp_getc.
    change (k_runblk (wc (wfork_fail k FMain (w_prep k w)))) with (k_runblk (wc w)).
    rewrite Erb. cbn [Z.eqb negb].
    assert (HLf : L (wfork_fail k FMain (w_prep k w)) k (f_rtot (set_s_starting true s))) by lk.
    apply wp_with_svc; [|rewrite HLf; discriminate].
    intros s0 Hs0. pose proof (L_fun _ _ _ _ HLf Hs0) as <-.
    rewrite f_rtot_block. cbn [s_block set_s_starting]. rewrite Hbl. cbn [blk_eqb blk_num Nat.eqb].
    apply wp_upd. apply (P_mic k r); auto; [eapply m_start_fail; eauto|loc].
Qed.

Lemma step_running_spec k s r w : reach w -> L w k s -> Kr k r w -> Rg k w -> s_state s = Running ->
  wp (step_running rec k s (wc w)) (fun _ => P r w) w.
Proof.
  intros H1 H2 H3 Hrg Hs. pose proof (Kr_L _ _ _ _ H3 H2) as Hr. unfold step_running.
  destruct (enabled (wc w) s) eqn:Een; cbn [negb].
  2:{ apply wp_seq with (r := r) (w0 := w); [|intros a w' H; exact H].
      eapply wp_mono; [eapply service_stop_spec; eauto; apply sw_disabled, Een|].
      intros a w' [HP _]. exact HP. }
  destruct ((s_pid s =? 0) && (is_daemon s || is_tty s)) eqn:E1.
  { apply andb_prop in E1. destruct E1 as [E1 E2]. apply Z.eqb_eq in E1.
    apply wp_bind, wp_upd.
    eapply (wp_setst k Halted w (wblock k BRestarting w));
      [exact H1|eapply m_run_died; eauto|loc|lk|exact H3|exact Hr|].
    intros a w1 HP HL.
    assert (HR1 : reach w1) by (eapply P_reach, HP).
    assert (HK1 : Kr k r w1) by (eapply Kr_keep; [exact H3|exact H2|exact HL|]; rewrite f_enter_cf; reflexivity).
    apply wp_P_from; [exact HP|].
    apply wp_with_svc; [|intros HN; apply wp_uaf; [exact HR1|eapply not_lost; eauto|exact HN]].
    intros t Ht.
    assert (HF : calm -> s_state t = Halted /\ s_block t = BRestarting).
    { intros Hc. rewrite (L_fun _ _ _ _ Ht (HL Hc)). rewrite f_enter_state, f_enter_block. auto. }
    assert (HF2 : calm -> s_state t = Halted /\ s_block t = BRestarting /\ In k (keys (wc w1)) /\
                          is_daemon t || is_tty t = true).
    { intros Hc. destruct (HF Hc) as [A B]. split; [exact A|]. split; [exact B|].
      split; [exact (Rg_P _ _ _ _ Hrg HP Hc)|]. rewrite (L_fun _ _ _ _ Ht (HL Hc)).
      unfold is_daemon, is_tty, ty. rewrite f_enter_cf. exact E2. }
    destruct (c_respawn (s_cf t)) eqn:Ersp; cbn [negb]; apply wp_bind, wp_upd, wp_ret.
    - apply (P_mic k r); auto; [eapply m_run_respawn; eauto|loc].
    - apply (P_mic k r); auto; [eapply m_run_retry; eauto|loc]. }
  destruct ((s_pid s =? 0) && is_runtask s) eqn:E2.
  { apply andb_prop in E2. destruct E2 as [E2 E3]. apply Z.eqb_eq in E2.
    eapply (wp_setst k Stopping w w); [exact H1|eapply m_run_done; eauto|loc|lk|exact H3|exact Hr|].
    intros a w1 HP HL. apply wp_bind, wp_upd, wp_ret.
    eapply P_trans; [exact HP|]. apply (P_mic k r); [eapply P_reach, HP| |loc|].
    - apply m_run_count. intros Hc. eexists. split; [apply HL, Hc|]. rewrite f_enter_state, f_enter_pid. auto.
    - eapply Kr_keep; [exact H3|exact H2|exact HL|]; rewrite f_enter_cf; reflexivity. }
  assert (Hpid : s_pid s <> 0).
  { intros Hp. rewrite Hp in E1, E2. cbn [Z.eqb andb] in E1, E2.
    unfold is_daemon, is_tty, is_runtask in *. destruct (ty s); cbn in *; discriminate. }
  apply wp_bind, wp_upd. fold (wcancel k w).
  set (w1 := wcancel k w). set (s1 := set_s_timer TmNone s).
  assert (HP1 : P r w w1) by (apply (P_mic k r); auto; [eapply m_run_cancel; eauto|subst w1; loc]).
  assert (HL1 : L w1 k s1) by (subst w1 s1; lk).
  assert (HR1 : reach w1) by (eapply P_reach, HP1).
  assert (HK1 : Kr k r w1) by (eapply Kr_keep; [exact H3|exact H2|intros _; exact HL1|reflexivity]).
  assert (Hrg1 : Rg k w1) by (eapply Rg_P; eauto).
  assert (Hr1 : (calm -> r <= rank (ident s1))%nat) by exact Hr.
  assert (Een1 : enabled (wc w1) s1 = true) by exact Een.
  apply wp_seq with (r := r) (w0 := w1); [|intros a w' H; eapply P_trans; eauto].
  destruct (agg (wc w) s) eqn:Eag.
  - (* OFF *)
    eapply wp_mono; [eapply (service_stop_spec k s1); eauto; apply sw_cond; exact Eag|].
    intros a w' [HP _]. exact HP.
  - (* FLUX *)
    apply wp_bind, wp_kill.
    eapply (set_state_P k Paused w1 (wemit (EKill k (s_pid s) 19) w1));
      [exact HR1| |loc|lk|exact HK1|exact Hr1].
    eapply (m_run_pause calm e w1 k s1); eauto.
  - (* ON *)
    assert (G : forall w', P r w1 w' -> Kr k r w' ->
      (calm -> exists t, L w' k t /\ (s_state t = Running \/ s_state t = Stopping \/ s_state t = Halted)) ->
      wp (with_svc k tt (fun s => match c_notify (s_cf s) with NfNone => service_ready rec k true | _ => ret tt end))
         (fun _ => P r w1) w').
    { intros w' HP' HK' HS'. apply wp_P_from; [exact HP'|].
      apply wp_with_svc; [|intros HN; exact (wp_uaf k r w' (P_reach _ _ _ HP') (not_lost _ _ _ _ _ HP' HL1 HN) HN)].
      intros t Ht. destruct (c_notify (s_cf t)) eqn:En; try (apply P_refl; eapply P_reach, HP').
      apply service_ready_spec; [eapply P_reach, HP'|exact HK'|exact (not_lost _ _ _ _ _ HP' HL1)|].
      intros _ t' Ht'. rewrite (L_fun _ _ _ _ Ht' Ht). apply rw_plain; [exact En|].
      intros Hc. destruct (HS' Hc) as (t2 & A & B). rewrite (L_fun _ _ _ _ Ht A). exact B. }
    assert (HRun : forall s' w', kept s1 s' -> L w' k s' ->
      exists t, L (wclean k w') k t /\ (s_state t = Running \/ s_state t = Stopping \/ s_state t = Halted)).
    { intros s' w' (_ & _ & A) HLs. exists (f_clean s'). split; [lk|]. destruct A as [A|A]; [left; rewrite <- Hs; exact A|right; exact A]. }
    destruct (s_dirty s) eqn:Ed.
    + destruct (noreload s || s_adirty s) eqn:Enr.
      * apply wp_bind, wp_bind.
        eapply wp_mono; [eapply (service_stop_spec k s1); eauto; apply sw_changed; [exact Ed|exact Enr]|].
        intros a w' [HP' HL']. apply wp_bind, wp_upd, wp_ret. fold f_clean.
        apply G; [exact (P_clean k r w1 w' s1 HP' HK1 HL1 HL')| |intros Hc; destruct (HL' Hc) as (s' & A & B); exact (HRun s' w' B A)].
        eapply Kr_kept; [exact HK1|exact HL1|]. intros Hc. destruct (HL' Hc) as (s' & A & B & _).
        eexists. split; [apply L_wupd; [keyid|exact A]|exact B].
      * destruct (k_inrl (wc w)) eqn:Ei.
        { apply wp_bind, wp_ret. apply P_refl, HR1. }
        apply wp_bind, wp_bind.
        assert (Had : s_adirty s1 = false) by (apply orb_false_iff in Enr; exact (proj2 Enr)).
        eapply wp_mono; [eapply (service_reload_spec k s1); eauto|].
        intros a w' [HP' HL']. apply wp_bind, wp_upd, wp_ret. fold f_clean.
        apply G; [exact HP'| |intros Hc; destruct (HL' Hc) as (s' & A & B); exact (HRun s' w' B A)].
        eapply Kr_kept; [exact HK1|exact HL1|]. intros Hc. destruct (HL' Hc) as (s' & A & B & _).
        eexists. split; [apply L_wupd; [keyid|exact A]|exact B].
    + apply wp_bind, wp_ret. apply G; [apply P_refl, HR1|exact HK1|]. intros _. exists s1. split; [exact HL1|left; exact Hs].
Qed.

Lemma step_paused_spec k s r w : reach w -> L w k s -> Kr k r w -> s_state s = Paused ->
  wp (step_paused rec k s (wc w)) (fun _ => P r w) w.
Proof.
  intros H1 H2 H3 Hs. pose proof (Kr_L _ _ _ _ H3 H2) as Hr. unfold step_paused.
  apply wp_seq with (r := r) (w0 := w); [|intros a w' H; exact H].
  assert (G : forall (why : stopwhy e (wc w) s),
    enabled (wc w) s = false \/ agg (wc w) s = COff /\ s_pid s <> 0 ->
    wp (do_kill k (s_pid s) 18 ;;; service_stop rec k) (fun _ => P r w) w).
  { intros why Hg. apply wp_bind, wp_kill.
    set (w1 := wemit (EKill k (s_pid s) 18) w).
    assert (HP1 : P r w w1) by (apply (P_mic k r); auto; [eapply m_cont; eauto|subst w1; loc]).
    apply wp_P_from; [exact HP1|].
    eapply wp_mono; [eapply (service_stop_spec k s r w1)|].
    - eapply P_reach, HP1.
    - exact H2.
    - exact H3.
    - exact why.
    - intros a w' [HP _]. exact HP. }
  destruct (enabled (wc w) s) eqn:Een; cbn [negb].
  2:{ apply G; [apply sw_disabled, Een|auto]. }
  destruct (s_pid s =? 0) eqn:Ep.
  { apply Z.eqb_eq in Ep. apply wp_bind, wp_upd.
    eapply (set_state_P k Waiting w (wupd k f_incr w));
      [exact H1|eapply m_paused_wait; eauto|loc|lk|exact H3|exact Hr]. }
  apply Z.eqb_neq in Ep.
  destruct (agg (wc w) s) eqn:Eag.
  - apply G; [apply sw_cond, Eag|auto].
  - apply P_refl, H1.
  - apply wp_bind, wp_kill.
    eapply (wp_setst k Running w (wemit (EKill k (s_pid s) 18) w));
      [exact H1|eapply m_paused_run; eauto|loc|lk|exact H3|exact Hr|].
    intros a w1 HP HL. apply wp_P_from; [exact HP|].
    assert (HR1 : reach w1) by (eapply P_reach, HP).
    assert (HK1 : Kr k r w1) by (eapply Kr_keep; [exact H3|exact H2|exact HL|]; rewrite f_enter_cf; reflexivity).
    apply wp_with_svc; [|intros HN; exact (wp_uaf k r w1 HR1 (not_lost _ _ _ _ _ HP H2 HN) HN)].
    intros t Ht. apply wp_when_P; [apply P_refl, HR1|]. intros Hdt. apply negb_true_iff in Hdt.
    assert (Hst : calm -> s_state t = Running) by (intros Hc; rewrite (L_fun _ _ _ _ Ht (HL Hc)); apply f_enter_state).
    apply wp_bind.
    assert (G2 : forall w2, P r w1 w2 -> Kr k r w2 -> L w2 k t -> wp (service_ready rec k true) (fun _ => P r w1) w2).
    { intros w2 HP2 HK2 HL2. apply wp_P_from; [exact HP2|].
      apply service_ready_spec; [eapply P_reach, HP2|exact HK2|exact (not_lost _ _ _ _ _ HP2 Ht)|].
      intros _ t' Ht'. rewrite (L_fun _ _ _ _ Ht' HL2). apply rw_clean. intros Hc. split; [exact (Hst Hc)|exact Hdt]. }
    destruct (c_notify (s_cf t)); try (apply wp_ret; apply G2; [apply P_refl, HR1|exact HK1|exact Ht]).
    apply wp_op. apply G2.
    + apply (P_cond r w1 (OpSetPath (cond_path (pidcond t)))); [exact HR1|].
      apply (cw_pidpath calm e w1 k t). intros Hc. exists t. split; [exact Ht|]. split; [reflexivity|]. split; [exact (Hst Hc)|exact Hdt].
    + exact HK1.
    + exact Ht.
Qed.

Lemma step_switch_spec k s r w : reach w -> L w k s -> Kr k r w -> Rg k w ->
  wp (step_switch rec k s (wc w)) (fun _ => P r w) w.
Proof.
  intros H1 H2 H3 H4. unfold step_switch. destruct (s_state s) eqn:Es.
  - apply step_halted_spec; auto.
  - apply step_done_spec; auto.
  - apply P_refl, H1.
  - apply step_cleanup_spec; auto.
  - apply step_teardown_spec; auto.
  - apply step_stopping_spec; auto.
  - apply step_setup_spec; auto.
  - apply step_paused_spec; auto.
  - apply step_waiting_spec; auto.
  - apply step_starting_spec; auto.
  - apply step_running_spec; auto.
Qed.

Lemma sched_spec b r w : reach w -> wp (sched b) (fun _ => P r w) w.
Proof.
  intros H1. unfold sched. apply wp_when_P; [apply P_refl, H1|]. intros _. apply wp_modc.
  apply P_glob; [exact H1|apply m_work|].
  apply globl_wmod; [split; reflexivity|intros; cbn; tauto|apply globl_refl].
Qed.

Lemma service_step_spec k ch wa r w : reach w -> Kr k r w -> Rg k w ->
  wp (service_step rec k ch wa) (fun _ => P r w) w.
Proof.
  intros H1 H2 H3. unfold service_step.
  apply wp_with_svc; [|intros HN; exact (wp_uaf k r w H1 (not_unreg _ _ H3 HN) HN)].
  intros s Hs. change (L w k s) in Hs. apply wp_bind, wp_getc, wp_bind.
  eapply wp_mono; [apply step_switch_spec; eauto|]. intros d w1 HP. cbn beta in HP.
  assert (HR : reach w1) by (eapply P_reach, HP).
  apply wp_P_from; [exact HP|].
  destruct d; [apply sched_spec, HR|].
  apply wp_bind, wp_getc.
  apply wp_with_svc; [|intros HN; exact (wp_uaf k r w1 HR (not_lost _ _ _ _ _ HP Hs HN) HN)].
  intros s' Hs'. destruct (negb (st_eqb (s_state s') (s_state s))).
  - apply Rstep; [exact HR|eapply Kr_P; eauto|eapply Rg_P; eauto].
  - apply sched_spec, HR.
Qed.

(** loops *)
Lemma wp_loop (I : world -> Prop) l f :
  (forall k w, In k l -> I w -> wp (f k) (fun _ => I) w) ->
  forall w, I w -> wp (foreach l f) (fun _ => I) w.
Proof.
  induction l as [|x l IH]; intros Hf w Hw; cbn [foreach].
  - exact Hw.
  - apply wp_bind. eapply wp_mono; [apply Hf; [left; reflexivity|exact Hw]|].
    intros a w1 H1. apply IH; [|exact H1]. intros; apply Hf; [right|]; assumption.
Qed.

Lemma Kr_0 k w : Kr k 0 w. Proof. intros Hc s Hs. lia. Qed.

Lemma step_all_spec m w : reach w -> wp (step_all rec m) (fun _ => P 0 w) w.
Proof.
  intros H1. unfold step_all. apply wp_bind, wp_getc.
  apply (wp_loop (P 0 w)); [|apply P_refl, H1].
  intros k w1 _ HP. apply wp_bind, wp_getc. destruct (find_key k (k_svcs (wc w1))) eqn:Ef; [|exact HP].
  apply wp_when_P; [exact HP|]. intros _. apply wp_P_from; [exact HP|].
  apply Rstep; [eapply P_reach, HP|apply Kr_0|eapply Rg_find, Ef].
Qed.

Lemma cond_update_spec n r w : reach w -> Cr n r -> wp (cond_update rec n) (fun _ => P r w) w.
Proof.
  intros H1 H2. unfold cond_update. apply wp_bind, wp_getc.
  apply (wp_loop (P r w)); [|apply P_refl, H1].
  intros k w1 _ HP. assert (HR : reach w1) by (eapply P_reach, HP).
  apply wp_bind, wp_getc. destruct (find_key k (k_svcs (wc w1))) as [s|] eqn:Ef; [|exact HP].
  pose proof (Rg_find _ _ _ Ef) as Hrg. apply find_lookup in Ef. change (L w1 k s) in Ef.
  destruct (has_cond s && cond_affects n (c_cond (s_cf s))) eqn:Ea; [|exact HP].
  apply andb_prop in Ea. destruct Ea as [_ Ea].
  assert (HK : Kr k r w1).
  { intros Hc t Ht. rewrite (L_fun _ _ _ _ Ht Ef). eapply H2; eauto. }
  apply wp_P_from; [exact HP|].
  apply wp_bind. apply wp_when.
  - intros Hb. apply andb_prop in Hb. destruct Hb as [Hb1 Hb2].
    apply blk_eqb_eq in Hb1. apply cs_eqb_eq in Hb2.
    apply wp_bind, wp_upd, wp_upd.
    assert (HP2 : P r w1 (wblock k BNone (wcancel k w1))).
    { apply (P_mic k r); auto; [eapply m_cu_unblock; eauto|loc]. }
    eapply wp_mono; [apply Rstep; [eapply P_reach, HP2|eapply Kr_P; eauto|eapply Rg_P; eauto]|].
    intros a w2 H. eapply P_trans; eauto.
  - intros _. apply Rstep; auto.
Qed.

(** ** the runlevel state machine and what it calls *)

Definition G (w w' : world) : Prop := reach w' /\ (calm -> same_glob w w').
Lemma G_refl w : reach w -> G w w.
Proof. intros H. split; [exact H|intros _; apply same_refl]. Qed.
Lemma G_trans a b c : G a b -> G b c -> G a c.
Proof. intros [A1 A2] [B1 B2]. split; [exact B1|]. intros Hc. eapply same_trans; eauto. Qed.
Lemma P_G r w w' : P r w w' -> G w w'.
Proof. intros (A & _ & B & _). split; [exact A|]. intros Hc. destruct (B Hc). assumption. Qed.
Lemma G_mic w w' : reach w -> mic w w' -> same_glob w w' -> G w w'.
Proof. intros H1 H2 H3. split; [eapply reach_mic; eauto|auto]. Qed.
Lemma good_G w w' : good w -> G w w' -> good w'.
Proof. intros H1 [H2 H3]. eapply good_same; eauto. Qed.
Lemma wp_Ggood {A} (m : ST A) w : good w -> wp m (fun _ => G w) w -> wp m (fun _ => good) w.
Proof. intros H H1. eapply wp_mono; [exact H1|]. intros a w' HP. eapply good_G; eauto. Qed.
Lemma wp_Pgood {A} (m : ST A) r w : good w -> wp m (fun _ => P r w) w -> wp m (fun _ => good) w.
Proof. intros H H1. eapply wp_mono; [exact H1|]. intros a w' HP. exact (good_P _ _ _ H HP). Qed.
Lemma G_reach w w' : G w w' -> reach w'. Proof. intros [A _]; exact A. Qed.
Lemma wp_PG {A} (m : ST A) r w : wp m (fun _ => P r w) w -> wp m (fun _ => G w) w.
Proof. intros H. eapply wp_mono; [exact H|]. intros a w' HP. eapply P_G, HP. Qed.
Lemma wp_G_from {A} (m : ST A) w0 w :
  G w0 w -> wp m (fun _ => G w) w -> wp m (fun _ => G w0) w.
Proof. intros H1 H2. eapply wp_mono; [exact H2|]. intros a w' H. eapply G_trans; eauto. Qed.
Lemma wp_Gseq {A B} (m : ST A) (f : A -> ST B) w0 w (Q : B -> world -> Prop) :
  wp m (fun _ => G w0) w -> (forall a w', G w0 w' -> wp (f a) Q w') -> wp (bind m f) Q w.
Proof. intros H1 H2. apply wp_bind. eapply wp_mono; [exact H1|]. auto. Qed.
Lemma wp_when_G b m w0 w :
  G w0 w -> (b = true -> wp m (fun _ => G w0) w) -> wp (when b m) (fun _ => G w0) w.
Proof. intros H1 H2. apply wp_when; auto. Qed.

Ltac sg := unfold same_glob; cbn; tauto.

(** ... and registers nothing that is to be deleted *)
Definition N (w w' : world) : Prop := G w w' /\ (calm -> none_removed (wc w) -> none_removed (wc w')).
Lemma N_refl w : reach w -> N w w.
Proof. intros H. split; [apply G_refl, H|auto]. Qed.
Lemma N_trans a b c : N a b -> N b c -> N a c.
Proof. intros [A1 A2] [B1 B2]. split; [eapply G_trans; eauto|auto]. Qed.
Lemma N_G w w' : N w w' -> G w w'.
Proof. intros [A _]. exact A. Qed.
Lemma P_N r w w' : P r w w' -> N w w'.
Proof.
  intros H. split; [eapply P_G, H|]. destruct H as (_ & _ & B & C & _). intros Hc Hn k s' Hs'.
  destruct (B Hc) as [_ Hk]. destruct (find_key k (k_svcs (wc w))) as [s|] eqn:Ef.
  - destruct (C Hc k s' (find_lookup _ _ _ Hs')) as (t & A1 & A2 & A3 & A4). pose proof (find_lookup _ _ _ Ef) as A5.
    assert (t = s) by (unfold L in A1; congruence). subst t. rewrite A4. exact (Hn k s Ef).
  - exfalso. apply find_key_in in Hs'. destruct Hs' as [I1 I2].
    assert (I3 : In k (keys (wc w))) by (rewrite <- Hk; unfold keys; rewrite <- I2; apply in_map, I1).
    unfold keys in I3. apply in_map_iff in I3. destruct I3 as (t & T1 & T2).
    pose proof (find_none _ _ Ef t T2) as X. cbv beta in X. rewrite T1, Nat.eqb_refl in X. discriminate X.
Qed.
Lemma N_mic w w' : reach w -> mic w w' -> same_glob w w' -> k_svcs (wc w') = k_svcs (wc w) -> N w w'.
Proof. intros H1 H2 H3 H4. split; [apply G_mic; assumption|]. unfold none_removed. rewrite H4. auto. Qed.
Lemma N_reach w w' : N w w' -> reach w'. Proof. intros [A _]. eapply G_reach, A. Qed.
Lemma wp_PN {A} (m : ST A) r w : wp m (fun _ => P r w) w -> wp m (fun _ => N w) w.
Proof. intros H. eapply wp_mono; [exact H|]. intros a w' HP. eapply P_N, HP. Qed.
Lemma wp_NG {A} (m : ST A) w : wp m (fun _ => N w) w -> wp m (fun _ => G w) w.
Proof. intros H. eapply wp_mono; [exact H|]. intros a w' HP. eapply N_G, HP. Qed.
Lemma wp_N_from {A} (m : ST A) w0 w : N w0 w -> wp m (fun _ => N w) w -> wp m (fun _ => N w0) w.
Proof. intros H1 H2. eapply wp_mono; [exact H2|]. intros a w' H. eapply N_trans; eauto. Qed.
Lemma wp_Nseq {A B} (m : ST A) (f : A -> ST B) w0 w (Q : B -> world -> Prop) :
  wp m (fun _ => N w0) w -> (forall a w', N w0 w' -> wp (f a) Q w') -> wp (bind m f) Q w.
Proof. intros H1 H2. apply wp_bind. eapply wp_mono; [exact H1|]. auto. Qed.
Lemma wp_when_N b m w0 w :
  N w0 w -> (b = true -> wp m (fun _ => N w0) w) -> wp (when b m) (fun _ => N w0) w.
Proof. intros H1 H2. apply wp_when; auto. Qed.
Lemma step_all_N m w : reach w -> wp (step_all rec m) (fun _ => N w) w.
Proof. intros H. eapply wp_PN, step_all_spec, H. Qed.

Lemma step_all_G m w : reach w -> wp (step_all rec m) (fun _ => G w) w.
Proof. intros H. eapply wp_PG, step_all_spec, H. Qed.

Lemma clean_bootstrap_spec k w : reach w -> Rg k w -> wp (clean_bootstrap k) (fun _ => G w) w.
Proof.
  intros H Hrg. unfold clean_bootstrap.
  apply wp_with_svc; [|intros HN; exact (P_G 0%nat _ _ (wp_uaf k _ w H (not_unreg _ _ Hrg HN) HN))].
  intros s Hs. apply wp_when_G; [apply G_refl, H|]. intros Hb.
  pose proof (m_del_boot calm e w k s Hs Hb) as M.
  apply wp_bind. apply wp_when; intros Ep.
  - apply negb_true_iff in Ep. rewrite Ep in M. apply wp_emit, wp_bind, wp_upd. unfold svc_del. apply wp_modc.
    apply G_mic; [exact H|exact M|].
    unfold same_glob, wmod; cbn [wc]. unfold c_del. destruct (find_key k _); cbn; tauto.
  - apply negb_false_iff in Ep. rewrite Ep in M. apply wp_bind, wp_upd. unfold svc_del. apply wp_modc.
    apply G_mic; [exact H|exact M|].
    unfold same_glob, wmod; cbn [wc]. unfold c_del. destruct (find_key k _); cbn; tauto.
Qed.

Lemma script_del_spec p w : reach w -> 1 < p -> find_pid p (k_svcs (wc w)) = None ->
  wp (script_del p) (fun _ => G w) w.
Proof.
  intros H1 Hp Hf. unfold script_del. apply wp_bind, wp_getc.
  destruct (find (fun a => Z.eqb (fst a) p) (k_assoc (wc w))) as [[q k]|] eqn:Ea; [|apply G_refl, H1].
  pose proof (m_script_del calm e w p q k Ea Hf Hp) as M.
  apply wp_bind. apply wp_with_svc.
  - intros s Hs. rewrite Hs in M. apply wp_upd, wp_bind, wp_kill, wp_modc.
    apply G_mic; [exact H1|exact M|sg].
  - intros Hs. rewrite Hs in M. apply wp_bind, wp_kill, wp_modc.
    apply G_mic; [exact H1|exact M|sg].
Qed.

Lemma keys_wupd k f w : (forall s, s_key (f s) = s_key s) -> keys (wc (wupd k f w)) = keys (wc w).
Proof. intros Hf. apply map_key_keys, Hf. Qed.
Ltac kk := unfold wcleanup, wcancel; repeat first
  [ reflexivity
  | match goal with |- keys (wc (wemit _ ?w)) = _ => change (keys (wc (wemit _ w))) with (keys (wc w)) end
  | rewrite keys_wupd; [|keyid] ].

Lemma monitor_any (g : world -> Prop) p st w : (forall w, good_sm w -> wp (rec CSm) (fun _ => g) w) ->
  (p <= 1 -> g w) -> (1 < p -> find_pid p (k_svcs (wc w)) = None -> wp (script_del p) (fun _ => g) w) ->
  (forall s, 1 < p -> find_pid p (k_svcs (wc w)) = Some s -> good (w_collect p st s w)) ->
  wp (service_monitor rec p st) (fun _ => g) w.
Proof.
  intros HG HB HD HC. unfold service_monitor. destruct (p <=? 1) eqn:Ep; [apply HB; lia|].
  assert (Hp : 1 < p) by lia. apply wp_bind, wp_getc.
  destruct (find_pid p (k_svcs (wc w))) as [s|] eqn:Ef.
  2:{ apply HD; auto. }
  specialize (HC s Hp eq_refl). cbv zeta.
  assert (Hrg : Rg (s_key s) w).
  { intros _. apply find_some in Ef. apply in_map, Ef. }
  assert (G1 : forall w2, good w2 -> keys (wc w2) = keys (wc w) ->
     wp (rec (CStep (s_key s) false false) ;;; clean_bootstrap (s_key s) ;;; rec CSm) (fun _ => g) w2).
  { intros w2 H2 E2. apply wp_bind.
    eapply wp_mono; [apply (Rstep (s_key s) false false w2 0 (good_reach _ H2)); [apply Kr_0|exact (Rg_keys _ _ _ Hrg E2)]|].
    intros a3 w3 HP3. apply wp_bind. eapply wp_mono; [apply clean_bootstrap_spec; [exact (P_reach _ _ _ HP3)|exact (Rg_P _ _ _ _ (Rg_keys _ _ _ Hrg E2) HP3)]|].
    intros a4 w4 HG4. apply HG, good_to_do. eapply good_G; [|exact HG4]. exact (good_P _ _ _ H2 HP3). }
  assert (G2 : forall w2, good (if p =? k_runblk (wc w2) then wmod (set_k_runblk 0) (wclean (s_key s) w2) else w2) -> keys (wc w2) = keys (wc w) ->
     wp (c <- getc ;; when (p =? k_runblk c) (mark_clean (s_key s) ;;; modc (set_k_runblk 0)) ;;;
         rec (CStep (s_key s) false false) ;;; clean_bootstrap (s_key s) ;;; rec CSm) (fun _ => g) w2).
  { intros w2 H2 E2. apply wp_bind, wp_getc, wp_bind.
    apply wp_when; intros Eb; rewrite Eb in H2.
    - apply wp_bind, wp_upd, wp_modc. apply G1; [exact H2|].
      rewrite <- E2. apply map_key_keys. reflexivity.
    - apply G1; [exact H2|exact E2]. }
  unfold w_collect in HC. cbv zeta in HC.
  apply wp_bind, wp_emit, wp_bind.
  destruct (is_script_state (s_state s)).
  - apply wp_bind. apply wp_when; intros Es; rewrite Es in HC.
    + apply wp_upd, wp_bind, wp_upd, wp_bind, wp_kill, wp_upd. apply G2; [exact HC|kk].
    + apply wp_bind, wp_upd, wp_bind, wp_kill, wp_upd. apply G2; [exact HC|kk].
  - apply wp_bind, wp_upd. destruct (c_forking (s_cf s) && s_starting s).
    + apply wp_upd. apply G2; [exact HC|kk].
    + apply wp_bind, wp_kill, wp_bind. destruct (is_daemon s || is_tty s).
      * unfold service_cleanup. apply wp_bind, wp_upd, wp_upd, wp_upd. apply G2; [exact HC|kk].
      * apply wp_upd, wp_upd. apply G2; [exact HC|kk].
Qed.

Lemma monitor_gen p st w :
  (p <= 1 \/ find_pid p (k_svcs (wc w)) = None -> good w) ->
  (forall s, 1 < p -> find_pid p (k_svcs (wc w)) = Some s -> good (w_collect p st s w)) ->
  wp (service_monitor rec p st) (fun _ => good) w.
Proof.
  intros HB HC. apply monitor_any; [exact Rsm|auto| |exact HC].
  intros Hp Hf. apply wp_Ggood; [auto|apply script_del_spec; auto]. apply good_reach; auto.
Qed.

Lemma collect_same p st s w : same_glob w (w_collect p st s w).
Proof.
  unfold w_collect. cbv zeta.
  assert (T : forall w', same_glob w w' ->
     same_glob w (if p =? k_runblk (wc w') then wmod (set_k_runblk 0) (wclean (s_key s) w') else w')).
  { intros w' H. destruct (_ =? _); [|exact H]. eapply same_trans; [exact H|]. sg. }
  apply T. destruct (is_script_state (s_state s)); [destruct (st_eqb _ _); sg|].
  destruct (_ && _); [sg|]. destruct (_ || _); sg.
Qed.

Lemma monitor_spec p st w : good w -> alive (wc w) p = false ->
  wp (service_monitor rec p st) (fun _ => good) w.
Proof.
  intros H1 H2. apply monitor_gen; [auto|].
  intros s Hp Hf. eapply good_mic; [exact H1|apply collect_same|]. eapply m_collect; eauto.
Qed.

Definition gone_ok (s : svc) : Prop := s_state s = Dead \/ s_state s = Done /\ is_runtask s = true.

Lemma del_incl k f l : (forall s, s_key (f s) = s_key s) ->
  incl (filter (fun t => negb (Nat.eqb (s_key t) k)) (map_key k f l)) l.
Proof.
  intros Hf x Hx. apply filter_In in Hx. destruct Hx as [Hx Hn]. apply in_map_iff in Hx.
  destruct Hx as (y & A & B). destruct (Nat.eqb (s_key y) k) eqn:Ey.
  - rewrite <- A, Hf, Ey in Hn. discriminate.
  - rewrite <- A. exact B.
Qed.

Lemma find_del k f l : (forall s, s_key (f s) = s_key s) ->
  find_key k (filter (fun t => negb (Nat.eqb (s_key t) k)) (map_key k f l)) = None /\
  (forall j, j <> k -> find_key j (filter (fun t => negb (Nat.eqb (s_key t) k)) (map_key k f l)) = find_key j l).
Proof.
  intros Hf. unfold find_key, map_key. induction l as [|x l [IH1 IH2]]; [split; reflexivity|]. cbn [map filter find].
  destruct (Nat.eqb (s_key x) k) eqn:Ex.
  - rewrite Hf, Ex. cbn [negb]. split; [exact IH1|]. intros j Hj. rewrite (IH2 j Hj).
    destruct (Nat.eqb_spec (s_key x) j) as [Ej|Ej]; [|reflexivity]. apply Nat.eqb_eq in Ex. congruence.
  - rewrite Ex. cbn [negb find]. rewrite Ex. split; [exact IH1|]. intros j Hj. rewrite (IH2 j Hj). reflexivity.
Qed.

Lemma unregister_spec k s w : reach w -> find_key k (k_svcs (wc w)) = Some s -> s_removed s = true ->
  gone_ok s -> wp (unregister rec k) (fun _ w' => G w w' /\ incl (k_svcs (wc w')) (k_svcs (wc w)) /\
    (clean_pending (wc w) = false -> clean_pending (wc w') = false) /\
    find_key k (k_svcs (wc w')) = None /\ (forall j, j <> k -> find_key j (k_svcs (wc w')) = find_key j (k_svcs (wc w)))) w.
Proof.
  intros H1 H2 H3 H4. unfold unregister. apply wp_bind.
  assert (HN : wp (service_stop rec k) (fun _ w' => w' = w) w).
  { unfold service_stop. pose proof (find_lookup _ _ _ H2) as H2'. apply wp_with_svc; [|congruence].
    intros s0 Hs0. replace s0 with s in * by congruence. clear Hs0.
    destruct H4 as [H4|[H4 _]]; rewrite H4; reflexivity. }
  eapply wp_mono; [exact HN|]. intros a w1 ->. apply wp_bind, wp_upd. unfold svc_del. apply wp_modc.
  split.
  - apply G_mic; [exact H1|eapply (m_unreg calm e w k); eauto|].
    unfold same_glob, wmod; cbn [wc]. unfold c_del. destruct (find_key k (k_svcs (wc (wupd k (set_s_timer TmNone) w)))); cbn; tauto.
  - unfold wmod, wupd, cupd, clean_pending, enabled. cbn [wc k_svcs set_k_svcs set_k_gc wmod].
    rewrite find_map_key by reflexivity. rewrite Nat.eqb_refl, H2.
    cbn [option_map k_svcs set_k_svcs set_k_gc k_rl k_cond k_boot].
    split; [apply del_incl; reflexivity|]. split; [|apply find_del; reflexivity].
    rewrite <- !not_true_iff_false. intros HA HB. apply HA. apply existsb_exists in HB.
    destruct HB as (x & B1 & B2). apply existsb_exists. exists x. split; [|exact B2].
    revert B1. apply del_incl. reflexivity.
Qed.

Lemma clean_dynamic_spec w : reach w -> clean_pending (wc w) = false ->
  wp (clean_dynamic rec) (fun _ w' => (G w w' /\ clean_pending (wc w') = false) /\ none_removed (wc w')) w.
Proof.
  intros H1 H2. unfold clean_dynamic. apply wp_bind, wp_getc.
  assert (HD : forall s, In s (k_svcs (wc w)) -> s_removed s = true -> gone_ok s).
  { intros s Hs Hr. unfold clean_pending in H2.
    destruct (st_eqb (s_state s) Dead) eqn:Ed; [left; apply st_eqb_eq, Ed|].
    destruct (is_runtask s && st_eqb (s_state s) Done) eqn:Eo.
    { apply andb_prop in Eo. destruct Eo as [A B]. right. split; [apply st_eqb_eq, B|exact A]. }
    exfalso. rewrite <- not_true_iff_false in H2. apply H2. apply existsb_exists. exists s.
    split; [exact Hs|]. rewrite Hr, Ed, Eo. unfold enabled. rewrite Hr. cbn [negb].
    rewrite !andb_false_r. reflexivity. }
  assert (HK : forall l w1, G w w1 -> clean_pending (wc w1) = false -> incl (k_svcs (wc w1)) (k_svcs (wc w)) ->
    (forall j s, find_key j (k_svcs (wc w1)) = Some s -> s_removed s = true -> In j l) ->
    wp (foreach l (fun k => c <- getc ;; match find_key k (k_svcs c) with
                                         | Some s => when (s_removed s) (unregister rec k) | None => ret tt end))
       (fun _ w' => (G w w' /\ clean_pending (wc w') = false) /\ none_removed (wc w')) w1).
  { induction l as [|k l IH]; intros w1 HG HN HI HL; cbn [foreach].
    { apply wp_ret. split; [split; assumption|]. intros j s Hf. destruct (s_removed s) eqn:Er; [|reflexivity].
      destruct (HL j s Hf Er). }
    apply wp_bind, wp_bind, wp_getc.
    destruct (find_key k (k_svcs (wc w1))) as [s|] eqn:Ef.
    2:{ apply wp_ret, IH; auto. intros j t Hj Ht. destruct (HL j t Hj Ht) as [<-|X]; [congruence|exact X]. }
    apply wp_when; intros Hr.
    2:{ apply IH; auto. intros j t Hj Ht. destruct (HL j t Hj Ht) as [<-|X]; [congruence|exact X]. }
    eapply wp_mono; [eapply unregister_spec; eauto; [eapply G_reach, HG|]|].
    - apply HD; [|exact Hr]. apply HI. apply find_key_in in Ef. tauto.
    - intros a w2 (HG2 & HI2 & HN2 & HF2 & HJ2). apply IH; [eapply G_trans; eauto|auto|eapply incl_tran; eauto|].
      intros j t Hj Ht. destruct (Nat.eq_dec j k) as [->|Hne]; [congruence|]. rewrite (HJ2 j Hne) in Hj.
      destruct (HL j t Hj Ht) as [<-|X]; [contradiction|exact X]. }
  apply HK; [apply G_refl, H1|exact H2|apply incl_refl|].
  intros j s Hf _. apply find_key_in in Hf. destruct Hf as [A <-]. unfold keys. apply in_map, A.
Qed.

Lemma pidfile_reconf_N w : reach w -> wp (pidfile_reconf rec) (fun _ => N w) w.
Proof.
  intros H1. unfold pidfile_reconf. apply wp_bind, wp_getc.
  apply wp_Nseq with (w0 := w); [|intros a w' HG; apply wp_N_from; [exact HG|apply step_all_N; eapply N_reach, HG]].
  apply (wp_loop (N w)); [|apply N_refl, H1].
  intros k w1 _ HG. apply wp_bind, wp_getc.
  destruct (find_key k (k_svcs (wc w1))) as [s|] eqn:Ef; [|exact HG].
  destruct (st_eqb (s_state s) Running && negb (s_dirty s) && negb (s_starting s)) eqn:Egd; [|exact HG].
  apply andb_prop in Egd. destruct Egd as [Egd _]. apply andb_prop in Egd. destruct Egd as [Est Edt].
  apply st_eqb_eq in Est. apply negb_true_iff in Edt.
  pose proof (find_lookup _ _ _ Ef) as Hls. change (L w1 k s) in Hls.
  assert (G1 : forall w2, N w w2 -> (calm -> exists s', L w2 k s' /\ s_cf s' = s_cf s /\ s_state s' = s_state s /\ s_dirty s' = s_dirty s) -> wp (c <- getc ;; if cs_eqb (cond_get (k_cond c) (pidcond s)) COn then ret tt
                 else c_op (OpSetPath (cond_path (pidcond s)))) (fun _ => N w) w2).
  { intros w2 H2 HL2. apply wp_bind, wp_getc.
    destruct (cs_eqb (cond_get (k_cond (wc w2)) (pidcond s)) COn); [exact H2|]. apply wp_op.
    eapply N_trans; [exact H2|].
    eapply P_N, (P_cond 0 w2 (OpSetPath (cond_path (pidcond s)))); [eapply N_reach, H2|].
    apply (cw_pidpath calm e w2 k s). intros Hc. destruct (HL2 Hc) as (s' & A & B & C & D).
    exists s'. split; [exact A|]. split; [exact B|]. split; congruence. }
  apply wp_bind.
  destruct (c_notify (s_cf s)); try (apply wp_ret; apply G1; [exact HG|intros _; exists s; auto]).
  assert (HW : true = true -> forall t, L w1 k t -> readywhy calm e k t)
    by (intros _ t Ht; rewrite (L_fun _ _ _ _ Ht Hls); apply rw_clean; auto).
  eapply wp_mono; [apply wp_conj; [apply (service_ready_spec k true 0 w1); [eapply N_reach, HG|apply Kr_0|exact (not_unreg _ _ (Rg_find _ _ _ Ef))|exact HW]|
    apply (service_ready_keeps k s w1); [eapply N_reach, HG|exact Hls|exact (HW eq_refl s Hls)]]|].
  intros a w2 [HP HK]. apply G1; [eapply N_trans; [exact HG|eapply P_N, HP]|exact HK].
Qed.

Lemma run_hook_N h w : reach w -> wp (run_hook rec h) (fun _ => N w) w.
Proof.
  intros H1. unfold run_hook. apply wp_bind, wp_emit.
  assert (HG : N w (wemit (EHook (hook_no h)) w)) by (apply N_mic; [exact H1|apply m_hook|sg|reflexivity]).
  apply wp_Nseq with (w0 := w).
  - apply wp_N_from; [exact HG|].
    destruct h; try (apply wp_ret, N_refl; eapply N_reach, HG).
    apply pidfile_reconf_N. eapply N_reach, HG.
  - intros a1 w1 HG1. apply wp_Nseq with (w0 := w).
    + apply wp_N_from; [exact HG1|]. eapply wp_PN, (c_oneshot_spec _ _ 0);
        [eapply N_reach, HG1|apply cw_hook|apply Cr_0].
    + intros a2 w2 HG2. apply wp_N_from; [exact HG2|]. apply step_all_N. eapply N_reach, HG2.
Qed.

Lemma run_hook_spec h w : reach w -> wp (run_hook rec h) (fun _ => G w) w.
Proof. intros H. apply wp_NG, run_hook_N, H. Qed.

Lemma register_spec r w : reach w -> In r (k_conf (wc w)) -> (exists c l, wl w = (c, EReconf) :: l) ->
  wp (register r) (fun _ w' => G w w' /\ k_conf (wc w') = k_conf (wc w) /\ wl w' = wl w) w.
Proof.
  intros H1 H2 H0. unfold register. apply wp_bind, wp_getc.
  assert (G0 : G w w /\ k_conf (wc w) = k_conf (wc w) /\ wl w = wl w) by (split; [apply G_refl, H1|auto]).
  destruct (ifthen_conf (k_svcs (wc w)) (c_ifconf (r_cfg r))) eqn:E1; cbn [negb]; [|exact G0].
  destruct (only_boot (c_levels (r_cfg r)) && negb (k_rl (wc w) =? 10)) eqn:E2; [exact G0|].
  destruct (mem_str (ident_of (c_name (r_cfg r)) (c_id (r_cfg r))) (k_unavail (wc w))) eqn:E3; [exact G0|].
  assert (Hok : reg_ok (wc w) r) by (repeat split; assumption).
  destruct (find_ident (c_name (r_cfg r)) (c_id (r_cfg r)) (k_svcs (wc w))) as [s0|] eqn:E4.
  - apply wp_upd. split; [|split; reflexivity].
    apply G_mic; [exact H1|exact (m_rereg calm e w r s0 H2 H0 E4 Hok)|sg].
  - apply wp_modc. split; [|split; reflexivity].
    apply G_mic; [exact H1|exact (m_new calm e w r H2 H0 E4 Hok)|sg].
Qed.

Lemma register_all_spec l w : reach w -> incl l (k_conf (wc w)) -> (exists c l, wl w = (c, EReconf) :: l) ->
  wp (register_all l) (fun _ w' => G w w' /\ wl w' = wl w) w.
Proof.
  revert w. induction l as [|r l IH]; intros w H1 H2 H0; cbn [register_all]; [split; [apply G_refl, H1|reflexivity]|].
  apply wp_bind. eapply wp_mono; [apply register_spec; [exact H1|apply H2; left; reflexivity|exact H0]|].
  intros a w1 (HG & HE & HW). eapply wp_mono; [apply IH; [eapply G_reach, HG| |rewrite HW; exact H0]|].
  - rewrite HE. intros x Hx. apply H2; right; exact Hx.
  - intros a2 w2 [HG2 HW2]. split; [eapply G_trans; eassumption|congruence].
Qed.

Lemma conf_reload_spec w : reach w -> (calm -> loading (wc w)) -> wp conf_reload (fun _ => G w) w.
Proof.
  intros H1 Hld. unfold conf_reload. apply wp_bind, wp_emit, wp_bind, wp_modc.
  assert (HG1 : G w (wmod (f_all (fun _ => svc_mark)) (wemit EReconf w))) by (apply G_mic; [exact H1|apply m_markall, Hld|sg]).
  apply wp_bind, wp_getc.
  set (top := fun w : world => exists c l, wl w = (c, EReconf) :: l).
  assert (T1 : top (wmod (f_all (fun _ => svc_mark)) (wemit EReconf w))) by (red; cbn [wl wmod wemit]; eauto).
  apply wp_bind. eapply wp_mono; [apply register_all_spec; [eapply G_reach, HG1|apply incl_refl|exact T1]|].
  intros a2 w2 [HG2 HW2].
  assert (J2 : G w w2) by exact (G_trans _ _ _ HG1 HG2).
  assert (T2 : top w2) by (unfold top; rewrite HW2; exact T1).
  apply wp_bind. apply wp_mono with (Q := fun _ v => G w v /\ top v).
  { unfold update_rdeps. apply wp_bind, wp_getc. apply (wp_loop (fun v => G w v /\ top v)); [|split; [exact J2|exact T2]].
    intros k w3 _ [HG3 HT3]. apply wp_bind, wp_getc.
    destruct (find_key k (k_svcs (wc w3))) as [s|] eqn:Ef; [|split; assumption].
    apply wp_when; intros Hb; [|split; assumption]. apply andb_prop in Hb. destruct Hb as [Hb1 Hb2].
    unfold upd_all. apply wp_modc. split; [|exact HT3]. eapply G_trans; [exact HG3|].
    apply G_mic; [eapply G_reach, HG3|exact (m_rdeps calm e w3 k s HT3 Ef Hb1 Hb2)|sg]. }
  intros a3 w3 [HG3 HT3]. apply wp_bind, wp_modc.
  assert (HG4 : G w (wmod (f_all f_unavail) w3)).
  { eapply G_trans; [exact HG3|]. apply G_mic; [eapply G_reach, HG3|apply m_markunavail; [exact HT3|]|sg]. intros Hc. destruct HG3 as [_ HG3]; specialize (HG3 Hc); destruct HG3 as (Esm & _). unfold loading. rewrite Esm. exact (Hld Hc). }
  apply wp_bind, wp_emit, wp_modc. eapply G_trans; [exact HG4|].
  apply G_mic; [eapply G_reach, HG4|apply m_confdone, HT3|sg].
Qed.

Lemma runtask_clean_spec w : reach w -> wp (runtask_clean rec) (fun _ => G w) w.
Proof.
  intros H1. unfold runtask_clean. apply wp_bind, wp_getc.
  apply (wp_loop (G w)); [|apply G_refl, H1].
  intros k w1 _ HG. apply wp_bind, wp_getc.
  destruct (find_key k (k_svcs (wc w1))) as [s|] eqn:Ef; [|exact HG].
  pose proof (Rg_in _ _ _ Ef) as Hin.
  apply find_lookup in Ef. change (L w1 k s) in Ef.
  apply wp_when_G; [exact HG|]. intros Hr. apply wp_bind, wp_upd.
  set (w2 := wupd k (set_s_once (if c_sighup (s_cf s) then 1 else 0)) w1).
  assert (HG2 : G w1 w2) by (apply G_mic; [eapply G_reach, HG|eapply m_rtonce; eauto|sg]).
  assert (HL2 : L w2 k (set_s_once (if c_sighup (s_cf s) then 1 else 0) s)) by (subst w2; lk).
  assert (HG3 : G w w2) by (eapply G_trans; eassumption).
  apply wp_when_G; [exact HG3|]. intros Hd. apply st_eqb_eq in Hd.
  apply wp_G_from; [exact HG3|]. eapply wp_PG.
  eapply (set_state_P k Halted w2 w2 _ 0); [eapply G_reach, HG2| |loc|exact HL2|apply Kr_0|].
  - eapply m_rthalt; [exact HL2|exact Hr|exact Hd|]. subst w2. rewrite keys_wupd by keyid. exact Hin.
  - intros _. lia.
Qed.

Lemma notify_reconf_N w : reach w -> wp (notify_reconf rec) (fun _ => N w) w.
Proof.
  intros H1. unfold notify_reconf. apply wp_bind, wp_getc.
  apply (wp_loop (N w)); [|apply N_refl, H1].
  intros k w1 _ HG. apply wp_bind, wp_getc.
  destruct (find_key k (k_svcs (wc w1))) as [s|] eqn:Ef; [|exact HG].
  pose proof (find_lookup _ _ _ Ef) as Hls. change (L w1 k s) in Hls.
  assert (HS : forall b, (b = true -> readywhy calm e k s) -> wp (when b (service_ready rec k true)) (fun _ => N w) w1).
  { intros b Hb. apply wp_when_N; [exact HG|]. intros Eb. apply wp_N_from; [exact HG|].
    eapply wp_PN, (service_ready_spec k true 0); [eapply N_reach, HG|apply Kr_0|exact (not_unreg _ _ (Rg_find _ _ _ Ef))|].
    intros _ t Ht. rewrite (L_fun _ _ _ _ Ht Hls). apply Hb, Eb. }
  assert (HC : (st_eqb (s_state s) Running && (negb (s_dirty s) && negb (s_starting s)) = true -> readywhy calm e k s)).
  { intros X. apply andb_prop in X. destruct X as [E1 X]. apply andb_prop in X. destruct X as [E2 _].
    apply st_eqb_eq in E1. apply negb_true_iff in E2. apply rw_clean. auto. }
  destruct (c_notify (s_cf s)) eqn:En; [|exact HG|apply HS, HC|apply HS, HC].
  apply HS. intros X. apply andb_prop in X. destruct X as [E1 _]. apply st_eqb_eq in E1. apply rw_plain; auto.
Qed.

Lemma do_shutdown_N w : reach w ->
  (k_rl (wc w) = 0 \/ k_rl (wc w) = 6) /\ clean_pending (wc w) = false \/ k_emerg (wc w) = true ->
  wp do_shutdown (fun _ => N w) w.
Proof.
  intros H1 H2. unfold do_shutdown. apply wp_bind, wp_getc, wp_bind, wp_emit, wp_modc.
  apply N_mic; [exact H1|apply m_shutdown, H2|sg|reflexivity].
Qed.
Lemma do_shutdown_spec w : reach w ->
  (k_rl (wc w) = 0 \/ k_rl (wc w) = 6) /\ clean_pending (wc w) = false \/ k_emerg (wc w) = true ->
  wp do_shutdown (fun _ => G w) w.
Proof. intros H1 H2. apply wp_NG, do_shutdown_N; assumption. Qed.

(** after one switch: the state machine may be asked to go on *)
Definition moved (w w' : world) : Prop :=
  good_sm w' /\ (calm -> k_sm (wc w) = SmRlChange -> k_sm (wc w') <> SmRlChange).

Lemma set_sm_spec s w0 w : reach w -> (calm -> sm_edge w s) -> s <> SmRlChange ->
  (calm -> k_nologin (wc w) = nologin_after (levels (wl w))) ->
  wp (set_sm s) (fun _ => moved w0) w.
Proof.
  intros H1 H2 H3 H4. unfold set_sm. apply wp_modc. split.
  - split; [eapply reach_mic; [exact H1|]; apply m_sm, H2|]. intros Hc. split; [|exact (H4 Hc)].
    intros Hs. cbn in Hs. contradiction.
  - intros _ _. exact H3.
Qed.
Lemma moved_good w0 w : good w -> (calm -> k_sm (wc w0) = SmRlChange -> k_sm (wc w) <> SmRlChange) -> moved w0 w.
Proof. intros H1 H2. split; [apply good_to_do, H1|exact H2]. Qed.


Ltac glob H :=
  let Hc := fresh "Hc" in
  intros Hc; destruct H as [_ H]; specialize (H Hc);
  destruct H as (? & ? & ? & ? & ? & ? & ? & ? & ? & ? & ? & ?).

Lemma G_nologin w w' : G w w' -> (calm -> k_nologin (wc w) = nologin_after (levels (wl w))) ->
  calm -> k_nologin (wc w') = nologin_after (levels (wl w')).
Proof.
  intros [_ H] H1 Hc. specialize (H1 Hc). destruct (H Hc) as (_ & _ & _ & _ & _ & _ & _ & _ & _ & E1 & E2 & _).
  congruence.
Qed.

Lemma sm_rlchange_spec w : good_sm w -> k_sm (wc w) = SmRlChange -> k_down (wc w) = false ->
  wp (sm_switch rec) (fun _ => moved w) w.
Proof.
  intros [H1 HT] Esm Ed. unfold sm_switch. apply wp_bind, wp_getc. rewrite Esm.
  apply wp_bind, wp_emit, wp_bind, wp_modc.
  set (w1 := wmod _ (wemit _ w)).
  assert (HR1 : reach w1).
  { eapply reach_mic; [exact H1|]. refine (m_rlchange calm e w Esm _).
    intros Hc. destruct (HT Hc) as [A _]. destruct (A Esm) as [B|B]; [congruence|exact B]. }
  assert (Hs1 : k_sm (wc w1) = SmRlChange) by exact Esm.
  assert (Hl1 : levels (wl w1) = (k_prev (wc w1), k_rl (wc w1)) :: levels (wl w)) by reflexivity.
  assert (Hn1 : k_nologin (wc w1) = k_nologin (wc w)) by reflexivity. clearbody w1.
  apply wp_bind, wp_getc.
  apply wp_Gseq with (w0 := w1).
  { apply wp_when_G; [apply G_refl, HR1|]. intros _. apply run_hook_spec, HR1. }
  intros a2 w2 HG2. apply wp_bind, wp_modc.
  change (wmod _ w2) with (wmod c_nologin w2). set (w3 := wmod c_nologin w2).
  assert (HR3 : reach w3).
  { eapply reach_mic; [eapply G_reach, HG2|]. apply m_nologin. glob HG2. congruence. }
  assert (E3 : k_sm (wc w3) = k_sm (wc w2) /\ levels (wl w3) = levels (wl w2) /\
     k_nologin (wc w3) = if restricted (k_prev (wc w2)) then false
                         else if restricted (k_rl (wc w2)) then true else k_nologin (wc w2)).
  { subst w3. unfold wmod; cbn [wc wl]. unfold c_nologin, restricted.
    destruct ((k_rl (wc w2) =? 1) || reserved (k_rl (wc w2))); cbv zeta; cbn [k_prev set_k_nologin];
      destruct ((k_prev (wc w2) =? 1) || reserved (k_prev (wc w2))); cbn; auto. }
  destruct E3 as (E3 & E4 & E5).
  assert (Hs3 : calm -> k_sm (wc w3) = SmRlChange) by (glob HG2; congruence).
  assert (Hn3 : calm -> k_nologin (wc w3) = nologin_after (levels (wl w3))).
  { intros Hc. destruct (HT Hc) as [_ B].
    destruct HG2 as [_ HG2]. destruct (HG2 Hc) as (_ & _ & C1 & C2 & _ & _ & _ & _ & _ & C3 & C4 & _).
    rewrite E5, E4, C4, Hl1, C1, C2, C3, Hn1, B. reflexivity. }
  clearbody w3. clear E3 E4 E5 HG2 w2 a2.
  apply wp_bind, wp_getc.
  apply wp_Gseq with (w0 := w3).
  { apply wp_when_G; [apply G_refl, HR3|]. intros _. apply conf_reload_spec; [exact HR3|]. intros Hc. right. left. exact (Hs3 Hc). }
  intros a4 w4 HG4. apply wp_Gseq with (w0 := w3).
  { apply wp_G_from; [exact HG4|]. apply runtask_clean_spec. eapply G_reach, HG4. }
  intros a5 w5 HG5. apply wp_bind, wp_modc, wp_bind, wp_emit.
  assert (HR6 : reach (wemit EStopBegin (wmod (set_k_inrl true) w5))).
  { eapply reach_mic; [eapply G_reach, HG5|]. apply m_inrl_on. intros Hc. specialize (Hs3 Hc).
    destruct HG5 as [_ HG5]. destruct (HG5 Hc) as (C & _). left; congruence. }
  assert (Hn6 : calm -> k_nologin (wc (wemit EStopBegin (wmod (set_k_inrl true) w5))) =
                        nologin_after (levels (wl (wemit EStopBegin (wmod (set_k_inrl true) w5)))))
    by exact (G_nologin _ _ HG5 Hn3).
  apply wp_Gseq with (w0 := wemit EStopBegin (wmod (set_k_inrl true) w5)); [apply step_all_G, HR6|]. intros a7 w7 HG7.
  apply set_sm_spec; [eapply G_reach, HG7| |discriminate|exact (G_nologin _ _ HG7 Hn6)].
  intros Hc. specialize (Hs3 Hc). destruct HG5 as [_ HG5], HG7 as [_ HG7]. specialize (HG5 Hc). specialize (HG7 Hc).
  destruct HG5 as (A1 & _), HG7 as (B1 & B2 & _). cbn in B1, B2.
  unfold sm_edge. replace (k_sm (wc w7)) with SmRlChange by congruence. exact B2.
Qed.

Lemma sm_switch_spec w : good_sm w -> k_down (wc w) = false -> wp (sm_switch rec) (fun _ => moved w) w.
Proof.
  intros HS Ed. destruct (k_sm (wc w)) eqn:Esm.
  4: { apply sm_rlchange_spec; assumption. }
  all: assert (HG : good w) by (destruct HS as [A B]; split; [exact A|]; intros Hc; destruct (B Hc) as [_ C];
                               split; [rewrite Esm; discriminate|exact C]).
  all: assert (HM : forall w', G w w' -> moved w w')
         by (intros w' HW; apply moved_good; [eapply good_G; eauto|rewrite Esm; discriminate]).
  all: assert (HNL : calm -> k_nologin (wc w) = nologin_after (levels (wl w)))
         by (intros Hc; apply HG, Hc).
  all: pose proof (good_reach _ HG) as H1; unfold sm_switch; apply wp_bind, wp_getc; rewrite Esm.
  - (* bootstrap *)
    apply wp_Gseq with (w0 := w); [apply step_all_G, H1|]. intros a1 w1 HG1.
    apply set_sm_spec; [eapply G_reach, HG1| |discriminate|exact (G_nologin _ _ HG1 HNL)].
    glob HG1. unfold sm_edge. replace (k_sm (wc w1)) with SmBootstrap by congruence. exact I.
  - (* bootstrap wait *)
    apply wp_Gseq with (w0 := w); [apply step_all_G, H1|]. intros a1 w1 HG1.
    apply wp_Gseq with (w0 := w).
    { apply wp_G_from; [exact HG1|]. eapply wp_PG, (c_oneshot_spec _ _ 0); [eapply G_reach, HG1|apply cw_boot|apply Cr_0]. }
    intros a2 w2 HG2. apply wp_bind, wp_getc. destruct (k_newl (wc w2) =? -1) eqn:En; [apply HM, HG2|].
    apply wp_Gseq with (w0 := w2); [apply run_hook_spec; eapply G_reach, HG2|]. intros a3 w3 HG3.
    apply wp_Gseq with (w0 := w2); [apply wp_G_from; [exact HG3|apply step_all_G; eapply G_reach, HG3]|].
    intros a4 w4 HG4. apply wp_bind, wp_modc.
    assert (HR5 : reach (wmod (set_k_boot false) w4)).
    { eapply reach_mic; [eapply G_reach, HG4|]. apply m_boot. intros Hc. destruct HG2 as [_ HG2], HG4 as [_ HG4].
      destruct (HG2 Hc) as (A1 & _), (HG4 Hc) as (B1 & _). congruence. }
    assert (Hn5 : calm -> k_nologin (wc (wmod (set_k_boot false) w4)) =
                          nologin_after (levels (wl (wmod (set_k_boot false) w4))))
      by exact (G_nologin _ _ (G_trans _ _ _ HG2 HG4) HNL).
    apply wp_Gseq with (w0 := wmod (set_k_boot false) w4); [apply step_all_G, HR5|]. intros a6 w6 HG6.
    apply set_sm_spec; [eapply G_reach, HG6| |discriminate|exact (G_nologin _ _ HG6 Hn5)].
    intros Hc. destruct HG2 as [_ HG2], HG4 as [_ HG4], HG6 as [_ HG6].
    specialize (HG2 Hc). specialize (HG4 Hc). specialize (HG6 Hc).
    destruct HG2 as (A1 & _), HG4 as (B1 & _ & _ & _ & B5 & _),
      HG6 as (C1 & _ & _ & _ & C5 & C6 & _).
    cbn in C1, C5, C6. unfold sm_edge. replace (k_sm (wc w6)) with SmBootstrapWait by congruence.
    split; [|congruence]. lia.
  - (* running *)
    apply wp_Gseq with (w0 := w); [apply step_all_G, H1|]. intros a1 w1 HG1.
    assert (HR1 : reach w1) by (eapply G_reach, HG1).
    assert (HN1 : calm -> k_nologin (wc w1) = nologin_after (levels (wl w1))) by exact (G_nologin _ _ HG1 HNL).
    assert (Hsm1 : calm -> k_sm (wc w1) = SmRunning) by (glob HG1; congruence).
    apply wp_bind, wp_getc.
    destruct ((0 <=? k_newl (wc w1)) && (k_newl (wc w1) <=? 9)) eqn:En.
    + destruct (k_rl (wc w1) =? k_newl (wc w1)) eqn:Er.
      * apply wp_modc. apply moved_good; [|rewrite Esm; discriminate].
        split; [eapply reach_mic; [exact HR1|]; apply m_newl_same; [exact Hsm1|lia]|].
        intros Hc. split; [intros Hx; cbn in Hx; rewrite (Hsm1 Hc) in Hx; discriminate|exact (HN1 Hc)].
      * unfold set_sm. apply wp_modc. split; [|rewrite Esm; discriminate].
        split; [eapply reach_mic; [exact HR1|]; apply m_sm; intros Hc; unfold sm_edge; rewrite (Hsm1 Hc); lia|].
        intros Hc. split; [|exact (HN1 Hc)]. intros _. right. cbn [k_newl k_rl wc wmod set_k_sm]. lia.
    + destruct (k_reload (wc w1)) eqn:Ere; [|apply HM, HG1].
      apply wp_bind, wp_modc, wp_modc. apply moved_good; [|rewrite Esm; discriminate].
      split; [eapply reach_mic; [exact HR1|]; apply m_reload_go; auto|].
      intros Hc. split; [discriminate|exact (HN1 Hc)].
  - (* runlevel wait *)
    destruct (stop_pending (wc w)) eqn:Esp; [apply HM, G_refl, H1|].
    apply wp_bind, wp_emit.
    assert (HR0 : reach (wemit EStopEnd w)) by (eapply reach_mic; [exact H1|]; apply m_stop_end; auto).
    apply wp_Gseq with (w0 := wemit EStopEnd w); [apply run_hook_spec, HR0|]. intros a1 w1 HG1.
    change (k_sm (wc w)) with (k_sm (wc (wemit EStopEnd w))) in Esm.
    apply wp_bind, wp_emit, wp_bind, wp_modc.
    assert (HR2 : reach (wmod (set_k_inrl false) (wemit EStartBegin w1))).
    { eapply reach_mic; [eapply G_reach, HG1|]. apply m_inrl_off. glob HG1. split; [left; congruence|].
      match goal with H : lastmark (wl w1) = _ |- _ => rewrite H end. reflexivity. }
    assert (HN2 : calm -> k_nologin (wc (wmod (set_k_inrl false) (wemit EStartBegin w1))) =
       nologin_after (levels (wl (wmod (set_k_inrl false) (wemit EStartBegin w1))))).
    { refine (G_nologin _ _ HG1 _). exact HNL. }
    apply wp_Gseq with (w0 := wmod (set_k_inrl false) (wemit EStartBegin w1)); [apply step_all_G, HR2|]. intros a3 w3 HG3.
    apply set_sm_spec; [eapply G_reach, HG3| |discriminate|exact (G_nologin _ _ HG3 HN2)].
    intros Hc. destruct HG1 as [_ HG1], HG3 as [_ HG3]. specialize (HG1 Hc). specialize (HG3 Hc).
    destruct HG1 as (A1 & _), HG3 as (B1 & B2 & _). cbn in B1, B2.
    unfold sm_edge. replace (k_sm (wc w3)) with SmRlWait by congruence. exact B2.
  - (* runlevel clean *)
    destruct (clean_pending (wc w)) eqn:Ecp; [apply HM, G_refl, H1|].
    apply wp_bind. eapply wp_mono; [apply clean_dynamic_spec; [exact H1|exact Ecp]|]. intros a1 w1 [[HG1 HN1] HD1].
    apply wp_bind, wp_getc. apply wp_Nseq with (w0 := w1).
    { apply wp_when_N; [apply N_refl; eapply G_reach, HG1|]. intros Hb.
      apply do_shutdown_N; [eapply G_reach, HG1|]. left. split; [lia|exact HN1]. }
    intros a2 w2 [HG2' HD2]. assert (HG2 : G w w2) by (eapply G_trans; eassumption). apply set_sm_spec; [eapply G_reach, HG2| |discriminate|exact (G_nologin _ _ HG2 HNL)]. glob HG2.
    unfold sm_edge. replace (k_sm (wc w2)) with SmRlClean by congruence. exact (HD2 Hc HD1).
  - (* reload *)
    apply wp_bind, wp_modc, wp_bind, wp_emit.
    assert (HR1 : reach (wemit EStopBegin (wmod (set_k_inrl true) w))).
    { eapply reach_mic; [exact H1|]. apply m_inrl_on. auto. }
    set (w1 := wemit EStopBegin (wmod (set_k_inrl true) w)) in *.
    assert (HN1 : calm -> k_nologin (wc w1) = nologin_after (levels (wl w1))) by exact HNL.
    apply wp_Gseq with (w0 := w1); [apply conf_reload_spec; [exact HR1|]; intros _; right; right; exact Esm|]. intros a2 w2 HG2.
    apply wp_Gseq with (w0 := w1); [apply wp_G_from; [exact HG2|apply step_all_G; eapply G_reach, HG2]|].
    intros a3 w3 HG3. apply wp_bind, wp_op.
    assert (HG4 : G w1 (wcond OpReload w3)).
    { eapply G_trans; [exact HG3|]. eapply P_G, (P_cond 0); [eapply G_reach, HG3|].
      apply cw_reload. glob HG3. replace (k_sm (wc w3)) with (k_sm (wc w1)) by congruence. exact Esm. }
    apply set_sm_spec; [eapply G_reach, HG4| |discriminate|exact (G_nologin _ _ HG4 HN1)].
    intros Hc. destruct HG4 as [_ HG4]. destruct (HG4 Hc) as (B1 & B2 & _).
    change (k_sm (wc w3) = k_sm (wc w)) in B1. change (k_inrl (wc w3) = true) in B2.
    change (sm_edge w3 SmReWait). unfold sm_edge. rewrite B1, Esm. exact B2.
  - (* reload wait *)
    destruct (stop_pending (wc w)) eqn:Esp; [apply HM, G_refl, H1|].
    apply wp_bind, wp_emit, wp_bind, wp_emit, wp_bind, wp_modc.
    assert (HR2 : reach (wmod (set_k_inrl false) (wemit EStartBegin (wemit EStopEnd w)))).
    { eapply reach_mic; [eapply reach_mic; [exact H1|]; apply m_stop_end; auto|]. apply m_inrl_off. intros _. split; [auto|reflexivity]. }
    assert (HN2 : calm -> k_nologin (wc (wmod (set_k_inrl false) (wemit EStartBegin (wemit EStopEnd w)))) =
       nologin_after (levels (wl (wmod (set_k_inrl false) (wemit EStartBegin (wemit EStopEnd w)))))) by exact HNL.
    apply wp_Gseq with (w0 := wmod (set_k_inrl false) (wemit EStartBegin (wemit EStopEnd w))); [apply step_all_G, HR2|]. intros a3 w3 HG3.
    apply set_sm_spec; [eapply G_reach, HG3| |discriminate|exact (G_nologin _ _ HG3 HN2)].
    intros Hc. destruct HG3 as [_ HG3]. specialize (HG3 Hc).
    destruct HG3 as (B1 & B2 & _). cbn in B1, B2.
    unfold sm_edge. replace (k_sm (wc w3)) with SmReWait by congruence. exact B2.
  - (* reload clean *)
    destruct (clean_pending (wc w)) eqn:Ecp; [apply HM, G_refl, H1|].
    apply wp_bind. eapply wp_mono; [apply clean_dynamic_spec; [exact H1|exact Ecp]|]. intros a1 w1 [[HG1 _] HD1].
    apply wp_Nseq with (w0 := w1); [apply run_hook_N; eapply G_reach, HG1|].
    intros a2 w2 HG2.
    apply wp_Nseq with (w0 := w1); [apply wp_N_from; [exact HG2|apply notify_reconf_N; eapply N_reach, HG2]|].
    intros a3 w3 [HG3' HD3]. assert (HG3 : G w w3) by (eapply G_trans; eassumption). apply set_sm_spec; [eapply G_reach, HG3| |discriminate|exact (G_nologin _ _ HG3 HNL)]. glob HG3.
    unfold sm_edge. replace (k_sm (wc w3)) with SmReClean by congruence. exact (HD3 Hc HD1).
Qed.

Lemma sm_step_spec w : good_sm w -> k_down (wc w) = false -> wp (sm_step rec) (fun _ => good) w.
Proof.
  intros H1 Hd. unfold sm_step. apply wp_bind, wp_getc, wp_bind.
  eapply wp_mono; [apply sm_switch_spec; assumption|]. intros a w1 [H2 H3].
  apply wp_bind, wp_getc. apply wp_when; intros Eb; [apply Rsm, H2|].
  split; [apply H2|]. intros Hc. destruct H2 as [_ H2]. destruct (H2 Hc) as [_ B]. split; [|exact B].
  intros Hs. exfalso. apply negb_false_iff in Eb.
  assert (Es : k_sm (wc w) = k_sm (wc w1)).
  { destruct (k_sm (wc w)), (k_sm (wc w1)); try discriminate Eb; reflexivity. }
  apply (H3 Hc); [congruence|exact Hs].
Qed.


(** ** event handlers that do not ask the runlevel state machine to go on *)
Section Keep.
(** what they keep: anything that depends on the global state only *)
Variable g : world -> Prop.
Hypothesis g_reach : forall w, g w -> reach w.
Hypothesis g_same : forall w w', g w -> reach w' -> (calm -> same_glob w w') -> g w'.
Hypothesis g_mon : forall p st w, g w -> alive (wc w) p = false -> wp (rec (CMonitor p st)) (fun _ => g) w.
Lemma g_mic w w' : g w -> same_glob w w' -> mic w w' -> g w'.
Proof. intros H1 H2 H3. eapply g_same; [exact H1|eapply reach_mic; [apply g_reach, H1|exact H3]|auto]. Qed.
Lemma g_P r w w' : g w -> P r w w' -> g w'.
Proof. intros H1 (H2 & _ & H3 & _). eapply g_same; [exact H1|exact H2|]. intros Hc. apply (H3 Hc). Qed.
Lemma g_G w w' : g w -> G w w' -> g w'.
Proof. intros H1 [H2 H3]. eapply g_same; eauto. Qed.
Lemma wp_Gg {A} (m : ST A) w : g w -> wp m (fun _ => G w) w -> wp m (fun _ => g) w.
Proof. intros H H1. eapply wp_mono; [exact H1|]. intros a w' HP. eapply g_G; eauto. Qed.
Lemma wp_Pg {A} (m : ST A) r w : g w -> wp m (fun _ => P r w) w -> wp m (fun _ => g) w.
Proof. intros H H1. eapply wp_mono; [exact H1|]. intros a w' HP. exact (g_P _ _ _ H HP). Qed.

Lemma after_step k w : g w -> Rg k w -> wp (rec (CStep k false false)) (fun _ => g) w.
Proof.
  intros H H'. apply (wp_Pg _ 0); [exact H|]. apply Rstep; [exact (g_reach _ H)|apply Kr_0|exact H'].
Qed.
Lemma reach_step_all m w : g w -> wp (step_all rec m) (fun _ => g) w.
Proof. intros H. apply wp_Gg; [exact H|]. apply step_all_G, g_reach, H. Qed.
Lemma step_then_all k m w : g w -> Rg k w ->
  wp (rec (CStep k false false) ;;; step_all rec m) (fun _ => g) w.
Proof.
  intros H Hg. apply wp_bind. eapply wp_mono; [apply after_step; [exact H|exact Hg]|].
  intros a w' H'. apply reach_step_all, H'.
Qed.
Lemma uaf_reach k w : g w -> ~ calm -> lookup_svc (wc w) k = None -> g (wemit (EUaf k) w).
Proof. intros H1 H2 H3. eapply g_P; [exact H1|]. apply (wp_uaf k 0); [apply g_reach, H1|auto|auto]. Qed.
Lemma when_reach b m w : g w -> (b = true -> wp m (fun _ => g) w) ->
  wp (when b m) (fun _ => g) w.
Proof. intros H1 H2. apply wp_when; auto. Qed.

Lemma service_kill_spec k s ms w : g w -> L w k s -> s_timer s = TmArmed TcKill ms ->
  wp (service_kill rec k) (fun _ => g) (wupd k (set_s_timer (TmStale TcKill)) w).
Proof.
  intros H1 H2 H3. pose proof (m_fired_kill calm e w k s ms H2 H3) as M. cbv zeta in M.
  unfold service_kill. apply wp_bind, wp_upd.
  change (wupd k (set_s_timer TmNone) ?x) with (wcancel k x).
  set (w1 := wcancel k (wupd k (set_s_timer (TmStale TcKill)) w)) in *.
  assert (HL : L w1 k (set_s_timer TmNone (set_s_timer (TmStale TcKill) s))) by (subst w1; lk).
  apply wp_with_svc; [|rewrite HL; discriminate].
  intros s0 Hs0. pose proof (L_fun _ _ _ _ HL Hs0) as <-. clear Hs0.
  apply wp_bind, wp_getc. cbn [s_pid set_s_timer].
  change (alive (wc w1) (s_pid s)) with (alive (wc w) (s_pid s)).
  destruct (s_pid s <=? 1) eqn:Ep.
  - replace (1 <? s_pid s) with false in M by lia. eapply g_mic; [eassumption|sg|eassumption].
  - replace (1 <? s_pid s) with true in M by lia. cbn [andb] in M.
    destruct (alive (wc w) (s_pid s)) eqn:Ea; cbn [negb].
    + apply wp_bind, wp_kill, wp_upd. eapply g_mic; [eassumption|sg|eassumption].
    + apply g_mon; [eapply g_mic; [eassumption|sg|eassumption]|exact Ea].
Qed.

Lemma kill_script_spec k s ms w : g w -> L w k s -> s_timer s = TmArmed TcKillScript ms ->
  wp (kill_script k) (fun _ => g) (wupd k (set_s_timer (TmStale TcKillScript)) w).
Proof.
  intros H1 H2 H3. pose proof (m_fired_script calm e w k s ms H2 H3) as M. cbv zeta in M.
  unfold kill_script.
  set (w1 := wupd k (set_s_timer (TmStale TcKillScript)) w) in *.
  assert (HL : L w1 k (set_s_timer (TmStale TcKillScript) s)) by (subst w1; lk).
  apply wp_with_svc; [|rewrite HL; discriminate].
  intros s0 Hs0. pose proof (L_fun _ _ _ _ HL Hs0) as <-. clear Hs0.
  cbn [s_pid set_s_timer].
  destruct (s_pid s <=? 1) eqn:Ep.
  - replace (1 <? s_pid s) with false in M by lia. eapply g_mic; [eassumption|sg|eassumption].
  - replace (1 <? s_pid s) with true in M by lia.
    apply wp_bind, wp_kill, wp_ret. eapply g_mic; [eassumption|sg|eassumption].
Qed.

Lemma script_kill_list_spec k l w : g w -> incl l (k_assoc (wc w)) ->
  wp (script_kill_list k l) (fun _ => g) w.
Proof.
  revert w. induction l as [|[p q] l IH]; intros w H1 H2; cbn [script_kill_list]; [exact H1|].
  assert (Hi : incl l (k_assoc (wc w))) by (intros x Hx; apply H2; right; exact Hx).
  apply wp_bind. apply wp_when; intros Eb.
  - apply andb_prop in Eb. destruct Eb as [E1 E2]. apply Nat.eqb_eq in E1. subst q.
    apply wp_bind, wp_kill, wp_ret. apply IH; [|exact Hi].
    eapply g_mic; [exact H1|sg|]. apply m_script_killed; [apply H2; left; reflexivity|lia].
  - apply IH; auto.
Qed.

Lemma script_kill_spec k w : g w -> wp (script_kill k) (fun _ => g) w.
Proof.
  intros H1. unfold script_kill. apply wp_bind, wp_getc, wp_bind.
  eapply wp_mono; [apply script_kill_list_spec; [exact H1|apply incl_refl]|].
  intros a w1 H2. cbn beta in H2. apply wp_modc. eapply g_mic; [exact H2|sg|]. apply m_script_forget.
Qed.

Lemma service_retry_spec k s ms w : g w -> L w k s -> s_timer s = TmArmed TcRetry ms ->
  e = EvTimer k ->
  wp (service_retry rec k) (fun _ => g) (wupd k (set_s_timer (TmStale TcRetry)) w).
Proof.
  intros H1 H2 H3 He'. pose proof (m_fired_retry calm e w k s ms H2 H3) as M.
  unfold service_retry. apply wp_bind, wp_upd.
  change (wupd k (set_s_timer TmNone) ?x) with (wcancel k x).
  set (w1 := wcancel k (wupd k (set_s_timer (TmStale TcRetry)) w)) in *.
  set (s1 := set_s_timer TmNone (set_s_timer (TmStale TcRetry) s)).
  assert (HL : L w1 k s1) by (subst w1; lk).
  assert (HR : g w1) by (eapply g_mic; [eassumption|sg|eassumption]).
  assert (Hrg : Rg k w1).
  { intros Hc. destruct (Hretry Hc _ _ _ _ (g_reach _ H1) H2 H3) as [A _].
    subst w1. unfold wcancel. rewrite !keys_wupd by keyid. exact A. }
  assert (Hty : calm -> is_daemon s1 || is_tty s1 = true).
  { intros Hc. apply (Hretry Hc _ _ _ _ (g_reach _ H1) H2 H3). }
  assert (Hbu : calm -> s_block s1 <> BUser).
  { intros Hc. apply (Hretry Hc _ _ _ _ (g_reach _ H1) H2 H3). }
  clearbody w1 s1. clear M.
  apply wp_bind, wp_getc. destruct (k_norespawn (wc w1)) eqn:En; [exact HR|].
  apply wp_with_svc; [|rewrite HL; discriminate].
  intros s0 Hs0. pose proof (L_fun _ _ _ _ HL Hs0) as <-. clear Hs0.
  destruct (c_respawn (s_cf s1)) eqn:Er.
  { apply wp_bind, wp_upd. apply after_step; [|eapply Rg_keys; [exact Hrg|apply keys_wupd; keyid]].
    eapply g_mic; [exact HR|sg|].
    eapply (m_retry_respawn calm e w1 k); eauto. }
  destruct (negb (st_eqb (s_state s1) Halted) || negb (blk_eqb (s_block s1) BRestarting)) eqn:Eh.
  { apply wp_bind, wp_upd. eapply wp_mono; [|intros a w2 HP; exact (g_P 0 w1 w2 HR HP)].
    eapply (set_state_P k Running w1 _ (set_s_rtmo (s_rsaved s1) s1) 0);
      [exact (g_reach _ HR)| |loc
      |exact (lookup_wupd_same k (fun s => set_s_rtmo (s_rsaved s) s) w1 s1 (fun _ => eq_refl) HL)
      |apply Kr_0|intros _; lia].
    apply (m_retry_up calm e w1 k s1 HL En Er); [|exact He'|exact Hrg|exact Hty].
    apply orb_true_iff in Eh. destruct Eh as [Eh|Eh]; apply negb_true_iff in Eh.
    - left. apply st_eqb_neq, Eh.
    - right. intros Hb. rewrite Hb in Eh. discriminate. }
  apply orb_false_iff in Eh. destruct Eh as [Eh1 Eh2]. apply negb_false_iff in Eh1, Eh2.
  apply st_eqb_eq in Eh1. apply blk_eqb_eq in Eh2.
  destruct (negb (c_restart_max (s_cf s1) =? -1) && (c_restart_max (s_cf s1) <=? s_rcnt s1)) eqn:Em.
  - pose proof (m_retry_giveup calm e w1 k s1 HL En Er Eh1 Eh2) as M. cbv zeta in M.
    assert (HL2 : L (wupd k f_giveup (wemit (EGiveup k) w1)) k (f_giveup s1)) by lk.
    apply wp_bind, wp_emit, wp_bind, wp_upd.
    change (wupd k _ (wemit (EGiveup k) w1)) with (wupd k f_giveup (wemit (EGiveup k) w1)).
    specialize (M ltac:(lia) ltac:(lia) He' Hrg). match type of M with micro _ _ _ ?x => assert (HR2 : g x)
      by (eapply g_mic; [exact HR|destruct (c_oncrash (s_cf s1)); sg|exact M]) end. clear M.
    assert (Hrg2 : Rg k (wupd k f_giveup (wemit (EGiveup k) w1))).
    { eapply Rg_keys; [exact Hrg|]. rewrite keys_wupd by keyid. reflexivity. }
    apply wp_bind. destruct (c_oncrash (s_cf s1)).
    + apply wp_ret. apply after_step; [exact HR2|exact Hrg2].
    + apply wp_emit. apply after_step; [exact HR2|exact Hrg2].
    + apply wp_when; intros Ep; [|apply after_step; [exact HR2|exact Hrg2]].
      unfold post_script. eapply wp_mono; [apply (aux_spec k FPost _ 0); [exact (g_reach _ HR2)|apply Kr_0| |reflexivity|reflexivity]|].
      * intros _. exists (f_giveup s1). split; [exact HL2|].
        split; [exact Ep|]. right. split; [exact Eh1|reflexivity].
      * intros a w3 HP3. cbn beta in HP3. apply after_step; [exact (g_P _ _ _ HR2 HP3)|exact (Rg_P _ _ _ _ Hrg2 HP3)].
  - apply wp_bind, wp_emit, wp_bind, wp_upd.
    assert (HR2 : g (wupd k f_retry (wemit (ERetry k) w1))).
    { eapply g_mic; [exact HR|sg|]. eapply m_retry_again; eauto.
      apply andb_false_iff in Em. destruct Em as [Em|Em]; [left|right].
      - apply negb_false_iff in Em. lia.
      - lia. }
    change (wupd k _ (wemit (ERetry k) w1)) with (wupd k f_retry (wemit (ERetry k) w1)).
    assert (Hrg2 : Rg k (wupd k f_retry (wemit (ERetry k) w1))).
    { eapply Rg_keys; [exact Hrg|]. rewrite keys_wupd by keyid. reflexivity. }
    assert (HL2 : L (wupd k f_retry (wemit (ERetry k) w1)) k (f_retry s1)) by lk.
    apply wp_bind. eapply wp_mono; [apply (Rstep k false false _ 0 (g_reach _ HR2)); [apply Kr_0|exact Hrg2]|].
    intros a w3 HP3. cbn beta in HP3. assert (HR3 : g w3) by exact (g_P _ _ _ HR2 HP3).
    apply wp_with_svc; [|intros HN; apply uaf_reach; [exact HR3|exact (not_lost _ _ _ _ _ HP3 HL2 HN)|exact HN]].
    intros s3 Hs3. apply wp_upd. eapply g_mic; [exact HR3|sg|].
    apply (m_retry_arm calm e w3 k s3); [exact Hs3|exact He'|]. intros Hc.
    split; [exact (Rg_P _ _ _ _ Hrg2 HP3 Hc)|].
    destruct HP3 as (_ & _ & _ & HC & _). destruct (HC Hc _ _ Hs3) as (t & A & B & B2 & _).
    rewrite (L_fun _ _ _ _ A HL2) in B, B2. rewrite f_retry_cf in B.
    specialize (Hty Hc). split.
    + unfold is_daemon, is_tty, ty in *. rewrite B. exact Hty.
    + intros D. destruct (B2 D) as [D1|D1]; [discriminate D1|].
      unfold is_daemon, is_tty, is_runtask, ty in *. rewrite f_retry_cf in D1.
      destruct (c_type (s_cf s1)); discriminate.
Qed.

Lemma timer_fires_spec k w : g w -> e = EvTimer k -> wp (timer_fires rec k) (fun _ => g) w.
Proof.
  intros H1 He'. unfold timer_fires. apply wp_bind, wp_getc.
  destruct (lookup_svc (wc w) k) as [s|] eqn:El.
  - destruct (s_timer s) as [|cb ms|cb] eqn:Et; try exact H1.
    apply wp_bind, wp_upd. destruct cb.
    + eapply service_kill_spec; eauto.
    + eapply service_retry_spec; eauto.
    + eapply kill_script_spec; eauto.
    + apply script_kill_spec. eapply g_mic; [exact H1|sg|]. eapply m_fires; eauto.
  - destruct (find _ _) as [[j t]|] eqn:Efr; [|exact H1]. destruct t; try exact H1.
    apply wp_emit. eapply g_mic; [exact H1|sg|]. apply m_uaf; [exact El|]. intros _. eauto.
Qed.

Lemma gc_one_spec k w : g w -> wp (gc_one rec k) (fun _ => g) w.
Proof.
  intros H1. unfold gc_one. apply wp_bind, wp_getc.
  destruct (find_key k (k_gc (wc w))) as [s|] eqn:Ef; [|exact H1].
  apply wp_bind, wp_modc. match goal with |- wp _ _ ?x => assert (HR : g x) end.
  { eapply g_mic; [exact H1|sg|]. eapply m_gc; eauto. }
  apply wp_when; intros _; [|exact HR].
  apply (wp_Pg _ 0); [exact HR|]. apply c_clear_spec; [exact (g_reach _ HR)| |apply Cr_0|intros; apply Cr_0].
  intros w' _ o Ho. apply (cw_unpid calm e _ s o Ho).
Qed.

Lemma api_stop_spec k w : g w -> e = EvStop k -> reserved (k_rl (wc w)) = false ->
  wp (api_stop rec k) (fun _ => g) w.
Proof.
  intros H1 He' Hr. unfold api_stop, if_registered. apply wp_bind, wp_getc.
  destruct (find_key k (k_svcs (wc w))) as [s|] eqn:Ef; [|exact H1].
  apply wp_bind, wp_emit, wp_bind, wp_upd, wp_bind, wp_upd, step_then_all;
    [|eapply Rg_keys; [eapply Rg_find, Ef|]; rewrite !keys_wupd by keyid; reflexivity].
  eapply g_mic; [exact H1|sg|].
  eapply (m_api_stop calm e w k s); eauto.
Qed.

Lemma api_go_spec k s r w : g w -> find_key k (k_svcs (wc w)) = Some s ->
  e = EvStart k /\ r = RqStart \/ e = EvRestart k /\ r = RqRestart /\ s_state s <> Running ->
  reserved (k_rl (wc w)) = false ->
  wp (api_go rec k) (fun _ => g) (wemit (ERequest k r) w).
Proof.
  intros H1 Ef He' Hr. unfold api_go.
  apply wp_bind, wp_upd, wp_bind, wp_upd, step_then_all;
    [|eapply Rg_keys; [eapply Rg_find, Ef|]; rewrite !keys_wupd by keyid; reflexivity].
  eapply g_mic; [exact H1|sg|].
  eapply (m_api_start calm e w k s); eauto.
Qed.

Lemma api_start_spec k w : g w -> e = EvStart k -> reserved (k_rl (wc w)) = false ->
  wp (api_start rec k) (fun _ => g) w.
Proof.
  intros H1 He' Hr. unfold api_start, if_registered. apply wp_bind, wp_getc.
  destruct (find_key k (k_svcs (wc w))) as [s|] eqn:Ef; [|exact H1].
  apply wp_bind, wp_emit. eapply api_go_spec; eauto.
Qed.

Lemma api_restart_spec k w : g w -> e = EvRestart k -> reserved (k_rl (wc w)) = false ->
  wp (api_restart rec k) (fun _ => g) w.
Proof.
  intros H1 He' Hr. unfold api_restart, if_registered. apply wp_bind, wp_getc.
  destruct (find_key k (k_svcs (wc w))) as [s|] eqn:Ef; [|exact H1].
  apply wp_bind, wp_emit.
  destruct (st_eqb (s_state s) Running) eqn:Est; cbn [negb].
  2:{ apply st_eqb_neq in Est. eapply api_go_spec; eauto. }
  apply st_eqb_eq in Est.
  apply wp_bind, wp_upd. change (wupd k (set_s_timer TmNone) ?x) with (wcancel k x).
  assert (HR : g (wcancel k (wemit (ERequest k RqRestart) w))).
  { eapply g_mic; [exact H1|sg|]. eapply m_api_cancel; eauto. }
  pose proof (find_lookup _ _ _ Ef) as HL0. change (L w k s) in HL0.
  assert (HL : L (wcancel k (wemit (ERequest k RqRestart) w)) k (set_s_timer TmNone s)) by lk.
  apply wp_bind. eapply wp_mono.
  - eapply (service_stop_spec k _ 0); [exact (g_reach _ HR)|exact HL|apply Kr_0|].
    apply sw_user. cbn [s_key set_s_timer]. rewrite (lookup_key _ _ _ HL0). exact He'.
  - intros a w2 [HP _]. apply after_step; [exact (g_P _ _ _ HR HP)|].
    eapply Rg_P; [|exact HP]. eapply Rg_keys; [eapply Rg_find, Ef|]. unfold wcancel; rewrite keys_wupd by keyid; reflexivity.
Qed.

Lemma api_reload_spec k w : g w -> e = EvReload k -> reserved (k_rl (wc w)) = false ->
  wp (api_reload rec k) (fun _ => g) w.
Proof.
  intros H1 He' Hr. unfold api_reload, if_registered. apply wp_bind, wp_getc.
  destruct (find_key k (k_svcs (wc w))) as [s|] eqn:Ef; [|exact H1].
  assert (G1 : forall w2, g w2 -> keys (wc w2) = keys (wc w) -> (exists c l, wl w2 = (c, ERequest k RqReload) :: l) ->
    wp (upd k (set_s_dirty true) ;;; rec (CStep k false false)) (fun _ => g) w2).
  { intros w2 H2 E2 E3. apply wp_bind, wp_upd, after_step.
    - eapply g_mic; [exact H2|sg|]. apply m_api_dirty; [exact He'|exact E3].
    - eapply Rg_keys; [eapply Rg_find, Ef|]. rewrite keys_wupd by keyid. exact E2. }
  apply wp_bind, wp_emit.
  apply wp_bind. destruct (blocked s) eqn:Eb; (apply wp_upd, G1; [|rewrite keys_wupd by keyid; reflexivity|cbn [wl wmod wupd wemit]; eauto]).
  - eapply g_mic; [exact H1|sg|]. eapply (m_api_unblock calm e w k s); eauto.
    unfold blocked in Eb. intros Hb. rewrite Hb in Eb. discriminate.
  - eapply g_mic; [exact H1|sg|]. eapply (m_api_cancel calm e w k s); eauto.
    right. split; [exact He'|]. split; [reflexivity|].
    unfold blocked in Eb. destruct (s_block s); try discriminate. reflexivity.
Qed.

Lemma c_clear_reach n w : g w -> (forall w' o, clears n o -> cwhy calm e w' o) ->
  wp (c_clear rec n) (fun _ => g) w.
Proof.
  intros H1 H2. apply (wp_Pg _ 0); [exact H1|].
  apply c_clear_spec; [exact (g_reach _ H1)|intros w' _ o Ho; apply H2, Ho|apply Cr_0|intros; apply Cr_0].
Qed.
Lemma c_set_reach n w : g w -> cwhy calm e w (OpSet n) -> wp (c_set rec n) (fun _ => g) w.
Proof.
  intros H1 H2. apply (wp_Pg _ 0); [exact H1|].
  apply c_set_spec; [exact (g_reach _ H1)|exact H2|apply Cr_0].
Qed.
Lemma ready_reach k b w : g w -> Rg k w -> (b = true -> forall s, L w k s -> readywhy calm e k s) ->
  wp (service_ready rec k b) (fun _ => g) w.
Proof.
  intros H1 H2 H3. apply (wp_Pg _ 0); [exact H1|].
  apply service_ready_spec; [exact (g_reach _ H1)|apply Kr_0|exact (not_unreg _ _ H2)|exact H3].
Qed.
Lemma started_reach k w : g w -> g (wupd k (set_s_starting false) w).
Proof. intros H. eapply g_mic; [exact H|sg|]. apply m_started. Qed.

Lemma pidfile_gone_spec k w : g w -> Rg k w -> wp (pidfile_gone rec k) (fun _ => g) w.
Proof.
  intros H1 Hrg. unfold pidfile_gone. apply wp_with_svc.
  2: { intros HN. apply uaf_reach; [exact H1|exact (not_unreg _ _ Hrg HN)|exact HN]. }
  intros s Hs. apply wp_bind.
  eapply wp_mono; [apply (c_clear_spec (pidcond s) w 0); [exact (g_reach _ H1)| |apply Cr_0|intros; apply Cr_0]|].
  - intros w' _ o Ho. apply (cw_unpid calm e w' s o Ho).
  - intros a w1 HP. cbn beta in HP. destruct (c_notify (s_cf s)); try exact (g_P _ _ _ H1 HP).
    apply ready_reach; [exact (g_P _ _ _ H1 HP)|exact (Rg_P _ _ _ _ Hrg HP)|discriminate].
Qed.

Lemma pidfile_write_spec k p w : g w -> e = EvPidfile k p -> wp (pidfile_write rec k p) (fun _ => g) w.
Proof.
  intros H1 He'. unfold pidfile_write, if_registered. apply wp_bind, wp_getc.
  destruct (find_key k (k_svcs (wc w))) as [s|] eqn:Ef; [|exact H1].
  pose proof (find_lookup _ _ _ Ef) as HL0. change (L w k s) in HL0.
  pose proof (Rg_find _ _ _ Ef) as Hrg. clear Ef.
  destruct (is_script_state (s_state s)) eqn:E1; [exact H1|].
  destruct (st_eqb (s_state s) Stopping) eqn:E2; [apply pidfile_gone_spec; [exact H1|exact Hrg]|].
  apply st_eqb_neq in E2.
  assert (G2 : forall w2 s2, g w2 -> Rg k w2 -> (calm -> L w2 k s2) -> s_cf s2 = s_cf s -> s_state s2 <> Stopping -> wp ((match c_notify (s_cf s) with NfPid => c_set rec (pidcond s) | _ => ret tt end) ;;;
        match c_notify (s_cf s) with NfPid | NfNone => service_ready rec k true | _ => ret tt end) (fun _ => g) w2).
  { intros w2 s2 H2 Hrg2 HL2 Hcf2 Hst2. apply wp_bind. destruct (c_notify (s_cf s)) eqn:Enf; try exact H2.
    2: { eapply wp_mono; [apply (c_set_spec (pidcond s) w2 (S (rank (ident s)))); [exact (g_reach _ H2)| |apply (Cr_owned w k s _ (g_reach _ H1) HL0); apply owns_base; left; reflexivity]|].
         { apply (cw_pid calm e w2 k s p); [exact He'|exact Enf|]. intros Hc. exists s2. auto. }
         intros a w3 H3. cbn beta in H3. apply ready_reach; [exact (g_P _ _ _ H2 H3)|exact (Rg_P _ _ _ _ Hrg2 H3)|].
         intros _ t Ht. apply (rw_pidfile calm e k t p He'). intros Hc. left.
         rewrite <- (ident_cf _ _ Hcf2) in H3. rewrite (L_fun _ _ _ _ Ht (P_keep _ _ _ _ H3 (HL2 Hc) Hc)), Hcf2. exact Enf. }
    all: apply wp_ret, ready_reach; [exact H2|exact Hrg2|].
    all: intros _ t Ht; apply (rw_pidfile calm e k t p He'); intros Hc; right; rewrite (L_fun _ _ _ _ Ht (HL2 Hc)), Hcf2; exact Enf. }
  assert (G1 : forall w2 s2, g w2 -> Rg k w2 -> L w2 k s2 -> s_cf s2 = s_cf s -> s_state s2 = s_state s ->
    wp (stop <- (if c_forking (s_cf s) then
                 match p with
                 | None => c_clear rec (pidcond s) ;;; ret true
                 | Some p => service_forked rec k ;;; upd k (set_s_pid p) ;;; ret false
                 end
               else ret false) ;;
      if stop then ret tt
      else
        (match c_notify (s_cf s) with NfPid => c_set rec (pidcond s) | _ => ret tt end) ;;;
        match c_notify (s_cf s) with NfPid | NfNone => service_ready rec k true | _ => ret tt end) (fun _ => g) w2).
  { intros w2 s2 HR2 Hrg2 HL2 Hcf Hst. apply wp_bind.
    destruct (c_forking (s_cf s)) eqn:Efk; [|apply wp_ret, (G2 _ s2); [exact HR2|exact Hrg2|auto|assumption|congruence]].
    destruct p as [p|].
    - apply wp_bind. unfold service_forked. apply wp_bind, wp_upd, wp_bind, wp_upd.
      eapply wp_mono.
      + eapply (set_state_spec k Running w2 _ (set_s_block BNone (set_s_timer TmNone s2)) 0);
          [exact (g_reach _ HR2)| |loc|lk|apply Kr_0|intros _; lia].
        eapply m_forked; eauto; congruence.
      + intros a w3 [HP3 HL3]. apply wp_bind, wp_upd, wp_ret, (G2 _ (set_s_pid p (f_enter Running (set_s_block BNone (set_s_timer TmNone s2)))));
          [|eapply Rg_keys; [exact (Rg_P _ _ _ _ Hrg2 HP3)|apply keys_wupd; keyid]
           |intros Hc; apply L_wupd; [keyid|exact (HL3 Hc)]
           |change (s_cf (f_enter Running (set_s_block BNone (set_s_timer TmNone s2))) = s_cf s); rewrite f_enter_cf; assumption
           |change (s_state (f_enter Running (set_s_block BNone (set_s_timer TmNone s2))) <> Stopping); rewrite f_enter_state; discriminate].
        eapply g_mic; [exact (g_P _ _ _ HR2 HP3)|sg|]. apply m_pidfile; [exact He'|].
        intros Hc. eexists. split; [apply HL3, Hc|]. rewrite f_enter_cf. cbn. congruence.
    - apply wp_bind. eapply wp_mono; [apply c_clear_reach; [exact HR2|]|].
      + intros w' o Ho. apply (cw_unpid calm e w' s o Ho).
      + intros a w3 HR3. apply wp_ret, wp_ret, HR3. }
  apply wp_bind. destruct (c_notify (s_cf s)) eqn:En.
  1,3,4: apply wp_ret; eapply G1; eauto.
  apply wp_upd. eapply (G1 _ (set_s_starting false s)); [apply started_reach, H1
    |eapply Rg_keys; [exact Hrg|apply keys_wupd; keyid]|lk|reflexivity|reflexivity].
Qed.

Lemma pidfile_delete_spec k w : g w -> wp (pidfile_delete rec k) (fun _ => g) w.
Proof.
  intros H1. unfold pidfile_delete, if_registered. apply wp_bind, wp_getc.
  destruct (find_key k (k_svcs (wc w))) as [s|] eqn:Ef; [|exact H1].
  destruct (is_script_state (s_state s)); [exact H1|apply pidfile_gone_spec; [exact H1|exact (Rg_find _ _ _ Ef)]].
Qed.

Lemma notify_ready_spec k w : g w -> e = EvNotify k -> wp (notify_ready rec k) (fun _ => g) w.
Proof.
  intros H1 He'. unfold notify_ready, if_registered. apply wp_bind, wp_getc.
  destruct (find_key k (k_svcs (wc w))) as [s|] eqn:Ef; [|exact H1].
  pose proof (find_lookup _ _ _ Ef) as Hls. change (L w k s) in Hls.
  destruct (c_notify (s_cf s)) eqn:En; try exact H1; (apply wp_bind, wp_upd, ready_reach;
    [apply started_reach, H1|eapply Rg_keys; [exact (Rg_find _ _ _ Ef)|apply keys_wupd; keyid]|]);
    (intros _ t Ht; apply rw_notify; [exact He'|];
     assert (HL2 : L (wupd k (set_s_starting false) w) k (set_s_starting false s)) by lk;
     rewrite (L_fun _ _ _ _ Ht HL2); cbn; rewrite En; auto).
Qed.

Lemma gated_spec m w : g w -> (reserved (k_rl (wc w)) = false -> wp m (fun _ => g) w) ->
  wp (gated m) (fun _ => g) w.
Proof.
  intros H1 H2. unfold gated. apply wp_bind, wp_getc. destruct (reserved (k_rl (wc w))); [exact H1|auto].
Qed.

Definition quiet_ev (e : ev) : bool :=
  match e with
  | EvReap _ _ | EvBootCheck | EvEmergency | EvRunlevel _ | EvReloadAll | EvDown _ _ | EvBoot
  | EvSigHup | EvSigUsr2 | EvSigTerm => false
  | _ => true
  end.
Lemma handle_keep w : quiet_ev e = true -> g w -> wp (handle rec e) (fun _ => g) w.
Proof.
  intros Hq H1.
  assert (He' : e = e) by reflexivity. revert Hq He'. generalize e at 1 3 4. intros e' Hq He'.
  destruct e'; cbn [handle]; try discriminate Hq; clear Hq.
  - apply wp_modc. eapply g_mic; [exact H1|sg|]. apply (m_gone calm e w p), He'.
  - apply wp_modc. destruct ((p <=? 1) || memZ p (k_procs (wc w))) eqn:Eb.
    + unfold wmod. rewrite Eb. destruct w; exact H1.
    + unfold wmod. rewrite Eb. apply orb_false_iff in Eb. destruct Eb as [E1 E2].
      eapply g_mic; [exact H1|sg|]. apply (m_spawn calm e w p He'). split; [lia|exact E2].
  - apply timer_fires_spec; auto.
  - apply wp_bind, wp_getc. apply when_reach; [exact H1|]. intros Ew. apply wp_bind, wp_modc, reach_step_all.
    eapply g_mic; [exact H1|sg|]. apply m_work.
  - unfold interval. apply wp_bind, wp_emit, wp_modc. eapply g_mic; [exact H1|sg|]. apply m_interval.
  - apply gc_one_spec; auto.
  - apply gated_spec; [exact H1|]. intros Hr. apply api_stop_spec; auto.
  - apply gated_spec; [exact H1|]. intros Hr. apply api_start_spec; auto.
  - apply gated_spec; [exact H1|]. intros Hr. apply api_restart_spec; auto.
  - apply gated_spec; [exact H1|]. intros Hr. apply api_reload_spec; auto.
  - unfold api_signal, if_registered. apply wp_bind, wp_getc.
    destruct (find_key k (k_svcs (wc w))) as [s|] eqn:Ef; [|exact H1].
    apply when_reach; [exact H1|]. intros Er. apply st_eqb_eq in Er.
    apply wp_bind, wp_kill, wp_ret. eapply g_mic; [exact H1|sg|]. eapply m_api_signal; eauto.
  - apply c_set_reach; [exact H1|apply cw_evset, He'].
  - apply (wp_Pg _ 0); [exact H1|].
    apply c_oneshot_spec; [exact (g_reach _ H1)|apply cw_evone, He'|apply Cr_0].
  - apply c_clear_reach; [exact H1|]. intros w' o Ho. eapply cw_evclear; eauto.
  - apply pidfile_write_spec; auto.
  - apply pidfile_delete_spec; auto.
  - apply notify_ready_spec; auto.
  - apply wp_modc. eapply g_mic; [exact H1|sg|]. apply (m_conf calm e w l He').
  - apply wp_modc. eapply g_mic; [exact H1|sg|]. apply (m_unavail calm e w l He').
  - apply wp_modc. eapply g_mic; [exact H1|sg|]. apply (m_norespawn calm e w b He').
  - apply wp_modc. eapply g_mic; [exact H1|sg|]. apply (m_oracle calm e w _ _ _ He').
Qed.
End Keep.

Lemma networking_spec up w : reach w -> wp (networking rec up) (fun _ => G w) w.
Proof.
  intros H1. unfold networking. apply wp_bind, wp_getc.
  destruct ((k_prev (wc w) =? 0) && negb up); [apply G_refl, H1|]. destruct up; apply run_hook_spec, H1.
Qed.

(** a new runlevel is asked for while nothing is half done *)
Lemma newl_good l w : good w -> asked calm e (wc w) l -> good_sm (wmod (set_k_newl l) (wemit (EAsk l) w)).
Proof.
  intros [H1 H2] H3. split; [eapply reach_mic; [exact H1|]; apply m_newl, H3|].
  intros Hc. destruct (H2 Hc) as [A B]. split; [left; auto|exact B].
Qed.

Lemma sm_runlevel_spec l w : good w ->
  (forall w', (calm -> same_glob w w') -> asked calm e (wc w') l) ->
  wp (sm_runlevel rec l) (fun _ => good) w.
Proof.
  intros H1 H2. unfold sm_runlevel. apply wp_bind, wp_getc.
  apply wp_Gseq with (w0 := w).
  { apply wp_when_G; [apply G_refl, good_reach, H1|]. intros _. apply networking_spec, good_reach, H1. }
  intros a1 w1 HG. pose proof (good_G _ _ H1 HG) as HR1. destruct HG as [_ HG1]. apply wp_bind, wp_emit, wp_bind, wp_modc.
  apply wp_bind. eapply wp_mono; [apply Rsm, newl_good; [exact HR1|apply H2, HG1]|].
  intros a2 w2 HR2. cbn beta in HR2. apply wp_bind, wp_getc. apply (when_reach good); [exact HR2|]. intros _.
  apply wp_Ggood; [exact HR2|]. apply networking_spec, good_reach, HR2.
Qed.

Lemma sm_reload_spec w : good w -> e = EvReloadAll \/ e = EvSigHup -> wp (sm_reload rec) (fun _ => good) w.
Proof.
  intros H1 H2. unfold sm_reload. apply wp_bind, wp_modc, Rsm, good_to_do.
  eapply good_mic; [exact H1|sg|]. apply m_reload, H2.
Qed.

Lemma prune_bootstrap_spec w : reach w -> wp prune_bootstrap (fun _ => G w) w.
Proof.
  intros H1. unfold prune_bootstrap. apply wp_bind, wp_getc.
  apply (wp_loop (G w)); [|apply G_refl, H1].
  intros k w1 _ HG. apply wp_bind, wp_getc.
  destruct (find_key k (k_svcs (wc w1))) as [s|] eqn:Ef; [|exact HG].
  apply wp_when_G; [exact HG|]. intros _. apply wp_G_from; [exact HG|].
  apply clean_bootstrap_spec; [eapply G_reach, HG|exact (Rg_find _ _ _ Ef)].
Qed.

Lemma check_bootstrap_spec w : good w -> e = EvBootCheck -> wp (check_bootstrap rec) (fun _ => good) w.
Proof.
  intros H1 He'. unfold check_bootstrap. apply wp_bind, wp_getc.
  destruct (k_bootleft (wc w)) as [t|]; [|exact H1].
  apply wp_bind. eapply wp_mono; [apply (reach_step_all good good_reach good_same), H1|]. intros a1 w1 HR1. cbn beta in HR1.
  apply wp_bind, wp_getc.
  assert (HB : forall b, good (wmod (set_k_bootleft b) w1)).
  { intros b. eapply good_mic; [exact HR1|sg|]. apply m_bootleft. }
  assert (HE : good (wemit (EBooted (negb (completed (wc w1)))) w1)).
  { eapply good_mic; [exact HR1|sg|]. apply m_booted, He'. }
  assert (HEB : good (wmod (set_k_bootleft None) (wemit (EBooted (negb (completed (wc w1)))) w1))).
  { eapply good_mic; [exact HE|sg|]. apply m_bootleft. }
  assert (HF : wp (emit (EBooted (negb (completed (wc w1)))) ;;; modc (set_k_bootleft None) ;;;
          sm_runlevel rec (if k_cmdl (wc w1) =? 0 then k_cfgl (wc w1) else k_cmdl (wc w1)) ;;;
          prune_bootstrap ;;; run_hook rec HkSvcUp) (fun _ => good) w1).
  { apply wp_bind, wp_emit, wp_bind, wp_modc, wp_bind. eapply wp_mono.
    - apply sm_runlevel_spec; [apply HEB|]. intros w' Hg. rewrite He'. intros Hc.
      destruct (Hg Hc) as (_ & _ & _ & _ & _ & _ & A & B & _). cbn in A, B.
      replace (k_cmdl (wc w')) with (k_cmdl (wc w1)) by congruence.
      replace (k_cfgl (wc w')) with (k_cfgl (wc w1)) by congruence. reflexivity.
    - intros a3 w3 HR3. cbn beta in HR3. apply wp_bind.
      eapply wp_mono; [apply prune_bootstrap_spec, good_reach, HR3|].
      intros a4 w4 HG4. pose proof (good_G _ _ HR3 HG4) as HR4.
      apply wp_Ggood; [exact HR4|]. apply run_hook_spec, good_reach, HR4. }
  destruct t as [|t]; [exact HF|]. destruct (completed (wc w1)); [exact HF|]. apply wp_modc, HB.
Qed.

Lemma api_runlevel_spec l w : good w -> e = EvRunlevel l -> wp (api_runlevel rec l) (fun _ => good) w.
Proof.
  intros H1 He'. unfold api_runlevel. apply wp_bind, wp_getc.
  destruct (reserved (k_rl (wc w)) && negb (k_rl (wc w) =? 10)); [exact H1|].
  destruct ((0 <=? l) && (l <=? 9)) eqn:El; [|exact H1].
  assert (G1 : forall w2, good w2 -> k_rl (wc w2) = k_rl (wc w) ->
     wp (if k_rl (wc w) =? 10 then modc (set_k_cfgl l) else sm_runlevel rec l) (fun _ => good) w2).
  { intros w2 H2 E2. destruct (k_rl (wc w) =? 10) eqn:E10.
    - apply wp_modc. destruct H2 as [H2 H2']. split; [|exact H2'].
      eapply reach_mic; [exact H2|]. apply m_cfgl; [exact He'|lia|lia].
    - apply sm_runlevel_spec; [exact H2|]. intros w' _. rewrite He'. cbn. lia. }
  apply wp_bind. apply wp_when; intros E0.
  - apply wp_bind, wp_emit, wp_modc, wp_bind. apply wp_when; intros E6; [lia|]. apply G1; [|reflexivity].
    eapply good_mic; [exact H1|sg|]. apply m_halt. rewrite He'. replace l with 0 by lia. reflexivity.
  - apply wp_bind. apply wp_when; intros E6; [apply wp_bind, wp_emit, wp_modc|]; (apply G1; [|reflexivity]).
    + eapply good_mic; [exact H1|sg|]. apply m_halt. rewrite He'. replace l with 6 by lia. reflexivity.
    + exact H1.
Qed.

Lemma api_down_spec s t w : good w -> e = EvDown s t -> wp (api_down rec s t) (fun _ => good) w.
Proof.
  intros H1 He'. unfold api_down. apply wp_bind, wp_bind, wp_emit, wp_modc.
  assert (HR : good (wmod (set_k_halt s) (wemit (EHalt s) w))).
  { eapply good_mic; [exact H1|sg|]. apply m_halt. rewrite He'. reflexivity. }
  assert (G1 : forall w2, good w2 -> wp (sm_runlevel rec (match s with ShutReboot => 6 | _ => 0 end)) (fun _ => good) w2).
  { intros w2 H2. apply sm_runlevel_spec; [exact H2|]. intros w' _. rewrite He'. destruct s; reflexivity. }
  apply wp_bind. apply wp_when; intros Et; [apply wp_modc|]; apply G1; [|exact HR].
  subst t. eapply good_mic; [exact HR|sg|]. eapply m_emerg; eauto.
Qed.

Lemma reap_spec p st w : good w -> e = EvReap p st -> memZ p (k_procs (wc w)) = true ->
  wp (service_monitor rec p st) (fun _ => good) (wmod (c_drop p) w).
Proof.
  intros H1 He' Hp. apply monitor_gen.
  - intros H. eapply good_mic; [exact H1|sg|]. eapply m_reap_other; eauto.
    intros Hp1. destruct H as [H|H]; [lia|exact H].
  - intros s Hp1 Hf. eapply good_mic; [exact H1|exact (collect_same p st s (wmod (c_drop p) w))|]. eapply m_reap; eauto.
Qed.

Lemma body_step k ch wa w r : reach w -> Kr k r w -> Rg k w ->
  wp (body rec (CStep k ch wa)) (fun _ => P r w) w.
Proof.
  intros. unfold body. apply wp_bind, wp_getc. destruct (k_down (wc w)); [apply P_refl, H|].
  apply service_step_spec; assumption.
Qed.
Lemma body_upd n w r : reach w -> Cr n r -> wp (body rec (CUpdate n)) (fun _ => P r w) w.
Proof.
  intros. unfold body. apply wp_bind, wp_getc. destruct (k_down (wc w)); [apply P_refl, H|].
  apply cond_update_spec; assumption.
Qed.
Lemma body_mon p st w : good w -> alive (wc w) p = false -> wp (body rec (CMonitor p st)) (fun _ => good) w.
Proof.
  intros. unfold body. apply wp_bind, wp_getc. destruct (k_down (wc w)); [exact H|].
  apply monitor_spec; assumption.
Qed.
Lemma body_sm w : good_sm w -> wp (body rec CSm) (fun _ => good) w.
Proof.
  intros H. unfold body. apply wp_bind, wp_getc. destruct (k_down (wc w)) eqn:Ed.
  - destruct H as [H1 H2]. split; [exact H1|]. intros Hc. destruct (H2 Hc) as [_ B]. split; auto.
  - apply sm_step_spec; assumption.
Qed.

Lemma handle_spec w : good w ->
  (forall p st, e = EvReap p st -> memZ p (k_procs (wc w)) = true ->
     wp (rec (CMonitor p st)) (fun _ => good) (wmod (c_drop p) w)) ->
  wp (handle rec e) (fun _ => good) w.
Proof.
  intros H1 HR.
  destruct (quiet_ev e) eqn:Hq; [apply (handle_keep good good_reach good_same Rmon w Hq H1)|].
  assert (He' : e = e) by reflexivity. revert Hq He'. generalize e at 1 3 4. intros e' Hq He'.
  destruct e'; cbn [handle]; try discriminate Hq; clear Hq.
  - (* reap *) apply wp_bind, wp_getc. destruct (memZ p (k_procs (wc w))) eqn:Em; [|exact H1].
    apply wp_bind, wp_modc. apply HR; auto.
  - apply check_bootstrap_spec; auto.
  - apply wp_bind, wp_getc. apply (when_reach good); [exact H1|]. intros Ee.
    apply wp_Ggood; [exact H1|]. apply do_shutdown_spec; [exact (good_reach _ H1)|auto].
  - apply api_runlevel_spec; auto.
  - apply (gated_spec good); [exact H1|]. intros Hr. apply sm_reload_spec; auto.
  - apply (gated_spec good); [exact H1|]. intros Hr. apply api_down_spec; auto.
  - apply wp_bind, wp_getc. apply (when_reach good); [exact H1|]. intros Ebt. apply wp_bind.
    eapply wp_mono; [apply conf_reload_spec; [apply good_reach, H1|]; intros _; left; destruct (k_sm (wc w)); (discriminate Ebt || reflexivity)|]. intros a w1 HG. apply Rsm, good_to_do.
    exact (good_G _ _ H1 HG).
  - apply (gated_spec good); [exact H1|]. intros Hr. apply sm_reload_spec; auto.
  - apply (gated_spec good); [exact H1|]. intros Hr. apply wp_bind, wp_bind, wp_emit, wp_modc, sm_runlevel_spec.
    + eapply good_mic; [exact H1|sg|]. apply m_halt. rewrite He'. reflexivity.
    + intros w' _. rewrite He'. reflexivity.
  - apply (gated_spec good); [exact H1|]. intros Hr. apply wp_bind, wp_bind, wp_emit, wp_modc, sm_runlevel_spec.
    + eapply good_mic; [exact H1|sg|]. apply m_halt. rewrite He'. reflexivity.
    + intros w' _. rewrite He'. reflexivity.
Qed.

End Exec.

(** ** the whole supervisor *)
Section Top.
Variable calm : Prop.
Variable E : ev -> Prop.
Variable w00 : world.
Variable rank : string -> nat.
Hypothesis Hacyc : calm -> forall w k s w' j t n,
  reach calm E w00 w -> L w k s -> reach calm E w00 w' -> L w' j t -> owns s n ->
  cond_affects n (c_cond (s_cf t)) = true -> (rank (ident s) < rank (ident t))%nat.
Hypothesis Halive : calm -> forall w k s, reach calm E w00 w ->
  find_key k (k_svcs (wc w)) = Some s -> 1 < s_pid s -> alive (wc w) (s_pid s) = true.
Hypothesis Hretry : calm -> forall w k s ms, reach calm E w00 w -> L w k s ->
  s_timer s = TmArmed TcRetry ms -> In k (keys (wc w)) /\ is_daemon s || is_tty s = true /\ s_block s <> BUser.

Lemma exec_all e : E e -> forall n,
  (forall k ch wa w r, reach calm E w00 w -> Kr calm rank k r w -> Rg calm k w ->
     wp (exec n (CStep k ch wa)) (fun _ => P calm E w00 rank r w) w) /\
  (forall nm w r, reach calm E w00 w -> Cr calm E w00 rank nm r ->
     wp (exec n (CUpdate nm)) (fun _ => P calm E w00 rank r w) w) /\
  (forall p st w, good calm E w00 w -> alive (wc w) p = false ->
     wp (exec n (CMonitor p st)) (fun _ => good calm E w00) w) /\
  (forall w, good_sm calm E w00 w -> wp (exec n CSm) (fun _ => good calm E w00) w).
Proof.
  intros He. induction n as [|n (I1 & I2 & I3 & I4)].
  - repeat split; intros; exact I.
  - cbn [exec]. split; [|split; [|split]].
    + intros. eapply body_step; eauto.
    + intros. eapply body_upd; eauto.
    + intros. eapply body_mon; eauto.
    + intros. eapply body_sm; eauto.
Qed.

Lemma on_event_good n e w : E e -> good calm E w00 w ->
  wp (on_event n e) (fun _ => good calm E w00) w.
Proof.
  intros He H. unfold on_event. apply wp_bind, wp_getc. destruct (k_down (wc w)) eqn:Ed; [exact H|].
  destruct (exec_all e He n) as (I1 & I2 & I3 & I4).
  eapply handle_spec; eauto.
  intros p st He' Hp. destruct n as [|n]; [exact I|].
  destruct (exec_all e He n) as (J1 & J2 & J3 & J4).
  cbn [exec]. unfold body. apply wp_bind, wp_getc.
  change (k_down (wc (wmod (c_drop p) w))) with (k_down (wc w)). rewrite Ed.
  eapply reap_spec; eauto.
Qed.

Lemma run_good n l w : Forall E l -> good calm E w00 w ->
  wp (run n l) (fun _ => good calm E w00) w.
Proof.
  intros HF. revert w. induction HF as [|e l He HF IH]; intros w H; cbn [run]; [exact H|].
  apply wp_bind. eapply wp_mono; [apply on_event_good; eassumption|]. auto.
Qed.
End Top.
