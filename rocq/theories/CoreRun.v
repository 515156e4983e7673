(** C46: while starts wait for a run stanza, its process is alive. *)
From Coq Require Import List String Ascii ZArith NArith Bool Lia Arith Relations.
From Coq Require Import ZifyBool ZifyNat.
From Verif Require Import CondModel CoreTypes CoreModel CoreLib CoreMicro CoreExec CoreCalm CoreLog
  CoreSpec CoreSpecB CoreAny CoreSlice CoreStay CoreSide CoreOne.
Import ListNotations.
Local Open Scope Z_scope.

Definition rinv (w : world) : Prop :=
  k_runblk (wc w) = 0 \/ (exists k, In (k_runblk (wc w), k) (k_mains (wc w))) \/
  (exists c k, In (c, EForget k (k_runblk (wc w))) (wl w)).

Lemma rinv_emit x w : rinv w -> rinv (wemit x w).
Proof. intros [H|[H|(c & k & H)]]; [left; exact H|right; left; exact H|]. right. right. exists c, k. right. exact H. Qed.
Lemma rinv_mod g w : (forall c, k_runblk (g c) = k_runblk c) -> (forall c, incl (k_mains c) (k_mains (g c))) -> rinv w -> rinv (wmod g w).
Proof.
  intros A B [H|[(k & H)|H]]; unfold rinv; cbn [wc wl wmod]; rewrite A; [auto| |auto].
  right. left. exists k. apply B, H.
Qed.
Lemma rinv_upd k f w : rinv w -> rinv (wupd k f w).
Proof. exact (fun H => H). Qed.
Lemma rinv_went k n w : rinv w -> rinv (went k n w).
Proof.
  intros H. unfold went. destruct (lookup_svc (wc w) k) as [s|] eqn:El; [|exact H].
  unfold wenter. cbv zeta.
  assert (G : forall w1, rinv w1 -> rinv (if st_eqb (s_state s) n then w1
           else wupd k (set_s_state n) (wemit (EState k (s_state s) n) w1))).
  { intros w1 H1. destruct (st_eqb (s_state s) n); [exact H1|]. apply rinv_upd, rinv_emit, H1. }
  apply G. destruct (st_eqb n Stopping); exact H.
Qed.
Lemma rinv_fork k f p w : rinv w -> rinv (wfork_ok k f p w).
Proof.
  intros H. unfold wfork_ok. apply rinv_mod; [destruct f; intros ?; reflexivity|destruct f; intros ? ? X; try exact X; right; exact X|].
  apply rinv_mod; [intros ?; reflexivity|intros ? ? X; exact X|]. apply rinv_emit.
  apply rinv_mod; [intros ?; reflexivity|intros ? ? X; exact X|exact H].
Qed.
Ltac rv1 :=
  match goal with
  | H : rinv ?w |- rinv ?w' => constr_eq w w'; exact H
  | |- rinv (wemit _ _) => apply rinv_emit
  | |- rinv (went _ _ _) => apply rinv_went
  | |- rinv (wupd _ _ _) => apply rinv_upd
  | |- rinv (wfork_ok _ _ _ _) => apply rinv_fork
  | |- rinv (wmod (c_drop _) _) => fail 1
  | |- rinv (wmod _ _) => apply rinv_mod; [intros ?; reflexivity|intros ? ? ?X; exact X|]
  | |- rinv (if ?b then _ else _) => destruct b
  end.
Ltac rv := unfold w_done, w_prep, wcleanup, wcancel, wblock, wclean, wtimeout, wscript, wcond, wfork_fail; cbv zeta; repeat rv1.

Lemma rinv_forked k s p w : rinv w -> rinv (w_forked k s p w).
Proof.
  intros H. unfold w_forked, w_prep. cbv zeta.
  set (v := wupd k f_rtot (wupd k (set_s_starting true) w)).
  assert (Hv : rinv v) by exact H. clearbody v.
  destruct (is_run_t (ty s)).
  - right. left. exists k. destruct (uses_socket s); left; reflexivity.
  - destruct (uses_socket s); rv.
Qed.

(** the record's process was the one starts waited for: not any more *)
Lemma rinv_collected lost st s w : (k_runblk (wc w) <> lost -> rinv w) -> rinv (w_collect lost st s w).
Proof.
  intros H. unfold w_collect. cbv zeta.
  match goal with |- rinv (if _ then _ (_ _ ?x) else _) => set (w1 := x) end.
  assert (E1 : k_runblk (wc w1) = k_runblk (wc w)).
  { unfold w1. destruct (is_script_state (s_state s)); [destruct (st_eqb (s_state s) Setup); reflexivity|].
    destruct (c_forking (s_cf s) && s_starting s); [reflexivity|]. destruct (is_daemon s || is_tty s); reflexivity. }
  assert (E2 : rinv w -> rinv w1).
  { clear. intros H. unfold w1. rv. }
  clearbody w1. destruct (lost =? k_runblk (wc w1)) eqn:E.
  - left. reflexivity.
  - apply E2, H. lia.
Qed.

Section Run.
Variable evs : list ev.
Hypothesis HT : tame evs.
Hypothesis HS : sockets_work evs.
Hypothesis HP : signal_stop evs.

Lemma known cfgl cmdl w k p : reach True (E evs) (init_world cfgl cmdl) w -> In (p, k) (k_mains (wc w)) ->
  (exists s, In s (k_svcs (wc w)) /\ s_pid s = p /\ 1 < p) \/ (exists c, In (c, EForget k p) (wl w)).
Proof.
  intros Hh Hp. pose proof (reach06 evs HT HS HP cfgl cmdl k w Hh) as X. apply mine_in in Hp.
  destruct (find_key k (k_svcs (wc w))) as [s|] eqn:Ef.
  - left. destruct X as [[A|(A & U & _)] _]; rewrite A in Hp; [destruct Hp|]. destruct Hp as [<-|[]].
    apply find_key_in in Ef. exists s. split; [apply Ef|]. split; [reflexivity|exact U].
  - right. destruct X as [[A|(q & m0 & A & X)] _]; rewrite A in Hp; [destruct Hp|]. destruct Hp as [<-|[]].
    apply jl_in in X. exact X.
Qed.

Lemma main_kept q c p k : p <> q -> In (p, k) (k_mains c) -> In (p, k) (k_mains (c_drop q c)).
Proof.
  intros E X. unfold c_drop. cbn [k_mains set_k_procs set_k_mains]. apply filter_In. split; [exact X|]. cbn [fst]. lia.
Qed.

Lemma rinv_micro cfgl cmdl e w w' : In e evs -> reach True (E evs) (init_world cfgl cmdl) w -> micro True e w w' -> rinv w -> rinv w'.
Proof.
  intros He Hr Hm H. pose proof (inv_reach evs HT _ _ _ Hr) as B. destruct Hm; try (rv; fail).
  - (* aux *) unfold w_aux. cbv zeta. assert (rinv (wupd k (set_s_pid p) (wfork_ok k f p w))) by rv.
    destruct (lookup_svc _ k); rv.
  - (* start_ok *) unfold wclean. apply rinv_went, rinv_upd, rinv_forked, H.
  - (* nosock *) pose proof (rinv_forked k s p w H) as X. destruct (is_run_t (ty s)); [exact X|apply rinv_upd, X].
  - (* sstop_script *) subst w1. rv.
  - (* collect *) apply rinv_collected. intros _. exact H.
  - (* reap *) apply rinv_collected. cbn [wc wmod]. change (k_runblk (c_drop lost (wc w))) with (k_runblk (wc w)). intros Hn.
    destruct H as [H|[(k & H)|H]]; [left; exact H| |right; right; exact H].
    right. left. exists k. apply main_kept; assumption.
  - (* reap_other *) destruct (Z.eq_dec (k_runblk (wc w)) lost) as [El|El].
    + destruct H as [H|[(k & H)|H]]; [left; exact H| |right; right; exact H].
      destruct (known cfgl cmdl w k _ Hr H) as [(s & Hs & Ep & El1)|(c & Hc)].
      * exfalso. eapply find_pid_none; [apply H2|exact Hs|]; congruence.
      * right. right. exists c, k. exact Hc.
    + destruct H as [H|[(k & H)|H]]; [left; exact H| |right; right; exact H].
      right. left. exists k. apply main_kept; assumption.
  - (* del_boot *) assert (X : rinv (if s_pid s =? 0 then w else wemit (EForget k (s_pid s)) w)) by rv.
    revert X. generalize (if s_pid s =? 0 then w else wemit (EForget k (s_pid s)) w). intros v X.
    apply rinv_mod; [| |exact X]; intros c; unfold c_del; destruct (find_key k (k_svcs c)); try reflexivity; intros ? Y; exact Y.
  - (* unreg *) apply rinv_mod; [| |exact H]; intros c; unfold c_del; destruct (find_key k (k_svcs c)); try reflexivity; intros ? Y; exact Y.
  - (* nologin *) apply rinv_mod; [| |exact H]; intros c; unfold c_nologin; cbv zeta; destruct (_ || _);
      cbn [k_prev set_k_nologin]; destruct (_ || _); try reflexivity; intros ? Y; exact Y.
  - (* giveup *) cbv zeta. destruct (c_oncrash (s_cf s)); rv.
  - (* gone *) exfalso. subst e. apply (t_reported _ HT _ He).
Qed.
Lemma rinv_reach cfgl cmdl w : reach True (E evs) (init_world cfgl cmdl) w -> rinv w.
Proof.
  revert w. apply (reach_ind True (E evs) rinv); [left; reflexivity|].
  intros e w w' He Hm Hr. exact (rinv_micro cfgl cmdl e w w' He Hr Hm).
Qed.
Lemma run_alive_lem n cfgl cmdl w : history n evs cfgl cmdl w -> k_runblk (wc w) <> 0 ->
  (exists s, In s (k_svcs (wc w)) /\ s_pid s = k_runblk (wc w) /\ In (k_runblk (wc w), s_key s) (k_mains (wc w))) \/
  (exists c k older, happened w c (EForget k (k_runblk (wc w))) older).
Proof.
  intros Hh Hn. apply (run_tame evs HT) in Hh. pose proof (rinv_reach _ _ _ Hh) as [X|[(k & X)|(c & k & X)]]; [contradiction| |].
  - pose proof (reach06 evs HT HS HP cfgl cmdl k w Hh) as Y. apply mine_in in X as X1.
    destruct (find_key k (k_svcs (wc w))) as [s|] eqn:Ef.
    + left. destruct Y as [[A|(A & U & _)] _]; rewrite A in X1; [destruct X1|]. destruct X1 as [X1|[]].
      apply find_key_in in Ef. exists s. split; [apply Ef|]. split; [exact X1|]. rewrite (proj2 Ef). exact X.
    + right. destruct Y as [[A|(q & m0 & A & Y)] _]; rewrite A in X1; [destruct X1|]. destruct X1 as [<-|[]].
      apply jl_in in Y. destruct Y as (c & Y). apply in_split in Y. destruct Y as (l1 & l2 & Y). exists c, k, l2, l1. exact Y.
  - right. apply in_split in X. destruct X as (l1 & l2 & X). exists c, k, l2, l1. exact X.
Qed.
End Run.
