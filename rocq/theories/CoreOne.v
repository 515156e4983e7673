(** C06: a stanza has at most one main process, and finit knows which. *)
From Coq Require Import List String Ascii ZArith NArith Bool Lia Arith Relations.
From Coq Require Import ZifyBool ZifyNat.
From Verif Require Import CondModel CoreTypes CoreModel CoreLib CoreMicro CoreExec CoreCalm CoreLog
  CoreSpec CoreSpecB CoreAny CoreProof CoreSlice CoreStay CoreSide CoreProofC.
Import ListNotations.
Local Open Scope Z_scope.

Definition upst (s : svc) : bool :=
  match s_state s with Running | Paused | Stopping => true | _ => false end.
Definition P06 (m : list Z) (x : eff) (l : list ent) : Prop :=
  match x with EFork _ FMain _ => m = [] | _ => True end.
Definition J06 (s : svc) (l : list ent) (m : list Z) : Prop :=
  (m = [] \/ m = [s_pid s] /\ 1 < s_pid s /\ upst s = true) /\ each P06 l.
Definition N06 (j : nat) (l : list ent) (m : list Z) : Prop :=
  (m = [] \/ exists p m0, m = [p] /\ In (m0, EForget j p) l) /\ each P06 l.

Lemma fenter_pid n s : s_pid (f_enter n s) = s_pid s.
Proof. apply f_enter_fields. Qed.
Lemma fenter_state n s : s_state (f_enter n s) = n.
Proof. apply f_enter_fields. Qed.
Lemma ftimeout_pid ms cb s : s_pid (f_timeout ms cb s) = s_pid s.
Proof. apply f_timeout_fields. Qed.
Lemma ftimeout_state ms cb s : s_state (f_timeout ms cb s) = s_state s.
Proof. apply f_timeout_fields. Qed.
Lemma frtot_pid s : s_pid (f_rtot s) = s_pid s.
Proof. unfold f_rtot. destruct (_ && _); reflexivity. Qed.
Lemma frtot_state s : s_state (f_rtot s) = s_state s.
Proof. unfold f_rtot. destruct (_ && _); reflexivity. Qed.

Lemma mark_same s : s_pid (svc_mark s) = s_pid s /\ s_state (svc_mark s) = s_state s /\ s_timer (svc_mark s) = s_timer s /\
  s_block (svc_mark s) = s_block s /\ s_cf (svc_mark s) = s_cf s /\ s_rcnt (svc_mark s) = s_rcnt s.
Proof. unfold svc_mark. destruct (s_protect s); auto 10. Qed.
Lemma affected_same n s : s_pid (f_affected n s) = s_pid s /\ s_state (f_affected n s) = s_state s /\ s_timer (f_affected n s) = s_timer s /\
  s_block (f_affected n s) = s_block s /\ s_cf (f_affected n s) = s_cf s /\ s_rcnt (f_affected n s) = s_rcnt s.
Proof. unfold f_affected. destruct (_ && _); auto 10. Qed.
Lemma unavail_same c s : s_pid (f_unavail c s) = s_pid s /\ s_state (f_unavail c s) = s_state s /\ s_timer (f_unavail c s) = s_timer s /\
  s_block (f_unavail c s) = s_block s /\ s_cf (f_unavail c s) = s_cf s /\ s_rcnt (f_unavail c s) = s_rcnt s.
Proof. unfold f_unavail. destruct (ifthen_conf _ _); [auto 10|apply mark_same]. Qed.
Lemma rereg_same r s : s_pid (f_rereg r s) = s_pid s /\ s_state (f_rereg r s) = s_state s /\ s_timer (f_rereg r s) = s_timer s /\
  s_rcnt (f_rereg r s) = s_rcnt s.
Proof.
  unfold f_rereg, f_fin. cbv zeta. destruct (c_manual (r_cfg r)), (is_runtask_t (c_type (r_cfg r)) && c_sighup (r_cfg r)), (r_static r);
    match goal with |- context [if ?b then set_s_dirty true _ else _] => destruct b end; auto 10.
Qed.
Lemma tick_same s : let t := if is_daemon s && st_eqb (s_state s) Running && (0 <? s_rcnt s) then set_s_rcnt (s_rcnt s - 1) s else s in
  s_pid t = s_pid s /\ s_state t = s_state s /\ s_timer t = s_timer s /\ s_block t = s_block s /\ s_cf t = s_cf s.
Proof. cbv zeta. destruct (_ && _); auto 10. Qed.

Section C06.
Variable evs : list ev.
Hypothesis HT : tame evs.
Hypothesis HS : sockets_work evs.
Hypothesis HP : signal_stop evs.

Lemma cf_reg w s : binv evs w -> In s (recs (wc w)) -> exists r b, In r (regs evs) /\ s_cf s = set_c_sighup b (r_cfg r).
Proof. intros Hi Hs. exact (i_cf evs (wc w) Hi s Hs). Qed.
Lemma plain_stop w s : binv evs w -> In s (recs (wc w)) -> c_stop (s_cf s) = false /\ is_sysv s = false.
Proof.
  intros Hi Hs. destruct (cf_reg w s Hi Hs) as (r & b & Hr & E). destruct (HP r Hr) as [A B].
  unfold is_sysv, ty. rewrite E. cbn. split; [exact A|]. destruct (c_type (r_cfg r)); try reflexivity. contradiction B; reflexivity.
Qed.

Ltac flds := unfold upst; rewrite ?fenter_state, ?ftimeout_state, ?fenter_pid, ?ftimeout_pid, ?collect_pid;
  cbn [s_pid s_state set_s_timer set_s_starting f_clean f_cleanup set_s_dirty set_s_adirty f_incr set_s_rcnt set_s_oldpid
       set_s_rtot set_s_once set_s_killed set_s_rtmo f_fork set_s_block set_s_pid]; rewrite ?frtot_pid, ?frtot_state.

Lemma without_self p : without p [p] = [].
Proof. unfold without. cbn. rewrite Z.eqb_refl. reflexivity. Qed.
Lemma without_other p q : q <> p -> without p [q] = [q].
Proof. intros H. unfold without. cbn. apply Z.eqb_neq in H. rewrite H. reflexivity. Qed.

Lemma step06 e c j s l m s' l' m' : ~ In true (k_notes c) -> c_stop (s_cf s) = false -> is_sysv s = false ->
  J06 s l m -> step e c j s l m s' l' m' -> J06 s' l' m'.
Proof.
  intros Hn Hc Hv [A B] St. unfold J06.
  destruct St;
    try (split; [|solve [eachs]]; destruct A as [->|(-> & P & U)]; [left; reflexivity|];
      first [ exfalso; unfold upst in U; match goal with Hx : s_state s = _ |- _ => rewrite Hx in U; discriminate U end
            | exfalso; lia
            | exfalso; congruence
            | right; flds; split; [reflexivity|split; [exact P|]]; first [exact U|reflexivity] ]; fail).
  - (* a manual run/task *)
    split; [|eachs]. destruct A as [->|(-> & P & U)]; [left; reflexivity|]. unfold upst in U.
    destruct H1 as [H1|H1]; rewrite H1 in U; discriminate U.
  - split.
    + destruct A as [->|(-> & P & U)]; [left; reflexivity|]. exfalso. unfold upst in U.
      destruct f; cbn in H0; try contradiction; intuition;
        match goal with Hx : s_state s = _ |- _ => rewrite Hx in U; discriminate U end.
    + destruct f; try discriminate H; eachs.
  - split; [|eachs]. destruct A as [->|(-> & P & U)]; [left; reflexivity|]. exfalso. unfold upst in U.
    destruct f; cbn in H0; try contradiction; intuition;
      match goal with Hx : s_state s = _ |- _ => rewrite Hx in U; discriminate U end.
  - destruct A as [->|(-> & P & U)]; [|unfold upst in U; rewrite H in U; discriminate U].
    split; [right; flds; split; [reflexivity|split; [exact H1|reflexivity]]|].
    apply each_cons; [exact Logic.I|]. apply each_cons; [reflexivity|exact B].
  - destruct H4 as (t & E). exfalso. apply Hn. rewrite E. left. reflexivity.
  - split; [|eachs]. destruct (rc =? 0); exact A.
  - split; [|eachs]. left. destruct A as [->|(-> & P & U)]; [reflexivity|apply without_self].
  - split; [|eachs]. destruct A as [->|(-> & P & U)]; [left; reflexivity|right].
    destruct (Z.eq_dec (s_pid s) p) as [E|E]; [exfalso; apply H; lia|]. rewrite without_other by exact E. auto.
  - split; [|eachs]. unfold upst. destruct (mark_same s) as (-> & -> & _). exact A.
  - split; [|eachs]. unfold upst. destruct (rereg_same r s) as (-> & -> & _). exact A.
  - split; [|eachs]. unfold upst. destruct (affected_same n s) as (-> & -> & _). exact A.
  - split; [|eachs]. unfold upst. destruct (unavail_same c s) as (-> & -> & _). exact A.
  - split; [|eachs]. unfold upst. destruct (tick_same s) as (-> & -> & _). exact A.
Qed.

Lemma dull06 m x l : dull x = true -> P06 m x l.
Proof. destruct x; try exact (fun _ => Logic.I). destruct f; try exact (fun _ => Logic.I). discriminate. Qed.

Lemma reach06 cfgl cmdl j w : reach True (E evs) (init_world cfgl cmdl) w ->
  match find_key j (k_svcs (wc w)) with
  | Some s => J06 s (jl j (wl w)) (mine j (wc w))
  | None => N06 j (jl j (wl w)) (mine j (wc w))
  end.
Proof.
  apply (slice_ind evs HT cfgl cmdl j J06 (N06 j)).
  - split; [left; reflexivity|apply each_nil].
  - intros e w0 s l m s' l' m' He Hr Hf Hm A St. pose proof (inv_reach evs HT _ _ _ Hr) as Hi.
    destruct (plain_stop w0 s Hi) as [P1 P2]; [apply in_or_app; left; apply find_key_in in Hf; apply Hf|].
    eapply (step06 e (wc w0) j s l m); eauto. apply (sd_notes evs _ (side_reach evs HT _ _ _ Hr)), HS.
  - intros w0 s l m l' _ _ [A B] G. destruct G.
    + split; [|eachs]. destruct A as [->|(-> & P & U)]; [left; reflexivity|right]. exists (s_pid s), [s_pid s].
      split; [reflexivity|]. destruct (s_pid s =? 0) eqn:E0; [lia|left; reflexivity].
    + split; [|eachs]. destruct A as [->|(-> & P & U)]; [left; reflexivity|exfalso].
      unfold upst in U. destruct H0 as [Hx|[Hx _]]; rewrite Hx in U; discriminate U.
  - intros new l m [A B] D. split; [|apply each_app; [apply dull06|exact D|exact B]].
    destruct A as [->|(p & m0 & -> & A)]; [left; reflexivity|right]. exists p, m0. split; [reflexivity|]. apply in_or_app. auto.
  - intros l m p [A B]. split; [|exact B]. destruct A as [->|(q & m0 & -> & A)]; [left; reflexivity|].
    destruct (Z.eq_dec q p) as [->|E]; [left; apply without_self|right]. exists q, m0. split; [apply without_other, E|exact A].
  - intros w0 r l _ _ [_ A] _ _. split; [left; reflexivity|exact A].
Qed.

Lemma mine_in k p c : In (p, k) (k_mains c) -> In p (mine k c).
Proof.
  intros H. unfold mine. apply in_map_iff. exists (p, k). split; [reflexivity|]. apply filter_In. split; [exact H|]. apply Nat.eqb_refl.
Qed.
Lemma jl_in j m x l : In (m, x) (jl j l) -> exists c, In (c, x) l.
Proof.
  induction l as [|[c y] l IH]; [intros []|]. cbn [jl]. destruct (about j y).
  - intros [E|H]; [inversion E; subst; exists c; left; reflexivity|]. destruct (IH H) as (c' & Hc). exists c'. right. exact Hc.
  - intros H. destruct (IH H) as (c' & Hc). exists c'. right. exact Hc.
Qed.

Theorem one_main_lem n cfgl cmdl w k p c older : history n evs cfgl cmdl w ->
  happened w c (EFork k FMain p) older -> forall q, ~ In (q, k) (k_mains c).
Proof.
  intros Hh Hp q Hq. apply (run_tame evs HT) in Hh. pose proof (reach06 cfgl cmdl k w Hh) as X.
  destruct (jl_happened k w c (EFork k FMain p) older Hp) as (newer & En); [unfold about; cbn [keyof]; apply Nat.eqb_refl|].
  assert (Y : each P06 (jl k (wl w))) by (destruct (find_key k (k_svcs (wc w))); apply X).
  specialize (Y _ _ _ _ En). cbn in Y. apply mine_in in Hq. rewrite Y in Hq. exact Hq.
Qed.
Theorem main_known_lem n cfgl cmdl w k p : history n evs cfgl cmdl w -> In (p, k) (k_mains (wc w)) ->
  (exists s, In s (k_svcs (wc w)) /\ s_key s = k /\ s_pid s = p /\ In (s_state s) [Running; Paused; Stopping]) \/
  (exists c older, happened w c (EForget k p) older).
Proof.
  intros Hh Hp. apply (run_tame evs HT) in Hh. pose proof (reach06 cfgl cmdl k w Hh) as X. apply mine_in in Hp.
  destruct (find_key k (k_svcs (wc w))) as [s|] eqn:Ef.
  - left. destruct X as [[A|(A & _ & U)] _]; rewrite A in Hp; [destruct Hp|]. destruct Hp as [<-|[]].
    apply find_key_in in Ef. exists s. split; [apply Ef|]. split; [apply Ef|]. split; [reflexivity|].
    unfold upst in U. destruct (s_state s); try discriminate U; cbn; auto.
  - right. destruct X as [[A|(q & m0 & A & X)] _]; rewrite A in Hp; [destruct Hp|]. destruct Hp as [<-|[]].
    apply jl_in in X. destruct X as (c & X). apply in_split in X. destruct X as (l1 & l2 & X). exists c, l2, l1. exact X.
Qed.
Theorem one_process_lem n cfgl cmdl w s t p q : history n evs cfgl cmdl w ->
  In s (k_svcs (wc w)) -> In t (k_svcs (wc w)) -> identity s = identity t ->
  In (p, s_key s) (k_mains (wc w)) -> In (q, s_key t) (k_mains (wc w)) -> p = q /\ p = s_pid s.
Proof.
  intros Hh Hs Ht Hi Hp Hq. pose proof (identity_unique_lem _ _ _ _ _ _ _ Hh Hs Ht Hi) as <-.
  pose proof (run_tame evs HT _ _ _ _ Hh) as Hr. pose proof (reach06 cfgl cmdl (s_key s) w Hr) as X.
  rewrite (find_in evs w s (inv_reach evs HT _ _ _ Hr) Hs) in X. apply mine_in in Hp. apply mine_in in Hq.
  destruct X as [[A|(A & _ & _)] _]; rewrite A in Hp, Hq; [destruct Hp|]. destruct Hp as [<-|[]]. destruct Hq as [<-|[]]. auto.
Qed.
End C06.

(** only stanzas for runlevel S alone are deleted while they have a process *)
Theorem forget_lem n evs cfgl cmdl w k p c older : history n evs cfgl cmdl w ->
  happened w c (EForget k p) older -> exists s, record_at c k s /\ s_pid s = p /\ only_boot (c_levels (s_cf s)) = true.
Proof.
  intros Hh Hp. destruct (happened_facts _ _ _ _ _ _ _ _ Hh Hp) as (e & He & F). cbn in F.
  destruct F as (s & A & B & C & D). exists s. split; [apply lookup_record, A|]. split; [exact B|]. apply D.
Qed.
