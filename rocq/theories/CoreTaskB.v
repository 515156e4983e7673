(** C19: completing and reporting the result are one. *)
From Coq Require Import List String Ascii ZArith NArith Bool Lia Arith Relations.
From Coq Require Import ZifyBool ZifyNat.
From Verif Require Import CondModel CoreTypes CoreModel CoreLib CoreMicro CoreExec CoreCalm CoreLog
  CoreSpec CoreSpecB CoreAny CoreProof CoreSlice CoreStay CoreSide CoreOne CoreTask.
Import ListNotations.
Local Open Scope Z_scope.

(** entries that are neither *)
Definition dim (x : eff) : bool :=
  match x with EState _ _ Done => false | ECond (OpOneshot n) => negb (task_cond n) | _ => true end.
Definition adds (w w' : world) : Prop := exists new, wl w' = new ++ wl w /\ Forall (fun a => dim (snd a) = true) new.

Lemma adds_refl w : adds w w.
Proof. exists []. split; [reflexivity|constructor]. Qed.
Lemma adds_emit w0 w x : dim x = true -> adds w0 w -> adds w0 (wemit x w).
Proof. intros D (new & A & B). exists ((wc w, x) :: new). cbn [wemit wl]. rewrite A. split; [reflexivity|constructor; [exact D|exact B]]. Qed.
Lemma adds_mod w0 w g : adds w0 w -> adds w0 (wmod g w).
Proof. intros H. exact H. Qed.
Lemma adds_upd w0 w k f : adds w0 w -> adds w0 (wupd k f w).
Proof. intros H. exact H. Qed.
Lemma adds_went w0 w k n : st_eqb n Done = false -> adds w0 w -> adds w0 (went k n w).
Proof.
  intros N H. unfold went. destruct (lookup_svc (wc w) k) as [s|]; [|exact H]. unfold wenter. cbv zeta.
  unfold wtimeout, wcancel.
  assert (D : dim (EState k (s_state s) n) = true) by (destruct n; try reflexivity; discriminate N).
  destruct (st_eqb n Stopping), (st_eqb (s_state s) n); try exact H; apply adds_upd, adds_emit; try exact D; exact H.
Qed.
Ltac ad1 :=
  match goal with
  | H : adds _ ?w |- adds _ ?w' => constr_eq w w'; exact H
  | |- adds ?w ?w' => constr_eq w w'; apply adds_refl
  | |- adds _ (wemit _ _) => apply adds_emit; [reflexivity|]
  | |- adds _ (went _ _ _) => apply adds_went; [reflexivity|]
  | |- adds _ (wupd _ _ _) => apply adds_upd
  | |- adds _ (wmod _ _) => apply adds_mod
  | |- adds _ (if ?b then _ else _) => destruct b
  | |- adds _ (match ?b with _ => _ end) => destruct b
  end.
Ltac ad := unfold w_aux, w_collect, w_forked, w_prep, wcleanup, wcancel, wblock, wclean, wtimeout, wscript, wcond, wfork_fail, wfork_ok; cbv zeta; repeat ad1.

Lemma prefix_first a b n : String.prefix (String a n) b = true -> exists t, b = String a t.
Proof. destruct b as [|c b]; [discriminate|]. cbn. destruct (ascii_dec a c) as [->|]; [eauto|discriminate]. Qed.
Lemma not_task c t : Ascii.eqb c "r" = false -> Ascii.eqb c "t" = false -> task_cond (String c t) = false.
Proof.
  intros A B. unfold task_cond. apply orb_false_iff. split.
  - destruct (String.prefix "run/" (String c t)) eqn:E; [|reflexivity]. apply prefix_first in E. destruct E as (u & E). injection E as -> _. discriminate A.
  - destruct (String.prefix "task/" (String c t)) eqn:E; [|reflexivity]. apply prefix_first in E. destruct E as (u & E). injection E as -> _. discriminate B.
Qed.

Section C19.
Variable evs : list ev.
Hypothesis HT : tame evs.
Hypothesis HQ : forall n, task_cond n = true -> ~ In (EvCondOneshot n) evs.

Lemma cond_dim e w o : In e evs -> cwhy True e w o -> dim (ECond o) = true.
Proof.
  intros He H. destruct H; try reflexivity;
   try (match goal with H : clears _ _ |- _ => destruct H as [->|(q & -> & _)]; reflexivity end).
  - destruct h; reflexivity.
  - subst e. cbn [dim]. destruct (task_cond n) eqn:E; [|reflexivity]. destruct (HQ n E He).
Qed.

Lemma micro_adds e w w' : In e evs -> micro True e w w' ->
  adds w w' \/ exists k s, L w k s /\ is_runtask s = true /\ s_state s = Stopping /\ s_pid s = 0 /\ In k (keys (wc w)) /\ w' = w_done k s w.
Proof.
  intros He Hm. destruct Hm; try (left; ad; fail).
  - right. destruct (H1 Logic.I) as [A B]. exists k, s. auto 10.
  - left. apply adds_went; [destruct (c_pre (s_cf s)); reflexivity|apply adds_refl].
  - left. subst w1. destruct (rc =? 1); ad.
  - left. unfold wcond. apply adds_mod, adds_emit; [eapply cond_dim; eauto|apply adds_refl].
Qed.

Hypothesis HS : sockets_work evs.
Hypothesis HB : bare_tasks evs.

Definition good_entry (newer : log) (c : core) (x : eff) (older : log) : Prop :=
  match x with
  | EState k _ Done => exists newer' c' s st, newer = newer' ++ [(c', ECond (OpOneshot (result_name s st)))] /\
      record_at c k s /\ outcome_of k older = Ended st
  | ECond (OpOneshot n) => task_cond n = true -> exists k o c' older' s st, older = (c', EState k o Done) :: older' /\
      record_at c' k s /\ n = result_name s st /\ outcome_of k older' = Ended st
  | _ => True
  end.
Definition good_log (w : world) : Prop := forall newer c x older, wl w = newer ++ (c, x) :: older -> good_entry newer c x older.

Lemma good_more new newer c x older : good_entry newer c x older -> good_entry (new ++ newer) c x older.
Proof.
  destruct x; try exact (fun h => h). destruct new0; try exact (fun h => h). cbn.
  intros (n' & c' & s & st & -> & A & B). exists (new ++ n'), c', s, st. rewrite app_assoc. auto.
Qed.
Lemma dim_good newer c x older : dim x = true -> good_entry newer c x older.
Proof.
  destruct x; try exact (fun _ => Logic.I).
  - destruct new; try exact (fun _ => Logic.I). discriminate.
  - destruct o; try exact (fun _ => Logic.I). cbn. destruct (task_cond n); discriminate.
Qed.
Lemma split_app {A} (n a : list A) y b o : n ++ y :: o = a ++ b ->
  (exists m, a = n ++ y :: m /\ o = m ++ b) \/ exists m, n = a ++ m /\ b = m ++ y :: o.
Proof.
  revert n. induction a as [|z a IH]; intros n E.
  - right. exists n. cbn in E. auto.
  - destruct n as [|u n]; cbn in E.
    + injection E as -> ->. left. exists a. auto.
    + injection E as -> E. destruct (IH _ E) as [(m & -> & ->)|(m & -> & ->)]; [left|right]; exists m; auto.
Qed.
Lemma good_adds w w' : adds w w' -> good_log w -> good_log w'.
Proof.
  intros (new & E & F) H newer c x older E'. rewrite E in E'. symmetry in E'.
  destruct (split_app newer new (c, x) (wl w) older E') as [(m & -> & ->)|(m & -> & E2)].
  - apply dim_good. rewrite Forall_forall in F. apply (F (c, x)). apply in_or_app. right. left. reflexivity.
  - apply good_more, H, E2.
Qed.

Lemma done_wl k s w : L w k s -> s_state s = Stopping ->
  exists c c' t, wl (w_done k s w) = (c', ECond (OpOneshot (if succeeded s then successcond s else failurecond s))) ::
    (c, EState k Stopping Done) :: wl w /\ lookup_svc c k = Some t /\ s_cf t = s_cf s.
Proof.
  intros H1 H2. unfold w_done. cbv zeta. rewrite H2. cbn [st_eqb st_num Nat.eqb].
  set (wb := if c_manual (s_cf s) then wblock k BUser w else w).
  assert (HL : exists t, L wb k t /\ s_cf t = s_cf s /\ s_state t = Stopping).
  { subst wb. destruct (c_manual (s_cf s)); [exists (set_s_block BUser s)|exists s]; (split; [lk|auto]). }
  destruct HL as (t & HL & Ec & Es). assert (E : wl wb = wl w) by (subst wb; destruct (c_manual (s_cf s)); reflexivity).
  clearbody wb. unfold went. rewrite HL. unfold wenter. rewrite Es. cbn [st_eqb st_num Nat.eqb].
  unfold wcond, wmod, wupd, wmod, wemit. cbn [wl wc]. rewrite E. do 3 eexists. split; [reflexivity|]. split; [exact HL|exact Ec].
Qed.

Lemma result_eq s st : is_runtask s = true -> s_status s = st -> CoreTypes.s_started s = wifexited st ->
  forall t, s_cf t = s_cf s -> (if succeeded s then successcond s else failurecond s) = result_name t st.
Proof.
  intros R A B t E. unfold succeeded, result_name, successcond, failurecond, typestr, ident, ty. rewrite A, B, E.
  unfold is_runtask, ty in R. destruct st as [rc|sg]; cbn [wifexited wexitstatus andb].
  - destruct rc; cbn [Z.eqb]; destruct (c_type (s_cf s)); try discriminate R; reflexivity.
  - destruct (c_type (s_cf s)); try discriminate R; reflexivity.
Qed.

Lemma good_done k s w l m : L w k s -> is_runtask s = true -> s_state s = Stopping -> s_pid s = 0 ->
  J19 s l m -> l = jl k (wl w) -> good_log w -> good_log (w_done k s w).
Proof.
  intros HL R Hs Hp J -> H. destruct (done_wl k s w HL Hs) as (c & c' & t & E & Hk & Ec).
  destruct (J R) as (_ & _ & J3 & _). destruct J3 as (st & J3 & J4 & J5); [rewrite Hs; reflexivity|exact Hp|].
  rewrite <- res_jl in J3. pose proof (result_eq s st R J4 J5 t Ec) as Er. rewrite Er in E.
  intros newer c0 x older E'. rewrite E in E'. destruct newer as [|a newer]; cbn in E'.
  - injection E' as <- <- <-. intros _. exists k, Stopping, c, (wl w), t, st. split; [reflexivity|].
    split; [apply lookup_record, Hk|auto].
  - injection E' as <- E'. destruct newer as [|b newer]; cbn in E'.
    + injection E' as <- <- <-. exists [], c', t, st. split; [reflexivity|]. split; [apply lookup_record, Hk|exact J3].
    + injection E' as <- E'. apply (good_more [_; _] newer). apply H, E'.
Qed.

Lemma good_reach cfgl cmdl w : reach True (E evs) (init_world cfgl cmdl) w -> good_log w.
Proof.
  revert w. apply (reach_ind True (E evs) good_log).
  - intros newer c x older E. destruct newer; discriminate E.
  - intros e w w' He Hm Hr H. destruct (micro_adds e w w' He Hm) as [A|(k & s & A1 & A2 & A3 & A4 & A5 & ->)].
    + eapply good_adds; eauto.
    + pose proof (reach19 evs HT HS HB cfgl cmdl k w Hr) as J.
      destruct (find_key k (k_svcs (wc w))) as [s1|] eqn:Hf; [|destruct (not_key k w Hf k A5 eq_refl)].
      assert (s1 = s) by (pose proof (find_lookup _ _ _ Hf); unfold L in A1; congruence). subst s1.
      eapply good_done; eauto.
Qed.

(** when a run/task completes, its result is reported at once *)
Theorem task_reported_lem n cfgl cmdl w k o c newer older : history n evs cfgl cmdl w ->
  wl w = newer ++ (c, EState k o Done) :: older ->
  exists newer' c' s st, newer = newer' ++ [(c', ECond (OpOneshot (result_name s st)))] /\
    record_at c k s /\ outcome_of k older = Ended st.
Proof. intros Hh E. apply (run_tame evs HT) in Hh. exact (good_reach cfgl cmdl w Hh _ _ _ _ E). Qed.
Theorem task_result_lem n cfgl cmdl w c name older : history n evs cfgl cmdl w ->
  happened w c (ECond (OpOneshot name)) older -> task_cond name = true ->
  exists k o c' older' s st, older = (c', EState k o Done) :: older' /\
    record_at c' k s /\ name = result_name s st /\ outcome_of k older' = Ended st.
Proof. intros Hh (newer & E). apply (run_tame evs HT) in Hh. exact (good_reach cfgl cmdl w Hh _ _ _ _ E). Qed.
End C19.
