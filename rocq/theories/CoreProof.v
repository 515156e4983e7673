(** Proofs about every history of the supervisor: C01, C02, C07, C12, C20, C21. *)
From Coq Require Import List String Ascii ZArith NArith Bool Lia Arith Relations.
From Coq Require Import ZifyBool ZifyNat.
From Verif Require Import CondModel CondProof CoreTypes CoreModel CoreLib CoreMicro CoreExec CoreCalm CoreLog
  CoreSpec CoreAny.
Import ListNotations.
Local Open Scope Z_scope.

(** ** Generalities *)

Lemma happened_facts n evs cfgl cmdl w c x older :
  history n evs cfgl cmdl w -> happened w c x older ->
  exists e, In e evs /\ fact False e c x older.
Proof.
  intros Hh (newer & Hl). apply run_any in Hh.
  exact (reach_facts False _ (init_world cfgl cmdl) _ eq_refl Hh _ _ _ _ Hl).
Qed.
Lemma happened_facts_tame n evs cfgl cmdl w c x older : tame evs ->
  history n evs cfgl cmdl w -> happened w c x older ->
  exists e, In e evs /\ fact True e c x older.
Proof.
  intros HT Hh (newer & Hl). apply (run_tame evs HT) in Hh.
  exact (reach_facts True _ (init_world cfgl cmdl) _ eq_refl Hh _ _ _ _ Hl).
Qed.

Lemma history_uinv n evs cfgl cmdl w : history n evs cfgl cmdl w -> uinv w.
Proof. intros H. apply run_any in H. eapply reach_uinv; [apply uinv_init|exact H]. Qed.
Lemma happened_ubase n evs cfgl cmdl w c x older :
  history n evs cfgl cmdl w -> happened w c x older -> ubase (mkWorld c older).
Proof. intros Hh (newer & Hl). eapply u_hist; [eapply history_uinv, Hh|exact Hl]. Qed.

Lemma lookup_record c k s : lookup_svc c k = Some s -> record_at c k s.
Proof. intros H. apply lookup_in in H. exact H. Qed.

Lemma happened_trans w c x older c' x' older' newer :
  happened w c x older -> older = newer ++ (c', x') :: older' -> happened w c' x' older'.
Proof.
  intros (n1 & H1) ->. exists (n1 ++ (c, x) :: newer). rewrite H1, <- app_assoc. reflexivity.
Qed.

Lemma run_app n l1 l2 w : run n (l1 ++ l2) w = bind (run n l1) (fun _ => run n l2) w.
Proof.
  revert w. induction l1 as [|e l1 IH]; intros w; [reflexivity|].
  cbn [app run]. unfold bind at 1 2 3. destruct (on_event n e w) as [[[] w1]|]; [|reflexivity].
  rewrite IH. reflexivity.
Qed.
Lemma run_one n e w : run n [e] w = on_event n e w.
Proof. cbn [run]. unfold bind at 1. destruct (on_event n e w) as [[[] w1]|]; reflexivity. Qed.

(** the log only grows *)
Lemma reach_logs calm E w w' : reach calm E w w' -> exists new, wl w' = new ++ wl w.
Proof.
  revert w'. apply (reach_ind calm E (fun w' => exists new, wl w' = new ++ wl w)).
  - exists []. reflexivity.
  - intros e w1 w2 _ Hm _ (new & IH). destruct (micro_facts calm e w1 w2 Hm) as (n2 & E2 & _).
    exists (n2 ++ new). rewrite E2, IH, app_assoc. reflexivity.
Qed.

Lemma app_eq_split {A} (a b c d : list A) : a ++ b = c ++ d ->
  (exists t, c = a ++ t /\ b = t ++ d) \/ (exists t, a = c ++ t /\ d = t ++ b).
Proof.
  revert c. induction a as [|x a IH]; intros c H.
  - left. exists c. auto.
  - destruct c as [|y c].
    + right. exists (x :: a). auto.
    + cbn in H. inversion H; subst. destruct (IH c H2) as [(t & -> & ->)|(t & -> & ->)].
      * left. exists t. auto.
      * right. exists t. auto.
Qed.

Lemma happened_during n evs cfgl cmdl w c x older :
  history n evs cfgl cmdl w -> happened w c x older ->
  exists e, during n evs cfgl cmdl e c x older.
Proof.
  revert w. induction evs as [|e evs IH] using rev_ind; intros w Hh (newer & Hl).
  - unfold history in Hh. cbn in Hh. inversion Hh; subst. destruct newer; discriminate.
  - unfold history in Hh. rewrite run_app in Hh. unfold bind in Hh.
    destruct (run n evs (init_world cfgl cmdl)) as [[[] w1]|] eqn:E1; [|discriminate].
    rewrite run_one in Hh. pose proof Hh as Hh'. apply event_any, reach_logs in Hh. destruct Hh as (new & En).
    rewrite En in Hl. apply app_eq_split in Hl. destruct Hl as [(t & E2 & E3)|(t & E2 & E3)].
    + (* earlier *)
      destruct (IH w1 E1 (ex_intro _ t E3)) as (e0 & b & a & v1 & v2 & nn & rr & A & B).
      exists e0, b, (a ++ [e]), v1, v2, nn, rr. rewrite A, <- app_assoc. split; [reflexivity|exact B].
    + destruct t as [|y t].
      * (* earlier, at the border *)
        cbn in E3. destruct (IH w1 E1 (ex_intro _ [] (eq_sym E3))) as (e0 & b & a & v1 & v2 & nn & rr & A & B).
        exists e0, b, (a ++ [e]), v1, v2, nn, rr. rewrite A, <- app_assoc. split; [reflexivity|exact B].
      * cbn in E3. inversion E3; subst y older. exists e, evs, [], w1, w, newer, t.
        repeat split; auto. rewrite En, E2, <- app_assoc. reflexivity.
Qed.

Lemma during_facts n evs cfgl cmdl e c x older :
  during n evs cfgl cmdl e c x older -> fact False e c x older.
Proof.
  intros (b & a & w1 & w2 & newer & recent & _ & _ & He & Hl & Hr).
  apply event_any in He.
  assert (G : forall w, reach False (eq e) w1 w -> forall l1 r, wl w = l1 ++ (c, x) :: r ++ wl w1 -> fact False e c x (r ++ wl w1)).
  { apply (reach_ind False (eq e) (fun w => forall l1 r, wl w = l1 ++ (c, x) :: r ++ wl w1 -> fact False e c x (r ++ wl w1))).
    - intros l1 r H. exfalso. apply (f_equal (@List.length _)) in H. rewrite app_length in H. cbn in H.
      rewrite app_length in H. lia.
    - intros e0 v v' <- Hm Hv IH l1 r Hl'.
      destruct (micro_facts False e v v' Hm) as (new & En & Hf). rewrite En in Hl'. clear En Hm.
      revert l1 Hl'. induction new as [|(c1, x1) new IHn]; intros l1 Hl'.
      + exact (IH _ _ Hl').
      + destruct l1 as [|y l1]; cbn in Hl', Hf; destruct Hf as [Hf1 Hf2]; inversion Hl'; subst.
        * congruence.
        * eapply IHn; eauto. }
  subst older. eapply G; eauto.
Qed.

(** the same for tame histories *)
Lemma run_binv evs (HT : tame evs) n l w0 w : incl l evs -> run n l w0 = Some (tt, w) ->
  binv evs w0 -> at_rest w0 -> binv evs w /\ at_rest w.
Proof.
  revert w0. induction l as [|e l IH]; intros w0 Hi Hr Hb Ha.
  - cbn in Hr. inversion Hr; subst. auto.
  - cbn [run] in Hr. unfold bind at 1 in Hr. destruct (on_event n e w0) as [[[] w1]|] eqn:E1; [|discriminate].
    assert (He : In e evs) by (apply Hi; left; reflexivity).
    destruct (event_tame evs HT n e w0 w1 He Hb Ha E1) as [R Ha1].
    eapply IH; [intros x Hx; apply Hi; right; exact Hx|exact Hr| |exact Ha1].
    revert w1 E1 Hr R Ha1. intros w1 _ _ R _. revert w1 R.
    apply (reach_ind True (eq e) (fun w1 => binv evs w1)); [exact Hb|].
    intros e1 v v' <- Hm _ Hv. apply (inv_micro evs HT e v v' He Hm Hv).
Qed.

Lemma reach_recent_facts calm e w1 w c x r l1 : reach calm (eq e) w1 w ->
  wl w = l1 ++ (c, x) :: r ++ wl w1 -> fact calm e c x (r ++ wl w1).
Proof.
  intros Hr. revert l1 r. revert w Hr.
  apply (reach_ind calm (eq e) (fun w => forall l1 r, wl w = l1 ++ (c, x) :: r ++ wl w1 -> fact calm e c x (r ++ wl w1))).
  - intros l1 r H. exfalso. apply (f_equal (@List.length _)) in H. rewrite app_length in H. cbn in H.
    rewrite app_length in H. lia.
  - intros e0 v v' <- Hm Hv IH l1 r Hl'.
    destruct (micro_facts calm e v v' Hm) as (new & En & Hf). rewrite En in Hl'. clear En Hm.
    revert l1 Hl'. induction new as [|(c1, x1) new IHn]; intros l1 Hl'.
    + exact (IH _ _ Hl').
    + destruct l1 as [|y l1]; cbn in Hl', Hf; destruct Hf as [Hf1 Hf2]; inversion Hl'; subst.
      * congruence.
      * eapply IHn; eauto.
Qed.

Lemma during_facts_tame n evs cfgl cmdl e c x older : tame evs ->
  during n evs cfgl cmdl e c x older -> fact True e c x older.
Proof.
  intros HT (b & a & w1 & w2 & newer & recent & Ee & Hb & He & Hl & Hr).
  subst older. eapply reach_recent_facts; [|exact Hl].
  assert (Hin : In e evs) by (rewrite Ee; apply in_or_app; right; left; reflexivity).
  assert (X : binv evs w1 /\ at_rest w1);
    [|destruct X as [X1 X2]; exact (proj1 (event_tame evs HT n e w1 w2 Hin X1 X2 He))].
  eapply (run_binv evs HT n b); [|exact Hb|apply inv_init|apply rest_init].
  intros y Hy. rewrite Ee. apply in_or_app. left. exact Hy.
Qed.

(** ** C01 *)

Lemma blk_none s : blocked s = false -> s_block s = BNone.
Proof. unfold blocked. destruct (s_block s); [reflexivity| discriminate ..]. Qed.

Lemma enabled_may_start c s : enabled c s = true -> may_start c s.
Proof.
  unfold enabled. rewrite !andb_true_iff, !negb_true_iff. intros ((((H1 & H2) & H3) & H4) & H5).
  constructor.
  - exact H1.
  - exact H2.
  - apply blk_none, H3.
  - intros g Hg. unfold ifthen_run in H4. rewrite forallb_forall in H4. specialize (H4 g Hg).
    unfold guard_holds. destruct (fst g); apply negb_true_iff in H4; intros E; rewrite E in H4; discriminate.
  - intros Ht. unfold is_tty, ty in H5. rewrite Ht in H5. exact H5.
Qed.

Lemma memZ_false p l : memZ p l = false -> ~ In p l.
Proof.
  unfold memZ. intros H Hi. assert (X : existsb (Z.eqb p) l = true).
  { apply existsb_exists. exists p. split; [exact Hi|apply Z.eqb_refl]. }
  congruence.
Qed.
Lemma mem_str_false x l : mem_str x l = false -> ~ In x l.
Proof.
  unfold mem_str. intros H Hi. assert (X : existsb (String.eqb x) l = true).
  { apply existsb_exists. exists x. split; [exact Hi|apply String.eqb_refl]. }
  congruence.
Qed.

Theorem start_gate_lem n evs cfgl cmdl w k p c older :
  history n evs cfgl cmdl w -> happened w c (EFork k FMain p) older ->
  exists s, record_at c k s /\ may_start c s /\ k_norespawn c = false /\
            ~ In (ident_of (c_name (s_cf s)) (c_id (s_cf s))) (k_unavail c) /\
            1 < p /\ ~ In p (k_procs c).
Proof.
  intros Hh Hp. destruct (happened_facts _ _ _ _ _ _ _ _ Hh Hp) as (e & _ & [F1 F2] & s & A & _ & B & C & _ & D & _).
  exists s. split; [apply lookup_record, A|]. split; [apply enabled_may_start, B|]. split; [exact C|].
  split; [apply mem_str_false, D|]. split; [exact F1|apply memZ_false, F2].
Qed.

(** ** C02 *)

Lemma agg_conds_on c s : agg c s = COn -> conds_on c s.
Proof. unfold agg, cond_get_agg. intros H. exact (proj2 (proj1 (agg_on _ _ _) H)). Qed.

Lemma laststate_change k l new : laststate k l = new -> new <> Halted ->
  exists c old older, last_change k l c old new older.
Proof.
  induction l as [|[c x] l IH]; intros H Hn; [cbn in H; congruence|].
  assert (G : laststate k l = new -> (forall o m, x <> EState k o m) ->
              exists c old older, last_change k ((c, x) :: l) c old new older \/ last_change k l c old new older).
  { intros H1 _. destruct (IH H1 Hn) as (c1 & o1 & l1 & A). exists c1, o1, l1. right. exact A. }
  assert (G2 : laststate k l = new -> (forall o m, x <> EState k o m) ->
              exists c1 old older, last_change k ((c, x) :: l) c1 old new older).
  { intros H1 H2. destruct (IH H1 Hn) as (c1 & o1 & l1 & nn & A & B). exists c1, o1, l1, ((c, x) :: nn).
    rewrite A. split; [reflexivity|]. intros c' o m [E|E]; [inversion E; subst; eapply H2; reflexivity|eapply B, E]. }
  clear G. cbn [laststate] in H. destruct x; try (apply G2; [exact H|discriminate]).
  destruct (Nat.eqb k0 k) eqn:E.
  - apply Nat.eqb_eq in E. subst k0 new0. exists c, old, l, []. split; [reflexivity|]. intros c' o m [].
  - apply G2; [exact H|]. intros o m X. inversion X; subst. rewrite Nat.eqb_refl in E. discriminate.
Qed.

Theorem waiting_gate_lem n evs cfgl cmdl w k c old new older :
  history n evs cfgl cmdl w -> happened w c (EState k old new) older -> new = Setup \/ new = Starting ->
  old = Waiting /\ leaves_waiting c k new \/ old = Setup /\ new = Starting /\ pre_done c k.
Proof.
  intros Hh Hp Hn. destruct (happened_facts _ _ _ _ _ _ _ _ Hh Hp) as (e & _ & s & A & B & _ & _ & Hd).
  apply lookup_record in A. revert Hn B.
  destruct Hd; intros [Hn|Hn] <-; try discriminate.
  - right. split; [assumption|]. split; [reflexivity|]. exists s. split; [exact A|]. split; [assumption|].
    split; [apply enabled_may_start; assumption|]. split; [assumption|].
    destruct (s_status s); [cbn in *; congruence|discriminate].
  - left. split; [assumption|]. exists s. split; [exact A|]. split; [assumption|].
    split; [apply enabled_may_start; assumption|]. split; [apply agg_conds_on; assumption|]. auto.
  - left. split; [assumption|]. exists s. split; [exact A|]. split; [assumption|].
    split; [apply enabled_may_start; assumption|]. split; [apply agg_conds_on; assumption|]. auto.
  - exfalso. destruct (rc =? 1); discriminate.
  - exfalso. destruct (rc =? 1); discriminate.
Qed.

Lemma last_change_happened w c x older k c1 o1 n1 l1 :
  happened w c x older -> last_change k older c1 o1 n1 l1 -> happened w c1 (EState k o1 n1) l1.
Proof. intros H (newer & E & _). eapply happened_trans; eauto. Qed.

Theorem start_chain_lem n evs cfgl cmdl w k p c older :
  history n evs cfgl cmdl w -> happened w c (EFork k FMain p) older ->
  exists c1 old l1, last_change k older c1 old Starting l1 /\
    (old = Waiting /\ leaves_waiting c1 k Starting \/
     old = Setup /\ pre_done c1 k /\
     exists c2 l2, last_change k l1 c2 Waiting Setup l2 /\ leaves_waiting c2 k Setup).
Proof.
  intros Hh Hp. destruct (happened_facts _ _ _ _ _ _ _ _ Hh Hp) as (e & _ & _ & s & A & B & _).
  apply lookup_in in A. destruct A as [A Ek].
  pose proof (u_state _ (happened_ubase _ _ _ _ _ _ _ _ Hh Hp) s A) as Es. cbn [wl] in Es.
  rewrite Ek, B in Es. symmetry in Es.
  destruct (laststate_change k older Starting Es ltac:(discriminate)) as (c1 & o1 & l1 & HL).
  exists c1, o1, l1. split; [exact HL|].
  pose proof (last_change_happened _ _ _ _ _ _ _ _ _ Hp HL) as Hp1.
  destruct (waiting_gate_lem _ _ _ _ _ _ _ _ _ _ Hh Hp1 (or_intror eq_refl)) as [[E1 L1]|(E1 & _ & D1)]; [left; auto|].
  right. split; [exact E1|]. split; [exact D1|]. destruct D1 as (s1 & [I1 K1] & S1 & _).
  pose proof (u_state _ (happened_ubase _ _ _ _ _ _ _ _ Hh Hp1) s1 I1) as Es1. cbn [wl] in Es1.
  rewrite K1, S1 in Es1. symmetry in Es1.
  destruct (laststate_change k l1 Setup Es1 ltac:(discriminate)) as (c2 & o2 & l2 & HL2).
  pose proof (last_change_happened _ _ _ _ _ _ _ _ _ Hp1 HL2) as Hp2.
  destruct (waiting_gate_lem _ _ _ _ _ _ _ _ _ _ Hh Hp2 (or_introl eq_refl)) as [[E2 L2]|(_ & E2 & _)]; [|discriminate].
  subst o2. exists c2, l2. auto.
Qed.

(** ** C20 *)

Theorem stop_phase_lem n evs cfgl cmdl w k c new older :
  history n evs cfgl cmdl w -> happened w c (EState k Waiting new) older -> new = Setup \/ new = Starting ->
  in_stop_phase older = false.
Proof.
  intros Hh Hp Hn. apply (u_phase _ (happened_ubase _ _ _ _ _ _ _ _ Hh Hp)). cbn [wc].
  destruct (waiting_gate_lem _ _ _ _ _ _ _ _ _ _ Hh Hp Hn) as [[_ (s & _ & _ & _ & _ & A & _)]|(E & _)]; [exact A|discriminate].
Qed.

Lemma lastmark_latest l m : lastmark l = Some m ->
  exists c x, latest_mark l c x /\ eff_mark x = Some m.
Proof.
  induction l as [|[c x] l IH]; cbn [lastmark]; [discriminate|].
  destruct (eff_mark x) as [m'|] eqn:E.
  - intros H. inversion H; subst m'. exists c, x. split; [|exact E]. exists [], l. split; [reflexivity|].
    split; [|cbn; tauto]. destruct x; try discriminate; auto.
  - intros H. destruct (IH H) as (c1 & x1 & (nn & oo & A & B & C) & D). exists c1, x1. split; [|exact D].
    exists ((c, x) :: nn), oo. split; [rewrite A; reflexivity|]. split; [exact B|].
    intros c'. destruct (C c') as (C1 & C2 & C3). cbn [In].
    repeat split; (intros [X|X]; [inversion X; subst; discriminate|tauto]).
Qed.

Theorem start_phase_lem n evs cfgl cmdl w c older : tame evs ->
  history n evs cfgl cmdl w -> happened w c EStartBegin older ->
  exists c1, latest_mark older c1 EStopEnd /\
    forall s, In s (k_svcs c1) -> s_state s = Stopping -> s_pid s <= 1.
Proof.
  intros HT Hh Hp. destruct (happened_facts_tame _ _ _ _ _ _ _ _ HT Hh Hp) as (e & _ & F).
  destruct (F I) as [_ F2]. apply lastmark_latest in F2. destruct F2 as (c1 & x & Hm & Ex).
  assert (x = EStopEnd) by (destruct x; try discriminate; reflexivity). subst x.
  exists c1. split; [exact Hm|]. destruct Hm as (nn & oo & A & _).
  destruct (happened_facts_tame _ _ _ _ _ _ _ _ HT Hh (happened_trans _ _ _ _ _ _ _ _ Hp A)) as (e1 & _ & _ & F3).
  intros s Hs Hst. destruct (Z.leb_spec (s_pid s) 1) as [|Hgt]; [assumption|exfalso].
  assert (X : stop_pending c1 = true); [|congruence].
  unfold stop_pending. apply existsb_exists. exists s. split; [exact Hs|]. rewrite Hst. cbn. apply Z.ltb_lt, Hgt.
Qed.
