(** C49: when readiness is announced. *)
From Coq Require Import List String Ascii ZArith NArith Bool Lia Arith Relations.
From Coq Require Import ZifyBool ZifyNat.
From Verif Require Import CondModel CoreTypes CoreModel CoreLib CoreMicro CoreExec CoreCalm CoreLog
  CoreSpec CoreSpecB CoreAny CoreProof CoreProofD CoreGrow CoreAct CoreSpecF.
Import ListNotations.
Local Open Scope Z_scope.

Lemma tame_exec evs (HT : tame evs) e w : In e evs -> binv evs w -> exists rank,
  (forall w1 k s w2 j t m, reach True (eq e) w w1 -> L w1 k s -> reach True (eq e) w w2 -> L w2 j t -> owns s m ->
     cond_affects m (c_cond (s_cf t)) = true -> (rank (ident s) < rank (ident t))%nat) /\
  forall n nm w1 r, reach True (eq e) w w1 -> Cr True (eq e) w rank nm r ->
     wp (exec n (CUpdate nm)) (fun _ => P True (eq e) w rank r w1) w1.
Proof.
  intros He Hb. destruct (t_acyclic _ HT) as [rank Hrank]. exists rank.
  assert (IR : forall w1, reach True (eq e) w w1 -> inv evs (wc w1)).
  { apply reach_ind; [exact Hb|]. intros e1 w1 w2 <- Hm _ Hi. apply (inv_micro evs HT e w1 w2 He Hm Hi). }
  assert (HA : forall w1 k s w2 j t m, reach True (eq e) w w1 -> L w1 k s -> reach True (eq e) w w2 -> L w2 j t -> owns s m ->
     cond_affects m (c_cond (s_cf t)) = true -> (rank (ident s) < rank (ident t))%nat).
  { intros w1 k s w2 j t m R1 L1 R2 L2 Ho Haf.
      apply IR in R1, R2.
      destruct (i_cf _ _ R1 s (proj1 (lookup_in _ _ _ L1))) as (r0 & b0 & Hr0 & E0).
      destruct (i_cf _ _ R2 t (proj1 (lookup_in _ _ _ L2))) as (r1 & b1 & Hr1 & E1).
      assert (I0 : ident s = rident r0) by (unfold ident, rident; rewrite E0; reflexivity).
      assert (I1 : ident t = rident r1) by (unfold ident, rident; rewrite E1; reflexivity).
      rewrite I0, I1. apply Hrank; auto. exists m. split.
      + unfold owns, base_of, pidcond, readycond, servicedir, successcond, failurecond, typestr, ident, ty in *.
        rewrite E0 in Ho. exact Ho.
      + rewrite E1 in Haf. exact Haf. }
  split; [exact HA|]. intros n. refine (proj1 (proj2 (exec_all True (eq e) w rank _ _ _ e eq_refl n))).
  - intros _. exact HA.
  - intros _ w1 k s R1 Hf Hp. apply IR in R1. apply (i_alive _ _ R1); [|exact Hp].
    apply find_key_in in Hf. tauto.
  - intros _ w1 k s ms R1 HL Ht. apply IR in R1.
    destruct (lookup_in _ _ _ HL) as [Hin Hk]. apply in_app_or in Hin. destruct Hin as [Hin|Hin].
    + split; [rewrite <- Hk; apply in_map, Hin|].
      destruct (i_tm _ _ R1 s Hin) as [Z|Z]; [exfalso; eapply Z, Ht|exact Z].
    + exfalso. eapply (i_gc _ _ R1 s Hin), Ht.
Qed.

Lemma daemon_service s : a_service s -> is_daemon s = true.
Proof. unfold a_service, is_daemon, ty. intros [->| ->]; reflexivity. Qed.
Lemma service_daemon s : is_daemon s = true -> a_service s.
Proof. unfold a_service, is_daemon, ty. destruct (c_type (s_cf s)); try discriminate; auto. Qed.
Lemma name_ident s : name_of s = ident s. Proof. reflexivity. Qed.
Lemma pid_pidcond s : pid_name s = pidcond s. Proof. reflexivity. Qed.
Lemma ready_readycond s : ready_name s = readycond s. Proof. reflexivity. Qed.

Lemma ext_cset_n n nm : ext (c_set (exec n) nm).
Proof. apply ext_cset. intros cl. apply ext_exec. Qed.
Lemma ext_ready_n n k b : ext (service_ready (exec n) k b).
Proof. apply ext_ready. intros cl. apply ext_exec. Qed.

(** setting a condition logs it first *)
Lemma cset_first n nm w : wp (c_set (exec n) nm) (fun _ w' => exists newer, wl w' = newer ++ (wc w, ECond (OpSet nm)) :: wl w) w.
Proof.
  unfold c_set. apply wp_bind, wp_getc, wp_bind, wp_op. apply wp_ext; [|intros a w' (new & E)].
  - intros v a v' E. unfold when in E. destruct (fst _); [exact (ext_exec n _ _ _ _ E)|exact (ext_ret _ _ _ _ E)].
  - exists new. exact E.
Qed.
Lemma ready_first n k s w : L w k s -> is_daemon s = true ->
  wp (service_ready (exec n) k true) (fun _ w' => exists newer, wl w' = newer ++ (wc w, ECond (OpSet (readycond s))) :: wl w) w.
Proof.
  intros HL Hd. unfold service_ready. apply wp_with_svc; [|rewrite HL; discriminate].
  intros s0 Hs0. pose proof (L_fun _ _ _ _ HL Hs0) as <-. rewrite Hd. cbn [negb].
  apply wp_bind. eapply wp_mono; [apply cset_first|]. intros a w1 (new & E). apply wp_ext.
  - intros v b v' Ev. unfold when in Ev. destruct (c_ready (s_cf s)); [|exact (ext_ret _ _ _ _ Ev)]. revert Ev. apply (ltac:(exs) : ext (ready_script k)).
  - intros b w2 (new2 & E2). exists (new2 ++ new). rewrite E2, E, <- app_assoc. reflexivity.
Qed.

Section Events.
Variables (n : nat) (evs : list ev) (cfgl cmdl : Z) (w1 : world).
Hypothesis Hh : history n evs cfgl cmdl w1.
Hypothesis Ho : ~ over w1.

Lemma event_handle m e : on_event m e w1 = handle (exec m) e w1.
Proof. unfold on_event, bind. cbn. rewrite (not_over _ _ _ _ _ Hh Ho). reflexivity. Qed.

Theorem pidfile_first_lem m s p w2 : In s (k_svcs (wc w1)) -> c_notify (s_cf s) = NfPid -> c_forking (s_cf s) = false ->
  is_script_state (s_state s) = false -> s_state s <> Stopping ->
  on_event m (EvPidfile (s_key s) p) w1 = Some (tt, w2) -> asserted_first (pid_name s) w1 w2.
Proof.
  intros Hs Hn Hf Hsc Hst He. rewrite event_handle in He. cbn [handle] in He.
  pose proof (reg_lookup _ _ _ _ _ _ Hh Hs) as Ef.
  assert (X : wp (pidfile_write (exec m) (s_key s) p) (fun _ w' => asserted_first (pid_name s) w1 w') w1).
  { unfold pidfile_write, if_registered. apply wp_bind, wp_getc. rewrite Ef, Hsc.
    destruct (st_eqb (s_state s) Stopping) eqn:E; [apply st_eqb_eq in E; contradiction|].
    rewrite Hn, Hf. apply wp_bind, wp_upd, wp_bind, wp_ret, wp_bind.
    eapply wp_mono; [apply cset_first|]. intros a w' (new & El).
    apply wp_ext; [apply ext_ready_n|]. intros b w3 (new2 & E2). exists (new2 ++ new). eexists.
    rewrite E2, El, <- app_assoc. reflexivity. }
  unfold wp in X. rewrite He in X. exact X.
Qed.

Theorem notify_first_lem m s w2 : In s (k_svcs (wc w1)) -> c_notify (s_cf s) = NfSystemd \/ c_notify (s_cf s) = NfS6 -> a_service s ->
  on_event m (EvNotify (s_key s)) w1 = Some (tt, w2) -> asserted_first (ready_name s) w1 w2.
Proof.
  intros Hs Hn Hd He. rewrite event_handle in He. cbn [handle] in He. apply daemon_service in Hd.
  pose proof (reg_lookup _ _ _ _ _ _ Hh Hs) as Ef.
  pose proof (find_lookup _ _ _ Ef) as HL. change (L w1 (s_key s) s) in HL.
  assert (X : wp (notify_ready (exec m) (s_key s)) (fun _ w' => asserted_first (ready_name s) w1 w') w1).
  { unfold notify_ready, if_registered. apply wp_bind, wp_getc. rewrite Ef.
    destruct Hn as [-> | ->]; apply wp_bind, wp_upd; (eapply wp_mono; [apply (ready_first m _ (set_s_starting false s)); [lk|exact Hd]|]);
      intros a w' (new & El); exists new; eexists; exact El. }
  unfold wp in X. rewrite He in X. exact X.
Qed.

Theorem pidfile_gone_lem m s w2 : In s (k_svcs (wc w1)) -> is_script_state (s_state s) = false ->
  is_dir (k_cond (wc w1)) (cond_path (pid_name s)) = false ->
  on_event m (EvPidfileDel (s_key s)) w1 = Some (tt, w2) -> withdrawn_first (pid_name s) w1 w2.
Proof.
  intros Hs Hsc Hd He. rewrite event_handle in He. cbn [handle] in He.
  pose proof (reg_lookup _ _ _ _ _ _ Hh Hs) as Ef.
  pose proof (find_lookup _ _ _ Ef) as HL.
  assert (X : wp (pidfile_delete (exec m) (s_key s)) (fun _ w' => withdrawn_first (pid_name s) w1 w') w1).
  { unfold pidfile_delete, if_registered. apply wp_bind, wp_getc. rewrite Ef, Hsc.
    unfold pidfile_gone. apply wp_with_svc; [|rewrite HL; discriminate].
    intros s0 Hs0. rewrite HL in Hs0. injection Hs0 as <-. apply wp_bind. unfold c_clear. apply wp_bind, wp_getc.
    change (is_nop (pidcond s)) with false. rewrite pid_pidcond in Hd. rewrite Hd. apply wp_bind, wp_op.
    apply wp_ext.
    - intros v a v' Ev. unfold when in Ev. destruct (fst _); [exact (ext_exec m _ _ _ _ Ev)|exact (ext_ret _ _ _ _ Ev)].
    - intros a w' (new & El). apply wp_ext; [destruct (c_notify (s_cf s)); try apply ext_ret; apply ext_ready_n|].
      intros b w3 (new2 & E2). exists (new2 ++ new). eexists. rewrite E2, El, <- app_assoc. reflexivity. }
  unfold wp in X. rewrite He in X. exact X.
Qed.
End Events.

Theorem pidfile_ready_lem n evs cfgl cmdl w1 m s p w2 : tame (evs ++ [EvPidfile (s_key s) p]) -> history n evs cfgl cmdl w1 -> ~ over w1 ->
  In s (k_svcs (wc w1)) -> c_notify (s_cf s) = NfPid \/ c_notify (s_cf s) = NfNone -> c_forking (s_cf s) = false -> a_service s ->
  is_script_state (s_state s) = false -> s_state s <> Stopping ->
  on_event m (EvPidfile (s_key s) p) w1 = Some (tt, w2) -> asserted (ready_name s) w1 w2.
Proof.
  intros HT Hh Ho Hs Hn Hf Hd Hsc Hst He. rewrite (event_handle _ _ _ _ _ Hh Ho) in He. cbn [handle] in He. apply daemon_service in Hd.
  set (k := s_key s) in *. set (e := EvPidfile k p) in *. set (all := evs ++ [e]) in *.
  assert (Hin : In e all) by (apply in_or_app; right; left; reflexivity).
  assert (HB : binv all w1 /\ at_rest w1).
  { eapply (run_binv all HT n evs); [|exact Hh|apply inv_init|apply rest_init].
    intros y Hy. apply in_or_app. left. exact Hy. }
  destruct HB as [HB HR]. destruct (tame_exec all HT e w1 Hin HB) as (rank & HA & HU).
  pose proof (reg_lookup _ _ _ _ _ _ Hh Hs) as Ef.
  pose proof (find_lookup _ _ _ Ef) as HL. fold k in HL. change (L w1 k s) in HL.
  assert (X : wp (pidfile_write (exec m) k p) (fun _ w' => asserted (ready_name s) w1 w') w1).
  { unfold pidfile_write, if_registered. apply wp_bind, wp_getc. fold k in Ef. rewrite Ef, Hsc.
    destruct (st_eqb (s_state s) Stopping) eqn:E; [apply st_eqb_eq in E; contradiction|].
    rewrite Hf. destruct Hn as [Hn|Hn]; rewrite Hn.
    - apply wp_bind, wp_upd, wp_bind, wp_ret, wp_bind.
      set (w := wupd k (set_s_starting false) w1). set (s' := set_s_starting false s).
      assert (HL' : L w k s') by (subst w s'; lk).
      assert (Hr : reach True (eq e) w1 w) by (eapply (reach_mic True (eq e) w1 e eq_refl); [apply rt_refl|apply m_started]).
      eapply wp_mono.
      + apply wp_conj; [apply (cset_first m (pidcond s) w)|].
        apply (c_set_spec True (eq e) w1 rank e eq_refl (exec m)) with (r := S (rank (ident s')));
          [intros nm w0 r; apply HU|exact Hr| |].
        * apply (cw_pid True e w k s p eq_refl Hn). intros _. exists s'. auto.
        * intros _ v j t Rv Lv Hav. exact (HA w k s' v j t _ Hr HL' Rv Lv (owns_base s' _ (or_introl eq_refl)) Hav).
      + intros a w3 [(new & El) HP]. pose proof (P_keep _ _ _ _ _ _ _ _ HP HL' Logic.I) as HL3.
        eapply wp_mono; [apply (ready_first m k s' w3 HL3 Hd)|].
        intros b w4 (new2 & E2). exists new2. eexists. exists (new ++ [(wc w, ECond (OpSet (pidcond s)))]).
        rewrite E2, El, <- app_assoc. reflexivity.
    - apply wp_bind, wp_ret, wp_bind, wp_ret, wp_bind, wp_ret.
      eapply wp_mono; [apply (ready_first m k s w1 HL Hd)|].
      intros b w4 (new2 & E2). exists new2. eexists. exists []. exact E2. }
  unfold wp in X. rewrite He in X. exact X.
Qed.

Theorem set_why_lem n evs cfgl cmdl e c nm older : tame evs -> during n evs cfgl cmdl e c (ECond (OpSet nm)) older ->
  (exists k s, record_at c k s /\ a_service s /\ nm = ready_name s /\ readiness_reported e k s) \/
  (exists k s, record_at c k s /\ nm = pid_name s /\ pid_reported e k s) \/
  e = EvCondSet nm.
Proof.
  intros HT Hd. pose proof (during_facts_tame _ _ _ _ _ _ _ _ HT Hd) as F. cbn [fact] in F.
  destruct F as [F|(k & s & _ & _ & _ & E)]; [|discriminate E].
  inversion F as [k s n0 o _ _ _ HC E|s o _ HC E| |k s HLs Hdm HW E|s o _ HC E|k s p He Hn HL E| |s o HC E| | | |n0 He E| |n0 o He HC E]; subst;
    try (match goal with HC : clears _ _ |- _ => destruct HC as [HC|(q & HC & _)]; discriminate HC end).
  - left. exists k, s. split; [apply lookup_record, HLs|]. split; [apply service_daemon, Hdm|]. split; [reflexivity|].
    destruct HW as [p He' Hn'|He' Hn'|Hn' Hst|Hst]; unfold readiness_reported.
    + left. exists p. auto.
    + right; left. auto.
    + right; right; right. auto.
    + right; right; left. auto.
  - right; left. destruct (HL Logic.I) as (s' & A & B & C). exists k, s'. split; [apply lookup_record, A|].
    split; [unfold pid_name, name_of, pidcond, ident, ident_of; rewrite B; reflexivity|]. exists p. rewrite B. auto.
  - right; right. reflexivity.
Qed.
Theorem setpath_why_lem n evs cfgl cmdl e c q older : tame evs -> during n evs cfgl cmdl e c (ECond (OpSetPath q)) older ->
  exists k s, record_at c k s /\ q = cond_path (pid_name s) /\ s_state s = Running /\ s_dirty s = false.
Proof.
  intros HT Hd. pose proof (during_facts_tame _ _ _ _ _ _ _ _ HT Hd) as F. cbn [fact] in F.
  destruct F as [F|(k & s & _ & _ & _ & E)]; [|discriminate E].
  inversion F as [k s n0 o _ _ _ HC E|s o _ HC E| | |s o _ HC E| |k s HL E|s o HC E| | | | | |n0 o He HC E]; subst;
    try (match goal with HC : clears _ _ |- _ => destruct HC as [HC|(q' & HC & _)]; discriminate HC end).
  destruct (HL Logic.I) as (s' & A & B & C & D). exists k, s'. split; [apply lookup_record, A|].
  split; [|auto]. unfold pid_name, name_of, pidcond, ident, ident_of. rewrite B. reflexivity.
Qed.

Lemma ext_cclear_n n nm : ext (c_clear (exec n) nm).
Proof. apply ext_cclear. intros cl. apply ext_exec. Qed.
Lemma cclear_first n nm w : is_nop nm = false ->
  wp (c_clear (exec n) nm) (fun _ w' => exists newer o, wl w' = newer ++ (wc w, ECond o) :: wl w /\ withdraws nm o) w.
Proof.
  intros Hn. unfold c_clear. apply wp_bind, wp_getc. rewrite Hn.
  destruct (is_dir (k_cond (wc w)) (cond_path nm)) eqn:Ed.
  - assert (X : exists q l, dir_children (k_cond (wc w)) (cond_path nm) = q :: l /\ below (strip_slash (cond_path nm)) q = true).
    { unfold is_dir in Ed. unfold dir_children. apply existsb_exists in Ed. destruct Ed as (qe & A & B).
      assert (C : In (fst qe) (map fst (filter (fun qe => below (strip_slash (cond_path nm)) (fst qe)) (ents (k_cond (wc w)))))).
      { apply in_map, filter_In. auto. }
      destruct (map fst _) as [|q l] eqn:E; [destruct C|]. exists q, l. split; [reflexivity|].
      assert (D : In q (q :: l)) by (left; reflexivity). rewrite <- E in D. apply in_map_iff in D. destruct D as (x & <- & D).
      apply filter_In in D. apply D. }
    destruct X as (q & l & E & B). rewrite E. cbn [c_delpath]. apply wp_bind, wp_op.
    apply wp_ext.
    + apply ext_bind; [apply ext_getc|]. intros c. apply ext_bind.
      * unfold when. destruct (negb (k_inrl c)); [apply ext_exec|apply ext_ret].
      * intros _. apply ext_delpath. intros cl. apply ext_exec.
    + intros a w' (new & El). exists new, (OpUnlink q). split; [exact El|]. right. eauto.
  - apply wp_bind, wp_op. apply wp_ext.
    + unfold when. destruct (fst _); [apply ext_exec|apply ext_ret].
    + intros a w' (new & El). exists new, (OpClear nm). split; [exact El|]. left. reflexivity.
Qed.

Theorem gc_withdraws_lem n evs cfgl cmdl w1 m s w2 : history n evs cfgl cmdl w1 -> ~ over w1 -> In s (k_gc (wc w1)) ->
  (forall t, In t (k_svcs (wc w1)) -> name_of t <> name_of s) ->
  on_event m (EvGc (s_key s)) w1 = Some (tt, w2) -> withdrawn (pid_name s) w1 w2.
Proof.
  intros Hh Ho Hs Hno He. rewrite (event_handle _ _ _ _ _ Hh Ho) in He. cbn [handle] in He.
  assert (Ef : find_key (s_key s) (k_gc (wc w1)) = Some s).
  { pose proof (u_nodup _ (u_now _ (history_uinv _ _ _ _ _ Hh))) as N. unfold recs in N. rewrite map_app in N.
    apply nodup_app_split in N. apply nodup_find; [apply N|exact Hs]. }
  assert (X : wp (gc_one (exec m) (s_key s)) (fun _ w' => withdrawn (pid_name s) w1 w') w1).
  { unfold gc_one. apply wp_bind, wp_getc. rewrite Ef. apply wp_bind, wp_modc. apply wp_when; intros Hw.
    - eapply wp_mono; [apply cclear_first; reflexivity|]. intros a w' (new & o & El & Hc).
      exists new. eexists. exists o, []. split; [exact El|exact Hc].
    - exfalso. apply negb_false_iff, existsb_exists in Hw. destruct Hw as (t & A & B). apply String.eqb_eq in B. exact (Hno t A B). }
  unfold wp in X. rewrite He in X. exact X.
Qed.

Theorem pidfile_unready_lem n evs cfgl cmdl w1 m s w2 : tame (evs ++ [EvPidfileDel (s_key s)]) -> history n evs cfgl cmdl w1 -> ~ over w1 ->
  In s (k_svcs (wc w1)) -> c_notify (s_cf s) = NfPid -> a_service s -> is_script_state (s_state s) = false ->
  on_event m (EvPidfileDel (s_key s)) w1 = Some (tt, w2) -> withdrawn (pid_name s) w1 w2 /\ withdrawn (ready_name s) w1 w2.
Proof.
  intros HT Hh Ho Hs Hn Hd Hsc He. rewrite (event_handle _ _ _ _ _ Hh Ho) in He. cbn [handle] in He. apply daemon_service in Hd.
  set (k := s_key s) in *. set (e := EvPidfileDel k) in *. set (all := evs ++ [e]) in *.
  assert (Hin : In e all) by (apply in_or_app; right; left; reflexivity).
  assert (HB : binv all w1 /\ at_rest w1).
  { eapply (run_binv all HT n evs); [|exact Hh|apply inv_init|apply rest_init].
    intros y Hy. apply in_or_app. left. exact Hy. }
  destruct HB as [HB HR]. destruct (tame_exec all HT e w1 Hin HB) as (rank & HA & HU).
  pose proof (reg_lookup _ _ _ _ _ _ Hh Hs) as Ef. fold k in Ef.
  pose proof (find_lookup _ _ _ Ef) as HL. change (L w1 k s) in HL.
  assert (Hr : reach True (eq e) w1 w1) by apply rt_refl.
  assert (X : wp (pidfile_delete (exec m) k) (fun _ w' => withdrawn (pid_name s) w1 w' /\ withdrawn (ready_name s) w1 w') w1).
  { unfold pidfile_delete, if_registered. apply wp_bind, wp_getc. rewrite Ef, Hsc.
    unfold pidfile_gone. apply wp_with_svc; [|rewrite HL; discriminate].
    intros s0 Hs0. pose proof (L_fun _ _ _ _ HL Hs0) as <-. apply wp_bind. rewrite Hn.
    eapply wp_mono.
    - apply wp_conj; [apply (cclear_first m (pidcond s) w1); reflexivity|].
      apply (c_clear_spec True (eq e) w1 rank e eq_refl (exec m)) with (r := S (rank (ident s)));
        [intros nm w0 r; apply HU|exact Hr| | |].
      + intros w' _ o Hc. exact (cw_unpid True e w' s o Hc).
      + intros _ v j t Rv Lv Hav. exact (HA w1 k s v j t _ Hr HL Rv Lv (owns_base s _ (or_introl eq_refl)) Hav).
      + intros q Hq _ v j t Rv Lv Hav. refine (HA w1 k s v j t _ Hr HL Rv Lv _ Hav). eapply owns_below; [left; reflexivity|exact Hq].
    - intros a w3 [(new & o & El & Hc) HP]. pose proof (P_keep _ _ _ _ _ _ _ _ HP HL Logic.I) as HL3.
      unfold service_ready. apply wp_with_svc; [|rewrite HL3; discriminate].
      intros s0 Hs0'. pose proof (L_fun _ _ _ _ HL3 Hs0') as <-. rewrite Hd. cbn [negb].
      eapply wp_mono; [apply cclear_first; reflexivity|]. intros b w4 (new2 & o2 & E2 & Hc2). split.
      + exists (new2 ++ (wc w3, ECond o2) :: new). eexists. exists o, []. split; [|exact Hc]. rewrite E2, El, <- app_assoc. reflexivity.
      + exists new2. eexists. exists o2, (new ++ [(wc w1, ECond o)]). split; [|exact Hc2]. rewrite E2, El, <- app_assoc. reflexivity. }
  unfold wp in X. rewrite He in X. exact X.
Qed.
