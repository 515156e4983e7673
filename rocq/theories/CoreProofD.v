(** Proofs for C21-C25, C35. *)
From Coq Require Import List String Ascii ZArith NArith Bool Lia Arith Relations.
From Coq Require Import ZifyBool ZifyNat.
From Verif Require Import CondModel CoreTypes CoreModel CoreLib CoreMicro CoreExec CoreCalm CoreLog
  CoreSpec CoreAny CoreProof CoreProc CoreProofB CoreMoment CoreHalt.
Import ListNotations.
Local Open Scope Z_scope.

Lemma history_hb n evs cfgl cmdl w : history n evs cfgl cmdl w -> mom hb w.
Proof.
  apply history_mom; [exact (hmom_micro False)|]. repeat split; auto.
Qed.
Lemma history_level n evs cfgl cmdl w : history n evs cfgl cmdl w -> k_rl (wc w) = level_of (wl w).
Proof. intros H. apply runlevel_lem in H. tauto. Qed.

(** ** the log grows while a runlevel is asked for *)
Definition grows (w w' : world) : Prop := exists new, wl w' = new ++ wl w.
Lemma grows_refl w : grows w w.
Proof. exists []. reflexivity. Qed.
Lemma grows_trans a b c : grows a b -> grows b c -> grows a c.
Proof. intros (n1 & E1) (n2 & E2). exists (n2 ++ n1). rewrite E2, E1, app_assoc. reflexivity. Qed.
Lemma reach_grows calm E w w' : reach calm E w w' -> grows w w'.
Proof. apply reach_logs. Qed.

Section Grow.
Variable n : nat.
Let E := fun _ : ev => True.
Lemma sm_grows w : wp (exec n CSm) (fun _ => grows w) w.
Proof.
  assert (X : wp (exec n CSm) (fun _ => good False E w) w).
  { apply (exec_all False E w (fun _ => 0%nat)) with (e := EvWork); try tauto; [exact I|].
    split; [apply rt_refl|tauto]. }
  eapply wp_mono; [exact X|]. intros a w' [H _]. eapply reach_grows, H.
Qed.
Lemma networking_grows up w : wp (networking (exec n) up) (fun _ => grows w) w.
Proof.
  assert (X : wp (networking (exec n) up) (fun _ => G False E w w) w).
  { destruct (exec_all False E w (fun _ => 0%nat) ltac:(tauto) ltac:(tauto) ltac:(tauto) EvWork I n) as (I1 & I2 & I3 & I4).
    apply (networking_spec False E w (fun _ => 0%nat)) with (e := EvWork); try tauto; [exact I|apply rt_refl]. }
  eapply wp_mono; [exact X|]. intros a w' H. apply G_reach in H. eapply reach_grows, H.
Qed.
End Grow.

Lemma sm_runlevel_asks n l w w' : sm_runlevel (exec n) l w = Some (tt, w') ->
  exists newer c mid, wl w' = newer ++ (c, EAsk l) :: mid ++ wl w.
Proof.
  assert (X : wp (sm_runlevel (exec n) l) (fun _ w' => exists newer c mid, wl w' = newer ++ (c, EAsk l) :: mid ++ wl w) w).
  { unfold sm_runlevel. apply wp_bind, wp_getc, wp_bind.
    assert (G1 : forall w1, grows w w1 -> wp (emit (EAsk l) ;;; modc (set_k_newl l) ;;; exec n CSm ;;;
       c <- getc ;; when (reserved (k_rl c)) (networking (exec n) false))
       (fun _ w' => exists newer c mid, wl w' = newer ++ (c, EAsk l) :: mid ++ wl w) w1).
    { intros w1 (mid & E1). apply wp_bind, wp_emit, wp_bind, wp_modc, wp_bind.
      eapply wp_mono; [apply sm_grows|]. intros a2 w2 (n2 & E2). apply wp_bind, wp_getc.
      assert (D : forall w3, grows w2 w3 -> exists newer c mid, wl w3 = newer ++ (c, EAsk l) :: mid ++ wl w).
      { intros w3 (n3 & E3). exists (n3 ++ n2), (wc w1), mid. rewrite E3, E2, <- app_assoc. f_equal. f_equal.
        cbn. rewrite E1. reflexivity. }
      apply wp_when; [|intros _; apply D, grows_refl]. intros _.
      eapply wp_mono; [apply networking_grows|]. intros a3 w3 H3. apply D, H3. }
    apply wp_when; [|intros _; apply G1, grows_refl]. intros _.
    eapply wp_mono; [apply networking_grows|]. intros a1 w1 H1. apply G1, H1. }
  intros H. unfold wp in X. rewrite H in X. exact X.
Qed.

(** ** what the log says *)
Lemma latest_halt l : (exists c older, latest is_halt l c (EHalt (last_halt l)) older) \/
  (last_halt l = ShutHalt /\ forall c s, ~ In (c, EHalt s) l).
Proof.
  induction l as [|[c x] l IH]; [right; split; [reflexivity|intros ? ? []]|].
  assert (K : (exists s, x = EHalt s) \/ (last_halt ((c, x) :: l) = last_halt l /\ ~ is_halt x)).
  { destruct x; try (right; split; [reflexivity|intros (? & ?); discriminate]). left. eauto. }
  destruct K as [(s & ->)|[-> Hn]].
  - left. exists c, l, []. split; [reflexivity|]. split; [exists s; reflexivity|intros ? ? []].
  - destruct IH as [(c1 & o1 & newer & E & A & B)|[A B]].
    + left. exists c1, o1, ((c, x) :: newer). split; [rewrite E at 1; reflexivity|]. split; [exact A|].
      intros c' y [Hy|Hy]; [inversion Hy; subst; exact Hn|eapply B, Hy].
    + right. split; [exact A|]. intros c' s [Hy|Hy]; [inversion Hy; subst; apply Hn; exists s; reflexivity|eapply B, Hy].
Qed.
Lemma latest_ask l n : last_ask l = Some n -> exists c older, latest is_ask l c (EAsk n) older.
Proof.
  induction l as [|[c x] l IH]; [discriminate|].
  assert (K : (exists s, x = EAsk s) \/ (last_ask ((c, x) :: l) = last_ask l /\ ~ is_ask x)).
  { destruct x; try (right; split; [reflexivity|intros (? & ?); discriminate]). left. eauto. }
  destruct K as [(s & ->)|[-> Hn]].
  - cbn. intros H. inversion H; subst. exists c, l, []. split; [reflexivity|]. split; [exists n; reflexivity|intros ? ? []].
  - intros H. destruct (IH H) as (c1 & o1 & newer & E & A & B).
    exists c1, o1, ((c, x) :: newer). split; [rewrite E at 1; reflexivity|]. split; [exact A|].
    intros c' y [Hy|Hy]; [inversion Hy; subst; exact Hn|eapply B, Hy].
Qed.
Lemma ended_over w : ended (wl w) = true <-> over w.
Proof.
  unfold over. induction (wl w) as [|[c x] l IH]; [split; [discriminate|intros (? & ? & [])]|].
  assert (K : (exists s, x = EShutdown s) \/ (ended ((c, x) :: l) = ended l /\ forall s, x <> EShutdown s)).
  { destruct x; try (right; split; [reflexivity|intros ?; discriminate]). left. eauto. }
  destruct K as [(s & ->)|[-> Hn]].
  - split; [intros _; exists c, s; left; reflexivity|reflexivity].
  - rewrite IH. split; intros (c1 & s1 & H).
    + exists c1, s1. right. exact H.
    + destruct H as [H|H]; [exfalso; inversion H; subst; eapply Hn; reflexivity|exists c1, s1; exact H].
Qed.
Lemma down_over n evs cfgl cmdl w : history n evs cfgl cmdl w -> (k_down (wc w) = true <-> over w).
Proof. intros H. destruct (history_hb _ _ _ _ _ H) as ((_ & _ & E) & _). rewrite E. apply ended_over. Qed.

(** ** C21 *)
Theorem change_lem n evs cfgl cmdl w c old new older : tame evs ->
  history n evs cfgl cmdl w -> happened w c (ERunlevel old new) older ->
  0 <= new <= 9 /\ old <> new /\ old = level_of older /\ exists c1 l1, latest is_ask older c1 (EAsk new) l1.
Proof.
  intros HT Hh Hp. destruct (happened_facts_tame _ _ _ _ _ _ _ _ HT Hh Hp) as (e & _ & F).
  cbn in F. destruct F as (F1 & F2 & F3 & F4). destruct (F4 I) as [F5 F6].
  pose proof (mom_happened _ _ _ _ _ (history_hb _ _ _ _ _ Hh) Hp) as (_ & [A|A] & _); [lia|].
  destruct (runlevel_lem _ _ _ _ _ Hh) as (_ & _ & R). destruct (R _ _ _ Hp) as (_ & R1 & _).
  repeat (split; [solve [auto | eapply R1; reflexivity]|]). apply latest_ask. congruence.
Qed.

(** ** C22 *)
Lemma closed_reserved l : closed_level l -> reserved l = true.
Proof. unfold closed_level, reserved. lia. Qed.
Lemma event_over n evs cfgl cmdl w m e : history n evs cfgl cmdl w -> over w -> on_event m e w = Some (tt, w).
Proof.
  intros Hh H. apply (down_over _ _ _ _ _ Hh) in H. unfold on_event, bind at 1, getc. rewrite H. reflexivity.
Qed.
Theorem refused_lem n evs cfgl cmdl w m e : history n evs cfgl cmdl w ->
  closed_level (level_of (wl w)) -> guarded e -> on_event m e w = Some (tt, w).
Proof.
  intros Hh Hl Hg. rewrite <- (history_level _ _ _ _ _ Hh) in Hl. apply closed_reserved in Hl.
  unfold on_event, bind at 1, getc at 1. destruct (k_down (wc w)); [reflexivity|].
  destruct e; try (exfalso; exact Hg); cbn [handle]; unfold gated, bind at 1, getc at 1; rewrite Hl; reflexivity.
Qed.
Theorem runlevel_refused_lem n evs cfgl cmdl w m l : history n evs cfgl cmdl w ->
  level_of (wl w) = 0 \/ level_of (wl w) = 6 \/ ~ 0 <= l <= 9 ->
  on_event m (EvRunlevel l) w = Some (tt, w).
Proof.
  intros Hh Hl. rewrite <- (history_level _ _ _ _ _ Hh) in Hl.
  unfold on_event, bind at 1, getc at 1. destruct (k_down (wc w)); [reflexivity|].
  cbn [handle]. unfold api_runlevel, bind at 1, getc at 1.
  destruct (reserved (k_rl (wc w)) && negb (k_rl (wc w) =? 10)) eqn:E1; [reflexivity|].
  destruct ((0 <=? l) && (l <=? 9)) eqn:E2; [|reflexivity]. exfalso.
  unfold reserved in E1. lia.
Qed.
Theorem runlevel_boot_lem n evs cfgl cmdl w m l : history n evs cfgl cmdl w -> ~ over w ->
  level_of (wl w) = 10 -> 0 <= l <= 9 ->
  exists w', on_event m (EvRunlevel l) w = Some (tt, w') /\
    match final_action (EvRunlevel l) with
    | None => w' = mkWorld (set_k_cfgl l (wc w)) (wl w)
    | Some s => w' = mkWorld (set_k_cfgl l (set_k_halt s (wc w))) ((wc w, EHalt s) :: wl w)
    end.
Proof.
  intros Hh Ho Hl Hb. rewrite <- (history_level _ _ _ _ _ Hh) in Hl.
  assert (Ed : k_down (wc w) = false).
  { destruct (k_down (wc w)) eqn:E; [|reflexivity]. exfalso. apply Ho, (down_over _ _ _ _ _ Hh), E. }
  unfold on_event, bind at 1, getc at 1. rewrite Ed. cbn [handle]. unfold api_runlevel, bind at 1, getc at 1.
  rewrite Hl. cbn [reserved Z.eqb negb andb orb].
  replace ((0 <=? l) && (l <=? 9)) with true by lia. cbn [final_action].
  destruct (l =? 0) eqn:E0; [replace (l =? 6) with false by lia|destruct (l =? 6) eqn:E6];
    eexists; (split; [reflexivity|]); destruct w; reflexivity.
Qed.

(** ** C23 *)
Theorem signals_lem m w :
  on_event m EvSigHup w = on_event m EvReloadAll w /\
  on_event m EvSigUsr2 w = on_event m (EvDown ShutOff false) w /\
  on_event m EvSigTerm w = on_event m (EvDown ShutReboot false) w.
Proof. repeat split; unfold on_event, bind at 1 3, getc; destruct (k_down (wc w)); reflexivity. Qed.

(** ** C24 *)
Theorem shutdown_lem n evs cfgl cmdl w c s older : history n evs cfgl cmdl w ->
  happened w c (EShutdown s) older ->
  (exists c1 l1, latest is_halt older c1 (EHalt s) l1) \/ (s = ShutHalt /\ forall c1 s1, ~ In (c1, EHalt s1) older).
Proof.
  intros Hh Hp. destruct (happened_facts _ _ _ _ _ _ _ _ Hh Hp) as (e & _ & F). cbn in F. destruct F as [F _].
  pose proof (mom_happened _ _ _ _ _ (history_hb _ _ _ _ _ Hh) Hp) as (A & _ & _).
  rewrite F, A. destruct (latest_halt older) as [H|H]; [left|right]; exact H.
Qed.
Lemma asked_halt_final e s : asked_halt e s -> final_action e = Some s.
Proof.
  destruct e; cbn; try tauto; try congruence. destruct l as [|p|p]; cbn; try tauto; [congruence|].
  destruct p as [p|p|]; try tauto. destruct p as [p|p|]; try tauto. destruct p as [p|p|]; cbn; try tauto. congruence.
Qed.
Theorem halt_by_lem n evs cfgl cmdl e c s older :
  during n evs cfgl cmdl e c (EHalt s) older -> final_action e = Some s.
Proof. intros H. apply during_facts in H. apply asked_halt_final, H. Qed.
Theorem ask_by_lem n evs cfgl cmdl e c l older : tame evs ->
  during n evs cfgl cmdl e c (EAsk l) older -> wanted_level e c l.
Proof.
  intros HT H. apply (during_facts_tame _ _ _ _ _ _ _ _ HT) in H. cbn in H.
  destruct e; cbn in *; try tauto. destruct s; exact H.
Qed.
Lemma open_reserved l : ~ closed_level l -> reserved l = false.
Proof. unfold closed_level, reserved. lia. Qed.
Theorem heard_lem n evs cfgl cmdl w m e s w' : history n evs cfgl cmdl w -> ~ over w ->
  ~ closed_level (level_of (wl w)) -> final_action e = Some s -> on_event m e w = Some (tt, w') ->
  exists newer c mid, wl w' = newer ++ (c, EAsk (match s with ShutReboot => 6 | _ => 0 end)) :: mid ++ (wc w, EHalt s) :: wl w.
Proof.
  intros Hh Ho Hl Hf. rewrite <- (history_level _ _ _ _ _ Hh) in Hl. apply open_reserved in Hl.
  assert (Ed : k_down (wc w) = false).
  { destruct (k_down (wc w)) eqn:E; [|reflexivity]. exfalso. apply Ho, (down_over _ _ _ _ _ Hh), E. }
  unfold on_event, bind at 1, getc at 1. rewrite Ed.
  destruct e; try discriminate Hf; cbn [handle final_action] in *.
  - unfold api_runlevel, bind at 1, getc at 1. rewrite Hl. cbn [andb].
    destruct (l =? 0) eqn:E0.
    + inversion Hf; subst s. replace ((0 <=? l) && (l <=? 9)) with true by lia.
      replace (l =? 6) with false by lia. replace (k_rl (wc w) =? 10) with false by (unfold reserved in Hl; lia).
      intros H. replace l with 0 in H by lia. apply sm_runlevel_asks in H. exact H.
    + destruct (l =? 6) eqn:E6; [|discriminate]. inversion Hf; subst s.
      replace ((0 <=? l) && (l <=? 9)) with true by lia.
      replace (k_rl (wc w) =? 10) with false by (unfold reserved in Hl; lia).
      intros H. replace l with 6 in H by lia. apply sm_runlevel_asks in H. exact H.
  - inversion Hf; subst s0. unfold gated, bind at 1, getc at 1. rewrite Hl. unfold api_down, bind at 1.
    intros H. destruct timeout; apply sm_runlevel_asks in H; exact H.
  - inversion Hf; subst s. unfold gated, bind at 1, getc at 1. rewrite Hl. intros H. apply sm_runlevel_asks in H. exact H.
  - inversion Hf; subst s. unfold gated, bind at 1, getc at 1. rewrite Hl. intros H. apply sm_runlevel_asks in H. exact H.
Qed.
Theorem level_heard_lem n evs cfgl cmdl w m l w' : history n evs cfgl cmdl w -> ~ over w ->
  ~ closed_level (level_of (wl w)) -> 0 <= l <= 9 -> on_event m (EvRunlevel l) w = Some (tt, w') ->
  exists newer c mid, wl w' = newer ++ (c, EAsk l) :: mid ++ wl w.
Proof.
  intros Hh Ho Hl Hb. destruct (final_action (EvRunlevel l)) as [s|] eqn:Ef.
  - intros H. destruct (heard_lem _ _ _ _ _ _ _ _ _ Hh Ho Hl Ef H) as (newer & c & mid & E).
    exists newer, c, (mid ++ [(wc w, EHalt s)]). rewrite <- app_assoc.
    replace l with (match s with ShutReboot => 6 | _ => 0 end); [exact E|].
    cbn in Ef. destruct (l =? 0) eqn:E0; [inversion Ef; cbn; lia|]. destruct (l =? 6) eqn:E6; [inversion Ef; cbn; lia|discriminate].
  - rewrite <- (history_level _ _ _ _ _ Hh) in Hl. apply open_reserved in Hl.
    assert (Ed : k_down (wc w) = false).
    { destruct (k_down (wc w)) eqn:E; [|reflexivity]. exfalso. apply Ho, (down_over _ _ _ _ _ Hh), E. }
    unfold on_event, bind at 1, getc at 1. rewrite Ed. cbn [handle]. unfold api_runlevel, bind at 1, getc at 1.
    rewrite Hl. cbn [andb]. replace ((0 <=? l) && (l <=? 9)) with true by lia.
    cbn in Ef. destruct (l =? 0) eqn:E0; [discriminate|]. destruct (l =? 6) eqn:E6; [discriminate|].
    replace (k_rl (wc w) =? 10) with false by (unfold reserved in Hl; lia).
    intros H. apply sm_runlevel_asks in H. exact H.
Qed.

(** ** C25 *)
Lemma no_logins_restricted l : no_logins l = restricted l.
Proof. unfold no_logins, restricted, reserved. lia. Qed.
Lemma history_rest n evs cfgl cmdl w : tame evs -> history n evs cfgl cmdl w -> at_rest w.
Proof. intros HT Hh. eapply run_rest; eauto. Qed.
Lemma nologin_level l : (forall newer c old new older, l = newer ++ (c, ERunlevel old new) :: older -> old = level_of older) ->
  nologin_after (levels l) = true -> no_logins (level_of l) = true.
Proof.
  induction l as [|[c x] l IH]; intros H; [discriminate|].
  assert (IH' : nologin_after (levels l) = true -> no_logins (level_of l) = true).
  { apply IH. intros newer c' old new older E. eapply (H ((c, x) :: newer)). rewrite E. reflexivity. }
  destruct x; try exact IH'. cbn [levels eff_level nologin_after level_of].
  assert (old = level_of l) by (eapply (H []); reflexivity). subst old.
  rewrite <- !no_logins_restricted. destruct (no_logins (level_of l)) eqn:E; [discriminate|].
  destruct (no_logins new); [reflexivity|]. intros X. apply IH' in X. congruence.
Qed.
Lemma latest_change_levels l c old new older : latest is_change l c (ERunlevel old new) older ->
  levels l = (old, new) :: levels older.
Proof.
  intros (newer & -> & _ & H). induction newer as [|[c1 x] newer IH]; [reflexivity|].
  cbn [app levels]. destruct (eff_level x) as [[a b]|] eqn:E.
  - exfalso. apply (H c1 x); [left; reflexivity|]. destruct x; try discriminate. eexists. eexists. reflexivity.
  - apply IH. intros c' y Hy. apply (H c' y). right. exact Hy.
Qed.
Theorem nologin_lem n evs cfgl cmdl w : tame evs -> history n evs cfgl cmdl w ->
  (no_logins (level_of (wl w)) = false -> k_nologin (wc w) = false) /\
  (forall c old new older, latest is_change (wl w) c (ERunlevel old new) older ->
     no_logins new = true -> no_logins old = false -> k_nologin (wc w) = true).
Proof.
  intros HT Hh. destruct (history_rest _ _ _ _ _ HT Hh) as [_ A]. rewrite A. split.
  - intros Hl. destruct (nologin_after (levels (wl w))) eqn:E; [|reflexivity].
    apply nologin_level in E; [congruence|]. intros newer c old new older El.
    destruct (runlevel_lem _ _ _ _ _ Hh) as (_ & _ & R).
    destruct (R c (ERunlevel old new) older (ex_intro _ newer El)) as (_ & R1 & _). eapply R1. reflexivity.
  - intros c old new older Hc H1 H2. apply latest_change_levels in Hc. rewrite Hc. cbn [nologin_after].
    rewrite <- !no_logins_restricted, H1, H2. reflexivity.
Qed.
