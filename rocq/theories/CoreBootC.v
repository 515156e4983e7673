(** C52: bootstrap waits for its tasks, and ends. *)
From Coq Require Import List String Ascii ZArith NArith Bool Lia Arith.
From Coq Require Import ZifyBool ZifyNat.
From Verif Require Import CondModel CoreTypes CoreModel CoreTame CoreLib CoreSpec CoreSpecB CoreProof CoreGrow CoreLive CoreAct CoreSpecE CoreSpecH CoreBoot CoreBootB.
Import ListNotations.
Local Open Scope Z_scope.

Definition no_booted (l : log) : Prop := forall c b, ~ In (c, EBooted b) l.
Lemma bad_no a l : none_bad a l -> no_booted l.
Proof. intros H c b Hi. exact (H _ _ Hi Logic.I). Qed.

(** one check *)
Inductive check1 (w1 w2 : world) : Prop :=
  | ck_none : k_bootleft (wc w1) = None -> w2 = w1 -> check1 w1 w2
  | ck_wait t new : k_bootleft (wc w1) = Some (S t) -> k_bootleft (wc w2) = Some t ->
      wl w2 = new ++ wl w1 -> none_bad true new -> completed (wc w2) = false -> check1 w1 w2
  | ck_end t c c2 newer mid recent : k_bootleft (wc w1) = Some t -> k_bootleft (wc w2) = None ->
      wl w2 = newer ++ (c2, EAsk (if k_cmdl c =? 0 then k_cfgl c else k_cmdl c)) :: mid ++ (c, EBooted (negb (completed c))) :: recent ++ wl w1 ->
      none_bad true newer -> none_bad true mid -> none_bad true recent -> (completed c = false -> t = O) ->
      (forall evs, Inv evs w1 -> Inv evs (mkWorld c (recent ++ wl w1))) -> check1 w1 w2.

Lemma wp_mute {A} (m : ST A) w : mute true m -> wp m (fun _ w' => quiet true w w') w.
Proof. intros H. unfold wp. destruct (m w) as [[a w']|] eqn:E; [|exact I]. exact (H _ _ _ E). Qed.

Lemma check_lem n w1 : wp (check_bootstrap (exec n)) (fun _ w2 => check1 w1 w2) w1.
Proof.
  pose proof (mute_exec true n) as Hm.
  unfold check_bootstrap. apply wp_bind, wp_getc. destruct (k_bootleft (wc w1)) as [t|] eqn:Eb.
  2:{ apply wp_ret. apply ck_none; [exact Eb|reflexivity]. }
  apply wp_bind. eapply wp_mono with (Q := fun _ w' => quiet true w1 w' /\ forall evs, Inv evs w1 -> Inv evs w').
  { unfold wp. destruct (step_all (exec n) m_any w1) as [[a w']|] eqn:E; [|exact I]. split.
    - exact (mute_step_all true _ Hm m_any _ _ _ E).
    - intros evs Hi. pose proof (keep_step_all evs (exec n) (keep_exec evs n) m_any w1 Hi) as X. unfold wp in X. rewrite E in X. exact X. }
  intros ? w3 ((Q1 & recent & Q2 & Q3) & Q4).
  apply wp_bind, wp_getc. set (c := wc w3). set (l := if k_cmdl c =? 0 then k_cfgl c else k_cmdl c).
  assert (HF : (completed c = false -> t = O) ->
    wp (emit (EBooted (negb (completed c))) ;;; modc (set_k_bootleft None) ;;; sm_runlevel (exec n) l ;;; prune_bootstrap ;;; run_hook (exec n) HkSvcUp)
       (fun _ w2 => check1 w1 w2) w3).
  { intros Ht. apply wp_bind, wp_emit, wp_bind, wp_modc. set (w4 := wmod _ _).
    assert (B4 : k_bootleft (wc w4) = None) by reflexivity.
    assert (L4 : wl w4 = (c, EBooted (negb (completed c))) :: recent ++ wl w1) by (subst w4; cbn [wl wmod wemit]; rewrite Q2; reflexivity).
    clearbody w4.
    assert (HX : wp (sm_runlevel (exec n) l ;;; prune_bootstrap ;;; run_hook (exec n) HkSvcUp)
       (fun _ w2 => k_bootleft (wc w2) = None /\ exists newer mid c2, wl w2 = newer ++ (c2, EAsk l) :: mid ++ wl w4 /\ none_bad true newer /\ none_bad true mid) w4).
    { apply wp_bind. unfold sm_runlevel. apply wp_bind, wp_getc, wp_bind.
      assert (HN : forall b, mute true (networking (exec n) b)) by (intros b; mus).
      eapply wp_mono; [apply wp_mute|].
      - mus.
      - intros ? w5 (R1 & mid & R2 & R3). apply wp_bind, wp_emit, wp_bind, wp_modc. set (w6 := wmod _ _).
        assert (B6 : k_bootleft (wc w6) = None) by (subst w6; cbn [wc wmod wemit k_bootleft set_k_newl]; congruence).
        assert (L6 : wl w6 = (wc w5, EAsk l) :: mid ++ wl w4) by (subst w6; cbn [wl wmod wemit]; rewrite R2; reflexivity).
        clearbody w6.
        eapply wp_mono; [apply wp_mute|].
        + pose proof HN. mus.
        + intros ? w7 (S1 & new1 & S2 & S3). eapply wp_mono; [apply wp_mute|].
          * apply mute_bind; [apply mute_prune|]. intros ?. apply (mute_hook true _ Hm).
          * intros ? w8 (T1 & new2 & T2 & T3). split; [congruence|]. exists (new2 ++ new1), mid, (wc w5).
            split; [rewrite T2, S2, L6, <- app_assoc; reflexivity|]. split; [|exact R3].
            intros c0 b0 Hi. apply in_app_or in Hi. destruct Hi as [Hi|Hi]; [exact (T3 _ _ Hi)|exact (S3 _ _ Hi)]. }
    eapply wp_mono; [exact HX|]. intros ? w2 (U1 & newer & mid & c2 & U2 & U3 & U4).
    eapply (ck_end w1 w2 t c c2 newer mid recent); try assumption; [rewrite U2, L4; reflexivity|].
    intros evs Hi. rewrite <- Q2. apply Q4 in Hi. destruct w3. exact Hi. }
  destruct t as [|t].
  { apply HF. reflexivity. }
  destruct (completed c) eqn:Ec.
  { apply HF. discriminate. }
  apply wp_modc. eapply (ck_wait w1 _ t recent); [exact Eb|reflexivity|exact Q2|exact Q3|exact Ec].
Qed.

Lemma event_check n w1 w2 : on_event n EvBootCheck w1 = Some (tt, w2) -> k_down (wc w1) = true /\ w2 = w1 \/ k_down (wc w1) = false /\ check1 w1 w2.
Proof.
  unfold on_event, bind. cbn [getc]. destruct (k_down (wc w1)) eqn:Ed; intros H.
  - left. injection H as <-. auto.
  - right. split; [reflexivity|]. pose proof (check_lem n w1) as X. unfold wp in X. cbn [handle] in H. rewrite H in X. exact X.
Qed.

Definition left_ok (evs : list ev) (w : world) : Prop :=
  match k_bootleft (wc w) with
  | Some t => no_booted (wl w) /\ (120 <= t + checks evs)%nat /\ (k_down (wc w) = false -> (t + checks evs)%nat = 120%nat)
  | None => exists c b newer older, wl w = newer ++ (c, EBooted b) :: older /\ no_booted newer /\ no_booted older /\
      (b = true -> (120 < checks evs)%nat)
  end.

Lemma checks_app a b : checks (a ++ b) = (checks a + checks b)%nat.
Proof. induction a as [|e a IH]; [reflexivity|]. cbn [app checks]. destruct e; rewrite IH; reflexivity. Qed.

Lemma app_no a b : no_booted a -> no_booted b -> no_booted (a ++ b).
Proof. intros A B c x Hi. apply in_app_or in Hi. destruct Hi as [Hi|Hi]; [exact (A _ _ Hi)|exact (B _ _ Hi)]. Qed.

Lemma left_hist n evs cfgl cmdl w : history n evs cfgl cmdl w -> left_ok evs w.
Proof.
  revert w. induction evs as [|e evs IH] using rev_ind; intros w Hh.
  - unfold history in Hh. cbn in Hh. injection Hh as <-. unfold left_ok. cbn [wc init_world init_core k_bootleft].
    split; [intros c b []|]. split; [apply le_n|reflexivity].
  - unfold history in Hh. rewrite run_app in Hh. unfold bind in Hh.
    destruct (run n evs (init_world cfgl cmdl)) as [[[] w1]|] eqn:E1; [|discriminate].
    rewrite run_one in Hh. specialize (IH w1 E1).
    assert (HD : e = EvBootCheck \/ e <> EvBootCheck) by (destruct e; (left; reflexivity) || (right; discriminate)).
    destruct HD as [->|Hne].
    + unfold left_ok in *. rewrite checks_app. cbn [checks].
      destruct (event_check _ _ _ Hh) as [[Hd ->]|[Hd HC]].
      * destruct (k_bootleft (wc w1)) as [t|].
        -- destruct IH as (A & B & C). split; [exact A|]. split; [clear - B; lia|]. intros H. rewrite Hd in H. discriminate H.
        -- destruct IH as (c & b & x & y & A & B & C & D). exists c, b, x, y. repeat (split; [assumption|]). intros H. specialize (D H). clear - D. lia.
      * destruct HC as [H1 H2|t new H1 H2 H3 H4 _|t c c2 newer mid recent H1 H2 H3 H4 H5 H6 H7 _];
          [|apply bad_no in H4|apply bad_no in H4; apply bad_no in H5; apply bad_no in H6].
        -- subst w. rewrite H1 in *. destruct IH as (c & b & x & y & A & B & C & D). exists c, b, x, y.
           repeat (split; [assumption|]). intros H. specialize (D H). clear - D. lia.
        -- rewrite H1 in IH. rewrite H2. destruct IH as (A & B & C). specialize (C Hd).
           split; [rewrite H3; apply app_no; assumption|]. split; [clear - C; lia|]. intros _. clear - C. lia.
        -- rewrite H1 in IH. rewrite H2. destruct IH as (A & B & C). specialize (C Hd).
           exists c, (negb (completed c)), (newer ++ (c2, EAsk (if k_cmdl c =? 0 then k_cfgl c else k_cmdl c)) :: mid), (recent ++ wl w1).
           split; [rewrite H3, <- app_assoc; reflexivity|]. split.
           { apply app_no; [exact H4|]. intros c0 b0 [Hi|Hi]; [discriminate Hi|exact (H5 _ _ Hi)]. }
           split; [apply app_no; assumption|]. intros Hb. apply negb_true_iff in Hb. specialize (H7 Hb). subst t. clear - C. lia.
    + destruct (mute_event n e Hne _ _ _ Hh) as (Q1 & new & Q2 & Q3). apply bad_no in Q3.
      assert (HK : checks (evs ++ [e]) = checks evs).
      { rewrite checks_app. destruct e; try (apply Nat.add_0_r). exfalso. apply Hne. reflexivity. }
      unfold left_ok in *. rewrite HK, Q1. destruct (k_bootleft (wc w1)) as [t|].
      * destruct IH as (A & B & C). split; [rewrite Q2; apply app_no; assumption|]. split; [exact B|].
        intros Hd. apply C. destruct (k_down (wc w1)) eqn:Ed; [|reflexivity].
        unfold on_event, bind in Hh. cbn [getc] in Hh. rewrite Ed in Hh. injection Hh as <-. congruence.
      * destruct IH as (c & b & x & y & A & B & C & D). exists c, b, (new ++ x), y.
        split; [rewrite Q2, A, <- app_assoc; reflexivity|]. split; [apply app_no; assumption|]. auto.
Qed.

Lemma booted_unique (l : log) c b newer older x y c2 b2 : l = newer ++ (c, EBooted b) :: older -> no_booted newer -> no_booted older ->
  l = x ++ (c2, EBooted b2) :: y -> c2 = c /\ b2 = b /\ y = older.
Proof.
  intros H1 H2 H3 H4. subst l. revert x H4. induction newer as [|a newer IH]; intros [|a' x] H4; cbn [app] in H4.
  - injection H4 as -> -> ->. auto.
  - injection H4 as _ ->. exfalso. apply (H3 c2 b2). apply in_or_app. right. left. reflexivity.
  - injection H4 as -> _. exfalso. apply (H2 c2 b2). left. reflexivity.
  - injection H4 as _ H4. apply IH with (x := x); [|exact H4]. intros c0 b0 Hi. apply (H2 c0 b0). right. exact Hi.
Qed.

Section Hist.
Variables (n : nat) (evs : list ev) (cfgl cmdl : Z) (w : world).
Hypothesis Hh : history n evs cfgl cmdl w.

Theorem boot_once_lem c1 b1 o1 c2 b2 o2 : happened w c1 (EBooted b1) o1 -> happened w c2 (EBooted b2) o2 -> c1 = c2 /\ b1 = b2 /\ o1 = o2.
Proof.
  intros (x1 & A) (x2 & B). pose proof (left_hist _ _ _ _ _ Hh) as H. unfold left_ok in H. destruct (k_bootleft (wc w)) as [t|].
  - destruct H as (H & _). exfalso. apply (H c1 b1). rewrite A. apply in_or_app. right. left. reflexivity.
  - destruct H as (c & b & x & y & C & D & F & _).
    destruct (booted_unique _ _ _ _ _ _ _ _ _ C D F A) as (-> & -> & ->).
    destruct (booted_unique _ _ _ _ _ _ _ _ _ C D F B) as (-> & -> & ->). auto.
Qed.
Theorem boot_timeout_lem c older : happened w c (EBooted true) older -> (120 < checks evs)%nat.
Proof.
  intros (x1 & A). pose proof (left_hist _ _ _ _ _ Hh) as H. unfold left_ok in H. destruct (k_bootleft (wc w)) as [t|].
  - destruct H as (H & _). exfalso. apply (H c true). rewrite A. apply in_or_app. right. left. reflexivity.
  - destruct H as (c0 & b & x & y & C & D & F & G).
    destruct (booted_unique _ _ _ _ _ _ _ _ _ C D F A) as (-> & <- & ->). apply G. reflexivity.
Qed.
Theorem boot_ends_lem : (120 < checks evs)%nat -> ~ over w -> exists c b older, happened w c (EBooted b) older.
Proof.
  intros Hc Ho. pose proof (left_hist _ _ _ _ _ Hh) as H. unfold left_ok in H. destruct (k_bootleft (wc w)) as [t|].
  - destruct H as (_ & _ & H). specialize (H (not_over _ _ _ _ _ Hh Ho)). exfalso. clear - H Hc. lia.
  - destruct H as (c & b & x & y & C & _). exists c, b, y, x. exact C.
Qed.
End Hist.

(** ** What counts as complete *)

Lemma contains_spec a b h : h = (a ++ b)%string -> forall nd r, b = (nd ++ r)%string -> contains nd h = true.
Proof.
  revert h. induction a as [|x a IH]; intros h -> nd r ->.
  - cbn [String.append]. assert (P : String.prefix nd (nd ++ r) = true).
    { clear. induction nd as [|y nd IH]; [destruct r; reflexivity|]. cbn. destruct (ascii_dec y y); [exact IH|contradiction]. }
    destruct (nd ++ r)%string; cbn [contains]; rewrite P; reflexivity.
  - cbn [String.append contains]. rewrite (IH _ eq_refl nd r eq_refl). apply orb_true_r.
Qed.
Lemma prefix_inv nd h : String.prefix nd h = true -> exists r, h = (nd ++ r)%string.
Proof.
  revert h. induction nd as [|x nd IH]; intros h H; [exists h; reflexivity|]. destruct h as [|y h]; [discriminate H|].
  cbn in H. destruct (ascii_dec x y) as [->|]; [|discriminate H]. destruct (IH _ H) as (r & ->). exists r. reflexivity.
Qed.
Lemma contains_inv nd h : contains nd h = true -> exists a b, h = (a ++ nd ++ b)%string.
Proof.
  induction h as [|x h IH]; cbn [contains]; intros H; apply orb_prop in H; destruct H as [H|H].
  - destruct (prefix_inv _ _ H) as (r & ->). exists ""%string, r. reflexivity.
  - discriminate H.
  - destruct (prefix_inv _ _ H) as (r & E). exists ""%string, r. exact E.
  - destruct (IH H) as (a & b & ->). exists (String x a), b. reflexivity.
Qed.

Lemma find_str_identity nm l t : find_str nm l = Some t -> In t l /\ identity t = cut_colon nm.
Proof.
  unfold find_str, identity. destruct (cut_colon nm) as [a b]. intros H. apply find_ident_alike in H. destruct H as (A & <- & <-). auto.
Qed.
Lemma no_conflicts c s : without_conflict c s -> conflicts c s = false.
Proof.
  unfold without_conflict, conflicts. induction (c_conflict (s_cf s)) as [|nm ns IH]; intros H; [reflexivity|]. cbn [conflicts_in].
  destruct (find_str nm (k_svcs c)) as [t|] eqn:E.
  - destruct (find_str_identity _ _ _ E) as [A B]. pose proof (H nm t (or_introl eq_refl) A B) as X.
    unfold is_active in X. destruct (s_state t); cbn; try reflexivity; exfalso; apply X; cbn; (discriminate || auto).
  - apply IH. intros x y Hx. apply H. right. exact Hx.
Qed.
Lemma holds_up_done c s : holds_up c s -> completed c = true -> s_once s <> 0.
Proof.
  intros [H1 H2 H3 H4 H5] HC. unfold completed in HC. rewrite forallb_forall in HC. specialize (HC s H1).
  rewrite (may_enabled _ _ H3), (no_conflicts _ _ H4) in HC.
  assert (Ht : is_runtask s = true) by (unfold is_runtask, ty; destruct H2 as [-> | ->]; reflexivity). rewrite Ht in HC. cbn [negb orb] in HC.
  apply orb_prop in HC. destruct HC as [HC|HC].
  - exfalso. apply H5. apply existsb_exists in HC. destruct HC as (nm & A & B). apply orb_prop in B.
    destruct B as [B|B]; apply contains_inv in B; destruct B as (a & b & B); exists nm, a, b; auto.
  - intros E. rewrite E in HC. discriminate HC.
Qed.

Lemma Inv_init evs cfgl cmdl : Inv evs (init_world cfgl cmdl).
Proof.
  constructor; [intros ? H|intros ? H|intros ? ? H|intros ? H]; destruct H.
Qed.

Lemma hist_inv evs n evs1 cfgl cmdl w : incl evs1 evs -> history n evs1 cfgl cmdl w -> Inv evs w.
Proof.
  revert w. induction evs1 as [|e evs1 IH] using rev_ind; intros w Hi Hh.
  - unfold history in Hh. cbn in Hh. injection Hh as <-. apply Inv_init.
  - unfold history in Hh. rewrite run_app in Hh. unfold bind in Hh.
    destruct (run n evs1 (init_world cfgl cmdl)) as [[[] w1]|] eqn:E1; [|discriminate].
    rewrite run_one in Hh. assert (H1 : Inv evs w1) by (apply (IH w1); [intros x Hx; apply Hi, in_or_app; left; exact Hx|exact E1]).
    assert (Hin : In e evs) by (apply Hi, in_or_app; right; left; reflexivity).
    pose proof (keep_event evs n e Hin w1 H1) as X. unfold wp in X. rewrite Hh in X. exact X.
Qed.

(** how the end of bootstrap came about *)
Lemma booted_how n evs cfgl cmdl w c b older : history n evs cfgl cmdl w -> happened w c (EBooted b) older ->
  exists before after w1 w2 newer recent t c2 mid, evs = before ++ EvBootCheck :: after /\ history n before cfgl cmdl w1 /\
    on_event n EvBootCheck w1 = Some (tt, w2) /\
    wl w2 = newer ++ (c2, EAsk (if k_cmdl c =? 0 then k_cfgl c else k_cmdl c)) :: mid ++ (c, EBooted b) :: older /\ older = recent ++ wl w1 /\
    b = negb (completed c) /\ k_bootleft (wc w1) = Some t /\ Inv evs (mkWorld c older).
Proof.
  intros Hh Hp. destruct (happened_during _ _ _ _ _ _ _ _ Hh Hp) as (e & before & after & w1 & w2 & newer & recent & A & B & C & D & F).
  assert (HD : e = EvBootCheck \/ e <> EvBootCheck) by (destruct e; (left; reflexivity) || (right; discriminate)).
  destruct HD as [->|Hne].
  2:{ exfalso. destruct (mute_event n e Hne _ _ _ C) as (_ & new & Q2 & Q3). apply bad_no in Q3. rewrite Q2 in D. rewrite F in D.
      assert (X : new = newer ++ (c, EBooted b) :: recent).
      { apply (app_inv_tail (wl w1)). rewrite D, <- app_assoc. reflexivity. }
      apply (Q3 c b). rewrite X. apply in_or_app. right. left. reflexivity. }
  assert (HX : forall new, no_booted new -> wl w2 = new ++ wl w1 -> False).
  { intros new Q3 Q2. rewrite Q2 in D. rewrite F in D.
    assert (X : new = newer ++ (c, EBooted b) :: recent) by (apply (app_inv_tail (wl w1)); rewrite D, <- app_assoc; reflexivity).
    apply (Q3 c b). rewrite X. apply in_or_app. right. left. reflexivity. }
  assert (HI : Inv evs w1) by (apply (hist_inv evs n before cfgl cmdl); [rewrite A; apply incl_appl, incl_refl|exact B]).
  destruct (event_check _ _ _ C) as [[_ E]|[_ HC]].
  { exfalso. apply (HX []); [intros ? ? []|rewrite E; reflexivity]. }
  destruct HC as [H1 H2|t new H1 H2 H3 H4 _|t c0 c2 newer0 mid recent0 H1 H2 H3 H4 H5 H6 H7 H8];
    [|apply bad_no in H4|apply bad_no in H4; apply bad_no in H5; apply bad_no in H6].
  - exfalso. apply (HX []); [intros ? ? []|rewrite H2; reflexivity].
  - exfalso. exact (HX _ H4 H3).
  - assert (N1 : no_booted (wl w1)).
    { pose proof (left_hist _ _ _ _ _ B) as X. unfold left_ok in X. rewrite H1 in X. apply X. }
    assert (E : wl w2 = (newer0 ++ (c2, EAsk (if k_cmdl c0 =? 0 then k_cfgl c0 else k_cmdl c0)) :: mid) ++ (c0, EBooted (negb (completed c0))) :: recent0 ++ wl w1).
    { rewrite H3, <- app_assoc. reflexivity. }
    assert (X1 : no_booted (newer0 ++ (c2, EAsk (if k_cmdl c0 =? 0 then k_cfgl c0 else k_cmdl c0)) :: mid)).
    { apply app_no; [exact H4|]. intros x y [Hi|Hi]; [discriminate Hi|exact (H5 _ _ Hi)]. }
    assert (X2 : no_booted (recent0 ++ wl w1)) by (apply app_no; assumption).
    destruct (booted_unique _ _ _ _ _ _ _ _ _ E X1 X2 D) as (X3 & X4 & X5).
    exists before, after, w1, w2, newer0, recent, t, c2, mid. rewrite X3, X4.
    split; [exact A|]. split; [exact B|]. split; [exact C|]. split; [rewrite X5; exact H3|]. split; [exact F|].
    split; [reflexivity|]. split; [exact H1|]. rewrite X5. apply H8, HI.
Qed.

Theorem boot_waits_lem n evs cfgl cmdl w c older s : history n evs cfgl cmdl w -> happened w c (EBooted false) older -> holds_up c s ->
  declared_nowait evs s \/ has_run older (s_key s).
Proof.
  intros Hh Hp Hs. destruct (booted_how _ _ _ _ _ _ _ _ Hh Hp) as (bf & af & w1 & w2 & nw & rc & t & c2 & mid & _ & _ & _ & _ & _ & E & _ & HI).
  apply (iv_rec _ _ HI s).
  - apply in_or_app. left. apply Hs.
  - apply (holds_up_done c s Hs). destruct (completed c); [reflexivity|discriminate E].
Qed.
Theorem boot_resumes_lem n evs cfgl cmdl w c b older : history n evs cfgl cmdl w -> happened w c (EBooted b) older ->
  exists before after w1 w2 newer c2 mid, evs = before ++ EvBootCheck :: after /\ history n before cfgl cmdl w1 /\
    on_event n EvBootCheck w1 = Some (tt, w2) /\
    wl w2 = newer ++ (c2, EAsk (if k_cmdl c =? 0 then k_cfgl c else k_cmdl c)) :: mid ++ (c, EBooted b) :: older.
Proof.
  intros Hh Hp. destruct (booted_how _ _ _ _ _ _ _ _ Hh Hp) as (bf & af & w1 & w2 & nw & rc & t & c2 & mid & A & B & C & D & _).
  exists bf, af, w1, w2, nw, c2, mid. auto.
Qed.

Lemma ask_unique (l : log) c n newer older x y c2 n2 : l = newer ++ (c, EAsk n) :: older -> none_bad true newer ->
  l = x ++ (c2, EAsk n2) :: y -> c2 = c /\ n2 = n /\ y = older \/ exists z, x = newer ++ (c, EAsk n) :: z /\ older = z ++ (c2, EAsk n2) :: y.
Proof.
  intros H1 H2 H4. subst l. revert x H4. induction newer as [|a newer IH]; intros [|a' x] H4; cbn [app] in H4.
  - injection H4 as -> -> ->. auto.
  - injection H4 as <- ->. right. exists x. auto.
  - injection H4 as -> _. exfalso. apply (H2 c2 (EAsk n2)); [left; reflexivity|reflexivity].
  - injection H4 as <- H4. destruct (IH (fun c0 b0 Hi => H2 c0 b0 (or_intror Hi)) x H4) as [A|(z & A & B)]; [left; exact A|].
    right. exists z. rewrite A. auto.
Qed.

(** what a check asks for, it asks for once bootstrap has ended *)
Theorem boot_asks_lem n evs cfgl cmdl c l older : during n evs cfgl cmdl EvBootCheck c (EAsk l) older ->
  exists c1 b mid earlier, older = mid ++ (c1, EBooted b) :: earlier /\
    l = if k_cmdl c1 =? 0 then k_cfgl c1 else k_cmdl c1.
Proof.
  intros (before & after & w1 & w2 & newer & recent & A & B & C & D & F).
  assert (HX : forall new, none_bad true new -> wl w2 = new ++ wl w1 -> False).
  { intros new Q3 Q2. rewrite Q2 in D. rewrite F in D.
    assert (X : new = newer ++ (c, EAsk l) :: recent) by (apply (app_inv_tail (wl w1)); rewrite D, <- app_assoc; reflexivity).
    apply (Q3 c (EAsk l)); [|reflexivity]. rewrite X. apply in_or_app. right. left. reflexivity. }
  destruct (event_check _ _ _ C) as [[_ E]|[_ HC]].
  { exfalso. apply (HX []); [intros ? ? []|rewrite E; reflexivity]. }
  destruct HC as [H1 H2|t new H1 H2 H3 H4 _|t c0 c2 newer0 mid recent0 H1 H2 H3 H4 H5 H6 H7 H8].
  - exfalso. apply (HX []); [intros ? ? []|rewrite H2; reflexivity].
  - exfalso. exact (HX _ H4 H3).
  - destruct (ask_unique _ _ _ _ _ _ _ _ _ H3 H4 D) as [(_ & -> & ->)|(z & X1 & X2)].
    + exists c0, (negb (completed c0)), mid, (recent0 ++ wl w1). auto.
    + exfalso. rewrite F in X2.
      assert (X3 : mid ++ (c0, EBooted (negb (completed c0))) :: recent0 = z ++ (c, EAsk l) :: recent).
      { apply (app_inv_tail (wl w1)). rewrite <- !app_assoc. exact X2. }
      assert (X4 : In (c, EAsk l) (mid ++ (c0, EBooted (negb (completed c0))) :: recent0)).
      { rewrite X3. apply in_or_app. right. left. reflexivity. }
      apply in_app_or in X4. destruct X4 as [X4|[X4|X4]]; [exact (H5 _ _ X4 eq_refl)|discriminate X4|exact (H6 _ _ X4 eq_refl)].
Qed.

(** ** As soon as everything is complete *)

Lemma incomplete c : completed c = false -> exists s, In s (k_svcs c) /\ a_task s /\ may_start c s /\ ~ for_later s /\ s_once s = 0.
Proof.
  intros H. unfold completed in H.
  assert (X : exists s, In s (k_svcs c) /\ is_runtask s = true /\ enabled c s = true /\
     existsb (fun n => contains "hook/svc/up" n || contains "hook/sys/up" n) (c_cond (s_cf s)) = false /\ s_once s = 0).
  { induction (k_svcs c) as [|s l IH]; [discriminate H|]. cbn [forallb] in H. apply andb_false_iff in H. destruct H as [H|H].
    - exists s. apply orb_false_iff in H. destruct H as [H H5]. apply orb_false_iff in H. destruct H as [H H4].
      apply orb_false_iff in H. destruct H as [H _]. apply orb_false_iff in H. destruct H as [H1 H2].
      apply negb_false_iff in H1, H2, H5. apply Z.eqb_eq in H5. split; [left; reflexivity|]. auto.
    - destruct (IH H) as (s0 & A & B). exists s0. split; [right; exact A|exact B]. }
  destruct X as (s & A & B & C & D & F). exists s. split; [exact A|]. split.
  { unfold a_task. unfold is_runtask, ty in B. destruct (c_type (s_cf s)); try discriminate B; auto. }
  split; [apply enabled_may_start, C|]. split; [|exact F].
  intros (nm & a & b & Hn & Hc). rewrite <- not_true_iff_false in D. apply D. apply existsb_exists. exists nm. split; [exact Hn|].
  apply orb_true_iff. destruct Hc as [Hc|Hc]; [left|right]; eapply (contains_spec a _ nm Hc); reflexivity.
Qed.
Theorem boot_complete_lem n evs cfgl cmdl w : history n (evs ++ [EvBootCheck]) cfgl cmdl w -> ~ over w ->
  (forall c b older, ~ happened w c (EBooted b) older) ->
  exists s, In s (k_svcs (wc w)) /\ a_task s /\ may_start (wc w) s /\ ~ for_later s /\ s_once s = 0.
Proof.
  intros Hh Ho Hn. apply incomplete. pose proof Hh as Hh0. unfold history in Hh. rewrite run_app in Hh. unfold bind in Hh.
  destruct (run n evs (init_world cfgl cmdl)) as [[[] w1]|] eqn:E1; [|discriminate]. rewrite run_one in Hh.
  destruct (event_check _ _ _ Hh) as [[Hd E]|[_ HC]].
  { exfalso. subst w1. rewrite (not_over _ _ _ _ _ Hh0 Ho) in Hd. discriminate Hd. }
  destruct HC as [H1 H2|t new H1 H2 H3 H4 H5|t c0 c2 newer0 mid recent0 H1 H2 H3 H4 H5 H6 H7 H8].
  - exfalso. subst w1. pose proof (left_hist _ _ _ _ _ Hh0) as X. unfold left_ok in X. rewrite H1 in X.
    destruct X as (c & b & x & y & X & _). exact (Hn c b y (ex_intro _ x X)).
  - exact H5.
  - exfalso. apply (Hn c0 (negb (completed c0)) (recent0 ++ wl w1)).
    exists (newer0 ++ (c2, EAsk (if k_cmdl c0 =? 0 then k_cfgl c0 else k_cmdl c0)) :: mid). rewrite H3, <- app_assoc. reflexivity.
Qed.
