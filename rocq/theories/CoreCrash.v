(** C10: how often a crashing stanza is restarted. *)
From Coq Require Import List String Ascii ZArith NArith Bool Lia Arith Relations.
From Coq Require Import ZifyBool ZifyNat.
From Verif Require Import CondModel CoreTypes CoreModel CoreLib CoreMicro CoreExec CoreCalm CoreLog
  CoreSpec CoreSpecB CoreAny CoreProof CoreSlice CoreStay CoreSide CoreOne CoreGrow CoreAct.
Import ListNotations.
Local Open Scope Z_scope.

Fixpoint tries (l : list ent) : Z :=
  match l with
  | [] => 0
  | (_, ERetry _) :: l => 1 + tries l
  | (_, EGiveup _) :: l => 0
  | _ :: l => tries l
  end.
Fixpoint ticks (l : list ent) : Z :=
  match l with
  | [] => 0
  | (_, ETick) :: l => 1 + ticks l
  | (_, EGiveup _) :: l => 0
  | _ :: l => ticks l
  end.
Fixpoint clean (l : list ent) : bool :=
  match l with
  | [] => true
  | (_, EForkFail _ FMain) :: _ | (_, EState _ Paused Waiting) :: _ => false
  | _ :: l => clean l
  end.
Fixpoint down (l : list ent) : bool :=
  match l with
  | [] => false
  | (_, EGiveup _) :: _ => true
  | (_, ERequest _ _) :: _ | (_, EReconf) :: _ => false
  | _ :: l => down l
  end.

Lemma tries_tr j m o n l : tries (tr j m o n l) = tries l.
Proof. unfold tr. destruct (st_eqb o n); reflexivity. Qed.
Lemma ticks_tr j m o n l : ticks (tr j m o n l) = ticks l.
Proof. unfold tr. destruct (st_eqb o n); reflexivity. Qed.
Lemma down_tr j m o n l : down (tr j m o n l) = down l.
Proof. unfold tr. destruct (st_eqb o n); reflexivity. Qed.
Lemma clean_tr j m o n l : clean (tr j m o n l) = true -> clean l = true.
Proof. unfold tr. destruct (st_eqb o n); [auto|]. cbn [clean]. destruct o, n; auto; discriminate. Qed.
Lemma ticks_pos l : 0 <= ticks l.
Proof. induction l as [|[m x] l IH]; [cbn; lia|]. destruct x; cbn [ticks]; lia. Qed.
Lemma tries_pos l : 0 <= tries l.
Proof. induction l as [|[m x] l IH]; [cbn; lia|]. destruct x; cbn [tries]; lia. Qed.
Lemma tries_dull l : dulls l -> tries l = 0.
Proof. induction 1 as [|[m x] l D _ IH]; [reflexivity|]. cbn in D. destruct x; try exact IH; discriminate D. Qed.

Lemma ftimeout_rcnt ms cb s : s_rcnt (f_timeout ms cb s) = s_rcnt s.
Proof. unfold f_timeout. destruct (ms =? 0); [reflexivity|]. destruct (s_timer s); try reflexivity; destruct (ms <? 0); reflexivity. Qed.
Lemma fenter_rcnt n s : s_rcnt (f_enter n s) = s_rcnt s.
Proof.
  unfold f_enter. cbv zeta. destruct (st_eqb n Stopping), (st_eqb (s_state s) n); cbn [s_rcnt set_s_state set_s_killed]; rewrite ?ftimeout_rcnt; reflexivity.
Qed.
Lemma frtot_rcnt s : s_rcnt (f_rtot s) = s_rcnt s.
Proof. unfold f_rtot. destruct (_ && _); reflexivity. Qed.
Lemma fcollect_rcnt run st s t : s_rcnt (f_collect run st s t) = s_rcnt t.
Proof.
  unfold f_collect.
  destruct (is_script_state (s_state s)), (st_eqb (s_state s) Setup), (c_forking (s_cf s) && s_starting s), (is_daemon s || is_tty s), run; reflexivity.
Qed.
Lemma ftimeout_cf ms cb s : s_cf (f_timeout ms cb s) = s_cf s.
Proof. apply f_timeout_fields. Qed.
Lemma fenter_cf n s : s_cf (f_enter n s) = s_cf s.
Proof. apply f_enter_fields. Qed.
Lemma frtot_cf s : s_cf (f_rtot s) = s_cf s.
Proof. unfold f_rtot. destruct (_ && _); reflexivity. Qed.
Lemma fcollect_cf run st s t : s_cf (f_collect run st s t) = s_cf t.
Proof.
  unfold f_collect.
  destruct (is_script_state (s_state s)), (st_eqb (s_state s) Setup), (c_forking (s_cf s) && s_starting s), (is_daemon s || is_tty s), run; reflexivity.
Qed.

(** ** The restart timer runs out *)
Lemma retry_event n evs cfgl cmdl w1 m k s w2 d : history n evs cfgl cmdl w1 -> ~ over w1 ->
  on_event m (EvTimer k) w1 = Some (tt, w2) -> record_at (wc w1) k s -> s_timer s = TmArmed TcRetry d ->
  k_norespawn (wc w1) = false -> c_respawn (s_cf s) = false -> s_state s = Halted -> s_block s = BRestarting ->
  exists newer c, wl w2 = newer ++ (c, if negb (c_restart_max (s_cf s) =? -1) && (c_restart_max (s_cf s) <=? s_rcnt s)
    then EGiveup k else ERetry k) :: wl w1.
Proof.
  intros Hh Ho He Hs Ht Hn Hr Hst Hb. pose proof (not_over _ _ _ _ _ Hh Ho) as Hdn. pose proof (record_lookup _ _ _ _ _ _ _ Hh Hs) as Hf.
  set (x := if negb (c_restart_max (s_cf s) =? -1) && (c_restart_max (s_cf s) <=? s_rcnt s) then EGiveup k else ERetry k).
  assert (W : wp (on_event m (EvTimer k)) (fun _ w' => exists newer c, wl w' = newer ++ (c, x) :: wl w1) w1).
  2:{ unfold wp in W. rewrite He in W. exact W. }
  clear He w2. unfold on_event. apply wp_bind, wp_getc. rewrite Hdn. cbn [handle]. unfold timer_fires. apply wp_bind, wp_getc.
  rewrite Hf, Ht. change (L w1 k s) in Hf. apply wp_bind, wp_upd. unfold service_retry, cancel. apply wp_bind, wp_upd.
  set (w3 := wupd k (set_s_timer TmNone) (wupd k (set_s_timer (TmStale TcRetry)) w1)).
  set (s3 := set_s_timer TmNone (set_s_timer (TmStale TcRetry) s)).
  assert (HL : L w3 k s3) by (subst w3 s3; lk). apply wp_bind, wp_getc.
  change (k_norespawn (wc w3)) with (k_norespawn (wc w1)). rewrite Hn.
  apply wp_with_svc; [|unfold L in HL; congruence]. intros s0 HL0.
  assert (s0 = s3) by (unfold L in HL; congruence). subst s0. clear HL0.
  change (c_respawn (s_cf s3)) with (c_respawn (s_cf s)). rewrite Hr.
  change (s_state s3) with (s_state s). change (s_block s3) with (s_block s). rewrite Hst, Hb. cbn [st_eqb blk_eqb negb orb].
  change (s_cf s3) with (s_cf s). change (s_rcnt s3) with (s_rcnt s). subst x.
  destruct (negb (c_restart_max (s_cf s) =? -1) && (c_restart_max (s_cf s) <=? s_rcnt s)).
  - apply wp_bind, wp_emit. apply wp_ext; [pose proof (ext_exec m); exs|]. intros _ w4 (new & E4). exists new, (wc w3). exact E4.
  - apply wp_bind, wp_emit. apply wp_ext; [pose proof (ext_exec m); exs|]. intros _ w4 (new & E4). exists new, (wc w3). exact E4.
Qed.

(** ** Given up means blocked *)

Section C10.
Variable evs : list ev.
Hypothesis HT : tame evs.

Definition P10 (m : list Z) (x : eff) (l : list ent) : Prop :=
  match x with EFork _ FMain _ => down l = false | _ => True end.
Definition shut (s : svc) : Prop := (s_block s = BCrashing \/ s_block s = BUser) /\ c_respawn (s_cf s) = false.
Definition J10 (s : svc) (l : list ent) (m : list Z) : Prop := (down l = true -> shut s) /\ each P10 l.

Ltac blk := rewrite ?fenter_block, ?ftimeout_block, ?fcollect_block, ?fenter_cf, ?ftimeout_cf, ?fcollect_cf;
  cbn [s_block s_cf set_s_timer set_s_pid set_s_starting f_clean f_cleanup set_s_dirty set_s_adirty f_incr set_s_rcnt set_s_oldpid
       set_s_rtot set_s_once set_s_killed set_s_rtmo f_fork set_s_block set_s_removed set_s_rsaved]; rewrite ?frtot_block, ?frtot_cf; cbn [s_block s_cf set_s_starting].
Lemma step10 e c j s l m s' l' m' : J10 s l m -> step e c j s l m s' l' m' -> J10 s' l' m'.
Proof.
  intros [A B] St. unfold J10.
  destruct St; rewrite ?down_tr; cbn [down];
    try (split; [intros HS|solve [eachs]]; unfold shut in *; blk;
      first [ exact (A HS) | discriminate HS
            | exfalso; rewrite (enabled_block c s) in A by assumption; destruct (A HS) as [[X|X] _]; discriminate X
            | exfalso; destruct (A HS) as [[X|X] Y]; congruence
            | split; [right; reflexivity|apply (A HS)]
            | repeat match goal with |- context [if ?b then _ else _] => destruct b end; blk;
              first [exact (A HS)|discriminate HS|split; [right; reflexivity|apply (A HS)]] ]; fail).
  - split; [unfold shut in *; blk; exact A|]. destruct f; try discriminate; eachs.
  - assert (X : down l = false).
    { destruct (down l); [|reflexivity]. destruct (A eq_refl) as [[X|X] _]; rewrite (enabled_block c s) in X by assumption; discriminate X. }
    split; [congruence|]. apply each_cons; [exact Logic.I|]. apply each_cons; [exact X|exact B].
  - assert (X : down l = false).
    { destruct (down l); [|reflexivity]. destruct (A eq_refl) as [[X|X] _]; rewrite (enabled_block c s) in X by assumption; discriminate X. }
    split; [congruence|]. apply each_cons; [exact X|exact B].
  - destruct H0 as (m0 & l0 & ->). split; [discriminate|exact B].
  - split; [|exact B]. unfold shut. destruct (affected_same n s) as (_ & _ & _ & -> & -> & _). exact A.
  - split; [|exact B]. unfold shut. destruct (unavail_same c s) as (_ & _ & _ & -> & -> & _). exact A.
  - split; [|eachs]. destruct (1 <? s_pid s); exact A.
  - split; [|eachs]. intros _. split; [left; reflexivity|exact H1].
Qed.

Lemma dull10 m x l : dull x = true -> P10 m x l.
Proof. destruct x; try exact (fun _ => Logic.I). destruct f; try exact (fun _ => Logic.I). discriminate. Qed.

Lemma reach10 cfgl cmdl j w : reach True (E evs) (init_world cfgl cmdl) w ->
  match find_key j (k_svcs (wc w)) with
  | Some s => J10 s (jl j (wl w)) (mine j (wc w))
  | None => each P10 (jl j (wl w))
  end.
Proof.
  apply (slice_ind evs HT cfgl cmdl j J10 (fun l _ => each P10 l)).
  - apply each_nil.
  - intros. eapply step10; eauto.
  - intros c s l m l' _ _ [_ A] G. destruct G; eachs.
  - intros new l m A D. apply each_app; [apply dull10|exact D|exact A].
  - auto.
  - intros c r l _ _ A _ (m0 & l0 & ->). split; [discriminate|exact A].
Qed.

Lemma given_up_jl j l : given_up j l -> down (jl j l) = true.
Proof.
  intros (newer & c & older & -> & H). induction newer as [|[c' x] newer IH]; cbn [List.app jl].
  - unfold about. cbn [keyof]. rewrite Nat.eqb_refl. reflexivity.
  - assert (IH' : down (jl j (newer ++ (c, EGiveup j) :: older)) = true).
    { apply IH. intros c0 x0 Hi. apply (H c0 x0). right. exact Hi. }
    destruct (H c' x (or_introl eq_refl)) as [H1 H2].
    destruct (about j x) eqn:E; [|exact IH']. destruct x; try exact IH'; [reflexivity|contradiction H1; reflexivity|].
    exfalso. unfold about in E. cbn [keyof] in E. apply Nat.eqb_eq in E. subst k. apply (H2 r). reflexivity.
Qed.

Theorem given_up_lem n cfgl cmdl w k p c older : history n evs cfgl cmdl w ->
  happened w c (EFork k FMain p) older -> ~ given_up k older.
Proof.
  intros Hh Hp Hu. apply (run_tame evs HT) in Hh. pose proof (reach10 cfgl cmdl k w Hh) as X.
  destruct (jl_happened k w c (EFork k FMain p) older Hp) as (newer & En); [unfold about; cbn [keyof]; apply Nat.eqb_refl|].
  assert (Y : each P10 (jl k (wl w))) by (destruct (find_key k (k_svcs (wc w))); [apply X|exact X]).
  specialize (Y _ _ _ _ En). cbn in Y. apply given_up_jl in Hu. congruence.
Qed.

(** ** Counting *)

Hypothesis HS : sockets_work evs.
Hypothesis HL : no_lock evs.
Variable id : string * string.
Variable M : Z.
Hypothesis HM : M <= 127.
Hypothesis Hlim : limit evs id M.

Definition C10 (s : svc) (l : list ent) (m : list Z) : Prop :=
  identity s = id -> clean l = true -> tries l - ticks l <= s_rcnt s <= tries l /\ 0 <= s_rcnt s <= M.

Ltac cnt := rewrite ?fenter_rcnt, ?ftimeout_rcnt, ?fcollect_rcnt, ?fenter_cf, ?ftimeout_cf, ?fcollect_cf;
  cbn [s_rcnt s_cf set_s_timer set_s_pid set_s_starting f_clean f_cleanup set_s_dirty set_s_adirty f_incr set_s_rcnt set_s_oldpid
       set_s_rtot set_s_once set_s_killed set_s_rtmo f_fork set_s_block set_s_removed set_s_rsaved]; rewrite ?frtot_rcnt, ?frtot_cf; cbn [s_rcnt s_cf set_s_starting].
Lemma wrap8_small n : -128 <= n <= 127 -> wrap8 n = n.
Proof. intros H. unfold wrap8. rewrite Z.mod_small by lia. lia. Qed.

Lemma stepc e c j s l m s' l' m' : ~ (exists t, k_notes c = true :: t) -> k_norespawn c = false ->
  (identity s = id -> 0 <= c_restart_max (s_cf s) <= M) ->
  C10 s l m -> step e c j s l m s' l' m' -> C10 s' l' m'.
Proof.
  intros Hn Hlk Hr A St. unfold C10, identity in *.
  destruct St; rewrite ?tries_tr, ?ticks_tr; cbn [tries ticks];
    try (intros I C; try (apply clean_tr in C); revert I; cnt; intros I; first [exact (A I C)|discriminate C
       | exfalso; congruence
       | repeat match goal with |- context [if ?b then _ else _] => destruct b end; cnt; first [exact (A I C)] ]; fail).
  - intros I C. destruct f; try discriminate C; exact (A I C).
  - intros I C. exfalso. rewrite H in C. discriminate C.
  - destruct (mark_same s) as (_ & _ & _ & _ & -> & ->). exact A.
  - intros I C. destruct (rereg_same r s) as (_ & _ & _ & ->). apply A; [|exact C]. rewrite <- I, <- H1, <- H2. clear.
    unfold f_rereg, f_fin. cbv zeta. destruct (c_manual (r_cfg r)), (is_runtask_t (c_type (r_cfg r)) && c_sighup (r_cfg r)), (r_static r);
    match goal with |- context [if ?b then set_s_dirty true _ else _] => destruct b end; reflexivity.
  - destruct (affected_same n s) as (_ & _ & _ & _ & -> & ->). exact A.
  - destruct (unavail_same c s) as (_ & _ & _ & _ & -> & ->). exact A.
  - intros I C. specialize (Hr I). unfold f_giveup. cnt. destruct (c_oncrash (s_cf s)); cbn [tries ticks]; lia.
  - intros I C.
    assert (Ec : s_cf (f_retry s) = s_cf s) by (unfold f_retry; cbv zeta; destruct (_ =? 1); reflexivity).
    assert (En : s_rcnt (f_retry s) = wrap8 (s_rcnt s + 1)) by (unfold f_retry; cbv zeta; destruct (_ =? 1); reflexivity).
    rewrite Ec in I. specialize (Hr I). specialize (A I C). rewrite En, wrap8_small by lia. lia.
  - destruct (is_daemon s && st_eqb (s_state s) Running && (0 <? s_rcnt s)) eqn:E; cnt; intros I C; specialize (A I C); lia.
Qed.

Lemma reachc cfgl cmdl j w : reach True (E evs) (init_world cfgl cmdl) w ->
  match find_key j (k_svcs (wc w)) with
  | Some s => C10 s (jl j (wl w)) (mine j (wc w))
  | None => True
  end.
Proof.
  apply (slice_ind evs HT cfgl cmdl j C10 (fun _ _ => True)); try (intros; exact Logic.I).
  - intros e w0 s l m s' l' m' He Hr Hf Hm A St. pose proof (side_reach evs HT _ _ _ Hr) as Hi.
    eapply (stepc e (wc w0) j s l m); eauto.
    + intros (t & X). apply (sd_notes evs _ Hi HS). rewrite X. left. reflexivity.
    + apply (sd_resp evs _ Hi HL).
    + intros I. destruct (cf_reg evs w0 s (inv_reach evs HT _ _ _ Hr)) as (r & b & Hi2 & E);
        [apply in_or_app; left; apply find_key_in in Hf; apply Hf|].
      unfold identity in I. rewrite E in *. apply (Hlim r Hi2). exact I.
  - intros w0 r l Hr Hi _ D _ I _. rewrite (tries_dull l D). pose proof (ticks_pos l).
    assert (E : s_rcnt (fresh_svc j r) = 0).
    { unfold fresh_svc, f_fin. cbv zeta.
      destruct (c_manual (r_cfg r)), (is_runtask_t (c_type (r_cfg r)) && c_sighup (r_cfg r)), (r_static r);
        match goal with |- context [if ?b then set_s_dirty true _ else _] => destruct b end; reflexivity. }
    rewrite E. destruct (fresh_cf j r) as ((b & Ec) & _). unfold identity in I. rewrite Ec in I. cbn in I.
    destruct (i_conf evs _ (inv_reach evs HT _ _ _ Hr) r Hi) as (r0 & Hi0 & E0). rewrite E0 in I.
    pose proof (Hlim r0 Hi0 I). lia.
Qed.

Lemma retries_jl k l : retries k l = tries (jl k l).
Proof.
  induction l as [|[c x] l IH]; [reflexivity|]. cbn [retries jl]. unfold about.
  destruct x; cbn [keyof]; try (destruct (Nat.eqb k0 k); cbn [tries]; lia); cbn [tries]; lia.
Qed.
Lemma forgiven_jl k l : forgiven k l = ticks (jl k l).
Proof.
  induction l as [|[c x] l IH]; [reflexivity|]. cbn [forgiven jl]. unfold about.
  destruct x; cbn [keyof]; try (destruct (Nat.eqb k0 k); cbn [ticks]; lia); cbn [ticks]; lia.
Qed.
Lemma starts_jl k l : starts_work k l -> clean (jl k l) = true.
Proof.
  induction l as [|[c x] l IH]; [reflexivity|]. intros H. cbn [jl].
  assert (X : clean (jl k l) = true) by (apply IH; intros c0 x0 Hi; apply (H c0 x0); right; exact Hi).
  destruct (about k x) eqn:Ea; [|exact X]. destruct (H c x (or_introl eq_refl)) as [A B].
  destruct x; cbn [clean]; try exact X; unfold about in Ea; cbn in Ea; apply Nat.eqb_eq in Ea; subst k0.
  - destruct f; try exact X. contradiction A; reflexivity.
  - destruct old; try exact X. destruct new; try exact X. contradiction B; reflexivity.
Qed.

Lemma count_lem n cfgl cmdl w s : history n evs cfgl cmdl w -> In s (k_svcs (wc w)) -> identity s = id ->
  starts_work (s_key s) (wl w) ->
  retries (s_key s) (wl w) - forgiven (s_key s) (wl w) <= s_rcnt s <= retries (s_key s) (wl w) /\ 0 <= s_rcnt s <= M.
Proof.
  intros Hh Hs Hi Hw. pose proof (run_tame evs HT _ _ _ _ Hh) as Hr. pose proof (reachc cfgl cmdl (s_key s) w Hr) as X.
  rewrite (find_in evs w s (inv_reach evs HT _ _ _ Hr) Hs) in X. rewrite retries_jl, forgiven_jl. apply X; [exact Hi|]. apply starts_jl, Hw.
Qed.
Theorem retries_lem n cfgl cmdl w s : history n evs cfgl cmdl w -> In s (k_svcs (wc w)) -> identity s = id ->
  starts_work (s_key s) (wl w) -> retries (s_key s) (wl w) <= M + forgiven (s_key s) (wl w).
Proof. intros Hh Hs Hi Hw. pose proof (count_lem _ _ _ _ _ Hh Hs Hi Hw). lia. Qed.

(** the restart timer of a crashed stanza runs out *)
Theorem retry_lem n cfgl cmdl w1 m s w2 d : history n evs cfgl cmdl w1 -> ~ over w1 -> In s (k_svcs (wc w1)) ->
  identity s = id -> starts_work (s_key s) (wl w1) ->
  s_timer s = TmArmed TcRetry d -> s_state s = Halted -> s_block s = BRestarting -> c_respawn (s_cf s) = false ->
  on_event m (EvTimer (s_key s)) w1 = Some (tt, w2) ->
  (retries (s_key s) (wl w1) < c_restart_max (s_cf s) ->
     exists newer c, wl w2 = newer ++ (c, ERetry (s_key s)) :: wl w1) /\
  (c_restart_max (s_cf s) + forgiven (s_key s) (wl w1) <= retries (s_key s) (wl w1) ->
     exists newer c, wl w2 = newer ++ (c, EGiveup (s_key s)) :: wl w1).
Proof.
  intros Hh Ho Hs Hi Hw Ht Hst Hb Hr He. pose proof (count_lem _ _ _ _ _ Hh Hs Hi Hw) as C.
  pose proof (run_tame evs HT _ _ _ _ Hh) as Hre.
  assert (K : record_at (wc w1) (s_key s) s) by (split; [apply in_or_app; left; exact Hs|reflexivity]).
  pose proof (sd_resp evs _ (side_reach evs HT _ _ _ Hre) HL) as Hn.
  destruct (retry_event _ _ _ _ _ _ _ _ _ _ Hh Ho He K Ht Hn Hr Hst Hb) as (newer & c & E).
  destruct (cf_reg evs w1 s (inv_reach evs HT _ _ _ Hre)) as (r & b & Hi2 & Ec); [apply in_or_app; left; exact Hs|].
  assert (Hm : 0 <= c_restart_max (s_cf s) <= M).
  { rewrite Ec. apply (Hlim r Hi2). rewrite <- Hi. unfold identity. rewrite Ec. reflexivity. }
  split; intros X; exists newer, c; rewrite E.
  - destruct (Z.leb_spec (c_restart_max (s_cf s)) (s_rcnt s)); [lia|]. rewrite andb_false_r. reflexivity.
  - destruct (Z.leb_spec (c_restart_max (s_cf s)) (s_rcnt s)); [|lia]. destruct (Z.eqb_spec (c_restart_max (s_cf s)) (-1)); [lia|]. reflexivity.
Qed.
End C10.
