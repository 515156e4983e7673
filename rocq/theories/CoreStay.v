(** C11: a stanza stopped by the user stays stopped.  With tools to go from
    one stanza's entries back to the whole log. *)
From Coq Require Import List String Ascii ZArith NArith Bool Lia Arith Relations.
From Coq Require Import ZifyBool ZifyNat.
From Verif Require Import CondModel CoreTypes CoreModel CoreLib CoreMicro CoreExec CoreCalm CoreLog
  CoreSpec CoreSpecB CoreAny CoreProof CoreSlice.
Import ListNotations.
Local Open Scope Z_scope.

Lemma jl_app j l1 l2 : jl j (l1 ++ l2) = jl j l1 ++ jl j l2.
Proof.
  induction l1 as [|[c x] l1 IH]; [reflexivity|]. cbn [List.app jl]. destruct (about j x); cbn [List.app]; rewrite IH; reflexivity.
Qed.
Lemma jl_happened j w c x older : happened w c x older -> about j x = true ->
  exists newer, jl j (wl w) = newer ++ (mine j c, x) :: jl j older.
Proof.
  intros (newer & E) H. exists (jl j newer). rewrite E, jl_app. cbn [jl]. rewrite H. reflexivity.
Qed.

(** every entry satisfies [P], which may look at what came before *)
Definition each (P : list Z -> eff -> list ent -> Prop) (l : list ent) : Prop :=
  forall l1 m x l2, l = l1 ++ (m, x) :: l2 -> P m x l2.
Lemma each_nil P : each P [].
Proof. intros l1 m x l2 E. destruct l1; discriminate E. Qed.
Lemma each_cons (P : list Z -> eff -> list ent -> Prop) m x l : P m x l -> each P l -> each P ((m, x) :: l).
Proof. intros H1 H2 l1 m' x' l2 E. destruct l1 as [|a l1]; inversion E; subst; [exact H1|]. eapply H2; reflexivity. Qed.
Lemma each_app (P : list Z -> eff -> list ent -> Prop) new l : (forall m x l2, dull x = true -> P m x l2) -> dulls new -> each P l -> each P (new ++ l).
Proof.
  intros HP Hd H. induction Hd as [|[m x] new D _ IH]; [exact H|]. cbn [List.app]. apply each_cons; [apply HP, D|exact IH].
Qed.
Lemma each_dulls (P : list Z -> eff -> list ent -> Prop) l : (forall m x l2, dull x = true -> P m x l2) -> dulls l -> each P l.
Proof. intros HP Hd. rewrite <- (app_nil_r l). apply each_app; [exact HP|exact Hd|apply each_nil]. Qed.
Lemma each_tr (P : list Z -> eff -> list ent -> Prop) j m o n l : (o <> n -> P m (EState j o n) l) -> each P l -> each P (tr j m o n l).
Proof.
  intros H1 H2. unfold tr. destruct (st_eqb o n) eqn:E; [exact H2|]. apply each_cons; [|exact H2]. apply H1, st_eqb_neq, E.
Qed.

Ltac eachs := repeat first
  [ assumption | apply each_tr; [intros _; exact I|] | apply each_cons; [exact I|]
  | match goal with |- each _ (if ?b then _ else _) => destruct b
    | |- each _ (match ?b with _ => _ end) => destruct b end ].

(** fields that survive *)
Lemma fenter_block n s : s_block (f_enter n s) = s_block s.
Proof. apply f_enter_fields. Qed.
Lemma ftimeout_block ms cb s : s_block (f_timeout ms cb s) = s_block s.
Proof. apply f_timeout_fields. Qed.
Lemma frtot_block s : s_block (f_rtot s) = s_block s.
Proof. unfold f_rtot. destruct (_ && _); reflexivity. Qed.
Lemma fcollect_block run st s t : s_block (f_collect run st s t) = s_block t.
Proof.
  unfold f_collect.
  destruct (is_script_state (s_state s)), (st_eqb (s_state s) Setup), (c_forking (s_cf s) && s_starting s), (is_daemon s || is_tty s), run; reflexivity.
Qed.
Lemma enabled_block c s : enabled c s = true -> s_block s = BNone.
Proof. intros H. apply enabled_may_start in H. apply H. Qed.

(** the latest request was to stop, and nothing was reconfigured since *)
Fixpoint stopped (l : list ent) : bool :=
  match l with
  | [] => false
  | (_, ERequest _ RqStop) :: _ => true
  | (_, ERequest _ _) :: _ | (_, EReconf) :: _ => false
  | _ :: l => stopped l
  end.

Definition P11 (m : list Z) (x : eff) (l : list ent) : Prop :=
  match x with EFork _ FMain _ => stopped l = false | _ => True end.
Definition J11 (s : svc) (l : list ent) (m : list Z) : Prop :=
  (stopped l = true -> s_block s = BUser) /\ each P11 l.

Lemma stopped_tr j m o n l : stopped (tr j m o n l) = stopped l.
Proof. unfold tr. destruct (st_eqb o n); reflexivity. Qed.

Section C11.
Variable evs : list ev.
Hypothesis HT : tame evs.

Ltac blk := rewrite ?fenter_block, ?ftimeout_block, ?fcollect_block;
  cbn [s_block set_s_timer set_s_pid set_s_starting f_clean f_cleanup set_s_dirty set_s_adirty f_incr set_s_rcnt set_s_oldpid
       set_s_rtot set_s_once set_s_killed set_s_rtmo f_fork set_s_block]; rewrite ?frtot_block.
Lemma step11 e c j s l m s' l' m' : J11 s l m -> step e c j s l m s' l' m' -> J11 s' l' m'.
Proof.
  intros [A B] St. unfold J11.
  destruct St; rewrite ?stopped_tr; cbn [stopped];
    try (split; [intros HS|solve [eachs]]; blk;
      first [ exact (A HS) | discriminate HS | reflexivity
            | exfalso; rewrite (enabled_block c s) in A by assumption; specialize (A HS); discriminate A
            | exfalso; specialize (A HS); congruence
            | repeat match goal with |- context [if ?b then _ else _] => destruct b end;
              first [exact (A HS)|reflexivity|discriminate HS] ]; fail).
  - split; [blk; exact A|]. destruct f; try discriminate; eachs.
  - rewrite (enabled_block c s) in A by assumption. assert (Z : stopped l = false) by (destruct (stopped l); [discriminate (A eq_refl)|reflexivity]).
    split; [congruence|]. apply each_cons; [exact I|]. apply each_cons; [exact Z|exact B].
  - rewrite (enabled_block c s) in A by assumption. assert (Z : stopped l = false) by (destruct (stopped l); [discriminate (A eq_refl)|reflexivity]).
    split; [congruence|]. apply each_cons; [exact Z|exact B].
  - destruct H0 as (m0 & l0 & ->). split; [discriminate|exact B].
  - split; [|exact B]. unfold f_affected. destruct (_ && _); exact A.
  - split; [|exact B]. unfold f_unavail, svc_mark. destruct (ifthen_conf _ _); [exact A|]. destruct (s_protect s); exact A.
  - split; [|eachs]. destruct (1 <? s_pid s); exact A.
  - split; [|eachs]. intros HS. exfalso. assert (stopped l = true) by (destruct (c_oncrash (s_cf s)); exact HS).
    specialize (A ltac:(assumption)). congruence.
  - split; [|eachs]. destruct r; try discriminate. contradiction.
  - split; [|eachs]. destruct r; try discriminate. contradiction.
  - split; [|eachs]. destruct r; try discriminate. contradiction.
Qed.

Lemma dull11 m x l : dull x = true -> P11 m x l.
Proof. destruct x; try exact (fun _ => I). destruct f; try exact (fun _ => I). discriminate. Qed.

Lemma reach11 cfgl cmdl j w : reach True (E evs) (init_world cfgl cmdl) w ->
  match find_key j (k_svcs (wc w)) with
  | Some s => J11 s (jl j (wl w)) (mine j (wc w))
  | None => each P11 (jl j (wl w))
  end.
Proof.
  apply (slice_ind evs HT cfgl cmdl j J11 (fun l _ => each P11 l)).
  - apply each_nil.
  - intros. eapply step11; eauto.
  - intros c s l m l' _ _ [_ A] G. destruct G; eachs.
  - intros new l m A D. apply each_app; [apply dull11|exact D|exact A].
  - auto.
  - intros c r l _ _ A _ (m0 & l0 & ->). split; [discriminate|exact A].
Qed.

Lemma user_stopped_jl j l : user_stopped j l -> stopped (jl j l) = true.
Proof.
  intros (newer & c & older & -> & H). induction newer as [|[c' x] newer IH]; cbn [List.app jl].
  - unfold about. cbn [keyof]. rewrite Nat.eqb_refl. reflexivity.
  - assert (IH' : stopped (jl j (newer ++ (c, ERequest j RqStop) :: older)) = true).
    { apply IH. intros c0 x0 Hi. apply (H c0 x0). right. exact Hi. }
    destruct (H c' x (or_introl eq_refl)) as [H1 H2].
    destruct (about j x) eqn:E; [|exact IH']. destruct x; try exact IH'; [contradiction H1; reflexivity|].
    exfalso. unfold about in E. cbn [keyof] in E. apply Nat.eqb_eq in E. subst k. apply (H2 r). reflexivity.
Qed.

Theorem user_stop_lem n cfgl cmdl w k p c older : history n evs cfgl cmdl w ->
  happened w c (EFork k FMain p) older -> ~ user_stopped k older.
Proof.
  intros Hh Hp Hu. apply (run_tame evs HT) in Hh. pose proof (reach11 cfgl cmdl k w Hh) as X.
  destruct (jl_happened k w c (EFork k FMain p) older Hp) as (newer & En); [unfold about; cbn [keyof]; apply Nat.eqb_refl|].
  assert (Y : each P11 (jl k (wl w))) by (destruct (find_key k (k_svcs (wc w))); [apply X|exact X]).
  specialize (Y _ _ _ _ En). cbn in Y. apply user_stopped_jl in Hu. congruence.
Qed.
Theorem user_block_lem n cfgl cmdl w s : history n evs cfgl cmdl w ->
  In s (k_svcs (wc w)) -> user_stopped (s_key s) (wl w) -> s_block s = BUser.
Proof.
  intros Hh Hs Hu. pose proof (run_tame evs HT _ _ _ _ Hh) as Hr. pose proof (reach11 cfgl cmdl (s_key s) w Hr) as X.
  rewrite (find_in evs w s (inv_reach evs HT _ _ _ Hr) Hs) in X. apply X, user_stopped_jl, Hu.
Qed.
End C11.
