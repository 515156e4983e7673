(** Proofs about the netlink plugin. *)
From Coq Require Import List String Ascii NArith ZArith Bool Lia.
From Coq Require Import ZifyBool ZifyNat ZifyN.
From Verif Require Import CondModel CondSpec CondProof NetModel NetSpec.
Import ListNotations.
Local Open Scope string_scope.

(** ** Names *)
Fixpoint slashes (s : string) : nat :=
  match s with EmptyString => 0 | String c s => (if Ascii.eqb c "/" then 1 else 0) + slashes s end.
Lemma slashes_app a b : slashes (a ++ b) = slashes a + slashes b.
Proof. induction a as [|c a IH]; cbn; [reflexivity|]. rewrite IH. lia. Qed.
Lemma prefix_app a b : String.prefix a b = true <-> exists r, b = a ++ r.
Proof.
  revert b. induction a as [|c a IH]; intros b.
  - split; [intros _; exists b; reflexivity|destruct b; reflexivity].
  - destruct b as [|d b]; [split; [discriminate|intros (r & H); discriminate]|].
    cbn [String.prefix]. destruct (ascii_dec c d) as [->|N].
    + rewrite (IH b). split; intros (r & H); exists r; [rewrite H; reflexivity|inversion H; reflexivity].
    + split; [discriminate|]. intros (r & H). inversion H. congruence.
Qed.
Lemma valid_slash n : valid_ifname n = true -> slashes n = 0 /\ String.length n < 16.
Proof.
  unfold valid_ifname. intros H. repeat (apply andb_prop in H; destruct H as [H ?]). split; [|apply Nat.ltb_lt; assumption].
  match goal with X : forallb _ _ = true |- _ => rename X into F end. clear -F.
  induction n as [|c n IH]; [reflexivity|]. cbn in *. apply andb_prop in F. destruct F as [F1 F2]. rewrite (IH F2).
  unfold ifch in F1. destruct (Ascii.eqb c "/"); [discriminate|reflexivity].
Qed.
Definition kinds : list string := ["exist"; "up"; "running"].
Definition net_name (q : string) : Prop :=
  q = route_default \/ exists n k, valid_ifname n = true /\ In k kinds /\ q = net_cond n k.
Lemma net_name_slashes q : net_name q -> slashes q = 2.
Proof.
  intros [->|(n & k & V & K & ->)]; [reflexivity|]. unfold net_cond. rewrite !slashes_app. destruct (valid_slash n V) as [-> _].
  cbn in K. destruct K as [<-|[<-|[<-|[]]]]; reflexivity.
Qed.
Lemma app_length (a b : string) : String.length (a ++ b) = String.length a + String.length b.
Proof. induction a as [|c a IH]; cbn; [reflexivity|]. rewrite IH. reflexivity. Qed.
Lemma net_name_short q : net_name q -> String.length q <= 43 /\ cond_path q = q /\ is_nop q = false /\ String.prefix "net/" q = true.
Proof.
  intros H. assert (L : String.length q <= 43).
  { destruct H as [->|(n & k & V & K & ->)]; [cbn; lia|]. unfold net_cond. rewrite !app_length. destruct (valid_slash n V) as [_ L].
    cbn in K. destruct K as [<-|[<-|[<-|[]]]]; cbn [String.length]; lia. }
  split; [exact L|]. split; [apply substring_ge, L|].
  destruct H as [->|(n & k & V & K & ->)]; [split; reflexivity|]. split; [reflexivity|]. apply prefix_app. eexists. reflexivity.
Qed.
Lemma not_below p q : net_name p -> net_name q -> below p q = false.
Proof.
  intros P Q. destruct (below p q) eqn:E; [|reflexivity]. exfalso. apply prefix_app in E. destruct E as (r & E).
  apply net_name_slashes in P, Q. rewrite E, !slashes_app in Q. cbn in Q. lia.
Qed.
Lemma prefix_net q : String.prefix "net/" q = true -> String.prefix "net" q = true.
Proof. rewrite !prefix_app. intros (r & ->). exists ("/" ++ r). reflexivity. Qed.
Lemma below_net_prefix p q : String.prefix "net/" q = true -> below p q = true -> String.prefix "net" p = true.
Proof.
  unfold below. rewrite !prefix_app. intros (r & ->) (t & H).
  destruct p as [|a [|b [|c p]]]; cbn in H; try discriminate H.
  inversion H; subst. exists p. reflexivity.
Qed.
Lemma net_cond_inj n k n' k' : valid_ifname n = true -> valid_ifname n' = true -> net_cond n k = net_cond n' k' -> n = n' /\ k = k'.
Proof.
  intros V V' H. apply valid_slash in V, V'. destruct V as [V _], V' as [V' _]. unfold net_cond in H. cbn in H. inversion H as [H']. clear H.
  revert n' V' H'. induction n as [|c n IH]; intros [|d n'] V' H'; cbn in *.
  - inversion H'. auto.
  - inversion H'; subst. cbn in V'. discriminate.
  - inversion H'; subst. cbn in V. discriminate.
  - inversion H'; subst. destruct (Ascii.eqb d "/"); [discriminate V|]. destruct (IH V n' V' H1). subst. auto.
Qed.
Lemma route_not_link n k : valid_ifname n = true -> In k kinds -> route_default <> net_cond n k.
Proof.
  intros V K H. assert (VR : valid_ifname "route" = true) by reflexivity.
  change route_default with (net_cond "route" "default") in H. apply net_cond_inj in H; [|exact VR|exact V].
  destruct H as [_ H]. cbn in K. intuition congruence.
Qed.

(** ** The store *)
Definition want (m : linkmap) (n k : string) : bool :=
  if String.eqb k "exist" then exists_ (m n) else if String.eqb k "up" then is_up (m n) else is_running (m n).
Record nj (c : cstore) : Prop := {
  nj_pos : (0 < reconf c)%N;
  nj_ent : forall q e, In (q, e) (ents c) -> String.prefix "net" q = true -> net_name q /\ exists g, e = Gen g
}.
Definition agree (m : linkmap) (c : cstore) : Prop :=
  forall n k, valid_ifname n = true -> In k kinds -> lookup (net_cond n k) (ents c) <> None <-> want m n k = true.
Definition fresh_gen (c : cstore) : Prop :=
  forall q e, In (q, e) (ents c) -> String.prefix "net" q = true -> e = Gen (reconf c).

Lemma lookup_in p l e : lookup p l = Some e -> In (p, e) l.
Proof.
  induction l as [|[q x] l IH]; cbn; [discriminate|]. destruct (String.eqb p q) eqn:E; [|auto].
  apply String.eqb_eq in E. intros H. inversion H; subst. auto.
Qed.
Lemma net_prefix q : net_name q -> String.prefix "net" q = true.
Proof. intros H. apply prefix_net, net_name_short, H. Qed.
Lemma no_clash_net c q : nj c -> net_name q -> checkpath_fails c q = false.
Proof.
  intros J Q. apply existsb_false_iff. intros [p e] Hi. cbn [fst]. destruct (below p q) eqn:E; [|reflexivity].
  assert (P : String.prefix "net" p = true) by (eapply below_net_prefix; [|exact E]; apply net_name_short, Q).
  destruct (nj_ent c J p e Hi P) as [N _]. rewrite (not_below p q N Q) in E. discriminate E.
Qed.
Lemma strip_net q : net_name q -> strip_slash q = q.
Proof.
  intros H. apply good_strip. unfold good_name. destruct (net_name_short q H) as (L & _ & P & _).
  apply Nat.leb_le in L. rewrite L. unfold is_nop in P. rewrite P. cbn [negb andb].
  assert (E : exists a c, q = a ++ String c "" /\ c <> "/"%char).
  { destruct H as [->|(n & k & V & K & ->)]; [exists "net/route/defaul", "t"%char; split; [reflexivity|discriminate]|].
    cbn in K. destruct K as [<-|[<-|[<-|[]]]].
    - exists ("net/" ++ n ++ "/exis"), "t"%char. split; [|discriminate]. unfold net_cond. cbn. clear. do 4 f_equal. induction n; cbn; congruence.
    - exists ("net/" ++ n ++ "/u"), "p"%char. split; [|discriminate]. unfold net_cond. cbn. clear. do 4 f_equal. induction n; cbn; congruence.
    - exists ("net/" ++ n ++ "/runnin"), "g"%char. split; [|discriminate]. unfold net_cond. cbn. clear. do 4 f_equal. induction n; cbn; congruence. }
  destruct E as (a & c & -> & Hc). rewrite app_length. cbn [String.length]. rewrite Nat.add_1_r.
  assert (S : substring (String.length a) 1 (a ++ String c "") = String c "") by (clear; induction a; cbn; auto). rewrite S.
  cbn. destruct (Ascii.eqb c "/") eqn:E; [|reflexivity]. apply Ascii.eqb_eq in E. congruence.
Qed.
Lemma no_dir_net c q : nj c -> net_name q -> is_dir c q = false.
Proof.
  intros J Q. unfold is_dir. rewrite (strip_net q Q). apply existsb_false_iff. intros [p e] Hi. cbn [fst].
  destruct (below q p) eqn:E; [|reflexivity].
  assert (P : String.prefix "net" p = true).
  { unfold below in E. apply prefix_app in E. destruct E as (r & ->). pose proof (net_prefix q Q) as X. apply prefix_app in X.
    destruct X as (t & ->). apply prefix_app. exists (t ++ "/" ++ r). clear. cbn. do 3 f_equal. induction t; cbn; congruence. }
  destruct (nj_ent c J p e Hi P) as [N _]. rewrite (not_below q p Q N) in E. discriminate E.
Qed.
Lemma in_remove p q e l : In (q, e) (remove_ent p l) <-> In (q, e) l /\ q <> p.
Proof.
  unfold remove_ent. rewrite filter_In. cbn [fst]. rewrite negb_true_iff, String.eqb_neq. intuition.
Qed.
(** asserting a net/ condition *)
Lemma cset_net c q : nj c -> net_name q ->
  reconf (cset q c) = reconf c /\
  (forall p e, In (p, e) (ents (cset q c)) <-> (p = q /\ e = Gen (reconf c)) \/ p <> q /\ In (p, e) (ents c)) /\
  (forall p, lookup p (ents (cset q c)) = if String.eqb p q then Some (Gen (reconf c)) else lookup p (ents c)).
Proof.
  intros J Q. destruct (net_name_short q Q) as (_ & CP & NP & _).
  assert (X : cset q c = write_gen c q (reconf c)).
  { unfold cset, cond_set_nu. rewrite NP, CP. unfold cond_set_path. rewrite (no_clash_net c q J Q).
    pose proof (nj_pos c J). assert (N.eqb (reconf c) 0 = false) as -> by lia. reflexivity. }
  rewrite X. unfold write_gen. destruct (lookup q (ents c)) as [e|] eqn:E.
  - pose proof (lookup_in _ _ _ E) as Hi. destruct (nj_ent c J q e Hi (net_prefix q Q)) as [_ (g & ->)]. cbn [reconf ents].
    split; [reflexivity|]. split.
    + intros p e. cbn [In]. rewrite in_remove. split.
      * intros [H|[H1 H2]]; [inversion H; auto|auto].
      * intros [[-> ->]|[H1 H2]]; auto.
    + intros p. cbn [lookup]. destruct (String.eqb p q) eqn:F; [reflexivity|]. apply lookup_remove_neq. apply String.eqb_neq, F.
  - rewrite (no_dir_net c q J Q). cbn [reconf ents]. split; [reflexivity|]. apply lookup_none_notin in E. split.
    + intros p e. cbn [In]. split.
      * intros [H|H]; [inversion H; auto|]. right. split; [|exact H]. intros ->. apply E. apply in_map_iff. exists (q, e). auto.
      * intros [[-> ->]|[H1 H2]]; auto.
    + intros p. cbn [lookup]. destruct (String.eqb p q); reflexivity.
Qed.
Lemma cclr_net c q : net_name q ->
  reconf (cclr q c) = reconf c /\
  (forall p e, In (p, e) (ents (cclr q c)) <-> p <> q /\ In (p, e) (ents c)) /\
  (forall p, lookup p (ents (cclr q c)) = if String.eqb p q then None else lookup p (ents c)).
Proof.
  intros Q. destruct (net_name_short q Q) as (_ & CP & NP & _). unfold cclr, cond_clear_nu. rewrite NP, CP. unfold cond_unlink. cbn [snd reconf ents].
  split; [reflexivity|]. split; [intros p e; rewrite in_remove; tauto|]. intros p. destruct (String.eqb p q) eqn:F.
  - apply String.eqb_eq in F. subst. apply lookup_remove_eq.
  - apply lookup_remove_neq, String.eqb_neq, F.
Qed.
Lemma nj_cset c q : nj c -> net_name q -> nj (cset q c).
Proof.
  intros J Q. destruct (cset_net c q J Q) as (R & E & _). constructor; [rewrite R; apply J|]. intros p e Hi P.
  apply E in Hi. destruct Hi as [[-> ->]|[_ Hi]]; [split; [exact Q|eauto]|]. eapply nj_ent; eassumption.
Qed.
Lemma nj_cclr c q : nj c -> net_name q -> nj (cclr q c).
Proof.
  intros J Q. destruct (cclr_net c q Q) as (R & E & _). constructor; [rewrite R; apply J|]. intros p e Hi P.
  apply E in Hi. eapply nj_ent; [exact J|apply Hi|exact P].
Qed.
Lemma fg_cset c q : nj c -> net_name q -> fresh_gen c -> fresh_gen (cset q c).
Proof.
  intros J Q F p e Hi P. destruct (cset_net c q J Q) as (R & E & _). rewrite R. apply E in Hi.
  destruct Hi as [[_ ->]|[_ Hi]]; [reflexivity|]. eapply F; eassumption.
Qed.
Lemma fg_cclr c q : net_name q -> fresh_gen c -> fresh_gen (cclr q c).
Proof.
  intros Q F p e Hi P. destruct (cclr_net c q Q) as (R & E & _). rewrite R. apply E in Hi. eapply F; [apply Hi|exact P].
Qed.
Lemma nc_name n k : valid_ifname n = true -> In k kinds -> net_name (net_cond n k).
Proof. intros. right. eauto. Qed.
Lemma ncs n k b c : nj c -> valid_ifname n = true -> In k kinds ->
  nj (net_cond_set n k b c) /\ (fresh_gen c -> fresh_gen (net_cond_set n k b c)) /\ reconf (net_cond_set n k b c) = reconf c /\
  (forall p, lookup p (ents (net_cond_set n k b c)) =
     if String.eqb p (net_cond n k) then (if b then Some (Gen (reconf c)) else None) else lookup p (ents c)).
Proof.
  intros J V K. pose proof (nc_name n k V K) as Q. unfold net_cond_set. destruct b.
  - split; [apply nj_cset; assumption|]. split; [apply fg_cset; assumption|]. destruct (cset_net c _ J Q) as (R & _ & L). auto.
  - split; [apply nj_cclr; assumption|]. split; [apply fg_cclr; assumption|]. destruct (cclr_net c _ Q) as (R & _ & L). auto.
Qed.
(** the three conditions of one interface *)
Lemma three n a b d c m x : nj c -> valid_ifname n = true -> agree m c ->
  a = exists_ x -> b = is_up x -> d = is_running x ->
  let c' := net_cond_set n "running" d (net_cond_set n "up" b (net_cond_set n "exist" a c)) in
  nj c' /\ (fresh_gen c -> fresh_gen c') /\ agree (say n x m) c' /\ reconf c' = reconf c.
Proof.
  intros J V A -> -> -> c'. subst c'.
  destruct (ncs n "exist" (exists_ x) c J V) as (J1 & F1 & R1 & L1); [cbn; auto|]. set (c1 := net_cond_set n "exist" _ c) in *.
  destruct (ncs n "up" (is_up x) c1 J1 V) as (J2 & F2 & R2 & L2); [cbn; auto|]. set (c2 := net_cond_set n "up" _ c1) in *.
  destruct (ncs n "running" (is_running x) c2 J2 V) as (J3 & F3 & R3 & L3); [cbn; auto|]. set (c3 := net_cond_set n "running" _ c2) in *.
  split; [exact J3|]. split; [auto|]. split; [|congruence]. intros n' k V' K. rewrite L3, L2, L1. unfold want, say.
  destruct (String.eqb n' n) eqn:E.
  - apply String.eqb_eq in E. subst n'. clear L1 L2 L3 F1 F2 F3.
    assert (D : forall k', String.eqb (net_cond n k) (net_cond n k') = String.eqb k k').
    { intros k'. destruct (String.eqb k k') eqn:E; [apply String.eqb_eq in E; subst; apply String.eqb_refl|].
      apply String.eqb_neq in E. apply String.eqb_neq. intros H. apply net_cond_inj in H; tauto. }
    rewrite !D. cbn in K. destruct K as [<-|[<-|[<-|[]]]]; cbn; destruct x as [|[] []]; cbn; split; congruence.
  - apply String.eqb_neq in E.
    assert (D : forall k', String.eqb (net_cond n' k) (net_cond n k') = false).
    { intros k'. apply String.eqb_neq. intros H. apply net_cond_inj in H; tauto. }
    rewrite !D. apply A; assumption.
Qed.

(** ** Messages *)
Definition vsay n x (m : linkmap) : linkmap := say n x m.
Definition inv (m : linkmap) (c : cstore) : Prop := nj c /\ fresh_gen c /\ agree m c.
Lemma agree_ext m m' c : (forall n, valid_ifname n = true -> m n = m' n) -> agree m c -> agree m' c.
Proof. intros H A n k V K. rewrite (A n k V K). unfold want. rewrite (H n V). tauto. Qed.
Lemma check_cond idx n s : n_cond (nl_check_default idx n s) = n_cond s.
Proof. unfold nl_check_default. destruct (_ || _); reflexivity. Qed.
Lemma new1 idx up r s n m : inv m (n_cond s) -> inv (say n (There up r) m) (n_cond (nl_new1 idx up r s n)) /\ reconf (n_cond (nl_new1 idx up r s n)) = reconf (n_cond s).
Proof.
  intros (J & F & A). unfold nl_new1. destruct (valid_ifname n) eqn:V; cbn [negb].
  - match goal with |- context [if negb up || negb r then nl_check_default idx n ?s else ?s] => set (s1 := s) end.
    assert (E : n_cond (if negb up || negb r then nl_check_default idx n s1 else s1) = n_cond s1) by (destruct (_ || _); [apply check_cond|reflexivity]).
    rewrite E. unfold s1, set_cond. cbn [n_cond].
    destruct (three n true up r (n_cond s) m (There up r) J V A eq_refl eq_refl eq_refl) as (X1 & X2 & X3 & X4).
    split; [split; [exact X1|split; [apply X2, F|exact X3]]|exact X4].
  - split; [|reflexivity]. split; [exact J|]. split; [exact F|]. eapply agree_ext; [|exact A]. intros k Vk. unfold say.
    destruct (String.eqb k n) eqn:E; [apply String.eqb_eq in E; congruence|reflexivity].
Qed.
Lemma del1 idx s n m : inv m (n_cond s) -> inv (say n Gone m) (n_cond (nl_del1 idx s n)) /\ reconf (n_cond (nl_del1 idx s n)) = reconf (n_cond s).
Proof.
  intros (J & F & A). unfold nl_del1. destruct (valid_ifname n) eqn:V; cbn [negb].
  - rewrite check_cond. unfold set_cond. cbn [n_cond].
    destruct (three n false false false (n_cond s) m Gone J V A eq_refl eq_refl eq_refl) as (X1 & X2 & X3 & X4).
    split; [split; [exact X1|split; [apply X2, F|exact X3]]|exact X4].
  - split; [|reflexivity]. split; [exact J|]. split; [exact F|]. eapply agree_ext; [|exact A]. intros k Vk. unfold say.
    destruct (String.eqb k n) eqn:E; [apply String.eqb_eq in E; congruence|reflexivity].
Qed.
Lemma route_name : net_name route_default.
Proof. left. reflexivity. Qed.
Lemma agree_route m c c' b : agree m c -> (forall p, lookup p (ents c') = if String.eqb p route_default then b else lookup p (ents c)) -> agree m c'.
Proof.
  intros A L n k V K. rewrite L. assert (E : String.eqb (net_cond n k) route_default = false).
  { apply String.eqb_neq. intros H. symmetry in H. revert H. apply route_not_link; assumption. }
  rewrite E. apply A; assumption.
Qed.
Lemma inv_rset m c : inv m c -> inv m (cset route_default c) /\ reconf (cset route_default c) = reconf c.
Proof.
  intros (J & F & A). destruct (cset_net c _ J route_name) as (R & _ & L). split; [|exact R].
  split; [apply nj_cset; [exact J|apply route_name]|]. split; [apply fg_cset; [exact J|apply route_name|exact F]|eapply agree_route; [exact A|exact L]].
Qed.
Lemma inv_rclr m c : inv m c -> inv m (cclr route_default c) /\ reconf (cclr route_default c) = reconf c.
Proof.
  intros (J & F & A). destruct (cclr_net c _ route_name) as (R & _ & L). split; [|exact R].
  split; [apply nj_cclr; [exact J|apply route_name]|]. split; [apply fg_cclr; [apply route_name|exact F]|eapply agree_route; [exact A|exact L]].
Qed.
Lemma news idx up r ns s m : inv m (n_cond s) ->
  inv (fold_left (fun m n => say n (There up r) m) ns m) (n_cond (fold_left (nl_new1 idx up r) ns s)) /\
  reconf (n_cond (fold_left (nl_new1 idx up r) ns s)) = reconf (n_cond s).
Proof.
  revert s m. induction ns as [|n ns IH]; intros s m H; [auto|]. cbn [fold_left]. destruct (new1 idx up r s n m H) as [A B].
  destruct (IH _ _ A) as [C D]. split; [exact C|congruence].
Qed.
Lemma dels idx ns s m : inv m (n_cond s) ->
  inv (fold_left (fun m n => say n Gone m) ns m) (n_cond (fold_left (nl_del1 idx) ns s)) /\
  reconf (n_cond (fold_left (nl_del1 idx) ns s)) = reconf (n_cond s).
Proof.
  revert s m. induction ns as [|n ns IH]; intros s m H; [auto|]. cbn [fold_left]. destruct (del1 idx s n m H) as [A B].
  destruct (IH _ _ A) as [C D]. split; [exact C|congruence].
Qed.
Lemma msg idx s x m : inv m (n_cond s) -> inv (hear m x) (n_cond (nl_msg idx s x)) /\ reconf (n_cond (nl_msg idx s x)) = reconf (n_cond s).
Proof.
  intros H. destruct x as [ns up r|ns|dst plen gw i|dst plen gw i|]; cbn [hear nl_msg]; [apply news, H|apply dels, H| | |auto].
  - destruct (is_default dst plen gw i); cbn [n_cond]; [apply inv_rset, H|auto].
  - destruct (is_default dst plen gw i); cbn [n_cond]; [apply inv_rclr, H|auto].
Qed.
Lemma msgs idx ms s m : inv m (n_cond s) ->
  inv (fold_left hear ms m) (n_cond (nl_parse idx ms s)) /\ reconf (n_cond (nl_parse idx ms s)) = reconf (n_cond s).
Proof.
  unfold nl_parse. revert s m. induction ms as [|x ms IH]; intros s m H; [auto|]. cbn [fold_left]. destruct (msg idx s x m H) as [A B].
  destruct (IH _ _ A) as [C D]. split; [exact C|congruence].
Qed.
Lemma routes_hear ms m : only_routes ms -> fold_left hear ms m = m.
Proof. intros H. revert m. induction H as [|x ms Hx _ IH]; intros m; [reflexivity|]. cbn [fold_left]. destruct x; try contradiction; apply IH. Qed.

(** ** Reassert, deassert *)
Lemma fold_cset l c : nj c -> Forall net_name l ->
  nj (fold_left (fun c n => cset n c) l c) /\ reconf (fold_left (fun c n => cset n c) l c) = reconf c /\
  (forall p e, In (p, e) (ents (fold_left (fun c n => cset n c) l c)) ->
     (In p l /\ e = Gen (reconf c)) \/ In (p, e) (ents c) /\ ~ In p l) /\
  (forall p, lookup p (ents (fold_left (fun c n => cset n c) l c)) <> None <-> In p l \/ lookup p (ents c) <> None).
Proof.
  revert c. induction l as [|q l IH]; intros c J H.
  - cbn. split; [exact J|]. split; [reflexivity|]. split; [tauto|tauto].
  - inversion H as [|? ? Q H']; subst. cbn [fold_left]. destruct (IH _ (nj_cset c q J Q) H') as (A & B & C & D).
    destruct (cset_net c q J Q) as (R & E & L). split; [exact A|]. split; [congruence|]. split.
    + intros p e Hi. apply C in Hi. destruct Hi as [[Hi ->]|[Hi Hn]]; [left; split; [right; exact Hi|congruence]|].
      apply E in Hi. destruct Hi as [[-> ->]|[Hp Hi]]; [left; split; [left; reflexivity|congruence]|].
      right. split; [exact Hi|]. intros [X|X]; [congruence|tauto].
    + intros p. rewrite D, L. cbn [In]. destruct (String.eqb p q) eqn:X.
      * apply String.eqb_eq in X. subst. split; [auto|]. intros _. right. discriminate.
      * apply String.eqb_neq in X. intuition congruence.
Qed.
Lemma below_net_names c : nj c -> Forall net_name (below_net c).
Proof.
  intros J. apply Forall_forall. intros q Hq. unfold below_net in Hq. apply filter_In in Hq. destruct Hq as [Hi P].
  apply in_map_iff in Hi. destruct Hi as ([p e] & <- & Hi). cbn [fst] in *. eapply nj_ent; [exact J|exact Hi|apply prefix_net, P].
Qed.
Lemma in_below_net c q e : nj c -> In (q, e) (ents c) -> String.prefix "net" q = true -> In q (below_net c).
Proof.
  intros J Hi P. unfold below_net. apply filter_In. split; [apply in_map_iff; exists (q, e); auto|].
  destruct (nj_ent c J q e Hi P) as [N _]. apply net_name_short, N.
Qed.
Lemma lookup_none_in q l : lookup q l <> None <-> In q (map fst l).
Proof.
  destruct (lookup q l) as [e|] eqn:E.
  - apply lookup_in in E. split; [|discriminate]. intros _. apply in_map_iff. exists (q, e). auto.
  - apply lookup_none_notin in E. split; [congruence|tauto].
Qed.
Lemma reload_inv m c : inv m c -> (reconf c + 1 < two32)%N ->
  inv m (cond_reassert_net (cond_reload c)) /\ reconf (cond_reassert_net (cond_reload c)) = (reconf c + 1)%N.
Proof.
  intros (J & F & A) B. assert (R : reconf (cond_reload c) = (reconf c + 1)%N) by (cbn; apply N.mod_small; exact B).
  assert (J1 : nj (cond_reload c)) by (constructor; [rewrite R; lia|apply J]).
  unfold cond_reassert_net. destruct (fold_cset _ _ J1 (below_net_names _ J1)) as (X1 & X2 & X3 & X4).
  split; [|congruence]. split; [exact X1|]. split.
  - intros q e Hi P. rewrite X2. apply X3 in Hi. destruct Hi as [[_ ->]|[Hi Hn]]; [reflexivity|].
    exfalso. apply Hn. eapply in_below_net; eassumption.
  - intros n k V K. rewrite X4. change (ents (cond_reload c)) with (ents c). rewrite <- (A n k V K).
    split; [|auto]. intros [Hi|Hi]; [|exact Hi]. unfold below_net in Hi. apply filter_In in Hi. apply lookup_none_in, Hi.
Qed.
Lemma fold_cclr l c : nj c -> Forall net_name l ->
  nj (fold_left (fun c n => cclr n c) l c) /\ reconf (fold_left (fun c n => cclr n c) l c) = reconf c /\
  (forall p e, In (p, e) (ents (fold_left (fun c n => cclr n c) l c)) -> In (p, e) (ents c) /\ ~ In p l).
Proof.
  revert c. induction l as [|q l IH]; intros c J H.
  - cbn. split; [exact J|]. split; [reflexivity|]. tauto.
  - inversion H as [|? ? Q H']; subst. cbn [fold_left]. destruct (IH _ (nj_cclr c q J Q) H') as (A & B & C).
    destruct (cclr_net c q Q) as (R & E & L). split; [exact A|]. split; [congruence|].
    intros p e Hi. apply C in Hi. destruct Hi as [Hi Hn]. apply E in Hi. split; [tauto|]. intros [X|X]; [|tauto]. destruct Hi. congruence.
Qed.
Lemma deassert_inv m c : inv m c -> inv (fun _ => Gone) (cond_deassert_net c) /\ reconf (cond_deassert_net c) = reconf c.
Proof.
  intros (J & F & A). unfold cond_deassert_net. destruct (fold_cclr _ _ J (below_net_names _ J)) as (X1 & X2 & X3). split; [|exact X2].
  assert (N : forall q e, In (q, e) (ents (fold_left (fun c n => cclr n c) (below_net c) c)) -> String.prefix "net" q = true -> False).
  { intros q e Hi P. apply X3 in Hi. destruct Hi as [Hi Hn]. apply Hn. eapply in_below_net; eassumption. }
  split; [exact X1|]. split; [intros q e Hi P; destruct (N q e Hi P)|]. intros n k V K. split.
  - intros H. exfalso. apply lookup_none_in in H. apply in_map_iff in H. destruct H as ([q e] & E & Hi). cbn [fst] in E. subst.
    apply (N _ _ Hi). apply net_prefix, nc_name; assumption.
  - cbn in K. destruct K as [<-|[<-|[<-|[]]]]; discriminate.
Qed.

(** ** Others *)
Lemma trunc_net n : String.prefix "net" n = false -> String.prefix "net" (cond_path n) = false.
Proof.
  intros H. destruct (String.prefix "net" (cond_path n)) eqn:E; [|reflexivity]. apply prefix_app in E. destruct E as (r & E).
  exfalso. assert (X : String.prefix "net" n = true); [|congruence]. unfold cond_path in E.
  destruct n as [|a [|b [|c n]]]; cbn in E; inversion E; subst. apply prefix_app. exists n. reflexivity.
Qed.
Lemma other_inv m c c' p : inv m c -> String.prefix "net" p = false -> reconf c' = reconf c ->
  (forall q, q <> p -> lookup q (ents c') = lookup q (ents c)) -> (forall q e, q <> p -> In (q, e) (ents c') -> In (q, e) (ents c)) -> inv m c'.
Proof.
  intros (J & F & A) P R L I. assert (NP : forall q, String.prefix "net" q = true -> q <> p) by congruence.
  split; [|split].
  - constructor; [rewrite R; apply J|]. intros q e Hi Q. eapply nj_ent; [exact J| |exact Q]. apply I; auto.
  - intros q e Hi Q. rewrite R. eapply F; [|exact Q]. apply I; auto.
  - intros n k V K. rewrite L by (apply NP, net_prefix, nc_name; assumption). apply A; assumption.
Qed.
Lemma set_other m c n : inv m c -> String.prefix "net" n = false -> inv m (cset n c) /\ reconf (cset n c) = reconf c.
Proof.
  intros H P. unfold cset, cond_set_nu. destruct (is_nop n); [auto|]. pose proof (trunc_net n P) as T. set (p := cond_path n) in *.
  unfold cond_set_path. destruct (checkpath_fails c p); [auto|]. destruct (N.eqb (reconf c) 0); [auto|]. cbn [snd].
  assert (R : reconf (write_gen c p (reconf c)) = reconf c).
  { unfold write_gen. destruct (lookup p (ents c)) as [[|g]|]; [reflexivity|reflexivity|]. destruct (is_dir c p); reflexivity. }
  split; [|exact R]. eapply other_inv; [exact H|exact T|exact R| |].
  - intros q N. unfold write_gen. destruct (lookup p (ents c)) as [[|g]|]; cbn [ents lookup]; [reflexivity| |].
    + apply String.eqb_neq in N. rewrite N. apply lookup_remove_neq, String.eqb_neq, N.
    + destruct (is_dir c p); [reflexivity|]. cbn [ents lookup]. apply String.eqb_neq in N. rewrite N. reflexivity.
  - intros q e N. unfold write_gen. destruct (lookup p (ents c)) as [[|g]|]; cbn [ents In]; [auto| |].
    + intros [X|X]; [inversion X; congruence|]. apply in_remove in X. tauto.
    + destruct (is_dir c p); [auto|]. cbn [ents In]. intros [X|X]; [inversion X; congruence|exact X].
Qed.
Lemma oneshot_other m c n : inv m c -> String.prefix "net" n = false ->
  inv m (snd (cond_oneshot_nu c n)) /\ reconf (snd (cond_oneshot_nu c n)) = reconf c.
Proof.
  intros H P. unfold cond_oneshot_nu. destruct (is_nop n); [auto|]. pose proof (trunc_net n P) as T. cbv zeta. set (p := cond_path n) in *.
  destruct (checkpath_fails c p); [auto|]. destruct (lookup p (ents c)); [auto|]. destruct (is_dir c p); [auto|]. cbn [snd].
  split; [|reflexivity]. eapply other_inv; [exact H|exact T|reflexivity| |].
  - intros q N. cbn [ents lookup]. apply String.eqb_neq in N. rewrite N. reflexivity.
  - intros q e N. cbn [ents In]. intros [X|X]; [inversion X; congruence|exact X].
Qed.
Lemma clear_other m c n : inv m c -> String.prefix "net" n = false -> inv m (cclr n c) /\ reconf (cclr n c) = reconf c.
Proof.
  intros H P. unfold cclr, cond_clear_nu. destruct (is_nop n); [auto|]. pose proof (trunc_net n P) as T. set (p := cond_path n) in *.
  unfold cond_unlink. cbn [snd]. split; [|reflexivity]. eapply other_inv; [exact H|exact T|reflexivity| |].
  - intros q N. cbn [ents]. apply lookup_remove_neq, N.
  - intros q e N. cbn [ents]. rewrite in_remove. tauto.
Qed.

(** ** Histories *)
Lemma callback_inv idx ms nobufs links routes s m : only_routes routes -> inv m (n_cond s) ->
  inv (known m (NvRead idx ms nobufs links routes)) (n_cond (nl_callback idx ms nobufs links routes s)) /\
  reconf (n_cond (nl_callback idx ms nobufs links routes s)) = reconf (n_cond s).
Proof.
  intros RO H. destruct (msgs idx ms s m H) as [A B]. unfold nl_callback, known. set (s1 := nl_parse idx ms s) in *. cbv zeta.
  destruct nobufs.
  - unfold nl_resync. destruct (deassert_inv _ _ A) as [C D].
    destruct (msgs idx links (set_cond (cond_deassert_net (n_cond s1)) s1) _ C) as [E F]. set (s2 := nl_parse idx links _) in *.
    destruct (msgs idx routes s2 _ E) as [G K]. rewrite fold_left_app. split; [exact G|]. cbn [set_cond n_cond] in F. congruence.
  - destruct (n_ifdown s1); [|auto]. cbn [n_cond]. destruct (0 <? n_defidx s1)%Z; [|auto]. unfold nl_resync.
    assert (H0 : inv (fold_left hear ms m) (n_cond (mkNst (n_cond s1) 0 true))) by exact A.
    destruct (msgs idx routes _ _ H0) as [C D]. rewrite (routes_hear routes _ RO) in C. set (s2 := nl_parse idx routes _) in *.
    cbn [n_cond] in D. destruct (n_defidx s2 <=? 0)%Z; cbn [n_cond].
    + destruct (inv_rclr _ _ C) as [E F]. split; [exact E|congruence].
    + split; [exact C|congruence].
Qed.
Lemma event_inv s e m : others e -> inv m (n_cond s) -> (e = NvReload -> (reconf (n_cond s) + 1 < two32)%N) ->
  inv (known m e) (n_cond (nl_event s e)) /\
  reconf (n_cond (nl_event s e)) = (match e with NvReload => reconf (n_cond s) + 1 | _ => reconf (n_cond s) end)%N.
Proof.
  intros O H R. destruct e as [idx ms nb lk rt| |n|n|n]; cbn [nl_event others] in *.
  - apply callback_inv; assumption.
  - cbn [known set_cond n_cond]. apply reload_inv; [exact H|auto].
  - cbn [known set_cond n_cond]. apply set_other; assumption.
  - cbn [known set_cond n_cond]. apply oneshot_other; assumption.
  - cbn [known set_cond n_cond]. apply clear_other; assumption.
Qed.
Lemma run_inv es s m : Forall others es -> inv m (n_cond s) -> (reconf (n_cond s) + N.of_nat (nreloads es) < two32)%N ->
  inv (fold_left known es m) (n_cond (fold_left nl_event es s)).
Proof.
  intros H. revert s m. induction H as [|e es Ho _ IH]; intros s m I B; [exact I|]. cbn [fold_left].
  assert (X : N.of_nat (nreloads (e :: es)) = ((match e with NvReload => 1 | _ => 0 end) + N.of_nat (nreloads es))%N)
    by (destruct e; unfold nreloads; cbn [filter List.length]; lia).
  rewrite X in B. destruct (event_inv s e m Ho I) as [A R]; [intros ->; lia|]. apply IH; [exact A|]. rewrite R. destruct e; lia.
Qed.
Lemma init_inv : inv (fun _ => Gone) cond_init.
Proof.
  split; [constructor; [cbn; lia|intros q e []]|]. split; [intros q e []|]. intros n k V K. cbn [cond_init ents lookup].
  cbn in K. destruct K as [<-|[<-|[<-|[]]]]; cbn; split; congruence.
Qed.
Lemma valid_iff n : valid_ifname n = true <-> interface_name n.
Proof.
  unfold valid_ifname, interface_name. rewrite !andb_true_iff, !negb_true_iff, !String.eqb_neq, Nat.ltb_lt, forallb_forall.
  assert (X : (forall c, In c (list_ascii_of_string n) -> ifch c = true) <->
              (forall c, In c (list_ascii_of_string n) -> c <> "/"%char /\ c <> ":"%char /\ c <> " "%char /\ ~ (9 <= N_of_ascii c <= 13)%N)).
  { split; intros H c Hc; specialize (H c Hc).
    - unfold ifch in H. apply negb_true_iff in H. rewrite !orb_false_iff in H. destruct H as (((H1 & H2) & H3) & H4).
      apply Ascii.eqb_neq in H1, H2, H3. repeat (split; [assumption|]). lia.
    - destruct H as (H1 & H2 & H3 & H4). unfold ifch. apply negb_true_iff. rewrite !orb_false_iff.
      apply Ascii.eqb_neq in H1, H2, H3. rewrite H1, H2, H3. repeat split. lia. }
  rewrite X. tauto.
Qed.
Lemma shown_lem m c n k : inv m c -> valid_ifname n = true -> In k kinds -> shown c (net_cond n k) (want m n k).
Proof.
  intros (J & F & A) V K. unfold shown, cond_get, cond_get_path. pose proof (nc_name n k V K) as Q.
  destruct (net_name_short _ Q) as (_ & CP & _ & _). rewrite CP. specialize (A n k V K).
  destruct (lookup (net_cond n k) (ents c)) as [e|] eqn:E.
  - apply lookup_in in E. rewrite (F _ _ E (net_prefix _ Q)). pose proof (nj_pos c J).
    assert (N.eqb (reconf c) 0 = false) as -> by lia. rewrite N.eqb_refl. destruct A as [A _]. rewrite A by discriminate. reflexivity.
  - destruct (want m n k); [|reflexivity]. destruct A as [_ A]. specialize (A eq_refl). congruence.
Qed.
Lemma net_links_lem es n : net_history es -> interface_name n ->
  shown (n_cond (nl_run es)) ("net/" ++ n ++ "/exist") (exists_ (links_of es n)) /\
  shown (n_cond (nl_run es)) ("net/" ++ n ++ "/up") (is_up (links_of es n)) /\
  shown (n_cond (nl_run es)) ("net/" ++ n ++ "/running") (is_running (links_of es n)).
Proof.
  intros [H1 H2] V. apply valid_iff in V. assert (I : inv (links_of es) (n_cond (nl_run es))).
  { apply run_inv; [exact H1|apply init_inv|]. cbn [n_cond cond_init reconf]. unfold two32. lia. }
  split; [|split].
  - apply (shown_lem _ _ n "exist" I V). cbn. auto.
  - apply (shown_lem _ _ n "up" I V). cbn. auto.
  - apply (shown_lem _ _ n "running" I V). cbn. auto.
Qed.

(** ** The default route *)
Definition rhear (b : bool) (x : nmsg) : bool :=
  match x with
  | NNewRoute dst plen gw i => if is_default dst plen gw i then true else b
  | NDelRoute dst plen gw i => if is_default dst plen gw i then false else b
  | _ => b
  end.
Lemma is_default_iff dst plen gw i : is_default dst plen gw i = true <-> to_anywhere dst plen gw i.
Proof. unfold is_default, to_anywhere. rewrite !andb_true_iff, orb_true_iff, !negb_true_iff, !Z.eqb_eq, !Z.eqb_neq. tauto. Qed.
Lemma last_added_fun ms b : last_added ms b -> b = fold_left rhear ms false.
Proof.
  induction 1 as [|ms b dst plen gw i _ IH T|ms b dst plen gw i _ IH T|ms b m _ IH T]; [reflexivity| | |];
    rewrite fold_left_app; cbn [fold_left rhear].
  - apply is_default_iff in T. rewrite T. reflexivity.
  - apply is_default_iff in T. rewrite T. reflexivity.
  - subst b. destruct m as [| |dst plen gw i|dst plen gw i|]; cbn [rhear]; try reflexivity;
      (destruct (is_default dst plen gw i) eqn:E; [|reflexivity]; apply is_default_iff in E; exfalso; eapply T; [|exact E]; auto).
Qed.
Definition rinv (b : bool) (s : nst) : Prop := (lookup route_default (ents (n_cond s)) <> None <-> b = true) /\ n_ifdown s = false.
Lemma ncs_route n k x c : nj c -> valid_ifname n = true -> In k kinds ->
  lookup route_default (ents (net_cond_set n k x c)) = lookup route_default (ents c).
Proof.
  intros J V K. destruct (ncs n k x c J V K) as (_ & _ & _ & L). rewrite L.
  assert (E : String.eqb route_default (net_cond n k) = false) by (apply String.eqb_neq, route_not_link; assumption). rewrite E. reflexivity.
Qed.
Lemma rmsg idx s x m b : steady_msg x -> inv m (n_cond s) -> rinv b s -> rinv (rhear b x) (nl_msg idx s x).
Proof.
  intros S H [R D]. destruct x as [ns up r|ns|dst plen gw i|dst plen gw i|]; cbn [rhear nl_msg steady_msg] in *; [|contradiction| | |split; assumption].
  - destruct S as [-> ->]. revert s m H R D. induction ns as [|n ns IH]; intros s m H R D; [split; assumption|]. cbn [fold_left].
    destruct (new1 idx true true s n m H) as [A _]. eapply IH; [exact A| |]; unfold nl_new1; cbn [negb orb].
    + destruct (valid_ifname n) eqn:V; cbn [negb set_cond n_cond]; [|exact R]. destruct H as (J & _ & _).
      destruct (ncs n "exist" true (n_cond s) J V) as (J1 & _ & _ & _); [cbn; auto|].
      destruct (ncs n "up" true _ J1 V) as (J2 & _ & _ & _); [cbn; auto|].
      rewrite !ncs_route; try assumption; cbn; auto.
    + destruct (valid_ifname n); exact D.
  - destruct (is_default dst plen gw i); [|split; assumption]. split; [|exact D]. cbn [n_cond]. destruct H as (J & _ & _).
    destruct (cset_net _ _ J route_name) as (_ & _ & L). rewrite L, String.eqb_refl. split; congruence.
  - destruct (is_default dst plen gw i); [|split; assumption]. split; [|exact D]. cbn [n_cond].
    destruct (cclr_net (n_cond s) _ route_name) as (_ & _ & L). rewrite L, String.eqb_refl. split; congruence.
Qed.
Lemma rmsgs idx ms s m b : Forall steady_msg ms -> inv m (n_cond s) -> rinv b s -> rinv (fold_left rhear ms b) (nl_parse idx ms s).
Proof.
  intros S. unfold nl_parse. revert s m b. induction S as [|x ms Sx _ IH]; intros s m b H R; [exact R|]. cbn [fold_left].
  eapply IH; [apply msg, H|eapply rmsg; eassumption].
Qed.
Lemma revent s e m l : others e -> steady e -> inv m (n_cond s) -> (e = NvReload -> (reconf (n_cond s) + 1 < two32)%N) -> rinv (fold_left rhear l false) s ->
  rinv (fold_left rhear (heard l e) false) (nl_event s e).
Proof.
  intros O S H BB R.
  assert (NP : forall n, String.prefix "net" n = false -> cond_path route_default <> cond_path n).
  { intros n P X. apply trunc_net in P. rewrite <- X in P. discriminate P. }
  destruct e as [idx ms nb lk rt| |n|n|n]; cbn [nl_event others heard steady] in *.
  - rewrite !Forall_app in S. destruct S as (S1 & S2 & S3). destruct (msgs idx ms s m H) as [A _].
    pose proof (rmsgs idx ms s m _ S1 H R) as B. unfold nl_callback. set (s1 := nl_parse idx ms s) in *. cbv zeta. destruct nb.
    + unfold nl_resync. destruct (deassert_inv _ _ A) as [C _]. rewrite fold_left_app.
      assert (R1 : rinv false (set_cond (cond_deassert_net (n_cond s1)) s1)).
      { split; [|apply B]. cbn [set_cond n_cond]. destruct A as (J & F & A). unfold cond_deassert_net.
        destruct (fold_cclr _ _ J (below_net_names _ J)) as (_ & _ & X). split; [|discriminate].
        intros N. exfalso. apply lookup_none_in in N. apply in_map_iff in N. destruct N as ([q e] & Q & Hi). cbn [fst] in Q. subst q.
        apply X in Hi. destruct Hi as [Hi N]. apply N. eapply in_below_net; [exact J|exact Hi|apply net_prefix, route_name]. }
      eapply rmsgs; [exact S3|apply msgs; exact C|]. eapply rmsgs; [exact S2|exact C|exact R1].
    + destruct B as [B1 B2]. rewrite B2. rewrite fold_left_app. split; assumption.
  - destruct R as [R D]. split; [|exact D]. cbn [set_cond n_cond]. destruct H as (J & F & A).
    specialize (BB eq_refl).
    assert (RC : reconf (cond_reload (n_cond s)) = (reconf (n_cond s) + 1)%N) by (cbn; apply N.mod_small; exact BB).
    assert (J1 : nj (cond_reload (n_cond s))) by (constructor; [rewrite RC; lia|apply J]).
    unfold cond_reassert_net. destruct (fold_cset _ _ J1 (below_net_names _ J1)) as (_ & _ & _ & X4). rewrite X4.
    change (ents (cond_reload (n_cond s))) with (ents (n_cond s)). rewrite <- R. split; [|auto]. intros [Hi|Hi]; [|exact Hi].
    unfold below_net in Hi. apply filter_In in Hi. apply lookup_none_in, Hi.
  - destruct R as [R D]. split; [|exact D]. cbn [set_cond n_cond].
    destruct (lookup_set_other (n_cond s) n route_default (NP n O)) as [X _]. change (cond_path route_default) with route_default in X. unfold cset. rewrite X. exact R.
  - destruct R as [R D]. split; [|exact D]. cbn [set_cond n_cond].
    destruct (lookup_oneshot_other (n_cond s) n route_default (NP n O)) as [X _]. change (cond_path route_default) with route_default in X. rewrite X. exact R.
  - destruct R as [R D]. split; [|exact D]. cbn [set_cond n_cond].
    destruct (lookup_clear_other (n_cond s) n route_default (NP n O)) as [X _]. change (cond_path route_default) with route_default in X. unfold cclr. rewrite X. exact R.
Qed.
Lemma rrun es s m l : Forall others es -> Forall steady es -> inv m (n_cond s) -> (reconf (n_cond s) + N.of_nat (nreloads es) < two32)%N ->
  rinv (fold_left rhear l false) s ->
  rinv (fold_left rhear (fold_left heard es l) false) (fold_left nl_event es s).
Proof.
  intros H. revert s m l. induction H as [|e es Ho _ IH]; intros s m l S I B R; [exact R|]. inversion S as [|? ? S1 S2]; subst. cbn [fold_left].
  assert (X : N.of_nat (nreloads (e :: es)) = ((match e with NvReload => 1 | _ => 0 end) + N.of_nat (nreloads es))%N)
    by (destruct e; unfold nreloads; cbn [filter List.length]; lia).
  rewrite X in B. destruct (event_inv s e m Ho I) as [A Q]; [intros ->; lia|]. eapply IH; [exact S2|exact A| |].
  - rewrite Q. destruct e; lia.
  - eapply revent; try eassumption. intros ->. lia.
Qed.
Lemma net_route_lem es b : net_history es -> Forall steady es -> last_added (all_heard es) b ->
  shown (n_cond (nl_run es)) "net/route/default" b.
Proof.
  intros [H1 H2] S B. apply last_added_fun in B. assert (I : inv (links_of es) (n_cond (nl_run es))).
  { apply run_inv; [exact H1|apply init_inv|]. cbn [n_cond cond_init reconf]. unfold two32. lia. }
  assert (R : rinv b (nl_run es)).
  { subst b. eapply (rrun es _ _ []); [exact H1|exact S|apply init_inv| |].
    - cbn [n_cond cond_init reconf]. unfold two32. lia.
    - split; [cbn; split; congruence|reflexivity]. }
  destruct R as [R _]. unfold shown, cond_get, cond_get_path. change (cond_path "net/route/default") with route_default.
  destruct I as (J & F & _). destruct (lookup route_default (ents (n_cond (nl_run es)))) as [e|] eqn:E.
  - apply lookup_in in E. rewrite (F _ _ E (net_prefix _ route_name)). pose proof (nj_pos _ J).
    assert (N.eqb (reconf (n_cond (nl_run es))) 0 = false) as -> by lia. rewrite N.eqb_refl. destruct R as [R _]. rewrite R by discriminate. reflexivity.
  - destruct b; [|reflexivity]. destruct R as [_ R]. specialize (R eq_refl). congruence.
Qed.

(** ** The default route while interfaces come and go *)
Lemma anywhere_eq dst plen gw i : anywhere dst plen gw i = is_default dst plen gw i.
Proof. unfold anywhere, is_default. destruct (gw =? 0)%Z, (i =? 0)%Z, (dst =? 0)%Z, (plen =? 0)%Z; reflexivity. Qed.
Definition binv (b : belief) (s : nst) : Prop :=
  (lookup route_default (ents (n_cond s)) <> None <-> b_route b = true) /\ n_defidx s = b_via b /\ n_ifdown s = b_doubt b.
Lemma bdoubt idx n b s : valid_ifname n = true -> binv b s -> binv (doubtful idx n b) (nl_check_default idx n s).
Proof.
  intros V (R & D & F). unfold doubtful, nl_check_default. rewrite V, D. cbn [andb].
  assert (E : ((0 <? b_via b) && (b_via b =? idx n) || (idx n =? 0))%Z = ((idx n =? 0) || (0 <? idx n) && (b_via b =? idx n))%Z).
  { apply eq_iff_eq_true. rewrite !orb_true_iff, !andb_true_iff. lia. }
  rewrite E. destruct ((idx n =? 0)%Z || _); [|repeat split; try assumption; apply R]. split; [exact R|]. split; reflexivity.
Qed.
Lemma bset_links n a b d bl s : valid_ifname n = true -> nj (n_cond s) -> binv bl s ->
  binv bl (set_cond (net_cond_set n "running" a (net_cond_set n "up" b (net_cond_set n "exist" d (n_cond s)))) s).
Proof.
  intros V J (R & D & F). split; [|split; assumption]. cbn [set_cond n_cond].
  destruct (ncs n "exist" d (n_cond s) J V) as (J1 & _ & _ & _); [cbn; auto|].
  destruct (ncs n "up" b _ J1 V) as (J2 & _ & _ & _); [cbn; auto|].
  rewrite !ncs_route; try assumption; cbn; auto.
Qed.
Lemma bmsg idx s x m b : inv m (n_cond s) -> binv b s -> binv (believe idx b x) (nl_msg idx s x).
Proof.
  intros H B. destruct x as [ns up r|ns|dst plen gw i|dst plen gw i|]; cbn [believe nl_msg].
  - assert (X : forall ns s m b, inv m (n_cond s) -> binv b s ->
      binv (if up && r then b else fold_left (fun b n => doubtful idx n b) ns b) (fold_left (nl_new1 idx up r) ns s)).
    { clear. induction ns as [|n ns IH]; intros s m b H B; [destruct (up && r); exact B|]. cbn [fold_left].
      destruct (new1 idx up r s n m H) as [A _].
      assert (Y : binv (if up && r then b else doubtful idx n b) (nl_new1 idx up r s n)).
      { unfold nl_new1. destruct (valid_ifname n) eqn:V; cbn [negb].
        - rewrite <- negb_andb. pose proof (bset_links n r up true b s V (proj1 H) B) as Z.
          destruct (up && r); cbn [negb]; [exact Z|apply bdoubt; assumption].
        - unfold doubtful. rewrite V. destruct (up && r); exact B. }
      specialize (IH _ _ _ A Y). destruct (up && r); exact IH. }
    eapply X; eassumption.
  - revert s m b H B. induction ns as [|n ns IH]; intros s m b H B; [exact B|]. cbn [fold_left].
    destruct (del1 idx s n m H) as [A _]. eapply IH; [exact A|]. unfold nl_del1. destruct (valid_ifname n) eqn:V; cbn [negb].
    + apply bdoubt; [exact V|]. apply bset_links; [exact V|apply H|exact B].
    + unfold doubtful. rewrite V. exact B.
  - rewrite anywhere_eq. destruct (is_default dst plen gw i); [|exact B]. destruct B as (R & D & F). split; [|split; [reflexivity|exact F]].
    cbn [n_cond b_route]. destruct H as (J & _ & _). destruct (cset_net _ _ J route_name) as (_ & _ & L). rewrite L, String.eqb_refl. split; congruence.
  - rewrite anywhere_eq. destruct (is_default dst plen gw i); [|exact B]. destruct B as (R & D & F). split; [|split; [reflexivity|exact F]].
    cbn [n_cond b_route]. destruct (cclr_net (n_cond s) _ route_name) as (_ & _ & L). rewrite L, String.eqb_refl. split; congruence.
  - exact B.
Qed.
Lemma bmsgs idx ms s m b : inv m (n_cond s) -> binv b s -> binv (fold_left (believe idx) ms b) (nl_parse idx ms s).
Proof.
  unfold nl_parse. revert s m b. induction ms as [|x ms IH]; intros s m b H R; [exact R|]. cbn [fold_left].
  eapply IH; [apply msg, H|eapply bmsg; eassumption].
Qed.
(** the answer about routes does not depend on what was believed, once it names an
    interface, and leaves the doubt alone *)
Lemma routes_fold idx ms b : only_routes ms ->
  let a := fold_left (believe idx) ms (mkBelief false 0 false) in
  let r := fold_left (believe idx) ms (mkBelief (b_route b) 0 (b_doubt b)) in
  b_via r = b_via a /\ ((0 < b_via a)%Z -> b_route r = true) /\ b_doubt r = b_doubt b.
Proof.
  intros O. cbv zeta.
  assert (X : forall ms a r, only_routes ms -> b_via r = b_via a -> ((0 < b_via a)%Z -> b_route r = true) ->
     b_via (fold_left (believe idx) ms r) = b_via (fold_left (believe idx) ms a) /\
     ((0 < b_via (fold_left (believe idx) ms a))%Z -> b_route (fold_left (believe idx) ms r) = true) /\
     b_doubt (fold_left (believe idx) ms r) = b_doubt r).
  { clear. induction ms as [|x ms IH]; intros a r O V R; [auto|]. inversion O as [|? ? O1 O2]; subst. cbn [fold_left].
    destruct x as [| |dst plen gw i|dst plen gw i|]; try contradiction; cbn [believe].
    - destruct (anywhere dst plen gw i); [|apply IH; assumption].
      destruct (IH (mkBelief true i (b_doubt a)) (mkBelief true i (b_doubt r)) O2 eq_refl (fun _ => eq_refl)) as (A & B & C). auto.
    - destruct (anywhere dst plen gw i); [|apply IH; assumption].
      destruct (IH (mkBelief false 0 (b_doubt a)) (mkBelief false 0 (b_doubt r)) O2 eq_refl) as (A & B & C); [cbn; lia|]. auto.
    - apply IH; assumption. }
  exact (X ms (mkBelief false 0 false) (mkBelief (b_route b) 0 (b_doubt b)) O eq_refl ltac:(cbn; lia)).
Qed.
Lemma bevent s e m b : others e -> inv m (n_cond s) -> (e = NvReload -> (reconf (n_cond s) + 1 < two32)%N) -> binv b s ->
  binv (learn b e) (nl_event s e).
Proof.
  intros O H BB R.
  assert (NP : forall n, String.prefix "net" n = false -> cond_path route_default <> cond_path n).
  { intros n P X. apply trunc_net in P. rewrite <- X in P. discriminate P. }
  destruct e as [idx ms nb lk rt| |n|n|n]; cbn [nl_event others learn] in *.
  - destruct (msgs idx ms s m H) as [A _]. pose proof (bmsgs idx ms s m _ H R) as B. unfold nl_callback.
    set (s1 := nl_parse idx ms s) in *. set (b1 := fold_left (believe idx) ms b) in *. cbv zeta. destruct nb.
    + unfold nl_resync. destruct (deassert_inv _ _ A) as [C _]. rewrite fold_left_app.
      eapply bmsgs; [apply msgs; exact C|]. eapply bmsgs; [exact C|].
      split; [|split; apply B]. cbn [set_cond n_cond b_route]. destruct A as (J & F & A). unfold cond_deassert_net.
      destruct (fold_cclr _ _ J (below_net_names _ J)) as (_ & _ & X). split; [|discriminate].
      intros N. exfalso. apply lookup_none_in in N. apply in_map_iff in N. destruct N as ([q e] & Q & Hi). cbn [fst] in Q. subst q.
      apply X in Hi. destruct Hi as [Hi N]. apply N. eapply in_below_net; [exact J|exact Hi|apply net_prefix, route_name].
    + destruct B as (B1 & B2 & B3). rewrite B3. destruct (b_doubt b1) eqn:Db; [|split; [exact B1|split; [exact B2|rewrite B3, Db; reflexivity]]].
      unfold checked, nl_resync. rewrite B2. destruct (0 <? b_via b1)%Z eqn:Ev.
      * set (s2 := mkNst (n_cond s1) 0 true).
        assert (B' : binv (mkBelief (b_route b1) 0 (b_doubt b1)) s2) by (split; [exact B1|split; [reflexivity|cbn; congruence]]).
        assert (A' : inv (fold_left hear ms m) (n_cond s2)) by exact A.
        pose proof (bmsgs idx rt s2 _ _ A' B') as (P1 & P2 & P3). destruct (msgs idx rt s2 _ A') as [A2 _].
        destruct (routes_fold idx rt (mkBelief (b_route b1) 0 (b_doubt b1)) O) as (Q1 & Q2 & Q3).
        cbn [b_route b_doubt] in *. rewrite P2, Q1. set (a := fold_left (believe idx) rt (mkBelief false 0 false)) in *.
        cbn [n_cond n_defidx].
        destruct (0 <? b_via a)%Z eqn:Ea.
        -- assert (b_via a <=? 0 = false)%Z as -> by lia. split; [|split; [exact (eq_trans P2 Q1)|reflexivity]]. cbn [n_cond b_route]. rewrite P1, Q2 by lia. tauto.
        -- assert (b_via a <=? 0 = true)%Z as -> by lia. split; [|split; reflexivity]. cbn [n_cond b_route].
           destruct (cclr_net (n_cond (nl_parse idx rt s2)) _ route_name) as (_ & _ & L). rewrite L, String.eqb_refl. split; congruence.
      * split; [exact B1|]. split; [exact B2|reflexivity].
  - destruct R as (R & D). split; [|exact D]. cbn [set_cond n_cond]. destruct H as (J & F & A).
    specialize (BB eq_refl).
    assert (RC : reconf (cond_reload (n_cond s)) = (reconf (n_cond s) + 1)%N) by (cbn; apply N.mod_small; exact BB).
    assert (J1 : nj (cond_reload (n_cond s))) by (constructor; [rewrite RC; lia|apply J]).
    unfold cond_reassert_net. destruct (fold_cset _ _ J1 (below_net_names _ J1)) as (_ & _ & _ & X4). rewrite X4.
    change (ents (cond_reload (n_cond s))) with (ents (n_cond s)). rewrite <- R. split; [|auto]. intros [Hi|Hi]; [|exact Hi].
    unfold below_net in Hi. apply filter_In in Hi. apply lookup_none_in, Hi.
  - destruct R as (R & D). split; [|exact D]. cbn [set_cond n_cond].
    destruct (lookup_set_other (n_cond s) n route_default (NP n O)) as [X _]. change (cond_path route_default) with route_default in X. unfold cset. rewrite X. exact R.
  - destruct R as (R & D). split; [|exact D]. cbn [set_cond n_cond].
    destruct (lookup_oneshot_other (n_cond s) n route_default (NP n O)) as [X _]. change (cond_path route_default) with route_default in X. rewrite X. exact R.
  - destruct R as (R & D). split; [|exact D]. cbn [set_cond n_cond].
    destruct (lookup_clear_other (n_cond s) n route_default (NP n O)) as [X _]. change (cond_path route_default) with route_default in X. unfold cclr. rewrite X. exact R.
Qed.
Lemma brun es s m b : Forall others es -> inv m (n_cond s) -> (reconf (n_cond s) + N.of_nat (nreloads es) < two32)%N ->
  binv b s -> binv (fold_left learn es b) (fold_left nl_event es s).
Proof.
  intros H. revert s m b. induction H as [|e es Ho _ IH]; intros s m b I B R; [exact R|]. cbn [fold_left].
  assert (X : N.of_nat (nreloads (e :: es)) = ((match e with NvReload => 1 | _ => 0 end) + N.of_nat (nreloads es))%N)
    by (destruct e; unfold nreloads; cbn [filter List.length]; lia).
  rewrite X in B. destruct (event_inv s e m Ho I) as [A Q]; [intros ->; lia|]. eapply IH; [exact A| |].
  - rewrite Q. destruct e; lia.
  - eapply bevent; try eassumption. intros ->. lia.
Qed.
Lemma route_shown es b : net_history es -> (lookup route_default (ents (n_cond (nl_run es))) <> None <-> b = true) ->
  shown (n_cond (nl_run es)) "net/route/default" b.
Proof.
  intros [H1 H2] R. assert (I : inv (links_of es) (n_cond (nl_run es))).
  { apply run_inv; [exact H1|apply init_inv|]. cbn [n_cond cond_init reconf]. unfold two32. lia. }
  unfold shown, cond_get, cond_get_path. change (cond_path "net/route/default") with route_default.
  destruct I as (J & F & _). destruct (lookup route_default (ents (n_cond (nl_run es)))) as [e|] eqn:E.
  - apply lookup_in in E. rewrite (F _ _ E (net_prefix _ route_name)). pose proof (nj_pos _ J).
    assert (N.eqb (reconf (n_cond (nl_run es))) 0 = false) as -> by lia. rewrite N.eqb_refl. destruct R as [R _]. rewrite R by discriminate. reflexivity.
  - destruct b; [|reflexivity]. destruct R as [_ R]. specialize (R eq_refl). congruence.
Qed.
Lemma net_route_believed_lem es : net_history es -> shown (n_cond (nl_run es)) "net/route/default" (b_route (route_of es)).
Proof.
  intros H. apply route_shown; [exact H|]. destruct H as [H1 H2].
  assert (B : binv (route_of es) (nl_run es)); [|apply B]. eapply brun; [exact H1|apply init_inv| |].
  - cbn [n_cond cond_init reconf]. unfold two32. lia.
  - split; [cbn; split; congruence|split; reflexivity].
Qed.
(** the route's interface loses its link, and the kernel has no other route *)
Lemma doubt_keeps idx ns b : b_via (fold_left (fun b n => doubtful idx n b) ns b) = b_via b /\
  (b_doubt b = true -> b_doubt (fold_left (fun b n => doubtful idx n b) ns b) = true).
Proof.
  revert b. induction ns as [|n ns IH]; intros b; [auto|]. cbn [fold_left]. destruct (IH (doubtful idx n b)) as [A B].
  rewrite A. unfold doubtful in *. destruct (valid_ifname n && _); cbn [b_via b_doubt] in *; auto.
Qed.
Lemma net_route_lost_lem es idx ms d links routes n : net_history (es ++ [NvRead idx (ms ++ [d]) false links routes]) ->
  loses n d -> interface_name n -> (0 < idx n)%Z -> b_via (fold_left (believe idx) ms (route_of es)) = idx n ->
  Forall (fun m => forall dst plen gw i, m = NNewRoute dst plen gw i -> ~ to_anywhere dst plen gw i) routes ->
  shown (n_cond (nl_run (es ++ [NvRead idx (ms ++ [d]) false links routes]))) "net/route/default" false.
Proof.
  intros H Ld In_ Pi Via Rt. pose proof (net_route_believed_lem _ H) as X.
  enough (E : b_route (route_of (es ++ [NvRead idx (ms ++ [d]) false links routes])) = false) by (rewrite E in X; exact X). clear X.
  assert (O : only_routes routes). { destruct H as [H _]. apply Forall_app in H. destruct H as [_ H]. inversion H; assumption. }
  clear H. unfold route_of in *. rewrite fold_left_app. cbn [fold_left learn]. set (b0 := fold_left learn es _) in *.
  rewrite fold_left_app. cbn [fold_left]. set (b1 := fold_left (believe idx) ms b0) in *.
  apply valid_iff in In_.
  assert (D : forall ns, In n ns -> forall b, b_via b = idx n -> b_doubt (fold_left (fun b n => doubtful idx n b) ns b) = true).
  { induction ns as [|x ns IH]; [contradiction|]. intros [->|Hi] b V; cbn [fold_left].
    - apply doubt_keeps. unfold doubtful. rewrite In_, V.
      assert (((idx n =? 0) || (0 <? idx n) && (idx n =? idx n))%Z = true) as -> by lia. reflexivity.
    - apply IH; [exact Hi|]. unfold doubtful. destruct (valid_ifname x && _); exact V. }
  assert (Q : b_doubt (believe idx b1 d) = true /\ b_via (believe idx b1 d) = idx n).
  { destruct d as [ns up r|ns| | |]; cbn [loses] in Ld; try contradiction; cbn [believe].
    - destruct Ld as [Hi F]. destruct (up && r); [discriminate F|]. split; [apply D; assumption|]. rewrite (proj1 (doubt_keeps idx ns b1)). exact Via.
    - split; [apply D; assumption|]. rewrite (proj1 (doubt_keeps idx ns b1)). exact Via. }
  destruct Q as [-> Q2]. unfold checked. rewrite Q2. assert ((0 <? idx n)%Z = true) as -> by lia.
  assert (Z : forall l b, only_routes l -> Forall (fun m => forall dst plen gw i, m = NNewRoute dst plen gw i -> ~ to_anywhere dst plen gw i) l ->
     b_via b = 0%Z -> b_via (fold_left (believe idx) l b) = 0%Z).
  { clear. induction l as [|x l IH]; intros b O F V; [exact V|]. inversion O as [|? ? O1 O2]; inversion F as [|? ? F1 F2]; subst. cbn [fold_left].
    apply IH; [exact O2|exact F2|]. destruct x as [| |dst plen gw i|dst plen gw i|]; try contradiction; cbn [believe]; [| |exact V].
    - destruct (anywhere dst plen gw i) eqn:E; [|exact V]. rewrite anywhere_eq in E. apply is_default_iff in E. exfalso. eapply F1; [reflexivity|exact E].
    - destruct (anywhere dst plen gw i); [reflexivity|exact V]. }
  rewrite (Z routes (mkBelief false 0 false) O Rt eq_refl). reflexivity.
Qed.
