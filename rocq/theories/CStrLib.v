(** Lemmas about CStr. *)
From Coq Require Import List String Ascii NArith ZArith Bool Lia Arith ZifyBool ZifyN.
From Verif Require Import CStr ParseSpec.
Import ListNotations.
Local Open Scope Z_scope.

Lemma ch_eqb_eq a b : ch_eqb a b = true <-> a = b.
Proof. apply Ascii.eqb_eq. Qed.
Lemma ch_eqb_refl a : ch_eqb a a = true.
Proof. apply Ascii.eqb_refl. Qed.
Lemma ch_eqb_neq a b : ch_eqb a b = false <-> a <> b.
Proof. apply Ascii.eqb_neq. Qed.
Lemma code_inj a b : code a = code b -> a = b.
Proof. intros H. rewrite <- (ascii_N_embedding a), <- (ascii_N_embedding b). unfold code in H. congruence. Qed.
Lemma code_lt a : (code a < 256)%N.
Proof. apply N_ascii_bounded. Qed.
Lemma code_of n : (n < 256)%N -> code (ascii_of_N n) = n.
Proof. apply N_ascii_embedding. Qed.

Lemma isblank_iff c : isblank c = true <-> blank c.
Proof.
  unfold isblank, blank. rewrite orb_true_iff, !N.eqb_eq. split; intros [H|H].
  - left. apply code_inj, H.
  - right. apply code_inj, H.
  - left. subst. reflexivity.
  - right. subst. reflexivity.
Qed.
Lemma isspace_iff c : isspace c = true <-> white c.
Proof.
  unfold isspace, white. rewrite orb_true_iff, andb_true_iff, N.eqb_eq, !N.leb_le. split; intros [H|H].
  - left. apply code_inj, H.
  - right. exists (code c). split; [exact H|]. symmetry. apply ascii_N_embedding.
  - left. subst. reflexivity.
  - right. destruct H as (n & A & ->). rewrite code_of; lia.
Qed.
Lemma isquote_iff c : (ch_eqb c "'" || ch_eqb c """")%bool = true <-> quote c.
Proof. rewrite orb_true_iff, !ch_eqb_eq. reflexivity. Qed.
Lemma isdigit_iff c : isdigit c = true <-> digit_is c (digit c).
Proof.
  unfold isdigit, digit_is, digit. rewrite andb_true_iff, !N.leb_le. split.
  - intros H. split; [lia|]. apply code_inj. rewrite code_of; lia.
  - intros [H _]. lia.
Qed.
Lemma digit_is_digit c v : digit_is c v -> isdigit c = true /\ digit c = v.
Proof.
  intros [H ->]. unfold isdigit, digit. rewrite code_of by lia. split; lia.
Qed.

Lemma str_eqb_eq a b : str_eqb a b = true <-> a = b.
Proof.
  revert b. induction a as [|x a IH]; intros [|y b]; cbn; try (split; congruence).
  rewrite andb_true_iff, ch_eqb_eq, IH. split; [intros [-> ->]; reflexivity|intros H; inversion H; auto].
Qed.
Lemma str_eqb_refl a : str_eqb a a = true.
Proof. apply str_eqb_eq. reflexivity. Qed.
Lemma starts_iff p s : starts p s = true <-> exists r, s = p ++ r.
Proof.
  revert s. induction p as [|x p IH]; intros s; cbn; [split; eauto|].
  destruct s as [|y s]; [split; [discriminate|intros [r H]; discriminate]|].
  rewrite andb_true_iff, ch_eqb_eq, IH. split.
  - intros [-> [r ->]]. exists r. reflexivity.
  - intros [r H]. inversion H; subst. eauto.
Qed.
Lemma starts_app p r : starts p (p ++ r) = true.
Proof. apply starts_iff. eauto. Qed.
Lemma starts_skipn p s : starts p s = true -> s = p ++ skipn (List.length p) s.
Proof. intros H. apply starts_iff in H. destruct H as [r ->]. rewrite skipn_app, Nat.sub_diag, skipn_all. reflexivity. Qed.

Lemma skip_spec f s : exists a, s = a ++ skip f s /\ Forall (fun c => f c = true) a /\
  match skip f s with [] => True | c :: _ => f c = false end.
Proof.
  induction s as [|c s IH]; cbn; [exists []; repeat split; auto|].
  destruct (f c) eqn:E.
  - destruct IH as (a & A & B & C). exists (c :: a). split; [cbn; congruence|]. split; [constructor; auto|exact C].
  - exists []. repeat split; auto.
Qed.
Lemma skip_app f a s : Forall (fun c => f c = true) a -> skip f (a ++ s) = skip f s.
Proof. induction 1 as [|c a H _ IH]; [reflexivity|]. cbn. rewrite H. exact IH. Qed.
Lemma skip_head f s : match s with [] => True | c :: _ => f c = false end -> skip f s = s.
Proof. destruct s as [|c s]; [reflexivity|]. cbn. intros ->. reflexivity. Qed.
Lemma skip_all f a : Forall (fun c => f c = true) a -> skip f a = [].
Proof. intros H. rewrite <- (app_nil_r a), skip_app by exact H. reflexivity. Qed.
Lemma skip_nil f s : skip f s = [] <-> Forall (fun c => f c = true) s.
Proof.
  split; [|apply skip_all]. intros H. destruct (skip_spec f s) as (a & A & B & _). rewrite H, app_nil_r in A. congruence.
Qed.
Lemma skip_length f s : (List.length (skip f s) <= List.length s)%nat.
Proof. induction s as [|c s IH]; cbn; [lia|]. destruct (f c); cbn; lia. Qed.

Lemma cut_spec f s a b : cut f s = (a, b) -> s = a ++ b /\ Forall (fun c => f c = false) a /\
  match b with [] => True | c :: _ => f c = true end.
Proof.
  revert a b. induction s as [|c s IH]; cbn; intros a b; [intros H; inversion H; repeat split; auto|].
  destruct (f c) eqn:E; [intros H; inversion H; subst; repeat split; auto|].
  destruct (cut f s) as [a' b']. intros H. inversion H; subst. destruct (IH a' b eq_refl) as (A & B & C).
  split; [cbn; congruence|]. split; [constructor; auto|exact C].
Qed.
Lemma cut_app f a b : Forall (fun c => f c = false) a -> match b with [] => True | c :: _ => f c = true end ->
  cut f (a ++ b) = (a, b).
Proof.
  intros Ha Hb. induction Ha as [|c a E _ IH]; cbn.
  - destruct b as [|c b]; [reflexivity|]. cbn. rewrite Hb. reflexivity.
  - rewrite E, IH. reflexivity.
Qed.
Lemma cut_none f a : Forall (fun c => f c = false) a -> cut f a = (a, []).
Proof. intros H. rewrite <- (app_nil_r a) at 1. apply cut_app; auto. Qed.

Lemma not_in_forall (c : ascii) l : ~ In c l <-> Forall (fun x => ch_eqb c x = false) l.
Proof.
  rewrite Forall_forall. split.
  - intros H x Hx. apply ch_eqb_neq. intros ->. auto.
  - intros H Hc. specialize (H c Hc). rewrite ch_eqb_refl in H. discriminate.
Qed.
Lemma strchr_some c s a b : strchr c s = Some (a, b) <-> s = a ++ c :: b /\ ~ In c a.
Proof.
  unfold strchr. split.
  - destruct (cut (ch_eqb c) s) as [a' b'] eqn:E. apply cut_spec in E. destruct E as (A & B & C).
    destruct b' as [|x b']; [discriminate|]. intros H. inversion H; subst a' b'. apply ch_eqb_eq in C. subst x.
    split; [exact A|]. apply not_in_forall, B.
  - intros [-> H]. rewrite cut_app; [reflexivity|apply not_in_forall, H|apply ch_eqb_refl].
Qed.
Lemma strchr_none c s : strchr c s = None <-> ~ In c s.
Proof.
  split.
  - unfold strchr. destruct (cut (ch_eqb c) s) as [a b] eqn:E. apply cut_spec in E. destruct E as (A & B & C).
    destruct b; [|discriminate]. intros _. rewrite app_nil_r in A. subst. apply not_in_forall, B.
  - intros H. destruct (strchr c s) as [[a b]|] eqn:E; [|reflexivity]. apply strchr_some in E. destruct E as [-> _].
    exfalso. apply H, in_or_app. right. left. reflexivity.
Qed.
Lemma strrchr_some c s a b : strrchr c s = Some (a, b) <-> s = a ++ c :: b /\ ~ In c b.
Proof.
  unfold strrchr. split.
  - destruct (cut (ch_eqb c) (rev s)) as [a' b'] eqn:E. apply cut_spec in E. destruct E as (A & B & C).
    destruct b' as [|x b']; [discriminate|]. intros H. inversion H; subst a b. apply ch_eqb_eq in C. subst x.
    split.
    + rewrite <- (rev_involutive s), A, rev_app_distr. cbn. rewrite <- app_assoc. reflexivity.
    + rewrite <- in_rev. apply not_in_forall, B.
  - intros [-> H]. rewrite rev_app_distr. cbn. rewrite <- app_assoc. cbn.
    rewrite cut_app; [rewrite !rev_involutive; reflexivity| |apply ch_eqb_refl].
    apply not_in_forall. rewrite <- in_rev. exact H.
Qed.
Lemma strrchr_none c s : strrchr c s = None <-> ~ In c s.
Proof.
  split.
  - unfold strrchr. destruct (cut (ch_eqb c) (rev s)) as [a b] eqn:E. apply cut_spec in E. destruct E as (A & B & C).
    destruct b; [|discriminate]. intros _. rewrite app_nil_r in A. rewrite in_rev, A. apply not_in_forall, B.
  - intros H. destruct (strrchr c s) as [[a b]|] eqn:E; [|reflexivity]. apply strrchr_some in E. destruct E as [-> _].
    exfalso. apply H, in_or_app. right. left. reflexivity.
Qed.

(** [p] does not occur in [s] *)
Definition absent (p s : cstr) : Prop := forall a b, s <> a ++ p ++ b.
Lemma strstr_some p s a b : strstr p s = Some (a, b) -> s = a ++ p ++ b.
Proof.
  revert a b. induction s as [|c s IH]; intros a b; cbn [strstr].
  - destruct (starts p []) eqn:E; [|discriminate]. intros H. inversion H; subst.
    cbn [app]. apply starts_skipn, E.
  - destruct (starts p (c :: s)) eqn:E.
    + intros H. inversion H; subst. cbn [app]. apply starts_skipn, E.
    + destruct (strstr p s) as [[a' b']|]; [|discriminate]. intros H. inversion H; subst. cbn.
      rewrite (IH a' b eq_refl) at 1. reflexivity.
Qed.
Lemma strstr_none p s : strstr p s = None -> absent p s.
Proof.
  unfold absent. induction s as [|c s IH]; cbn [strstr].
  - destruct (starts p []) eqn:E; [discriminate|]. intros _ a b H. symmetry in H.
    apply app_eq_nil in H. destruct H as [-> H]. apply app_eq_nil in H. destruct H as [-> _]. discriminate.
  - destruct (starts p (c :: s)) eqn:E; [discriminate|].
    destruct (strstr p s) as [[a' b']|]; [discriminate|]. intros _ [|x a] b H.
    + cbn in H. rewrite H, starts_app in E. discriminate.
    + inversion H; subst. eapply IH; eauto.
Qed.
Lemma strstr_absent p s : absent p s -> strstr p s = None.
Proof.
  intros H. destruct (strstr p s) as [[a b]|] eqn:E; [|reflexivity]. apply strstr_some in E. exfalso. eapply H, E.
Qed.
(** the first occurrence *)
Lemma strstr_first p s a b : p <> [] -> s = a ++ p ++ b ->
  (forall a' b', a ++ p = a' ++ p ++ b' -> b' = []) -> strstr p s = Some (a, b).
Proof.
  intros Hp. revert s. induction a as [|c a IH]; intros s -> Hf.
  - cbn [app]. destruct (p ++ b) eqn:E; cbn [strstr]; rewrite <- E, starts_app, skipn_app, Nat.sub_diag, skipn_all; reflexivity.
  - cbn [app strstr].
    destruct (starts p (c :: a ++ p ++ b)) eqn:E.
    { exfalso. apply starts_iff in E. destruct E as [r E].
      (* p occurs at 0 in c :: a ++ p ++ b; it is inside c :: a ++ p *)
      assert (Hl : (List.length p <= List.length (c :: a ++ p))%nat) by (cbn; rewrite app_length; lia).
      assert (E2 : c :: a ++ p = p ++ firstn (List.length (c :: a ++ p) - List.length p) r).
      { assert (X : firstn (List.length (c :: a ++ p)) (c :: a ++ p ++ b) = firstn (List.length (c :: a ++ p)) (p ++ r)) by (rewrite E; reflexivity).
        replace (c :: a ++ p ++ b) with ((c :: a ++ p) ++ b) in X by (cbn; rewrite <- app_assoc; reflexivity).
        rewrite firstn_app, Nat.sub_diag, firstn_all in X. cbn [firstn] in X. rewrite app_nil_r in X.
        rewrite firstn_app, firstn_all2 in X by lia. exact X. }
      specialize (Hf [] _ E2). rewrite Hf, app_nil_r in E2.
      apply (f_equal (@List.length ascii)) in E2. cbn in E2. rewrite app_length in E2. lia. }
    rewrite (IH (a ++ p ++ b) eq_refl); [reflexivity|].
    intros a' b' H. apply (Hf (c :: a') b'). cbn. rewrite H. reflexivity.
Qed.

Lemma mem_iff c l : mem c l = true <-> In c l.
Proof.
  unfold mem. rewrite existsb_exists. split; [intros (x & A & B); apply ch_eqb_eq in B; congruence|].
  intros H. exists c. split; [exact H|apply ch_eqb_refl].
Qed.
Lemma mem_false c l : mem c l = false <-> ~ In c l.
Proof. rewrite <- mem_iff. destruct (mem c l); split; congruence. Qed.

Lemma forall_ext {A} (P Q : A -> Prop) l : (forall x, P x <-> Q x) -> Forall P l <-> Forall Q l.
Proof. intros H. split; intros F; eapply Forall_impl; try exact F; intros a; apply H. Qed.

Lemma strtok_length del s a b : strtok del s = Some (a, b) -> (List.length b < List.length s)%nat.
Proof.
  unfold strtok. pose proof (skip_length (fun c => mem c del) s) as Hl.
  destruct (skip_spec (fun c => mem c del) s) as (x & E & _ & Hh).
  destruct (skip (fun c => mem c del) s) as [|c r] eqn:Es; [discriminate|].
  destruct (cut _ (c :: r)) as [a' b'] eqn:Ec. intros H. inversion H; subst. clear H.
  apply cut_spec in Ec. destruct Ec as (A & B & C). destruct a as [|y a].
  - cbn in A. destruct b' as [|z b']; [discriminate|]. inversion A; subst. cbn [tl]. cbn in Hl. lia.
  - apply (f_equal (@List.length ascii)) in A. cbn in A, Hl. rewrite app_length in A.
    destruct b'; cbn in A |- *; lia.
Qed.
Lemma strtok_none del s : strtok del s = None <-> Forall (fun c => In c del) s.
Proof.
  unfold strtok. destruct (skip (fun c => mem c del) s) as [|c r] eqn:E.
  - apply skip_nil in E. split; [|reflexivity]. intros _. eapply Forall_impl; [|exact E]. intros a. apply mem_iff.
  - destruct (cut _ _). split; [discriminate|]. intros H. exfalso.
    assert (X : skip (fun c => mem c del) s = []).
    { apply skip_nil. eapply Forall_impl; [|exact H]. intros a. apply mem_iff. }
    congruence.
Qed.
Lemma strtok_some del s a b : strtok del s = Some (a, b) ->
  exists x, Forall (fun c => In c del) x /\ a <> [] /\ Forall (fun c => ~ In c del) a /\
    (s = x ++ a /\ b = [] \/ exists d, In d del /\ s = x ++ a ++ d :: b).
Proof.
  unfold strtok. destruct (skip_spec (fun c => mem c del) s) as (x & E & Hx & Hh).
  destruct (skip (fun c => mem c del) s) as [|c r] eqn:Es; [discriminate|].
  destruct (cut _ (c :: r)) as [a' b'] eqn:Ec. intros H. inversion H; subst a' b. clear H.
  apply cut_spec in Ec. destruct Ec as (A & B & C). exists x.
  split; [eapply Forall_impl; [|exact Hx]; intros y; apply mem_iff|].
  split. { intros ->. cbn in A. subst b'. cbn in C. congruence. }
  split. { eapply Forall_impl; [|exact B]. intros y. apply mem_false. }
  rewrite E, A. destruct b' as [|d b']; [left; rewrite app_nil_r; auto|].
  right. exists d. split; [apply mem_iff, C|reflexivity].
Qed.
Lemma strtok_app del x a s : Forall (fun c => In c del) x -> a <> [] -> Forall (fun c => ~ In c del) a ->
  (s = [] \/ exists d r, s = d :: r /\ In d del) -> strtok del (x ++ a ++ s) = Some (a, tl s).
Proof.
  intros Hx Ha Hf Hs. unfold strtok. rewrite skip_app by (eapply Forall_impl; [|exact Hx]; intros y; apply mem_iff).
  destruct a as [|c a]; [congruence|]. cbn [app skip].
  assert (Hc : mem c del = false) by (apply mem_false; inversion Hf; assumption). rewrite Hc.
  change (c :: a ++ s) with ((c :: a) ++ s). rewrite cut_app; [reflexivity| |].
  - eapply Forall_impl; [|exact Hf]. intros y. apply mem_false.
  - destruct Hs as [->|(d & r & -> & H)]; [exact I|]. apply mem_iff, H.
Qed.

Lemma strtoks_fuel del n m s : (List.length s < n)%nat -> (List.length s < m)%nat -> strtoks_ n del s = strtoks_ m del s.
Proof.
  revert m s. induction n as [|n IH]; intros m s Hn Hm; [lia|]. destruct m as [|m]; [lia|]. cbn [strtoks_].
  destruct (strtok del s) as [[a b]|] eqn:E; [|reflexivity]. apply strtok_length in E. f_equal. apply IH; lia.
Qed.
Lemma strtoks_eq del s : strtoks del s = match strtok del s with Some (a, b) => a :: strtoks del b | None => [] end.
Proof.
  unfold strtoks at 1. cbn [strtoks_]. destruct (strtok del s) as [[a b]|] eqn:E; [|reflexivity].
  apply strtok_length in E. f_equal. apply strtoks_fuel; lia.
Qed.
Lemma strtoks_tokens del s : tokens (fun c => In c del) s (strtoks del s).
Proof.
  remember (List.length s) as n eqn:En. assert (Hn : (List.length s <= n)%nat) by lia. clear En. revert s Hn.
  induction n as [|n IH]; intros s Hn; rewrite strtoks_eq; destruct (strtok del s) as [[a b]|] eqn:E;
    try (constructor; apply strtok_none, E).
  - pose proof (strtok_length _ _ _ _ E). lia.
  - pose proof (strtok_length _ _ _ _ E) as Hl. apply strtok_some in E. destruct E as (x & Hx & Ha & Hf & [[-> ->]|(d & Hd & ->)]).
    + assert (X : strtoks del [] = []) by reflexivity. rewrite X. constructor; assumption.
    + constructor; auto. apply IH. lia.
Qed.
Lemma tokens_strtoks del s ts : tokens (fun c => In c del) s ts -> strtoks del s = ts.
Proof.
  induction 1 as [s H|a w Ha Hw Hf|a w d s ws Ha Hw Hf Hd _ IH].
  - rewrite strtoks_eq. apply strtok_none in H. rewrite H. reflexivity.
  - rewrite strtoks_eq. replace (a ++ w) with (a ++ w ++ []) by (rewrite app_nil_r; reflexivity).
    rewrite strtok_app by auto. reflexivity.
  - rewrite strtoks_eq. rewrite strtok_app; [cbn [tl]; rewrite IH; reflexivity|auto|auto|auto|]. right. eauto.
Qed.

(** ** Numbers *)
Lemma digits_app acc d s : Forall (fun c => isdigit c = true) d -> match s with [] => True | c :: _ => isdigit c = false end ->
  digits_ acc (d ++ s) = (fold_left (fun a c => 10 * a + digit c) d acc, s).
Proof.
  intros Hd Hs. revert acc. induction Hd as [|c d E _ IH]; intros acc; cbn.
  - destruct s as [|c s]; [reflexivity|]. cbn. rewrite Hs. reflexivity.
  - rewrite E. apply IH.
Qed.
Lemma digits_value_iff d n : digits_value d n <->
  d <> [] /\ Forall (fun c => isdigit c = true) d /\ fold_left (fun a c => 10 * a + digit c) d 0 = n.
Proof.
  split.
  - induction 1 as [c v H|s c n v H (IH1 & IH2 & IH3) Hc].
    + apply digit_is_digit in H. destruct H as [A B]. split; [discriminate|]. split; [repeat constructor; exact A|]. cbn. lia.
    + apply digit_is_digit in Hc. destruct Hc as [A B]. split; [destruct s; discriminate|].
      split; [apply Forall_app; repeat constructor; auto|]. rewrite fold_left_app, IH3. cbn. lia.
  - revert n. induction d as [|c d IH] using rev_ind; intros n (H1 & H2 & H3); [congruence|].
    apply Forall_app in H2. destruct H2 as [H2 Hc]. rewrite <- H3. clear H3. apply Forall_inv in Hc. rename Hc into H3.
    apply isdigit_iff in H3. rewrite fold_left_app. cbn [fold_left].
    destruct d as [|x d]; [apply (dv_one c (10 * 0 + digit c)); replace (10 * 0 + digit c) with (digit c) by lia; exact H3|].
    apply dv_more; [|exact H3]. apply IH. split; [discriminate|]. auto.
Qed.
Lemma digits_value_nonneg d n : digits_value d n -> 0 <= n.
Proof. induction 1 as [c v [H _]|s c n v _ IH [H _]]; lia. Qed.
Lemma digits_value_fun d n m : digits_value d n -> digits_value d m -> n = m.
Proof. rewrite !digits_value_iff. intros (_ & _ & A) (_ & _ & B). congruence. Qed.
Lemma digits_full acc s n : digits_ acc s = (n, []) -> Forall (fun c => isdigit c = true) s.
Proof.
  revert acc. induction s as [|c s IH]; cbn; intros acc; [constructor|].
  destruct (isdigit c) eqn:E; [|discriminate]. intros H. constructor; eauto.
Qed.
Lemma unsigned_value d n : unsigned_ d = Some (n, []) <-> digits_value d n.
Proof.
  rewrite digits_value_iff. split.
  - destruct d as [|c d]; [discriminate|]. unfold unsigned_. destruct (isdigit c) eqn:E; [|discriminate].
    intros H. assert (H1 : digits_ 0 (c :: d) = (n, [])) by congruence. pose proof (digits_full _ _ _ H1) as F.
    split; [discriminate|]. split; [exact F|]. rewrite <- (app_nil_r (c :: d)), digits_app in H1 by auto. congruence.
  - intros (H1 & H2 & H3). destruct d as [|c d]; [congruence|]. unfold unsigned_. inversion H2; subst. rewrite H4.
    rewrite <- (app_nil_r (c :: d)), digits_app, app_nil_r by auto. reflexivity.
Qed.
Lemma unsigned_head r n x : unsigned_ r = Some (n, x) -> exists c r', r = c :: r' /\ isdigit c = true.
Proof. destruct r as [|c r]; [discriminate|]. cbn. destruct (isdigit c) eqn:E; [eauto|discriminate]. Qed.
Lemma digit_not c : isdigit c = true -> isspace c = false /\ c <> "+"%char /\ c <> "-"%char.
Proof.
  unfold isdigit, isspace. intros H. split; [lia|]. split; intros ->; discriminate.
Qed.
Lemma strtoll_number s n : strtoll s = Some (n, []) <-> number s n.
Proof.
  unfold strtoll, number. split.
  - destruct (skip_spec isspace s) as (sp & E & Hsp & _).
    assert (Hw : Forall white sp) by (eapply Forall_impl; [|exact Hsp]; intros a; apply isspace_iff).
    remember (skip isspace s) as r eqn:Er. clear Er. destruct r as [|c r]; [discriminate|].
    destruct (ch_eqb c "+") eqn:E1; [apply ch_eqb_eq in E1; subst c|destruct (ch_eqb c "-") eqn:E2; [apply ch_eqb_eq in E2; subst c|]]; intros Hn.
    + apply unsigned_value in Hn. exists sp, r. split; [exact Hw|]. left. split; [right; exact E|exact Hn].
    + destruct (unsigned_ r) as [[m x]|] eqn:Eu; [|discriminate]. inversion Hn; subst n x.
      apply unsigned_value in Eu. exists sp, r. split; [exact Hw|]. right. split; [exact E|].
      rewrite Z.opp_involutive. exact Eu.
    + apply unsigned_value in Hn. exists sp, (c :: r). split; [exact Hw|]. left. split; [left; exact E|exact Hn].
  - intros (sp & d & Hw & H).
    assert (Hsp : Forall (fun c => isspace c = true) sp) by (eapply Forall_impl; [|exact Hw]; intros a; apply isspace_iff).
    destruct H as [[[->| ->] H]|[-> H]]; rewrite skip_app by exact Hsp.
    + apply unsigned_value in H. destruct (unsigned_head _ _ _ H) as (c & r & -> & Hc).
      destruct (digit_not c Hc) as (N1 & N2 & N3). rewrite skip_head by exact N1.
      apply ch_eqb_neq in N2, N3. rewrite N2, N3. exact H.
    + cbn [skip]. change (isspace "+") with false. cbv iota. rewrite ch_eqb_refl. apply unsigned_value, H.
    + cbn [skip]. change (isspace "-") with false. cbv iota. change (ch_eqb "-" "+") with false. cbv iota. rewrite ch_eqb_refl. apply unsigned_value in H. rewrite H, Z.opp_involutive. reflexivity.
Qed.
Lemma strtonum_some lo hi s n : strtonum lo hi s = Some n <-> number s n /\ lo <= n <= hi.
Proof.
  unfold strtonum. split.
  - destruct (strtoll s) as [[m r]|] eqn:E; [|discriminate]. destruct r; [|discriminate].
    destruct (_ && _)%bool eqn:B; [|discriminate]. intros H. inversion H; subst. split; [apply strtoll_number, E|lia].
  - intros [H B]. apply strtoll_number in H. rewrite H. replace (_ && _)%bool with true by lia. reflexivity.
Qed.
Lemma strtonum_none lo hi s : strtonum lo hi s = None <-> ~ exists n, number s n /\ lo <= n <= hi.
Proof.
  split.
  - intros H (n & Hn). apply strtonum_some in Hn. congruence.
  - intros H. destruct (strtonum lo hi s) as [n|] eqn:E; [|reflexivity]. exfalso. apply H. exists n. apply strtonum_some, E.
Qed.
