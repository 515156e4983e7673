(** Proofs about the configuration parsers. *)
From Coq Require Import List String Ascii NArith ZArith Bool Lia Arith ZifyBool ZifyN.
From Verif Require Import CStr ParseModel ParseSpec CStrLib.
Import ListNotations.
Local Open Scope Z_scope.

(** ** C14 *)
Definition level_ok (c : ascii) : bool := negb ((10 <? level_num c) || (level_num c <? 0)).
Lemma level_names c l : c <> ":"%char ->
  (names_level c l <-> level_ok c = true /\ l = Z.to_N (level_num c)).
Proof.
  intros Hc. unfold names_level, level_ok, level_num.
  assert (Hs : (ch_eqb c "s" || ch_eqb c "S")%bool = true <-> c = "s"%char \/ c = "S"%char)
    by (rewrite orb_true_iff, !ch_eqb_eq; tauto).
  destruct (ch_eqb c "s" || ch_eqb c "S")%bool eqn:E.
  - split; [|intros [_ H]; right; split; [apply Hs; reflexivity|exact H]].
    intros [H|[_ H]]; [|auto]. exfalso. apply digit_is_digit in H. destruct H as [H _].
    destruct (proj1 Hs eq_refl); subst; discriminate.
  - split.
    + intros [H|[H _]]; [|apply Hs in H; congruence]. apply digit_is_digit in H. destruct H as [A B].
      rewrite B. split; [|lia]. unfold isdigit in A. unfold digit in B. lia.
    + intros [A ->]. left. assert (D : isdigit c = true).
      { unfold isdigit. unfold digit in A. assert (code c <> 58)%N; [|lia].
        intros X. apply Hc. apply code_inj. exact X. }
      apply isdigit_iff in D. rewrite Z2N.id by lia. exact D.
Qed.
Lemma testbit_set m n i : N.testbit (N.setbit m n) i = N.testbit m i || N.eqb i n.
Proof. rewrite N.setbit_eqb, N.eqb_sym. apply orb_comm. Qed.
Lemma levels_plain b s m l : ~ In "]"%char b -> ~ In "!"%char b -> ~ In ":"%char b ->
  (s = [] \/ exists r, s = "]"%char :: r) ->
  N.testbit (levels_loop false m (b ++ s)) l = true <-> N.testbit m l = true \/ exists c, In c b /\ names_level c l.
Proof.
  intros H1 H2 H3 Hs. revert m. induction b as [|c b IH]; intros m.
  - cbn [app]. assert (E : levels_loop false m s = m) by (destruct Hs as [->|[r ->]]; reflexivity). rewrite E.
    split; [auto|]. intros [H|(c & [] & _)]; exact H.
  - cbn in H1, H2, H3. cbn [app levels_loop].
    assert (A1 : ch_eqb c "]" = false) by (apply ch_eqb_neq; intuition).
    assert (A2 : ch_eqb c "!" = false) by (apply ch_eqb_neq; intuition).
    assert (A3 : c <> ":"%char) by intuition. pose proof (level_names c l A3) as Hn.
    rewrite A1, A2. cbv zeta. unfold level_ok in Hn.
    destruct ((10 <? level_num c) || (level_num c <? 0))%bool.
    + rewrite IH by intuition. cbn in Hn. split.
      * intros [H|(x & A & B)]; [auto|right; exists x; split; [right|]; assumption].
      * intros [H|(x & [->|A] & B)]; [auto| |right; eauto]. apply Hn in B. destruct B; discriminate.
    + rewrite IH, testbit_set, orb_true_iff, N.eqb_eq by intuition. cbn in Hn. split.
      * intros [[H|H]|(x & A & B)]; [auto|right; exists c; split; [left; reflexivity|apply Hn; auto]|right; exists x; split; [right|]; assumption].
      * intros [H|(x & [->|A] & B)]; [auto| |right; eauto]. apply Hn in B. left. right. apply B.
Qed.
Lemma levels_not b s m l : ~ In "]"%char b -> ~ In "!"%char b -> ~ In ":"%char b ->
  (s = [] \/ exists r, s = "]"%char :: r) ->
  N.testbit (levels_loop true m (b ++ s)) l = true <-> N.testbit m l = true /\ forall c, In c b -> ~ names_level c l.
Proof.
  intros H1 H2 H3 Hs. revert m. induction b as [|c b IH]; intros m.
  - cbn [app]. assert (E : levels_loop true m s = m) by (destruct Hs as [->|[r ->]]; reflexivity). rewrite E.
    split; [intros H; split; [exact H|intros c []]|intros [H _]; exact H].
  - cbn in H1, H2, H3. cbn [app levels_loop].
    assert (A1 : ch_eqb c "]" = false) by (apply ch_eqb_neq; intuition).
    assert (A2 : ch_eqb c "!" = false) by (apply ch_eqb_neq; intuition).
    assert (A3 : c <> ":"%char) by intuition. pose proof (level_names c l A3) as Hn.
    rewrite A1, A2. cbv zeta. unfold level_ok in Hn.
    destruct ((10 <? level_num c) || (level_num c <? 0))%bool.
    + rewrite IH by intuition. cbn in Hn. split.
      * intros [H B]. split; [exact H|]. intros x [->|A]; [intros X; apply Hn in X; destruct X; discriminate|auto].
      * intros [H B]. split; [exact H|]. intros x A. apply B. right. exact A.
    + rewrite IH, N.clearbit_eqb, andb_true_iff, negb_true_iff, N.eqb_neq by intuition. cbn in Hn. split.
      * intros [[H E] B]. split; [exact H|]. intros x [->|A]; [|auto]. intros X. apply Hn in X. destruct X as [_ X]. congruence.
      * intros [H B]. split; [|intros x A; apply B; right; exact A]. split; [exact H|].
        intros X. apply (B c (or_introl eq_refl)). apply Hn. auto.
Qed.
(** whatever the '!' comes after is forgotten *)
Lemma levels_bang neg m b s : ~ In "]"%char b -> levels_loop neg m (b ++ "!"%char :: s) = levels_loop true 2046 s.
Proof.
  revert neg m. induction b as [|c b IH]; intros neg m H; [reflexivity|]. cbn in H. cbn [app levels_loop].
  assert (A1 : ch_eqb c "]" = false) by (apply ch_eqb_neq; intuition). rewrite A1.
  destruct (ch_eqb c "!"); [apply IH; intuition|]. cbv zeta. destruct (_ || _); apply IH; intuition.
Qed.
Lemma bits_1_10 l : N.testbit 2046 l = true <-> (1 <= l <= 10)%N.
Proof.
  split.
  - intros H. destruct (N.le_gt_cases l 10) as [A|A].
    + destruct (N.eq_dec l 0) as [->|B]; [discriminate|lia].
    + rewrite (N.bits_above_log2 2046 l) in H; [discriminate|]. change (N.log2 2046) with 10%N. exact A.
  - intros H. assert (X : In l (map N.of_nat (seq 1 10))).
    { apply in_map_iff. exists (N.to_nat l). split; [lia|]. apply in_seq. lia. }
    revert X. apply (forallb_forall (fun l => N.testbit 2046 l)). reflexivity.
Qed.
Lemma levels_range neg m s : (forall l, N.testbit m l = true -> (l <= 10)%N) ->
  forall l, N.testbit (levels_loop neg m s) l = true -> (l <= 10)%N.
Proof.
  revert neg m. induction s as [|c s IH]; intros neg m H; [exact H|]. cbn [levels_loop].
  destruct (ch_eqb c "]"); [exact H|]. destruct (ch_eqb c "!").
  - apply IH. intros l Hl. apply bits_1_10 in Hl. lia.
  - cbv zeta. destruct (_ || _) eqn:E; [apply IH, H|]. apply IH. intros l. destruct neg.
    + rewrite N.clearbit_eqb, andb_true_iff. intros [A _]. auto.
    + rewrite testbit_set, orb_true_iff, N.eqb_eq. intros [A|A]; [auto|lia].
Qed.

Lemma runlevels_plain_lem c b s l : ~ In "]"%char b -> ~ In "!"%char b -> ~ In ":"%char b ->
  (s = [] \/ exists r, s = "]"%char :: r) ->
  N.testbit (parse_runlevels (Some (c :: b ++ s))) l = true <-> exists x, In x b /\ names_level x l.
Proof.
  intros H1 H2 H3 Hs. unfold parse_runlevels. cbn [tl]. rewrite levels_plain by assumption.
  rewrite N.bits_0. split; [intros [H|H]; [discriminate|exact H]|auto].
Qed.
Lemma runlevels_not_lem c a b s l : ~ In "]"%char a -> ~ In "]"%char b -> ~ In "!"%char b -> ~ In ":"%char b ->
  (s = [] \/ exists r, s = "]"%char :: r) ->
  N.testbit (parse_runlevels (Some (c :: a ++ "!"%char :: b ++ s))) l = true <->
  (1 <= l <= 10)%N /\ forall x, In x b -> ~ names_level x l.
Proof.
  intros H0 H1 H2 H3 Hs. unfold parse_runlevels. cbn [tl]. rewrite levels_bang by assumption.
  rewrite levels_not by assumption. rewrite bits_1_10. reflexivity.
Qed.
Lemma runlevels_default_lem l : N.testbit (parse_runlevels None) l = true <-> (l = 2 \/ l = 3 \/ l = 4)%N.
Proof.
  change (parse_runlevels None) with 28%N. split.
  - intros H. destruct (N.le_gt_cases l 4) as [A|A].
    + assert (X : In l (map N.of_nat (seq 0 5))).
      { apply in_map_iff. exists (N.to_nat l). split; [lia|]. apply in_seq. lia. }
      cbn in X. repeat destruct X as [X|X]; subst; try discriminate; auto; lia.
    + rewrite (N.bits_above_log2 28 l) in H; [discriminate|]. change (N.log2 28) with 4%N. exact A.
  - intros [->|[->| ->]]; reflexivity.
Qed.
Lemma runlevels_range_lem s l : N.testbit (parse_runlevels s) l = true -> (l <= 10)%N.
Proof. unfold parse_runlevels. apply levels_range. intros i. rewrite N.bits_0. discriminate. Qed.
Lemma cmdline_runlevel_lem s n : parse_runlevel s = n <->
  (digits_value s n /\ 1 <= n <= 9 /\ n <> 6 \/ n = 0 /\ ~ exists m, digits_value s m /\ 1 <= m <= 9 /\ m <> 6).
Proof.
  assert (K : forall m, (forallb isdigit s = true /\ strtonum 1 9 s = Some m) <-> digits_value s m /\ 1 <= m <= 9).
  { intros m. rewrite strtonum_some, forallb_forall, <- Forall_forall. split.
    - intros [F [N R]]. split; [|exact R]. apply strtoll_number in N. unfold strtoll in N.
      destruct s as [|c s]; [discriminate|]. pose proof (Forall_inv F) as Hc. destruct (digit_not c Hc) as (N1 & N2 & N3).
      rewrite skip_head in N by exact N1. apply ch_eqb_neq in N2, N3. rewrite N2, N3 in N. apply unsigned_value, N.
    - intros [D R]. split; [apply digits_value_iff in D; apply D|]. split; [|exact R].
      exists [], s. split; [constructor|]. left. split; [left; reflexivity|exact D]. }
  assert (V : forall m, parse_runlevel s = m -> m <> 0 -> digits_value s m /\ 1 <= m <= 9 /\ m <> 6).
  { intros m. unfold parse_runlevel. destruct (forallb isdigit s) eqn:F; [|lia].
    destruct (strtonum 1 9 s) as [x|] eqn:E; [|lia]. destruct (x =? 6) eqn:E6; [lia|]. intros -> _.
    specialize (K m). destruct K as [K _]. specialize (K (conj eq_refl eq_refl)). lia || (destruct K; repeat split; auto; lia). }
  assert (W : forall m, digits_value s m /\ 1 <= m <= 9 /\ m <> 6 -> parse_runlevel s = m).
  { intros m (A & B & C). destruct (proj2 (K m) (conj A B)) as [F E]. unfold parse_runlevel. rewrite F, E.
    replace (m =? 6) with false by lia. reflexivity. }
  split.
  - intros H. destruct (Z.eq_dec n 0) as [->|Hn].
    + right. split; [reflexivity|]. intros (m & Hm). pose proof (W m Hm). lia.
    + left. apply V; assumption.
  - intros [H|[-> H]]; [apply W, H|]. destruct (Z.eq_dec (parse_runlevel s) 0) as [E|E]; [exact E|].
    exfalso. apply H. exists (parse_runlevel s). apply V; auto.
Qed.

(** ** C42 *)
Definition seen_colon_from (q : option ascii) (colon : bool) (p : cstr) : Prop :=
  colon = true \/ exists a b, p = a ++ ":"%char :: b /\ open_quote_from q a = None.
Lemma oq_cons q c p : open_quote_from q (c :: p) =
  open_quote_from (match q with
                   | Some qc => if Ascii.eqb c qc then None else q
                   | None => if Ascii.eqb c "'" || Ascii.eqb c """" then Some c else None end) p.
Proof. reflexivity. Qed.
Lemma comma_next_iff c s : isblank c = true ->
  (match skip isblank (c :: s) with x :: _ => ch_eqb x "," | [] => false end) = true <-> comma_next (c :: s).
Proof.
  intros _. destruct (skip_spec isblank (c :: s)) as (a & E & Ha & Hh).
  assert (Hb : Forall blank a) by (eapply Forall_impl; [|exact Ha]; intros y; apply isblank_iff).
  unfold comma_next. split.
  - intros H. destruct (skip isblank (c :: s)) as [|x r]; [discriminate|]. apply ch_eqb_eq in H. subst x. eauto.
  - intros (b & r & Hb' & E'). rewrite E'. rewrite skip_app by (eapply Forall_impl; [|exact Hb']; intros y; apply isblank_iff).
    reflexivity.
Qed.

(** the general state of the scanner: [q] open, [colon] seen *)
Definition glued_from (q : option ascii) (colon : bool) (p next : cstr) : Prop :=
  open_quote_from q p <> None \/ seen_colon_from q colon p /\ comma_next next.
Definition nextq (q : option ascii) (c : ascii) : option ascii :=
  match q with
  | Some qc => if Ascii.eqb c qc then None else q
  | None => if Ascii.eqb c "'" || Ascii.eqb c """" then Some c else None
  end.
Definition nextcol (q : option ascii) (colon : bool) (c : ascii) : bool :=
  match q with Some _ => colon | None => colon || ch_eqb c ":" end.
Lemma seen_cons q colon c p : seen_colon_from q colon (c :: p) <-> seen_colon_from (nextq q c) (nextcol q colon c) p.
Proof.
  unfold seen_colon_from, nextcol. split.
  - intros [H|(a & b & E & O)].
    + left. destruct q; [exact H|]. rewrite H. reflexivity.
    + destruct a as [|x a].
      * cbn in E, O. inversion E; subst. left. rewrite ch_eqb_refl, orb_true_r. reflexivity.
      * inversion E; subst. right. exists a, b. split; [reflexivity|exact O].
  - intros [H|(a & b & -> & O)].
    + destruct q; [left; exact H|]. apply orb_prop in H. destruct H as [H|H]; [left; exact H|].
      apply ch_eqb_eq in H. subst. right. exists [], p. split; reflexivity.
    + right. exists (c :: a), b. split; [reflexivity|exact O].
Qed.
Lemma glued_cons q colon c p next : glued_from q colon (c :: p) next <-> glued_from (nextq q c) (nextcol q colon c) p next.
Proof. unfold glued_from. rewrite seen_cons. reflexivity. Qed.
(** whether the scanner stops at this character *)
Definition stops (q : option ascii) (colon : bool) (s : cstr) : Prop :=
  exists c r, s = c :: r /\ blank c /\ ~ glued_from q colon [] s.
Lemma quote_not_blank c : (Ascii.eqb c "'" || Ascii.eqb c """")%bool = true -> isblank c = false.
Proof. rewrite orb_true_iff, !Ascii.eqb_eq. intros [->| ->]; reflexivity. Qed.
Lemma scan_step q colon c s :
  arg_scan q colon (c :: s) = (let (a, b) := arg_scan (nextq q c) (nextcol q colon c) s in (c :: a, b)) /\ ~ stops q colon (c :: s) \/
  arg_scan q colon (c :: s) = ([], c :: s) /\ stops q colon (c :: s).
Proof.
  destruct q as [qc|].
  - left. split; [reflexivity|]. intros (c' & r & E & _ & G). apply G. left. cbn. discriminate.
  - cbn [arg_scan]. cbv zeta. unfold nextq, nextcol, isquote. change ch_eqb with Ascii.eqb.
    destruct (Ascii.eqb c "'" || Ascii.eqb c """")%bool eqn:Eq.
    { left. assert (Ec : Ascii.eqb c ":" = false) by (destruct (Ascii.eqb c ":") eqn:X; [apply Ascii.eqb_eq in X; subst; discriminate|reflexivity]).
      rewrite Ec, orb_false_r. split; [reflexivity|]. intros (c' & r & E & B & _). inversion E; subst.
      apply isblank_iff in B. rewrite (quote_not_blank _ Eq) in B. discriminate. }
    destruct (Ascii.eqb c ":") eqn:Ec.
    { apply Ascii.eqb_eq in Ec. subst. left. rewrite orb_true_r. split; [reflexivity|].
      intros (c' & r & E & B & _). inversion E; subst. apply isblank_iff in B. discriminate. }
    rewrite orb_false_r. destruct (isblank c) eqn:Eb.
    + destruct (colon && _)%bool eqn:Eg.
      * left. split; [reflexivity|]. intros (c' & r & E & _ & G). apply G. right. apply andb_prop in Eg. destruct Eg as [-> Eg].
        split; [left; reflexivity|]. apply comma_next_iff in Eg; [exact Eg|exact Eb].
      * right. split; [reflexivity|]. exists c, s. split; [reflexivity|]. split; [apply isblank_iff, Eb|].
        intros [G|[[G|(a & b & G & _)] C]]; [apply G; reflexivity| |destruct a; discriminate].
        apply comma_next_iff in C; [|exact Eb]. change Ascii.eqb with ch_eqb in Eg. rewrite G, C in Eg. discriminate.
    + left. split; [reflexivity|]. intros (c' & r & E & B & _). inversion E; subst. apply isblank_iff in B. congruence.
Qed.
Record word_from (q : option ascii) (colon : bool) (w s : cstr) : Prop := {
  wf_inner : forall p c r, w = p ++ c :: r -> blank c -> glued_from q colon p (c :: r ++ s);
  wf_stop : s = [] \/ exists c r, s = c :: r /\ blank c /\ ~ glued_from q colon w s
}.
Lemma scan_word q colon s w r : arg_scan q colon s = (w, r) <-> s = w ++ r /\ word_from q colon w r.
Proof.
  revert q colon w r. induction s as [|c s IH]; intros q colon w r.
  - cbn. split.
    + intros H. inversion H; subst. split; [reflexivity|]. constructor; [|left; reflexivity].
      intros [|] c r E; discriminate.
    + intros [H _]. symmetry in H. apply app_eq_nil in H. destruct H as [-> ->]. reflexivity.
  - destruct (scan_step q colon c s) as [[E NS]|[E St]]; rewrite E.
    + destruct (arg_scan (nextq q c) (nextcol q colon c) s) as [a b] eqn:Es. split.
      * intros H. inversion H; subst. apply IH in Es. destruct Es as [-> [W1 W2]]. split; [reflexivity|]. constructor.
        -- intros p x r0 Ep Hx. destruct p as [|y p].
           ++ inversion Ep; subst. destruct (open_quote_from q []) eqn:Eo; [left; rewrite Eo; discriminate|].
              (* the blank is not a stop *)
              assert (G : ~ ~ glued_from q colon [] (x :: r0 ++ r)).
              { intros G. apply NS. exists x, (r0 ++ r). auto. }
              unfold glued_from in *. cbn in Eo. subst q. cbn in G.
              destruct (match skip isblank (x :: r0 ++ r) with x :: _ => ch_eqb x "," | [] => false end) eqn:Ek.
              ** destruct colon.
                 --- right. split; [left; reflexivity|]. apply isblank_iff in Hx. apply comma_next_iff in Ek; auto.
                 --- exfalso. apply G. intros [X|[[X|(a & b & X & _)] _]]; [congruence|discriminate|destruct a; discriminate].
              ** exfalso. apply G. intros [X|[_ X]]; [congruence|]. apply isblank_iff in Hx.
                 apply comma_next_iff in X; [congruence|exact Hx].
           ++ inversion Ep; subst. apply glued_cons. apply W1; auto.
        -- destruct W2 as [->|(x & r0 & -> & B & G)]; [left; reflexivity|]. right. exists x, r0.
           split; [reflexivity|]. split; [exact B|]. rewrite glued_cons. exact G.
      * intros [H [W1 W2]]. destruct w as [|x w].
        -- cbn in H. subst r. destruct W2 as [W2|(x & r0 & Ex & B & G)]; [discriminate|]. exfalso. apply NS. exists x, r0. auto.
        -- inversion H; subst. assert (X : arg_scan (nextq q x) (nextcol q colon x) (w ++ r) = (w, r)).
           { apply IH. split; [reflexivity|]. constructor.
             - intros p y r0 -> Hy. apply glued_cons. apply (W1 (x :: p) y r0); [reflexivity|exact Hy].
             - destruct W2 as [->|(y & r0 & -> & B & G)]; [left; reflexivity|]. right. exists y, r0.
               split; [reflexivity|]. split; [exact B|]. rewrite glued_cons in G. exact G. }
           rewrite X in Es. inversion Es; subst. reflexivity.
    + split.
      * intros H. inversion H; subst. split; [reflexivity|]. constructor; [intros [|] ? ? X; discriminate|].
        right. destruct St as (x & r0 & Ex & B & G). exists x, r0. auto.
      * intros [H [W1 W2]]. destruct w as [|x w]; [cbn in H; subst; reflexivity|]. exfalso. inversion H; subst.
        destruct St as (y & r0 & Ex & B & G). inversion Ex; subst. apply G. apply (W1 [] y w); [reflexivity|exact B].
Qed.
Lemma glued_start p next : glued p next <-> glued_from None false p next.
Proof.
  unfold glued, glued_from, has_colon, seen_colon_from, open_quote. split; intros [H|[H C]]; auto; right; split; auto.
  destruct H as [H|H]; [discriminate|exact H].
Qed.
Lemma parse_args_some s w b : parse_args s = Some (w, b) <->
  exists x r, s = x ++ w ++ r /\ Forall blank x /\ word w r /\ b = tl r.
Proof.
  unfold parse_args. split.
  - destruct (skip_spec isblank s) as (x & E & Hx & Hh). destruct (skip isblank s) as [|c t] eqn:Es; [discriminate|].
    destruct (arg_scan None false (c :: t)) as [a r] eqn:Ea. destruct a as [|y a]; [discriminate|].
    intros H. inversion H; subst w b. apply scan_word in Ea. destruct Ea as [E2 [W1 W2]].
    exists x, r. split; [congruence|]. split; [eapply Forall_impl; [|exact Hx]; intros z; apply isblank_iff|].
    split; [|reflexivity]. constructor.
    + exists y, a. split; [reflexivity|]. inversion E2; subst. rewrite <- isblank_iff, Hh. discriminate.
    + intros p z q Ep Hz. apply glued_start. apply W1; assumption.
    + destruct W2 as [->|(z & r0 & -> & B & G)]; [left; reflexivity|right]. exists z, r0. rewrite glued_start. auto.
  - intros (x & r & -> & Hx & [(c & w' & -> & Hc) W1 W2] & ->).
    rewrite skip_app by (eapply Forall_impl; [|exact Hx]; intros z; apply isblank_iff).
    assert (Ec : isblank c = false) by (destruct (isblank c) eqn:X; [apply isblank_iff in X; contradiction|reflexivity]).
    cbn [app skip]. rewrite Ec.
    assert (X : arg_scan None false ((c :: w') ++ r) = (c :: w', r)).
    { apply scan_word. split; [reflexivity|]. constructor.
      - intros p z q Ep Hz. apply glued_start. apply W1; assumption.
      - destruct W2 as [->|(z & r0 & -> & B & G)]; [left; reflexivity|right]. exists z, r0. rewrite glued_start in G. auto. }
    cbn [app] in X. rewrite X. reflexivity.
Qed.
Lemma parse_args_none s : parse_args s = None <-> Forall blank s.
Proof.
  unfold parse_args. destruct (skip isblank s) as [|c t] eqn:Es.
  - apply skip_nil in Es. split; [intros _; eapply Forall_impl; [|exact Es]; intros z; apply isblank_iff|reflexivity].
  - destruct (skip_spec isblank s) as (x & E & Hx & Hh). rewrite Es in E, Hh.
    destruct (arg_scan None false (c :: t)) as [a r] eqn:Ea. apply scan_word in Ea. destruct Ea as [E2 [W1 W2]].
    destruct a as [|y a].
    + exfalso. cbn in E2. subst r. destruct W2 as [W2|(z & r0 & Ez & B & _)]; [discriminate|].
      inversion Ez; subst. apply isblank_iff in B. congruence.
    + split; [discriminate|]. intros H. exfalso. rewrite E in H. apply Forall_app in H. destruct H as [_ H].
      apply Forall_inv in H. apply isblank_iff in H. congruence.
Qed.
Lemma parse_args_length s w b : parse_args s = Some (w, b) -> (List.length b < List.length s)%nat.
Proof.
  intros H. apply parse_args_some in H. destruct H as (x & r & -> & _ & [(c & w' & -> & _) _ _] & ->).
  rewrite !app_length. cbn. destruct r; cbn; lia.
Qed.
Lemma all_args_fuel n m s : (List.length s < n)%nat -> (List.length s < m)%nat -> all_args_ n s = all_args_ m s.
Proof.
  revert m s. induction n as [|n IH]; intros m s Hn Hm; [lia|]. destruct m as [|m]; [lia|]. cbn [all_args_].
  destruct (parse_args s) as [[a b]|] eqn:E; [|reflexivity]. apply parse_args_length in E. f_equal. apply IH; lia.
Qed.
Lemma all_args_eq s : all_args s = match parse_args s with Some (a, b) => a :: all_args b | None => [] end.
Proof.
  unfold all_args at 1. cbn [all_args_]. destruct (parse_args s) as [[a b]|] eqn:E; [|reflexivity].
  apply parse_args_length in E. f_equal. apply all_args_fuel; lia.
Qed.
Lemma words_lem s ws : all_args s = ws <-> words s ws.
Proof.
  split.
  - intros <-. remember (List.length s) as n eqn:En. assert (Hn : (List.length s <= n)%nat) by lia. clear En. revert s Hn.
    induction n as [|n IH]; intros s Hn; rewrite all_args_eq; destruct (parse_args s) as [[a b]|] eqn:E;
      try (constructor; apply parse_args_none, E).
    + pose proof (parse_args_length _ _ _ E). lia.
    + pose proof (parse_args_length _ _ _ E) as Hl. apply parse_args_some in E. destruct E as (x & r & -> & Hx & Hw & ->).
      constructor; auto. apply IH. lia.
  - induction 1 as [s H|b w s ws Hb Hw _ IH].
    + rewrite all_args_eq. apply parse_args_none in H. rewrite H. reflexivity.
    + rewrite all_args_eq. assert (X : parse_args (b ++ w ++ s) = Some (w, tl s)) by (apply parse_args_some; eauto 8).
      rewrite X, IH. reflexivity.
Qed.
(** nothing but blanks is lost *)
Lemma words_keep s ws : words s ws -> filter (fun c => negb (isblank c)) s = filter (fun c => negb (isblank c)) (List.concat ws).
Proof.
  assert (K : forall a, Forall blank a -> filter (fun c => negb (isblank c)) a = []).
  { induction 1 as [|c a H _ IH]; [reflexivity|]. cbn. apply isblank_iff in H. rewrite H. exact IH. }
  assert (F : forall a b, filter (fun c => negb (isblank c)) (a ++ b) =
                          filter (fun c => negb (isblank c)) a ++ filter (fun c => negb (isblank c)) b)
    by (intros; apply filter_app).
  induction 1 as [s H|b w s ws Hb [_ _ Hs] _ IH]; [apply K, H|]. cbn [List.concat]. rewrite !F, (K b Hb). cbn [app].
  f_equal. rewrite <- IH. destruct Hs as [->|(c & r & -> & B & _)]; [reflexivity|]. cbn. apply isblank_iff in B. rewrite B. reflexivity.
Qed.
(** a line without quotes and colons: the words are what is between blanks *)
Lemma words_plain s : ~ In "'"%char s -> ~ In """"%char s -> ~ In ":"%char s ->
  tokens blank s (all_args s).
Proof.
  intros H1 H2 H3. assert (W : words s (all_args s)) by (apply words_lem; reflexivity).
  revert H1 H2 H3 W. generalize (all_args s). intros ws H1 H2 H3 W. induction W as [s H|b w s ws Hb Hw W IH]; [constructor; exact H|].
  assert (I : forall x, ~ In x (b ++ w ++ s) -> ~ In x w /\ ~ In x (tl s)).
  { intros x Hx. rewrite !in_app_iff in Hx. split; [tauto|]. intros X. apply Hx. right. right. destruct s; [destruct X|right; exact X]. }
  destruct (I _ H1) as [Q1 R1]. destruct (I _ H2) as [Q2 R2]. destruct (I _ H3) as [Q3 R3].
  specialize (IH R1 R2 R3). destruct Hw as [(c & w' & Ew & Hc) Hi Hs].
  assert (O : forall p, (exists r, w = p ++ r) -> open_quote p = None).
  { intros p [r Er]. assert (~ In "'"%char p /\ ~ In """"%char p) as [A B] by (rewrite Er, in_app_iff in Q1, Q2; tauto).
    clear -A B. unfold open_quote. induction p as [|x p IHp]; [reflexivity|]. cbn in A, B. cbn [open_quote_from].
    assert (X : (Ascii.eqb x "'" || Ascii.eqb x """")%bool = false).
    { rewrite orb_false_iff, !Ascii.eqb_neq. intuition. }
    rewrite X. apply IHp; tauto. }
  assert (C : forall p, (exists r, w = p ++ r) -> ~ has_colon p).
  { intros p [r Er] (a & b0 & E & _). apply Q3. rewrite Er, E, !in_app_iff. cbn. tauto. }
  assert (G : forall p n, (exists r, w = p ++ r) -> ~ glued p n).
  { intros p n Hp [X|[X _]]; [apply X, O, Hp|eapply C; eauto]. }
  assert (Fw : Forall (fun c => ~ blank c) w).
  { apply Forall_forall. intros x Hx Bx. apply in_split in Hx. destruct Hx as (p & r & Er).
    eapply G; [|eapply Hi; eauto]. eauto. }
  assert (Nw : w <> []) by (rewrite Ew; discriminate).
  destruct Hs as [->|(d & r & -> & Bd & _)].
  - rewrite app_nil_r. cbn [tl] in IH, W. assert (E : ws = []).
    { apply words_lem in W. rewrite <- W. reflexivity. }
    subst ws. apply tok_last; auto.
  - apply tok_more; auto.
Qed.
