From Coq Require Import List String Ascii NArith ZArith Bool Lia.
From Coq Require Import ZifyBool ZifyNat ZifyN.
From Verif Require Import CStr ParseSpec ParseModel CStrLib TmpModel TmpSpec TmpProof.
Import ListNotations.
Local Open Scope Z_scope.

(** ** The words of a line *)

Definition bl : cstr := ["009"%char; " "%char].
Lemma bl_iff c : In c bl <-> blank c.
Proof. unfold bl, blank. cbn. split; intros; intuition congruence. Qed.
Lemma all_bl s : Forall blank s -> Forall (fun c => In c bl) s.
Proof. apply Forall_impl. intros c. apply bl_iff. Qed.
Lemma none_bl s : Forall (fun c => ~ blank c) s -> Forall (fun c => ~ In c bl) s.
Proof. apply Forall_impl. intros c H X. apply H, bl_iff, X. Qed.

Lemma ends_tail a s : ends_in_word (a ++ s) -> s = [] \/ ends_in_word s.
Proof.
  intros (y & w & E & N). destruct (rev s) as [|c r] eqn:Er; apply (f_equal (@rev ascii)) in Er; rewrite rev_involutive in Er; cbn in Er.
  - left. exact Er.
  - right. subst s. rewrite app_assoc in E. apply app_inj_tail in E. destruct E as [_ ->]. exists (rev r), w. auto.
Qed.

(** [r] is what is left when the words [ts] are still to come *)
Definition left_with (r : option cstr) (ts : list cstr) : Prop :=
  match r with
  | Some s => tokens blank s ts
  | None => ts = []
  end.
Lemma tok_word s w ws : tokens blank s (w :: ws) -> exists s', tok (Some s) = (Some w, Some s') /\ tokens blank s' ws /\
  (ends_in_word s -> s' = [] \/ ends_in_word s').
Proof.
  intros H. inversion H as [|a w' Ha Hw Hf E1 E2|a w' d s' ws' Ha Hw Hf Hd Ht E1 E2]; subst.
  - exists []. unfold tok. fold bl. replace (a ++ w) with (a ++ w ++ []) by (rewrite app_nil_r; reflexivity).
    rewrite strtok_app by (auto using all_bl, none_bl). split; [reflexivity|]. split; [apply tok_end; constructor|]. auto.
  - exists s'. unfold tok. fold bl. rewrite strtok_app; [|auto using all_bl|auto|auto using none_bl|right; exists d, s'; split; [reflexivity|apply bl_iff, Hd]].
    split; [reflexivity|]. split; [exact Ht|].
    intros E. replace (a ++ w ++ d :: s') with ((a ++ w ++ [d]) ++ s') in E by (rewrite <- !app_assoc; reflexivity).
    apply ends_tail in E. exact E.
Qed.
Lemma tok_nil s : tokens blank s [] -> tok (Some s) = (None, None).
Proof.
  intros H. inversion H; subst. unfold tok. fold bl.
  rewrite (proj2 (strtok_none bl s)) by (apply all_bl; assumption). reflexivity.
Qed.
Lemma tok_none : tok None = (None, None).
Proof. reflexivity. Qed.

(** the words [ts] come, then one blank, then [a] *)
Lemma tok_arg s w ws d a : tokens blank s (w :: ws) -> ends_in_word s -> blank d ->
  ws = [] /\ tok (Some (s ++ d :: a)) = (Some w, Some a) \/
  exists s', tok (Some (s ++ d :: a)) = (Some w, Some (s' ++ d :: a)) /\ tokens blank s' ws /\ ends_in_word s' /\ ws <> [].
Proof.
  intros H E Hd0. inversion H as [|x w' Ha Hw Hf E1 E2|x w' e s' ws' Ha Hw Hf Hd Ht E1 E2]; subst.
  - left. split; [reflexivity|]. unfold tok. fold bl. rewrite <- app_assoc.
    rewrite strtok_app; [reflexivity|auto using all_bl|auto|auto using none_bl|].
    right. exists d, a. split; [reflexivity|apply bl_iff, Hd0].
  - replace (x ++ w ++ e :: s') with ((x ++ w ++ [e]) ++ s') in E by (rewrite <- !app_assoc; reflexivity).
    destruct (ends_tail _ _ E) as [->|E'].
    + exfalso. rewrite app_nil_r in E. destruct E as (y & v & E & N). rewrite app_assoc in E. apply app_inj_tail in E.
      destruct E as [_ ->]. contradiction.
    + right. exists s'. split; [|split; [exact Ht|split; [exact E'|]]].
      * unfold tok. fold bl. replace ((x ++ w ++ e :: s') ++ d :: a) with (x ++ w ++ e :: (s' ++ d :: a)) by (rewrite <- !app_assoc; reflexivity).
        rewrite strtok_app; [reflexivity|auto using all_bl|auto|auto using none_bl|].
        right. exists e, (s' ++ d :: a). split; [reflexivity|apply bl_iff, Hd].
      * intros ->. inversion Ht; subst. destruct E' as (y & v & -> & N).
        apply N. rewrite Forall_app in H0. destruct H0 as [_ H0]. inversion H0; assumption.
Qed.

Definition mode_tok (m : option cstr) : Z :=
  match m with Some m => match strtoul8 m with Some v => v mod 2 ^ 32 | None => 0 end | None => 0 end.
Definition entry_of (ts : list cstr) (arg : option cstr) : option entry :=
  match nth_error ts 0, nth_error ts 1 with
  | Some t, Some p =>
      if mem "%" p then None else
      Some {| e_type := t; e_path := p; e_mode := mode_tok (nth_error ts 2);
              e_user := name_or_root (nth_error ts 3); e_group := name_or_root (nth_error ts 4); e_arg := arg |}
  | _, _ => None
  end.

Lemma newline_arg c a : ~ In "010"%char (c :: a) -> strtok ["010"%char] (c :: a) = Some (c :: a, []).
Proof.
  intros H. pose proof (strtok_app ["010"%char] [] (c :: a) []) as X. cbn [app] in X. rewrite app_nil_r in X.
  apply X; [constructor|discriminate| |auto].
  apply Forall_forall. intros x Hx [<-|[]]. contradiction.
Qed.

Theorem fields_of line ts sep arg : laid_out line ts sep arg -> (List.length sep <= 1)%nat ->
  fields line = entry_of ts arg.
Proof.
  intros H L. unfold fields, entry_of. inversion H as [line' ts' Ht Hl He|x ts' sep' c a Ht Hl He Hs Hb Hc Hn]; subst.
  - destruct ts as [|t0 ts]; [rewrite (tok_nil _ Ht); reflexivity|].
    destruct (tok_word _ _ _ Ht) as (s1 & -> & H1 & K1).
    destruct ts as [|t1 ts]; [rewrite (tok_nil _ H1); reflexivity|].
    destruct (tok_word _ _ _ H1) as (s2 & -> & H2 & K2). cbn [nth_error].
    destruct (mem "%" t1); [reflexivity|].
    destruct ts as [|t2 ts]; [rewrite (tok_nil _ H2); reflexivity|].
    destruct (tok_word _ _ _ H2) as (s3 & -> & H3 & K3).
    destruct ts as [|t3 ts]; [rewrite (tok_nil _ H3); reflexivity|].
    destruct (tok_word _ _ _ H3) as (s4 & -> & H4 & K4).
    destruct ts as [|t4 ts]; [rewrite (tok_nil _ H4); reflexivity|].
    destruct (tok_word _ _ _ H4) as (s5 & -> & H5 & K5).
    destruct ts as [|t5 ts]; [rewrite (tok_nil _ H5); reflexivity|].
    destruct (tok_word _ _ _ H5) as (s6 & -> & H6 & K6).
    destruct ts as [|t6 ts]; [|cbn in Hl; lia].
    assert (X : s6 = []).
    { specialize (He eq_refl). inversion H6; subst.
      assert (Y : s6 = [] \/ ends_in_word s6).
      { assert (NE : forall s w ws, tokens blank s (w :: ws) -> s <> []).
        { intros s w ws Q ->. inversion Q as [|u v ? ? ? Q1|u v ? ? ? ? ? ? ? ? Q1]; destruct u; try discriminate; destruct v; try discriminate; congruence. }
        destruct (K1 He) as [->|E1]; [exfalso; eapply NE; [exact H1|reflexivity]|].
        destruct (K2 E1) as [->|E2]; [exfalso; eapply NE; [exact H2|reflexivity]|].
        destruct (K3 E2) as [->|E3]; [exfalso; eapply NE; [exact H3|reflexivity]|].
        destruct (K4 E3) as [->|E4]; [exfalso; eapply NE; [exact H4|reflexivity]|].
        destruct (K5 E4) as [->|E5]; [exfalso; eapply NE; [exact H5|reflexivity]|]. exact (K6 E5). }
      destruct Y as [Y|(y & v & -> & N)]; [exact Y|]. exfalso. apply N.
      match goal with F : Forall blank (y ++ [v]) |- _ => rewrite Forall_app in F; destruct F as [_ F]; inversion F; assumption end. }
    subst s6. reflexivity.
  - destruct sep as [|d sep]; [congruence|]. destruct sep; [|cbn in L; lia]. cbn [app].
    inversion Hb as [|? ? Hd _]; subst.
    destruct ts as [|t0 [|t1 [|t2 [|t3 [|t4 [|t5 [|]]]]]]]; try discriminate Hl.
    destruct (tok_arg _ _ _ d (c :: a) Ht He Hd) as [[X _]|(s1 & -> & H1 & E1 & _)]; [discriminate X|].
    destruct (tok_arg _ _ _ d (c :: a) H1 E1 Hd) as [[X _]|(s2 & -> & H2 & E2 & _)]; [discriminate X|]. cbn [nth_error].
    destruct (mem "%" t1); [reflexivity|].
    destruct (tok_arg _ _ _ d (c :: a) H2 E2 Hd) as [[X _]|(s3 & -> & H3 & E3 & _)]; [discriminate X|].
    destruct (tok_arg _ _ _ d (c :: a) H3 E3 Hd) as [[X _]|(s4 & -> & H4 & E4 & _)]; [discriminate X|].
    destruct (tok_arg _ _ _ d (c :: a) H4 E4 Hd) as [[X _]|(s5 & -> & H5 & E5 & _)]; [discriminate X|].
    destruct (tok_arg _ _ _ d (c :: a) H5 E5 Hd) as [[_ ->]|(s6 & _ & _ & _ & X)]; [|congruence].
    rewrite (newline_arg _ _ Hn). reflexivity.
Qed.

(** ** Numbers *)

Lemma octal_app acc s c v : Forall (fun x => exists w, octd x = Some w) s -> octd c = Some v ->
  octal_ acc (s ++ [c]) = (8 * octal_ acc s + v)%N.
Proof.
  intros F H. revert acc. induction F as [|x s [w Hx] _ IH]; intros acc; cbn [app octal_].
  - rewrite H. reflexivity.
  - rewrite Hx. apply IH.
Qed.
Lemma octal_value t m : octal t m -> t <> [] /\ Forall (fun x => exists w, octd x = Some w) t /\ Z.of_N (octal_ 0 t) = m.
Proof.
  induction 1 as [c v H|s c n v _ (A & B & C) H].
  - apply octd_iff in H. split; [discriminate|]. split; [repeat constructor; eauto|]. cbn [octal_]. rewrite H. lia.
  - apply octd_iff in H. split; [destruct s; discriminate|].
    split; [apply Forall_app; split; [exact B|repeat constructor; eauto]|]. rewrite (octal_app _ _ _ _ B H). lia.
Qed.
Lemma octd_plain c v : octd c = Some v -> isspace c = false /\ ch_eqb c "+" = false /\ ch_eqb c "-" = false.
Proof.
  intros H. apply octd_iff in H. destruct H as [A ->].
  split; [unfold isspace; rewrite code_of by lia; lia|].
  split; apply ch_eqb_neq; intros X; apply (f_equal code) in X; rewrite code_of in X by lia;
    [change (code "+") with 43%N in X|change (code "-") with 45%N in X]; lia.
Qed.
Lemma strtoul_octal t m : octal t m -> 0 <= m < 2 ^ 64 -> strtoul8 t = Some m.
Proof.
  intros H L. destruct (octal_value _ _ H) as (A & B & C). destruct t as [|c t]; [congruence|].
  inversion B as [|? ? [v Hv] _]; subst. destruct (octd_plain _ _ Hv) as (S1 & S2 & S3).
  unfold strtoul8. cbn [skip]. rewrite S1, S2, S3, Hv. set (n := octal_ 0 (c :: t)) in *. clearbody n.
  replace (n <? 2 ^ 64)%N with true by lia. reflexivity.
Qed.

Lemma mode_field ts mode : mode_of ts mode -> mode_tok (nth_error ts 2) = or_mode mode 0 /\ (forall m, mode = Some m -> m <> 0).
Proof.
  intros [[H|H]|t m H O L]; rewrite H.
  - split; [reflexivity|discriminate].
  - split; [reflexivity|discriminate].
  - cbn [mode_tok or_mode]. rewrite (strtoul_octal _ _ O) by lia.
    split; [apply Z.mod_small; lia|intros ? [= <-]; lia].
Qed.
Lemma name_field ts i u : name_of ts i u -> name_or_root (nth_error ts i) = u.
Proof.
  intros [[H|H]|t H N]; rewrite H; [reflexivity|reflexivity|]. cbn [name_or_root].
  destruct (str_eqb t #"-") eqn:E; [|reflexivity]. apply str_eqb_eq in E. contradiction.
Qed.

Record reads (e : entry) (ty : ascii) (pl : bool) (path : cstr) (mode : option Z) (user group : cstr) (arg : option cstr) : Prop := {
  rd_type : exists mods, e_type e = ty :: mods;
  rd_plus : plus e = pl;
  rd_path : e_path e = path;
  rd_mode : forall d, mode_or d e = or_mode mode d;
  rd_user : e_user e = user;
  rd_group : e_group e = group;
  rd_arg : e_arg e = arg }.

Lemma says_reads line ty pl path mode user group arg : says line ty pl path mode user group arg ->
  exists e, fields line = Some e /\ reads e ty pl path mode user group arg.
Proof.
  intros [(ts & sep & Hl & Hs & (mods & H0 & Hp) & H1 & Hm & Hu & Hg) Hpath].
  rewrite (fields_of _ _ _ _ Hl Hs). unfold entry_of. rewrite H0, H1.
  assert (X : mem "%" path = false) by (apply mem_false; exact Hpath). rewrite X.
  eexists. split; [reflexivity|]. destruct (mode_field _ _ Hm) as [M1 M2].
  constructor; cbn [e_type e_path e_user e_group e_arg]; auto using name_field.
  - eauto.
  - unfold plus. cbn [e_type]. destruct mods as [|c r].
    + destruct pl; [|reflexivity]. destruct (proj1 Hp eq_refl) as (m & Y). discriminate.
    + destruct (ch_eqb c "+") eqn:E.
      * apply ch_eqb_eq in E. subst c. destruct pl; [reflexivity|]. exfalso.
        assert (false = true) by (apply Hp; eauto). discriminate.
      * destruct pl; [|reflexivity]. destruct (proj1 Hp eq_refl) as (m & Y). injection Y as -> ->. discriminate E.
  - intros d. unfold mode_or. cbn [e_mode]. rewrite M1. destruct mode as [m|]; cbn [or_mode].
    + specialize (M2 m eq_refl). replace (m =? 0) with false by lia. reflexivity.
    + reflexivity.
Qed.
