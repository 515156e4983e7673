From Coq Require Import List String Ascii NArith ZArith Bool Lia ZifyBool ZifyNat.
From Verif Require Import CStr CStrLib ParseModel ParseSpec ParseProofB NameProof CgModel CgSpec.
Import ListNotations.

(** ** ".." *)
Lemma comps_nil s : comps s <> [].
Proof. destruct s as [|c s]; cbn [comps]; [discriminate|]. destruct (Ascii.eqb c "/"); [discriminate|]. destruct (comps s); discriminate. Qed.

(** a component is between slashes *)
Lemma comps_head s a l : comps s = a :: l -> exists r, s = a ++ r /\ (r = [] \/ exists r', r = "/"%char :: r').
Proof.
  revert a l. induction s as [|c s IH]; intros a l H; cbn [comps] in H.
  - inversion H. exists []. auto.
  - destruct (Ascii.eqb c "/") eqn:E.
    + apply Ascii.eqb_eq in E. subst c. inversion H. subst. exists ("/"%char :: s). split; [reflexivity|right; eauto].
    + destruct (comps s) as [|a' l'] eqn:C; [destruct (comps_nil s C)|]. inversion H. subst.
      destruct (IH _ _ eq_refl) as [r [-> R]]. exists r. split; [reflexivity|exact R].
Qed.
Lemma comps_tl s x : In x (tl (comps s)) -> exists a b, s = a ++ "/"%char :: x ++ b.
Proof.
  induction s as [|c s IH]; intros H; cbn [comps tl] in H; [destruct H|].
  destruct (Ascii.eqb c "/") eqn:E.
  - apply Ascii.eqb_eq in E. subst c. cbn [tl] in H.
    destruct (comps s) as [|a' l'] eqn:C; [destruct H|]. destruct H as [<-|H].
    + destruct (comps_head _ _ _ C) as [r [-> _]]. exists [], r. reflexivity.
    + destruct (IH H) as [a [b ->]]. exists ("/"%char :: a), b. reflexivity.
  - destruct (comps s) as [|a' l'] eqn:C; [destruct (comps_nil s C)|]. cbn [tl] in *.
    destruct (IH H) as [a [b ->]]. exists (c :: a), b. reflexivity.
Qed.
Lemma comps_in s x : In x (comps s) -> (exists b, s = x ++ b) \/ exists a b, s = a ++ "/"%char :: x ++ b.
Proof.
  intros H. destruct (comps s) as [|a l] eqn:C; [destruct H|]. destruct H as [<-|H].
  - left. destruct (comps_head _ _ _ C) as [r [-> _]]. eauto.
  - right. apply comps_tl. rewrite C. exact H.
Qed.

Definition ends_slash (c : cstr) : Prop := exists a, c = a ++ ["/"%char].
(** a text cut at a character into two *)
Lemma app_cases (a b c d : cstr) (x : ascii) : a ++ b = c ++ x :: d -> (exists e, a = c ++ x :: e /\ d = e ++ b) \/ (exists e, c = a ++ e /\ b = e ++ x :: d).
Proof.
  revert c. induction a as [|y a IH]; intros c H.
  - right. exists c. auto.
  - destruct c as [|z c]; cbn [app] in H; inversion H; subst.
    + left. exists a. auto.
    + destruct (IH _ H2) as [[e [-> ->]]|[e [-> ->]]]; [left|right]; exists e; auto.
Qed.
Lemma no_dotdot c p : absent #".." c -> absent #".." p -> ~ In "."%char c -> c <> [] -> ~ ends_slash c -> ~ dotdot (c ++ #"." ++ p).
Proof.
  intros Ac Ap Nc Hc Hs H. apply comps_in in H. destruct H as [[b H]|[a [b H]]].
  - destruct c as [|x c]; [easy|]. cbn in H. inversion H. subst. apply Nc. left. reflexivity.
  - apply app_cases in H. destruct H as [[e [-> H]]|[e [-> H]]].
    + destruct e as [|y e]; [apply Hs; exists a; reflexivity|]. cbn in H. inversion H. subst. apply Nc. apply in_or_app. right. right. left. reflexivity.
    + destruct e as [|y e]; [cbn in H; inversion H|]. cbn in H. inversion H. subst.
      apply (Ap (e ++ ["/"%char]) b). rewrite <- app_assoc. reflexivity.
Qed.

(** ** Settings *)
Lemma has_absent p s : match strstr p s with Some _ => true | None => false end = false -> absent p s.
Proof. destruct (strstr p s) eqn:E; [discriminate|]. intros _. apply strstr_none, E. Qed.
Lemma cgset_some path item f v : cgset path item = Some (f, v) ->
  exists c p, f = strlcpy 256 (path ++ #"/" ++ c ++ #"." ++ p) /\ absent #".." c /\ absent #".." p /\ ~ In "."%char c /\
    (exists w, item = c ++ #"." ++ p ++ #":" ++ w \/ c = #"memory" /\ item = #"mem." ++ p ++ #":" ++ w).
Proof.
  unfold cgset. intros H. destruct (if starts #"mem." item then _ else _) as [[c p0]|] eqn:E; [|discriminate].
  destruct (strchr ":" p0) as [[p w]|] eqn:Ep; [|discriminate].
  destruct (unquote w) as [w'|] eqn:Ew; [|discriminate].
  destruct (_ || _) eqn:Ed; [discriminate|]. apply orb_false_iff in Ed as [Ec Epp]. apply has_absent in Ec, Epp.
  inversion H. subst f w'. exists c, p. split; [reflexivity|]. split; [exact Ec|]. split; [exact Epp|].
  apply strchr_some in Ep as [-> _]. destruct (starts #"mem." item) eqn:Es.
  - assert (Q : skipn 4 item = p ++ ":"%char :: w) by congruence. assert (C : c = #"memory") by congruence. clear E. subst c.
    apply starts_skipn in Es. change (List.length #"mem.") with 4%nat in Es. split.
    + intros I. repeat (destruct I as [I|I]; [discriminate|]). destruct I.
    + exists w. right. split; [reflexivity|]. rewrite Es at 1. rewrite Q. reflexivity.
  - apply strchr_some in E as [-> N]. split; [exact N|]. exists w. left. reflexivity.
Qed.
Lemma strtoks_sub s t : In t (strtoks #"," s) -> exists a b, s = a ++ t ++ b.
Proof.
  pose proof (strtoks_tokens #"," s) as H. revert H. generalize (strtoks #"," s). intros ts H. revert t.
  induction H as [s H|a w Ha Hw Hf|a w d s ws Ha Hw Hf Hd H IH]; intros t I.
  - destruct I.
  - destruct I as [<-|[]]. exists a, []. rewrite app_nil_r. reflexivity.
  - destruct I as [<-|I].
    + exists a, (d :: s). reflexivity.
    + destruct (IH _ I) as [x [y ->]]. exists (a ++ w ++ d :: x), y. rewrite <- !app_assoc. reflexivity.
Qed.
Lemma settings_in path cfg f v : In (f, v) (settings path cfg) -> exists item, In item (strtoks #"," cfg) /\ cgset path item = Some (f, v).
Proof.
  unfold settings. intros H. apply in_flat_map in H as [item [I H]]. exists item. split; [exact I|].
  destruct (cgset path item) as [[f' v']|] eqn:E; [|destruct H]. destruct H as [H|[]]. inversion H. reflexivity.
Qed.
Lemma inside path cfg f v : In (f, v) (settings path cfg) ->
  exists c p, f = strlcpy 256 (path ++ #"/" ++ c ++ #"." ++ p) /\
    (c <> [] -> ~ (exists a, c = a ++ ["/"%char]) -> ~ dotdot (c ++ #"." ++ p)).
Proof.
  intros H. apply settings_in in H as [item [_ H]]. apply cgset_some in H as [c [p [-> [Ac [Ap [N _]]]]]].
  exists c, p. split; [reflexivity|]. intros Hc Hs. apply no_dotdot; assumption.
Qed.

Lemma none_of_in (bad s : cstr) (c : ascii) : none_of bad s -> In c bad -> ~ In c s.
Proof. intros H B I. exact (H c I B). Qed.
Lemma no_dot_absent c : ~ In "."%char c -> absent #".." c.
Proof. intros H a b ->. apply H. apply in_or_app. right. left. reflexivity. Qed.
Lemma unquote_plain s : match s with [] => True | c :: _ => c <> "034"%char /\ c <> "'"%char end -> unquote s = Some s.
Proof.
  destruct s as [|c s]; [reflexivity|]. intros [H1 H2]. unfold unquote, isquote.
  destruct (ch_eqb c "'") eqn:E1; [apply ch_eqb_eq in E1; contradiction|].
  destruct (ch_eqb c "034") eqn:E2; [apply ch_eqb_eq in E2; contradiction|]. reflexivity.
Qed.
Lemma absent_strstr p s : absent p s -> match strstr p s with Some _ => true | None => false end = false.
Proof. intros H. rewrite (strstr_absent _ _ H). reflexivity. Qed.
Lemma mem_dot c x : ~ In "."%char c -> starts #"mem." (c ++ "."%char :: x) = str_eqb c #"mem".
Proof.
  intros N. destruct (str_eqb c #"mem") eqn:E.
  - apply str_eqb_eq in E. subst c. reflexivity.
  - destruct (starts #"mem." _) eqn:S; [|reflexivity]. apply starts_iff in S as [r S].
    change (#"mem." ++ r) with (#"mem" ++ "."%char :: r) in S.
    assert (A : strchr "." (c ++ "."%char :: x) = Some (c, x)) by (apply strchr_some; auto).
    assert (B : strchr "." (#"mem" ++ "."%char :: r) = Some (#"mem", r)).
    { apply strchr_some. split; [reflexivity|]. intros I. repeat (destruct I as [I|I]; [discriminate|]). destruct I. }
    rewrite S, B in A. inversion A. subst c. rewrite str_eqb_refl in E. discriminate.
Qed.
Lemma cgset_good path s : good_setting s -> (List.length (setting_file path s) < 256)%nat ->
  cgset path (setting_text s) = Some (setting_file path s, s_val s).
Proof.
  intros [Hc [Nc [Np [Dp [Nv Qv]]]]] Hl. unfold cgset, setting_text.
  change (s_ctrl s ++ #"." ++ s_prop s ++ #":" ++ s_val s) with (s_ctrl s ++ "."%char :: s_prop s ++ ":"%char :: s_val s).
  assert (Nd : ~ In "."%char (s_ctrl s)) by (apply (none_of_in _ _ _ Nc); left; reflexivity).
  assert (Nk : ~ In ":"%char (s_prop s)) by (apply (none_of_in _ _ _ Np); right; left; reflexivity).
  assert (Ek : strchr ":" (s_prop s ++ ":"%char :: s_val s) = Some (s_prop s, s_val s)) by (apply strchr_some; auto).
  rewrite mem_dot by exact Nd. unfold setting_file in *. destruct (str_eqb (s_ctrl s) #"mem") eqn:E.
  - apply str_eqb_eq in E. rewrite E. change (skipn 4 (#"mem" ++ "."%char :: s_prop s ++ ":"%char :: s_val s)) with (s_prop s ++ ":"%char :: s_val s).
    rewrite Ek, unquote_plain by exact Qv. rewrite (absent_strstr _ (s_prop s)) by exact Dp.
    change (match strstr #".." #"memory" with Some _ => true | None => false end) with false. cbn [orb].
    rewrite strlcpy_id by exact Hl. reflexivity.
  - replace (strchr "." (s_ctrl s ++ "."%char :: s_prop s ++ ":"%char :: s_val s)) with (Some (s_ctrl s, s_prop s ++ ":"%char :: s_val s)) by (symmetry; apply strchr_some; auto).
    rewrite Ek, unquote_plain by exact Qv. rewrite !absent_strstr by (exact Dp || apply no_dot_absent, Nd). cbn [orb].
    rewrite strlcpy_id by exact Hl. reflexivity.
Qed.
Lemma written path l : Forall good_setting l -> Forall (fun s => (List.length (setting_file path s) < 256)%nat) l ->
  settings path (settings_text l) = map (fun s => (setting_file path s, s_val s)) l.
Proof.
  intros G L. unfold settings, settings_text. rewrite strtoks_join.
  - induction G as [|s l Gs G IH]; [reflexivity|]. inversion L. subst. cbn [map flat_map]. rewrite cgset_good by assumption.
    rewrite IH by assumption. reflexivity.
  - apply Forall_forall. intros t I. apply in_map_iff in I as [s [<- I]]. rewrite Forall_forall in G. destruct (G _ I) as [Hc [Nc [Np [Dp [Nv Qv]]]]]. split.
    + unfold setting_text. destruct (s_ctrl s); [easy|discriminate].
    + apply Forall_forall. intros c I2 J. destruct J as [<-|[]]. unfold setting_text in I2.
      repeat (apply in_app_or in I2 as [I2|I2]).
      * revert I2. apply (none_of_in _ _ _ Nc). cbn. auto.
      * destruct I2 as [I2|[]]. discriminate.
      * revert I2. apply (none_of_in _ _ _ Np). cbn. auto.
      * destruct I2 as [I2|[]]. discriminate.
      * revert I2. apply (none_of_in _ _ _ Nv). cbn. auto.
Qed.

(** ** Deciding what a setting is, for the examples *)
Lemma none_of_b bad s : forallb (fun c => negb (mem c bad)) s = true -> none_of bad s.
Proof. intros H c I. rewrite forallb_forall in H. specialize (H c I). apply negb_true_iff in H. apply mem_false, H. Qed.
Lemma good_b s : negb (str_eqb (s_ctrl s) []) = true -> forallb (fun c => negb (mem c #".,:/")) (s_ctrl s) = true ->
  forallb (fun c => negb (mem c #",:/")) (s_prop s) = true -> match strstr #".." (s_prop s) with Some _ => true | None => false end = false ->
  forallb (fun c => negb (mem c #",")) (s_val s) = true -> match s_val s with [] => true | c :: _ => negb (ch_eqb c "034") && negb (ch_eqb c "'") end = true ->
  good_setting s.
Proof.
  intros H1 H2 H3 H4 H5 H6. split; [intros E; rewrite E in H1; discriminate|]. split; [apply none_of_b, H2|]. split; [apply none_of_b, H3|].
  split; [apply has_absent, H4|]. split; [apply none_of_b, H5|]. destruct (s_val s) as [|c r]; [exact I|].
  apply andb_true_iff in H6 as [A B]. split; intros ->; discriminate.
Qed.
