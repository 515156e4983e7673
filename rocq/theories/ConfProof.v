(** Proofs about the choice of configuration files. *)
From Coq Require Import List String Ascii ZArith Bool Lia Sorted FinFun.
From Coq Require Import ZifyBool ZifyNat.
From Verif Require Import CondProof NetProof DevProof ConfModel ConfSpec.
Import ListNotations.
Local Open Scope string_scope.

Lemma basenm_app best d n : slashes n = 0 -> basenm_from best (d ++ "/" ++ n) = n.
Proof.
  intros N. revert best. induction d as [|c d IH]; intros best.
  - cbn. clear best. assert (X : forall b, basenm_from b n = b).
    { induction n as [|c n IH]; intros b; [reflexivity|]. cbn in *. destruct (Ascii.eqb c "/"); [discriminate N|]. apply IH. exact N. }
    apply X.
  - cbn [append basenm_from]. apply IH.
Qed.
Lemma no_slash n : ~ In "/"%char (list_ascii_of_string n) -> slashes n = 0.
Proof.
  induction n as [|c n IH]; [reflexivity|]. cbn. intros H. rewrite IH by tauto. destruct (Ascii.eqb c "/") eqn:E; [|reflexivity].
  apply Ascii.eqb_eq in E. subst. tauto.
Qed.
Lemma basenm_path D x : conf_name (snd x) -> basenm (path_of D x) = snd x.
Proof. intros [N _]. unfold basenm, path_of. apply basenm_app, no_slash, N. Qed.
Lemma ends_conf_ok D x : conf_name (snd x) -> ends_conf (path_of D x) = true.
Proof.
  intros [_ (c & b & _ & E)]. unfold ends_conf, path_of. rewrite E. set (a := dir_of D (fst x) ++ "/").
  assert (X : dir_of D (fst x) ++ "/" ++ String c (b ++ ".conf") = (a ++ String c b) ++ ".conf").
  { unfold a. rewrite !str_app_assoc. reflexivity. }
  rewrite X. set (p := a ++ String c b). assert (L : 0 < String.length p) by (unfold p; rewrite app_length; cbn; lia).
  cbv zeta. rewrite app_length. cbn [String.length].
  assert (Nat.ltb (String.length p + 5) 6 = false) as -> by (apply Nat.ltb_ge; lia).
  replace (String.length p + 5 - 5) with (String.length p) by lia. cbn [negb andb].
  assert (S : substring (String.length p) 5 (p ++ ".conf") = ".conf") by (clear; induction p; cbn; auto). rewrite S. reflexivity.
Qed.
Lemma prefix_cases a b c : String.prefix a (b ++ c) = true -> String.prefix a b = true \/ String.prefix b a = true.
Proof.
  revert b. induction a as [|x a IH]; intros b H; [left; apply prefix_app; exists b; reflexivity|].
  destruct b as [|y b]; [right; apply prefix_app; eexists; reflexivity|]. apply prefix_app in H. destruct H as (r & H). cbn in H. inversion H; subst.
  destruct (IH b) as [X|X]; [apply prefix_app; eauto| |].
  - left. apply prefix_app in X. destruct X as (t & ->). apply prefix_app. exists t. reflexivity.
  - right. apply prefix_app in X. destruct X as (t & ->). apply prefix_app. exists t. reflexivity.
Qed.
Lemma user_path D x : apart D -> fst x = Etc \/ fst x = Enabled ->
  String.prefix (syspath D) (path_of D x) = false /\ String.prefix (runpath D) (path_of D x) = false.
Proof.
  intros (A1 & A2 & A3 & A4) P. assert (X : exists t, path_of D x = (rcsd D ++ "/") ++ t).
  { unfold path_of. destruct P as [-> | ->]; cbn [dir_of].
    - exists (snd x). rewrite str_app_assoc. reflexivity.
    - exists ("enabled/" ++ snd x). rewrite !str_app_assoc. reflexivity. }
  destruct X as (t & ->). split.
  - destruct (String.prefix (syspath D) ((rcsd D ++ "/") ++ t)) eqn:E; [|reflexivity]. apply prefix_cases in E. destruct E; congruence.
  - destruct (String.prefix (runpath D) ((rcsd D ++ "/") ++ t)) eqn:E; [|reflexivity]. apply prefix_cases in E. destruct E; congruence.
Qed.

Definition rank (p : place) : nat := match p with Sys => 0 | Run => 1 | Etc => 2 | Enabled => 3 end.
Definition le_place (a b : place * string) : Prop := rank (fst a) <= rank (fst b).
Lemma sorted_map p l : StronglySorted le_place (map (pair p) l).
Proof.
  induction l as [|n l IH]; [constructor|]. cbn. constructor; [exact IH|]. apply Forall_forall. intros y Hy.
  apply in_map_iff in Hy. destruct Hy as (m & <- & _). unfold le_place. cbn. lia.
Qed.
Lemma sorted_app a b : StronglySorted le_place a -> StronglySorted le_place b -> (forall x y, In x a -> In y b -> le_place x y) ->
  StronglySorted le_place (a ++ b).
Proof.
  intros A B H. induction A as [|x a A IH F]; [exact B|]. cbn. constructor.
  - apply IH. intros; apply H; [right|]; assumption.
  - apply Forall_app. split; [exact F|]. apply Forall_forall. intros y Hy. apply H; [left; reflexivity|exact Hy].
Qed.
Lemma in_pair p l (x : place * string) : In x (map (pair p) l) <-> fst x = p /\ In (snd x) l.
Proof.
  rewrite in_map_iff. split; [intros (n & <- & H); auto|]. intros [H1 H2]. exists (snd x). split; [destruct x; cbn in *; subst; reflexivity|exact H2].
Qed.
Lemma in_entries sys run etc en x : In x (entries sys run etc en) <->
  In (snd x) (match fst x with Sys => sys | Run => run | Etc => etc | Enabled => en end).
Proof.
  unfold entries. rewrite !in_app_iff, !in_pair. destruct x as [[] n]; cbn; intuition discriminate.
Qed.
Lemma entries_sorted sys run etc en : StronglySorted le_place (entries sys run etc en).
Proof.
  unfold entries.
  apply sorted_app; [apply sorted_map|apply sorted_app; [apply sorted_map|apply sorted_app; [apply sorted_map|apply sorted_map|]|]|];
    intros x y Hx Hy; rewrite ?in_app_iff, ?in_pair in *; unfold le_place; destruct x as [[] n], y as [[] m]; cbn in *;
    try lia; exfalso; intuition discriminate.
Qed.
Lemma nodup_map p l : NoDup l -> NoDup (map (@pair place string p) l).
Proof. intros H. apply Injective_map_NoDup; [intros a b E; inversion E; reflexivity|exact H]. Qed.
Lemma entries_nodup sys run etc en : NoDup sys -> NoDup run -> NoDup etc -> NoDup en -> NoDup (entries sys run etc en).
Proof.
  intros A B C D. unfold entries.
  assert (X : forall (a b : list (place * string)), NoDup a -> NoDup b -> (forall x, In x a -> In x b -> False) -> NoDup (a ++ b)).
  { clear. intros a b A B H. induction A as [|x a N A IH]; [exact B|]. cbn. constructor.
    - rewrite in_app_iff. intros [H1|H1]; [exact (N H1)|]. apply (H x); [left; reflexivity|exact H1].
    - apply IH. intros y H1 H2. apply (H y); [right; exact H1|exact H2]. }
  repeat (apply X; [apply nodup_map; assumption| |intros [[] n] H1 H2; rewrite ?in_app_iff, ?in_pair in *; cbn in *; intuition discriminate]).
  apply nodup_map, D.
Qed.
Lemma sorted_before a x b : StronglySorted le_place (a ++ x :: b) -> forall y, In y a -> le_place y x.
Proof.
  induction a as [|z a IH]; intros H y Hy; [destruct Hy|]. cbn in H. inversion H as [|? ? S F]; subst. destruct Hy as [<-|Hy]; [|apply IH; assumption].
  rewrite Forall_forall in F. apply F. apply in_or_app. right. left. reflexivity.
Qed.
Lemma sorted_after a x b : StronglySorted le_place (a ++ x :: b) -> forall y, In y b -> le_place x y.
Proof.
  induction a as [|z a IH]; intros H y Hy; cbn in H; inversion H as [|? ? S F]; subst; [|apply IH; assumption].
  rewrite Forall_forall in F. apply F, Hy.
Qed.

Section One.
Variables (D : dirs) (sys run etc en : list string) (what : string -> found).
Hypothesis HA : apart D.
Hypothesis HS : listing sys. Hypothesis HR : listing run. Hypothesis HE : listing etc. Hypothesis HN : listing en.
Lemma all_names x : In x (entries sys run etc en) -> conf_name (snd x).
Proof.
  intros H. apply in_entries in H. destruct HS as [_ A], HR as [_ B], HE as [_ C], HN as [_ E]. rewrite Forall_forall in *.
  destruct (fst x); auto.
Qed.
Lemma replaced_iff pre x later : entries sys run etc en = (pre ++ x :: later)%list ->
  (replaced D (path_of D x) (map (path_of D) later) = true <-> overridden sys run etc en x).
Proof.
  intros E. pose proof (entries_sorted sys run etc en) as S. rewrite E in S.
  assert (ND : NoDup (pre ++ x :: later)) by (rewrite <- E; apply entries_nodup; [apply HS|apply HR|apply HE|apply HN]).
  assert (NX : conf_name (snd x)) by (apply all_names; rewrite E; apply in_or_app; right; left; reflexivity).
  unfold replaced. rewrite existsb_exists. split.
  - intros (p & Hp & H). apply in_map_iff in Hp. destruct Hp as (y & <- & Hy). apply andb_prop in H. destruct H as [H1 H2].
    assert (IY : In y (entries sys run etc en)) by (rewrite E; apply in_or_app; right; right; exact Hy).
    apply String.eqb_eq in H2. rewrite (basenm_path D x NX), (basenm_path D y (all_names y IY)) in H2.
    pose proof (sorted_after _ _ _ S y Hy) as R. apply in_entries in IY.
    assert (NE : x <> y).
    { intros <-. apply NoDup_remove_2 in ND. apply ND. apply in_or_app. right. exact Hy. }
    unfold overridden. destruct x as [px nx], y as [py ny]; cbn [fst snd] in *. subst nx.
    unfold le_place in R. destruct px, py; cbn [fst rank] in R; try lia; try tauto; try (exfalso; apply NE; reflexivity).
    all: exfalso; match goal with H : context [String.prefix (syspath D) (path_of D (?p, ?m))] |- _ => destruct (user_path D (p, m) HA) as [Y1 Y2]; [auto|]; rewrite Y1, Y2 in H; discriminate H end.
  - intros H. assert (X : exists y, In y (entries sys run etc en) /\ snd y = snd x /\ rank (fst x) < rank (fst y) /\ rank (fst x) < 2).
    { unfold overridden in H. destruct x as [[] n]; cbn [fst snd] in H; [| |contradiction|contradiction].
      - destruct H as [H|[H|H]]; [exists (Run, n)|exists (Etc, n)|exists (Enabled, n)]; (split; [apply in_entries; exact H|cbn; split; [reflexivity|lia]]).
      - destruct H as [H|H]; [exists (Etc, n)|exists (Enabled, n)]; (split; [apply in_entries; exact H|cbn; split; [reflexivity|lia]]). }
    destruct X as (y & Iy & Ey & R & R2). exists (path_of D y). rewrite E in Iy. apply in_app_or in Iy.
    assert (IL : In y later).
    { destruct Iy as [Iy|[<-|Iy]]; [|lia|exact Iy]. pose proof (sorted_before _ _ _ S y Iy) as Q. unfold le_place in Q. lia. }
    split; [apply in_map, IL|].
    assert (Ny : conf_name (snd y)) by (rewrite Ey; exact NX). rewrite (basenm_path D x NX), (basenm_path D y Ny), Ey, String.eqb_refl, andb_true_r.
    unfold path_of. destruct x as [[] n]; cbn [fst snd rank] in *; try lia; cbn [dir_of].
    + apply orb_true_iff. left. apply prefix_app. eexists. reflexivity.
    + apply orb_true_iff. right. apply prefix_app. eexists. reflexivity.
Qed.
Definition reads (x : place * string) : Prop := ~ overridden sys run etc en x /\ what (path_of D x) = AFile.
Lemma conf_read_part pre l : entries sys run etc en = (pre ++ l)%list ->
  exists r, kept reads l r /\ conf_read D what (map (path_of D) l) = map (path_of D) r.
Proof.
  revert pre. induction l as [|x l IH]; intros pre E; [exists []; split; [constructor|reflexivity]|].
  destruct (IH (pre ++ [x])%list) as (r & K & H); [rewrite <- app_assoc; exact E|]. cbn [map conf_read].
  pose proof (replaced_iff pre x l E) as R.
  assert (NX : conf_name (snd x)) by (apply all_names; rewrite E; apply in_or_app; right; left; reflexivity).
  destruct (replaced D (path_of D x) (map (path_of D) l)).
  - exists r. split; [apply kept_no; [intros [X _]; apply X, R; reflexivity|exact K]|exact H].
  - assert (NO : ~ overridden sys run etc en x) by (intros X; apply R in X; discriminate X).
    rewrite (ends_conf_ok D x NX), H. destruct (what (path_of D x)) eqn:W;
      try (exists r; split; [apply kept_no; [intros [_ X]; rewrite W in X; discriminate X|exact K]|reflexivity]).
    exists (x :: r). split; [apply kept_yes; [split; assumption|exact K]|reflexivity].
Qed.
End One.
Lemma glob_entries D sys run etc en : glob_all D sys run etc en = map (path_of D) (entries sys run etc en).
Proof.
  unfold glob_all, entries. rewrite !map_app, !map_map.
  assert (X : map (fun n => rcsd D ++ "/enabled/" ++ n) en = map (fun x => path_of D (Enabled, x)) en).
  { apply map_ext. intros n. unfold path_of. cbn [fst snd dir_of]. rewrite str_app_assoc. reflexivity. }
  rewrite X. reflexivity.
Qed.
Lemma conf_chosen_lem D sys run etc en what : apart D -> listing sys -> listing run -> listing etc -> listing en ->
  exists r, kept (fun x => ~ overridden sys run etc en x /\ what (path_of D x) = AFile) (entries sys run etc en) r /\
    conf_read D what (glob_all D sys run etc en) = map (path_of D) r.
Proof. intros A B C E F. rewrite glob_entries. apply (conf_read_part D sys run etc en what A B C E F []). reflexivity. Qed.
