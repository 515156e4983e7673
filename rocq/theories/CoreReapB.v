(** C35: the lemmas of CoreReap in the words of CoreSpec. *)
From Coq Require Import List String Ascii ZArith NArith Bool Lia Arith.
From Verif Require Import CondModel CoreTypes CoreModel CoreMicro CoreCalm CoreSpec CoreProof CoreReap.
Import ListNotations.
Local Open Scope Z_scope.

Theorem reap_unknown_lem m p st w : ~ In p (k_procs (wc w)) -> on_event m (EvReap p st) w = Some (tt, w).
Proof.
  intros Np. unfold on_event, bind at 1, getc at 1. destruct (k_down (wc w)); [reflexivity|].
  cbn [handle]. unfold bind at 1, getc at 1.
  destruct (memZ p (k_procs (wc w))) eqn:Em; [|reflexivity]. exfalso. apply Np, alive_in, Em.
Qed.
Lemma again_since p base l : again p base l -> since base l (reused p).
Proof. intros (new & c & k & f & E & H). exists new, c, (EFork k f p). split; [exact E|]. split; [exact H|exists k, f; reflexivity]. Qed.
Theorem reap_once_lem evs n before p st after cfgl cmdl w1 w2 : tame evs ->
  evs = before ++ EvReap p st :: after -> history n before cfgl cmdl w1 -> ~ over w1 ->
  on_event n (EvReap p st) w1 = Some (tt, w2) -> 1 < p ->
  (forall s t, In s (k_svcs (wc w1)) -> In t (k_svcs (wc w1)) -> s_pid s = p -> s_pid t = p -> s = t) /\
  (~ since (wl w1) (wl w2) (reused p) ->
     (forall s, In s (k_svcs (wc w2)) -> s_pid s <> p) /\
     forall m st', on_event m (EvReap p st') w2 = Some (tt, w2)).
Proof.
  intros H1 H2 H3 H4 H5 H6. destruct (reap_owner_lem _ _ _ _ _ _ _ _ _ _ H1 H2 H3 H4 H5 H6) as [A B].
  split; [exact A|]. intros H. apply B. intros X. apply H, again_since, X.
Qed.
Lemma refork_replaced k x : refork k x = true -> replaced k x.
Proof.
  destruct x; try discriminate; cbn.
  - intros H. apply Nat.eqb_eq in H. subst. left. eauto.
  - intros H. apply Nat.eqb_eq in H. subst. right. left. eauto.
  - destruct s; try discriminate. intros H. apply Nat.eqb_eq in H. subst. right. right. eauto.
Qed.
Theorem reap_others_lem2 evs n before p st after cfgl cmdl w1 w2 s1 s2 : tame evs ->
  evs = before ++ EvReap p st :: after -> history n before cfgl cmdl w1 ->
  on_event n (EvReap p st) w1 = Some (tt, w2) ->
  In s1 (k_svcs (wc w1)) -> In s2 (k_svcs (wc w2)) -> s_key s2 = s_key s1 ->
  1 < s_pid s1 -> s_pid s1 <> p ->
  s_pid s2 = s_pid s1 \/ since (wl w1) (wl w2) (replaced (s_key s1)).
Proof.
  intros. destruct (reap_others_lem evs n before p st after cfgl cmdl w1 w2 s1 s2) as [E|(new & c & x & E & I & R)]; auto.
  right. exists new, c, x. split; [exact E|]. split; [exact I|apply refork_replaced, R].
Qed.
