(** Proofs about kernel parameters. *)
From Coq Require Import List String Ascii NArith Bool Lia.
From Verif Require Import CStr CStrLib SctlModel SctlSpec.
Import ListNotations.

Lemma fits_short f : (N.of_nat (List.length (s_path f)) <= 140)%N -> fits f = true.
Proof. intros H. unfold fits. apply N.leb_le. rewrite app_length. change (List.length prefix) with 19. lia. Qed.
Lemma filter_all {A} (f : A -> bool) l : (forall x, In x l -> f x = true) -> filter f l = l.
Proof. induction l as [|x l IH]; intros H; [reflexivity|]. cbn [filter]. rewrite (H x (or_introl eq_refl)), IH; [reflexivity|intros y Y; apply H; right; exact Y]. Qed.
Lemma setup_all p : short_paths p -> sysctl_setup false p = flat_map s_sets (globbed p).
Proof.
  intros S. unfold sysctl_setup. rewrite filter_all; [reflexivity|]. intros f F. apply fits_short. unfold globbed in F. rewrite !in_app_iff in F.
  destruct F as [F|[F|[F|[F|[F|[F|F]]]]]];
    [apply (S (in_run p))|apply (S (in_etc p))|apply (S (in_local p))|apply (S (in_usr p))|apply (S (in_lib p))|apply (S (in_mnt p))|apply (S (in_conf p))];
    try exact F; cbn [In]; tauto.
Qed.
Lemma value_app old a b k : value old (a ++ b) k = fold_left (fun v s => if str_eqb k (fst s) then Some (snd s) else v) b (value old a k).
Proof. unfold value. apply fold_left_app. Qed.
Lemma fold_none k l : (forall x, ~ In (k, x) l) -> forall v : option cstr, fold_left (fun v s => if str_eqb k (fst s) then Some (snd s) else v) l v = v.
Proof.
  induction l as [|[j w] l IH]; intros H v; [reflexivity|]. cbn [fold_left fst snd].
  destruct (str_eqb k j) eqn:E; [apply str_eqb_eq in E; subst j; exfalso; exact (H w (or_introl eq_refl))|].
  apply IH. intros x X. exact (H x (or_intror X)).
Qed.
Lemma none_flat k l : sets_not l k -> forall x, ~ In (k, x) (flat_map s_sets l).
Proof. intros H x X. apply in_flat_map in X. destruct X as (f & F & X). exact (H f x F X). Qed.
Lemma last_flat old l k v : sets_last l k v -> value old (flat_map s_sets l) k = Some v.
Proof.
  intros (a & b & c & d & f & -> & F & D & B). rewrite flat_map_app. cbn [flat_map]. rewrite F, <- app_assoc. cbn [app].
  rewrite value_app, fold_left_app. cbn [fold_left fst snd]. rewrite str_eqb_refl, fold_left_app, (fold_none k d D).
  apply fold_none. apply none_flat. exact B.
Qed.
Lemma last_app a b k v : sets_last b k v -> sets_last (a ++ b) k v.
Proof. intros (x & y & c & d & f & -> & R). exists (a ++ x), y, c, d, f. rewrite <- app_assoc. split; [reflexivity|exact R]. Qed.
Lemma last_before a b k v : sets_last a k v -> sets_not b k -> sets_last (a ++ b) k v.
Proof.
  intros (x & y & c & d & f & -> & F & D & B) N. exists x, (y ++ b), c, d, f. rewrite <- app_assoc. split; [reflexivity|]. split; [exact F|]. split; [exact D|].
  intros g z G. apply in_app_iff in G. destruct G as [G|G]; [exact (B g z G)|exact (N g z G)].
Qed.
Lemma conf_ok old p k v : short_paths p -> sets_last (in_conf p) k v -> value old (sysctl_setup false p) k = Some v.
Proof. intros S H. rewrite (setup_all p S). apply last_flat. unfold globbed. do 6 apply last_app. exact H. Qed.
Lemma not_app a b k : sets_not a k -> sets_not b k -> sets_not (a ++ b) k.
Proof. intros A B f x F. apply in_app_iff in F. destruct F as [F|F]; [exact (A f x F)|exact (B f x F)]. Qed.
Lemma etc_ok old p k v : short_paths p -> sets_last (in_etc p) k v -> sets_not (in_local p) k -> sets_not (in_usr p) k -> sets_not (in_lib p) k -> sets_not (in_mnt p) k -> sets_not (in_conf p) k ->
  value old (sysctl_setup false p) k = Some v.
Proof.
  intros S H A B C D E. rewrite (setup_all p S). apply last_flat. unfold globbed. apply last_app, last_before; [exact H|]. repeat (apply not_app; [assumption|]). assumption.
Qed.
Lemma run_ok old p k v : short_paths p -> sets_last (in_run p) k v -> sets_not (in_etc p) k -> sets_not (in_local p) k -> sets_not (in_usr p) k -> sets_not (in_lib p) k -> sets_not (in_mnt p) k -> sets_not (in_conf p) k ->
  value old (sysctl_setup false p) k = Some v.
Proof.
  intros S H Z A B C D E. rewrite (setup_all p S). apply last_flat. unfold globbed. apply last_before; [exact H|]. repeat (apply not_app; [assumption|]). assumption.
Qed.
Lemma vendor_ok old p k v : short_paths p -> sets_last (in_usr p) k v -> sets_not (in_lib p) k -> sets_not (in_mnt p) k -> sets_not (in_conf p) k ->
  value old (sysctl_setup false p) k = Some v.
Proof.
  intros S H A B C. rewrite (setup_all p S). apply last_flat. unfold globbed. do 3 apply last_app. apply last_before; [exact H|]. repeat (apply not_app; [assumption|]). assumption.
Qed.
Lemma other_ok old p k : (forall l, In l [in_run p; in_etc p; in_local p; in_usr p; in_lib p; in_mnt p; in_conf p] -> sets_not l k) ->
  value old (sysctl_setup false p) k = old k.
Proof.
  intros H. unfold value. apply fold_none. unfold sysctl_setup. apply none_flat. intros f x F. apply filter_In in F. destruct F as [F _].
  unfold globbed in F. rewrite !in_app_iff in F.
  destruct F as [F|[F|[F|[F|[F|[F|F]]]]]];
    [apply (H (in_run p))|apply (H (in_etc p))|apply (H (in_local p))|apply (H (in_usr p))|apply (H (in_lib p))|apply (H (in_mnt p))|apply (H (in_conf p))];
    try exact F; cbn [In]; tauto.
Qed.
Lemma rescue_ok old p k : value old (sysctl_setup true p) k = old k.
Proof. reflexivity. Qed.
Lemma long_ok old p k f : globbed p = [f] -> (140 < N.of_nat (List.length (s_path f)))%N -> value old (sysctl_setup false p) k = old k.
Proof.
  intros E H. unfold sysctl_setup. rewrite E. cbn [filter]. assert (X : fits f = false); [|rewrite X; reflexivity].
  unfold fits. apply N.leb_gt. rewrite app_length. change (List.length prefix) with 19. lia.
Qed.
