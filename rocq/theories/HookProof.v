(** Proofs about hook conditions. *)
From Coq Require Import List String Ascii NArith ZArith Bool Lia.
From Coq Require Import ZifyBool ZifyNat ZifyN.
From Verif Require Import CondModel CondSpec CondProof NetProof HookModel HookSpec.
Import ListNotations.
Local Open Scope string_scope.

Lemma cond_do_step c o : cond_do c o = CondProof.step c o.
Proof. destruct o; reflexivity. Qed.
Lemma cond_dos l c : fold_left cond_do l c = fold_left CondProof.step l c.
Proof. revert c. induction l as [|o l IH]; intros c; [reflexivity|]. cbn [fold_left]. rewrite cond_do_step. apply IH. Qed.
Definition phase_op (avail : bool) (h : hook) : list cop :=
  match phase h with Some n => if avail then [OpOneshot n] else [] | None => [] end.
Definition ops1 (e : hev) : list cop :=
  match e with HvHook a h cbs => (cbs ++ phase_op a h)%list | HvOp o => [o] end.
Definition ops (es : list hev) : list cop := flat_map ops1 es.
Lemma event_ops c e : hook_event c e = fold_left CondProof.step (ops1 e) c.
Proof.
  destruct e as [a h cbs|o]; cbn [hook_event ops1]; [|cbn [fold_left]; rewrite cond_do_step; reflexivity].
  unfold plugin_run_hook. rewrite cond_dos, fold_left_app. set (c' := fold_left CondProof.step cbs c). clearbody c'.
  destruct a, h; reflexivity.
Qed.
Lemma run_ops es : hook_run es = CondProof.run (ops es).
Proof.
  unfold hook_run, CondProof.run, ops. generalize cond_init. induction es as [|e es IH]; intros c; [reflexivity|].
  cbn [fold_left flat_map]. rewrite fold_left_app, event_ops. apply IH.
Qed.
Lemma phase_in h n : phase h = Some n -> In n all_phases.
Proof. destruct h; cbn; intros H; inversion H; auto 10. Qed.
Lemma names_ops es n : In n (names_of (ops es)) <->
  In n (names_of (hook_ops es)) \/ exists h cbs, In (HvHook true h cbs) es /\ phase h = Some n.
Proof.
  unfold names_of, ops, hook_ops. induction es as [|e es IH]; cbn [flat_map].
  - cbn. split; [tauto|]. intros [H|(h & cbs & H & _)]; contradiction.
  - rewrite !flat_map_app, !in_app_iff, IH. destruct e as [a h cbs|o]; cbn [ops1].
    + rewrite flat_map_app, in_app_iff. unfold phase_op.
      assert (X : In n (flat_map op_names (match phase h with Some n0 => if a then [OpOneshot n0] else [] | None => [] end)) <-> a = true /\ phase h = Some n).
      { destruct (phase h) as [m|]; [|cbn; intuition discriminate]. destruct a; cbn; [|intuition discriminate].
        split; [intros [->|[]]; auto|]. intros [_ H]. inversion H. auto. }
      rewrite X. split.
      * intros [[H|[-> H]]|[H|(h' & cb & H & H2)]]; [auto| |auto|]; right; eexists; eexists; split; [left; reflexivity|exact H|right; eassumption|exact H2].
      * intros [[H|H]|(h' & cb & [H|H] & H2)]; [auto|auto| |right; right; eauto]. inversion H; subst. auto.
    + split; [intros [H|[H|(h' & cb & H & H2)]]; [auto|auto|right; exists h', cb; cbn; auto]|].
      intros [[H|H]|(h' & cb & [H|H] & H2)]; [auto|auto|discriminate H|right; right; eauto].
Qed.
Lemma phases_flat a b : In a all_phases -> In b all_phases -> String.prefix (a ++ "/") b = false.
Proof. cbn. intros A B. repeat (destruct A as [<-|A]; [repeat (destruct B as [<-|B]; [reflexivity|]); contradiction|]). contradiction. Qed.
Lemma phase_prefix n : In n all_phases -> String.prefix "hook/" n = true /\ good_name n = true /\
  (forall m, String.prefix (m ++ "/") n = true -> m = "hook" \/ String.prefix "hook/" m = true).
Proof.
  intros H. split; [|split].
  - cbn in H. repeat (destruct H as [<-|H]; [reflexivity|]). contradiction.
  - cbn in H. repeat (destruct H as [<-|H]; [reflexivity|]). contradiction.
  - intros m P. apply prefix_app in P. destruct P as (r & P).
    assert (Q : exists t, n = "hook/" ++ t).
    { cbn in H. repeat (destruct H as [<-|H]; [eexists; reflexivity|]). contradiction. }
    destruct Q as (t & ->).
    destruct m as [|c1 [|c2 [|c3 [|c4 [|c5 m]]]]]; cbn in P; try discriminate P; inversion P; subst; [left; reflexivity|].
    right. apply prefix_app. exists m. reflexivity.
Qed.
Lemma hook_good es : hook_history es -> good_history (ops es) = true.
Proof.
  intros (H1 & H2 & H3 & H4). unfold good_history. rewrite !andb_true_iff. rewrite forallb_forall in H2.
  assert (PH : forall n, In n (names_of (ops es)) -> In n (names_of (hook_ops es)) \/ In n all_phases).
  { intros n Hn. apply names_ops in Hn. destruct Hn as [Hn|(h & cbs & _ & Hn)]; [auto|right; eapply phase_in; exact Hn]. }
  split; [split|].
  - apply forallb_forall. intros n Hn. destruct (PH n Hn) as [X|X]; [apply H2, X|apply phase_prefix, X].
  - unfold flat in *. rewrite forallb_forall in *. intros a Ha. rewrite forallb_forall. intros b Hb. apply negb_true_iff.
    destruct (PH a Ha) as [A|A], (PH b Hb) as [B|B].
    + specialize (H3 a A). rewrite forallb_forall in H3. apply negb_true_iff, H3, B.
    + destruct (String.prefix (a ++ "/") b) eqn:E; [|reflexivity]. destruct (phase_prefix b B) as (_ & _ & X). destruct (H1 a A) as [Y1 Y2].
      destruct (X a E); congruence.
    + destruct (String.prefix (a ++ "/") b) eqn:E; [|reflexivity]. apply prefix_app in E. destruct E as (r & E).
      destruct (H1 b B) as [Y _]. destruct (phase_prefix a A) as (Z & _ & _). apply prefix_app in Z. destruct Z as (t & ->).
      subst b. exfalso. assert (W : String.prefix "hook/" ((("hook/" ++ t) ++ "/") ++ r) = true); [|congruence].
      apply prefix_app. exists ((t ++ "/") ++ r). clear. cbn. do 5 f_equal.
    + apply phases_flat; assumption.
  - assert (X : reloads (ops es) = reloads (hook_ops es)).
    { unfold reloads, ops, hook_ops. clear. induction es as [|e es IH]; [reflexivity|]. cbn [flat_map]. rewrite !filter_app, !List.app_length, IH. f_equal.
      destruct e as [a h cbs|o]; [|reflexivity]. cbn [ops1]. rewrite filter_app, List.app_length.
      unfold phase_op. destruct (phase h); [destruct a|]; cbn; lia. }
    rewrite X. lia.
Qed.
Lemma marks_other os n sp : ~ In n (names_of os) -> marks (fold_left spec_step os sp) n = marks sp n.
Proof.
  revert sp. induction os as [|o os IH]; intros sp H; [reflexivity|]. cbn [fold_left]. unfold names_of in H. cbn [flat_map] in H. rewrite in_app_iff in H.
  rewrite IH by (unfold names_of; tauto). destruct o as [m|m|m|]; cbn [spec_step op_names] in *; [destruct (marks sp m)|destruct (marks sp m)| |]; try reflexivity;
    cbn [marks]; unfold put; destruct (String.eqb n m) eqn:E; try reflexivity; apply String.eqb_eq in E; subst; exfalso; apply H; left; left; reflexivity.
Qed.
Definition only_oneshot (n : string) (os : list cop) : Prop := forall o, In o os -> In n (op_names o) -> o = OpOneshot n.
Lemma marks_phase os n sp : only_oneshot n os -> marks sp n = Unset \/ marks sp n = ForGood ->
  marks (fold_left spec_step os sp) n = if existsb (String.eqb n) (names_of os) then ForGood else marks sp n.
Proof.
  revert sp. induction os as [|o os IH]; intros sp H M; [reflexivity|]. cbn [fold_left].
  assert (O : only_oneshot n os) by (intros x Hx; apply H; right; exact Hx).
  unfold names_of. cbn [flat_map]. rewrite existsb_app. fold (names_of os).
  destruct (existsb (String.eqb n) (op_names o)) eqn:E.
  - apply existsb_exists in E. destruct E as (m & Hm & E). apply String.eqb_eq in E. subst m.
    pose proof (H o (or_introl eq_refl) Hm). subst o. cbn [orb].
    assert (X : marks (spec_step sp (OpOneshot n)) n = ForGood).
    { cbn [spec_step]. destruct M as [M|M]; rewrite M; [cbn [marks]; unfold put; rewrite String.eqb_refl; reflexivity|exact M]. }
    rewrite IH; [|exact O|auto]. rewrite X. destruct (existsb _ _); reflexivity.
  - assert (X : marks (spec_step sp o) n = marks sp n).
    { apply (marks_other [o]). unfold names_of. cbn [flat_map]. rewrite app_nil_r. intros Hi.
      assert (T : existsb (String.eqb n) (op_names o) = true); [|congruence]. apply existsb_exists. exists n. split; [exact Hi|apply String.eqb_refl]. }
    cbn [orb]. rewrite IH; [|exact O|rewrite X; exact M]. rewrite X. reflexivity.
Qed.
Lemma hook_reached_lem es h n : hook_history es -> phase h = Some n ->
  (cond_get (hook_run es) n = COn <-> reached h es) /\ (cond_get (hook_run es) n = COff <-> ~ reached h es).
Proof.
  intros H P. pose proof (hook_good es H) as G. pose proof (phase_in h n P) as A. destruct (phase_prefix n A) as (PP & GN & _).
  pose proof (store_refines_lem (ops es) n G GN) as R. rewrite <- run_ops in R.
  assert (NN : ~ In n (names_of (hook_ops es))) by (destruct H as [H _]; intros X; destruct (H n X); congruence).
  assert (O : only_oneshot n (ops es)).
  { intros o Ho Hn. unfold ops in Ho. apply in_flat_map in Ho. destruct Ho as (e & He & Ho). destruct e as [a h' cbs|o']; cbn [ops1] in Ho.
    - apply in_app_or in Ho. destruct Ho as [Ho|Ho].
      + exfalso. apply NN. unfold names_of, hook_ops. apply in_flat_map. exists o. split; [|exact Hn]. apply in_flat_map. exists (HvHook a h' cbs). auto.
      + unfold phase_op in Ho. destruct (phase h') as [m|]; [|destruct Ho]. destruct a; [|destruct Ho]. destruct Ho as [<-|[]].
        cbn in Hn. destruct Hn as [->|[]]. reflexivity.
    - exfalso. apply NN. unfold names_of, hook_ops. apply in_flat_map. exists o. split; [|exact Hn]. apply in_flat_map. exists (HvOp o'). auto. }
  assert (M : marks (spec_run (ops es)) n = if existsb (String.eqb n) (names_of (ops es)) then ForGood else Unset).
  { unfold spec_run. rewrite (marks_phase (ops es) n spec_init O); [reflexivity|left; reflexivity]. }
  assert (RE : existsb (String.eqb n) (names_of (ops es)) = true <-> reached h es).
  { rewrite existsb_exists. split.
    - intros (m & Hm & E). apply String.eqb_eq in E. subst m. apply names_ops in Hm. destruct Hm as [Hm|(h' & cbs & Hi & P')]; [contradiction|].
      exists cbs. assert (h' = h) as <-; [|exact Hi]. clear -P P'. destruct h; try discriminate P; cbn in P; inversion P; subst n; destruct h'; try discriminate P'; reflexivity.
    - intros (cbs & Hi). exists n. split; [|apply String.eqb_refl]. apply names_ops. right. eauto. }
  unfold spec_get in R. rewrite M in R. destruct (existsb (String.eqb n) (names_of (ops es))).
  - assert (D : cond_get (hook_run es) n = COn) by (apply view_inj; exact R). rewrite D. split; split; try discriminate; intuition.
  - assert (D : cond_get (hook_run es) n = COff) by (apply view_inj; exact R). rewrite D.
    assert (NR : ~ reached h es) by (intros X; apply RE in X; discriminate X). split; split; try discriminate; intuition.
Qed.
(** no other condition below hook/ *)
Lemma hook_none_lem es n : hook_history es -> String.prefix "hook/" n = true -> good_name n = true ->
  (forall h, phase h <> Some n) -> cond_get (hook_run es) n = COff.
Proof.
  intros H P GN N. pose proof (hook_good es H) as G. pose proof (store_refines_lem (ops es) n G GN) as R. rewrite <- run_ops in R.
  apply view_inj. rewrite R. unfold spec_get. unfold spec_run. rewrite marks_other; [reflexivity|]. intros Hi. apply names_ops in Hi.
  destruct Hi as [Hi|(h & cbs & _ & Hp)]; [|exact (N h Hp)]. destruct H as [H _]. destruct (H n Hi). congruence.
Qed.
