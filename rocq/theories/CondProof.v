From Coq Require Import List String Ascii NArith Bool Arith Lia.
From Coq Require Import ZifyBool ZifyNat ZifyN.
From Verif Require Import CondModel CondSpec.
Import ListNotations.
Local Open Scope string_scope.

(** the concrete state names seen as specification states *)
Definition view (s : cstate) : status :=
  match s with COff => Off | CFlux => Flux | COn => On end.

Lemma view_inj a b : view a = view b -> a = b.
Proof. destruct a, b; cbn; congruence. Qed.

(** run a history on the concrete store *)
Definition step (cs : cstore) (o : cop) : cstore :=
  match o with
  | OpSet n => snd (cond_set_nu cs n)
  | OpOneshot n => snd (cond_oneshot_nu cs n)
  | OpClear n => snd (cond_clear_nu cs n)
  | OpReload => cond_reload cs
  end.
Definition run (os : list cop) : cstore := fold_left step os cond_init.

(** * strings *)
Lemma substring_all s : substring 0 (String.length s) s = s.
Proof. induction s as [|c s IH]; cbn; [reflexivity|now rewrite IH]. Qed.

Lemma substring_ge n s : String.length s <= n -> substring 0 n s = s.
Proof.
  revert n; induction s as [|c s IH]; intros [|n] H; cbn in *; try reflexivity; try lia.
  rewrite IH; [reflexivity|lia].
Qed.

Lemma substring_length n s : String.length (substring 0 n s) <= n.
Proof.
  revert n; induction s as [|c s IH]; intros [|n]; cbn; try lia.
  specialize (IH n); lia.
Qed.

Lemma cond_path_id n : good_name n = true -> cond_path n = n.
Proof.
  unfold good_name, cond_path; intros H; apply substring_ge.
  apply andb_prop in H as [H _]; apply andb_prop in H as [H _].
  now apply Nat.leb_le in H.
Qed.

Lemma good_not_nop n : good_name n = true -> is_nop n = false.
Proof.
  unfold good_name, is_nop; intros H.
  apply andb_prop in H as [H _]; apply andb_prop in H as [_ H].
  now apply negb_true_iff in H.
Qed.

Lemma good_strip n : good_name n = true -> strip_slash n = n.
Proof.
  unfold good_name, strip_slash; intros H.
  apply andb_prop in H as [_ H].
  destruct (String.length n); [reflexivity|].
  destruct (String.eqb _ _); [discriminate|reflexivity].
Qed.

(** * the association list *)
Lemma lookup_remove_eq p l : lookup p (remove_ent p l) = None.
Proof.
  induction l as [|[q e] l IH]; cbn; [reflexivity|].
  destruct (String.eqb p q) eqn:E; cbn; [exact IH|].
  rewrite E; exact IH.
Qed.

Lemma lookup_remove_neq p q l : p <> q -> lookup p (remove_ent q l) = lookup p l.
Proof.
  intros N; induction l as [|[r e] l IH]; cbn; [reflexivity|].
  destruct (String.eqb q r) eqn:E; cbn.
  - apply String.eqb_eq in E; subst r.
    destruct (String.eqb p q) eqn:E2; [apply String.eqb_eq in E2; congruence|exact IH].
  - destruct (String.eqb p r); [reflexivity|exact IH].
Qed.

Lemma lookup_none_notin p l : lookup p l = None <-> ~ In p (map fst l).
Proof.
  induction l as [|[q e] l IH]; cbn; [tauto|].
  destruct (String.eqb p q) eqn:E.
  - apply String.eqb_eq in E; subst; split; [discriminate|tauto].
  - apply String.eqb_neq in E; rewrite IH; split; intros H; [intros [H1|H1]|]; auto.
Qed.

Lemma in_remove_keys x p l : In x (map fst (remove_ent p l)) -> In x (map fst l).
Proof.
  unfold remove_ent; rewrite !in_map_iff; intros (qe & E & H).
  apply filter_In in H as [H _]; eauto.
Qed.

Lemma existsb_false_iff {A} (f : A -> bool) l :
  existsb f l = false <-> forall x, In x l -> f x = false.
Proof.
  induction l as [|a l IH]; cbn; [split; tauto|].
  rewrite orb_false_iff, IH; split.
  - intros [H1 H2] x [<-|H]; auto.
  - intros H; split; auto.
Qed.

(** * refinement *)
Definition entry_of (m : mark) : option centry :=
  match m with Unset => None | ForGood => Some Oneshot | AtGen g => Some (Gen g) end.

Record rel (ns : list string) (cs : cstore) (s : cspec) : Prop := {
  rel_now : reconf cs = now s;
  rel_pos : (0 < now s)%N;
  rel_ent : forall n, lookup n (ents cs) = entry_of (marks s n);
  rel_keys : forall q, In q (map fst (ents cs)) -> In q ns;
  rel_gen : forall n g, marks s n = AtGen g -> (0 < g)%N
}.

Lemma flat_below ns a b :
  flat ns = true -> In a ns -> In b ns -> below a b = false.
Proof.
  unfold flat, below; intros H Ha Hb.
  rewrite forallb_forall in H; specialize (H a Ha).
  rewrite forallb_forall in H; specialize (H b Hb).
  now apply negb_true_iff in H.
Qed.

Section Refine.
Variable ns : list string.
Hypothesis Hgood : forallb good_name ns = true.
Hypothesis Hflat : flat ns = true.

Lemma no_clash cs s n : rel ns cs s -> In n ns -> checkpath_fails cs n = false.
Proof.
  intros R Hn; apply existsb_false_iff; intros [q e] Hq; cbn.
  apply flat_below with ns; auto. apply (rel_keys _ _ _ R).
  apply in_map_iff; exists (q, e); auto.
Qed.

Lemma good_in n : In n ns -> good_name n = true.
Proof. rewrite forallb_forall in Hgood; auto. Qed.

Lemma not_dir cs s n : rel ns cs s -> In n ns -> is_dir cs n = false.
Proof.
  intros R Hn; unfold is_dir; rewrite (good_strip n (good_in n Hn)).
  apply existsb_false_iff; intros [q e] Hq; cbn.
  apply flat_below with ns; auto. apply (rel_keys _ _ _ R).
  apply in_map_iff; exists (q, e); auto.
Qed.

Lemma step_rel cs s o :
  rel ns cs s -> (forall n, In n (op_names o) -> In n ns) ->
  (now s + 1 < two32)%N \/ o <> OpReload ->
  rel ns (step cs o) (spec_step s o).
Proof.
  intros R Hn Hw; destruct o as [n|n|n|]; cbn [step spec_step op_names] in *.
  - assert (In n ns) as Hi by (apply Hn; cbn; auto); clear Hn Hw.
    unfold cond_set_nu, cond_set_path.
    rewrite (good_not_nop n (good_in n Hi)), (cond_path_id n (good_in n Hi)).
    rewrite (no_clash _ _ _ R Hi).
    destruct R as [R1 R2 R3 R4 R5].
    destruct (N.eqb (reconf cs) 0) eqn:E0; [lia|]; cbn [snd].
    unfold write_gen. pose proof (R3 n) as Rn.
    destruct (marks s n) as [| |g] eqn:Em; cbn [entry_of] in Rn; rewrite Rn.
    + rewrite (not_dir cs s n) by (auto; constructor; auto).
      constructor; cbn [reconf ents now marks]; auto.
      * intros m; unfold put; cbn [lookup]. destruct (String.eqb m n); [now rewrite R1|apply R3].
      * cbn; intros q [<-|Hq]; auto.
      * intros m g; unfold put; destruct (String.eqb m n); [intros [= <-]; exact R2|apply R5].
    + constructor; cbn [reconf ents]; auto.
    + constructor; cbn [reconf ents now marks]; auto.
      * intros m; unfold put; cbn [lookup]. destruct (String.eqb m n) eqn:E; [now rewrite R1|].
        apply String.eqb_neq in E. rewrite lookup_remove_neq by congruence; apply R3.
      * cbn; intros q [<-|Hq]; auto. apply R4; eapply in_remove_keys; eauto.
      * intros m g'; unfold put; destruct (String.eqb m n); [intros [= <-]; exact R2|apply R5].
  - assert (In n ns) as Hi by (apply Hn; cbn; auto); clear Hn Hw.
    unfold cond_oneshot_nu.
    rewrite (good_not_nop n (good_in n Hi)), (cond_path_id n (good_in n Hi)).
    rewrite (no_clash _ _ _ R Hi).
    pose proof (not_dir _ _ _ R Hi) as Hd.
    destruct R as [R1 R2 R3 R4 R5]. pose proof (R3 n) as Rn.
    destruct (marks s n) as [| |g] eqn:Em; cbn [entry_of] in Rn; rewrite Rn; cbn [snd].
    + rewrite Hd; cbn [snd]; constructor; cbn [reconf ents now marks]; auto.
      * intros m; unfold put; cbn [lookup]. destruct (String.eqb m n); [reflexivity|apply R3].
      * cbn; intros q [<-|Hq]; auto.
      * intros m g; unfold put; destruct (String.eqb m n); [discriminate|apply R5].
    + constructor; auto.
    + constructor; auto.
  - assert (In n ns) as Hi by (apply Hn; cbn; auto); clear Hn Hw.
    unfold cond_clear_nu, cond_unlink.
    rewrite (good_not_nop n (good_in n Hi)), (cond_path_id n (good_in n Hi)).
    destruct R as [R1 R2 R3 R4 R5].
    constructor; cbn [snd reconf ents now marks]; auto.
    + intros m; unfold put. destruct (String.eqb m n) eqn:E.
      * apply String.eqb_eq in E; subst; apply lookup_remove_eq.
      * apply String.eqb_neq in E. rewrite lookup_remove_neq by congruence; apply R3.
    + intros q Hq; apply R4; eapply in_remove_keys; eauto.
    + intros m g; unfold put; destruct (String.eqb m n); [discriminate|apply R5].
  - destruct R as [R1 R2 R3 R4 R5].
    constructor; cbn [cond_reload reconf ents now marks]; auto.
    + destruct Hw as [Hw|Hw]; [|congruence]. rewrite R1. now apply N.mod_small.
    + lia.
Qed.

Lemma get_rel cs s n :
  rel ns cs s -> good_name n = true -> view (cond_get cs n) = spec_get s n.
Proof.
  intros [R1 R2 R3 R4 R5] Hn.
  unfold cond_get, cond_get_path, spec_get; rewrite (cond_path_id n Hn), R3.
  destruct (marks s n) as [| |g] eqn:Em; cbn [entry_of]; [reflexivity| |].
  - rewrite R1. assert (N.eqb (now s) 0 = false) as -> by lia. now rewrite N.eqb_refl.
  - rewrite R1. pose proof (R5 _ _ Em). assert (N.eqb g 0 = false) as -> by lia.
    assert (N.eqb (now s) 0 = false) as -> by lia.
    destruct (N.eqb g (now s)); reflexivity.
Qed.

Lemma run_rel os cs s :
  rel ns cs s -> (forall n, In n (names_of os) -> In n ns) ->
  (now s + N.of_nat (reloads os) < two32)%N ->
  rel ns (fold_left step os cs) (fold_left spec_step os s).
Proof.
  revert cs s; induction os as [|o os IH]; intros cs s R Hn Hw; cbn [fold_left]; [exact R|].
  apply IH.
  - apply step_rel; auto.
    + intros n Hi; apply Hn; unfold names_of; cbn; apply in_or_app; auto.
    + destruct o; try (right; discriminate). left. unfold reloads in Hw; cbn in Hw; lia.
  - intros n Hi; apply Hn; unfold names_of; cbn; apply in_or_app; auto.
  - destruct o as [n|n|n|]; unfold reloads in *; cbn in *.
    + destruct (marks s n); cbn; lia.
    + destruct (marks s n); cbn; lia.
    + lia.
    + lia.
Qed.
End Refine.

Lemma init_rel ns : rel ns cond_init spec_init.
Proof. constructor; cbn; auto; [lia|tauto|discriminate]. Qed.

Lemma store_refines_lem os n :
  good_history os = true -> good_name n = true ->
  view (cond_get (run os) n) = spec_get (spec_run os) n.
Proof.
  unfold good_history; intros H Hn.
  apply andb_prop in H as [H H3]; apply andb_prop in H as [H1 H2].
  apply get_rel with (names_of os); auto.
  apply run_rel; auto; [apply init_rel|].
  change (now spec_init) with 1%N; unfold two32; apply N.ltb_lt in H3; lia.
Qed.

(** * the aggregate *)
Lemma agg_off cs names s :
  cond_get_agg_from cs s names = COff <->
  s = COff \/ exists n, In n names /\ cond_get cs n = COff.
Proof.
  revert s; induction names as [|n ns IH]; intros s; cbn [cond_get_agg_from].
  - split; [auto|intros [H|(n & [] & _)]; auto].
  - destruct s; [split; auto| |];
      rewrite IH; clear IH; split.
    + intros [H|(m & H & E)]; right; [exists n|exists m]; cbn; auto.
      split; auto. unfold cs_min in H; destruct (cond_get cs n); cbn in H; auto; discriminate.
    + intros [H|(m & [->|H] & E)]; [discriminate|left; rewrite E; reflexivity|right; eauto].
    + intros [H|(m & H & E)]; right; [exists n|exists m]; cbn; auto.
      split; auto. unfold cs_min in H; destruct (cond_get cs n); cbn in H; auto; discriminate.
    + intros [H|(m & [->|H] & E)]; [discriminate|left; rewrite E; reflexivity|right; eauto].
Qed.

Lemma agg_on cs names s :
  cond_get_agg_from cs s names = COn <->
  s = COn /\ forall n, In n names -> cond_get cs n = COn.
Proof.
  revert s; induction names as [|n ns IH]; intros s; cbn [cond_get_agg_from].
  - split; [intros ->; split; [auto|intros n []]|tauto].
  - destruct s.
    + split; [discriminate|intros [H _]; discriminate].
    + rewrite IH; split; [|intros [H _]; discriminate].
      intros [H _]; unfold cs_min in H; destruct (cond_get cs n); discriminate.
    + rewrite IH; split; intros [H1 H2]; split; auto.
      * intros m [<-|H]; auto. unfold cs_min in H1; destruct (cond_get cs n); auto; discriminate.
      * rewrite (H2 n) by (cbn; auto); reflexivity.
      * intros m H; apply H2; cbn; auto.
Qed.

Lemma agg_spec_lem cs names :
  agg_spec (map (fun n => view (cond_get cs n)) names) (view (cond_get_agg cs names)).
Proof.
  pose proof (agg_off cs names COn) as A. pose proof (agg_on cs names COn) as B.
  unfold cond_get_agg in *.
  assert (In Off (map (fun n => view (cond_get cs n)) names) <->
          cond_get_agg_from cs COn names = COff) as A'.
  { rewrite A, in_map_iff; split.
    - intros (n & E & H); right; exists n; split; auto. now apply view_inj.
    - intros [H|(n & H & E)]; [discriminate|]. exists n; split; auto. now rewrite E. }
  assert (Forall (fun s => s = On) (map (fun n => view (cond_get cs n)) names) <->
          cond_get_agg_from cs COn names = COn) as B'.
  { rewrite B, Forall_map, Forall_forall; split.
    - intros H; split; auto; intros n Hn. apply view_inj; now apply H.
    - intros [_ H] n Hn; now rewrite H. }
  unfold agg_spec. rewrite A', B'.
  destruct (cond_get_agg_from cs COn names) eqn:E; cbn [view]; repeat split; try discriminate; auto.
  - intros [H _]; congruence.
  - (* flux: neither off nor all on, so some member is in flux *)
    assert (~ Forall (fun s => s = On) (map (fun n => view (cond_get cs n)) names)) as N1
      by (rewrite B'; discriminate).
    assert (~ In Off (map (fun n => view (cond_get cs n)) names)) as N2
      by (rewrite A'; discriminate).
    clear - N1 N2. induction names as [|n ns IH]; cbn in *; [exfalso; apply N1; constructor|].
    destruct (cond_get cs n); cbn in *; [tauto|auto|].
    right; apply IH; [intros H; apply N1; constructor; auto|tauto].
  - intros [_ H]; exfalso.
    assert (Forall (fun s => s = On) (map (fun n => view (cond_get cs n)) names)) as F by (apply B'; auto).
    rewrite Forall_forall in F; apply F in H; discriminate.
Qed.

Lemma agg_spec_unique l r1 r2 : agg_spec l r1 -> agg_spec l r2 -> r1 = r2.
Proof.
  intros (A1 & A2 & A3) (B1 & B2 & B3).
  destruct r1, r2; auto; exfalso.
  - assert (In Off l) by (apply A1; auto). assert (@eq status Flux Off) by (apply B1; auto). discriminate.
  - assert (In Off l) by (apply A1; auto). assert (@eq status On Off) by (apply B1; auto). discriminate.
  - assert (In Off l) by (apply B1; auto). assert (@eq status Flux Off) by (apply A1; auto). discriminate.
  - assert (~ In Off l /\ In Flux l) by (apply A2; auto). assert (@eq status On Flux) by (apply B2; auto). discriminate.
  - assert (In Off l) by (apply B1; auto). assert (@eq status On Off) by (apply A1; auto). discriminate.
  - assert (~ In Off l /\ In Flux l) by (apply B2; auto). assert (@eq status On Flux) by (apply A2; auto). discriminate.
Qed.

Lemma agg_set_equal cs l1 l2 :
  (forall n, In n l1 <-> In n l2) -> cond_get_agg cs l1 = cond_get_agg cs l2.
Proof.
  intros H.
  assert (view (cond_get_agg cs l1) = view (cond_get_agg cs l2)) as E.
  { apply agg_spec_unique with (map (fun n => view (cond_get cs n)) l1);
      [apply agg_spec_lem|].
    destruct (agg_spec_lem cs l2) as (A1 & A2 & A3).
    assert (forall x, In x (map (fun n => view (cond_get cs n)) l1) <->
                      In x (map (fun n => view (cond_get cs n)) l2)) as K.
    { intros x; rewrite !in_map_iff; split; intros (n & E & Hn); exists n; split; auto; apply H; auto. }
    unfold agg_spec. rewrite A1, A2, A3, !K. repeat split; try tauto.
    - rewrite !Forall_forall; intros F x Hx; apply F; apply K; auto.
    - rewrite !Forall_forall; intros F x Hx; apply F; apply K; auto. }
  destruct (cond_get_agg cs l1), (cond_get_agg cs l2); cbn in E; congruence.
Qed.

(** * reload, directly on the store *)
Lemma reload_lem cs n :
  (0 < reconf cs)%N -> (reconf cs + 1 < two32)%N ->
  (forall p g, In (p, Gen g) (ents cs) -> (0 < g <= reconf cs)%N) ->
  cond_get (cond_reload cs) n =
  match lookup (cond_path n) (ents cs) with
  | None => COff | Some Oneshot => COn | Some (Gen _) => CFlux end.
Proof.
  intros H0 H1 Hg. unfold cond_get, cond_get_path, cond_reload; cbn [ents reconf].
  rewrite N.mod_small by exact H1.
  destruct (lookup (cond_path n) (ents cs)) as [[|g]|] eqn:E; auto.
  - assert (N.eqb (reconf cs + 1) 0 = false) as -> by lia. now rewrite N.eqb_refl.
  - assert (In (cond_path n, Gen g) (ents cs)) as Hin.
    { clear -E. induction (ents cs) as [|[q e] l IH]; cbn in *; [discriminate|].
      destruct (String.eqb (cond_path n) q) eqn:E2.
      - apply String.eqb_eq in E2; inversion E; subst; auto.
      - right; auto. }
    apply Hg in Hin.
    assert (N.eqb g 0 = false) as -> by lia.
    assert (N.eqb (reconf cs + 1) 0 = false) as -> by lia.
    assert (N.eqb g (reconf cs + 1) = false) as -> by lia. reflexivity.
Qed.

(** generations stored never exceed the current one, along any history *)
Definition gens_ok (cs : cstore) : Prop :=
  (0 < reconf cs)%N /\ forall p g, In (p, Gen g) (ents cs) -> (0 < g <= reconf cs)%N.

Lemma gens_ok_step cs o : gens_ok cs -> (reconf cs + 1 < two32)%N -> gens_ok (step cs o).
Proof.
  intros [H0 H] Hw; destruct o as [n|n|n|]; cbn [step].
  - unfold cond_set_nu; destruct (is_nop n); [split; auto|].
    unfold cond_set_path; destruct (checkpath_fails _ _); [split; auto|].
    destruct (N.eqb (reconf cs) 0) eqn:E; [split; auto|]. cbn [snd].
    unfold write_gen; destruct (lookup (cond_path n) (ents cs)) as [[|g']|].
    + split; auto.
    + split; cbn [reconf ents]; auto; intros p g [[= <- <-]|Hi]; [lia|].
      apply filter_In in Hi as [Hi _]; eauto.
    + destruct (is_dir _ _); [split; auto|].
      split; cbn [reconf ents]; auto; intros p g [[= <- <-]|Hi]; [lia|eauto].
  - unfold cond_oneshot_nu; destruct (is_nop n); [split; auto|].
    destruct (checkpath_fails _ _); [split; auto|].
    destruct (lookup _ _); [split; auto|]. destruct (is_dir _ _); [split; auto|].
    split; cbn [snd reconf ents]; auto; intros p g [[=]|Hi]; eauto.
  - unfold cond_clear_nu; destruct (is_nop n); [split; auto|].
    split; cbn [snd cond_unlink reconf ents]; auto; intros p g Hi.
    apply filter_In in Hi as [Hi _]; eauto.
  - split; cbn [cond_reload reconf ents].
    + rewrite N.mod_small by exact Hw; lia.
    + intros p g Hi; rewrite N.mod_small by exact Hw. apply H in Hi; lia.
Qed.

Lemma reconf_step cs o : (reconf cs + 1 < two32)%N ->
  (reconf (step cs o) = reconf cs + match o with OpReload => 1 | _ => 0 end)%N.
Proof.
  intros Hw; destruct o as [n|n|n|]; cbn [step].
  - unfold cond_set_nu; destruct (is_nop n); [cbn; lia|].
    unfold cond_set_path; destruct (checkpath_fails _ _); [cbn; lia|].
    destruct (N.eqb (reconf cs) 0); [cbn; lia|]; cbn [snd].
    unfold write_gen; destruct (lookup _ _) as [[|]|]; cbn; try lia.
    destruct (is_dir _ _); cbn; lia.
  - unfold cond_oneshot_nu; destruct (is_nop n); [cbn; lia|].
    destruct (checkpath_fails _ _); [cbn; lia|].
    destruct (lookup _ _); [cbn; lia|]. destruct (is_dir _ _); cbn; lia.
  - unfold cond_clear_nu; destruct (is_nop n); cbn; lia.
  - cbn [cond_reload reconf]. now rewrite N.mod_small.
Qed.

Lemma run_gens os cs : gens_ok cs -> (reconf cs + N.of_nat (reloads os) + 1 < two32)%N ->
  gens_ok (fold_left step os cs) /\
  reconf (fold_left step os cs) = (reconf cs + N.of_nat (reloads os))%N.
Proof.
  revert cs; induction os as [|o os IH]; intros cs Hg Hw; cbn [fold_left].
  - unfold reloads; cbn; split; auto; lia.
  - assert (reconf cs + 1 < two32)%N as Hs by lia.
    pose proof (reconf_step cs o Hs) as Hr.
    destruct (IH (step cs o)) as [A B].
    + apply gens_ok_step; auto.
    + rewrite Hr; destruct o; unfold reloads in *; cbn in *; lia.
    + split; auto. rewrite B, Hr. destruct o; unfold reloads in *; cbn in *; lia.
Qed.

Lemma reload_history_lem os n :
  (N.of_nat (reloads os) + 2 < two32)%N ->
  view (cond_get (run (os ++ [OpReload])) n) =
  match lookup (cond_path n) (ents (run os)) with
  | None => Off | Some Oneshot => On | Some (Gen _) => Flux end.
Proof.
  intros H. unfold run; rewrite fold_left_app; cbn [fold_left step].
  destruct (run_gens os cond_init) as [[A0 A1] B].
  - split; cbn; [lia|tauto].
  - cbn [cond_init reconf]; lia.
  - cbn [cond_init reconf] in B.
    rewrite reload_lem; auto; [|lia].
    destruct (lookup _ _) as [[|]|]; reflexivity.
Qed.

(** * independence *)
Lemma lookup_set_other cs n m :
  cond_path m <> cond_path n ->
  lookup (cond_path m) (ents (snd (cond_set_nu cs n))) = lookup (cond_path m) (ents cs)
  /\ reconf (snd (cond_set_nu cs n)) = reconf cs.
Proof.
  intros H. unfold cond_set_nu; destruct (is_nop n); [auto|].
  unfold cond_set_path; destruct (checkpath_fails _ _); [auto|].
  destruct (N.eqb _ 0); [auto|]. cbn [snd]. unfold write_gen.
  destruct (lookup (cond_path n) (ents cs)) as [[|]|]; cbn [ents reconf lookup]; auto.
  - destruct (String.eqb (cond_path m) (cond_path n)) eqn:E; [apply String.eqb_eq in E; congruence|].
    rewrite lookup_remove_neq by auto; auto.
  - destruct (is_dir _ _); cbn [ents reconf lookup]; auto.
    destruct (String.eqb (cond_path m) (cond_path n)) eqn:E; [apply String.eqb_eq in E; congruence|auto].
Qed.

Lemma lookup_oneshot_other cs n m :
  cond_path m <> cond_path n ->
  lookup (cond_path m) (ents (snd (cond_oneshot_nu cs n))) = lookup (cond_path m) (ents cs)
  /\ reconf (snd (cond_oneshot_nu cs n)) = reconf cs.
Proof.
  intros H. unfold cond_oneshot_nu; destruct (is_nop n); [auto|].
  destruct (checkpath_fails _ _); [auto|].
  destruct (lookup (cond_path n) (ents cs)) as [c|]; cbn [snd ents reconf]; auto.
  destruct (is_dir _ _); cbn [snd ents reconf lookup]; auto.
  destruct (String.eqb (cond_path m) (cond_path n)) eqn:E; [apply String.eqb_eq in E; congruence|auto].
Qed.

Lemma lookup_clear_other cs n m :
  cond_path m <> cond_path n ->
  lookup (cond_path m) (ents (snd (cond_clear_nu cs n))) = lookup (cond_path m) (ents cs)
  /\ reconf (snd (cond_clear_nu cs n)) = reconf cs.
Proof.
  intros H. unfold cond_clear_nu; destruct (is_nop n); [auto|].
  cbn [snd cond_unlink ents reconf]. rewrite lookup_remove_neq by auto; auto.
Qed.

Lemma step_other_lem cs o m :
  o <> OpReload -> (forall n, In n (op_names o) -> cond_path m <> cond_path n) ->
  cond_get (step cs o) m = cond_get cs m.
Proof.
  intros Ho H. unfold cond_get, cond_get_path.
  assert (lookup (cond_path m) (ents (step cs o)) = lookup (cond_path m) (ents cs)
          /\ reconf (step cs o) = reconf cs) as [-> ->]; [|reflexivity].
  destruct o as [n|n|n|]; cbn [step op_names] in *.
  - apply lookup_set_other; apply H; cbn; auto.
  - apply lookup_oneshot_other; apply H; cbn; auto.
  - apply lookup_clear_other; apply H; cbn; auto.
  - congruence.
Qed.

(** ** name clashes *)
Lemma clash_lem cs n q e : In (q, e) (ents cs) -> below q (cond_path n) = true ->
  step cs (OpSet n) = cs /\ step cs (OpOneshot n) = cs.
Proof.
  intros Hq Hb. assert (C : checkpath_fails cs (cond_path n) = true).
  { apply existsb_exists. exists (q, e). split; assumption. }
  unfold step, cond_set_nu, cond_oneshot_nu, cond_set_path. rewrite C. destruct (is_nop n); split; reflexivity.
Qed.
