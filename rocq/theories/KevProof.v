From Coq Require Import List String Ascii NArith ZArith Bool Lia ZifyBool ZifyNat.
From Verif Require Import CStr CStrLib ParseSpec NameProof KevModel KevSpec.
Import ListNotations.

Lemma var_iff n l : starts n l = true <-> var n l.
Proof. unfold var. apply starts_iff. Qed.
Lemma is_ac_iff t : is_ac t = true <-> ac_type t.
Proof.
  unfold is_ac, ac_type. rewrite existsb_exists. split.
  - intros [n [I S]]. apply starts_iff in S as [r ->]. exists n, r. auto.
  - intros [n [r [I ->]]]. exists n. split; [exact I|apply starts_app].
Qed.
Lemma starts_firstn p n s : (List.length p <= n)%nat -> starts p (firstn n s) = starts p s.
Proof.
  revert n s. induction p as [|c p IH]; intros n s H; [destruct (firstn n s), s; reflexivity|].
  cbn [List.length] in H. destruct n as [|n]; [lia|]. destruct s as [|d s]; [reflexivity|]. cbn [firstn starts].
  rewrite IH by lia. reflexivity.
Qed.
Lemma is_ac_cut t : is_ac (strlcpy 10 t) = is_ac t.
Proof. unfold is_ac, strlcpy. cbn [existsb]. rewrite !starts_firstn by (cbn; lia). reflexivity. Qed.
Lemma online_number v n : number v n -> check_online v = negb (Z.eqb n 0).
Proof. intros H. unfold check_online. apply strtoll_number in H. rewrite H. reflexivity. Qed.

Definition on (w : list bool) : nat := List.length (filter (fun b => b) w).
Definition good (none : bool) (w : list bool) (k : kev) : Prop := k_online k = on w /\ k_cond k = none || Nat.ltb 0 (on w).
Lemma on_app a b : on (a ++ b) = (on a + on b)%nat.
Proof. unfold on. rewrite filter_app, app_length. reflexivity. Qed.

Lemma init_good l w : supplies l w -> good (Nat.eqb (List.length w) 0) w (kev_init l).
Proof.
  intros H. unfold good, kev_init. cbn [k_online k_cond].
  assert (E : List.length (filter (fun s => match fst s with Some t => is_ac (strlcpy 10 t) | None => false end) l) = List.length w /\
    List.length (filter (fun s => match snd s with Some v => check_online (strlcpy 10 v) | None => false end)
      (filter (fun s => match fst s with Some t => is_ac (strlcpy 10 t) | None => false end) l)) = on w).
  { induction H as [|s l a b S H [IH1 IH2]]; [split; reflexivity|]. rewrite on_app, app_length, <- IH1, <- IH2. clear - S.
    destruct S as [t v n A L N|t v A|v]; cbn [filter fst].
    - apply is_ac_iff in A. rewrite is_ac_cut, A. cbn [List.length filter snd]. rewrite strlcpy_id by exact L. rewrite (online_number _ _ N).
      unfold on. cbn [filter List.length]. destruct (negb (Z.eqb n 0)); cbn [List.length]; split; lia.
    - assert (A' : is_ac t = false) by (destruct (is_ac t) eqn:E; [apply is_ac_iff in E; contradiction|reflexivity]). rewrite is_ac_cut, A'.
      split; reflexivity.
    - split; reflexivity. }
  destruct E as [-> ->]. auto.
Qed.

(** ** Lines *)
Lemma not_var n l : ~ var n l -> starts n l = false.
Proof. intros H. destruct (starts n l) eqn:E; [apply var_iff in E; contradiction|reflexivity]. Qed.
Lemma lines_other ls k ac : Forall (fun l => ~ is_online l /\ ~ is_type l) ls -> fold_left kev_line ls (k, ac) = (k, ac).
Proof.
  induction 1 as [|l ls [A B] H IH]; [reflexivity|]. cbn [fold_left]. unfold kev_line at 2. rewrite (not_var _ _ A), (not_var _ _ B).
  destruct (starts #"DEVPATH=" l); exact IH.
Qed.
Lemma lines_type_no ls k : (forall t, In (#"POWER_SUPPLY_TYPE=" ++ t) ls -> ~ ac_type t) -> fold_left kev_line ls (k, false) = (k, false).
Proof.
  induction ls as [|l ls IH]; intros H; [reflexivity|]. cbn [fold_left].
  assert (E : kev_line (k, false) l = (k, false)); [|rewrite E; apply IH; intros t I; apply H; right; exact I].
  unfold kev_line. rewrite andb_false_r. destruct (starts #"DEVPATH=" l); [reflexivity|].
  destruct (starts #"POWER_SUPPLY_TYPE=" l) eqn:T; [|reflexivity]. apply starts_skipn in T.
  change (List.length #"POWER_SUPPLY_TYPE=") with 18%nat in T.
  destruct (is_ac (skipn 18 l)) eqn:A; [|reflexivity]. exfalso. apply is_ac_iff in A. revert A. apply H. left. exact T.
Qed.
Lemma lines_state_no ls k ac : (forall l, In l ls -> ~ is_online l) -> fst (fold_left kev_line ls (k, ac)) = k.
Proof.
  revert ac. induction ls as [|l ls IH]; intros ac H; [reflexivity|]. cbn [fold_left].
  assert (E : exists ac', kev_line (k, ac) l = (k, ac')).
  { unfold kev_line. rewrite (not_var _ _ (H l (or_introl eq_refl))). cbn [andb]. destruct (starts #"DEVPATH=" l); [eauto|]. destruct (starts #"POWER_SUPPLY_TYPE=" l); eauto. }
  destruct E as [ac' ->]. apply IH. intros x I. apply H. right. exact I.
Qed.
Lemma line_type k ac t : kev_line (k, ac) (#"POWER_SUPPLY_TYPE=" ++ t) = (k, is_ac t).
Proof. unfold kev_line. change (starts #"DEVPATH=" (#"POWER_SUPPLY_TYPE=" ++ t)) with false. rewrite starts_app. reflexivity. Qed.
Definition stepped (k : kev) (b : bool) : kev :=
  if b then {| k_online := S (k_online k); k_cond := if Nat.eqb (k_online k) 0 then true else k_cond k |}
  else {| k_online := Nat.pred (k_online k); k_cond := if Nat.eqb (Nat.pred (k_online k)) 0 then false else k_cond k |}.
Lemma line_online k v : kev_line (k, true) (#"POWER_SUPPLY_ONLINE=" ++ v) = (stepped k (check_online v), true).
Proof.
  unfold kev_line. change (starts #"DEVPATH=" (#"POWER_SUPPLY_ONLINE=" ++ v)) with false.
  change (starts #"POWER_SUPPLY_TYPE=" (#"POWER_SUPPLY_ONLINE=" ++ v)) with false. rewrite starts_app. cbn [andb].
  change (skipn 20 (#"POWER_SUPPLY_ONLINE=" ++ v)) with v. reflexivity.
Qed.
Lemma line_change k ac x : kev_line (k, ac) (#"change@" ++ x) = (k, ac).
Proof. reflexivity. Qed.

(** ** Messages *)
Lemma size_eq m : kev_size m = (list_sum (map (@List.length _) m) + List.length m)%nat.
Proof. unfold kev_size. induction m as [|l m IH]; [reflexivity|]. cbn [fold_right map List.length]. rewrite IH. unfold list_sum. cbn [fold_right]. lia. Qed.
Lemma fits_leb m : fits m -> Nat.leb bufsz (kev_size m) = false.
Proof. intros H. rewrite size_eq. unfold fits in H. fold bufsz in H. apply Nat.leb_gt. exact H. Qed.
Lemma silent_keeps k m : silent m -> kev_message k m = Some k.
Proof.
  intros H. unfold kev_message. destruct H as [h l H F|h l H F|m H F|m H F]; rewrite (fits_leb _ F).
  - rewrite (not_var _ _ H). reflexivity.
  - destruct (negb _); [reflexivity|]. destruct (strstr #"power_supply" h) as [[a b]|] eqn:E; [|reflexivity].
    apply strstr_some in E. destruct (H _ _ E).
  - destruct m as [|h l]; [reflexivity|]. destruct (negb _); [reflexivity|]. destruct (strstr _ _); [|reflexivity].
    rewrite lines_type_no by exact H. reflexivity.
  - destruct m as [|h l]; [reflexivity|]. destruct (negb _); [reflexivity|]. destruct (strstr _ _); [|reflexivity].
    rewrite lines_state_no by exact H. reflexivity.
Qed.
Lemma reports_step k m b : reports m b -> kev_message k m = Some (stepped k b).
Proof.
  intros H. destruct H as [x y l1 l2 l3 t v n A N O h m F]. unfold kev_message. rewrite (fits_leb _ F). unfold m at 1.
  unfold h at 1. rewrite starts_app. cbn [negb].
  destruct (strstr #"power_supply" h) as [[a b]|] eqn:E.
  - apply Forall_app in O as [O1 O]. apply Forall_app in O as [O2 O3].
    unfold m, h. cbn [fold_left]. rewrite line_change, fold_left_app, lines_other by exact O1. cbn [fold_left]. rewrite line_type.
    apply is_ac_iff in A. rewrite A, fold_left_app, lines_other by exact O2. cbn [fold_left]. rewrite line_online, lines_other by exact O3.
    rewrite (online_number _ _ N). reflexivity.
  - exfalso. apply strstr_none in E. apply (E (#"change@" ++ x) y). unfold h. rewrite <- app_assoc. reflexivity.
Qed.

Lemma history_good w ms w' : history w ms w' -> w <> [] -> forall k, good false w k -> exists k', kev_run k ms = Some k' /\ good false w' k'.
Proof.
  induction 1 as [w|w m ms w' S H IH|a b c m ms w' R H IH]; intros W k G.
  - exists k. split; [reflexivity|exact G].
  - cbn [kev_run]. rewrite silent_keeps by exact S. apply IH; assumption.
  - cbn [kev_run]. rewrite (reports_step _ _ _ R). apply IH; [destruct a; discriminate|].
    destruct G as [G1 G2]. unfold good in *. rewrite on_app in *. unfold on at 2 in G1. unfold on at 2 in G2. unfold on at 2 4.
    cbn [orb] in *. destruct b; cbn [negb filter stepped k_online k_cond List.length] in *; rewrite G1, G2; split; try lia.
    + destruct (Nat.eqb_spec (Nat.pred (on a + S (List.length (filter (fun b => b) c)))) 0); lia.
    + destruct (Nat.eqb_spec (on a + List.length (filter (fun b => b) c)) 0); lia.
Qed.
Lemma history_none w ms w' : history w ms w' -> w = [] -> w' = [] /\ forall k, kev_run k ms = Some k.
Proof.
  induction 1 as [w|w m ms w' S H IH|a b c m ms w' R H IH]; intros W.
  - auto.
  - destruct (IH W) as [E F]. split; [exact E|]. intros k. cbn [kev_run]. rewrite silent_keeps by exact S. apply F.
  - destruct a; discriminate.
Qed.
Lemma history_length w ms w' : history w ms w' -> List.length w' = List.length w.
Proof. induction 1 as [w|w m ms w' S H IH|a b c m ms w' R H IH]; [reflexivity|exact IH|]. rewrite IH, !app_length. reflexivity. Qed.
Lemma on_in w : Nat.ltb 0 (on w) = true <-> In true w.
Proof.
  rewrite Nat.ltb_lt. unfold on. induction w as [|b w IH]; cbn [filter List.length In]; [split; [lia|easy]|].
  destruct b; cbn [List.length]; [split; [auto|lia]|]. rewrite IH. split; [auto|intros [E|I]; [discriminate|exact I]].
Qed.
Lemma cond_right l w ms w' : supplies l w -> history w ms w' ->
  exists k, kev_run (kev_init l) ms = Some k /\ k_online k = List.length (filter (fun b => b) w') /\ (k_cond k = true <-> w' = [] \/ In true w').
Proof.
  intros S H. pose proof (init_good _ _ S) as G. destruct w as [|b w].
  - destruct (history_none _ _ _ H eq_refl) as [-> R]. exists (kev_init l). destruct G as [G1 G2]. split; [apply R|]. split; [exact G1|].
    rewrite G2. cbn. split; auto.
  - cbn [List.length Nat.eqb] in G.
    assert (W : b :: w <> []) by discriminate.
    destruct (history_good _ _ _ H W _ G) as [k [R [G1 G2]]]. exists k. split; [exact R|]. split; [exact G1|].
    rewrite G2. cbn [orb]. rewrite on_in. split; [auto|]. intros [->|I]; [|exact I]. exfalso.
    apply history_length in H. discriminate.
Qed.
