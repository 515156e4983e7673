(** Control groups: mark and sweep. *)
From Coq Require Import List String Ascii NArith ZArith Bool Lia ZifyBool ZifyNat.
From Verif Require Import CStr CStrLib ParseModel ParseSpec NameProof CgModel CgSpec CgProof.
Import ListNotations.

Lemma path_inj a b : (List.length a < 200)%nat -> (List.length b < 200)%nat -> top_path a = top_path b -> a = b.
Proof.
  intros Ha Hb H. unfold top_path in H. rewrite !strlcpy_id in H.
  - apply app_inv_head in H. apply app_inv_head in H. exact H.
  - rewrite !app_length. change (List.length cgpath) with 14%nat. cbn [List.length list_ascii_of_string]. lia.
  - rewrite !app_length. change (List.length cgpath) with 14%nat. cbn [List.length list_ascii_of_string]. lia.
Qed.

(** ** Lines *)
Lemma line_cases line : (exists n cfg, says line n cfg /\ forall l, parse_cg_line line l = cg_add n cfg false l) \/
  ((forall n cfg, ~ says line n cfg) /\ forall l, parse_cg_line line l = l).
Proof.
  unfold parse_cg_line. destruct (strtoks [" "%char; "009"%char] line) as [|n cfg] eqn:E.
  - right. split; [|reflexivity]. intros n cfg H. inversion H; subst. congruence.
  - destruct (match strstr #".." n with Some _ => true | None => false end) eqn:D.
    + right. split; [|reflexivity]. intros m c H. inversion H; subst. rewrite E in H0. inversion H0. subst.
      destruct (strstr #".." m) as [[x y]|] eqn:S; [|discriminate]. apply strstr_some in S. exact (H2 _ _ S).
    + destruct (mem "/" n) eqn:M.
      * right. split; [|reflexivity]. intros m c H. inversion H; subst. rewrite E in H0. inversion H0. subst.
        apply mem_iff in M. contradiction.
      * left. exists n, (commas cfg). split; [|reflexivity]. econstructor; [exact E|apply mem_false, M|].
        apply has_absent in D. exact D.
Qed.
Lemma says_fun line n c n' c' : says line n c -> says line n' c' -> n = n' /\ c = c'.
Proof. intros [l m cfg E _ _] H'. inversion H' as [l' m' cfg' E' A B]; subst. rewrite E in E'. inversion E'. auto. Qed.

Lemma add_names n cfg l : forall x, In x (map c_name (cg_add n cfg false l)) <-> x = n \/ In x (map c_name l).
Proof.
  intros x. induction l as [|c l IH]; cbn [cg_add map].
  - split; intros [H|[]]; auto; left; exact H || (symmetry; exact H).
  - destruct (str_eqb (c_name c) n) eqn:E.
    + apply str_eqb_eq in E. cbn [map c_name]. cbn [In]. split; intros H; intuition congruence.
    + cbn [map In]. rewrite IH. tauto.
Qed.
Lemma add_nodup n cfg l : NoDup (map c_name l) -> NoDup (map c_name (cg_add n cfg false l)).
Proof.
  induction l as [|c l IH]; cbn [cg_add map]; intros H; [repeat constructor; intros []|].
  inversion H; subst. destruct (str_eqb (c_name c) n) eqn:E.
  - apply str_eqb_eq in E. cbn [map c_name]. rewrite <- E. exact H.
  - cbn [map]. constructor; [|apply IH; assumption]. rewrite add_names. intros [X|X]; [|contradiction].
    rewrite X, str_eqb_refl in E. discriminate.
Qed.
Lemma add_in n cfg l c : NoDup (map c_name l) ->
  (In c (cg_add n cfg false l) <-> c = {| c_name := n; c_cfg := cfg; c_active := true; c_prot := false |} \/ In c l /\ c_name c <> n).
Proof.
  induction l as [|d l IH]; cbn [cg_add map]; intros H.
  - split; [intros [<-|[]]; auto|intros [->|[[] _]]; left; reflexivity].
  - inversion H; subst. destruct (str_eqb (c_name d) n) eqn:E.
    + apply str_eqb_eq in E. cbn [In]. split.
      * intros [<-|I]; [auto|]. right. split; [auto|]. intros X. apply H2. rewrite E, <- X. apply in_map, I.
      * intros [->|[[<-|I] X]]; [auto|contradiction|auto].
    + cbn [In]. rewrite IH by assumption. split.
      * intros [<-|[->|[I X]]]; [right; split; [auto|]|auto|auto].
        intros X. rewrite X, str_eqb_refl in E. discriminate.
      * intros [->|[[<-|I] X]]; auto.
Qed.

Lemma named_snoc ls line n : named (ls ++ [line]) n <-> named ls n \/ exists c, says line n c.
Proof.
  unfold named. split.
  - intros [l [c [I S]]]. apply in_app_or in I as [I|[<-|[]]]; [left|right]; eauto.
  - intros [[l [c [I S]]]|[c S]]; [exists l, c; split; [apply in_or_app; auto|exact S]|exists line, c; split; [apply in_or_app; right; left; reflexivity|exact S]].
Qed.
Lemma last_hit ls line n cfg : says line n cfg -> forall c, last_says (ls ++ [line]) n c <-> c = cfg.
Proof.
  intros S c. split.
  - intros [a [l [b [E [Sl N]]]]]. destruct b as [|x b] using rev_ind.
    + apply app_inj_tail in E as [_ <-]. destruct (says_fun _ _ _ _ _ S Sl). auto.
    + clear IHb. exfalso. replace (a ++ l :: b ++ [x]) with ((a ++ l :: b) ++ [x]) in E by (rewrite <- app_assoc; reflexivity).
      apply app_inj_tail in E as [_ <-]. apply (N line cfg); [apply in_or_app; right; left; reflexivity|exact S].
  - intros ->. exists ls, line, []. split; [reflexivity|]. split; [exact S|]. intros l c [].
Qed.
Lemma last_miss ls line n : (forall c, ~ says line n c) -> forall c, last_says (ls ++ [line]) n c <-> last_says ls n c.
Proof.
  intros S c. split.
  - intros [a [l [b [E [Sl N]]]]]. destruct b as [|x b] using rev_ind.
    + apply app_inj_tail in E as [_ <-]. destruct (S _ Sl).
    + clear IHb. replace (a ++ l :: b ++ [x]) with ((a ++ l :: b) ++ [x]) in E by (rewrite <- app_assoc; reflexivity).
      apply app_inj_tail in E as [-> _]. exists a, l, b. split; [reflexivity|]. split; [exact Sl|]. intros l' c' I. apply N. apply in_or_app. auto.
  - intros [a [l [b [-> [Sl N]]]]]. exists a, l, (b ++ [line]). split; [rewrite <- app_assoc; reflexivity|]. split; [exact Sl|].
    intros l' c' I. apply in_app_or in I as [I|[<-|[]]]; [apply N, I|apply S].
Qed.

Definition mk (n cfg : cstr) : cg := {| c_name := n; c_cfg := cfg; c_active := true; c_prot := false |}.
Lemma lines_in lines l0 : NoDup (map c_name l0) -> let l := fold_left (fun l line => parse_cg_line line l) lines l0 in
  NoDup (map c_name l) /\
  forall c, In c l <-> (exists cfg, last_says lines (c_name c) cfg /\ c = mk (c_name c) cfg) \/ (~ named lines (c_name c) /\ In c l0).
Proof.
  intros N0. induction lines as [|line ls [N IH]] using rev_ind; cbn zeta in *.
  - split; [exact N0|]. intros c. cbn [fold_left]. split.
    + intros I. right. split; [|exact I]. intros [l [cc [[] _]]].
    + intros [[cfg [[a [l [b [E _]]]] _]]|[_ I]]; [destruct a; discriminate|exact I].
  - rewrite fold_left_app. cbn [fold_left]. set (l := fold_left _ ls l0) in *.
    destruct (line_cases line) as [[n [cfg [S P]]]|[S P]]; rewrite P.
    + split; [apply add_nodup, N|]. intros c. rewrite add_in by exact N. split.
      * intros [->|[I X]].
        -- left. exists cfg. cbn [c_name]. split; [apply (last_hit _ _ _ _ S); reflexivity|reflexivity].
        -- assert (M : forall k, ~ says line (c_name c) k) by (intros k Sk; destruct (says_fun _ _ _ _ _ S Sk); congruence).
           apply IH in I as [[k [L E]]|[L I]]; [left; exists k; split; [apply last_miss; assumption|exact E]|right; split; [|exact I]].
           rewrite named_snoc. intros [H|[k H]]; [contradiction|exact (M _ H)].
      * intros [[k [L E]]|[L I]].
        -- destruct (str_eqb (c_name c) n) eqn:X.
           ++ apply str_eqb_eq in X. rewrite X in L. apply (last_hit _ _ _ _ S) in L. subst k. left. rewrite E, X. reflexivity.
           ++ assert (Y : c_name c <> n) by (intros Y; rewrite Y, str_eqb_refl in X; discriminate). right. split; [|exact Y].
              apply IH. left. exists k. split; [|exact E]. apply last_miss in L; [exact L|].
              intros j Sj; destruct (says_fun _ _ _ _ _ S Sj); congruence.
        -- rewrite named_snoc in L. right. split; [apply IH; right; split; [tauto|exact I]|]. intros X. apply L. right. exists cfg. rewrite X. exact S.
    + split; [exact N|]. intros c. rewrite IH. rewrite named_snoc. split.
      * intros [[k [L E]]|[L I]]; [left; exists k; split; [apply last_miss; [intros j; apply S|exact L]|exact E]|right; split; [|exact I]].
        intros [H|[k H]]; [contradiction|exact (S _ _ H)].
      * intros [[k [L E]]|[L I]]; [left; exists k; split; [apply last_miss in L; [exact L|intros j; apply S]|exact E]|right; tauto].
Qed.

(** ** The sweep *)
Definition short (n : cstr) : Prop := (List.length n < 200)%nat.
Definition keep (gone : cstr -> bool) (c : cg) : bool := c_active c || negb (gone (top_path (c_name c))).
Lemma del_at gone c k s : Forall (fun d => short (c_name d)) (k ++ c :: s) -> NoDup (map c_name (k ++ c :: s)) -> c_active c = false ->
  cg_del_ gone (top_path (c_name c)) (k ++ c :: s) = (k ++ (if gone (top_path (c_name c)) then s else c :: s), true).
Proof.
  intros Sh N A. induction k as [|d k IH].
  - cbn [app cg_del_]. rewrite str_eqb_refl, A. reflexivity.
  - cbn [app cg_del_]. cbn [app map] in N. inversion N; subst. inversion Sh; subst.
    destruct (str_eqb (top_path (c_name d)) (top_path (c_name c))) eqn:E.
    + exfalso. apply str_eqb_eq in E. apply path_inj in E.
      * apply H1. rewrite E. apply in_map. apply in_or_app. right. left. reflexivity.
      * exact H3.
      * rewrite Forall_forall in H4. apply H4. apply in_or_app. right. left. reflexivity.
    + rewrite IH by assumption. reflexivity.
Qed.
Lemma sweep_fold gone : forall s k rm, Forall (fun d => short (c_name d)) (k ++ s) -> NoDup (map c_name (k ++ s)) ->
  fold_left (fun a c => if c_active c then a else
                        let (l, b) := cg_del_ gone (top_path (c_name c)) (fst a) in
                        (l, if b then snd a ++ [top_path (c_name c)] else snd a)) s (k ++ s, rm)
  = (k ++ filter (keep gone) s, rm ++ map (fun c => top_path (c_name c)) (filter (fun c => negb (c_active c)) s)).
Proof.
  induction s as [|c s IH]; intros k rm Sh N; [cbn; rewrite !app_nil_r; reflexivity|].
  cbn [fold_left filter]. unfold keep at 1. destruct (c_active c) eqn:A; cbn [orb negb].
  - replace (k ++ c :: s) with ((k ++ [c]) ++ s) in * by (rewrite <- app_assoc; reflexivity). rewrite IH by assumption.
    rewrite <- app_assoc. reflexivity.
  - cbn [fst snd]. rewrite del_at by assumption. cbn [map].
    destruct (gone (top_path (c_name c))) eqn:G; cbn [negb].
    + rewrite IH.
      * rewrite <- app_assoc. reflexivity.
      * rewrite Forall_app in *. destruct Sh as [Sh1 Sh2]. inversion Sh2; auto.
      * rewrite map_app in *. cbn [map] in N. apply NoDup_remove_1 in N. exact N.
    + replace (k ++ c :: s) with ((k ++ [c]) ++ s) in * by (rewrite <- app_assoc; reflexivity). rewrite IH by assumption.
      rewrite <- !app_assoc. reflexivity.
Qed.
Lemma cleanup_eq gone l : Forall (fun d => short (c_name d)) l -> NoDup (map c_name l) ->
  cleanup gone l = (filter (keep gone) l, map (fun c => top_path (c_name c)) (filter (fun c => negb (c_active c)) l)).
Proof. intros Sh N. unfold cleanup. exact (sweep_fold gone l [] [] Sh N). Qed.

Lemma mark_names l : map c_name (mark_all l) = map c_name l.
Proof. unfold mark_all. rewrite map_map. apply map_ext. intros c. destruct (c_prot c); reflexivity. Qed.
Lemma toks_short line t : (List.length line < 200)%nat -> In t (strtoks [" "; "009"]%char line) -> (List.length t < 200)%nat.
Proof.
  intros L. pose proof (strtoks_tokens [" "; "009"]%char line) as H. revert H. generalize (strtoks [" "; "009"]%char line). intros ts H.
  induction H as [s H|a w Ha Hw Hf|a w d s ws Ha Hw Hf Hd H IH]; intros I.
  - destruct I.
  - destruct I as [<-|[]]. rewrite app_length in L. lia.
  - rewrite !app_length in L. cbn [List.length] in L. destruct I as [<-|I]; [lia|]. apply IH; [lia|exact I].
Qed.
Lemma says_short line n c : (List.length line < 200)%nat -> says line n c -> short n.
Proof. intros L S. inversion S; subst. apply (toks_short line n L). rewrite H. left. reflexivity. Qed.

(** what holds of the groups between reloads *)
Definition wf (l : list cg) : Prop :=
  NoDup (map c_name l) /\ Forall (fun c => short (c_name c)) l /\ Forall (fun c => c_prot c = true -> c_active c = true) l.
Lemma reload_eq gone lines l : wf l -> short_lines lines -> exists l1,
  r_groups (cg_reload gone lines l) = filter (keep gone) l1 /\
  r_removed (cg_reload gone lines l) = map (fun c => top_path (c_name c)) (filter (fun c => negb (c_active c)) l1) /\
  r_made (cg_reload gone lines l) = config l1 /\
  NoDup (map c_name l1) /\ Forall (fun c => short (c_name c)) l1 /\
  forall c, In c l1 <-> (exists cfg, last_says lines (c_name c) cfg /\ c = mk (c_name c) cfg) \/ (~ named lines (c_name c) /\ In c (mark_all l)).
Proof.
  intros [N [Sh A]] Ls. pose proof (lines_in lines (mark_all l)) as H. rewrite mark_names in H. specialize (H N). cbn zeta in H. destruct H as [N1 H].
  exists (fold_left (fun l line => parse_cg_line line l) lines (mark_all l)).
  assert (Sh1 : Forall (fun c => short (c_name c)) (fold_left (fun l line => parse_cg_line line l) lines (mark_all l))).
  { apply Forall_forall. intros c I. apply H in I as [[cfg [[a [x [b [-> [S _]]]]] _]]|[_ I]].
    - apply Forall_app in Ls as [_ Ls]. inversion Ls; subst. eapply says_short; eassumption.
    - apply (in_map c_name) in I. rewrite mark_names in I. apply in_map_iff in I as [d [<- I]]. rewrite Forall_forall in Sh. apply Sh, I. }
  unfold cg_reload. rewrite cleanup_eq by assumption. cbn [r_groups r_made r_removed].
  split; [reflexivity|]. split; [reflexivity|]. split; [reflexivity|]. auto.
Qed.
Lemma mark_in l c : In c (mark_all l) -> In c l /\ c_prot c = true \/ exists d, In d l /\ c_prot d = false /\ c = {| c_name := c_name d; c_cfg := c_cfg d; c_active := false; c_prot := c_prot d |}.
Proof.
  unfold mark_all. intros I. apply in_map_iff in I as [d [E I]]. destruct (c_prot d) eqn:P.
  - left. subst c. auto.
  - right. exists d. rewrite <- E, P. auto.
Qed.
Lemma in_mark l c : In c l -> c_prot c = true -> In c (mark_all l).
Proof. intros I P. unfold mark_all. apply in_map_iff. exists c. rewrite P. auto. Qed.
Lemma in_mark_not l c : In c l -> c_prot c = false -> In {| c_name := c_name c; c_cfg := c_cfg c; c_active := false; c_prot := c_prot c |} (mark_all l).
Proof. intros I P. unfold mark_all. apply in_map_iff. exists c. rewrite P. auto. Qed.
Lemma nodup_filter {A B} (f : A -> B) p l : NoDup (map f l) -> NoDup (map f (filter p l)).
Proof.
  induction l as [|x l IH]; [auto|]. cbn [map filter]. intros H. inversion H; subst. destruct (p x); [|auto]. cbn [map]. constructor; [|auto].
  intros I. apply H2. apply in_map_iff in I as [y [E I]]. apply filter_In in I as [I _]. rewrite <- E. apply in_map, I.
Qed.
Lemma reload_wf gone lines l : wf l -> short_lines lines -> wf (r_groups (cg_reload gone lines l)).
Proof.
  intros W Ls. destruct (reload_eq gone lines l W Ls) as [l1 [-> [_ [_ [N [Sh H]]]]]]. split; [apply nodup_filter, N|]. split.
  - apply Forall_forall. intros c I. apply filter_In in I as [I _]. rewrite Forall_forall in Sh. apply Sh, I.
  - apply Forall_forall. intros c I P. apply filter_In in I as [I _]. apply H in I as [[cfg [_ E]]|[_ I]].
    + rewrite E in P. discriminate.
    + apply mark_in in I as [[I _]|[d [_ [Pd ->]]]]; [|cbn [c_prot] in P; congruence].
      destruct W as [_ [_ A]]. rewrite Forall_forall in A. apply A; assumption.
Qed.
Lemma init_wf : wf cg_init.
Proof.
  split; [|split].
  - change (map c_name cg_init) with [#"init"; #"system"; #"user"]. repeat constructor; intros I; repeat (destruct I as [I|I]; [discriminate|]); exact I.
  - repeat constructor; unfold short; cbn; lia.
  - repeat constructor.
Qed.
Lemma run_wf gone confs : Forall short_lines confs -> wf (cg_run gone confs).
Proof.
  intros H. unfold cg_run. generalize O. pose proof init_wf as W. revert W. generalize cg_init.
  induction H as [|ls confs Hl H IH]; intros l W n; [exact W|]. cbn [fold_left fst snd]. apply IH. apply reload_wf; assumption.
Qed.

(** ** What a reload does *)
Lemma config_in l d w : In (d, w) (config l) <-> exists c, In c l /\ c_active c = true /\ d = top_path (c_name c) /\ w = settings d (c_cfg c).
Proof.
  unfold config. rewrite in_flat_map. split.
  - intros [c [I H]]. destruct (c_active c) eqn:A; [|destruct H]. destruct H as [H|[]]. inversion H. exists c. auto.
  - intros [c [I [A [-> ->]]]]. exists c. rewrite A. split; [exact I|left; reflexivity].
Qed.
Lemma reload_line gone lines l n cfg : wf l -> short_lines lines -> last_says lines n cfg ->
  In (mk n cfg) (r_groups (cg_reload gone lines l)) /\ In (top_path n, settings (top_path n) cfg) (r_made (cg_reload gone lines l)) /\
  ~ In (top_path n) (r_removed (cg_reload gone lines l)).
Proof.
  intros W Ls S. destruct (reload_eq gone lines l W Ls) as [l1 [-> [-> [-> [N [Sh H]]]]]].
  assert (I : In (mk n cfg) l1) by (apply H; left; exists cfg; auto).
  split; [apply filter_In; auto|]. split; [apply config_in; exists (mk n cfg); auto|].
  intros R. apply in_map_iff in R as [c [E R]]. apply filter_In in R as [R A]. rewrite Forall_forall in Sh.
  apply path_inj in E; [|exact (Sh _ R)|exact (Sh _ I)]. apply H in R as [[k [_ Ek]]|[R _]].
  - rewrite Ek in A. discriminate.
  - apply R. rewrite E. destruct S as [a [x [b [-> [S _]]]]]. exists x, cfg. split; [apply in_or_app; right; left; reflexivity|exact S].
Qed.
Lemma reload_protected gone lines l c : wf l -> short_lines lines -> In c l -> c_prot c = true -> ~ named lines (c_name c) ->
  In c (r_groups (cg_reload gone lines l)) /\ In (top_path (c_name c), settings (top_path (c_name c)) (c_cfg c)) (r_made (cg_reload gone lines l)) /\
  ~ In (top_path (c_name c)) (r_removed (cg_reload gone lines l)).
Proof.
  intros W Ls I P Nn. destruct (reload_eq gone lines l W Ls) as [l1 [-> [-> [-> [N [Sh H]]]]]].
  assert (A : c_active c = true) by (destruct W as [_ [_ A]]; rewrite Forall_forall in A; auto).
  assert (J : In c l1) by (apply H; right; split; [exact Nn|apply in_mark; assumption]).
  split; [apply filter_In; unfold keep; rewrite A; auto|]. split; [apply config_in; exists c; auto|].
  intros R. apply in_map_iff in R as [d [E R]]. apply filter_In in R as [R B]. rewrite Forall_forall in Sh.
  apply path_inj in E; [|exact (Sh _ R)|exact (Sh _ J)]. assert (d = c); [|subst; rewrite A in B; discriminate].
  clear - N R J E. induction l1 as [|x l1 IH]; [destruct R|]. cbn [map] in N. inversion N; subst.
  destruct R as [->|R], J as [->|J]; auto.
  - exfalso. apply H1. rewrite E. apply in_map, J.
  - exfalso. apply H1. rewrite <- E. apply in_map, R.
Qed.
Lemma reload_dropped gone lines l c : wf l -> short_lines lines -> In c l -> c_prot c = false -> ~ named lines (c_name c) ->
  In (top_path (c_name c)) (r_removed (cg_reload gone lines l)) /\
  (gone (top_path (c_name c)) = true -> ~ In (c_name c) (map c_name (r_groups (cg_reload gone lines l)))).
Proof.
  intros W Ls I P Nn. destruct (reload_eq gone lines l W Ls) as [l1 [-> [-> [_ [N [Sh H]]]]]].
  assert (J : In {| c_name := c_name c; c_cfg := c_cfg c; c_active := false; c_prot := c_prot c |} l1) by (apply H; right; split; [exact Nn|apply in_mark_not; assumption]).
  split.
  - apply in_map_iff. eexists. split; [|apply filter_In; split; [exact J|reflexivity]]. reflexivity.
  - intros G R. apply in_map_iff in R as [d [E R]]. apply filter_In in R as [R K]. unfold keep in K. rewrite E, G, orb_false_r in K.
    apply H in R as [[k [[a [x [b [-> [S _]]]]] _]]|[_ R]].
    + apply Nn. rewrite <- E. exists x, k. split; [apply in_or_app; right; left; reflexivity|exact S].
    + apply mark_in in R as [[R Pd]|[e [_ [_ ->]]]]; [|discriminate].
      assert (d = c); [|subst; congruence]. destruct W as [Nl _]. clear - Nl R I E.
      induction l as [|x l IH]; [destruct R|]. cbn [map] in Nl. inversion Nl; subst. destruct R as [->|R], I as [->|I]; auto.
      * exfalso. apply H1. rewrite E. apply in_map, I.
      * exfalso. apply H1. rewrite <- E. apply in_map, R.
Qed.
Lemma reload_only gone lines l : wf l -> short_lines lines ->
  (forall d, In d (r_removed (cg_reload gone lines l)) -> exists c, In c l /\ c_prot c = false /\ ~ named lines (c_name c) /\ d = top_path (c_name c)) /\
  (forall d w, In (d, w) (r_made (cg_reload gone lines l)) -> exists n cfg, d = top_path n /\ w = settings d cfg /\
     (last_says lines n cfg \/ ~ named lines n /\ exists c, In c l /\ c_prot c = true /\ c_name c = n /\ c_cfg c = cfg)).
Proof.
  intros W Ls. destruct (reload_eq gone lines l W Ls) as [l1 [_ [-> [-> [N [Sh H]]]]]]. split.
  - intros d R. apply in_map_iff in R as [c [<- R]]. apply filter_In in R as [R A]. apply H in R as [[k [_ E]]|[Nn R]].
    + rewrite E in A. discriminate.
    + apply mark_in in R as [[R P]|[e [I [P ->]]]].
      * exfalso. destruct W as [_ [_ B]]. rewrite Forall_forall in B. rewrite (B _ R P) in A. discriminate.
      * exists e. auto.
  - intros d w R. apply config_in in R as [c [I [A [-> ->]]]]. exists (c_name c), (c_cfg c). split; [reflexivity|]. split; [reflexivity|].
    apply H in I as [[k [L E]]|[Nn R]].
    + left. rewrite E. cbn [mk c_name c_cfg]. exact L.
    + right. split; [exact Nn|]. apply mark_in in R as [[R P]|[e [I [P ->]]]]; [|discriminate]. exists c. auto.
Qed.

(** ** Histories *)
Lemma run_snoc gone confs ls : cg_run gone (confs ++ [ls]) = r_groups (cg_reload (gone (List.length confs)) ls (cg_run gone confs)).
Proof.
  unfold cg_run. rewrite fold_left_app. cbn [fold_left fst snd].
  assert (E : forall l n, fst (fold_left (fun a ls => (S (fst a), r_groups (cg_reload (gone (fst a)) ls (snd a)))) confs (n, l)) = (n + List.length confs)%nat).
  { induction confs as [|c confs IH]; intros l n; cbn [fold_left fst snd List.length]; [lia|]. rewrite IH. lia. }
  rewrite E. reflexivity.
Qed.
Lemma default_in gone confs n cfg : Forall short_lines confs -> default_group n cfg -> Forall (fun ls => ~ named ls n) confs ->
  In {| c_name := n; c_cfg := cfg; c_active := true; c_prot := true |} (cg_run gone confs).
Proof.
  intros Sh D Nn. induction confs as [|ls confs IH] using rev_ind.
  - unfold cg_run. cbn [fold_left snd]. destruct D as [D|[D|[D|[]]]]; inversion D; subst; cbn; auto.
  - apply Forall_app in Sh as [Sh Sl], Nn as [Nn Nl]. inversion Sl; subst. inversion Nl; subst.
    rewrite run_snoc. apply reload_protected; auto. apply run_wf, Sh.
Qed.
Lemma default_kept gone confs lines g n cfg : Forall short_lines confs -> short_lines lines -> default_group n cfg ->
  Forall (fun ls => ~ named ls n) (confs ++ [lines]) ->
  In (top_path n, settings (top_path n) cfg) (r_made (cg_reload g lines (cg_run gone confs))) /\
  ~ In (top_path n) (r_removed (cg_reload g lines (cg_run gone confs))).
Proof.
  intros Sh Sl D Nn. apply Forall_app in Nn as [Nn Nl]. inversion Nl; subst.
  pose proof (default_in gone confs n cfg Sh D Nn) as I.
  destruct (reload_protected g lines _ _ (run_wf gone confs Sh) Sl I eq_refl H1) as [_ [A B]]. auto.
Qed.
Lemma unprot_named gone confs c : Forall short_lines confs -> In c (cg_run gone confs) -> c_prot c = false -> exists ls, In ls confs /\ named ls (c_name c).
Proof.
  intros Sh. revert c. induction confs as [|ls confs IH] using rev_ind; intros c I P.
  - exfalso. unfold cg_run in I. cbn [fold_left snd] in I. cbn in I. repeat (destruct I as [<-|I]; [discriminate|]). destruct I.
  - apply Forall_app in Sh as [Sh Sl]. inversion Sl; subst. rewrite run_snoc in I.
    destruct (reload_eq (gone (List.length confs)) ls _ (run_wf gone confs Sh) H1) as [l1 [E [_ [_ [_ [_ H]]]]]]. rewrite E in I.
    apply filter_In in I as [I _]. apply H in I as [[k [[a [x [b [-> [S _]]]]] _]]|[_ I]].
    + exists (a ++ x :: b). split; [apply in_or_app; right; left; reflexivity|]. exists x, k. split; [apply in_or_app; right; left; reflexivity|exact S].
    + apply mark_in in I as [[I _]|[d [I [Pd ->]]]].
      * destruct (IH Sh _ I P) as [ls' [J K]]. exists ls'. split; [apply in_or_app; auto|exact K].
      * destruct (IH Sh _ I Pd) as [ls' [J K]]. exists ls'. split; [apply in_or_app; auto|exact K].
Qed.
Lemma named_last ls n : named ls n -> exists c, last_says ls n c.
Proof.
  induction ls as [|x ls IH] using rev_ind; intros H.
  - destruct H as [l [c [[] _]]].
  - destruct (line_cases x) as [[m [k [S _]]]|[S _]].
    + destruct (str_eqb m n) eqn:E.
      * apply str_eqb_eq in E. subst m. exists k. apply (last_hit _ _ _ _ S). reflexivity.
      * assert (M : forall c, ~ says x n c) by (intros c Sc; destruct (says_fun _ _ _ _ _ S Sc); subst; rewrite str_eqb_refl in E; discriminate).
        apply named_snoc in H as [H|[c H]]; [|destruct (M _ H)]. destruct (IH H) as [c L]. exists c. apply last_miss; assumption.
    + apply named_snoc in H as [H|[c H]]; [|destruct (S _ _ H)]. destruct (IH H) as [c L]. exists c. apply last_miss; [intros j; apply S|exact L].
Qed.
Lemma dropped gone confs ls lines g n : Forall short_lines (confs ++ [ls]) -> short_lines lines -> named ls n -> ~ named lines n ->
  In (top_path n) (r_removed (cg_reload g lines (cg_run gone (confs ++ [ls])))) /\
  (g (top_path n) = true -> ~ In n (map c_name (r_groups (cg_reload g lines (cg_run gone (confs ++ [ls])))))).
Proof.
  intros Sh Sl Nl Nn. pose proof (run_wf gone _ Sh) as W. apply Forall_app in Sh as [Sh S1]. inversion S1; subst.
  destruct (named_last _ _ Nl) as [cfg L].
  destruct (reload_line (gone (List.length confs)) ls (cg_run gone confs) n cfg (run_wf gone confs Sh) H1 L) as [I _]. rewrite <- run_snoc in I.
  exact (reload_dropped g lines _ _ W Sl I eq_refl Nn).
Qed.
Lemma removed_only gone confs lines g d : Forall short_lines confs -> short_lines lines ->
  In d (r_removed (cg_reload g lines (cg_run gone confs))) -> exists n, d = top_path n /\ ~ named lines n /\ exists ls, In ls confs /\ named ls n.
Proof.
  intros Sh Sl I. destruct (proj1 (reload_only g lines _ (run_wf gone confs Sh) Sl) d I) as [c [J [P [Nn ->]]]].
  exists (c_name c). split; [reflexivity|]. split; [exact Nn|]. apply (unprot_named gone confs c Sh J P).
Qed.
Lemma run_protected gone confs c : In c (cg_run gone confs) -> Forall short_lines confs -> c_prot c = true ->
  default_group (c_name c) (c_cfg c) /\ Forall (fun ls => ~ named ls (c_name c)) confs.
Proof.
  intros I Sh P. revert c I P. induction confs as [|ls confs IH] using rev_ind; intros c I P.
  - split; [|constructor]. unfold cg_run in I. cbn [fold_left snd] in I. cbn in I. unfold default_group. repeat (destruct I as [<-|I]; [cbn; auto|]). destruct I.
  - apply Forall_app in Sh as [Sh Sl]. inversion Sl; subst. rewrite run_snoc in I.
    destruct (reload_eq (gone (List.length confs)) ls _ (run_wf gone confs Sh) H1) as [l1 [E [_ [_ [_ [_ H]]]]]]. rewrite E in I.
    apply filter_In in I as [I _]. apply H in I as [[k [_ Ek]]|[Nn I]].
    + rewrite Ek in P. discriminate.
    + apply mark_in in I as [[I _]|[d [I [Pd ->]]]]; [|cbn [c_prot] in P; congruence].
      destruct (IH Sh _ I P) as [D F]. split; [exact D|]. apply Forall_app. split; [exact F|]. constructor; [exact Nn|constructor].
Qed.
Lemma made_only gone confs lines g d w : Forall short_lines confs -> short_lines lines ->
  In (d, w) (r_made (cg_reload g lines (cg_run gone confs))) -> exists n cfg, d = top_path n /\ w = settings d cfg /\
    (last_says lines n cfg \/ default_group n cfg /\ Forall (fun ls => ~ named ls n) (confs ++ [lines])).
Proof.
  intros Sh Sl I. destruct (proj2 (reload_only g lines _ (run_wf gone confs Sh) Sl) d w I) as [n [cfg [-> [-> H]]]].
  exists n, cfg. split; [reflexivity|]. split; [reflexivity|]. destruct H as [H|[Nn [c [J [P [<- <-]]]]]]; [left; exact H|right].
  destruct (run_protected gone confs c J Sh P) as [D F]. split; [exact D|]. apply Forall_app. auto.
Qed.

(** ** A service's group *)
Lemma option_fresh cur n text : (forall m, n = Some m -> ~ In ":"%char m /\ (List.length m < 16)%nat) -> (List.length cur < 16)%nat -> (List.length text < 128)%nat ->
  reg_cgroup cur (Some (group_option n text)) fresh_group = Some {| g_name := match n with Some m => m | None => cur end; g_cfg := text |}.
Proof.
  intros Hn Hc Ht. assert (L : Nat.leb 144 (List.length text) = false) by (apply Nat.leb_gt; lia).
  destruct n as [m|].
  - destruct (Hn m eq_refl) as [N Hm]. change (group_option (Some m) text) with ("."%char :: m ++ ":"%char :: text).
    assert (E : strchr ":" (m ++ ":"%char :: text) = Some (m, text)) by (apply strchr_some; auto).
    transitivity (match strchr ":" (m ++ ":"%char :: text) with
      | Some (n, p) => Some (if Nat.leb 144 (List.length p) then {| g_name := strlcpy 16 n; g_cfg := [] |} else {| g_name := strlcpy 16 n; g_cfg := strlcpy 128 p |})
      | None => Some {| g_name := strlcpy 16 (m ++ ":"%char :: text); g_cfg := [] |} end); [reflexivity|].
    rewrite E, L, !strlcpy_id by assumption. reflexivity.
  - transitivity (Some (if Nat.leb 144 (List.length text) then {| g_name := strlcpy 16 cur; g_cfg := [] |} else {| g_name := strlcpy 16 cur; g_cfg := strlcpy 128 text |})); [reflexivity|].
    rewrite L, !strlcpy_id by assumption. reflexivity.
Qed.
Lemma service_dir isdir name n cfg : n <> #"root" -> n <> #"init" ->
  cgroup_service isdir name {| g_name := n; g_cfg := cfg |} =
  let path := strlcpy 256 (cgpath ++ #"/" ++ group_of isdir n ++ #"/" ++ name) in (path, settings path cfg).
Proof.
  intros R I. unfold cgroup_service. cbn [g_name g_cfg].
  destruct (str_eqb n #"root") eqn:E1; [apply str_eqb_eq in E1; contradiction|].
  destruct (str_eqb n #"init") eqn:E2; [apply str_eqb_eq in E2; contradiction|].
  unfold group_of, top_path. destruct n; reflexivity.
Qed.
Lemma service_whole isdir cur n name l : let m := match n with Some m => m | None => cur end in
  (forall m, n = Some m -> ~ In ":"%char m) -> (List.length m < 16)%nat -> (List.length cur < 16)%nat -> m <> #"root" -> m <> #"init" ->
  (List.length name < 100)%nat -> Forall good_setting l -> (List.length (settings_text l) < 128)%nat ->
  let path := cgpath ++ #"/" ++ group_of isdir m ++ #"/" ++ name in
  Forall (fun s => (List.length (setting_file path s) < 256)%nat) l ->
  exists g, reg_cgroup cur (Some (group_option n (settings_text l))) fresh_group = Some g /\
  cgroup_service isdir name g = (path, map (fun s => (setting_file path s, s_val s)) l).
Proof.
  intros m Hn Hm Hc Hr Hi Hname G Ht path Hf. eexists. split.
  - apply option_fresh; [|exact Hc|exact Ht]. intros k ->. split; [apply Hn; reflexivity|exact Hm].
  - fold m. rewrite service_dir by assumption. cbn zeta. rewrite strlcpy_id.
    + fold path. rewrite written by assumption. reflexivity.
    + rewrite !app_length. change (List.length cgpath) with 14%nat. cbn [List.length list_ascii_of_string].
      assert (List.length (group_of isdir m) < 16)%nat; [|lia].
      unfold group_of. destruct m; [cbn; lia|]. destruct (isdir _); [exact Hm|cbn; lia].
Qed.
