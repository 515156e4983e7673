(** Proofs about the configuration parsers, continued. *)
From Coq Require Import List String Ascii NArith ZArith Bool Lia Arith ZifyBool ZifyN.
From Verif Require Import CStr ParseModel ParseSpec CStrLib.
Import ListNotations.
Local Open Scope Z_scope.

Notation comma := (fun c => In c #",").
Lemma strtoks_join ts : Forall (fun t => t <> [] /\ Forall (fun c => ~ In c #",") t) ts -> strtoks #"," (join #"," ts) = ts.
Proof.
  intros H. apply tokens_strtoks. induction H as [|t ts [Ht Hf] H IH]; [constructor; constructor|].
  destruct ts as [|t2 ts].
  - cbn [join]. replace t with ([] ++ t) at 1 by reflexivity. apply tok_last; auto.
  - change (join #"," (t :: t2 :: ts)) with ([] ++ t ++ ","%char :: join #"," (t2 :: ts)). apply tok_more; auto. left. reflexivity.
Qed.
Lemma tokens_pieces del s ts : tokens del s ts -> Forall (fun t => t <> [] /\ Forall (fun c => ~ del c) t) ts.
Proof. induction 1; constructor; auto. Qed.
Lemma strtoks_pieces s : Forall (fun t => t <> [] /\ Forall (fun c => ~ In c #",") t) (strtoks #"," s).
Proof. eapply tokens_pieces. apply strtoks_tokens. Qed.
(** the list put together again is not longer than the text: strlcat does not
    truncate *)
Lemma join_length s : (List.length (join #"," (strtoks #"," s)) <= List.length s)%nat.
Proof.
  pose proof (strtoks_tokens #"," s) as H. revert H. generalize (strtoks #"," s). intros ts H.
  induction H as [s H|a w Ha Hw Hf|a w d s ws Ha Hw Hf Hd H IH]; cbn [join List.length]; rewrite ?app_length; cbn [List.length]; try lia.
  destruct ws as [|w2 ws]; [cbn [join]; lia|].
  assert (E : forall x, List.length (w ++ #"," ++ x) = (List.length w + S (List.length x))%nat) by (intros x; rewrite app_length; reflexivity).
  rewrite E. lia.
Qed.

(** ** C29 *)
Lemma comma_iff c : In c #"," <-> c = ","%char.
Proof. cbn. intuition. Qed.
Lemma tokens_ext del del' s ts : (forall c, del c <-> del' c) -> tokens del s ts -> tokens del' s ts.
Proof.
  intros E. assert (F : forall l, Forall del l -> Forall del' l) by (intros l; apply Forall_impl; intros c; apply E).
  assert (G : forall l, Forall (fun c => ~ del c) l -> Forall (fun c => ~ del' c) l)
    by (intros l; apply Forall_impl; intros c; rewrite E; auto).
  induction 1 as [s H|a w Ha Hw Hf|a w d s ws Ha Hw Hf Hd H IH].
  - apply tok_end. auto.
  - apply tok_last; auto.
  - apply tok_more; auto. apply E, Hd.
Qed.
Lemma parse_cond_lem daemon runtask o bang b r :
  ~ In ">"%char b -> (bang = false -> forall b', b <> "!"%char :: b') -> (List.length b < MAX_COND_LEN)%nat ->
  (r = [] \/ exists r', r = ">"%char :: r') ->
  let o' := parse_cond daemon runtask o (Some ((if bang : bool then #"!" else []) ++ b ++ r)) in
  (forall names, tokens (eq ","%char) (cs_cond o') names <-> tokens (eq ","%char) b names) /\
  cs_sighup o' = (if bang then runtask else daemon || cs_sighup o) /\
  cs_once o' = (if bang && runtask then true else cs_once o).
Proof.
  intros H1 H2 H3 Hr. cbv zeta. unfold parse_cond.
  assert (E : (match (if bang then #"!" else []) ++ b ++ r with
        | c :: r0 => if ch_eqb c "!" then (r0, runtask, if runtask then true else cs_once o)
                    else ((if bang then #"!" else []) ++ b ++ r, if daemon then true else cs_sighup o, cs_once o)
        | [] => ((if bang then #"!" else []) ++ b ++ r, if daemon then true else cs_sighup o, cs_once o)
        end) = (b ++ r, (if bang then runtask else if daemon then true else cs_sighup o),
                if bang then if runtask then true else cs_once o else cs_once o)).
  { destruct bang; [reflexivity|]. cbn [app]. destruct b as [|c b].
    - destruct Hr as [->|[r' ->]]; reflexivity.
    - cbn [app]. destruct (ch_eqb c "!") eqn:Ec; [|reflexivity]. apply ch_eqb_eq in Ec. subst. exfalso. eapply H2; eauto. }
  cbv zeta. rewrite E. clear E. cbv beta iota zeta.
  rewrite cut_app.
  2:{ apply Forall_forall. intros x Hx. apply ch_eqb_neq. intros ->. contradiction. }
  2:{ destruct Hr as [->|[r' ->]]; [exact I|reflexivity]. }
  cbn [fst]. replace (Nat.leb MAX_COND_LEN (List.length b)) with false by (symmetry; apply Nat.leb_gt; lia).
  cbn [cs_cond cs_sighup cs_once]. split.
  - assert (Q : forall s ts, tokens (eq ","%char) s ts <-> strtoks #"," s = ts).
    { intros s ts. split.
      - intros H. apply tokens_strtoks. eapply tokens_ext; [|exact H]. intros c. rewrite comma_iff. intuition.
      - intros <-. eapply tokens_ext; [|apply strtoks_tokens]. intros c. rewrite comma_iff. intuition. }
    intros names. rewrite !Q, strtoks_join by apply strtoks_pieces. reflexivity.
  - split; destruct bang, daemon, runtask; reflexivity.
Qed.
Lemma parse_cond_long_lem daemon runtask o b r :
  ~ In ">"%char b -> (forall b', b <> "!"%char :: b') -> (MAX_COND_LEN <= List.length b)%nat ->
  (r = [] \/ exists r', r = ">"%char :: r') ->
  cs_cond (parse_cond daemon runtask o (Some (b ++ r))) = cs_cond o.
Proof.
  intros H1 H2 H3 Hr. unfold parse_cond.
  destruct b as [|c b]; [cbn in H3; unfold MAX_COND_LEN in H3; lia|]. cbn [app].
  destruct (ch_eqb c "!") eqn:Ec; [apply ch_eqb_eq in Ec; subst; exfalso; eapply H2; eauto|].
  change (c :: b ++ r) with ((c :: b) ++ r). rewrite cut_app.
  2:{ apply Forall_forall. intros x Hx. apply ch_eqb_neq. intros ->. contradiction. }
  2:{ destruct Hr as [->|[r' ->]]; [exact I|reflexivity]. }
  cbn [fst]. replace (Nat.leb MAX_COND_LEN _) with true by (symmetry; apply Nat.leb_le; exact H3). reflexivity.
Qed.

(** ** C30 *)
Lemma rtrim_app a sp : Forall white sp -> (forall c r, a = r ++ [c] -> ~ white c) -> rtrim (a ++ sp) = a.
Proof.
  intros Hs Ha. unfold rtrim. rewrite rev_app_distr, skip_app.
  2:{ apply Forall_rev. eapply Forall_impl; [|exact Hs]. intros c. apply isspace_iff. }
  rewrite skip_head; [apply rev_involutive|]. destruct (rev a) as [|c r] eqn:E; [exact I|].
  destruct (isspace c) eqn:Ec; [|reflexivity]. exfalso. apply isspace_iff in Ec.
  apply (Ha c (rev r)); [|exact Ec]. rewrite <- (rev_involutive a), E. reflexivity.
Qed.
Lemma white_false c : ~ white c -> isspace c = false.
Proof. intros H. destruct (isspace c) eqn:E; [|reflexivity]. apply isspace_iff in E. contradiction. Qed.
Lemma skip_white sp s : Forall white sp -> (forall c r, s = c :: r -> ~ white c) -> skip isspace (sp ++ s) = s.
Proof.
  intros H1 H2. rewrite skip_app by (eapply Forall_impl; [|exact H1]; intros c; apply isspace_iff).
  apply skip_head. destruct s as [|c s]; [exact I|]. apply white_false. eapply H2; reflexivity.
Qed.
Lemma unquote_end_ok v : unquoted v (unquote_end v).
Proof.
  unfold unquoted, unquote_end. destruct v as [|q m].
  - right. right. split; [reflexivity|]. split; intros (q & H); [destruct H as (m & _ & H)|destruct H as (_ & H)]; discriminate.
  - destruct (isquote q && ch_eqb (last (q :: m) q) q)%bool eqn:E.
    + apply andb_prop in E. destruct E as [E1 E2]. apply isquote_iff in E1. apply ch_eqb_eq in E2.
      destruct m as [|x m].
      * right. left. exists q. repeat split; auto.
      * left. exists q. split; [exact E1|]. f_equal. cbn [last] in E2. 
        assert (X : x :: m <> []) by discriminate. rewrite (app_removelast_last q X) at 1. f_equal. f_equal. exact E2.
    + right. right. split; [reflexivity|]. split.
      * intros (q' & m' & Hq & H). inversion H; subst q' m. apply isquote_iff in Hq. unfold isquote in E. rewrite Hq in E. cbn [andb] in E.
        change (q :: m' ++ [q]) with ((q :: m') ++ [q]) in E. rewrite last_last, ch_eqb_refl in E. discriminate.
      * intros (q' & Hq & H). inversion H; subst q' m. apply isquote_iff in Hq. unfold isquote in E. rewrite Hq in E. cbn in E.
        rewrite ch_eqb_refl in E. discriminate.
Qed.
Definition ident_ok (k : cstr) : Prop := k <> [] /\ Forall (fun c => ~ white c /\ c <> "="%char) k.
Lemma last_in {A} (c : A) r k : k = r ++ [c] -> In c k.
Proof. intros ->. apply in_or_app. right. left. reflexivity. Qed.
(** the general shape: [pre] is what stands before the '=', up to white space *)
Lemma env_split sp1 pre sp2 sp3 v sp4 : Forall white sp1 -> Forall white sp2 -> Forall white sp3 -> Forall white sp4 ->
  trimmed pre -> ~ In "="%char pre -> trimmed v ->
  let k := skip isspace (if starts #"set" pre then skipn 3 pre else pre) in
  parse_env (sp1 ++ pre ++ sp2 ++ "="%char :: sp3 ++ v ++ sp4) =
  if existsb isspace k then None else Some (k, unquote_end v).
Proof.
  intros H1 H2 H3 H4 Hp Hn Hv. cbv zeta. unfold parse_env.
  rewrite skip_app by (eapply Forall_impl; [|exact H1]; intros c; apply isspace_iff).
  assert (E0 : skip isspace (pre ++ sp2 ++ "="%char :: sp3 ++ v ++ sp4) = match pre with [] => "="%char :: sp3 ++ v ++ sp4 | _ => pre ++ sp2 ++ "="%char :: sp3 ++ v ++ sp4 end).
  { destruct pre as [|c p].
    - cbn [app]. apply (skip_white sp2); [exact H2|]. intros c r X. inversion X; subst. intros W. apply isspace_iff in W. discriminate.
    - apply skip_head. apply white_false. destruct (Hp c p) as [X _]. apply X. reflexivity. }
  rewrite E0. clear E0.
  assert (Ne : ~ white "="%char) by (intros W; apply isspace_iff in W; discriminate).
  (* what is left of the line after trimming on the right *)
  assert (Er : exists t, Forall white t /\ (v = [] /\ t = [] \/ v <> [] /\ t = sp3) /\
     rtrim (match pre with [] => "="%char :: sp3 ++ v ++ sp4 | _ => pre ++ sp2 ++ "="%char :: sp3 ++ v ++ sp4 end) =
     match pre with [] => [] | _ => pre ++ sp2 end ++ "="%char :: t ++ v).
  { destruct v as [|c0 v0] eqn:Ev.
    - exists []. split; [constructor|]. split; [left; auto|]. cbn [app].
      replace (match pre with [] => "="%char :: sp3 ++ sp4 | _ => pre ++ sp2 ++ "="%char :: sp3 ++ sp4 end)
        with ((match pre with [] => [] | _ => pre ++ sp2 end ++ ["="%char]) ++ (sp3 ++ sp4)).
      2:{ destruct pre; cbn; rewrite <- ?app_assoc; reflexivity. }
      rewrite rtrim_app; [reflexivity|apply Forall_app; auto|].
      intros c r X. apply app_inj_tail in X. destruct X as [_ <-]. exact Ne.
    - rewrite <- Ev in *. exists sp3. split; [exact H3|]. split; [right; split; [rewrite Ev; discriminate|reflexivity]|].
      replace (match pre with [] => "="%char :: sp3 ++ v ++ sp4 | _ => pre ++ sp2 ++ "="%char :: sp3 ++ v ++ sp4 end)
        with ((match pre with [] => [] | _ => pre ++ sp2 end ++ "="%char :: sp3 ++ v) ++ sp4).
      2:{ destruct pre; cbn; rewrite <- ?app_assoc; cbn; rewrite <- ?app_assoc; reflexivity. }
      apply rtrim_app; [exact H4|].
      intros c r X. assert (Hv' : v <> []) by (rewrite Ev; discriminate).
      rewrite (app_removelast_last c Hv') in X.
      rewrite <- (app_removelast_last c Hv') in X.
      assert (Y : exists r', v = r' ++ [c]).
      { exists (removelast v). rewrite (app_removelast_last c Hv') at 1. f_equal. f_equal.
        rewrite (app_removelast_last c Hv') in X.
        replace (match pre with [] => [] | _ => pre ++ sp2 end ++ "="%char :: sp3 ++ removelast v ++ [last v c])
          with ((match pre with [] => [] | _ => pre ++ sp2 end ++ "="%char :: sp3 ++ removelast v) ++ [last v c]) in X
          by (rewrite <- app_assoc; cbn; rewrite <- app_assoc; reflexivity).
        apply app_inj_tail in X. apply X. }
      destruct Y as [r' Y]. destruct (Hv c r') as [_ Z]. apply Z, Y. }
  destruct Er as (t & Ht & Htv & ->).
  assert (Es : strchr "=" (match pre with [] => [] | _ => pre ++ sp2 end ++ "="%char :: t ++ v) =
               Some (match pre with [] => [] | _ => pre ++ sp2 end, t ++ v)).
  { apply strchr_some. split; [reflexivity|]. destruct pre; [intros []|]. rewrite in_app_iff. intros [X|X]; [contradiction|].
    rewrite Forall_forall in H2. apply Ne, H2, X. }
  rewrite Es. cbv zeta.
  assert (Ek : rtrim (match pre with [] => [] | _ => pre ++ sp2 end) = pre).
  { destruct pre as [|c p] eqn:Ep; [reflexivity|]. rewrite <- Ep in *. apply rtrim_app; [exact H2|].
    intros x r X. destruct (Hp x r) as [_ Z]. auto. }
  rewrite Ek.
  assert (Evv : skip isspace (t ++ v) = v).
  { apply skip_white; [exact Ht|]. intros c r X. destruct (Hv c r) as [Z _]. auto. }
  rewrite Evv. reflexivity.
Qed.
Lemma no_white k : Forall (fun c => ~ white c) k -> existsb isspace k = false.
Proof. induction 1 as [|c k H _ IH]; [reflexivity|]. cbn. rewrite (white_false c H). exact IH. Qed.
Lemma no_white_head k : Forall (fun c => ~ white c) k -> skip isspace k = k.
Proof. intros H. apply skip_head. destruct H; [exact I|]. apply white_false. assumption. Qed.
Lemma ident_trimmed k : Forall (fun c => ~ white c) k -> trimmed k.
Proof.
  intros H c r. rewrite Forall_forall in H. split; intros E; apply H; subst; [left; reflexivity|]. apply in_or_app. right. left. reflexivity.
Qed.
Lemma env_lem sp1 k sp2 sp3 v sp4 : Forall white sp1 -> Forall white sp2 -> Forall white sp3 -> Forall white sp4 ->
  ident_ok k -> (forall r, k <> #"set" ++ r) -> trimmed v ->
  exists r, unquoted v r /\ parse_env (sp1 ++ k ++ sp2 ++ "="%char :: sp3 ++ v ++ sp4) = Some (k, r).
Proof.
  intros H1 H2 H3 H4 [Hk0 Hk] Hs Hv.
  assert (W : Forall (fun c => ~ white c) k) by (eapply Forall_impl; [|exact Hk]; intros c []; assumption).
  exists (unquote_end v). split; [apply unquote_end_ok|]. rewrite env_split; auto.
  - assert (E : starts #"set" k = false).
    { destruct (starts #"set" k) eqn:E; [|reflexivity]. apply starts_iff in E. destruct E as [r E]. exfalso. eapply Hs, E. }
    rewrite E, no_white_head, no_white by exact W. reflexivity.
  - apply ident_trimmed, W.
  - intros X. rewrite Forall_forall in Hk. destruct (Hk _ X). congruence.
Qed.
Lemma env_set_lem sp1 sp k sp2 sp3 v sp4 : Forall white sp1 -> Forall white sp -> Forall white sp2 -> Forall white sp3 -> Forall white sp4 ->
  ident_ok k -> trimmed v ->
  exists r, unquoted v r /\ parse_env (sp1 ++ (#"set" ++ sp ++ k) ++ sp2 ++ "="%char :: sp3 ++ v ++ sp4) = Some (k, r).
Proof.
  intros H1 H0 H2 H3 H4 [Hk0 Hk] Hv.
  assert (W : Forall (fun c => ~ white c) k) by (eapply Forall_impl; [|exact Hk]; intros c []; assumption).
  exists (unquote_end v). split; [apply unquote_end_ok|]. rewrite env_split; auto.
  - rewrite starts_app. change (skipn 3 (#"set" ++ sp ++ k)) with (sp ++ k).
    rewrite skip_white, no_white; [reflexivity|exact W|exact H0|]. intros c r ->. apply (Forall_inv W).
  - intros c r. split; intros E.
    + inversion E; subst. intros X. apply isspace_iff in X. discriminate.
    + destruct k as [|x k _] using rev_ind; [congruence|].
      rewrite !app_assoc in E. apply app_inj_tail in E. destruct E as [_ <-].
      apply Forall_app in W. destruct W as [_ W]. exact (Forall_inv W).
  - rewrite !in_app_iff. intros [X|[X|X]].
    + cbn in X. intuition discriminate.
    + rewrite Forall_forall in H0. apply H0 in X. apply isspace_iff in X. discriminate.
    + rewrite Forall_forall in Hk. destruct (Hk _ X). congruence.
Qed.
Lemma env_none_lem s : ~ In "="%char s -> parse_env s = None.
Proof.
  intros H. unfold parse_env. assert (E : strchr "=" (rtrim (skip isspace s)) = None); [|rewrite E; reflexivity].
  apply strchr_none. intros X. apply H. unfold rtrim in X. rewrite <- in_rev in X.
  destruct (skip_spec isspace (rev (skip isspace s))) as (a & E & _).
  assert (Y : In "="%char (rev (skip isspace s))) by (rewrite E; apply in_or_app; auto).
  rewrite <- in_rev in Y. destruct (skip_spec isspace s) as (b & E2 & _). rewrite E2. apply in_or_app. auto.
Qed.

(** ** C28 *)
Lemma blank_iff c : In c #" 	" <-> blank c.
Proof. unfold blank. cbn. intuition. Qed.
Lemma blank_tokens s ts : tokens blank s ts <-> strtoks #" 	" s = ts.
Proof.
  split.
  - intros H. apply tokens_strtoks. eapply tokens_ext; [|exact H]. intros c. rewrite blank_iff. reflexivity.
  - intros <-. eapply tokens_ext; [|apply strtoks_tokens]. intros c. apply blank_iff.
Qed.
Definition rlimit_apply (level lim val : cstr) (a : limits) : limits :=
  match str2rlim lim with
  | None => a
  | Some r => match lim_value val with
              | None => a
              | Some v => if str_eqb level #"soft" then lim_set a r (v, snd (a r))
                          else if str_eqb level #"hard" then lim_set a r (fst (a r), v)
                          else if str_eqb level #"both" then lim_set a r (v, v) else a
              end
  end.
Lemma parse_rlimit_toks line a : parse_rlimit line a =
  match strtoks #" 	" line with
  | t1 :: t2 :: t3 :: _ => rlimit_apply t1 t2 t3 a
  | [t1; t2] => rlimit_apply #"both" t1 t2 a
  | _ => a
  end.
Proof.
  unfold parse_rlimit. rewrite (strtoks_eq _ line). destruct (strtok #" 	" line) as [[t1 l1]|]; [|reflexivity].
  rewrite (strtoks_eq _ l1). destruct (strtok #" 	" l1) as [[t2 l2]|]; [|reflexivity].
  rewrite (strtoks_eq _ l2). destruct (strtok #" 	" l2) as [[t3 l3]|]; reflexivity.
Qed.
