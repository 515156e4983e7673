(** Proofs about the configuration parsers: paths, pid files, numbers,
    arguments, names. *)
From Coq Require Import List String Ascii NArith ZArith Bool Lia Arith ZifyBool ZifyN.
From Verif Require Import CStr ParseModel ParseSpec CStrLib ParseProofB ParseProofC.
Import ListNotations.
Local Open Scope Z_scope.

(** ** de_dotdot *)
Lemma dd_lead_none n p s : starts p s = false -> dd_lead n p s = s.
Proof. intros H. destruct n; [reflexivity|]. cbn [dd_lead]. rewrite H. reflexivity. Qed.
Lemma dd_lead_done n p s : p <> [] -> (List.length s <= n)%nat -> starts p (dd_lead n p s) = false.
Proof.
  intros Hp. revert s. induction n as [|n IH]; intros s Hn; cbn [dd_lead].
  - destruct s; [|cbn in Hn; lia]. destruct p; [congruence|reflexivity].
  - destruct (starts p s) eqn:E; [|exact E]. apply IH. apply starts_skipn in E.
    assert (X : List.length s = (List.length p + List.length (skipn (List.length p) s))%nat) by (rewrite E at 1; apply app_length).
    destruct p; [congruence|]. cbn [List.length] in X. cbn [List.length]. lia.
Qed.
Lemma dd_lead_length n p s : (List.length (dd_lead n p s) <= List.length s)%nat.
Proof.
  revert s. induction n as [|n IH]; intros s; cbn [dd_lead]; [lia|]. destruct (starts p s); [|lia].
  etransitivity; [apply IH|]. rewrite skipn_length. lia.
Qed.
Lemma dd_dot_length n s : (List.length (dd_dot n s) <= List.length s)%nat.
Proof.
  revert s. induction n as [|n IH]; intros s; cbn [dd_dot]; [lia|]. destruct (strstr #"/./" s) as [[a b]|] eqn:E; [|lia].
  apply strstr_some in E. etransitivity; [apply IH|]. rewrite E, !app_length. cbn. lia.
Qed.
Lemma up_to_slash_length s : (List.length (up_to_slash s) <= List.length s)%nat.
Proof.
  unfold up_to_slash. destruct (strrchr "/" s) as [[a b]|] eqn:E; [|cbn; lia]. apply strrchr_some in E. destruct E as [-> _].
  rewrite !app_length. cbn. lia.
Qed.
Lemma dd_up_done n s : (List.length s < n)%nat ->
  starts #"../" (dd_up n s) = false /\ strstr #"/../" (dd_up n s) = None.
Proof.
  revert s. induction n as [|n IH]; intros s Hn; [lia|]. cbn [dd_up].
  pose proof (dd_lead_length (List.length s) #"../" s) as Hl.
  pose proof (dd_lead_done (List.length s) #"../" s ltac:(discriminate) ltac:(lia)) as Hd.
  destruct (strstr #"/../" (dd_lead (List.length s) #"../" s)) as [[a b]|] eqn:E; [|split; assumption].
  apply IH. pose proof (strstr_some _ _ _ _ E) as E'. pose proof (up_to_slash_length a) as Hu.
  rewrite E', !app_length in Hl. cbn [List.length list_ascii_of_string] in Hl. rewrite app_length. lia.
Qed.
Lemma dd_up_length n s : (List.length (dd_up n s) <= List.length s)%nat.
Proof.
  revert s. induction n as [|n IH]; intros s; cbn [dd_up]; [lia|].
  pose proof (dd_lead_length (List.length s) #"../" s) as Hl.
  destruct (strstr #"/../" (dd_lead (List.length s) #"../" s)) as [[a b]|] eqn:E; [|exact Hl].
  etransitivity; [apply IH|]. apply strstr_some in E. pose proof (up_to_slash_length a).
  rewrite E in Hl. rewrite !app_length in *. cbn in Hl. lia.
Qed.
Lemma dd_end_prefix n s : exists r, s = dd_end n s ++ r.
Proof.
  revert s. induction n as [|n IH]; intros s; cbn [dd_end]; [exists []; rewrite app_nil_r; reflexivity|].
  destruct (Nat.ltb 3 (List.length s) && ends_with #"/.." s)%bool; [|exists []; rewrite app_nil_r; reflexivity].
  destruct (strrchr "/" (firstn (List.length s - 3) s)) as [[a b]|] eqn:E; [|exists []; rewrite app_nil_r; reflexivity].
  destruct (IH a) as [r Hr]. apply strrchr_some in E. destruct E as [E _].
  exists (r ++ "/"%char :: b ++ skipn (List.length s - 3) s). rewrite app_assoc, <- Hr.
  rewrite <- (firstn_skipn (List.length s - 3) s) at 1. rewrite E, <- app_assoc. reflexivity.
Qed.
(** what collapsing slashes keeps out *)
Definition nolead (s : cstr) : Prop := forall r, s <> #"../" ++ r.
Lemma nolead_iff s : starts #"../" s = false <-> nolead s.
Proof.
  split.
  - intros H r ->. rewrite starts_app in H. discriminate.
  - intros H. destruct (starts #"../" s) eqn:E; [|reflexivity]. apply starts_iff in E. destruct E as [r E]. exfalso. eapply H, E.
Qed.
Lemma app_eq_cases {A} (a b c d : list A) : a ++ b = c ++ d ->
  (exists x, a = c ++ x /\ d = x ++ b) \/ (exists x, c = a ++ x /\ b = x ++ d).
Proof.
  revert c. induction a as [|x a IH]; intros c H.
  - right. exists c. auto.
  - destruct c as [|y c].
    + left. exists (x :: a). auto.
    + cbn in H. inversion H; subst. destruct (IH c H2) as [(z & -> & ->)|(z & -> & ->)]; [left|right]; exists z; auto.
Qed.
Lemma collapse_safe a b : absent #"/../" (a ++ #"//" ++ b) -> nolead (a ++ #"//" ++ b) ->
  absent #"/../" (a ++ "/"%char :: b) /\ nolead (a ++ "/"%char :: b).
Proof.
  intros H1 H2. split.
  - intros x y H. symmetry in H. destruct (app_eq_cases _ _ _ _ H) as [(z & -> & E)|(z & -> & E)].
    + (* x is longer than a *)
      destruct z as [|c z]; cbn in E.
      * inversion E; subst. apply (H1 (a ++ #"/") y). rewrite <- app_assoc. reflexivity.
      * inversion E; subst. apply (H1 (a ++ #"//" ++ z) y). rewrite <- !app_assoc. reflexivity.
    + (* a is longer: z is a proper part of "/../..." *)
      destruct z as [|c1 z]; [cbn in E; inversion E; subst; apply (H1 (x ++ #"/") y); rewrite app_nil_r, <- app_assoc; reflexivity|].
      destruct z as [|c2 z]; [cbn in E; inversion E|].
      destruct z as [|c3 z]; [cbn in E; inversion E|].
      destruct z as [|c4 z].
      * cbn in E. inversion E; subst. apply (H1 x ("/"%char :: b)). rewrite <- app_assoc. reflexivity.
      * cbn in E. inversion E; subst. apply (H1 x (z ++ #"//" ++ b)). rewrite <- !app_assoc. reflexivity.
  - intros r H. destruct a as [|c1 a]; [cbn in H; inversion H|].
    destruct a as [|c2 a]; [cbn in H; inversion H|].
    destruct a as [|c3 a].
    + cbn in H. inversion H; subst. apply (H2 ("/"%char :: r)). reflexivity.
    + cbn in H. inversion H; subst. apply (H2 (a ++ #"//" ++ b)). reflexivity.
Qed.
Lemma dd_slash_safe n s : absent #"/../" s -> nolead s -> absent #"/../" (dd_slash n s) /\ nolead (dd_slash n s).
Proof.
  revert s. induction n as [|n IH]; intros s H1 H2; cbn [dd_slash]; [auto|].
  destruct (strstr #"//" s) as [[a b]|] eqn:E; [|auto]. apply strstr_some in E. subst s.
  destruct (collapse_safe a b H1 H2). apply IH; assumption.
Qed.
Lemma dd_slash_done n s : (List.length s < n)%nat -> absent #"//" (dd_slash n s).
Proof.
  revert s. induction n as [|n IH]; intros s Hn; [lia|]. cbn [dd_slash].
  destruct (strstr #"//" s) as [[a b]|] eqn:E; [|apply strstr_none, E].
  apply IH. apply strstr_some in E. subst s. rewrite !app_length in *. cbn [List.length list_ascii_of_string] in *. lia.
Qed.
Lemma de_dotdot_safe s : absent #"/../" (de_dotdot s) /\ nolead (de_dotdot s) /\ absent #"//" (de_dotdot s).
Proof.
  unfold de_dotdot. set (n := S (List.length s)). set (s1 := dd_dot n (dd_lead n #"./" s)).
  assert (L1 : (List.length s1 <= List.length s)%nat) by (etransitivity; [apply dd_dot_length|apply dd_lead_length]).
  destruct (dd_up_done n s1) as [U1 U2]; [unfold n; lia|].
  set (s2 := dd_up n s1) in *. destruct (dd_end_prefix n s2) as [r Hr].
  assert (P1 : absent #"/../" (dd_end n s2)).
  { intros a b H. apply strstr_none in U2. apply (U2 a (b ++ r)). rewrite Hr at 1. rewrite H, <- !app_assoc. reflexivity. }
  assert (P2 : nolead (dd_end n s2)).
  { intros x H. apply nolead_iff in U1. apply (U1 (x ++ r)). rewrite Hr at 1. rewrite H, <- app_assoc. reflexivity. }
  destruct (dd_slash_safe n _ P1 P2) as [Q1 Q2]. split; [exact Q1|]. split; [exact Q2|].
  apply dd_slash_done.
  assert (L2 : (List.length s2 <= List.length s1)%nat).
  { unfold s2. apply dd_up_length. }
  assert (L3 : (List.length (dd_end n s2) <= List.length s2)%nat) by (rewrite Hr at 2; rewrite app_length; lia).
  eapply Nat.le_lt_trans; [exact L3|]. eapply Nat.le_lt_trans; [exact L2|]. unfold n. lia.
Qed.
(** a path that needs no cleaning is left as it is *)
Lemma de_dotdot_id s : clean_path s -> de_dotdot s = s.
Proof.
  intros [H1 H2 H3 H4 H5 H6]. unfold de_dotdot. cbv zeta.
  assert (A1 : starts #"./" s = false).
  { destruct (starts #"./" s) eqn:E; [|reflexivity]. apply starts_iff in E. destruct E as [r E]. exfalso. eapply H1, E. }
  assert (A2 : starts #"../" s = false).
  { destruct (starts #"../" s) eqn:E; [|reflexivity]. apply starts_iff in E. destruct E as [r E]. exfalso. eapply H2, E. }
  rewrite dd_lead_none by exact A1. cbn [dd_dot dd_up].
  rewrite (strstr_absent _ _ H3). rewrite dd_lead_none by exact A2. rewrite (strstr_absent _ _ H4).
  assert (A6 : ends_with #"/.." s = false).
  { unfold ends_with. destruct (starts (rev #"/..") (rev s)) eqn:E; [|reflexivity]. apply starts_iff in E. destruct E as [r E].
    exfalso. apply (H6 (rev r)). rewrite <- (rev_involutive s), E, rev_app_distr, rev_involutive. reflexivity. }
  cbn [dd_end]. rewrite A6, andb_false_r. cbn [dd_slash]. rewrite (strstr_absent _ _ H5). reflexivity.
Qed.

(** ** C31 *)
Lemma paste_run f : match f with c :: _ => c <> "/"%char | [] => True end -> paste #"/run" f = #"/run/" ++ f.
Proof.
  intros H. unfold paste. change (fisslashdir #"/run") with false. cbv iota. destruct f as [|c f]; [reflexivity|].
  destruct (ch_eqb c "/") eqn:E; [apply ch_eqb_eq in E; contradiction|]. reflexivity.
Qed.
Lemma runpath_run len pre f : (pre = [] \/ pre = #"/var") -> match f with c :: _ => c <> "/"%char | [] => True end ->
  (List.length f + 6 <= len)%nat -> pid_runpath len (pre ++ #"/run/" ++ f) = #"/run/" ++ f.
Proof.
  intros Hp Hf Hl. unfold pid_runpath.
  assert (E : strstr #"/run/" (pre ++ #"/run/" ++ f) = Some (pre, f)).
  { destruct Hp as [->| ->]; cbn; destruct f; reflexivity. }
  rewrite E, paste_run by exact Hf. apply firstn_all2. rewrite app_length. cbn. lia.
Qed.
Definition file_set (neg : bool) (p : cstr) : cstr := if neg then "!"%char :: p else p.
Lemma pid_set_run forking old bang pre f : (pre = [] \/ pre = #"/var") -> clean_path (pre ++ #"/run/" ++ f) ->
  (List.length f <= 249)%nat -> match f with c :: _ => c <> "/"%char | [] => True end ->
  pid_file_set forking old (Some (file_set bang (pre ++ #"/run/" ++ f))) = Some (file_set (bang || forking) (#"/run/" ++ f)).
Proof.
  intros Hp Hc Hl Hf. unfold pid_file_set.
  assert (E : (match file_set bang (pre ++ #"/run/" ++ f) with
               | c :: r => if ch_eqb c "!" then (true, r) else (false, file_set bang (pre ++ #"/run/" ++ f))
               | [] => (false, file_set bang (pre ++ #"/run/" ++ f)) end) = (bang, pre ++ #"/run/" ++ f)).
  { destruct bang; [reflexivity|]. destruct Hp as [->| ->]; reflexivity. }
  rewrite E. rewrite de_dotdot_id by exact Hc. rewrite runpath_run; [|exact Hp|exact Hf|unfold MAX_CMD_LEN; lia].
  unfold file_set. destruct (bang || forking)%bool; f_equal; [f_equal|]; apply firstn_all2; rewrite app_length; cbn [List.length list_ascii_of_string]; unfold MAX_CMD_LEN; lia.
Qed.
Lemma starts_no_in c p f : starts p f = true -> In c p -> In c f.
Proof. intros H Hc. apply starts_iff in H. destruct H as [r ->]. apply in_or_app. auto. Qed.
Lemma strstr_no_in c p f : In c p -> ~ In c f -> strstr p f = None.
Proof.
  intros Hc Hf. apply strstr_absent. intros a b ->. apply Hf. apply in_or_app. right. apply in_or_app. left. exact Hc.
Qed.
(** "/var/run/" and a file name *)
Lemma clean_run pre f : (pre = #"/var" \/ pre = []) -> ~ In "/"%char f -> (forall r, f <> r ++ ["."%char]) -> f <> [] -> clean_path (pre ++ #"/run/" ++ f).
Proof.
  intros Hp Hs Hd Hf.
  assert (B : forall p, starts (p ++ #"/") f = false).
  { intros p. destruct (starts (p ++ #"/") f) eqn:E; [|reflexivity]. exfalso. apply Hs. eapply starts_no_in; [exact E|].
    apply in_or_app. right. left. reflexivity. }
  assert (N : forall p, strstr ("/"%char :: p) f = None) by (intros p; apply (strstr_no_in "/"); [left; reflexivity|exact Hs]).
  split.
  - intros r H. destruct Hp as [->| ->]; discriminate.
  - intros r H. destruct Hp as [->| ->]; discriminate.
  - apply strstr_none. destruct Hp as [->| ->]; cbn; change #"/./" with ("/"%char :: #"./"); pose proof (B #".") as X; cbn in X; rewrite X, N; reflexivity.
  - apply strstr_none. destruct Hp as [->| ->]; cbn; pose proof (B #"..") as X; cbn in X; rewrite X, N; reflexivity.
  - apply strstr_none. destruct Hp as [->| ->]; cbn; pose proof (B []) as X; cbn in X; rewrite X, N; reflexivity.
  - intros r H. destruct f as [|x f _] using rev_ind; [congruence|].
    change #"/.." with (#"/." ++ ["."%char]) in H.
    rewrite !app_assoc in H. apply app_inj_tail in H. destruct H as [_ ->]. eapply Hd. reflexivity.
Qed.
Lemma last4 (u f : cstr) : ~ In "/"%char f -> skipn (List.length (u ++ #"/" ++ f) - 4) (u ++ #"/" ++ f) = #".pid" <-> exists r, f = r ++ #".pid".
Proof.
  intros Hs. split.
  - intros H. rewrite <- (firstn_skipn (List.length (u ++ #"/" ++ f) - 4) (u ++ #"/" ++ f)) in H at 1.
    set (x := firstn _ _) in *. 
    assert (E : u ++ #"/" ++ f = firstn (List.length (u ++ #"/" ++ f) - 4) (u ++ #"/" ++ f) ++ #".pid").
    { rewrite <- (firstn_skipn (List.length (u ++ #"/" ++ f) - 4) (u ++ #"/" ++ f)) at 1. f_equal.
      rewrite <- H. subst x. rewrite firstn_skipn. reflexivity. }
    revert E. generalize (firstn (List.length (u ++ #"/" ++ f) - 4) (u ++ #"/" ++ f)). intros y E. clear H x.
    rewrite app_assoc in E. destruct (app_eq_cases _ _ _ _ E) as [(z & A & B)|(z & A & B)].
    + destruct z as [|z1 z]; [exists []; exact (eq_sym B)|]. exfalso.
      assert (X : In "/"%char #".pid").
      { destruct z as [|zl z _] using rev_ind.
        - change (u ++ #"/") with (u ++ ["/"%char]) in A. apply app_inj_tail in A. destruct A as [_ A]. rewrite B, <- A. left. reflexivity.
        - change (z1 :: z ++ [zl]) with ((z1 :: z) ++ [zl]) in A. rewrite app_assoc in A. apply app_inj_tail in A. destruct A as [_ A].
          rewrite B, <- A. apply in_or_app. left. right. apply in_or_app. right. left. reflexivity. }
      cbn in X. intuition discriminate.
    + exists z. exact B.
  - intros [r ->]. set (s := u ++ #"/" ++ r ++ #".pid"). replace s with ((u ++ #"/" ++ r) ++ #".pid") by (unfold s; rewrite <- !app_assoc; reflexivity).
    rewrite skipn_app, app_length. replace (List.length (u ++ #"/" ++ r) + List.length #".pid" - 4)%nat with (List.length (u ++ #"/" ++ r)) by (cbn [List.length list_ascii_of_string]; lia).
    rewrite skipn_all, Nat.sub_diag. reflexivity.
Qed.
Lemma pid_name_lem forking old bang name : name <> [] -> ~ In "/"%char name -> (bang = false -> forall r, name <> "!"%char :: r) ->
  (List.length name <= 49)%nat ->
  exists file, (file = name /\ (exists r, name = r ++ #".pid") \/ file = name ++ #".pid" /\ ~ (exists r, name = r ++ #".pid")) /\
  pid_file_parse forking old (#"pid:" ++ file_set bang name) = PidSet (file_set (bang || forking) (#"/run/" ++ file)).
Proof.
  intros Hn Hs Hb Hl. unfold pid_file_parse.
  change (#"pid:" ++ file_set bang name) with ("p"%char :: #"id:" ++ file_set bang name).
  cbv iota. change ("p"%char :: #"id:" ++ file_set bang name) with (#"pid:" ++ file_set bang name). rewrite starts_app.
  change (skipn 4 (#"pid:" ++ file_set bang name)) with (file_set bang name).
  assert (E1 : starts #"!/" (file_set bang name) = false).
  { destruct bang; cbn [file_set].
    - destruct (starts #"!/" ("!"%char :: name)) eqn:E; [|reflexivity]. apply starts_iff in E. destruct E as [r E].
      inversion E. exfalso. apply Hs. subst name. left. reflexivity.
    - destruct (starts #"!/" name) eqn:E; [|reflexivity]. apply starts_iff in E. destruct E as [r E]. exfalso. eapply Hb; [reflexivity|exact E]. }
  assert (E2 : starts #"/" (file_set bang name) = false).
  { destruct (starts #"/" (file_set bang name)) eqn:E; [|reflexivity]. destruct bang; [discriminate|]. exfalso. apply Hs.
    eapply starts_no_in; [exact E|left; reflexivity]. }
  rewrite E1, E2. cbn [orb].
  assert (E3 : (match file_set bang name with
               | c :: r => if ch_eqb c "!" then (true, r) else (false, file_set bang name)
               | [] => (false, file_set bang name) end) = (bang, name)).
  { destruct bang; [reflexivity|]. cbn [file_set]. destruct name as [|c n]; [congruence|]. destruct (ch_eqb c "!") eqn:E; [|reflexivity].
    apply ch_eqb_eq in E. subst. exfalso. eapply Hb; reflexivity. }
  rewrite E3. clear E1 E2 E3.
  set (full := (if bang then #"!" else []) ++ #"/var/run/" ++ name).
  assert (Lf : (List.length full <= 59)%nat).
  { unfold full. rewrite !app_length. destruct bang; cbn [List.length list_ascii_of_string]; lia. }
  assert (Lf4 : (4 < List.length full)%nat).
  { unfold full. rewrite !app_length. cbn [List.length list_ascii_of_string]. lia. }
  replace (Nat.ltb (MAX_ARG_LEN + 3) (List.length full)) with false by (symmetry; apply Nat.ltb_ge; unfold MAX_ARG_LEN; lia).
  rewrite firstn_all2 by (unfold MAX_ARG_LEN; lia).
  replace (Nat.ltb 4 (List.length full)) with true by (symmetry; apply Nat.ltb_lt; exact Lf4). cbn [andb].
  set (u := (if bang then #"!" else []) ++ #"/var/run").
  assert (Fu : full = u ++ #"/" ++ name) by (unfold full, u; rewrite <- app_assoc; reflexivity).
  pose proof (last4 u name Hs) as L4. rewrite <- Fu in L4.
  destruct (str_eqb (skipn (List.length full - 4) full) #".pid") eqn:E; cbn [negb].
  - apply str_eqb_eq in E. apply L4 in E. exists name. split; [left; auto|].
    assert (X : full = file_set bang (#"/var" ++ #"/run/" ++ name)) by (unfold full; destruct bang; reflexivity).
    rewrite X, pid_set_run; [reflexivity|auto| |lia|].
    + apply clean_run; auto. intros r Hr. destruct E as [q E]. rewrite E in Hr.
      change #".pid" with (#".pi" ++ ["d"%char]) in Hr. rewrite app_assoc in Hr. apply app_inj_tail in Hr. destruct Hr; discriminate.
    + destruct name as [|c n]; [exact I|]. intros ->. apply Hs. left. reflexivity.
  - exists (name ++ #".pid"). split.
    + right. split; [reflexivity|]. intros X. apply L4 in X. rewrite X in E. discriminate.
    + unfold strlcat. replace (Nat.leb MAX_ARG_LEN (List.length full)) with false by (symmetry; apply Nat.leb_gt; unfold MAX_ARG_LEN; lia).
      rewrite firstn_all2 by (rewrite app_length; cbn [List.length list_ascii_of_string]; unfold MAX_ARG_LEN; lia).
      assert (X : full ++ #".pid" = file_set bang (#"/var" ++ #"/run/" ++ (name ++ #".pid"))).
      { unfold full. destruct bang; cbn [file_set]; rewrite <- !app_assoc; reflexivity. }
      rewrite X, pid_set_run; [reflexivity|auto| |rewrite app_length; cbn [List.length list_ascii_of_string]; lia|].
      * apply clean_run; [auto| | |].
        -- rewrite in_app_iff. intros [Y|Y]; [contradiction|]. cbn in Y. intuition discriminate.
        -- intros r Hr. change #".pid" with (#".pi" ++ ["d"%char]) in Hr. rewrite app_assoc in Hr. apply app_inj_tail in Hr. destruct Hr; discriminate.
        -- intros Y. apply app_eq_nil in Y. destruct Y; discriminate.
      * destruct name as [|c n]; [congruence|]. cbn. intros ->. apply Hs. left. reflexivity.
Qed.
Lemma pid_path_lem forking old bang pre f : (pre = [] \/ pre = #"/var") -> clean_path (pre ++ #"/run/" ++ f) ->
  (List.length f <= 249)%nat ->
  pid_file_parse forking old (#"pid:" ++ file_set bang (pre ++ #"/run/" ++ f)) = PidSet (file_set (bang || forking) (#"/run/" ++ f)).
Proof.
  intros Hp Hc Hl.
  assert (Hf : match f with c :: _ => c <> "/"%char | [] => True end).
  { destruct f as [|c f]; [exact I|]. intros ->. destruct Hc as [_ _ _ _ H _]. apply (H (pre ++ #"/run") f). rewrite <- app_assoc. reflexivity. }
  unfold pid_file_parse.
  set (t := file_set bang (pre ++ #"/run/" ++ f)).
  change (#"pid:" ++ t) with ("p"%char :: #"id:" ++ t). cbv iota. change ("p"%char :: #"id:" ++ t) with (#"pid:" ++ t). rewrite starts_app.
  change (skipn 4 (#"pid:" ++ t)) with t.
  assert (E : (starts #"!/" t || starts #"/" t)%bool = true).
  { unfold t. destruct bang, Hp as [->| ->]; reflexivity. }
  rewrite E. unfold t. rewrite pid_set_run by assumption. reflexivity.
Qed.

(** ** C33 *)
Lemma killdelay_lem old s n : parse_killdelay old s = n <->
  (exists v, number s v /\ 1 <= v <= 300 /\ n = 1000 * v) \/ (~ (exists v, number s v /\ 1 <= v <= 300)) /\ n = old.
Proof.
  unfold parse_killdelay. destruct (strtonum 1 300 s) as [v|] eqn:E.
  - apply strtonum_some in E. split.
    + intros <-. left. exists v. split; [apply E|]. split; [apply E|lia].
    + intros [(w & Hw & Hr & ->)|[H _]]; [|exfalso; apply H; exists v; exact E].
      assert (X : strtonum 1 300 s = Some w) by (apply strtonum_some; auto). apply strtonum_some in E. rewrite E in X. inversion X. lia.
  - split.
    + intros <-. right. split; [|reflexivity]. intros (v & Hv & Hr). assert (X : strtonum 1 300 s = Some v) by (apply strtonum_some; auto). congruence.
    + intros [(v & Hv & Hr & ->)|[_ ->]]; [|reflexivity]. assert (X : strtonum 1 300 s = Some v) by (apply strtonum_some; auto). congruence.
Qed.
Lemma script_timeout_lem kd found len t0 a b v : ~ In ","%char a -> number a v -> 0 <= v <= 3600 -> ~ In "'"%char b -> ~ In """"%char b ->
  found b = true -> (List.length b < len)%nat ->
  parse_script kd found len (Some t0) (a ++ ","%char :: b) = ScriptSet (Some (1000 * v)) b.
Proof.
  intros Ha Hn Hv Hq1 Hq2 Hf Hl. unfold parse_script.
  assert (E : strchr "," (a ++ ","%char :: b) = Some (a, b)) by (apply strchr_some; auto). rewrite E.
  assert (E2 : strtonum 0 3600 a = Some v) by (apply strtonum_some; auto). rewrite E2.
  assert (E3 : unquote b = Some b).
  { destruct b as [|c b]; [reflexivity|]. cbn [unquote]. destruct (isquote c) eqn:Q; [|reflexivity]. apply isquote_iff in Q.
    destruct Q as [->| ->]; exfalso; [apply Hq1|apply Hq2]; left; reflexivity. }
  rewrite E3, Hf. cbn [negb]. replace (Nat.leb len (List.length b)) with false by (symmetry; apply Nat.leb_gt; exact Hl).
  replace (v * 1000) with (1000 * v) by lia. reflexivity.
Qed.
Lemma script_plain_lem kd found len tmo b : ~ In ","%char b -> ~ In "'"%char b -> ~ In """"%char b ->
  found b = true -> (List.length b < len)%nat ->
  parse_script kd found len tmo b = ScriptSet (match tmo with Some _ => Some kd | None => None end) b.
Proof.
  intros Ha Hq1 Hq2 Hf Hl. unfold parse_script.
  assert (E : strchr "," b = None) by (apply strchr_none; exact Ha). rewrite E.
  assert (E3 : unquote b = Some b).
  { destruct b as [|c b]; [reflexivity|]. cbn [unquote]. destruct (isquote c) eqn:Q; [|reflexivity]. apply isquote_iff in Q.
    destruct Q as [->| ->]; exfalso; [apply Hq1|apply Hq2]; left; reflexivity. }
  rewrite E3, Hf. cbn [negb]. replace (Nat.leb len (List.length b)) with false by (symmetry; apply Nat.leb_gt; exact Hl). reflexivity.
Qed.
Lemma script_range_lem kd found len t0 s t p : parse_script kd found len (Some t0) s = ScriptSet (Some t) p -> 
  t = t0 \/ t = kd \/ exists v, 0 <= v <= 3600 /\ t = 1000 * v.
Proof.
  unfold parse_script. destruct (strchr "," s) as [[a b]|].
  - destruct (strtonum 0 3600 a) as [v|] eqn:E.
    + apply strtonum_some in E. intros H. right. right. exists v. split; [apply E|].
      destruct (unquote b) as [q|]; [|inversion H; lia]. destruct (negb (found q)); [inversion H; lia|].
      destruct (Nat.leb len (List.length q)); inversion H; lia.
    + intros H. inversion H. auto.
  - intros H. right. left. destruct (unquote s) as [q|]; [|inversion H; auto]. destruct (negb (found q)); [inversion H; auto|].
    destruct (Nat.leb len (List.length q)); inversion H; auto.
Qed.

(** ** C36 *)
Lemma digits_cut d r : Forall (fun c => isdigit c = true) d -> match r with [] => True | c :: _ => isdigit c = false end ->
  cut (fun c => negb (isdigit c)) (d ++ r) = (d, r).
Proof.
  intros Hd Hr. apply cut_app.
  - eapply Forall_impl; [|exact Hd]. intros c ->. reflexivity.
  - destruct r; [exact I|]. rewrite Hr. reflexivity.
Qed.
Lemma atoi_value d n : digits_value d n -> n <= INT_MAX -> atoi d = Int n.
Proof.
  intros H Hn. apply digits_value_iff in H. destruct H as (_ & Hd & Hv). unfold atoi.
  pose proof (digits_app 0 d [] Hd I) as E. rewrite app_nil_r in E. rewrite E. cbn [fst]. rewrite Hv.
  destruct (Z.leb_spec n INT_MAX); [reflexivity|lia].
Qed.
Lemma strtobytes_lem d n suf mult : digits_value d n -> size_suffix suf mult -> n * mult <= INT_MAX ->
  strtobytes (d ++ suf) = Int (n * mult).
Proof.
  intros Hd Hs Hn. pose proof (digits_value_nonneg _ _ Hd) as Hp.
  assert (Hdd := Hd). apply digits_value_iff in Hdd. destruct Hdd as (_ & Hf & _).
  unfold strtobytes. destruct Hs as [(-> & ->)|(x & [(-> & ->)|[(-> & ->)|(-> & ->)]])].
  - rewrite digits_cut by auto. rewrite (atoi_value _ _ Hd) by lia. f_equal. lia.
  - rewrite digits_cut by (auto; reflexivity). cbv iota beta. rewrite (atoi_value _ _ Hd) by lia.
    unfold INT_MAX in *. cbn [ch_eqb Ascii.eqb Bool.eqb]. unfold mulint, INT_MAX.
    replace ((- (2147483647) - 1 <=? 1000 * n) && (1000 * n <=? 2147483647))%bool with true by lia. f_equal; lia.
  - rewrite digits_cut by (auto; reflexivity). cbv iota beta. rewrite (atoi_value _ _ Hd) by lia.
    unfold INT_MAX in *. cbn [ch_eqb Ascii.eqb Bool.eqb]. unfold mulint at 2. unfold INT_MAX.
    replace ((- (2147483647) - 1 <=? 1000 * n) && (1000 * n <=? 2147483647))%bool with true by lia.
    unfold mulint, INT_MAX. replace ((- (2147483647) - 1 <=? 1000 * (1000 * n)) && (1000 * (1000 * n) <=? 2147483647))%bool with true by lia. f_equal; lia.
  - rewrite digits_cut by (auto; reflexivity). cbv iota beta. rewrite (atoi_value _ _ Hd) by lia.
    unfold INT_MAX in *. cbn [ch_eqb Ascii.eqb Bool.eqb]. unfold mulint at 3. unfold INT_MAX.
    replace ((- (2147483647) - 1 <=? 1000 * n) && (1000 * n <=? 2147483647))%bool with true by lia.
    unfold mulint at 2. unfold INT_MAX. replace ((- (2147483647) - 1 <=? 1000 * (1000 * n)) && (1000 * (1000 * n) <=? 2147483647))%bool with true by lia.
    unfold mulint. unfold INT_MAX. replace ((- (2147483647) - 1 <=? 1000 * (1000 * (1000 * n))) && (1000 * (1000 * (1000 * n)) <=? 2147483647))%bool with true by lia.
    f_equal; lia.
Qed.

(** ** Arguments of a command *)
Lemma space_tokens s ts : tokens (eq " "%char) s ts <-> strtoks #" " s = ts.
Proof.
  assert (X : forall c, In c #" " <-> " "%char = c) by (intros c; cbn; tauto).
  split.
  - intros H. apply tokens_strtoks. eapply tokens_ext; [|exact H]. intros c. symmetry. apply X.
  - intros <-. eapply tokens_ext; [|apply strtoks_tokens]. exact X.
Qed.
Lemma cmd_loop_plain ws : Forall (fun w => forall q r, w = q :: r -> ~ quote q) ws ->
  forall i acc, (i + List.length ws <= 63)%nat ->
  rev (cmd_loop ws i acc None []) = rev acc ++ map (firstn 63) ws.
Proof.
  induction 1 as [|w ws Hw _ IH]; intros i acc Hl; [cbn; rewrite app_nil_r; reflexivity|].
  cbn [List.length] in Hl. cbn [cmd_loop].
  replace (Nat.leb (NUM_SVC_ARGS - 1) i) with false by (symmetry; apply Nat.leb_gt; unfold NUM_SVC_ARGS; lia).
  assert (E : isquote (hd "000"%char w) = false).
  { destruct w as [|q r]; [reflexivity|]. cbn [hd]. destruct (isquote q) eqn:Q; [|reflexivity]. apply isquote_iff in Q. exfalso. eapply Hw; [reflexivity|exact Q]. }
  rewrite E. rewrite IH by lia. cbn [rev map]. rewrite <- app_assoc. reflexivity.
Qed.
Lemma cmdline_lem cmd rest ws : tokens (eq " "%char) rest ws -> (List.length ws <= 62)%nat ->
  Forall (fun w => forall q r, w = q :: r -> ~ quote q) ws ->
  cmdline_args cmd rest = map (firstn 63) (cmd :: ws).
Proof.
  intros Ht Hl Hq. unfold cmdline_args. apply space_tokens in Ht. rewrite Ht, cmd_loop_plain by (auto; lia). reflexivity.
Qed.

(** ** Names *)
Lemma name_lem dir base : dir <> [] -> ~ In " "%char dir -> ~ In "/"%char base -> ~ In " "%char base ->
  parse_name (dir ++ "/"%char :: base) None = base.
Proof.
  intros Hd Hs Hb Hsb. unfold parse_name.
  assert (E : cut (fun c => ch_eqb c " ") (dir ++ "/"%char :: base) = (dir ++ "/"%char :: base, [])).
  { apply cut_none. apply Forall_forall. intros x Hx. apply ch_eqb_neq. intros ->. apply in_app_or in Hx. destruct Hx as [Hx|[Hx|Hx]]; [auto|discriminate|auto]. }
  rewrite E. cbn [fst]. destruct dir as [|c d]; [congruence|]. cbn [app tl].
  assert (E2 : strrchr "/" (d ++ "/"%char :: base) = Some (d, base)) by (apply strrchr_some; auto). rewrite E2.
  rewrite skipn_all. apply app_nil_r.
Qed.
Lemma name_plain_lem cmd : cmd <> [] -> ~ In "/"%char cmd -> ~ In " "%char cmd -> parse_name cmd None = cmd.
Proof.
  intros Hd Hb Hs. unfold parse_name.
  assert (E : cut (fun c => ch_eqb c " ") cmd = (cmd, [])).
  { apply cut_none. apply Forall_forall. intros x Hx. apply ch_eqb_neq. intros ->. auto. }
  rewrite E. cbn [fst]. destruct cmd as [|c d]; [congruence|]. cbn [tl].
  assert (E2 : strrchr "/" d = None) by (apply strrchr_none; intros X; apply Hb; right; exact X). rewrite E2. reflexivity.
Qed.
