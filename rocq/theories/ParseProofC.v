(** Proofs about the configuration parsers: limits, templates, paths, numbers,
    arguments. *)
From Coq Require Import List String Ascii NArith ZArith Bool Lia Arith ZifyBool ZifyN.
From Verif Require Import CStr ParseModel ParseSpec CStrLib ParseProofB.
Import ListNotations.
Local Open Scope Z_scope.

Lemma skipn_skipn {A} n m (l : list A) : skipn n (skipn m l) = skipn (n + m) l.
Proof.
  revert l. induction m as [|m IH]; intros l; [rewrite Nat.add_0_r; reflexivity|].
  rewrite Nat.add_succ_r. destruct l as [|x l]; [rewrite !skipn_nil; reflexivity|]. cbn [skipn]. apply IH.
Qed.

(** ** C28 *)
Lemma lim_value_iff s v : lim_value s = Some v <-> limit_text s v.
Proof.
  unfold lim_value, limit_text. destruct (str_eqb s #"unlimited") eqn:E1.
  - apply str_eqb_eq in E1. subst s. cbn [orb]. split.
    + intros H. inversion H. left. auto.
    + intros [[_ ->]|(n & H & _)]; [reflexivity|]. exfalso. assert (X : strtonum 0 4294967296 #"unlimited" = Some n) by (apply strtonum_some; exact H). discriminate.
  - destruct (str_eqb s #"infinity") eqn:E2.
    + apply str_eqb_eq in E2. subst s. cbn [orb]. split.
      * intros H. inversion H. left. auto.
      * intros [[_ ->]|(n & H & _)]; [reflexivity|]. exfalso. assert (X : strtonum 0 4294967296 #"infinity" = Some n) by (apply strtonum_some; exact H). discriminate.
    + cbn [orb]. destruct (strtonum 0 4294967296 s) as [n|] eqn:E.
      * apply strtonum_some in E. split.
        -- intros H. inversion H. right. exists n. auto.
        -- intros [[[->| ->] _]|(m & H & ->)]; try discriminate. f_equal. f_equal.
           apply strtonum_some in E. apply strtonum_some in H. congruence.
      * split; [discriminate|]. intros [[[->| ->] _]|(m & H & ->)]; try discriminate.
        apply strtonum_some in H. congruence.
Qed.
Lemma str2rlim_iff s n : str2rlim s = Some n <-> In (s, n) resource_numbers.
Proof.
  unfold str2rlim. split.
  - destruct (find _ _) as [[k m]|] eqn:E; [|discriminate]. cbn. intros H. inversion H; subst. apply find_some in E.
    destruct E as [E1 E2]. cbn [fst] in E2. apply str_eqb_eq in E2. subst. exact E1.
  - cbn [resource_numbers In]. intros H.
    repeat (destruct H as [H|H]; [inversion H; subst; reflexivity|]). destruct H.
Qed.
Definition level_apply (level : cstr) (v : limit) (old : limit * limit) : limit * limit :=
  if str_eqb level #"soft" then (v, snd old) else if str_eqb level #"hard" then (fst old, v)
  else if str_eqb level #"both" then (v, v) else old.
Lemma rlimit_apply_same level lim val a m : ~ (exists v, In (lim, m) resource_numbers /\ limit_text val v) ->
  rlimit_apply level lim val a m = a m.
Proof.
  intros H. unfold rlimit_apply. destruct (str2rlim lim) as [r|] eqn:Er; [|reflexivity].
  destruct (lim_value val) as [v|] eqn:Ev; [|reflexivity]. apply str2rlim_iff in Er. apply lim_value_iff in Ev.
  assert (X : forall p, lim_set a r p m = a m).
  { intros p. unfold lim_set. destruct (Nat.eqb_spec m r); [|reflexivity]. subst. exfalso. eauto. }
  destruct (str_eqb level #"soft"); [apply X|]. destruct (str_eqb level #"hard"); [apply X|].
  destruct (str_eqb level #"both"); [apply X|reflexivity].
Qed.
Lemma rlimit_apply_set level lim val a m v : In (lim, m) resource_numbers -> limit_text val v ->
  rlimit_apply level lim val a m = level_apply level v (a m).
Proof.
  intros H1 H2. unfold rlimit_apply, level_apply. apply str2rlim_iff in H1. apply lim_value_iff in H2. rewrite H1, H2.
  unfold lim_set.
  destruct (str_eqb level #"soft"); [rewrite Nat.eqb_refl; reflexivity|]. destruct (str_eqb level #"hard"); [rewrite Nat.eqb_refl; reflexivity|].
  destruct (str_eqb level #"both"); [rewrite Nat.eqb_refl; reflexivity|reflexivity].
Qed.
Lemma rlimit_set_lem line a level lim val v r : rlimit_text line level lim val -> In (lim, r) resource_numbers -> limit_text val v ->
  parse_rlimit line a r = match level with LSoft => (v, snd (a r)) | LHard => (fst (a r), v) | LBoth => (v, v) end.
Proof.
  intros Ht Hr Hv. rewrite parse_rlimit_toks. destruct Ht as [(Ht & ->)|(ts & Ht)]; apply blank_tokens in Ht; rewrite Ht.
  - rewrite (rlimit_apply_set _ _ _ _ _ _ Hr Hv). reflexivity.
  - rewrite (rlimit_apply_set _ _ _ _ _ _ Hr Hv). destruct level; reflexivity.
Qed.
Lemma rlimit_same_lem line a r : ~ (exists level lim val v, rlimit_text line level lim val /\ In (lim, r) resource_numbers /\ limit_text val v) ->
  parse_rlimit line a r = a r.
Proof.
  intros H. rewrite parse_rlimit_toks. destruct (strtoks #" 	" line) as [|t1 [|t2 [|t3 ts]]] eqn:E; try reflexivity.
  - apply rlimit_apply_same. intros (v & H1 & H2). apply H. exists LBoth, t1, t2, v. repeat split; auto.
    left. split; [|reflexivity]. apply blank_tokens. exact E.
  - assert (D : str_eqb t1 #"soft" = true \/ str_eqb t1 #"hard" = true \/ str_eqb t1 #"both" = true \/
      (str_eqb t1 #"soft" = false /\ str_eqb t1 #"hard" = false /\ str_eqb t1 #"both" = false)).
    { destruct (str_eqb t1 #"soft"), (str_eqb t1 #"hard"), (str_eqb t1 #"both"); tauto. }
    destruct D as [D|[D|[D|(D1 & D2 & D3)]]].
    1-3: apply str_eqb_eq in D; subst t1; apply rlimit_apply_same; intros (v & H1 & H2); apply H.
    + exists LSoft, t2, t3, v. repeat split; auto. right. exists ts. apply blank_tokens, E.
    + exists LHard, t2, t3, v. repeat split; auto. right. exists ts. apply blank_tokens, E.
    + exists LBoth, t2, t3, v. repeat split; auto. right. exists ts. apply blank_tokens, E.
    + unfold rlimit_apply. destruct (str2rlim t2); [|reflexivity]. destruct (lim_value t3); [|reflexivity]. rewrite D1, D2, D3. reflexivity.
Qed.
Lemma rlim_names_lem s n : In (s, n) resource_numbers -> rlim2str n = s.
Proof. cbn [resource_numbers In]. intros H. repeat (destruct H as [H|H]; [inversion H; subst; reflexivity|]). destruct H. Qed.

(** ** C27 *)
Lemma replace_app name u t : ~ In "%"%char u -> replace_i name (u ++ t) = u ++ replace_i name t.
Proof.
  induction u as [|c u IH]; intros H; [reflexivity|]. cbn [app replace_i].
  assert (E : Ascii.eqb c "%" = false) by (apply ch_eqb_neq; intros ->; apply H; left; reflexivity).
  rewrite IH by (intros X; apply H; right; exact X). destruct (u ++ t) as [|i r] eqn:Er.
  - apply app_eq_nil in Er. destruct Er as [-> ->]. reflexivity.
  - rewrite E. reflexivity.
Qed.
Lemma replace_none name u : ~ In "%"%char u -> replace_i name u = u.
Proof. intros H. rewrite <- (app_nil_r u) at 1. rewrite replace_app by exact H. apply app_nil_r. Qed.
Lemma replace_cons name c r : (c <> "%"%char \/ forall r', r <> "i"%char :: r') -> replace_i name (c :: r) = c :: replace_i name r.
Proof.
  intros H. destruct r as [|i r]; [reflexivity|]. cbn [replace_i]. destruct (Ascii.eqb c "%" && Ascii.eqb i "i")%bool eqn:E; [|reflexivity].
  apply andb_prop in E. destruct E as [E1 E2]. apply Ascii.eqb_eq in E1. apply Ascii.eqb_eq in E2. subst.
  destruct H as [H|H]; [congruence|]. exfalso. eapply H. reflexivity.
Qed.
(** one step *)
Lemma inst_step_none name s pos : inst_step name s pos = None -> ~ In "%"%char (skipn pos s).
Proof. unfold inst_step. destruct (strchr "%" (skipn pos s)) as [[a b]|] eqn:E; [|intros _; apply strchr_none, E]. destruct (starts _ _); discriminate. Qed.
Lemma inst_step_some name s pos s' pos' : inst_step name s pos = Some (s', pos') -> (pos <= List.length s)%nat ->
  exists a b, s = firstn pos s ++ a ++ "%"%char :: b /\ ~ In "%"%char a /\
    ((exists r, b = "i"%char :: r /\ s' = firstn pos s ++ a ++ name ++ r /\ pos' = (pos + List.length name)%nat) \/
     ((forall r, b <> "i"%char :: r) /\ s' = s /\ pos' = S pos)).
Proof.
  unfold inst_step. destruct (strchr "%" (skipn pos s)) as [[a b]|] eqn:E; [|discriminate]. apply strchr_some in E. destruct E as [E Ha].
  intros H Hp. exists a, b. assert (Es : s = firstn pos s ++ a ++ "%"%char :: b) by (rewrite <- E, firstn_skipn; reflexivity).
  split; [exact Es|]. split; [exact Ha|].
  assert (Lp : List.length (firstn pos s) = pos) by (apply firstn_length_le; exact Hp).
  assert (Sk : skipn (pos + List.length a) s = "%"%char :: b).
  { rewrite Es at 1. rewrite skipn_app, Lp. replace (pos + List.length a - pos)%nat with (List.length a) by lia.
    rewrite skipn_app, Nat.sub_diag, skipn_all. rewrite skipn_all2 by lia. reflexivity. }
  assert (Fi : firstn (pos + List.length a) s = firstn pos s ++ a).
  { rewrite Es at 1. rewrite firstn_app, Lp. replace (pos + List.length a - pos)%nat with (List.length a) by lia.
    rewrite firstn_app, Nat.sub_diag, firstn_all, firstn_O, app_nil_r. f_equal. apply firstn_all2. lia. }
  rewrite Sk in H. destruct (starts #"%i" ("%"%char :: b)) eqn:Ei.
  - left. apply starts_iff in Ei. destruct Ei as [r Ei]. inversion Ei; subst b. exists r.
    inversion H; subst s' pos'. split; [reflexivity|]. split; [|reflexivity].
    rewrite Fi, <- app_assoc. f_equal. f_equal. f_equal.
    rewrite (Nat.add_comm _ 2). rewrite <- skipn_skipn. rewrite Sk. reflexivity.
  - right. inversion H; subst. split; [|auto]. intros r ->. assert (X : starts #"%i" (#"%i" ++ r) = true) by apply starts_app.
    change (#"%i" ++ r) with ("%"%char :: "i"%char :: r) in X. congruence.
Qed.
Lemma inst_loop_result name n : ~ In "%"%char name -> forall s pos r, (pos <= List.length s)%nat ->
  inst_loop n name s pos = Some r -> r = firstn pos s ++ replace_i name (skipn pos s).
Proof.
  intros Hn. induction n as [|n IH]; [discriminate|]. intros s pos r Hp. cbn [inst_loop].
  destruct (inst_step name s pos) as [[s' pos']|] eqn:E.
  - destruct (inst_step_some _ _ _ _ _ E Hp) as (a & b & Es & Ha & D). intros H.
    assert (Lp : List.length (firstn pos s) = pos) by (apply firstn_length_le; exact Hp).
    assert (Sk : skipn pos s = a ++ "%"%char :: b).
    { rewrite Es at 1. rewrite skipn_app, Lp, Nat.sub_diag, skipn_all2 by lia. reflexivity. }
    destruct D as [(q & -> & -> & ->)|(Hb & -> & ->)].
    + set (pre := firstn pos s) in *.
      apply IH in H.
      2:{ rewrite !app_length. lia. }
      rewrite H, Sk. clear H IH E. rewrite replace_app by exact Ha.
      replace (replace_i name ("%"%char :: "i"%char :: q)) with (name ++ replace_i name q) by reflexivity.
      set (x := a ++ name). replace (pre ++ a ++ name ++ q) with ((pre ++ x) ++ q) by (unfold x; rewrite <- !app_assoc; reflexivity).
      assert (Lx : (pos + List.length name <= List.length (pre ++ x))%nat) by (unfold x; rewrite !app_length; lia).
      rewrite firstn_app, skipn_app. replace (pos + List.length name - List.length (pre ++ x))%nat with 0%nat by lia.
      cbn [firstn skipn]. rewrite app_nil_r, replace_app.
      * rewrite app_assoc, firstn_skipn. unfold x. rewrite <- !app_assoc. reflexivity.
      * intros X. rewrite skipn_app in X. rewrite (skipn_all2 pre) in X by lia. cbn [app] in X.
        assert (Y : In "%"%char x). { rewrite <- (firstn_skipn (pos + List.length name - List.length pre) x). apply in_or_app. right. exact X. }
        unfold x in Y. apply in_app_or in Y. tauto.
    + apply IH in H.
      2:{ rewrite Es, !app_length. cbn [List.length]. lia. }
      rewrite H, Sk. clear H IH E.
      assert (Ex : exists c t, a ++ "%"%char :: b = c :: t /\ replace_i name (c :: t) = c :: replace_i name t).
      { destruct a as [|c a].
        - exists "%"%char, b. split; [reflexivity|]. apply replace_cons. right. exact Hb.
        - exists c, (a ++ "%"%char :: b). split; [reflexivity|]. apply replace_cons. left. intros ->. apply Ha. left. reflexivity. }
      destruct Ex as (c & t & Ec & Er). rewrite Ec in *. rewrite Er.
      assert (Es' : s = (firstn pos s ++ [c]) ++ t) by (rewrite <- app_assoc; exact Es).
      assert (Ls : List.length (firstn pos s ++ [c]) = S pos) by (rewrite app_length, Lp; cbn; lia).
      rewrite Es' at 1 2. rewrite <- Ls at 1 2.
      rewrite firstn_app, skipn_app, Nat.sub_diag, firstn_all, skipn_all. cbn [firstn skipn app]. rewrite app_nil_r.
      rewrite <- app_assoc. reflexivity.
  - intros H. inversion H; subst. apply inst_step_none in E. rewrite replace_none by exact E. symmetry. apply firstn_skipn.
Qed.
Lemma inst_loop_ends name n : name <> [] -> forall s pos, (pos <= List.length s)%nat -> (List.length s - pos < n)%nat ->
  inst_loop n name s pos <> None.
Proof.
  intros Hn. induction n as [|n IH]; intros s pos Hp Hl; [lia|]. cbn [inst_loop].
  destruct (inst_step name s pos) as [[s' pos']|] eqn:E; [|discriminate].
  destruct (inst_step_some _ _ _ _ _ E Hp) as (a & b & Es & Ha & D).
  assert (Lp : List.length (firstn pos s) = pos) by (apply firstn_length_le; exact Hp).
  assert (L : List.length s = (pos + List.length a + S (List.length b))%nat) by (rewrite Es, !app_length; cbn [List.length]; lia).
  destruct D as [(q & -> & -> & ->)|(Hb & -> & ->)]; apply IH; rewrite ?app_length; cbn [List.length] in *; lia.
Qed.
Lemma instantiate_lem name line : name <> [] -> ~ In "%"%char name ->
  forall n, (List.length line < n)%nat -> instantiate n name line = Some (replace_i name line).
Proof.
  intros H1 H2 n Hn. 
  assert (E : instantiate n name line = inst_loop n name line 0) by (destruct name; [congruence|reflexivity]). rewrite E. clear E.
  destruct (inst_loop n name line 0) as [r|] eqn:Er.
  - apply inst_loop_result in Er; [|exact H2|lia]. subst r. reflexivity.
  - exfalso. revert Er. apply inst_loop_ends; [exact H1|lia|lia].
Qed.
Lemma instantiate_ends_lem name line n : (List.length line < n)%nat -> instantiate n name line <> None.
Proof. intros Hn. unfold instantiate. destruct name; [discriminate|]. apply inst_loop_ends; [discriminate|lia|lia]. Qed.

(** the buffer *)
Inductive inst_reach (name line : cstr) : nat -> cstr -> nat -> Prop :=
| ir_start : inst_reach name line 0 line 0
| ir_step e s pos s' pos' : inst_reach name line e s pos -> inst_step name s pos = Some (s', pos') ->
    inst_reach name line (if starts #"%i" (skipn (pos + List.length (match strchr "%" (skipn pos s) with Some (a, _) => a | None => [] end)) s) then S e else e) s' pos'.
Lemma count_loop_bound s j : nth_error s j = Some "%"%char -> (j < count_loop s)%nat.
Proof.
  revert j. induction s as [|c s IH]; intros j H; [destruct j; discriminate|].
  cbn [count_loop]. destruct (strchr "%" (c :: s)) as [p|] eqn:E.
  - destruct j as [|j]; [lia|]. cbn in H. apply IH in H. lia.
  - apply strchr_none in E. exfalso. apply E. eapply nth_error_In. exact H.
Qed.
Lemma inst_expansions name line e s pos : name <> [] -> inst_reach name line e s pos ->
  let L := List.length name in let num := count_loop line in
  (pos <= List.length s)%nat /\ (e * L <= pos)%nat /\ (e <= num)%nat /\
  (List.length s + 2 * e = List.length line + e * L)%nat /\
  (forall j, nth_error s j = Some "%"%char -> (j < num + e * (L - 1))%nat).
Proof.
  intros Hn H. cbv zeta. assert (HL : (1 <= List.length name)%nat) by (destruct name; [congruence|cbn; lia]).
  induction H as [|e s pos s' pos' H IH E].
  - repeat split; try lia. intros j Hj. apply count_loop_bound in Hj. lia.
  - destruct IH as (I1 & I2 & I3 & I4 & I5).
    pose proof (inst_step_some _ _ _ _ _ E I1) as (a & b & Es & Ha & D).
    assert (Lp : List.length (firstn pos s) = pos) by (apply firstn_length_le; exact I1).
    assert (Sk : skipn pos s = a ++ "%"%char :: b).
    { rewrite Es at 1. rewrite skipn_app, Lp, Nat.sub_diag, skipn_all2 by lia. reflexivity. }
    assert (Ec : strchr "%" (skipn pos s) = Some (a, b)) by (apply strchr_some; auto). rewrite Ec.
    assert (Sk2 : skipn (pos + List.length a) s = "%"%char :: b).
    { rewrite (Nat.add_comm pos), <- skipn_skipn, Sk, skipn_app, Nat.sub_diag, skipn_all. reflexivity. }
    rewrite Sk2.
    assert (Hp : (pos + List.length a < count_loop line + e * (List.length name - 1))%nat).
    { apply I5. rewrite Es at 1. rewrite nth_error_app2 by lia. rewrite Lp. replace (pos + List.length a - pos)%nat with (List.length a) by lia.
      rewrite nth_error_app2 by lia. rewrite Nat.sub_diag. reflexivity. }
    destruct D as [(q & -> & -> & ->)|(Hb & -> & ->)].
    + change (starts #"%i" ("%"%char :: "i"%char :: q)) with (starts #"%i" (#"%i" ++ q)). rewrite starts_app.
      assert (Ls : List.length s = (pos + List.length a + S (S (List.length q)))%nat).
      { rewrite Es, !app_length, Lp. cbn [List.length]. lia. }
      set (L := List.length name) in *.
      assert (Ei : (e < count_loop line)%nat) by nia.
      split; [rewrite !app_length; fold L; lia|]. split; [lia|]. split; [lia|].
      split; [rewrite !app_length; fold L; lia|].
      intros j Hj. destruct (Nat.lt_ge_cases j (pos + List.length a)) as [Hlt|Hge]; [nia|].
      destruct (Nat.lt_ge_cases j (pos + List.length a + L)) as [Hlt2|Hge2]; [nia|].
      assert (Hj' : nth_error s (j - L + 2) = Some "%"%char).
      { rewrite Es. rewrite nth_error_app2 by lia. rewrite nth_error_app2 by lia.
        rewrite nth_error_app2 in Hj by lia. rewrite nth_error_app2 in Hj by lia. rewrite nth_error_app2 in Hj by (fold L; lia).
        rewrite Lp in *. fold L in Hj.
        replace (j - L + 2 - pos - List.length a)%nat with (S (S (j - pos - List.length a - L)))%nat by lia. exact Hj. }
      apply I5 in Hj'. nia.
    + assert (X : starts #"%i" ("%"%char :: b) = false).
      { destruct (starts #"%i" ("%"%char :: b)) eqn:X; [|reflexivity]. apply starts_iff in X. destruct X as [r X]. inversion X. exfalso. eapply Hb; eauto. }
      rewrite X. repeat split; try lia; [|exact I5].
      rewrite Es, !app_length, Lp. cbn [List.length]. lia.
Qed.
Lemma instantiate_fits_lem name line e s pos : name <> [] -> inst_reach name line e s pos ->
  (List.length s + 1 <= inst_capacity name line)%nat.
Proof.
  intros Hn H. pose proof (inst_expansions _ _ _ _ _ Hn H) as (A & B & C & D & _). unfold inst_capacity.
  assert (e * List.length name <= count_loop line * List.length name)%nat by (apply Nat.mul_le_mono_r; exact C). lia.
Qed.
