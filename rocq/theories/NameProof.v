(** Proofs about names: signals, job strings, if: guards. *)
From Coq Require Import List String Ascii NArith ZArith Bool Lia.
From Coq Require Import ZifyBool ZifyNat ZifyN.
From Verif Require Import CStr CondModel ParseSpec CStrLib NameModel NameSpec.
Import ListNotations.
Local Open Scope Z_scope.

(** ** Signals *)
Lemma strcase_same a b : strcase_eqb a b = true <-> same_letters a b.
Proof. unfold strcase_eqb, same_letters. apply str_eqb_eq. Qed.
Lemma strcase_ext a a' b : same_letters a a' -> strcase_eqb a b = strcase_eqb a' b.
Proof. unfold strcase_eqb, same_letters. intros ->. reflexivity. Qed.
Lemma istarts_map p s : istarts p s = starts (map tolower p) (map tolower s).
Proof. revert s. induction p as [|x p IH]; intros [|y s]; cbn; auto. rewrite IH. reflexivity. Qed.
Lemma istarts_ext p a a' : same_letters a a' -> istarts p a = istarts p a'.
Proof. intros H. rewrite !istarts_map, H. reflexivity. Qed.
Lemma find_ext {A} (f g : A -> bool) l : (forall x, f x = g x) -> find f l = find g l.
Proof. intros H. induction l as [|x l IH]; cbn; [reflexivity|]. rewrite H, IH. reflexivity. Qed.
Lemma sig_num_ext s s' : same_letters s s' -> sig_num s = sig_num s'.
Proof.
  intros H. unfold sig_num. rewrite (istarts_ext #"SIG" s s' H).
  erewrite find_ext; [reflexivity|]. intros e. apply strcase_ext, H.
Qed.
Lemma same_skipn n a a' : same_letters a a' -> same_letters (skipn n a) (skipn n a').
Proof.
  unfold same_letters. revert a a'. induction n as [|n IH]; intros [|x a] [|y a'] H; cbn in *; try discriminate; auto.
  inversion H. auto.
Qed.
Lemma str2sig_from_ext s s' l i : same_letters s s' -> str2sig_from i l s = str2sig_from i l s'.
Proof. intros H. revert i. induction l as [|x l IH]; intros i; cbn; [reflexivity|]. rewrite (strcase_ext s s' x H), IH. reflexivity. Qed.
Lemma str2sig_ext s s' : same_letters s s' -> str2sig s = str2sig s'.
Proof.
  intros H. unfold str2sig. rewrite (istarts_ext #"SIG" s s' H). apply str2sig_from_ext.
  destruct (istarts _ s'); [apply same_skipn, H|exact H].
Qed.
Definition all_names : list (Z * string) := posix_signals ++ other_names.
Lemma same_app a b c : same_letters a (b ++ c) -> exists x y, a = x ++ y /\ same_letters x b /\ same_letters y c.
Proof.
  unfold same_letters. intros H. exists (firstn (List.length b) a), (skipn (List.length b) a).
  split; [symmetry; apply firstn_skipn|]. rewrite <- firstn_map, <- skipn_map, H, map_app.
  rewrite firstn_app, skipn_app, map_length, Nat.sub_diag. cbn [firstn skipn].
  rewrite <- (map_length tolower b), firstn_all, skipn_all, app_nil_r. auto.
Qed.
Lemma sig_num_table : forallb (fun e => (sig_num (#(snd e)) =? fst e) && (sig_num (#"SIG" ++ #(snd e)) =? fst e)) all_names = true.
Proof. vm_compute. reflexivity. Qed.
Lemma sig_table_names : forallb (fun e => existsb (fun a => (fst a =? fst e) && str_eqb (#"SIG" ++ #(snd a)) (snd e)) all_names) sig_table = true.
Proof. vm_compute. reflexivity. Qed.
Lemma sig_num_lem s n : n <> -1 -> sig_num s = n <-> names_signal all_names s n.
Proof.
  intros Hn. split.
  - unfold sig_num. destruct (find _ sig_table) as [[m nm]|] eqn:E; [|intros X; congruence]. intros ->.
    apply find_some in E. destruct E as [Hi E]. cbn [snd] in E.
    pose proof sig_table_names as T. rewrite forallb_forall in T. specialize (T _ Hi). cbn [fst snd] in T.
    apply existsb_exists in T. destruct T as ([n' m] & Hm & T). cbn [fst snd] in T. apply andb_prop in T. destruct T as [T1 T2].
    apply Z.eqb_eq in T1. apply str_eqb_eq in T2. subst. exists m. split; [exact Hm|]. apply strcase_same in E.
    destruct (istarts #"SIG" s); [right; exact E|left]. cbn [skipn list_ascii_of_string app] in E. exact E.
  - intros (m & Hm & H). pose proof sig_num_table as T. rewrite forallb_forall in T. specialize (T _ Hm). cbn [fst snd] in T.
    apply andb_prop in T. destruct T as [T1 T2]. apply Z.eqb_eq in T1, T2.
    destruct H as [H|H]; rewrite (sig_num_ext _ _ H); assumption.
Qed.
Lemma sig_num_range s : sig_num s = -1 \/ 1 <= sig_num s <= 31.
Proof.
  unfold sig_num. destruct (find _ sig_table) as [[m nm]|] eqn:E; [right|left; reflexivity].
  apply find_some in E. destruct E as [Hi _].
  assert (T : forallb (fun e => (1 <=? fst e) && (fst e <=? 31)) sig_table = true) by (vm_compute; reflexivity).
  rewrite forallb_forall in T. specialize (T _ Hi). cbn [fst] in T. lia.
Qed.
Definition below32 : list Z := map Z.of_nat (seq 1 31).
Lemma in_below32 n : 1 <= n <= 31 -> In n below32.
Proof. intros H. unfold below32. apply in_map_iff. exists (Z.to_nat n). split; [lia|]. apply in_seq. lia. Qed.
Lemma sig_roundtrip_lem n : 1 <= n <= 31 -> sig_num (sig_name n) = n /\ str2sig (sig2str n) = n.
Proof.
  intros H. assert (T : forallb (fun n => (sig_num (sig_name n) =? n) && (str2sig (sig2str n) =? n)) below32 = true) by (vm_compute; reflexivity).
  rewrite forallb_forall in T. specialize (T _ (in_below32 n H)). lia.
Qed.
Lemma str2sig_table : forallb (fun e => (str2sig (#(snd e)) =? fst e) && (str2sig (#"SIG" ++ #(snd e)) =? fst e)) posix_signals = true.
Proof. vm_compute. reflexivity. Qed.
Lemma str2sig_from_in l i s n : str2sig_from i l s = n -> n <> -1 -> exists k x, nth_error l k = Some x /\ n = i + Z.of_nat k /\ same_letters s x.
Proof.
  revert i. induction l as [|x l IH]; intros i; cbn; [congruence|]. destruct (strcase_eqb s x) eqn:E.
  - intros <- _. exists 0%nat, x. split; [reflexivity|]. split; [lia|]. apply strcase_same, E.
  - intros H Hn. destruct (IH _ H Hn) as (k & y & A & B & C). exists (S k), y. split; [exact A|]. split; [lia|exact C].
Qed.
Definition signames_names : bool :=
  forallb (fun k => match nth_error (tl signames) k with
                    | Some x => existsb (fun a => (fst a =? 1 + Z.of_nat k) && str_eqb (#(snd a)) x) posix_signals
                    | None => true
                    end) (seq 0 31).
Lemma str2sig_lem s n : n <> -1 -> str2sig s = n <-> names_signal posix_signals s n.
Proof.
  intros Hn. split.
  - intros H. apply str2sig_from_in in H; [|exact Hn]. destruct H as (k & x & A & B & C).
    assert (Hk : (k < 31)%nat) by (apply (nth_error_Some (tl signames) k); congruence).
    assert (T : signames_names = true) by (vm_compute; reflexivity). unfold signames_names in T. rewrite forallb_forall in T.
    specialize (T k). rewrite A in T. assert (Hin : In k (seq 0 31)) by (apply in_seq; lia). specialize (T Hin).
    apply existsb_exists in T. destruct T as ([n' m] & Hm & T). cbn [fst snd] in T. apply andb_prop in T. destruct T as [T1 T2].
    apply Z.eqb_eq in T1. apply str_eqb_eq in T2. subst. exists m. split; [exact Hm|].
    destruct (istarts #"SIG" s) eqn:E; [right|left; exact C].
    rewrite istarts_map in E. apply starts_iff in E. destruct E as [r E].
    unfold same_letters in *. rewrite map_app, <- C, <- skipn_map, E. reflexivity.
  - intros (m & Hm & H). pose proof str2sig_table as T. rewrite forallb_forall in T. specialize (T _ Hm). cbn [fst snd] in T.
    apply andb_prop in T. destruct T as [T1 T2]. apply Z.eqb_eq in T1, T2.
    destruct H as [H|H]; rewrite (str2sig_ext _ _ H); assumption.
Qed.
Lemma api_signal_lem n : api_signal_ok n = true <-> 1 <= n <= 31.
Proof.
  unfold api_signal_ok, sig2str. change (Z.of_nat (List.length signames)) with 32.
  destruct ((n <? 1) || (32 <=? n)) eqn:E; [split; [discriminate|lia]|]. split; [lia|]. intros H.
  assert (T : forallb (fun n => match nth (Z.to_nat n) signames [] with [] => false | _ => true end) below32 = true) by (vm_compute; reflexivity).
  rewrite forallb_forall in T. apply (T n), in_below32, H.
Qed.
Lemma sighalt_lem old arg n : parse_sighalt old arg = n <->
  names_signal all_names arg n \/ n = old /\ forall m, ~ names_signal all_names arg m.
Proof.
  assert (NM : ~ names_signal all_names arg (-1)).
  { intros (m & H & _). assert (T : forallb (fun e => negb (fst e =? -1)) all_names = true) by (vm_compute; reflexivity).
    rewrite forallb_forall in T. specialize (T _ H). discriminate T. }
  unfold parse_sighalt. destruct (sig_num arg =? -1) eqn:E.
  - assert (NO : forall m, ~ names_signal all_names arg m).
    { intros m H. destruct (Z.eq_dec m (-1)) as [->|Hm]; [auto|]. apply sig_num_lem in H; [|exact Hm]. lia. }
    split; [intros <-; right; auto|]. intros [H|[-> _]]; [destruct (NO _ H)|reflexivity].
  - split.
    + intros <-. left. apply sig_num_lem; [lia|reflexivity].
    + intros [H|[_ H]]; [apply sig_num_lem; [intros ->; auto|exact H]|].
      exfalso. apply (H (sig_num arg)). apply sig_num_lem; [lia|reflexivity].
Qed.
Lemma initctl_signo_lem s n : initctl_signo s = Some n <->
  names_signal posix_signals s n \/ (forall m, ~ names_signal posix_signals s m) /\ number s n /\ 1 <= n <= 31.
Proof.
  assert (NM : ~ names_signal posix_signals s (-1)).
  { intros (m & H & _). assert (T : forallb (fun e => negb (fst e =? -1)) posix_signals = true) by (vm_compute; reflexivity).
    rewrite forallb_forall in T. specialize (T _ H). discriminate T. }
  unfold initctl_signo. destruct (str2sig s =? -1) eqn:E.
  - assert (NO : forall m, ~ names_signal posix_signals s m).
    { intros m H. destruct (Z.eq_dec m (-1)) as [->|Hm]; [auto|]. apply str2sig_lem in H; [|exact Hm]. lia. }
    rewrite strtonum_some. split; [intros H; right; tauto|]. intros [H|H]; [destruct (NO _ H)|tauto].
  - split.
    + intros H. left. apply str2sig_lem; [|congruence]. intros ->. inversion H. lia.
    + intros [H|[H _]].
      * assert (n <> -1) by (intros ->; auto). apply str2sig_lem in H; [congruence|assumption].
      * exfalso. apply (H (str2sig s)). apply str2sig_lem; [lia|reflexivity].
Qed.

(** ** Job strings *)
Lemma find_filter {A} (f : A -> bool) l : find f l = hd_error (filter f l).
Proof. induction l as [|x l IH]; cbn; [reflexivity|]. destruct (f x); [reflexivity|exact IH]. Qed.
Lemma opt_hd {A} (l : list A) : opt_list (hd_error l) = firstn 1 l.
Proof. destruct l; reflexivity. Qed.
Lemma wordch_letter c : wordch c = true <-> letter c.
Proof.
  unfold wordch, letter, isdigit, tolower, isupper. rewrite <- (ascii_N_embedding c). fold (code c).
  pose proof (code_lt c) as B. set (n := code c) in *. clearbody n.
  assert (E : code (ascii_of_N n) = n) by (apply code_of; lia). rewrite E.
  assert (X : ascii_of_N n = "_"%char <-> n = 95%N).
  { split; [intros H; apply (f_equal code) in H; rewrite E in H; exact H|intros ->; reflexivity]. }
  rewrite !orb_true_iff, ch_eqb_eq, X.
  assert (Y : (exists m, (48 <= m <= 57 \/ 65 <= m <= 90 \/ 97 <= m <= 122)%N /\ ascii_of_N n = ascii_of_N m) <->
              (48 <= n <= 57 \/ 65 <= n <= 90 \/ 97 <= n <= 122)%N).
  { split; [|intros H; exists n; auto]. intros (m & Hm & H). apply (f_equal code) in H. rewrite E, code_of in H by lia. lia. }
  rewrite Y. destruct ((65 <=? n)%N && (n <=? 90)%N) eqn:U.
  - rewrite code_of by lia. lia.
  - rewrite E. lia.
Qed.
Lemma sanitize_letter s : sanitize s = true <-> exists c, In c s /\ letter c.
Proof.
  unfold sanitize. rewrite existsb_exists. split; intros (c & A & B); exists c; (split; [exact A|]); apply wordch_letter, B.
Qed.
Lemma digit_letter c v : digit_is c v -> letter c.
Proof. intros [H ->]. right. exists (48 + Z.to_N v)%N. split; [lia|reflexivity]. Qed.
Lemma white_iff c : white c <-> isspace c = true.
Proof. symmetry. apply isspace_iff. Qed.

Lemma tokstr_blank a s : Forall white a -> tokstr (a ++ s) = repeat [] (List.length a) ++ tokstr s.
Proof. induction 1 as [|c a Hc _ IH]; cbn; [reflexivity|]. apply white_iff in Hc. rewrite Hc, IH. reflexivity. Qed.
Lemma tokstr_word w : Forall (fun c => ~ white c) w -> w <> [] -> tokstr w = [w].
Proof.
  induction 1 as [|c w Hc Hw IH]; [congruence|]. intros _. cbn. destruct (isspace c) eqn:E; [apply white_iff in E; tauto|].
  destruct w as [|d w]; [reflexivity|]. rewrite IH by discriminate. reflexivity.
Qed.
Lemma tokstr_more w d s : Forall (fun c => ~ white c) w -> w <> [] -> white d -> tokstr (w ++ d :: s) = w :: tokstr s.
Proof.
  intros Hw Hn Hd. apply white_iff in Hd. induction Hw as [|c w Hc Hw IH]; [congruence|]. cbn.
  destruct (isspace c) eqn:E; [apply white_iff in E; tauto|].
  destruct w as [|e w]; [cbn; rewrite Hd; reflexivity|]. rewrite IH by discriminate. reflexivity.
Qed.
Definition NUL : ascii := "000"%char.
Lemma nul_not_white : ~ white NUL.
Proof. rewrite white_iff. discriminate. Qed.
Lemma upto_nul_id w : ~ In NUL w -> upto_nul w = w.
Proof. intros H. unfold upto_nul. rewrite cut_none; [reflexivity|]. apply not_in_forall, H. Qed.
Lemma upto_nul_pad w n : ~ In NUL w -> upto_nul (w ++ repeat NUL n) = w.
Proof.
  intros H. unfold upto_nul. rewrite cut_app; [reflexivity|apply not_in_forall, H|]. destruct n; [exact Logic.I|reflexivity].
Qed.
Definition full (w : cstr) : bool := match w with [] => false | _ => true end.
Lemma filter_blank n (l : list cstr) : filter full (map upto_nul (repeat [] n ++ l)) = filter full (map upto_nul l).
Proof. induction n as [|n IH]; cbn [repeat app map filter]; [reflexivity|exact IH]. Qed.
Lemma tokens_tokstr s ws n : tokens white s ws -> ~ In NUL s -> filter full (map upto_nul (tokstr (s ++ repeat NUL n))) = ws.
Proof.
  assert (NW : forall m, Forall (fun c => ~ white c) (repeat NUL m)).
  { intros m. apply Forall_forall. intros c Hc. apply repeat_spec in Hc. subst. apply nul_not_white. }
  induction 1 as [s Hs|a w Ha Hn Hw|a w d s ws Ha Hn Hw Hd Ht IH]; intros HN.
  - rewrite tokstr_blank by exact Hs. rewrite filter_blank. destruct n as [|n]; [reflexivity|].
    rewrite tokstr_word; [|apply NW|discriminate]. cbn [map filter]. pose proof (upto_nul_pad [] (S n) (fun X => X)) as Z. cbn [app] in Z. rewrite Z. reflexivity.
  - rewrite <- app_assoc. rewrite tokstr_blank by exact Ha. rewrite filter_blank. rewrite tokstr_word.
    + cbn [map filter]. rewrite upto_nul_pad by (intros X; apply HN, in_or_app; auto). destruct w; [congruence|reflexivity].
    + apply Forall_app. auto.
    + destruct w; [congruence|discriminate].
  - rewrite <- !app_assoc. cbn [app]. rewrite tokstr_blank by exact Ha. rewrite filter_blank. rewrite tokstr_more by assumption.
    cbn [map filter]. rewrite upto_nul_id by (intros X; apply HN, in_or_app; right; apply in_or_app; auto).
    rewrite IH; [destruct w; [congruence|reflexivity]|]. intros X. apply HN, in_or_app. right. apply in_or_app. right. right. exact X.
Qed.
Lemma jobwords_full l ws : jobwords l ws = jobwords l (filter full ws).
Proof.
  induction ws as [|w ws IH]; [reflexivity|]. cbn [jobwords filter]. destruct w as [|c w]; cbn [full]; [cbn; exact IH|].
  cbn [jobwords]. rewrite IH. reflexivity.
Qed.
Lemma to_int_id j : 0 <= j < 2147483648 -> to_int j = j.
Proof. intros H. unfold to_int. rewrite Z.mod_small by lia. lia. Qed.
Lemma hits_chosen w rs : hits w rs = match rs with [] => [Miss w] | r :: l => map Hit (r :: l) end.
Proof. destruct rs; reflexivity. Qed.
Lemma digits_prefix d j s : digits_value d j -> match s with [] => True | c :: _ => isdigit c = false end ->
  digits_ 0 (d ++ s) = (j, s) /\ isdigit (hd NUL (d ++ s)) = true /\ ~ In ":"%char d /\ exists c, In c d /\ letter c.
Proof.
  intros H Hs. apply unsigned_value in H. unfold unsigned_ in H. destruct d as [|c d]; [discriminate|].
  destruct (isdigit c) eqn:E; [|discriminate]. assert (H' : digits_ 0 (c :: d) = (j, [])) by (injection H; auto). pose proof (digits_full _ _ _ H') as F.
  split; [|split; [exact E|split]].
  - rewrite (digits_app 0 (c :: d) s F Hs). pose proof (digits_app 0 (c :: d) [] F Logic.I) as Z. rewrite app_nil_r, H' in Z. congruence.
  - intros X. rewrite Forall_forall in F. specialize (F _ X). discriminate F.
  - exists c. split; [left; reflexivity|]. apply isdigit_iff in E. eapply digit_letter, E.
Qed.
Lemma alpha_not_digit n s : alpha_first n -> isdigit (hd NUL (n ++ s)) = false.
Proof.
  intros (c & r & -> & H). cbn. destruct (isdigit c) eqn:E; [|reflexivity]. exfalso. apply H. exists (digit c).
  apply isdigit_iff, E.
Qed.
Lemma nodup_filter l n i : distinct l ->
  firstn 1 (filter (is_target (TNameId n i)) l) = filter (is_target (TNameId n i)) l.
Proof.
  unfold distinct. induction l as [|r l IH]; intros H; [reflexivity|]. cbn [filter map] in *. inversion H as [|? ? Hn Hd]; subst.
  destruct (is_target (TNameId n i) r) eqn:E; [|apply IH, Hd]. cbn [firstn]. f_equal.
  destruct (filter (is_target (TNameId n i)) l) as [|r' f] eqn:F; [reflexivity|]. exfalso. apply Hn.
  assert (X : In r' (filter (is_target (TNameId n i)) l)) by (rewrite F; left; reflexivity).
  apply filter_In in X. destruct X as [X1 X2]. cbn in E, X2. apply andb_prop in E, X2. destruct E as [E1 E2], X2 as [F1 F2].
  apply str_eqb_eq in E1, E2, F1, F2. subst. apply in_map_iff. exists r'. split; [rewrite F1, F2; reflexivity|exact X1].
Qed.
Lemma jobword_lem l t w : distinct l -> written t w -> fits t -> (exists c, In c w /\ letter c) ->
  jobword l w = word_acts l (t, w).
Proof.
  intros HD Hw Hf HL. unfold jobword. apply sanitize_letter in HL. rewrite HL. cbn [negb]. fold NUL. unfold word_acts. cbn [fst snd].
  destruct t as [n|n i|j|j i]; cbn [written fits] in *.
  - destruct Hw as (-> & Hc & Ha). rewrite <- (app_nil_r n) at 1. rewrite (alpha_not_digit n [] Ha).
    apply strchr_none in Hc. rewrite Hc, hits_chosen. reflexivity.
  - destruct Hw as (-> & Hc & Ha). rewrite (alpha_not_digit n _ Ha).
    assert (E : strchr ":" (n ++ ":"%char :: i) = Some (n, i)) by (apply strchr_some; auto). rewrite E.
    unfold svc_find. rewrite find_filter, opt_hd. cbn [chosen].
    pose proof (nodup_filter l n i HD) as X. change (is_target (TNameId n i)) with (fun r => str_eqb (v_name r) n && str_eqb (v_id r) i) in *. rewrite X, hits_chosen. reflexivity.
  - destruct (digits_prefix w j [] Hw Logic.I) as (A & B & C & _). rewrite app_nil_r in A, B. rewrite B, A. cbn [fst].
    pose proof (digits_value_nonneg _ _ Hw) as P. destruct (LONG_MAX <? j) eqn:E; [unfold LONG_MAX in E; lia|].
    apply strchr_none in C. rewrite C. rewrite to_int_id by lia. rewrite hits_chosen. reflexivity.
  - destruct Hw as (d & Hd & ->). destruct (digits_prefix d j (":"%char :: i) Hd eq_refl) as (A & B & C & _).
    rewrite B, A. cbn [fst]. pose proof (digits_value_nonneg _ _ Hd) as P.
    destruct (LONG_MAX <? j) eqn:E; [unfold LONG_MAX in E; lia|].
    assert (E' : strchr ":" (d ++ ":"%char :: i) = Some (d, i)) by (apply strchr_some; auto). rewrite E'.
    rewrite to_int_id by lia. unfold svc_find_by_jobid. rewrite find_filter, opt_hd, hits_chosen. reflexivity.
Qed.
Lemma acts_not_hang l x : word_acts l x <> [Hang].
Proof. unfold word_acts. destruct (chosen _ l) as [|r [|r' rs]]; discriminate. Qed.
Lemma jobwords_lem l tws : distinct l -> Forall (fun tw => written (fst tw) (snd tw) /\ fits (fst tw) /\ exists c, In c (snd tw) /\ letter c) tws ->
  jobwords l (map snd tws) = List.concat (map (word_acts l) tws).
Proof.
  intros HD. induction 1 as [|[t w] tws (A & B & C) _ IH]; [reflexivity|]. cbn [map snd jobwords List.concat fst] in *.
  rewrite (jobword_lem l t w HD A B C), IH.
  pose proof (acts_not_hang l (t, w)) as X. destruct (word_acts l (t, w)) as [|[] [|]]; try reflexivity. congruence.
Qed.
Lemma jobstr_lem l text tws n : distinct l -> tokens white text (map snd tws) -> ~ In NUL text ->
  Forall (fun tw => written (fst tw) (snd tw) /\ fits (fst tw) /\ exists c, In c (snd tw) /\ letter c) tws ->
  parse_jobstr l (text ++ repeat NUL n) = List.concat (map (word_acts l) tws).
Proof.
  intros HD HT HN HF. unfold parse_jobstr. rewrite jobwords_full, (tokens_tokstr _ _ n HT HN). apply jobwords_lem; assumption.
Qed.
Lemma find_lem l w t n : distinct l -> written t w -> fits t -> (exists c, In c w /\ letter c) -> ~ In NUL w ->
  do_find l (w ++ repeat NUL n) = hd_error (chosen t l).
Proof.
  intros HD Hw Hf HL HN. unfold do_find. rewrite upto_nul_pad by exact HN. apply sanitize_letter in HL. rewrite HL. cbn [negb]. fold NUL.
  destruct t as [m|m i|j|j i]; cbn [written fits] in *.
  - destruct Hw as (-> & Hc & Ha). apply strchr_none in Hc. rewrite Hc. rewrite <- (app_nil_r m) at 1. rewrite (alpha_not_digit m [] Ha). reflexivity.
  - destruct Hw as (-> & Hc & Ha). assert (E : strchr ":" (m ++ ":"%char :: i) = Some (m, i)) by (apply strchr_some; auto). rewrite E.
    rewrite <- (app_nil_r m) at 1. rewrite (alpha_not_digit m [] Ha). unfold svc_find. rewrite find_filter. reflexivity.
  - destruct (digits_prefix w j [] Hw Logic.I) as (A & B & C & _). rewrite app_nil_r in A, B. apply strchr_none in C. rewrite C, B, A. cbn [fst].
    pose proof (digits_value_nonneg _ _ Hw) as P. destruct (LONG_MAX <? j) eqn:E; [unfold LONG_MAX in E; lia|].
    rewrite to_int_id by lia. reflexivity.
  - destruct Hw as (d & Hd & ->). destruct (digits_prefix d j (":"%char :: i) Hd eq_refl) as (A & B & C & _).
    assert (E' : strchr ":" (d ++ ":"%char :: i) = Some (d, i)) by (apply strchr_some; auto). rewrite E'.
    destruct (digits_prefix d j [] Hd Logic.I) as (_ & B' & _). rewrite app_nil_r in B'. rewrite B', A. cbn [fst].
    pose proof (digits_value_nonneg _ _ Hd) as P. destruct (LONG_MAX <? j) eqn:E; [unfold LONG_MAX in E; lia|].
    rewrite to_int_id by lia. unfold svc_find_by_jobid. rewrite find_filter. cbn [chosen]. destruct (filter _ l); reflexivity.
Qed.

(** registration *)
Definition reg_ok (x : Z * list rec) : Prop :=
  distinct (snd x) /\ (forall r, In r (snd x) -> 1 <= v_job r < fst x) /\ 1 <= fst x /\
  (forall r r', In r (snd x) -> In r' (snd x) -> v_job r = v_job r' <-> v_cmd r = v_cmd r').
Lemma nodup_filter_map {A B} (f : A -> B) (p : A -> bool) l : NoDup (map f l) -> NoDup (map f (filter p l)).
Proof.
  induction l as [|x l IH]; cbn; [auto|]. intros H. inversion H as [|? ? Hn Hd]; subst. destruct (p x); cbn; auto.
  constructor; auto. intros X. apply Hn. apply in_map_iff in X. destruct X as (y & A1 & A2). apply filter_In in A2.
  apply in_map_iff. exists y. tauto.
Qed.
Lemma registered_ok x : registered x -> reg_ok x.
Proof.
  induction 1 as [|[c l] cmd name id _ (HD & HJ & HC & HE) Hf|[c l] name id _ (HD & HJ & HC & HE)]; cbn [fst snd] in *.
  - split; [constructor|]. split; [intros r []|]. split; [cbn; lia|intros r r' []].
  - assert (HD' : forall j, distinct (l ++ [mkRec name id cmd j])).
    { intros j. unfold distinct. rewrite map_app. cbn [map].
      assert (Hni : ~ In (name, id) (map (fun r => (v_name r, v_id r)) l)).
      { intros X. apply in_map_iff in X. destruct X as (r & A & B). inversion A; subst.
        unfold svc_find in Hf. pose proof (find_none _ _ Hf r B) as X. cbv beta in X. rewrite !str_eqb_refl in X. discriminate X. }
      clear -HD Hni. unfold distinct in HD. induction (map (fun r => (v_name r, v_id r)) l) as [|y m IH]; cbn.
      - constructor; [intros []|constructor].
      - inversion HD; subst. constructor; [|apply IH; [assumption|cbn in Hni; tauto]].
        intros X. apply in_app_or in X. destruct X as [X|[X|[]]]; [tauto|]. cbn in Hni. apply Hni. left. exact (eq_sym X). }
    unfold svc_new. destruct (find _ l) as [r0|] eqn:E.
    + apply find_some in E. destruct E as [Hi E]. apply str_eqb_eq in E. split; [apply HD'|]. cbn [fst snd]. split; [|split; [exact HC|]].
      * intros r X. apply in_app_or in X. destruct X as [X|[<-|[]]]; [auto|]. cbn. auto.
      * intros r r' X Y. apply in_app_or in X, Y. destruct X as [X|[<-|[]]], Y as [Y|[<-|[]]]; cbn [v_job v_cmd]; auto.
        -- rewrite <- E. auto.
        -- rewrite <- E. auto.
        -- tauto.
    + pose proof (find_none _ _ E) as HN. cbv beta in HN. split; [apply HD'|]. cbn [fst snd]. split; [|split; [lia|]].
      * intros r X. apply in_app_or in X. destruct X as [X|[<-|[]]]; [specialize (HJ r X); lia|]. cbn. lia.
      * intros r r' X Y. apply in_app_or in X, Y. destruct X as [X|[<-|[]]], Y as [Y|[<-|[]]]; cbn [v_job v_cmd]; auto.
        -- specialize (HJ r X). specialize (HN r X). split; [lia|]. intros Z. rewrite Z, str_eqb_refl in HN. discriminate.
        -- specialize (HJ r' Y). specialize (HN r' Y). split; [lia|]. intros Z. rewrite <- Z, str_eqb_refl in HN. discriminate.
        -- tauto.
  - unfold svc_del. split; [apply nodup_filter_map, HD|]. cbn [fst snd]. split; [|split; [exact HC|]].
    + intros r X. apply filter_In in X. apply HJ, X.
    + intros r r' X Y. apply filter_In in X, Y. apply HE; tauto.
Qed.
Lemma jobs_lem c l r r' : registered (c, l) -> In r l -> In r' l -> v_job r = v_job r' <-> v_cmd r = v_cmd r'.
Proof. intros H. destruct (registered_ok _ H) as (_ & _ & _ & X). apply X. Qed.
Lemma distinct_lem c l : registered (c, l) -> distinct l.
Proof. intros H. apply (registered_ok _ H). Qed.

(** ** Guards *)
Lemma cs_on x : cs_eqb x COn = true <-> x = COn.
Proof. destruct x; cbn; split; congruence. Qed.
Lemma cs_off x : cs_eqb x COff = true <-> x = COff.
Proof. destruct x; cbn; split; congruence. Qed.
Lemma admits_bang h f n : admits h f ("!"%char :: n) <-> f n.
Proof. reflexivity. Qed.
Lemma admits_plain h f t : (forall n, t <> "!"%char :: n) -> admits h f t <-> h t.
Proof.
  intros H. unfold admits. destruct t as [|[[][][][][][][][]] n]; try reflexivity. exfalso. eapply H. reflexivity.
Qed.
Lemma item_lem (h f : cstr -> Prop) hb fb t : (forall n, hb n = true <-> h n) -> (forall n, fb n = true <-> f n) ->
  (match t with x :: n => if ch_eqb x "!" then fb n else hb t | [] => hb t end) = true <-> admits h f t.
Proof.
  intros H1 H2. destruct t as [|x n]; [rewrite (admits_plain h f []) by discriminate; apply H1|].
  destruct (ch_eqb x "!") eqn:E.
  - apply ch_eqb_eq in E. subst. rewrite admits_bang. apply H2.
  - rewrite admits_plain; [apply H1|]. intros m X. inversion X; subst. rewrite ch_eqb_refl in E. discriminate.
Qed.
Lemma present_lem l s : (forall r, In r l -> ~ In ":"%char (v_name r)) ->
  (match svc_find_by_str l s with Some _ => true | None => false end) = true <-> present l s.
Proof.
  intros HN. unfold svc_find_by_str, present. destruct (strchr ":" s) as [[a b]|] eqn:E.
  - apply strchr_some in E. destruct E as [-> Hc]. unfold svc_find.
    split.
    + destruct (find _ l) as [r|] eqn:F; [|discriminate]. intros _. apply find_some in F. destruct F as [Hi F].
      apply andb_prop in F. destruct F as [F1 F2]. apply str_eqb_eq in F1, F2. subst. exists r. split; [exact Hi|]. left. auto.
    + intros (r & Hi & [[X Y]|(X & _ & Y)]); [|exfalso; apply Y, in_or_app; right; left; reflexivity].
      assert (Z : a = v_name r /\ b = v_id r).
      { assert (S1 : strchr ":" (a ++ ":"%char :: b) = Some (a, b)) by (apply strchr_some; auto).
        assert (S2 : strchr ":" (a ++ ":"%char :: b) = Some (v_name r, v_id r)) by (apply strchr_some; auto).
        rewrite S1 in S2. inversion S2. auto. }
      destruct Z as [-> ->]. destruct (find _ l) as [r'|] eqn:F; [reflexivity|].
      pose proof (find_none _ _ F r Hi) as Z. cbv beta in Z. rewrite !str_eqb_refl in Z. discriminate Z.
  - apply strchr_none in E. unfold svc_find. split.
    + destruct (find _ l) as [r|] eqn:F; [|discriminate]. intros _. apply find_some in F. destruct F as [Hi F].
      apply andb_prop in F. destruct F as [F1 F2]. apply str_eqb_eq in F1, F2. exists r. split; [exact Hi|]. right. subst. auto.
    + intros (r & Hi & [[X Y]|(X & Y & _)]); [exfalso; apply E; rewrite X; apply in_or_app; right; left; reflexivity|].
      destruct (find _ l) as [r'|] eqn:F; [reflexivity|].
      pose proof (find_none _ _ F r Hi) as Z. cbv beta in Z. rewrite X, Y, !str_eqb_refl in Z. discriminate Z.
Qed.
Lemma strlcpy_id n s : (List.length s < n)%nat -> strlcpy n s = s.
Proof. intros H. unfold strlcpy. apply firstn_all2. lia. Qed.
Lemma forallb_items {A} (f : A -> bool) (P : A -> Prop) l : (forall x, f x = true <-> P x) -> forallb f l = true <-> Forall P l.
Proof. intros H. rewrite forallb_forall, Forall_forall. split; intros X x Hx; apply H, X, Hx. Qed.
Lemma comma_tokens s ts : tokens (eq ","%char) s ts -> strtoks #"," s = ts.
Proof.
  intros H. apply tokens_strtoks. cbn [list_ascii_of_string].
  assert (X : forall c : ascii, In c [","%char] <-> ","%char = c) by (intros c; cbn; intuition).
  induction H as [s Hs|a w Ha Hn Hw|a w d s ws Ha Hn Hw Hd Ht IH].
  - constructor. eapply forall_ext; [exact X|exact Hs].
  - constructor; [eapply forall_ext; [exact X|exact Ha]|exact Hn|].
    eapply Forall_impl; [|exact Hw]. intros c Hc Y. apply Hc, X, Y.
  - constructor; [eapply forall_ext; [exact X|exact Ha]|exact Hn| |apply X, Hd|exact IH].
    eapply Forall_impl; [|exact Hw]. intros c Hc Y. apply Hc, X, Y.
Qed.
Lemma if_cond_lem get l body rest ts : ~ In ">"%char body -> (List.length body < 130)%nat ->
  rest = [] \/ (exists r, rest = ">"%char :: r) -> tokens (eq ","%char) body ts ->
  ifthen false get l ("<"%char :: body ++ rest) = true <-> Forall (admits (fun n => get n <> COff) (fun n => get n <> COn)) ts.
Proof.
  intros HB HL HR HT. unfold ifthen. cbn [ch_eqb]. change (ch_eqb "<" "<") with true. cbv iota.
  assert (C : cut (ch_eqb ">") (body ++ rest) = (body, rest)).
  { apply cut_app; [apply not_in_forall, HB|]. destruct HR as [->|(r & ->)]; [exact Logic.I|reflexivity]. }
  rewrite C. cbn [fst]. rewrite strlcpy_id by exact HL. rewrite (comma_tokens _ _ HT). apply forallb_items. intros t.
  apply (item_lem (fun n => get n <> COff) (fun n => get n <> COn) (fun n => negb (cs_eqb (get n) COff)) (fun n => negb (cs_eqb (get n) COn)));
    intros n; rewrite negb_true_iff; [rewrite <- cs_off|rewrite <- cs_on]; destruct (cs_eqb _ _); split; congruence.
Qed.
Lemma if_conf_lem get l stmt ts : (forall r, In r l -> ~ In ":"%char (v_name r)) ->
  (forall r, stmt <> "<"%char :: r) -> (List.length stmt < 130)%nat -> tokens (eq ","%char) stmt ts ->
  ifthen true get l stmt = true <-> Forall (admits (present l) (fun n => ~ present l n)) ts.
Proof.
  intros HN HS HL HT. unfold ifthen. destruct stmt as [|c r].
  - inversion HT as [? ? | a w ? ? ? E | a w d s ws ? ? ? ? ? E]; subst; [split; constructor| |].
    + destruct a; [destruct w; [congruence|discriminate]|discriminate].
    + destruct a; [destruct w; [congruence|discriminate]|discriminate].
  - destruct (ch_eqb c "<") eqn:E; [apply ch_eqb_eq in E; subst; exfalso; eapply HS; reflexivity|]. cbn [negb].
    rewrite strlcpy_id by exact HL. rewrite (comma_tokens _ _ HT). apply forallb_items. intros t.
    apply (item_lem (present l) (fun n => ~ present l n) (fun n => match svc_find_by_str l n with Some _ => true | None => false end)
                    (fun n => match svc_find_by_str l n with Some _ => false | None => true end)); intros n.
    + apply present_lem, HN.
    + rewrite <- (present_lem l n HN). destruct (svc_find_by_str l n); split; congruence.
Qed.
Lemma if_other_lem get l stmt : ifthen (match stmt with "<"%char :: _ => true | _ => false end) get l stmt = true.
Proof.
  destruct stmt as [|c r]; [reflexivity|]. unfold ifthen. destruct (ch_eqb c "<") eqn:E.
  - apply ch_eqb_eq in E. subst. reflexivity.
  - apply ch_eqb_neq in E. destruct c as [[][][][][][][][]]; try reflexivity. congruence.
Qed.
