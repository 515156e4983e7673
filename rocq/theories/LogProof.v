From Coq Require Import List String Ascii NArith ZArith Bool Lia ZifyBool ZifyNat ZifyN.
From Verif Require Import CStr CStrLib LogModel LogSpec.
Import ListNotations.
Local Open Scope Z_scope.

Notation D := #":=, ".

(** ** Tokens *)
Definition apply (o : lopt) (c : logcfg) : logcfg :=
  match o with
  | LNull => set_null c
  | LConsole => set_cons c
  | LFile p => set_file p c
  | LPrio v => set_prio v c
  | LTag v => set_ident v c
  end.
Definition apply_all (l : list lopt) (c : logcfg) : logcfg := fold_left (fun c o => apply o c) l c.

Lemma log_token_fuel l tok rest l' r' : log_token l tok rest = Some (l', r') -> (List.length r' <= List.length rest)%nat.
Proof.
  unfold log_token. repeat (match goal with |- context [if ?b then _ else _] => destruct b end); intros H;
    try (injection H as <- <-; lia).
  - destruct (strtok _ rest) as [[v r]|] eqn:E; [|discriminate]. injection H as <- <-. apply strtok_length in E. lia.
  - destruct (strtok _ rest) as [[v r]|] eqn:E; [|discriminate]. injection H as <- <-. apply strtok_length in E. lia.
Qed.
Lemma log_tokens_fuel n : forall del l s, (List.length s < n)%nat -> log_tokens n del l s <> NoFuel.
Proof.
  induction n as [|n IH]; intros del l s H; [lia|]. cbn [log_tokens]. destruct (strtok del s) as [[tok rest]|] eqn:E; [|discriminate].
  apply strtok_length in E. destruct (log_token l tok rest) as [[l' r']|] eqn:T; [|discriminate].
  apply log_token_fuel in T. apply IH. lia.
Qed.
Lemma reg_log_fuel l a : reg_log l a <> NoFuel.
Proof. destruct a as [a|]; [|discriminate]. apply log_tokens_fuel. lia. Qed.

Lemma not_in_dec (s : cstr) del : forallb (fun c => negb (mem c del)) s = true -> Forall (fun c => ~ In c del) s.
Proof. intros H. apply Forall_forall. intros c M. rewrite forallb_forall in H. specialize (H c M). apply mem_false. destruct (mem c del); [discriminate|reflexivity]. Qed.

Definition tail_ok (t : cstr) : Prop := t = [] \/ exists r, t = ","%char :: r.
Lemma tail_sep t : tail_ok t -> t = [] \/ exists d r, t = d :: r /\ In d D.
Proof. intros [->|[r ->]]; [left; reflexivity|right; exists ","%char, r; split; [reflexivity|cbn; tauto]]. Qed.
Lemma tok_app del a s : a <> [] -> Forall (fun c => ~ In c del) a -> (s = [] \/ exists d r, s = d :: r /\ In d del) ->
  strtok del (a ++ s) = Some (a, tl s).
Proof. intros A B C. apply (strtok_app del [] a s); [constructor|exact A|exact B|exact C]. Qed.
Lemma tok_fixed s t : s <> [] -> forallb (fun c => negb (mem c D)) s = true -> tail_ok t -> strtok D (s ++ t) = Some (s, tl t).
Proof. intros N F T. apply (strtok_app D [] s t); [constructor|exact N|apply not_in_dec, F|apply tail_sep, T]. Qed.
Lemma tok_key k d r : k <> [] -> forallb (fun c => negb (mem c D)) k = true -> In d #":=" -> strtok D (k ++ d :: r) = Some (k, r).
Proof.
  intros N F T. rewrite (tok_app D k (d :: r)); [reflexivity|exact N|apply not_in_dec, F|].
  right. exists d, r. split; [reflexivity|]. cbn in *. intuition.
Qed.
Lemma tok_value v t : v <> [] -> ~ In ","%char v -> tail_ok t -> strtok #"," (v ++ t) = Some (v, tl t).
Proof.
  intros N F T. apply (strtok_app #"," [] v t); [constructor|exact N| |].
  - apply Forall_forall. intros c M [<-|[]]. exact (F M).
  - destruct T as [->|[r ->]]; [left; reflexivity|right; exists ","%char, r; split; [reflexivity|left; reflexivity]].
Qed.

Lemma file_token r c rest : "/"%char :: r <> #"/dev/null" -> "/"%char :: r <> #"/dev/console" ->
  log_token c ("/"%char :: r) rest = Some (set_file ("/"%char :: r) c, rest).
Proof.
  intros A B. unfold log_token.
  replace (str_eqb ("/"%char :: r) #"log") with false by reflexivity.
  replace (str_eqb ("/"%char :: r) #"null") with false by reflexivity.
  replace (str_eqb ("/"%char :: r) #"console") with false by reflexivity.
  destruct (str_eqb ("/"%char :: r) #"/dev/null") eqn:E1; [apply str_eqb_eq in E1; congruence|].
  destruct (str_eqb ("/"%char :: r) #"/dev/console") eqn:E2; [apply str_eqb_eq in E2; congruence|]. reflexivity.
Qed.
Lemma item_step o s n c t : spelled o s -> tail_ok t -> log_tokens (S n) D c (s ++ t) = log_tokens n D (apply o c) (tl t).
Proof.
  intros H T. cbn [log_tokens]. destruct H as [ | | | |r N A B|k d v K Hd N F|k d v K Hd N F].
  - rewrite tok_fixed by (try reflexivity; try discriminate; assumption). reflexivity.
  - rewrite tok_fixed by (try reflexivity; try discriminate; assumption). reflexivity.
  - rewrite tok_fixed by (try reflexivity; try discriminate; assumption). reflexivity.
  - rewrite tok_fixed by (try reflexivity; try discriminate; assumption). reflexivity.
  - rewrite tok_fixed; [|discriminate| |exact T].
    + rewrite file_token by assumption. reflexivity.
    + cbn [forallb]. apply andb_true_intro. split; [reflexivity|]. apply forallb_forall. intros x M. apply N in M. apply mem_false in M. rewrite M. reflexivity.
  - rewrite <- app_assoc. cbn [app].
    destruct K as [<-|[<-|[]]]; (rewrite tok_key by (try reflexivity; try discriminate; assumption));
      unfold log_token; cbn [str_eqb list_ascii_of_string ch_eqb Ascii.eqb Bool.eqb andb orb starts];
      rewrite tok_value by assumption; reflexivity.
  - rewrite <- app_assoc. cbn [app].
    destruct K as [<-|[<-|[<-|[]]]]; (rewrite tok_key by (try reflexivity; try discriminate; assumption));
      unfold log_token; cbn [str_eqb list_ascii_of_string ch_eqb Ascii.eqb Bool.eqb andb orb starts];
      rewrite tok_value by assumption; reflexivity.
Qed.
Lemma spelled_nonempty o s : spelled o s -> s <> [].
Proof.
  intros H. destruct H as [ | | | | |k d v K|k d v K]; try discriminate.
  - destruct K as [<-|[<-|[]]]; discriminate.
  - destruct K as [<-|[<-|[<-|[]]]]; discriminate.
Qed.
Lemma items_length l t : items l t -> (List.length l <= List.length t)%nat.
Proof.
  induction 1 as [o s S|o s l t S H IH]; apply spelled_nonempty in S; destruct s as [|x s]; try congruence; cbn [List.length].
  - lia.
  - rewrite app_length. cbn [List.length]. lia.
Qed.
Lemma items_parsed l t : items l t -> forall n c, (List.length l < n)%nat -> log_tokens n D c t = Parsed (apply_all l c).
Proof.
  induction 1 as [o s S|o s l t S H IH]; intros n c L; cbn [List.length] in L.
  - destruct n as [|n]; [lia|]. rewrite <- (app_nil_r s), (item_step o s n c [] S (or_introl eq_refl)).
    destruct n as [|n]; [lia|]. reflexivity.
  - destruct n as [|n]; [lia|]. rewrite (item_step o s n c (","%char :: t) S (or_intror (ex_intro _ t eq_refl))).
    cbn [tl]. rewrite IH by lia. reflexivity.
Qed.
Lemma tokens_S n del l s : log_tokens (S n) del l s =
  match strtok del s with
  | None => Parsed l
  | Some (tok, rest) => match log_token l tok rest with None => NullPtr | Some (l, rest) => log_tokens n D l rest end
  end.
Proof. reflexivity. Qed.
Lemma first_tok t : strtok #":, " (#"log:" ++ t) = Some (#"log", t).
Proof.
  apply (tok_app #":, " #"log" (":"%char :: t)); [discriminate|apply not_in_dec; reflexivity|].
  right. exists ":"%char, t. split; [reflexivity|left; reflexivity].
Qed.
Lemma text_parsed l t c : log_text l t -> reg_log c (Some t) = Parsed (apply_all l (set_on true c)).
Proof.
  intros H. destruct H as [|l t H]; [reflexivity|]. cbn [reg_log]. unfold parse_log.
  assert (L : exists n, S (List.length (#"log:" ++ t)) = S n /\ (List.length t < n)%nat).
  { exists (List.length (#"log:" ++ t)). split; [reflexivity|]. rewrite app_length. cbn. lia. }
  destruct L as (n & -> & L). rewrite tokens_S.
  rewrite first_tok.
  change (log_token c #"log" t) with (Some (set_on true c, t)). cbv iota beta.
  apply items_parsed; [exact H|]. pose proof (items_length _ _ H). lia.
Qed.

(** ** What the record holds then *)
Lemma all_cons o l c : apply_all (o :: l) c = apply_all l (apply o c).
Proof. reflexivity. Qed.
Lemma all_on l c : l_on (apply_all l c) = l_on c.
Proof. revert c. induction l as [|o l IH]; intros c; [reflexivity|]. rewrite all_cons, IH. destruct o; reflexivity. Qed.
Lemma all_null l c : l_null (apply_all l c) = true <-> l_null c = true \/ In LNull l.
Proof.
  revert c. induction l as [|o l IH]; intros c; [cbn; intuition|]. rewrite all_cons, IH. cbn [In].
  destruct o; cbn [apply l_null set_null set_cons set_file set_prio set_ident]; intuition congruence.
Qed.
Lemma all_console l c : l_cons (apply_all l c) = true <-> l_cons c = true \/ In LConsole l.
Proof.
  revert c. induction l as [|o l IH]; intros c; [cbn; intuition|]. rewrite all_cons, IH. cbn [In].
  destruct o; cbn [apply l_cons set_null set_cons set_file set_prio set_ident]; intuition congruence.
Qed.
Lemma cpy_fits n s : (List.length s < n)%nat -> strlcpy n s = s.
Proof. intros H. unfold strlcpy. apply firstn_all2. lia. Qed.
Lemma all_file l c : Forall fits l -> l_file (apply_all l c) = last_of file_of (l_file c) l.
Proof.
  intros F. revert c. induction F as [|o l F0 F IH]; intros c; [reflexivity|]. rewrite all_cons, IH.
  destruct o; cbn [apply last_of file_of l_file set_null set_cons set_file set_prio set_ident]; try reflexivity. rewrite cpy_fits by exact F0. reflexivity.
Qed.
Lemma all_prio l c : Forall fits l -> l_prio (apply_all l c) = last_of prio_of (l_prio c) l.
Proof.
  intros F. revert c. induction F as [|o l F0 F IH]; intros c; [reflexivity|]. rewrite all_cons, IH.
  destruct o; cbn [apply last_of prio_of l_prio set_null set_cons set_file set_prio set_ident]; try reflexivity. rewrite cpy_fits by exact F0. reflexivity.
Qed.
Lemma all_ident l c : Forall fits l -> l_ident (apply_all l c) = last_of tag_of (l_ident c) l.
Proof.
  intros F. revert c. induction F as [|o l F0 F IH]; intros c; [reflexivity|]. rewrite all_cons, IH.
  destruct o; cbn [apply last_of tag_of l_ident set_null set_cons set_file set_prio set_ident]; try reflexivity. rewrite cpy_fits by exact F0. reflexivity.
Qed.
Definition proper (o : lopt) : Prop :=
  match o with LFile p => starts #"/" p = true | LPrio v | LTag v => v <> [] | _ => True end.
Lemma spelled_proper o s : spelled o s -> proper o.
Proof. intros H. destruct H; cbn [proper]; auto. Qed.
Lemma text_proper l t : log_text l t -> Forall proper l.
Proof.
  intros H. destruct H as [|l t H]; [constructor|]. induction H as [o s S|o s l t S H IH].
  - constructor; [exact (spelled_proper _ _ S)|constructor].
  - constructor; [exact (spelled_proper _ _ S)|exact IH].
Qed.
Lemma last_default f d l : Forall (fun o => forall v, f o = Some v -> v <> []) l ->
  match last_of f [] l with [] => d | v => v end = last_of f d l /\ forall e, e <> [] -> last_of f e l <> [].
Proof.
  intros F. induction F as [|o l F0 F IH]; [split; [reflexivity|intros e N; exact N]|]. cbn [last_of]. destruct IH as [IH1 IH2].
  destruct (f o) as [v|] eqn:E; [|split; assumption]. specialize (F0 v eq_refl). split; [|intros e _; apply IH2, F0].
  pose proof (IH2 v F0) as X. destruct (last_of f v l); [congruence|reflexivity].
Qed.
Lemma last_file_slash l e : Forall proper l -> (e = [] \/ starts #"/" e = true) ->
  last_of file_of e l = [] \/ starts #"/" (last_of file_of e l) = true.
Proof.
  intros F. revert e. induction F as [|o l F0 F IH]; intros e H; [exact H|]. cbn [last_of]. apply IH.
  destruct o; cbn [file_of]; try exact H. right. exact F0.
Qed.

Definition dest_of (name : cstr) (l : list lopt) : dest :=
  let file := last_of file_of [] l in
  let tag := last_of tag_of name l in
  let prio := last_of prio_of #"daemon.info" l in
  if existsb (fun o => match o with LNull => true | _ => false end) l then DNull
  else if existsb (fun o => match o with LConsole => true | _ => false end) l then DConsole
  else match file with [] => DLog tag prio | _ => DFile file tag prio end.
Lemma has_null l : existsb (fun o => match o with LNull => true | _ => false end) l = true <-> In LNull l.
Proof. rewrite existsb_exists. split; [intros ([] & A & B); try discriminate; exact A|intros H; exists LNull; split; [exact H|reflexivity]]. Qed.
Lemma has_console l : existsb (fun o => match o with LConsole => true | _ => false end) l = true <-> In LConsole l.
Proof. rewrite existsb_exists. split; [intros ([] & A & B); try discriminate; exact A|intros H; exists LConsole; split; [exact H|reflexivity]]. Qed.
Lemma dest_meant name l : meant name l (dest_of name l).
Proof.
  unfold meant, dest_of. pose proof (has_null l) as HN. pose proof (has_console l) as HC.
  destruct (existsb (fun o => match o with LNull => true | _ => false end) l).
  - split; [reflexivity|]. split; intros X; elim X; apply HN; reflexivity.
  - split; [intros X; apply HN in X; discriminate|]. destruct (existsb (fun o => match o with LConsole => true | _ => false end) l).
    + split; [reflexivity|]. intros _ X. elim X. apply HC. reflexivity.
    + split; [intros _ X; apply HC in X; discriminate|]. intros _ _. destruct (last_of file_of [] l).
      * split; [congruence|reflexivity].
      * split; [reflexivity|discriminate].
Qed.
Lemma meant_one name l d d' : meant name l d -> meant name l d' -> d = d'.
Proof.
  intros (A & B & C) (A' & B' & C'). pose proof (has_null l) as HN. pose proof (has_console l) as HC.
  destruct (existsb (fun o => match o with LNull => true | _ => false end) l).
  - assert (X : In LNull l) by (apply HN; reflexivity). rewrite A, A' by exact X. reflexivity.
  - assert (X : ~ In LNull l) by (intros X; apply HN in X; discriminate).
    destruct (existsb (fun o => match o with LConsole => true | _ => false end) l).
    + assert (Y : In LConsole l) by (apply HC; reflexivity). rewrite B, B' by assumption. reflexivity.
    + assert (Y : ~ In LConsole l) by (intros Y; apply HC in Y; discriminate).
      destruct (C X Y) as [C1 C2]. destruct (C' X Y) as [C1' C2']. destruct (last_of file_of [] l).
      * rewrite C2, C2' by reflexivity. reflexivity.
      * rewrite C1, C1' by discriminate. reflexivity.
Qed.

Section sink.
  Variables (l : list lopt) (t name : cstr).
  Hypothesis (T : log_text l t) (F : Forall fits l).
  Let c := apply_all l (set_on true log_new).
  Lemma c_null : l_null c = existsb (fun o => match o with LNull => true | _ => false end) l.
  Proof.
    apply eq_true_iff_eq. rewrite has_null. unfold c. rewrite all_null. cbn [l_null set_on log_new]. intuition discriminate.
  Qed.
  Lemma c_cons : l_cons c = existsb (fun o => match o with LConsole => true | _ => false end) l.
  Proof.
    apply eq_true_iff_eq. rewrite has_console. unfold c. rewrite all_console. cbn [l_cons set_on log_new]. intuition discriminate.
  Qed.
  Lemma c_tag : match l_ident c with [] => name | i => i end = last_of tag_of name l.
  Proof.
    unfold c. rewrite all_ident by exact F. apply last_default. apply Forall_forall. intros o M v E. pose proof (text_proper _ _ T) as P.
    rewrite Forall_forall in P. specialize (P o M). destruct o; try discriminate. cbn in E. injection E as <-. exact P.
  Qed.
  Lemma c_prio : match l_prio c with [] => #"daemon.info" | i => i end = last_of prio_of #"daemon.info" l.
  Proof.
    unfold c. rewrite all_prio by exact F. apply last_default. apply Forall_forall. intros o M v E. pose proof (text_proper _ _ T) as P.
    rewrite Forall_forall in P. specialize (P o M). destruct o; try discriminate. cbn in E. injection E as <-. exact P.
  Qed.
  Lemma c_file : l_file c = last_of file_of [] l.
  Proof. unfold c. apply all_file, F. Qed.
  Lemma sink_logger redir console pid size count : (List.length pid < 16)%nat -> (List.length size + List.length count < 24)%nat ->
    redirect redir console Sysklogd false name pid size count c = by_logger console pid size count (dest_of name l).
  Proof.
    intros L1 L2. unfold redirect. replace (l_on c) with true by (unfold c; rewrite all_on; reflexivity). rewrite c_null, c_cons.
    unfold dest_of. destruct (existsb _ l); [reflexivity|]. destruct (existsb _ l); [reflexivity|].
    unfold lredirect. rewrite c_tag, c_prio, c_file.
    rewrite (cpy_fits 16 pid) by exact L1. rewrite (cpy_fits 25) by (rewrite !app_length; cbn [List.length list_ascii_of_string]; lia).
    destruct (last_file_slash l [] (text_proper _ _ T) (or_introl eq_refl)) as [E|E].
    - rewrite E. reflexivity.
    - rewrite E. destruct (last_of file_of [] l); [discriminate|reflexivity].
  Qed.
  Lemma sink_logit redir console systemd pid size count : (List.length size < 20)%nat -> (List.length count < 3)%nat ->
    redirect redir console Logit systemd name pid size count c = by_logit console size count (dest_of name l).
  Proof.
    intros L1 L2. unfold redirect. replace (l_on c) with true by (unfold c; rewrite all_on; reflexivity). rewrite c_null, c_cons.
    unfold dest_of. destruct (existsb _ l); [reflexivity|]. destruct (existsb _ l); [reflexivity|].
    unfold lredirect. rewrite c_tag, c_prio, c_file.
    rewrite (cpy_fits 20 size) by exact L1. rewrite (cpy_fits 3) by exact L2.
    destruct (last_file_slash l [] (text_proper _ _ T) (or_introl eq_refl)) as [E|E].
    - rewrite E. reflexivity.
    - rewrite E. destruct (last_of file_of [] l); [discriminate|reflexivity].
  Qed.
End sink.

Lemma log_goes_lem : forall l text name redir console pid size count d,
  log_text l text -> Forall fits l -> meant name l d ->
  (List.length pid < 16)%nat -> (List.length size + List.length count < 24)%nat ->
  exists c, reg_log log_new (Some text) = Parsed c /\
    redirect redir console Sysklogd false name pid size count c = by_logger console pid size count d.
Proof.
  intros l text name redir console pid size count d T F M L1 L2. eexists. split; [apply text_parsed, T|].
  rewrite (meant_one _ _ _ _ M (dest_meant name l)). apply (sink_logger l text); assumption.
Qed.
Lemma log_goes_logit_lem : forall l text name redir console systemd pid size count d,
  log_text l text -> Forall fits l -> meant name l d ->
  (List.length size < 20)%nat -> (List.length count < 3)%nat ->
  exists c, reg_log log_new (Some text) = Parsed c /\
    redirect redir console Logit systemd name pid size count c = by_logit console size count d.
Proof.
  intros l text name redir console systemd pid size count d T F M L1 L2. eexists. split; [apply text_parsed, T|].
  rewrite (meant_one _ _ _ _ M (dest_meant name l)). apply (sink_logit l text); assumption.
Qed.

(** ** Priorities *)
Lemma find_exact t : forall s v, NoDup (map fst t) -> (find_name str_eqb t s = Some v <-> In (s, v) t).
Proof.
  induction t as [|[n w] t IH]; intros s v ND; cbn [find_name map fst In] in *; [split; [discriminate|intros []]|].
  inversion ND as [|x y X Y]; subst. destruct (str_eqb n s) eqn:E.
  - apply str_eqb_eq in E. subst. split; [intros H; injection H as ->; left; reflexivity|].
    intros [H|H]; [congruence|]. elim X. apply in_map_iff. exists (s, v). split; [reflexivity|exact H].
  - rewrite IH by exact Y. split; [intros H; right; exact H|]. intros [H|H]; [|exact H].
    injection H as -> ->. rewrite str_eqb_refl in E. discriminate.
Qed.
Lemma nodup_dec t : (fix nd l := match l with [] => true | s :: r => negb (existsb (str_eqb s) r) && nd r end) t = true -> NoDup t.
Proof.
  induction t as [|s t IH]; intros H; [constructor|]. apply andb_prop in H. destruct H as [A B]. constructor; [|apply IH, B].
  intros M. assert (X : existsb (str_eqb s) t = true) by (apply existsb_exists; exists s; split; [exact M|apply str_eqb_refl]). rewrite X in A. discriminate.
Qed.
Lemma fac_nodup : NoDup (map fst fac_names).
Proof. apply nodup_dec. vm_compute. reflexivity. Qed.
Lemma pri_nodup : NoDup (map fst pri_names).
Proof. apply nodup_dec. vm_compute. reflexivity. Qed.
Lemma no_dot (t : list (cstr * Z)) (s : cstr) v : forallb (fun p => negb (mem "." (fst p))) t = true -> In (s, v) t -> ~ In "."%char s.
Proof.
  intros H M. rewrite forallb_forall in H. specialize (H _ M). cbn [fst] in H. apply mem_false. destruct (mem "." s); [discriminate|reflexivity].
Qed.
Lemma prio_exact_lem : forall fac lvl arg r, parse_prio arg fac lvl = Some r <-> names_prio fac arg r.
Proof.
  intros fac lvl arg r. unfold parse_prio. split.
  - destruct (strchr "." arg) as [[a b]|] eqn:E.
    + apply strchr_some in E. destruct E as [-> E]. destruct (find_name str_eqb fac_names a) as [f|] eqn:Ef; [|discriminate].
      destruct (find_name str_eqb pri_names b) as [l|] eqn:El; [|discriminate]. intros H. injection H as <-.
      apply np_pair; [apply find_exact, Ef; apply fac_nodup|apply find_exact, El; apply pri_nodup].
    + destruct (find_name str_eqb pri_names arg) as [l|] eqn:El; [|discriminate]. intros H. injection H as <-.
      apply np_level. apply find_exact, El. apply pri_nodup.
  - intros H. destruct H as [fac f fv l lv Hf Hl|fac l lv Hl].
    + assert (X : ~ In "."%char f) by (apply (no_dot fac_names f fv); [reflexivity|exact Hf]).
      rewrite (proj2 (strchr_some "." (f ++ "."%char :: l) f l) (conj eq_refl X)).
      apply (find_exact fac_names f fv fac_nodup) in Hf. apply (find_exact pri_names l lv pri_nodup) in Hl. rewrite Hf, Hl. reflexivity.
    + assert (X : ~ In "."%char l) by (apply (no_dot pri_names l lv); [reflexivity|exact Hl]).
      rewrite (proj2 (strchr_none "." l) X). apply (find_exact pri_names l lv pri_nodup) in Hl. rewrite Hl. reflexivity.
Qed.

Lemma level_bits f l d : 0 <= f -> 0 <= l <= 7 -> 0 <= d <= 7 -> Z.lor (Z.land (8 * f + l) (Z.lnot 7)) d = 8 * f + d.
Proof.
  intros Hf Hl Hd.   assert (X : Z.land (8 * f + l) (Z.lnot 7) = 8 * f).
  { change (Z.lnot 7) with (Z.lnot (Z.ones 3)). rewrite <- Z.ldiff_land. rewrite Z.ldiff_ones_r by lia.
    rewrite Z.shiftr_div_pow2, Z.shiftl_mul_pow2 by lia. change (2 ^ 3) with 8.
    replace ((8 * f + l) / 8) with f by (apply (Z.div_unique _ 8 f l); lia). lia. }
  rewrite X. assert (Y : Z.land (8 * f) d = 0).
  { apply Z.bits_inj'. intros n Hn. rewrite Z.land_spec, Z.bits_0. replace (8 * f) with (f * 2 ^ 3) by lia.
    destruct (Z.ltb_spec n 3).
    - rewrite Z.mul_pow2_bits_low by lia. reflexivity.
    - assert (Z0 : Z.testbit d n = false).
      { destruct (Z.eq_dec d 0) as [->|Nd]; [apply Z.bits_0|]. apply Z.bits_above_log2; [lia|].
        assert (Z.log2 d < 3); [|lia]. apply Z.log2_lt_pow2; lia. }
      rewrite Z0. apply andb_false_r. }
  rewrite <- Z.lxor_lor by exact Y. symmetry. apply Z.add_nocarry_lxor, Y.
Qed.
Lemma level_prefix_lem : forall stale c d r f l, level_digit c d -> 0 <= f -> 0 <= l <= 7 ->
  parse_level stale ("<"%char :: c :: ">"%char :: r) (8 * f + l) = (8 * f + d, r).
Proof.
  intros stale c d r f l [R C] Hf Hl. unfold parse_level.
  change (char_at ("<"%char :: c :: ">"%char :: r) stale 0) with "<"%char.
  change (char_at ("<"%char :: c :: ">"%char :: r) stale 1) with c.
  change (char_at ("<"%char :: c :: ">"%char :: r) stale 2) with ">"%char.
  replace (ch_eqb "<" "<" && ch_eqb ">" ">" && (48 <=? code c)%N && (code c <=? 55)%N) with true
    by (change (ch_eqb "<" "<") with true; change (ch_eqb ">" ">") with true; lia).
  cbn [skipn]. f_equal. replace (Z.of_N (code c) - 48) with d by lia. apply level_bits; lia.
Qed.
Lemma level_other_lem : forall stale msg deflt, (forall c d r, level_digit c d -> msg <> "<"%char :: c :: ">"%char :: r) ->
  parse_level stale msg deflt = (deflt, msg).
Proof.
  intros stale msg deflt H. unfold parse_level.
  destruct (ch_eqb (char_at msg stale 0) "<" && ch_eqb (char_at msg stale 2) ">" && (48 <=? code (char_at msg stale 1))%N &&
    (code (char_at msg stale 1) <=? 55)%N) eqn:E; [|reflexivity]. exfalso.
  apply andb_prop in E. destruct E as [E E4]. apply andb_prop in E. destruct E as [E E3]. apply andb_prop in E. destruct E as [E1 E2].
  apply ch_eqb_eq in E1. apply ch_eqb_eq in E2.
  destruct msg as [|a [|b [|c r]]].
  - cbn in E1. discriminate.
  - change (char_at [a] stale 1) with "000"%char in E3. discriminate.
  - change (char_at [a; b] stale 2) with "000"%char in E2. discriminate.
  - change (char_at (a :: b :: c :: r) stale 0) with a in E1. change (char_at (a :: b :: c :: r) stale 2) with c in E2.
    change (char_at (a :: b :: c :: r) stale 1) with b in *. subst. apply (H b (Z.of_N (code b) - 48) r); [|reflexivity].
    unfold level_digit. lia.
Qed.

(** the parser of finit itself, for all names: by computation *)
Definition usual (f : cstr) : bool := negb (str_eqb f #"authpriv" || str_eqb f #"mark").
Lemma log_parse_sweep :
  forallb (fun p => negb (usual (fst p)) ||
    forallb (fun q => str_eqb (fst q) #"none" ||
      match strchr "." (fst p ++ "."%char :: fst q) with
      | Some (a, b) => str_eqb a (fst p) && str_eqb b (fst q) | None => false end &&
      (s2f (fst p) =? snd p) && (s2l (fst q) =? snd q) && (snd p <=? 184) && (snd q <=? 7) && (0 <=? snd q) &&
      match fst q with [] => false | _ => true end) pri_names) fac_names = true.
Proof. vm_compute. reflexivity. Qed.
Lemma log_parse_pair_lem : forall f fv l lv fac lvl, In (f, fv) fac_names -> In (l, lv) pri_names ->
  f <> #"authpriv" -> f <> #"mark" -> l <> #"none" -> log_parse (f ++ "."%char :: l) fac lvl = Some (fv, lv).
Proof.
  intros f fv l lv fac lvl Hf Hl N1 N2 N3. pose proof log_parse_sweep as S. rewrite forallb_forall in S. specialize (S _ Hf).
  cbn [fst snd] in S. replace (usual f) with true in S.
  2:{ unfold usual. destruct (str_eqb f #"authpriv") eqn:E1; [apply str_eqb_eq in E1; congruence|].
      destruct (str_eqb f #"mark") eqn:E2; [apply str_eqb_eq in E2; congruence|]. reflexivity. }
  cbn [negb orb] in S. rewrite forallb_forall in S. specialize (S _ Hl). cbn [fst snd] in S.
  destruct (str_eqb l #"none") eqn:E3; [apply str_eqb_eq in E3; congruence|]. cbn [orb] in S.
  unfold log_parse. destruct (strchr "." (f ++ "."%char :: l)) as [[a b]|]; [|discriminate].
  repeat (apply andb_prop in S; let H := fresh "Q" in destruct S as [S H]).
  apply str_eqb_eq in S. apply str_eqb_eq in Q5. subst a b. destruct l as [|c r]; [discriminate|].
  apply Z.eqb_eq in Q3. apply Z.eqb_eq in Q4. rewrite Q3, Q4.
  assert (X : (lv <? 0) = false) by lia. cbv zeta. rewrite X. rewrite X. cbn [andb]. rewrite Q2, Q1. reflexivity.
Qed.

(** ** The message *)
Definition spaced (args : list cstr) : cstr := flat_map (fun a => a ++ #" ") args.
Lemma message_fits args : forall buf, Z.of_nat (List.length buf) + Z.of_nat (List.length (spaced args)) < 512 ->
  message buf (Z.of_nat (List.length buf)) (512 - Z.of_nat (List.length buf)) args = Some (buf ++ spaced args).
Proof.
  induction args as [|a r IH]; intros buf H.
  - cbn [message spaced flat_map]. rewrite app_nil_r. rewrite cpy_fits by (cbn [spaced flat_map List.length] in H; lia). reflexivity.
  - change (spaced (a :: r)) with ((a ++ #" ") ++ spaced r) in *. rewrite app_length in H. cbn [message].
    replace ((0 <? 512 - Z.of_nat (List.length buf)) && (512 <=? Z.of_nat (List.length buf))) with false by lia.
    replace (512 - Z.of_nat (List.length buf) =? 0) with false by lia.
    rewrite Z.mod_small by lia. rewrite (app_assoc buf (a ++ #" ") (spaced r)). pose proof (IH (buf ++ a ++ #" ")) as X.
    rewrite <- X by (rewrite app_length; lia). rewrite (app_length buf). f_equal; lia.
Qed.
Lemma message_ok_lem : forall args, Z.of_nat (List.length (spaced args)) < 512 -> logit_message args = Some (spaced args).
Proof. intros args H. apply (message_fits args []). cbn [List.length]. lia. Qed.
