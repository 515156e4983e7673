(** Proofs about getty. *)
From Coq Require Import List String Ascii NArith ZArith Bool Lia Arith.
From Verif Require Import CStr CStrLib NameProof GetModel GetSpec.
Import ListNotations.

(** ** The name *)
Lemma upto_id s : ~ In nul s -> upto s = s.
Proof.
  induction s as [|c s I]; intros H; [reflexivity|]. cbn [upto].
  destruct (Ascii.eqb_spec c nul) as [->|]; [exfalso; apply H; left; reflexivity|].
  rewrite I; [reflexivity|]. intros X. apply H. right. exact X.
Qed.
Lemma typed_line n s buf rest : line s -> List.length buf + List.length s <= n ->
  get_logname n buf (s ++ newline :: rest) =
  get_logname n (buf ++ s) (newline :: rest).
Proof.
  revert buf. induction s as [|c s I]; intros buf L K; [rewrite app_nil_r; reflexivity|].
  cbn [app get_logname].
  destruct (Ascii.eqb_spec c newline) as [->|N]; [exfalso; apply L; left; reflexivity|].
  cbn [List.length] in K.
  assert (T : Nat.ltb (List.length buf) n = true) by (apply Nat.ltb_lt; lia). rewrite T.
  rewrite I; [|intros X; apply L; right; exact X|rewrite app_length; cbn [List.length]; lia].
  rewrite <- app_assoc. reflexivity.
Qed.
Lemma typed_name n s rest : line s -> ~ In nul s -> s <> [] -> List.length s < n ->
  get_logname n [] (s ++ newline :: rest) = TName s rest.
Proof.
  intros L Z N K. rewrite typed_line by (cbn [List.length]; try assumption; lia). cbn [app get_logname].
  rewrite Ascii.eqb_refl. assert (T : Nat.leb n (List.length s) = false) by (apply Nat.leb_gt; lia). rewrite T.
  rewrite upto_id by exact Z. destruct s as [|c s]; [contradiction|]. rewrite strlcpy_id by exact K. reflexivity.
Qed.
Lemma typed_blank n k input : 0 < n -> get_logname n [] (repeat newline k ++ input) = get_logname n [] input.
Proof.
  intros N. induction k as [|k I]; [reflexivity|]. cbn [repeat app get_logname]. rewrite Ascii.eqb_refl.
  destruct n; [lia|]. cbn [List.length Nat.leb upto]. exact I.
Qed.
Lemma typed_long n s buf rest : line s -> n <= List.length buf + List.length s -> List.length buf <= n ->
  get_logname n buf (s ++ newline :: rest) = TOverrun.
Proof.
  revert buf. induction s as [|c s I]; intros buf L K B; cbn [app get_logname].
  - rewrite Ascii.eqb_refl. cbn [List.length] in K. assert (T : Nat.leb n (List.length buf) = true) by (apply Nat.leb_le; lia). rewrite T. reflexivity.
  - destruct (Ascii.eqb_spec c newline) as [->|N]; [exfalso; apply L; left; reflexivity|].
    cbn [List.length] in K. apply I; [intros X; apply L; right; exact X| |];
      destruct (Nat.ltb_spec (List.length buf) n); try rewrite app_length; cbn [List.length]; lia.
Qed.
Lemma typed_none n buf input : ~ In newline input -> get_logname n buf input = TEof.
Proof.
  revert buf. induction input as [|c r I]; intros buf H; [reflexivity|]. cbn [get_logname].
  destruct (Ascii.eqb_spec c newline) as [->|]; [exfalso; apply H; left; reflexivity|]. apply I. intros X. apply H. right. exact X.
Qed.

(** ** The issue file *)
Lemma find_none kv key : (forall w : cstr, ~ In (key, w) kv) -> find (fun p : cstr * cstr => str_eqb (fst p) key) kv = None.
Proof.
  induction kv as [|[k w] kv I]; intros H; [reflexivity|]. cbn [find fst].
  destruct (str_eqb k key) eqn:E; [apply str_eqb_eq in E; subst; exfalso; apply (H w); left; reflexivity|].
  apply I. intros w' X. apply (H w'). right. exact X.
Qed.
Lemma find_app {A} (f : A -> bool) a b : find f (a ++ b) = match find f a with Some x => Some x | None => find f b end.
Proof. induction a as [|x a I]; [reflexivity|]. cbn [app find]. destruct (f x); [reflexivity|exact I]. Qed.
Lemma get_val_value kv key v n : value kv key v -> List.length v < n -> get_val kv key n = Some v.
Proof.
  intros [a b -> N] L. unfold get_val. rewrite rev_app_distr. cbn [rev]. rewrite !find_app.
  rewrite (find_none (rev b)) by (intros w X; apply (N w); apply in_rev; exact X).
  cbn [find fst]. rewrite str_eqb_refl. cbn [option_map snd]. rewrite strlcpy_id by exact L. reflexivity.
Qed.
Lemma get_val_none kv key n : (forall w, ~ In (key, w) kv) -> get_val kv key n = None.
Proof. intros N. unfold get_val. rewrite find_none; [reflexivity|]. intros w X. apply (N w). apply in_rev. exact X. Qed.

Lemma escape_shows m kv c v : shows m kv c v -> escape m (Some (read_osrel kv)) c = Some (Some v).
Proof.
  intros [c' k n v' I V L|v' V N L|v' A V N P L|r A V L|c' v' I].
  - cbn [In] in I. repeat (destruct I as [I|I]; [injection I as <- <- <-; rewrite <- (get_val_value _ _ _ _ V L); reflexivity|]). destruct I.
  - change (escape m (Some (read_osrel kv)) "v") with (Some (Some (o_version (read_osrel kv)))). cbv beta iota zeta delta [read_osrel o_version]. rewrite (get_val_value _ _ _ _ V L). destruct v' as [|x v']; [contradiction|]. reflexivity.
  - change (escape m (Some (read_osrel kv)) "v") with (Some (Some (o_version (read_osrel kv)))). cbv beta iota zeta delta [read_osrel o_version]. rewrite (get_val_none _ _ _ A), (get_val_value _ _ _ _ V L). destruct v' as [|x v']; [contradiction|].
    destruct (ch_eqb x "(") eqn:E; [apply ch_eqb_eq in E; subst x; exfalso; exact (P v' eq_refl)|].
    rewrite strlcpy_id; [reflexivity|]. cbn [List.length] in L. rewrite !app_length. cbn [List.length]. change (List.length #"(") with 1. change (List.length #")") with 1. lia.
  - change (escape m (Some (read_osrel kv)) "v") with (Some (Some (o_version (read_osrel kv)))). cbv beta iota zeta delta [read_osrel o_version]. rewrite (get_val_none _ _ _ A), (get_val_value _ _ _ _ V L).
    change (ch_eqb "(" "(") with true. cbv iota. rewrite strlcpy_id; [reflexivity|lia].
  - cbn [In] in I. repeat (destruct I as [I|I]; [injection I as <- <-; reflexivity|]). destruct I.
Qed.
Lemma escape_plain m c v : shows_plain m c v -> escape m None c = Some (Some v).
Proof.
  intros [c' v' I|c' I].
  - cbn [In] in I. repeat (destruct I as [I|I]; [injection I as <- <-; reflexivity|]). destruct I.
  - cbn in I. repeat (destruct I as [I|I]; [rewrite <- I; reflexivity|]). destruct I.
Qed.
Lemma escape_other m rel c : ~ In c #"BDHIlmNnorSstv" -> escape m rel c = None.
Proof.
  intros N. cbn in N. unfold escape.
  repeat match goal with |- context [ch_eqb c ?x] =>
    let E := fresh in destruct (ch_eqb c x) eqn:E; [apply ch_eqb_eq in E; exfalso; apply N; subst c; tauto|] end.
  reflexivity.
Qed.
Lemma parseln_shown m rel (esc : ascii -> cstr -> Prop) : (forall c v, esc c v -> escape m rel c = Some (Some v)) ->
  forall l o, line_shown esc l o -> forall pend, parseln m rel pend l = Some (pend ++ o).
Proof.
  intros H l o S. induction S as [|c l o N S I|c v l o E S I|c l o N S I]; intros pend.
  - cbn [parseln]. rewrite app_nil_r. reflexivity.
  - cbn [parseln]. destruct (ch_eqb c "\") eqn:E; [apply ch_eqb_eq in E; contradiction|].
    rewrite I, <- app_assoc. reflexivity.
  - cbn [parseln]. change (ch_eqb "\" "\") with true. rewrite (H _ _ E), I. reflexivity.
  - cbn [parseln]. change (ch_eqb "\" "\") with true. rewrite (escape_other m rel c N), I. reflexivity.
Qed.
Lemma show_shown m rel (esc : ascii -> cstr -> Prop) : (forall c v, esc c v -> escape m rel c = Some (Some v)) ->
  forall ls o, lines_shown esc ls o -> show m rel ls = Some o.
Proof.
  intros H ls o S. induction S as [|l o ls os L S I]; [reflexivity|]. cbn [show].
  rewrite (parseln_shown m rel esc H _ _ L), I. reflexivity.
Qed.
Lemma show_app m rel a b : show m rel (a ++ b) = match show m rel a, show m rel b with Some x, Some y => Some (x ++ y) | _, _ => None end.
Proof.
  induction a as [|l a I]; cbn [app show]; [destruct (show m rel b); reflexivity|]. rewrite I.
  destruct (parseln m rel [] l); [|reflexivity]. destruct (show m rel a); [|reflexivity]. destruct (show m rel b); [rewrite app_assoc|]; reflexivity.
Qed.
Lemma show_prompt m rel : show m rel [#"\n login: "] = Some (u_node m ++ #" login: ").
Proof. cbn. rewrite !app_nil_r. reflexivity. Qed.

Lemma issue_os_ok m kv i lines o : value kv #"ID" i -> List.length i < 32 -> i <> #"alpine" -> lines_shown (shows m kv) lines o ->
  issue m (Some kv) (Some lines) = Some (o ++ u_node m ++ #" login: ").
Proof.
  intros V L N S. unfold issue. change (o_id (read_osrel kv)) with (get_val kv #"ID" 32). rewrite (get_val_value _ _ _ _ V L).
  destruct (str_eqb i #"alpine") eqn:E; [apply str_eqb_eq in E; contradiction|].
  rewrite show_app, (show_shown m _ _ (escape_shows m kv) _ _ S), show_prompt. reflexivity.
Qed.
Lemma issue_plain_ok m kv lines o : (kv = None \/ exists l, kv = Some l /\ value l #"ID" #"alpine") -> lines_shown (shows_plain m) lines o ->
  issue m kv (Some lines) = Some (o ++ u_node m ++ #" login: ").
Proof.
  intros [->|(l & -> & V)] S; unfold issue.
  - rewrite show_app, (show_shown m _ _ (escape_plain m) _ _ S), show_prompt. reflexivity.
  - change (o_id (read_osrel l)) with (get_val l #"ID" 32). rewrite (get_val_value _ _ _ 32 V) by (apply Nat.ltb_lt; reflexivity).
    rewrite str_eqb_refl, show_app, (show_shown m _ _ (escape_plain m) _ _ S), show_prompt. reflexivity.
Qed.
Lemma parse_text m rel t : ~ In "\"%char t -> forall pend r, parseln m rel pend (t ++ r) = parseln m rel (pend ++ t) r.
Proof.
  induction t as [|c t I]; intros N pend r; [rewrite app_nil_r; reflexivity|]. cbn [app parseln].
  destruct (ch_eqb c "\") eqn:E; [apply ch_eqb_eq in E; subst c; exfalso; apply N; left; reflexivity|].
  rewrite I by (intros X; apply N; right; exact X). rewrite <- app_assoc. reflexivity.
Qed.
Lemma parse_esc m rel c v pend r : escape m rel c = Some (Some v) -> parseln m rel pend ("\"%char :: c :: r) = option_map (fun o => pend ++ v ++ o) (parseln m rel [] r).
Proof. intros E. cbn [parseln]. change (ch_eqb "\" "\") with true. cbv iota. rewrite E. reflexivity. Qed.
Lemma default_shown m rel s v : escape m rel "s" = Some (Some s) -> escape m rel "v" = Some (Some v) ->
  parseln m rel [] default_issue = Some (#"Welcome to " ++ s ++ #" " ++ v ++ #" " ++ u_node m ++ #" " ++ m_tty m ++ [newline; newline]).
Proof.
  intros S V. change default_issue with (#"Welcome to " ++ "\"%char :: "s"%char :: #" " ++ "\"%char :: "v"%char :: #" " ++ "\"%char :: "n"%char :: #" " ++ "\"%char :: "l"%char :: [newline; newline]).
  assert (T : ~ In "\"%char #"Welcome to ") by (cbn; intros H; repeat (destruct H as [H|H]; [discriminate|]); exact H).
  assert (B : ~ In "\"%char #" ") by (cbn; intros [H|[]]; discriminate).
  assert (Nn : escape m rel "n" = Some (Some (u_node m))) by reflexivity.
  assert (L : escape m rel "l" = Some (Some (m_tty m))) by reflexivity.
  rewrite (parse_text _ _ _ T), (parse_esc _ _ _ _ _ _ S), (parse_text _ _ _ B), (parse_esc _ _ _ _ _ _ V), (parse_text _ _ _ B), (parse_esc _ _ _ _ _ _ Nn), (parse_text _ _ _ B), (parse_esc _ _ _ _ _ _ L).
  reflexivity.
Qed.
Lemma issue_default_ok m kv i s v : value kv #"ID" i -> List.length i < 32 -> i <> #"alpine" -> shows m kv "s" s -> shows m kv "v" v ->
  issue m (Some kv) None = Some ((#"Welcome to " ++ s ++ #" " ++ v ++ #" " ++ u_node m ++ #" " ++ m_tty m ++ [newline; newline]) ++ u_node m ++ #" login: ").
Proof.
  intros V L N S W. unfold issue. change (o_id (read_osrel kv)) with (get_val kv #"ID" 32). rewrite (get_val_value _ _ _ _ V L).
  destruct (str_eqb i #"alpine") eqn:E; [apply str_eqb_eq in E; contradiction|].
  rewrite show_app, show_prompt. cbn [show].
  rewrite (default_shown m _ s v (escape_shows _ _ _ _ S) (escape_shows _ _ _ _ W)), app_nil_r. reflexivity.
Qed.
Lemma issue_undefined m kv i : value kv #"ID" i -> List.length i < 32 -> i <> #"alpine" ->
  (forall w, ~ In (#"PRETTY_NAME", w) kv) -> issue m (Some kv) None = None.
Proof.
  intros V L N P. unfold issue. change (o_id (read_osrel kv)) with (get_val kv #"ID" 32). rewrite (get_val_value _ _ _ _ V L).
  destruct (str_eqb i #"alpine") eqn:E; [apply str_eqb_eq in E; contradiction|].
  assert (X : escape m (Some (read_osrel kv)) "s" = Some None) by (rewrite <- (get_val_none kv #"PRETTY_NAME" 64 P); reflexivity).
  rewrite show_app. cbn [show].
  assert (D : parseln m (Some (read_osrel kv)) [] default_issue = None).
  { change default_issue with (#"Welcome to " ++ "\"%char :: "s"%char :: #" \v \n \l" ++ [newline; newline]).
    assert (T : ~ In "\"%char #"Welcome to ") by (cbn; intros H; repeat (destruct H as [H|H]; [discriminate|]); exact H).
    rewrite (parse_text _ _ _ T). remember (read_osrel kv) as rel. cbn [parseln]. change (ch_eqb "\" "\") with true. cbv iota. rewrite X. reflexivity. }
  rewrite D. reflexivity.
Qed.
Lemma issue_backslash : exists m line, In "\"%char line /\ issue m None (Some [line]) = issue m None (Some [removelast line]).
Proof.
  exists {| u_sys := []; u_node := #"box"; u_release := []; u_version := []; u_machine := []; u_domain := []; m_tty := []; m_time := [] |}, #"hello \".
  split; [cbn; tauto|reflexivity].
Qed.
Lemma login_name_ok max passenv k s rest : line s -> ~ In nul s -> s <> [] -> List.length s <= max ->
  getty_login max passenv (repeat newline k ++ s ++ newline :: rest) =
    Some (if passenv then [#"/bin/login"; #"-p"; #"--"; s] else [#"/bin/login"; #"--"; s]) /\
  get_logname (max + 1) [] (repeat newline k ++ s ++ newline :: rest) = TName s rest.
Proof.
  intros L Z N K.
  assert (T : get_logname (max + 1) [] (repeat newline k ++ s ++ newline :: rest) = TName s rest).
  { rewrite typed_blank by lia. apply typed_name; try assumption. lia. }
  split; [|exact T]. unfold getty_login. rewrite T. destruct passenv; reflexivity.
Qed.
Lemma login_waits_ok max passenv input : ~ In newline input -> getty_login max passenv input = None.
Proof. intros N. unfold getty_login. rewrite typed_none by exact N. reflexivity. Qed.
Lemma login_overrun max s rest : line s -> max < List.length s -> get_logname (max + 1) [] (s ++ newline :: rest) = TOverrun.
Proof. intros L K. apply typed_long; [exact L| |]; cbn [List.length]; lia. Qed.
