(** Proofs about coldplugging. *)
From Coq Require Import List String Ascii NArith Bool Lia Arith.
From Verif Require Import CStr CStrLib PlugModel PlugSpec.
Import ListNotations.

Lemma chunks_line size l t : forall r cur, List.length l < r -> ~ In eol l ->
  chunks size r cur (l ++ eol :: t) = (rev cur ++ l ++ [eol]) :: chunks size size [] t.
Proof.
  induction l as [|c l IH]; intros r cur R N; cbn [app chunks].
  - cbn [rev]. reflexivity.
  - destruct (Ascii.eqb c eol) eqn:E; [apply Ascii.eqb_eq in E; exfalso; apply N; left; exact E|].
    cbn [List.length] in R. destruct r as [|[|r]]; [lia|lia|].
    rewrite IH; [|lia|intros X; apply N; right; exact X]. cbn [rev]. rewrite <- app_assoc. reflexivity.
Qed.
Lemma room_N (l : cstr) : (N.of_nat (List.length l) < 255)%N -> List.length l < room.
Proof. unfold room. lia. Qed.
(** what fgets(3) gives for a line *)
Definition reads (c l : cstr) : Prop := ~ In eol l /\ (c = l ++ [eol] \/ c = l).
Lemma chunks_end size l : forall r cur, List.length l < r -> ~ In eol l -> l <> [] -> chunks size r cur l = [rev cur ++ l].
Proof.
  induction l as [|c l IH]; intros r cur R N E; [congruence|]. cbn [chunks].
  destruct (Ascii.eqb c eol) eqn:F; [apply Ascii.eqb_eq in F; exfalso; apply N; left; exact F|].
  cbn [List.length] in R. destruct r as [|[|r]]; [lia|lia|]. destruct l as [|d l].
  - cbn [chunks rev]. reflexivity.
  - rewrite IH; [|lia|intros X; apply N; right; exact X|discriminate]. cbn [rev]. rewrite <- app_assoc. reflexivity.
Qed.
Lemma gets_lines ls t : text_of ls t -> short ls -> Forall2 reads (gets t) ls.
Proof.
  unfold gets. induction 1 as [|l ls t N H IH|l N E]; intros S; [apply Forall2_nil| |]; inversion S as [|x y A B]; subst.
  - rewrite chunks_line; [|apply room_N, A|exact N]. apply Forall2_cons; [|exact (IH B)]. split; [exact N|left; reflexivity].
  - rewrite chunks_end; [|apply room_N, A|exact N|exact E]. apply Forall2_cons; [|apply Forall2_nil]. split; [exact N|right; reflexivity].
Qed.
Lemma chomp_line l : chomp (l ++ [eol]) = l.
Proof. unfold chomp. rewrite rev_app_distr. cbn [rev app]. rewrite Ascii.eqb_refl. apply rev_involutive. Qed.
Lemma chomp_plain l : ~ In eol l -> chomp l = l.
Proof.
  intros N. unfold chomp. destruct (rev l) as [|c r] eqn:E; [rewrite <- (rev_involutive l), E; reflexivity|].
  destruct (Ascii.eqb c eol) eqn:F; [|reflexivity]. apply Ascii.eqb_eq in F. subst c. exfalso. apply N. apply in_rev. rewrite E. left. reflexivity.
Qed.
Lemma chomp_reads c l : reads c l -> chomp c = l.
Proof. intros [N [->| ->]]; [apply chomp_line|apply chomp_plain, N]. Qed.
Lemma tag_eol : ~ In eol tag.
Proof. cbn. intuition discriminate. Qed.
Lemma tag_line c l : reads c l -> starts tag c = true -> exists x, l = tag ++ x.
Proof.
  intros [_ [->| ->]] H; apply starts_iff in H; destruct H as (r & H); [|exists r; exact H].
  destruct r as [|d r] using rev_ind.
  - exfalso. rewrite app_nil_r in H. apply tag_eol. rewrite <- H. apply in_or_app. right. left. reflexivity.
  - rewrite app_assoc in H. apply app_inj_tail in H. destruct H as [H _]. exists r. exact H.
Qed.
Lemma tag_starts c x : reads c (tag ++ x) -> starts tag c = true.
Proof. intros [_ [->| ->]]; [rewrite <- app_assoc|]; apply starts_app. Qed.
Lemma find_none cs ls : Forall2 reads cs ls -> (forall l x, In l ls -> l <> #"MODALIAS=" ++ x) -> forall r, find (fun c => starts tag c) (cs ++ r) = find (fun c => starts tag c) r.
Proof.
  induction 1 as [|c l cs ls R _ IH]; intros H r; [reflexivity|]. cbn [app find].
  destruct (starts tag c) eqn:E.
  - exfalso. destruct (tag_line c l R E) as [x X]. exact (H l x (or_introl eq_refl) X).
  - apply IH. intros l' x I. exact (H l' x (or_intror I)).
Qed.
Definition alias (f : sysfile) : option cstr :=
  if f_reg f then
    if str_eqb (f_name f) #"uevent" then scan_uevent (f_text f)
    else if str_eqb (f_name f) #"modalias" then scan_modalias (f_text f) else None
  else None.
Lemma scan_alias_eq l f : scan_alias l f = match alias f with Some a => add_uniq l a | None => l end.
Proof. unfold scan_alias, alias. destruct (f_reg f); reflexivity. Qed.
Lemma uevent_first before a after t : text_of (before ++ (#"MODALIAS=" ++ a) :: after) t ->
  (forall l x, In l before -> l <> #"MODALIAS=" ++ x) -> short (before ++ (#"MODALIAS=" ++ a) :: after) -> scan_uevent t = Some a.
Proof.
  intros T B S. unfold scan_uevent. pose proof (gets_lines _ _ T S) as G. apply Forall2_app_inv_r in G.
  destruct G as (cs & ds & G & D & ->). rewrite (find_none _ _ G B). inversion D as [|c l cs' ls' R D' E1 E2]; subst. change #"MODALIAS=" with tag in R.
  cbn [find]. rewrite (tag_starts _ _ R), (chomp_reads _ _ R). f_equal.
Qed.
Lemma names_alias f a : names f a -> alias f = Some a.
Proof.
  intros [f' before a' after R N T B S|f' a' after R N T S]; unfold alias; rewrite R, N.
  - change (scan_uevent (f_text f') = Some a'). exact (uevent_first _ _ _ _ T B S).
  - change (scan_modalias (f_text f') = Some a'). unfold scan_modalias. pose proof (gets_lines _ _ T S) as G. inversion G as [|c l cs ls Q D E1 E2]; subst. rewrite (chomp_reads _ _ Q). reflexivity.
Qed.
Lemma silent_alias f : silent f -> alias f = None.
Proof.
  intros [f' R|f' A B|f' ls N T B S|f' E]; unfold alias.
  - rewrite R. reflexivity.
  - destruct (f_reg f'); [|reflexivity]. destruct (str_eqb (f_name f') #"uevent") eqn:E; [apply str_eqb_eq in E; contradiction|].
    destruct (str_eqb (f_name f') #"modalias") eqn:F; [apply str_eqb_eq in F; contradiction|reflexivity].
  - destruct (f_reg f'); [|reflexivity]. rewrite N. change (scan_uevent (f_text f') = None). unfold scan_uevent.
    rewrite <- (app_nil_r (gets _)), (find_none _ _ (gets_lines _ _ T S) B). reflexivity.
  - rewrite E. destruct (f_reg f'); [|reflexivity]. destruct (str_eqb (f_name f') #"uevent"); [reflexivity|]. destruct (str_eqb (f_name f') #"modalias"); reflexivity.
Qed.
Lemma add_in l a b : In b (add_uniq l a) <-> In b l \/ a = b.
Proof.
  unfold add_uniq. destruct (existsb (fun c => str_eqb c a) l) eqn:E.
  - apply existsb_exists in E. destruct E as (c & I & E). apply str_eqb_eq in E. subst c.
    split; [tauto|]. intros [H|<-]; assumption.
  - rewrite in_app_iff. cbn [In]. tauto.
Qed.
Lemma add_nodup l a : NoDup l -> NoDup (add_uniq l a).
Proof.
  intros N. unfold add_uniq. destruct (existsb (fun c => str_eqb c a) l) eqn:E; [exact N|].
  rewrite <- (rev_involutive (l ++ [a])). apply NoDup_rev. rewrite rev_app_distr. cbn [rev app]. apply NoDup_cons; [|apply NoDup_rev, N].
  rewrite <- in_rev. intros I. assert (X : existsb (fun c => str_eqb c a) l = true) by (apply existsb_exists; exists a; split; [exact I|apply str_eqb_refl]). congruence.
Qed.
Lemma scan_in files : forall l a, In a (fold_left scan_alias files l) <-> In a l \/ exists f, In f files /\ alias f = Some a.
Proof.
  induction files as [|f files IH]; intros l a; cbn [fold_left].
  - split; [tauto|]. intros [H|(f & [] & _)]. exact H.
  - rewrite IH, scan_alias_eq. destruct (alias f) as [b|] eqn:E.
    + rewrite add_in. split.
      * intros [[H| ->]|(g & I & H)]; [tauto|right; exists f; split; [left; reflexivity|exact E]|right; exists g; split; [right; exact I|exact H]].
      * intros [H|(g & [<-|I] & H)]; [tauto|left; right; congruence|right; exists g; tauto].
    + split.
      * intros [H|(g & I & H)]; [tauto|right; exists g; split; [right; exact I|exact H]].
      * intros [H|(g & [<-|I] & H)]; [tauto|congruence|right; exists g; tauto].
Qed.
Lemma scan_nodup files : forall l, NoDup l -> NoDup (fold_left scan_alias files l).
Proof.
  induction files as [|f files IH]; intros l N; cbn [fold_left]; [exact N|]. apply IH. rewrite scan_alias_eq.
  destruct (alias f); [apply add_nodup, N|exact N].
Qed.
Lemma probe_found p l : probe true p l = (l, p).
Proof. induction l as [|a l IH]; [reflexivity|]. cbn [probe]. rewrite IH. reflexivity. Qed.
Lemma probe_lost l : forall p, exists q, probe false p l = ([], q) /\ (l <> [] -> exists c, q = Child c).
Proof.
  induction l as [|a l IH]; intros p; [exists p; split; [reflexivity|congruence]|].
  cbn [probe]. destruct (IH (Child p)) as (q & E & C). exists q. split; [exact E|]. intros _.
  destruct l as [|b l]; [cbn [probe] in E; injection E as <-; exists p; reflexivity|apply C; discriminate].
Qed.
Lemma loaded_ok files f a : In f files -> names f a -> In a (fst (coldplug true true true files)) /\ snd (coldplug true true true files) = Init.
Proof.
  intros I N. unfold coldplug. cbn [andb]. rewrite probe_found. split; [|reflexivity]. apply scan_in. right. exists f. split; [exact I|exact (names_alias _ _ N)].
Qed.
Lemma once_ok mods sys found files : NoDup (fst (coldplug mods sys found files)).
Proof.
  unfold coldplug. destruct (mods && sys); [|apply NoDup_nil]. destruct found.
  - rewrite probe_found. apply scan_nodup, NoDup_nil.
  - destruct (probe_lost (scan files) Init) as (q & E & _). rewrite E. apply NoDup_nil.
Qed.
Lemma only_ok mods sys found files a : (forall f, In f files -> silent f \/ exists b, names f b) -> In a (fst (coldplug mods sys found files)) ->
  mods = true /\ sys = true /\ found = true /\ exists f, In f files /\ names f a.
Proof.
  intros K H. unfold coldplug in H. destruct mods; [|destruct H]. destruct sys; [|destruct H]. cbn [andb] in H.
  destruct found.
  - rewrite probe_found in H. cbn [fst] in H. apply scan_in in H. destruct H as [[]|(f & I & E)].
    repeat split. exists f. split; [exact I|]. destruct (K f I) as [S|(b & N)].
    + rewrite (silent_alias _ S) in E. discriminate.
    + rewrite (names_alias _ _ N) in E. injection E as <-. exact N.
  - destruct (probe_lost (scan files) Init) as (q & E & _). rewrite E in H. destruct H.
Qed.
(** the order *)
Lemma scan_app files f a : names f a -> ~ In a (scan files) -> scan (files ++ [f]) = scan files ++ [a].
Proof.
  intros N I. unfold scan. rewrite fold_left_app. cbn [fold_left]. rewrite scan_alias_eq, (names_alias _ _ N). unfold add_uniq.
  destruct (existsb (fun b => str_eqb b a) (fold_left scan_alias files [])) eqn:E; [|reflexivity].
  exfalso. apply I. apply existsb_exists in E. destruct E as (c & J & E). apply str_eqb_eq in E. subst c. exact J.
Qed.
Lemma order_ok files f a : names f a -> ~ In a (fst (coldplug true true true files)) ->
  fst (coldplug true true true (files ++ [f])) = fst (coldplug true true true files) ++ [a].
Proof. unfold coldplug. cbn [andb]. rewrite !probe_found. cbn [fst]. apply scan_app. Qed.
Lemma clone_ok files f a : In f files -> names f a -> exists c, coldplug true true false files = ([], Child c).
Proof.
  intros I N. unfold coldplug. cbn [andb]. destruct (probe_lost (scan files) Init) as (q & E & C).
  assert (X : In a (scan files)) by (apply scan_in; right; exists f; split; [exact I|exact (names_alias _ _ N)]).
  destruct C as [c ->]; [intros Z; rewrite Z in X; destruct X|]. exists c. exact E.
Qed.
Lemma chunks_long size l t : forall r cur, 0 < r -> r <= List.length l -> ~ In eol l -> exists rest, chunks size r cur (l ++ t) = (rev cur ++ firstn r l) :: rest.
Proof.
  induction l as [|c l IH]; intros r cur P R N; cbn [List.length] in R; [lia|]. cbn [app chunks].
  destruct (Ascii.eqb c eol) eqn:E; [apply Ascii.eqb_eq in E; exfalso; apply N; left; exact E|].
  destruct r as [|[|r]]; [lia| |].
  - eexists. cbn [rev firstn]. reflexivity.
  - destruct (IH (S r) (c :: cur)) as [rest X]; [lia|lia|intros Y; apply N; right; exact Y|]. exists rest. rewrite X. cbn [rev]. rewrite <- app_assoc. reflexivity.
Qed.
Lemma firstn_no {A} (x : A) n l : ~ In x l -> ~ In x (firstn n l).
Proof. intros N I. apply N. rewrite <- (firstn_skipn n l). apply in_or_app. left. exact I. Qed.
Lemma long_ok f l t : f_reg f = true -> f_name f = #"modalias" -> f_text f = l ++ eol :: t -> ~ In eol l -> (255 < N.of_nat (List.length l))%N ->
  fst (coldplug true true true [f]) = [firstn (N.to_nat 255) l] /\ firstn (N.to_nat 255) l <> l.
Proof.
  intros R N T E L. split.
  - unfold coldplug. cbn [andb]. rewrite probe_found. unfold scan. cbn [fold_left fst]. rewrite scan_alias_eq. unfold alias. rewrite R, N, T.
    change (match scan_modalias (l ++ eol :: t) with Some a => add_uniq [] a | None => [] end = [firstn room l]).
    unfold scan_modalias, gets. destruct (chunks_long room l (eol :: t) room []) as [rest X]; [unfold room; lia|unfold room; lia|exact E|].
    rewrite X. cbn [rev app]. rewrite chomp_plain; [reflexivity|apply firstn_no, E].
  - intros X. assert (Y : List.length (firstn (N.to_nat 255) l) = N.to_nat 255) by (apply firstn_length_le; lia). rewrite X in Y. lia.
Qed.
