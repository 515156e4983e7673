(** Proofs about login records. *)
From Coq Require Import List String Ascii NArith ZArith Bool Lia.
From Verif Require Import CStr CStrLib UtmModel UtmSpec.
Import ListNotations.
Local Open Scope Z_scope.

(** ** pututline *)
Definition key (r : ut) : cstr * cstr :=
  match u_type r with RunLvl => (#"r", []) | BootTime => (#"b", []) | _ => (#"p", u_id r) end.
Definition good (r : ut) : Prop := is_proc (u_type r) = true -> u_id r <> [].
Lemma same_key n o : good n -> good o -> (same_entry n o = true <-> key n = key o).
Proof.
  intros N O. unfold same_entry, key, good in *.
  destruct (u_type n), (u_type o); cbn [is_proc type_eqb andb] in *; (split; [|]); intros H; try discriminate H; try reflexivity;
    (destruct (u_id n) as [|a i]; [exfalso; exact (N eq_refl eq_refl)|]); (destruct (u_id o) as [|b j]; [exfalso; exact (O eq_refl eq_refl)|]);
    first [ solve [apply str_eqb_eq in H; rewrite H; reflexivity]
          | assert (X : a :: i = b :: j) by congruence; rewrite X; apply str_eqb_refl ].
Qed.
Lemma put_keys n l : good n -> Forall good l -> forall k, In k (map key (pututline n l)) <-> k = key n \/ In k (map key l).
Proof.
  intros G. induction l as [|o l I]; intros F k; cbn [pututline map In]; [intuition congruence|].
  inversion F as [|? ? GO F']; subst. destruct (same_entry n o) eqn:E.
  - apply (same_key n o G GO) in E. cbn [map In]. rewrite E. intuition congruence.
  - cbn [map In]. rewrite (I F'). intuition congruence.
Qed.
Lemma put_nodup n l : good n -> Forall good l -> NoDup (map key l) -> NoDup (map key (pututline n l)).
Proof.
  intros G. induction l as [|o l I]; intros F D; cbn [pututline map]; [repeat constructor; intros []|].
  inversion F as [|? ? GO F']; subst. inversion D as [|? ? ND D']; subst. destruct (same_entry n o) eqn:E.
  - apply (same_key n o G GO) in E. cbn [map]. rewrite E. constructor; assumption.
  - cbn [map]. constructor; [|exact (I F' D')]. rewrite (put_keys n l G F'). intros [X|X]; [|contradiction].
    assert (S : same_entry n o = true) by (apply (same_key n o G GO); congruence). congruence.
Qed.
Lemma put_good n l : good n -> Forall good l -> Forall good (pututline n l).
Proof.
  intros G. induction l as [|o l I]; intros F; cbn [pututline]; [repeat constructor; exact G|].
  inversion F as [|? ? GO F']; subst. destruct (same_entry n o); constructor; try assumption. exact (I F').
Qed.
Lemma put_new n l : In n (pututline n l).
Proof. induction l as [|o l I]; cbn [pututline]; [left; reflexivity|]. destruct (same_entry n o); [left; reflexivity|right; exact I]. Qed.
Lemma put_old n l x : In x (pututline n l) -> x = n \/ In x l.
Proof.
  induction l as [|o l I]; cbn [pututline In]; [intuition congruence|]. destruct (same_entry n o); cbn [In]; intuition congruence.
Qed.
Lemma put_keep n l x : good n -> good x -> In x l -> key x <> key n -> In x (pututline n l).
Proof.
  intros G GX. induction l as [|o l I]; intros H K; [destruct H|]. cbn [pututline].
  destruct (same_entry n o) eqn:E; (destruct H as [->|H]; [|right; auto]).
  - apply (same_key n x G GX) in E. congruence.
  - left. reflexivity.
Qed.
Lemma nodup_key l x y : NoDup (map key l) -> In x l -> In y l -> key x = key y -> x = y.
Proof.
  induction l as [|o l I]; intros D X Y K; [destruct X|]. cbn [map] in D. inversion D as [|? ? ND D']; subst.
  destruct X as [->|X], Y as [->|Y]; [reflexivity| | |exact (I D' X Y K)].
  - exfalso. apply ND. rewrite K. apply in_map. exact Y.
  - exfalso. apply ND. rewrite <- K. apply in_map. exact X.
Qed.

(** ** Events *)
Lemma line_strip d L : line_of d L -> (if starts #"/dev/" d then skipn 5 d else d) = L.
Proof.
  intros [l|l N]; [reflexivity|]. destruct (starts #"/dev/" l) eqn:E; [|reflexivity].
  exfalso. apply starts_iff in E. destruct E as [r E]. exact (N r E).
Qed.
Lemma ident_strip L n : ident L n -> (if starts #"pts/" L then skipn 4 L else L) = n.
Proof.
  intros [l|l N]; [reflexivity|]. destruct (starts #"pts/" l) eqn:E; [|reflexivity].
  exfalso. apply starts_iff in E. destruct E as [r E]. exact (N r E).
Qed.
Lemma line_ex d : exists L, line_of d L.
Proof.
  destruct (starts #"/dev/" d) eqn:E.
  - apply starts_iff in E. destruct E as [r ->]. exists r. constructor.
  - exists d. constructor. intros r ->. rewrite starts_app in E. discriminate.
Qed.
Lemma ident_ex L : exists n, ident L n.
Proof.
  destruct (starts #"pts/" L) eqn:E.
  - apply starts_iff in E. destruct E as [r ->]. exists r. constructor.
  - exists L. constructor. intros r ->. rewrite starts_app in E. discriminate.
Qed.
Definition rec (t : utype) (p : Z) (L n u : cstr) : ut := {| u_type := t; u_pid := p; u_line := field 32 L; u_id := field 4 n; u_user := field 32 u |}.
Lemma about_proc L e t p u : about L e t p u -> is_proc t = true /\ t <> DeadProc.
Proof. intros [d q _|d q _|d v q _]; split; try reflexivity; discriminate. Qed.
Lemma step_about f L e t p u n : about L e t p u -> ident L n ->
  utmp (step f e) = pututline (rec t p L n u) (utmp f).
Proof.
  intros A I. destruct A as [d q D|d q D|d v q D]; cbn [step]; unfold set_getty; rewrite (line_strip d L D), (ident_strip L n I); reflexivity.
Qed.
Lemma event_cases e : (exists L t p u, about L e t p u) \/ ((forall L, silent L e) /\ exists r, is_proc (u_type r) = false /\ forall f, utmp (step f e) = pututline r (utmp f) ) \/ (exists p, e = EGone p).
Proof.
  destruct e as [d p|d p|d u p|p|a b| |].
  - left. destruct (line_ex d) as [L D]. repeat eexists. constructor. exact D.
  - left. destruct (line_ex d) as [L D]. repeat eexists. constructor. exact D.
  - left. destruct (line_ex d) as [L D]. repeat eexists. constructor. exact D.
  - right. right. exists p. reflexivity.
  - right. left. split; [intros L t q v X; inversion X|]. eexists. split; [|intros f; reflexivity]. reflexivity.
  - right. left. split; [intros L t q v X; inversion X|]. eexists. split; [|intros f; reflexivity]. reflexivity.
  - right. left. split; [intros L t q v X; inversion X|]. eexists. split; [|intros f; reflexivity]. reflexivity.
Qed.
Lemma rec_good t p L n u : n <> [] -> good (rec t p L n u).
Proof. intros N _. destruct n; [contradiction|]. discriminate. Qed.
Lemma rec_key t p L n u : is_proc t = true -> key (rec t p L n u) = (#"p", firstn 4 n).
Proof. destruct t; intros H; try discriminate H; reflexivity. Qed.
Lemma key_proc r : is_proc (u_type r) = false -> forall i, key r <> (#"p", i).
Proof. unfold key. destruct (u_type r); intros H i; discriminate. Qed.
Lemma good_not r : is_proc (u_type r) = false -> good r.
Proof. intros H X. congruence. Qed.

(** Every record of a process is of an event *)
Definition inv (es : list event) (f : files) : Prop :=
  Forall good (utmp f) /\ NoDup (map key (utmp f)) /\
  forall x, In x (utmp f) -> is_proc (u_type x) = true -> exists e L t p u n, In e es /\ about L e t p u /\ ident L n /\ x = rec t p L n u.
Lemma inv_step es f e : inv es f -> names_ok (es ++ [e]) -> inv (es ++ [e]) (step f e).
Proof.
  intros (G & D & S) N.
  assert (W : forall x, In x (utmp f) -> is_proc (u_type x) = true -> exists e0 L t p u n, In e0 (es ++ [e]) /\ about L e0 t p u /\ ident L n /\ x = rec t p L n u).
  { intros x X P. destruct (S x X P) as (e0 & L & t & p & u & n & I & Q). exists e0, L, t, p, u, n. split; [apply in_or_app; left; exact I|exact Q]. }
  destruct (event_cases e) as [(L & t & p & u & A)|[(_ & r & R & E)|(p & ->)]].
  - destruct (ident_ex L) as [n I]. assert (Nn : n <> []) by (apply (N e t p u L n); [apply in_or_app; right; left; reflexivity|exact A|exact I]).
    unfold inv. rewrite (step_about f L e t p u n A I). pose proof (rec_good t p L n u Nn) as GR.
    split; [apply put_good; assumption|]. split; [apply put_nodup; assumption|].
    intros x X P. apply put_old in X. destruct X as [->|X]; [|exact (W x X P)].
    exists e, L, t, p, u, n. split; [apply in_or_app; right; left; reflexivity|]. split; [exact A|]. split; [exact I|reflexivity].
  - unfold inv. rewrite E. pose proof (good_not r R) as GR.
    split; [apply put_good; assumption|]. split; [apply put_nodup; assumption|].
    intros x X P. apply put_old in X. destruct X as [->|X]; [congruence|exact (W x X P)].
  - split; [exact G|]. split; [exact D|]. exact W.
Qed.
Lemma run_snoc es e : run (es ++ [e]) = step (run es) e.
Proof. unfold run. rewrite fold_left_app. reflexivity. Qed.
Lemma inv_run es : names_ok es -> inv es (run es).
Proof.
  induction es as [|e es I] using rev_ind; intros N.
  - split; [constructor|]. split; [constructor|]. intros x [].
  - rewrite run_snoc. apply inv_step; [|exact N]. apply I. intros e0 t p u L n X. apply N. apply in_or_app. left. exact X.
Qed.
Lemma apart_names es : apart es -> names_ok es.
Proof. intros A e t p u L n I B J. apply (A e t p u L n I B J). Qed.
Lemma apart_sub a b : apart (a ++ b) -> apart a.
Proof.
  intros A e t p u L n I B J. destruct (A e t p u L n (in_or_app _ _ _ (or_introl I)) B J) as (X & Y & Z & W).
  repeat (split; [assumption|]). intros e' t' p' u' L' n' I'. apply W. apply in_or_app. left. exact I'.
Qed.

Lemma keep es post e t p u L n : In e es -> about L e t p u -> ident L n -> apart (es ++ post) -> Forall (silent L) post ->
  In (rec t p L n u) (utmp (run es)) -> In (rec t p L n u) (utmp (run (es ++ post))).
Proof.
  intros I A J. induction post as [|q post IH] using rev_ind; intros P F R; [rewrite app_nil_r; exact R|].
  rewrite app_assoc in *. rewrite run_snoc. pose proof (apart_sub _ _ P) as P'.
  apply Forall_app in F. destruct F as [F Fq]. inversion Fq as [|? ? Sq _]; subst. specialize (IH P' F R).
  assert (Ie : In e ((es ++ post) ++ [q])) by (apply in_or_app; left; apply in_or_app; left; exact I).
  assert (Iq : In q ((es ++ post) ++ [q])) by (apply in_or_app; right; left; reflexivity).
  destruct (P e t p u L n Ie A J) as (Nn & _ & _ & W).
  pose proof (rec_good t p L n u Nn) as GR.
  destruct (event_cases q) as [(L' & t' & p' & u' & A')|[(_ & r & Rr & E)|(p' & ->)]]; [| |exact IH].
  - destruct (ident_ex L') as [n' J']. rewrite (step_about _ L' q t' p' u' n' A' J').
    destruct (P q t' p' u' L' n' Iq A' J') as (Nn' & _).
    apply put_keep; [apply rec_good; exact Nn'|exact GR|exact IH|].
    rewrite !rec_key by (eapply about_proc; eassumption). intros X.
    assert (Q : firstn 4 n = firstn 4 n') by congruence.
    pose proof (W q t' p' u' L' n' Iq A' J' Q) as <-. exact (Sq t' p' u' A').
  - rewrite E. apply put_keep; [apply good_not; exact Rr|exact GR|exact IH|].
    rewrite rec_key by (eapply about_proc; eassumption). intros X. exact (key_proc r Rr _ (eq_sym X)).
Qed.
Lemma field_id n s : (List.length s <= n)%nat -> field n s = s.
Proof. apply firstn_all2. Qed.
Lemma line_ok pre e post L t p u : apart (pre ++ e :: post) -> about L e t p u -> Forall (silent L) post ->
  exists r, In r (utmp (run (pre ++ e :: post))) /\ u_type r = t /\ u_pid r = p /\ u_line r = L /\ u_user r = u /\
    forall r', In r' (utmp (run (pre ++ e :: post))) -> is_proc (u_type r') = true -> u_line r' = L -> r' = r.
Proof.
  intros P A S. destruct (ident_ex L) as [n J].
  assert (Q : pre ++ e :: post = (pre ++ [e]) ++ post) by (rewrite <- app_assoc; reflexivity).
  assert (Ie : In e (pre ++ e :: post)) by (apply in_or_app; right; left; reflexivity).
  destruct (P e t p u L n Ie A J) as (Nn & LL & LU & _).
  assert (R : In (rec t p L n u) (utmp (run (pre ++ e :: post)))).
  { rewrite Q in *. apply (keep (pre ++ [e]) post e); try assumption; [apply in_or_app; right; left; reflexivity|].
    rewrite run_snoc, (step_about _ L e t p u n A J). apply put_new. }
  exists (rec t p L n u). split; [exact R|]. cbn [rec u_type u_pid u_line u_user].
  split; [reflexivity|]. split; [reflexivity|]. split; [apply field_id; exact LL|]. split; [apply field_id; exact LU|].
  intros r' R' Pr Ln. destruct (inv_run _ (apart_names _ P)) as (_ & D & W).
  destruct (W r' R' Pr) as (e' & L' & t' & p' & u' & n' & I' & A' & J' & ->).
  destruct (P e' t' p' u' L' n' I' A' J') as (_ & LL' & _).
  cbn [rec u_line] in Ln. rewrite field_id in Ln by exact LL'. subst L'.
  assert (n' = n) by (rewrite <- (ident_strip L n J), <- (ident_strip L n' J'); reflexivity). subst n'.
  apply (nodup_key _ _ _ D R' R). rewrite !rec_key by (eapply about_proc; eassumption). reflexivity.
Qed.

(** ** The runlevel *)
Definition runrec (p : Z) (u : cstr) : ut := {| u_type := RunLvl; u_pid := p; u_line := #"~"; u_id := #"~~"; u_user := u |}.
Lemma keep_level es post r : u_type r = RunLvl -> names_ok (es ++ post) -> Forall (fun e => ~ about_level e) post -> In r (utmp (run es)) -> In r (utmp (run (es ++ post))).
Proof.
  intros T. induction post as [|q post IH] using rev_ind; intros N F R; [rewrite app_nil_r; exact R|].
  rewrite app_assoc in *. rewrite run_snoc.
  assert (N' : names_ok (es ++ post)) by (intros e0 t p u L n X; apply N; apply in_or_app; left; exact X).
  apply Forall_app in F. destruct F as [F Fq]. inversion Fq as [|? ? Sq _]; subst. specialize (IH N' F R).
  assert (GR : good r) by (intros X; rewrite T in X; discriminate X).
  assert (K : key r = (#"r", [])) by (unfold key; rewrite T; reflexivity).
  assert (Iq : In q ((es ++ post) ++ [q])) by (apply in_or_app; right; left; reflexivity).
  destruct (event_cases q) as [(L' & t' & p' & u' & A')|[X|(p' & ->)]]; [| |exact IH].
  - destruct (ident_ex L') as [n' J']. rewrite (step_about _ L' q t' p' u' n' A' J').
    apply put_keep; [apply rec_good; exact (N q t' p' u' L' n' Iq A' J')|exact GR|exact IH|].
    rewrite K, rec_key by (eapply about_proc; eassumption). discriminate.
  - destruct q as [d p|d p|d u p|p|a b| |].
    + destruct X as [X _]. destruct (line_ex d) as [L D]. exfalso. apply (X L InitProc p []). constructor. exact D.
    + destruct X as [X _]. destruct (line_ex d) as [L D]. exfalso. apply (X L LoginProc p #"LOGIN"). constructor. exact D.
    + destruct X as [X _]. destruct (line_ex d) as [L D]. exfalso. apply (X L UserProc p u). constructor. exact D.
    + exact IH.
    + exfalso. apply Sq. right. exists a, b. reflexivity.
    + exfalso. apply Sq. left. reflexivity.
    + cbn [step utmp_set utmp]. apply put_keep; [apply good_not; reflexivity|exact GR|exact IH|]. rewrite K. discriminate.
Qed.
Lemma unique_level es r r' : names_ok es -> In r (utmp (run es)) -> In r' (utmp (run es)) -> u_type r = RunLvl -> u_type r' = RunLvl -> r' = r.
Proof.
  intros N R R' T T'. destruct (inv_run es N) as (_ & D & _). apply (nodup_key _ _ _ D R' R). unfold key. rewrite T, T'. reflexivity.
Qed.
Lemma encode_ok a b : level a -> level b ->
  let p := Z.lor (Z.shiftl (encode a) 8) (Z.land (encode b) 255) in digit a (p / 256) /\ digit b (p mod 256).
Proof.
  unfold level, digit. intros A B.
  assert (HA : a = 0 \/ a = 1 \/ a = 2 \/ a = 3 \/ a = 4 \/ a = 5 \/ a = 6 \/ a = 7 \/ a = 8 \/ a = 9 \/ a = 10) by lia.
  assert (HB : b = 0 \/ b = 1 \/ b = 2 \/ b = 3 \/ b = 4 \/ b = 5 \/ b = 6 \/ b = 7 \/ b = 8 \/ b = 9 \/ b = 10) by lia.
  clear A B.
  repeat (destruct HA as [->|HA]); subst; repeat (destruct HB as [->|HB]); subst; vm_compute; intuition congruence.
Qed.
Lemma level_ok pre a b post : names_ok (pre ++ ELevel a b :: post) -> level a -> level b -> Forall (fun e => ~ about_level e) post ->
  exists r, In r (utmp (run (pre ++ ELevel a b :: post))) /\ u_type r = RunLvl /\ digit a (u_pid r / 256) /\ digit b (u_pid r mod 256) /\
    forall r', In r' (utmp (run (pre ++ ELevel a b :: post))) -> u_type r' = RunLvl -> r' = r.
Proof.
  intros N A B F.
  assert (Q : pre ++ ELevel a b :: post = (pre ++ [ELevel a b]) ++ post) by (rewrite <- app_assoc; reflexivity).
  pose (r := runrec (Z.lor (Z.shiftl (encode a) 8) (Z.land (encode b) 255)) #"runlevel").
  assert (R : In r (utmp (run (pre ++ ELevel a b :: post)))).
  { rewrite Q in *. apply keep_level; [reflexivity|exact N|exact F|]. rewrite run_snoc. apply put_new. }
  exists r. split; [exact R|]. split; [reflexivity|]. destruct (encode_ok a b A B) as [X Y].
  split; [exact X|]. split; [exact Y|]. intros r' R' T'. apply (unique_level _ r r' N R R' eq_refl T').
Qed.
(** ** wtmp *)
Lemma wtmp_step f e : exists r, wtmp (step f e) = wtmp f ++ [r].
Proof. destruct e; cbn [step]; unfold set_getty, utmp_set; cbn [wtmp]; eexists; reflexivity. Qed.
Lemma wtmp_ok es post : exists more, wtmp (run (es ++ post)) = wtmp (run es) ++ more /\ List.length more = List.length post.
Proof.
  induction post as [|q post (more & E & L)] using rev_ind; [exists []; rewrite !app_nil_r; split; reflexivity|].
  rewrite app_assoc, run_snoc. destruct (wtmp_step (run (es ++ post)) q) as [r R]. exists (more ++ [r]). rewrite R, E, <- app_assoc.
  split; [reflexivity|]. rewrite !app_length, L. reflexivity.
Qed.
