From Coq Require Import List String Ascii NArith ZArith Bool Lia.
From Coq Require Import ZifyBool ZifyNat ZifyN.
From Verif Require Import CStr ParseSpec ParseModel CStrLib TmpModel TmpSpec.
Import ListNotations.
Local Open Scope Z_scope.

(** ** Digits and letters *)

Lemma octd_iff c v : octd c = Some v <-> oct_is c v.
Proof.
  unfold octd, oct_is. cbv zeta. split.
  - destruct ((48 <=? code c)%N && (code c <=? 55)%N)%bool eqn:E; [|discriminate].
    intros [= <-]. apply andb_prop in E. destruct E as [A B]. apply N.leb_le in A, B.
    split; [lia|]. apply code_inj. rewrite code_of by lia. lia.
  - intros [A ->]. rewrite code_of by lia.
    replace ((48 <=? 48 + v)%N && (48 + v <=? 55)%N)%bool with true by lia. f_equal. lia.
Qed.
Lemma octd_none c : octd c = None <-> forall v, ~ oct_is c v.
Proof.
  split.
  - intros H v Hv. apply octd_iff in Hv. congruence.
  - intros H. destruct (octd c) as [v|] eqn:E; [|reflexivity]. exfalso. apply (H v). apply octd_iff, E.
Qed.
Lemma hexd_some c v : hexd c = Some v -> hex_is c v.
Proof.
  unfold hexd, hex_is. cbv zeta. intros H.
  assert (X : forall n, code c = n -> (n < 256)%N -> c = ascii_of_N n).
  { intros n E L. apply code_inj. rewrite code_of by exact L. exact E. }
  destruct ((48 <=? code c)%N && (code c <=? 55)%N)%bool eqn:E1.
  { injection H as <-. left. split; [lia|]. apply X; lia. }
  destruct ((97 <=? code c)%N && (code c <=? 102)%N)%bool eqn:E2.
  { injection H as <-. right. split; [lia|]. left. apply X; lia. }
  destruct ((65 <=? code c)%N && (code c <=? 70)%N)%bool eqn:E3; [|discriminate].
  injection H as <-. right. split; [lia|]. right. apply X; lia.
Qed.
Lemma hexd_of c v : hex_is c v -> ~ eight_nine c -> hexd c = Some v.
Proof.
  intros H N. unfold hexd. cbv zeta. destruct H as [[A ->]|[A [-> | ->]]].
  - assert (v <> 8 /\ v <> 9)%N.
    { split; intros ->; apply N; [left|right]; reflexivity. }
    rewrite code_of by lia. replace ((48 <=? 48 + v)%N && (48 + v <=? 55)%N)%bool with true by lia. f_equal. lia.
  - rewrite code_of by lia. replace ((48 <=? 87 + v)%N && (87 + v <=? 55)%N)%bool with false by lia.
    replace ((97 <=? 87 + v)%N && (87 + v <=? 102)%N)%bool with true by lia. f_equal. lia.
  - rewrite code_of by lia. replace ((48 <=? 55 + v)%N && (55 + v <=? 55)%N)%bool with false by lia.
    replace ((97 <=? 55 + v)%N && (55 + v <=? 102)%N)%bool with false by lia.
    replace ((65 <=? 55 + v)%N && (55 + v <=? 70)%N)%bool with true by lia. f_equal. lia.
Qed.
Lemma hexd_none_of c : (forall v, ~ hex_is c v) -> hexd c = None.
Proof. intros H. destruct (hexd c) as [v|] eqn:E; [|reflexivity]. exfalso. apply (H v), hexd_some, E. Qed.

Lemma letter_some c x : letter_is c x -> letter c = x /\ octd c = None /\ ch_eqb c "x" = false.
Proof.
  unfold letter_is. cbn [In]. intros H.
  repeat match goal with H : _ \/ _ |- _ => destruct H as [H|H] end; try contradiction;
    injection H as <- <-; repeat split; reflexivity.
Qed.
Lemma letter_none c : (forall x, ~ letter_is c x) -> letter c = c.
Proof.
  intros H. unfold letter.
  repeat match goal with
  | |- context [ch_eqb c ?d] => let E := fresh in destruct (ch_eqb c d) eqn:E;
      [apply ch_eqb_eq in E; subst c; exfalso; eapply H; unfold letter_is; cbn [In]; eauto 10|]
  end. reflexivity.
Qed.
Lemma oct_not_x o v : oct_is o v -> ch_eqb o "x" = false.
Proof. intros [A ->]. apply ch_eqb_neq. intros X. apply (f_equal code) in X. rewrite code_of in X by lia. change (code "x") with 120%N in X. lia. Qed.

(** ** What is written *)

Lemma no_89_tl c s : no_89 (c :: s) -> no_89 s.
Proof.
  intros [A B]. split.
  - intros a d r E. apply (A (c :: a) d r). cbn. f_equal. exact E.
  - intros a h d r E. apply (B (c :: a) h d r). cbn. f_equal. exact E.
Qed.
Lemma write_plain c s : c <> "\"%char -> write_arg (c :: s) = put c (write_arg s).
Proof. intros H. cbn [write_arg]. apply ch_eqb_neq in H. rewrite H. reflexivity. Qed.
Ltac bslash := cbn [write_arg]; rewrite (ch_eqb_refl "\"); cbn [negb].

Theorem write_text s out : text s out -> no_89 s -> write_arg s = Some out.
Proof.
  induction 1; intros N.
  - reflexivity.
  - rewrite write_plain by assumption. rewrite IHtext by (eapply no_89_tl; eassumption). reflexivity.
  - destruct (letter_some _ _ H) as (A & B & C). bslash. rewrite C, B, A.
    rewrite IHtext by (do 2 eapply no_89_tl; eassumption). reflexivity.
  - bslash. rewrite (ch_eqb_refl "x").
    assert (N1 : ~ eight_nine h) by (apply (proj1 N [] h s); reflexivity).
    rewrite (hexd_of _ _ H N1).
    assert (N2 : no_89 s) by (do 3 eapply no_89_tl; eassumption).
    specialize (IHtext N2). destruct s as [|h2 r].
    + rewrite IHtext. reflexivity.
    + rewrite (hexd_none_of h2) by (intros v'; apply (H0 h2 r v'); reflexivity). rewrite IHtext. reflexivity.
  - bslash. rewrite (ch_eqb_refl "x").
    assert (N1 : ~ eight_nine h1) by (apply (proj1 N [] h1 (h2 :: s)); reflexivity).
    assert (N2 : ~ eight_nine h2) by (apply (proj2 N [] h1 h2 s); reflexivity).
    rewrite (hexd_of _ _ H N1), (hexd_of _ _ H0 N2).
    rewrite IHtext by (do 4 eapply no_89_tl; eassumption). reflexivity.
  - bslash. rewrite (oct_not_x _ _ H), (proj2 (octd_iff _ _) H).
    specialize (IHtext (no_89_tl _ _ (no_89_tl _ _ N))). destruct s as [|o2 r].
    + rewrite IHtext. reflexivity.
    + rewrite (proj2 (octd_none o2)) by (intros v'; apply (H0 o2 r v'); reflexivity). rewrite IHtext. reflexivity.
  - bslash. rewrite (oct_not_x _ _ H), (proj2 (octd_iff _ _) H), (proj2 (octd_iff _ _) H0).
    specialize (IHtext (no_89_tl _ _ (no_89_tl _ _ (no_89_tl _ _ N)))). destruct s as [|o3 r].
    + rewrite IHtext. reflexivity.
    + rewrite (proj2 (octd_none o3)) by (intros v'; apply (H1 o3 r v'); reflexivity). rewrite IHtext. reflexivity.
  - bslash. rewrite (oct_not_x _ _ H), (proj2 (octd_iff _ _) H), (proj2 (octd_iff _ _) H0), (proj2 (octd_iff _ _) H1).
    rewrite IHtext by (do 4 eapply no_89_tl; eassumption). reflexivity.
  - bslash. specialize (IHtext (no_89_tl _ _ (no_89_tl _ _ N))).
    destruct (ch_eqb c "x") eqn:Ex.
    + apply ch_eqb_eq in Ex. subst c. specialize (H1 eq_refl). destruct s as [|h r].
      * rewrite IHtext. reflexivity.
      * rewrite (hexd_none_of h) by (intros v'; apply (H1 h r v'); reflexivity). rewrite IHtext. reflexivity.
    + rewrite (proj2 (octd_none c) H0), (letter_none c H), IHtext. reflexivity.
Qed.

(** ** A backslash at the end *)

Fixpoint esc (e : bool) (s : cstr) : bool :=
  match s with
  | [] => e
  | c :: r => esc (negb e && ch_eqb c "\")%bool r
  end.
Lemma put_none b r : put b r = None <-> r = None.
Proof. destruct r; cbn; split; congruence. Qed.
Lemma hexd_bs c v : hexd c = Some v -> ch_eqb c "\" = false.
Proof. intros H. apply ch_eqb_neq. intros ->. discriminate. Qed.
Lemma octd_bs c v : octd c = Some v -> ch_eqb c "\" = false.
Proof. intros H. apply ch_eqb_neq. intros ->. discriminate. Qed.
Lemma esc_bs s : esc false ("\"%char :: s) = esc true s.
Proof. reflexivity. Qed.
Lemma esc_true c s : esc true (c :: s) = esc false s.
Proof. reflexivity. Qed.
Lemma esc_plain c s : ch_eqb c "\" = false -> esc false (c :: s) = esc false s.
Proof. intros H. cbn [esc]. rewrite H. reflexivity. Qed.

Lemma write_none n : forall s, (List.length s <= n)%nat -> write_arg s = None <-> esc false s = true.
Proof.
  induction n as [|n IH]; intros s L.
  { destruct s; [|cbn in L; lia]. cbn. split; discriminate. }
  destruct s as [|c r]; [cbn; split; discriminate|]. cbn [List.length] in L.
  destruct (ch_eqb c "\") eqn:Ec.
  2:{ rewrite esc_plain by exact Ec. cbn [write_arg]. rewrite Ec. cbn [negb]. rewrite put_none. apply IH. lia. }
  apply ch_eqb_eq in Ec. subst c. rewrite esc_bs. bslash.
  destruct r as [|d r1]; [cbn; tauto|]. rewrite esc_true. cbn [List.length] in L.
  assert (R1 : write_arg r1 = None <-> esc false r1 = true) by (apply IH; lia).
  destruct (ch_eqb d "x") eqn:Ex.
  - destruct r1 as [|h1 r2]; [rewrite put_none; exact R1|]. cbn [List.length] in L.
    destruct (hexd h1) as [v1|] eqn:E1; [|rewrite put_none; exact R1].
    rewrite esc_plain by (eapply hexd_bs; eassumption).
    assert (R2 : write_arg r2 = None <-> esc false r2 = true) by (apply IH; lia).
    destruct r2 as [|h2 r3]; [rewrite put_none; exact R2|]. cbn [List.length] in L.
    destruct (hexd h2) as [v2|] eqn:E2; [|rewrite put_none; exact R2].
    rewrite esc_plain by (eapply hexd_bs; eassumption). rewrite put_none. apply IH. lia.
  - destruct (octd d) as [v1|] eqn:E1; [|rewrite put_none; exact R1].
    destruct r1 as [|o2 r2]; [rewrite put_none; exact R1|]. cbn [List.length] in L.
    destruct (octd o2) as [v2|] eqn:E2; [|rewrite put_none; exact R1].
    rewrite esc_plain by (eapply octd_bs; eassumption).
    assert (R2 : write_arg r2 = None <-> esc false r2 = true) by (apply IH; lia).
    destruct r2 as [|o3 r3]; [rewrite put_none; exact R2|]. cbn [List.length] in L.
    destruct (octd o3) as [v3|] eqn:E3; [|rewrite put_none; exact R2].
    rewrite esc_plain by (eapply octd_bs; eassumption). rewrite put_none. apply IH. lia.
Qed.

Lemma esc_app e a b : esc e (a ++ b) = esc (esc e a) b.
Proof. revert e. induction a as [|c a IH]; intros e; [reflexivity|]. cbn [app esc]. apply IH. Qed.
Lemma esc_run k : esc false (repeat "\"%char k) = Nat.odd k /\ esc true (repeat "\"%char k) = negb (Nat.odd k).
Proof.
  induction k as [|k [IH1 IH2]]; [split; reflexivity|]. cbn [repeat]. rewrite esc_bs, esc_true, IH1, IH2.
  rewrite Nat.odd_succ, <- Nat.negb_odd. split; [reflexivity|]. now destruct (Nat.odd k).
Qed.
Lemma esc_before a : (forall a', a <> a' ++ ["\"%char]) -> esc false a = false.
Proof.
  destruct (rev a) as [|c r] eqn:E.
  - apply (f_equal (@rev ascii)) in E. rewrite rev_involutive in E. subst a. reflexivity.
  - apply (f_equal (@rev ascii)) in E. rewrite rev_involutive in E. cbn in E. subst a. intros H.
    rewrite esc_app. cbn [esc]. assert (X : ch_eqb c "\" = false) by (apply ch_eqb_neq; intros ->; eapply H; reflexivity).
    rewrite X. apply andb_false_r.
Qed.
Lemma split_run s : exists a k, s = a ++ repeat "\"%char k /\ forall a', a <> a' ++ ["\"%char].
Proof.
  induction s as [|c s IH] using rev_ind.
  - exists [], 0%nat. split; [reflexivity|]. intros a' X. destruct a'; discriminate.
  - destruct (ch_eqb c "\") eqn:E.
    + apply ch_eqb_eq in E. subst c. destruct IH as (a & k & -> & H). exists a, (S k).
      split; [|exact H]. rewrite <- app_assoc. f_equal.
      replace (S k) with (k + 1)%nat by lia. rewrite repeat_app. reflexivity.
    + exists (s ++ [c]), 0%nat. split; [cbn; rewrite app_nil_r; reflexivity|].
      intros a' X. apply app_inj_tail in X. destruct X as [_ ->]. discriminate.
Qed.
Theorem write_overrun s : write_arg s = None <-> dangling s.
Proof.
  rewrite (write_none _ s (Nat.le_refl _)). split.
  - intros H. destruct (split_run s) as (a & k & -> & N). rewrite esc_app, (esc_before a N), (proj1 (esc_run k)) in H.
    apply Nat.odd_spec in H. destruct H as [n ->]. exists a, n. split; [|exact N]. f_equal. f_equal. lia.
  - intros (a & n & -> & N). rewrite esc_app, (esc_before a N), (proj1 (esc_run _)).
    apply Nat.odd_spec. exists n. lia.
Qed.

(** every text that does not end that way means something *)
Lemma hex_dec c : (exists v, hex_is c v) \/ forall v, ~ hex_is c v.
Proof.
  destruct (hexd c) as [v|] eqn:E; [left; exists v; apply hexd_some, E|].
  destruct (ch_eqb c "8") eqn:E8.
  { apply ch_eqb_eq in E8. subst c. left. exists 8%N. left. split; [lia|reflexivity]. }
  destruct (ch_eqb c "9") eqn:E9.
  { apply ch_eqb_eq in E9. subst c. left. exists 9%N. left. split; [lia|reflexivity]. }
  right. intros v H. apply ch_eqb_neq in E8, E9. rewrite (hexd_of c v H) in E; [discriminate|]. intros [->| ->]; auto.
Qed.
Lemma letter_dec c : (exists x, letter_is c x) \/ forall x, ~ letter_is c x.
Proof.
  destruct (ch_eqb (letter c) c) eqn:E.
  - right. intros x H. pose proof (proj1 (letter_some c x H)) as A. apply ch_eqb_eq in E. rewrite E in A. subst x.
    unfold letter_is in H. cbn [In] in H.
    repeat match type of H with _ \/ _ => destruct H as [H|H]; [congruence|] end. contradiction.
  - left. exists (letter c). unfold letter in *. unfold letter_is. cbn [In].
    repeat match goal with
    | |- context [ch_eqb c ?d] => let F := fresh in destruct (ch_eqb c d) eqn:F; [apply ch_eqb_eq in F; subst c; auto 10|]
    end. rewrite ch_eqb_refl in E. discriminate.
Qed.
Lemma no_hex_dec s : no_hex s \/ exists c r v, s = c :: r /\ hex_is c v.
Proof.
  destruct s as [|c r]; [left; intros c r v; discriminate|]. destruct (hex_dec c) as [[v H]|H]; [right; eauto|].
  left. intros c' r' v [= <- <-]. apply H.
Qed.
Lemma no_oct_dec s : no_oct s \/ exists c r v, s = c :: r /\ oct_is c v.
Proof.
  destruct s as [|c r]; [left; intros c r v; discriminate|]. destruct (octd c) as [v|] eqn:E.
  - right. exists c, r, v. split; [reflexivity|]. apply octd_iff, E.
  - left. intros c' r' v [= <- <-]. apply octd_none, E.
Qed.
Lemma text_total_n n : forall s, (List.length s <= n)%nat -> esc false s = false -> exists out, text s out.
Proof.
  induction n as [|n IH]; intros s L E.
  { destruct s; [|cbn in L; lia]. exists []. constructor. }
  destruct s as [|c r]; [exists []; constructor|]. cbn [List.length] in L.
  destruct (ch_eqb c "\") eqn:Ec.
  2:{ rewrite esc_plain in E by exact Ec. destruct (IH r) as [o Ho]; [lia|exact E|]. exists (c :: o). constructor; [|exact Ho].
      apply ch_eqb_neq, Ec. }
  apply ch_eqb_eq in Ec. subst c. rewrite esc_bs in E. destruct r as [|d r1]; [discriminate|]. rewrite esc_true in E.
  cbn [List.length] in L.
  assert (B : forall h v, hex_is h v -> ch_eqb h "\" = false).
  { intros h v H. apply ch_eqb_neq. intros ->. destruct H as [[A H]|[A [H|H]]]; apply (f_equal code) in H; rewrite code_of in H by lia; change (code "\") with 92%N in H; lia. }
  assert (B' : forall h v, oct_is h v -> ch_eqb h "\" = false).
  { intros h v H. eapply octd_bs. apply octd_iff, H. }
  destruct (letter_dec d) as [[x Hx]|Hx].
  { destruct (IH r1) as [o Ho]; [lia|exact E|]. exists (x :: o). apply tx_letter; assumption. }
  destruct (octd d) as [v|] eqn:Ed.
  { apply octd_iff in Ed. destruct (no_oct_dec r1) as [N|(o2 & r2 & v2 & -> & N)].
    - destruct (IH r1) as [o Ho]; [lia|exact E|]. eexists. eapply tx_oct1; eassumption.
    - rewrite esc_plain in E by (eapply B'; eassumption). cbn [List.length] in L.
      destruct (no_oct_dec r2) as [N2|(o3 & r3 & v3 & -> & N3)].
      + destruct (IH r2) as [o Ho]; [lia|exact E|]. eexists. eapply tx_oct2; eassumption.
      + rewrite esc_plain in E by (eapply B'; eassumption). cbn [List.length] in L.
        destruct (IH r3) as [o Ho]; [lia|exact E|]. eexists. eapply tx_oct3; eassumption. }
  pose proof (proj1 (octd_none d) Ed) as Nd.
  destruct (ch_eqb d "x") eqn:Ex.
  - apply ch_eqb_eq in Ex. subst d. destruct (no_hex_dec r1) as [N|(h1 & r2 & v1 & -> & N)].
    + destruct (IH r1) as [o Ho]; [lia|exact E|]. eexists. apply tx_other; eauto.
    + rewrite esc_plain in E by (eapply B; eassumption). cbn [List.length] in L.
      destruct (no_hex_dec r2) as [N2|(h2 & r3 & v2 & -> & N2)].
      * destruct (IH r2) as [o Ho]; [lia|exact E|]. eexists. eapply tx_hex1; eassumption.
      * rewrite esc_plain in E by (eapply B; eassumption). cbn [List.length] in L.
        destruct (IH r3) as [o Ho]; [lia|exact E|]. eexists. eapply tx_hex2; eassumption.
  - apply ch_eqb_neq in Ex. destruct (IH r1) as [o Ho]; [lia|exact E|]. eexists. apply tx_other; eauto. contradiction.
Qed.
Theorem text_total s : ~ dangling s -> exists out, text s out.
Proof.
  intros H. apply (text_total_n (List.length s)); [lia|].
  destruct (esc false s) eqn:E; [|reflexivity]. exfalso. apply H, write_overrun, (write_none _ s (Nat.le_refl _)), E.
Qed.

(** ** The files that are read *)

Lemma basenm_iff p b : basenm p = b <-> base_is p b.
Proof.
  unfold basenm, base_is. destruct (strrchr "/" p) as [[d x]|] eqn:E.
  - apply strrchr_some in E. destruct E as [-> N]. split.
    + intros <-. split; [exact N|]. right. eauto.
    + intros [Nb [H|[d' H]]].
      * exfalso. apply Nb. rewrite <- H. apply in_or_app. right. left. reflexivity.
      * assert (X : strrchr "/" (d ++ "/"%char :: x) = Some (d, x)) by (apply strrchr_some; auto).
        rewrite H in X. assert (Y : strrchr "/" (d' ++ "/"%char :: b) = Some (d', b)) by (apply strrchr_some; auto). congruence.
  - apply strrchr_none in E. split.
    + intros <-. auto.
    + intros [_ [H|[d H]]]; [exact H|]. exfalso. apply E. rewrite H. apply in_or_app. right. left. reflexivity.
Qed.
Lemma base_same f g : basenm f = basenm g <-> exists b, base_is f b /\ base_is g b.
Proof.
  split.
  - intros H. exists (basenm f). split; apply basenm_iff; congruence.
  - intros (b & A & B). apply basenm_iff in A, B. congruence.
Qed.
Lemma later_iff f rest : existsb (fun g => str_eqb (basenm f) (basenm g)) rest = true <->
  exists g, In g rest /\ basenm f = basenm g.
Proof.
  rewrite existsb_exists. split; intros (g & A & B); exists g; (split; [exact A|]); apply str_eqb_eq, B.
Qed.

Lemma read_in f files : In f (to_read files) -> exists a b, files = a ++ f :: b /\
  (forall g, In g b -> basenm g <> basenm f).
Proof.
  induction files as [|x files IH]; [contradiction|]. cbn [to_read].
  destruct (existsb _ files) eqn:E.
  - intros H. destruct (IH H) as (a & b & -> & N). exists (x :: a), b. auto.
  - intros [->|H].
    + exists [], files. split; [reflexivity|]. intros g Hg Eq.
      assert (X : existsb (fun g => str_eqb (basenm f) (basenm g)) files = true) by (apply later_iff; exists g; auto).
      congruence.
    + destruct (IH H) as (a & b & -> & N). exists (x :: a), b. auto.
Qed.
Lemma in_read a f b : (forall g, In g b -> basenm g <> basenm f) -> In f (to_read (a ++ f :: b)).
Proof.
  intros N. induction a as [|x a IH]; cbn [app to_read].
  - destruct (existsb _ b) eqn:E; [|left; reflexivity]. apply later_iff in E. destruct E as (g & A & B).
    exfalso. apply (N g A). congruence.
  - destruct (existsb _ _); [exact IH|right; exact IH].
Qed.
Lemma read_last f files : In f files -> exists g, In g (to_read files) /\ basenm g = basenm f.
Proof.
  revert f. induction files as [|x files IH]; [contradiction|]. intros f H. cbn [to_read].
  destruct (existsb _ files) eqn:E.
  - apply later_iff in E. destruct E as (g & A & B). destruct H as [->|H]; [|auto].
    destruct (IH g A) as (g' & A' & B'). exists g'. split; [exact A'|congruence].
  - destruct H as [->|H]; [exists f; split; [left|]; reflexivity|].
    destruct (IH f H) as (g & A & B). exists g. split; [right; exact A|exact B].
Qed.
Lemma read_nodup files : NoDup (map basenm (to_read files)).
Proof.
  induction files as [|x files IH]; [constructor|]. cbn [to_read].
  destruct (existsb _ files) eqn:E; [exact IH|]. cbn. constructor; [|exact IH].
  intros H. apply in_map_iff in H. destruct H as (g & A & B).
  destruct (read_in _ _ B) as (a & b & -> & _).
  assert (X : existsb (fun g => str_eqb (basenm x) (basenm g)) (a ++ g :: b) = true).
  { apply later_iff. exists g. split; [apply in_or_app; right; left; reflexivity|congruence]. }
  congruence.
Qed.
