From Coq Require Import List String Ascii NArith ZArith Bool Lia ZifyBool ZifyNat.
From Verif Require Import CStr CStrLib NameProof TtyModel TtySpec.
Import ListNotations.

(** ** Words *)
Definition has (n : cstr) (l : list cstr) : bool := existsb (fun w => str_eqb w n) l.
Lemma has_iff n l : has n l = true <-> In n l.
Proof.
  unfold has. rewrite existsb_exists. split.
  - intros [w [I E]]. apply str_eqb_eq in E. subst. exact I.
  - intros I. exists n. split; [exact I|apply str_eqb_refl].
Qed.
Lemma word_flags W t w : let t' := tty_word W t w in
  t_noclear t' = t_noclear t || str_eqb w #"noclear" /\ t_nowait t' = t_nowait t || str_eqb w #"nowait" /\
  t_nologin t' = t_nologin t || str_eqb w #"nologin" /\ t_notty t' = t_notty t || str_eqb w #"notty" /\
  t_rescue t' = t_rescue t || str_eqb w #"rescue" /\ t_passenv t' = t_passenv t || str_eqb w #"passenv".
Proof.
  destruct t as [c a nc nw nl nt rs pe]. cbn zeta. unfold tty_word.
  destruct (str_eqb w #"noclear") eqn:E1; [apply str_eqb_eq in E1; subst w; cbn; rewrite ?orb_true_r, ?orb_false_r; auto 7|].
  destruct (str_eqb w #"nowait") eqn:E2; [apply str_eqb_eq in E2; subst w; cbn; rewrite ?orb_true_r, ?orb_false_r; auto 7|].
  destruct (str_eqb w #"nologin") eqn:E3; [apply str_eqb_eq in E3; subst w; cbn; rewrite ?orb_true_r, ?orb_false_r; auto 7|].
  destruct (str_eqb w #"notty") eqn:E4; [apply str_eqb_eq in E4; subst w; cbn; rewrite ?orb_true_r, ?orb_false_r; auto 7|].
  destruct (str_eqb w #"passenv") eqn:E5; [apply str_eqb_eq in E5; subst w; cbn; rewrite ?orb_true_r, ?orb_false_r; auto 7|].
  destruct (str_eqb w #"rescue") eqn:E6; [apply str_eqb_eq in E6; subst w; cbn; rewrite ?orb_true_r, ?orb_false_r; auto 7|].
  rewrite !orb_false_r. destruct c as [c|]; [cbn; auto 7|]. destruct (which W w); cbn; auto 7.
Qed.
Lemma fold_flags W l : forall t, let t' := fold_left (tty_word W) l t in
  t_noclear t' = t_noclear t || has #"noclear" l /\ t_nowait t' = t_nowait t || has #"nowait" l /\
  t_nologin t' = t_nologin t || has #"nologin" l /\ t_notty t' = t_notty t || has #"notty" l /\
  t_rescue t' = t_rescue t || has #"rescue" l /\ t_passenv t' = t_passenv t || has #"passenv" l.
Proof.
  induction l as [|w l IH]; intros t; cbn zeta in *; [cbn [fold_left has existsb]; rewrite !orb_false_r; auto 7|].
  cbn [fold_left]. destruct (IH (tty_word W t w)) as [H1 [H2 [H3 [H4 [H5 H6]]]]]. rewrite H1, H2, H3, H4, H5, H6.
  destruct (word_flags W t w) as [G1 [G2 [G3 [G4 [G5 G6]]]]]. rewrite G1, G2, G3, G4, G5, G6.
  unfold has. cbn [existsb]. rewrite <- !orb_assoc. auto 7.
Qed.

Fixpoint pick (W : ttyworld) (c : option cstr) (a r : list cstr) : option cstr * list cstr :=
  match r with
  | [] => (c, a)
  | w :: r => match c with
              | None => if which W w then pick W (Some w) a r else pick W c (a ++ [w]) r
              | Some _ => pick W c (a ++ [w]) r
              end
  end.
Lemma word_opt W t w : In w options -> t_cmd (tty_word W t w) = t_cmd t /\ t_args (tty_word W t w) = t_args t.
Proof.
  intros I. destruct t as [c a nc nw nl nt rs pe]. repeat (destruct I as [<-|I]; [cbn; auto|]). destruct I.
Qed.
Lemma word_plain W t w : ~ In w options -> t_cmd (tty_word W t w) = fst (pick W (t_cmd t) (t_args t) [w]) /\
  t_args (tty_word W t w) = snd (pick W (t_cmd t) (t_args t) [w]).
Proof.
  intros N. assert (E : forall o, In o options -> str_eqb w o = false).
  { intros o I. destruct (str_eqb w o) eqn:E; [|reflexivity]. apply str_eqb_eq in E. subst. contradiction. }
  destruct t as [c a nc nw nl nt rs pe]. unfold tty_word. rewrite !E by (unfold options; cbn [In]; auto 7).
  cbn [t_cmd t_args pick]. destruct c as [c|]; [cbn; auto|]. destruct (which W w); cbn; auto.
Qed.
Lemma pick_cons W c a w r : pick W c a (w :: r) = pick W (fst (pick W c a [w])) (snd (pick W c a [w])) r.
Proof. cbn [pick]. destruct c as [c|]; [reflexivity|]. destruct (which W w); reflexivity. Qed.
Lemma fold_pick W l r : plain l r -> forall t, t_cmd (fold_left (tty_word W) l t) = fst (pick W (t_cmd t) (t_args t) r) /\
  t_args (fold_left (tty_word W) l t) = snd (pick W (t_cmd t) (t_args t) r).
Proof.
  induction 1 as [|w l r I H IH|w l r N H IH]; intros t.
  - auto.
  - cbn [fold_left]. destruct (IH (tty_word W t w)) as [-> ->]. destruct (word_opt W t w I) as [-> ->]. auto.
  - cbn [fold_left]. destruct (IH (tty_word W t w)) as [-> ->]. destruct (word_plain W t w N) as [-> ->]. rewrite <- pick_cons. auto.
Qed.
Lemma pick_some W c r : forall a, pick W (Some c) a r = (Some c, a ++ r).
Proof. induction r as [|w r IH]; intros a; cbn [pick]; [rewrite app_nil_r; reflexivity|]. rewrite IH, <- app_assoc. reflexivity. Qed.
Lemma pick_own W r : forall a, Forall (fun w => which W w = false) r -> pick W None a r = (None, a ++ r).
Proof.
  induction r as [|w r IH]; intros a H; cbn [pick]; [rewrite app_nil_r; reflexivity|]. inversion H; subst. rewrite H2, IH by assumption.
  rewrite <- app_assoc. reflexivity.
Qed.
Lemma pick_ext W p c b : forall a, Forall (fun w => which W w = false) p -> which W c = true -> pick W None a (p ++ c :: b) = (Some c, a ++ p ++ b).
Proof.
  induction p as [|w p IH]; intros a H Hc; cbn [pick app].
  - rewrite Hc. apply pick_some.
  - inversion H; subst. rewrite H2, IH by assumption. rewrite <- app_assoc. reflexivity.
Qed.
Lemma word_length W t w : (List.length (t_args (tty_word W t w)) <= S (List.length (t_args t)))%nat.
Proof.
  destruct (in_dec (list_eq_dec ascii_dec) w options) as [I|N].
  - destruct (word_opt W t w I) as [_ ->]. lia.
  - destruct (word_plain W t w N) as [_ ->]. cbn [pick]. destruct (t_cmd t); [|destruct (which W w)]; cbn [snd]; rewrite ?app_length; cbn; lia.
Qed.
Lemma words_fold W l : forall t, (List.length (t_args t) + List.length l <= maxargs)%nat -> tty_words W t l = fold_left (tty_word W) l t.
Proof.
  induction l as [|w l IH]; intros t H; [reflexivity|]. cbn [tty_words fold_left]. pose proof (word_length W t w) as L. cbn [List.length] in H.
  destruct (Nat.ltb_spec (List.length (t_args (tty_word W t w))) maxargs) as [X|X].
  - apply IH. lia.
  - destruct l; [reflexivity|]. cbn [List.length] in H. lia.
Qed.

(** ** Devices *)
Lemma names_dev_iff w : names_dev w = true <-> device w.
Proof.
  unfold names_dev, device. rewrite !orb_true_iff, !str_eqb_eq, !starts_iff. split.
  - intros [[[H|[r H]]|[r H]]|H]; auto; right; right; exists r; auto.
  - intros [H|[H|[r [H|H]]]]; auto; left; [left|]; right; exists r; exact H.
Qed.
Lemma find_dev a d : first_device a d -> find names_dev a = Some d.
Proof.
  intros [p x q N D]. induction N as [|w p Nw N IH]; cbn [app find].
  - apply names_dev_iff in D. rewrite D. reflexivity.
  - destruct (names_dev w) eqn:E; [apply names_dev_iff in E; contradiction|]. exact IH.
Qed.
Lemma canon W d devs : means W d devs -> (List.length d < 75)%nat ->
  exists c, canonicalize W d = Some c /\ (c = #"@console" /\ devs = consoles W \/ c <> #"@console" /\ devs = [c]).
Proof.
  intros M L. destruct M as [|r N|n N C P N2].
  - exists #"@console". auto.
  - exists (#"/dev/" ++ r). unfold canonicalize. change (str_eqb (#"/dev/" ++ r) #"@console") with false. cbv iota zeta.
    rewrite strlcpy_id by lia. rewrite starts_app. split; [destruct (node W (#"/dev/" ++ r)) as [[]|]; [reflexivity|destruct (N eq_refl)|reflexivity]|].
    right. split; [discriminate|reflexivity].
  - exists (#"/dev/" ++ n). unfold canonicalize. destruct (str_eqb n #"@console") eqn:E; [apply str_eqb_eq in E; contradiction|]. cbv iota zeta.
    rewrite (strlcpy_id 80 n) by lia. rewrite N. destruct (starts #"/dev/" n) eqn:S; [apply starts_iff in S as [r ->]; destruct (P r eq_refl)|].
    assert (L5 : (List.length (#"/dev/" ++ n) < 80)%nat) by (rewrite app_length; change (List.length #"/dev/") with 5%nat; lia).
    rewrite strlcpy_id by exact L5. split; [destruct (node W (#"/dev/" ++ n)) as [[]|]; [reflexivity|destruct (N2 eq_refl)|reflexivity]|].
    right. split; [discriminate|reflexivity].
Qed.

Lemma base p n : In p [[]; #"/dev/"; #"/dev/pts/"] -> ~ In "/"%char n -> match strrchr "/" (p ++ n) with Some (_, x) => x | None => p ++ n end = n.
Proof.
  intros I N. destruct I as [<-|[<-|[<-|[]]]].
  - cbn [app]. rewrite (proj2 (strrchr_none "/" n) N). reflexivity.
  - replace (strrchr "/" (#"/dev/" ++ n)) with (Some (#"/dev", n)); [reflexivity|]. symmetry. apply strrchr_some. auto.
  - replace (strrchr "/" (#"/dev/pts/" ++ n)) with (Some (#"/dev/pts", n)); [reflexivity|]. symmetry. apply strrchr_some. auto.
Qed.
Lemma id_right dev n : id_of dev n -> tty_id dev = n.
Proof.
  intros H. unfold tty_id. destruct H as [p n I N T|p n I N].
  - rewrite base by assumption. destruct (starts #"tty" n) eqn:E; [|reflexivity]. apply starts_iff in E as [r ->]. destruct (T r eq_refl).
  - rewrite base; [rewrite starts_app; reflexivity|exact I|]. intros J. apply in_app_or in J as [J|J]; [|contradiction].
    repeat (destruct J as [J|J]; [discriminate|]). exact J.
Qed.

(** ** The stanza *)
Lemma negb_has n l : negb (has n l) = true <-> ~ In n l.
Proof. rewrite negb_true_iff. rewrite <- has_iff. destruct (has n l); split; intros H; congruence || auto. Qed.
Lemma one_right l cmd args id dev t : (List.length dev < 32)%nat -> t_cmd t = Some cmd -> t_args t = args ->
  t_noclear t = has #"noclear" l -> t_nowait t = has #"nowait" l -> t_nologin t = has #"nologin" l ->
  svc_right l cmd args (tty_one id dev t) /\ s_dev (tty_one id dev t) = dev.
Proof.
  intros L C A N1 N2 N3. unfold tty_one, svc_right. cbn [s_cmd s_argv s_dev s_clear s_wait s_login].
  rewrite C, A, N1, N2, N3, strlcpy_id by exact L. rewrite !negb_has. tauto.
Qed.
Lemma dash_p args d : first_device (#"-p" :: args) d -> first_device args d.
Proof.
  intros H. inversion H as [a x b N D E]. destruct a as [|y a]; cbn [app] in E; inversion E; subst.
  - exfalso. destruct D as [D|[D|[r [D|D]]]]; discriminate.
  - inversion N; subst. constructor; assumption.
Qed.
Lemma parsed W l r cmd args d c : (List.length l < 64)%nat -> plain l r -> ~ In #"notty" l -> ~ In #"rescue" l ->
  runs W (In #"passenv" l) r cmd args -> first_device args d -> canonicalize W d = Some c ->
  exists t, tty_parse W l = Some (Some c, t) /\ t_cmd t = Some cmd /\ t_args t = args /\
    t_noclear t = has #"noclear" l /\ t_nowait t = has #"nowait" l /\ t_nologin t = has #"nologin" l.
Proof.
  intros L P N1 N2 R F C. unfold tty_parse. rewrite words_fold by (cbn [t_args tty0 List.length]; unfold maxargs; lia).
  destruct (fold_flags W l tty0) as [H1 [H2 [H3 [H4 [H5 H6]]]]]. destruct (fold_pick W l r P tty0) as [Hc Ha].
  assert (La : (List.length (t_args (fold_left (tty_word W) l tty0)) < 64)%nat).
  { clear - L. assert (forall t, (List.length (t_args (fold_left (tty_word W) l t)) <= List.length (t_args t) + List.length l)%nat) as A.
    { induction l as [|w l IH]; intros t; cbn [fold_left List.length]; [lia|]. cbn [List.length] in L. specialize (IH ltac:(lia) (tty_word W t w)). pose proof (word_length W t w). lia. }
    specialize (A tty0). cbn [tty0 t_args List.length] in A. lia. }
  destruct (fold_left (tty_word W) l tty0) as [c0 a nc nw nl nt rs pe]. cbn [t_cmd t_args t_noclear t_nowait t_nologin t_notty t_rescue t_passenv tty0 orb] in *.
  assert (X4 : has #"notty" l = false) by (destruct (has #"notty" l) eqn:E; [apply has_iff in E; contradiction|reflexivity]).
  assert (X5 : has #"rescue" l = false) by (destruct (has #"rescue" l) eqn:E; [apply has_iff in E; contradiction|reflexivity]).
  rewrite H4, H5, X4, X5. cbn [orb]. destruct R as [p x b Hp Hx|r Hr E|r Hr E].
  - rewrite pick_ext in Hc, Ha by assumption. cbn [fst snd app] in Hc, Ha. subst c0 a. rewrite (find_dev _ _ F), C.
    eexists. split; [reflexivity|]. cbn. auto.
  - rewrite pick_own in Hc, Ha by assumption. cbn [fst snd app] in Hc, Ha. subst c0 a. rewrite (find_dev _ _ F), C.
    assert (pe = false) as -> by (rewrite H6; destruct (has #"passenv" l) eqn:Q; [apply has_iff in Q; contradiction|reflexivity]).
    eexists. split; [reflexivity|]. cbn. auto.
  - rewrite pick_own in Hc, Ha by assumption. cbn [fst snd app] in Hc, Ha. subst c0 a. apply dash_p in F. rewrite (find_dev _ _ F), C.
    assert (pe = true) as -> by (rewrite H6; apply has_iff, E).
    assert (Lb : Nat.ltb (List.length r) maxargs = true) by (apply Nat.ltb_lt; exact La). rewrite Lb. eexists. split; [reflexivity|]. cbn. auto.
Qed.
Lemma starts_right W id l r cmd args d devs : (List.length l < 64)%nat -> plain l r -> ~ In #"notty" l -> ~ In #"rescue" l ->
  runs W (In #"passenv" l) r cmd args -> first_device args d -> means W d devs ->
  (List.length d < 75)%nat -> Forall (fun x => (List.length x < 32)%nat) devs ->
  exists ss, tty_register W id l = Some ss /\ map s_dev ss = devs /\ Forall (svc_right l cmd args) ss /\
    forall s n, In s ss -> id = [] -> id_of (s_dev s) n -> s_id s = n.
Proof.
  intros L P N1 N2 R F M Ld Ls. destruct (canon W d devs M Ld) as [c [C D]].
  destruct (parsed W l r cmd args d c L P N1 N2 R F C) as [t [E [Tc [Ta [T1 [T2 T3]]]]]].
  unfold tty_register. rewrite E.
  assert (I1 : forall dev s n, s = tty_one [] dev t -> (List.length dev < 32)%nat -> id_of (s_dev s) n -> s_id s = n).
  { intros dev s n -> Lx Hi. unfold tty_one in *. cbn [s_id s_dev] in *. rewrite strlcpy_id in Hi by exact Lx. apply id_right, Hi. }
  destruct D as [[-> ->]|[Nc ->]].
  - rewrite str_eqb_refl. destruct (consoles W) as [|x xs]; [exists []; repeat split; [constructor|intros s n []]|].
    eexists. split; [reflexivity|]. inversion Ls as [|? ? Lx Lxs]; subst. split; [|split].
    + cbn [map]. f_equal; [apply (one_right l (match t_cmd t with Some c => c | None => [] end) (t_args t) id x t Lx); auto; rewrite Tc; reflexivity|].
      rewrite map_map. clear - Lxs Tc. induction Lxs as [|y ys Ly Lys IH]; [reflexivity|]. cbn [map]. rewrite IH. f_equal. unfold tty_one. cbn [s_dev]. apply strlcpy_id, Ly.
    + constructor; [apply one_right; auto|]. apply Forall_forall. intros s I. apply in_map_iff in I as [y [<- I]]. rewrite Forall_forall in Lxs. apply one_right; auto.
    + intros s n I -> Hi. rewrite Forall_forall in Lxs. destruct I as [<-|I]; [exact (I1 x _ n eq_refl Lx Hi)|].
      apply in_map_iff in I as [y [<- I]]. exact (I1 y _ n eq_refl (Lxs _ I) Hi).
  - destruct (str_eqb c #"@console") eqn:Q; [apply str_eqb_eq in Q; contradiction|]. inversion Ls as [|? ? Lx _]; subst.
    eexists. split; [reflexivity|]. destruct (one_right l cmd (t_args t) id c t Lx Tc eq_refl T1 T2 T3) as [A B]. split; [cbn [map]; rewrite B; reflexivity|].
    split; [constructor; [exact A|constructor]|]. intros s n [<-|[]] -> Hi. exact (I1 c _ n eq_refl Lx Hi).
Qed.
Lemma refused W id l r cmd args : (List.length l < 64)%nat -> plain l r -> ~ In #"notty" l -> ~ In #"rescue" l ->
  runs W (In #"passenv" l) r cmd args -> Forall (fun w => ~ device w) args -> tty_register W id l = None.
Proof.
  intros L P N1 N2 R F. unfold tty_register, tty_parse. rewrite words_fold by (cbn [t_args tty0 List.length]; unfold maxargs; lia).
  destruct (fold_flags W l tty0) as [H1 [H2 [H3 [H4 [H5 H6]]]]]. destruct (fold_pick W l r P tty0) as [Hc Ha].
  destruct (fold_left (tty_word W) l tty0) as [c0 a nc nw nl nt rs pe]. cbn [t_cmd t_args t_noclear t_nowait t_nologin t_notty t_rescue t_passenv tty0 orb] in *.
  assert (X4 : has #"notty" l = false) by (destruct (has #"notty" l) eqn:E; [apply has_iff in E; contradiction|reflexivity]).
  assert (X5 : has #"rescue" l = false) by (destruct (has #"rescue" l) eqn:E; [apply has_iff in E; contradiction|reflexivity]).
  rewrite H4, H5, X4, X5. cbn [orb].
  assert (Fa : find names_dev a = None); [|rewrite Fa; reflexivity].
  assert (G : Forall (fun w => ~ device w) a).
  { destruct R as [p x b Hp Hx|r Hr E|r Hr E].
    - rewrite pick_ext in Ha by assumption. subst a. exact F.
    - rewrite pick_own in Ha by assumption. subst a. exact F.
    - rewrite pick_own in Ha by assumption. subst a. inversion F. assumption. }
  clear - G. induction G as [|w a Nw G IH]; [reflexivity|]. cbn [find]. destruct (names_dev w) eqn:E; [apply names_dev_iff in E; contradiction|exact IH].
Qed.
