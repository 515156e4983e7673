(** Proofs about maintenance mode. *)
From Coq Require Import List String Ascii NArith ZArith Bool Lia Arith.
From Verif Require Import CStr CStrLib GetModel SulModel SulSpec.
Import ListNotations.

Lemma no_colon s : ~ In ":"%char s -> Forall (fun c => ch_eqb c ":" = false) s.
Proof. intros H. apply Forall_forall. intros c I. apply ch_eqb_neq. intros ->. exact (H I). Qed.
Lemma field_some a b : ~ In ":"%char a -> field (a ++ ":"%char :: b) = (a, Some b).
Proof. intros H. unfold field. rewrite cut_app; [reflexivity|apply no_colon, H|reflexivity]. Qed.
Lemma field_none a : ~ In ":"%char a -> field a = (a, None).
Proof. intros H. unfold field. rewrite cut_none by (apply no_colon, H). reflexivity. Qed.
Lemma field_account l n p : account l n p -> exists b, field l = (n, Some b) /\ fst (field b) = p /\ exists r, b = p ++ ":"%char :: r.
Proof.
  intros [n' p' r N P]. exists (p' ++ ":"%char :: r). rewrite field_some by exact N. split; [reflexivity|].
  rewrite field_some by exact P. split; [reflexivity|eauto].
Qed.
Lemma scan_root P p : root_in P p -> forall n, scan_passwd n P = (Some #"root", match p with c :: _ => if ch_eqb c "x" then None else Some p | [] => Some p end).
Proof.
  intros [a l p' b A L]. induction A as [|x a (n' & q & X & N) _ IH]; intros n; cbn [app scan_passwd].
  - destruct (field_account _ _ _ L) as (r & -> & E & _). cbv iota beta.
    change (str_eqb #"root" #"root") with true. cbv iota beta zeta. rewrite E. reflexivity.
  - destruct (field_account _ _ _ X) as (r & -> & _). destruct (str_eqb n' #"root") eqn:E; [apply str_eqb_eq in E; contradiction|]. apply IH.
Qed.
Lemma colon_end p r : p ++ ":"%char :: r <> #"root".
Proof.
  intros E. assert (X : In ":"%char #"root") by (rewrite <- E; apply in_or_app; right; left; reflexivity).
  cbn in X. intuition discriminate.
Qed.
Lemma scan_first l S n p : account l n p -> scan_shadow #"root" (l :: S) = SPass p.
Proof.
  intros A. destruct (field_account _ _ _ A) as (b & E & F & r & B). cbn [scan_shadow]. rewrite E.
  destruct (str_eqb b #"root") eqn:X; [apply str_eqb_eq in X; subst b; exfalso; exact (colon_end _ _ X)|]. rewrite F. reflexivity.
Qed.
Lemma pass_x P S x : root_in P ("x"%char :: x) -> get_passwd (Some P) (Some S) = match scan_shadow #"root" S with SNone => CFail | SCrash => CCrash | SPass p => Creds #"root" p end.
Proof. intros H. unfold get_passwd. rewrite (scan_root _ _ H). reflexivity. Qed.
Lemma pass_ok P S p : root_pass P S p -> get_passwd (Some P) (Some S) = Creds #"root" p.
Proof.
  intros [P' S' p' R N|P' l S' x p' R A].
  - unfold get_passwd. rewrite (scan_root _ _ R). destruct p' as [|c r]; [reflexivity|].
    destruct (ch_eqb c "x") eqn:E; [|reflexivity]. apply ch_eqb_eq in E. subst c. exfalso. exact (N r eq_refl).
  - rewrite (pass_x _ _ _ R), (scan_first _ _ _ _ A). reflexivity.
Qed.
Lemma real_asked crypt tty P S p input : get_passwd P S = Creds #"root" p -> real p ->
  sulogin crypt tty P S input = if tty then ask crypt p [] input else Exit 1.
Proof.
  intros G (c & r & -> & A & B). unfold sulogin. rewrite G.
  rewrite (proj2 (ch_eqb_neq c "*") A), (proj2 (ch_eqb_neq c "!") B). reflexivity.
Qed.

Lemma upto_id s : ~ In nul s -> upto s = s.
Proof.
  induction s as [|c s IH]; [reflexivity|]. intros H. cbn [upto]. destruct (Ascii.eqb_spec c nul) as [->|N]; [exfalso; apply H; left; reflexivity|].
  rewrite IH; [reflexivity|]. intros X. apply H. right. exact X.
Qed.
Lemma right_iff crypt h s : right crypt h s = true <-> opens crypt h (upto s).
Proof.
  unfold right, opens. destruct (crypt (upto s) h) as [x|]; [|split; discriminate].
  rewrite str_eqb_eq. split; congruence.
Qed.
Lemma line_chars s : typed_line s -> ~ In nul s.
Proof. intros H I. unfold typed_line in H. rewrite Forall_forall in H. destruct (H _ I) as (_ & _ & _ & X). exact (X eq_refl). Qed.
(** what is typed goes into the buffer *)
Lemma ask_fill crypt h s r : forall buf, typed_line s -> List.length buf + List.length s < 255 -> ask crypt h buf (s ++ r) = ask crypt h (buf ++ s) r.
Proof.
  induction s as [|c s IH]; intros buf T L; [rewrite app_nil_r; reflexivity|].
  inversion T as [|? ? (A & B & C & _) T']; subst. cbn [app ask].
  rewrite (proj2 (Ascii.eqb_neq _ _) A), (proj2 (Ascii.eqb_neq _ _) B), (proj2 (Ascii.eqb_neq _ _) C). cbn [orb].
  cbn [List.length] in L.
  assert (X : Nat.ltb (List.length (buf ++ [c]) + 1) 256 = true) by (apply Nat.ltb_lt; rewrite app_length; cbn [List.length]; lia).
  rewrite X. rewrite IH; [rewrite <- app_assoc; reflexivity|exact T'|]. rewrite app_length. cbn [List.length]. lia.
Qed.
Lemma ask_end crypt h buf e r : ends e -> ask crypt h buf (e :: r) = if right crypt h buf then Shell else ask crypt h [] r.
Proof. intros [->| ->]; reflexivity. Qed.
Lemma ask_wrong crypt h w r : wrong crypt h w -> ask crypt h [] (w ++ r) = ask crypt h [] r.
Proof.
  induction 1 as [|s e w T L N E _ IH]; [reflexivity|]. rewrite <- app_assoc. cbn [app].
  rewrite ask_fill; [|exact T|cbn [List.length]; lia]. cbn [app]. rewrite ask_end by exact E.
  destruct (right crypt h s) eqn:R; [|exact IH]. apply right_iff in R. rewrite upto_id in R by (apply line_chars, T). contradiction.
Qed.
Lemma ask_opens crypt h w s e r : wrong crypt h w -> typed_line s -> List.length s < 255 -> opens crypt h s -> ends e ->
  ask crypt h [] (w ++ s ++ e :: r) = Shell.
Proof.
  intros W T L O E. rewrite ask_wrong by exact W. rewrite ask_fill; [|exact T|cbn [List.length]; lia]. cbn [app]. rewrite ask_end by exact E.
  assert (R : right crypt h s = true) by (apply right_iff; rewrite upto_id by (apply line_chars, T); exact O). rewrite R. reflexivity.
Qed.
Lemma ask_leave crypt h w s r : wrong crypt h w -> typed_line s -> List.length s < 255 ->
  ask crypt h [] (w ++ s ++ ctrl_d :: r) = Exit 0 /\ ask crypt h [] (w ++ s) = Exit 0.
Proof.
  intros W T L. rewrite (ask_wrong crypt h w (s ++ ctrl_d :: r) W), (ask_wrong crypt h w s W). rewrite (ask_fill crypt h s (ctrl_d :: r) []) by (exact T || (cbn [List.length]; lia)).
  replace (ask crypt h [] s) with (ask crypt h [] (s ++ [])) by (rewrite app_nil_r; reflexivity).
  rewrite (ask_fill crypt h s [] []) by (exact T || (cbn [List.length]; lia)). split; reflexivity.
Qed.
(** no shell without the right password *)
Lemma ask_shell crypt h input : forall buf, ask crypt h buf input = Shell ->
  exists a s b, buf ++ input = a ++ s ++ b /\ ~ In ctrl_d (firstn (List.length (a ++ s) - List.length buf) input) /\ opens crypt h (upto s).
Proof.
  induction input as [|c r IH]; intros buf H; cbn [ask] in H; [discriminate|].
  destruct (Ascii.eqb c newline || Ascii.eqb c return_) eqn:E.
  - assert (ND : c <> ctrl_d) by (intros ->; discriminate).
    destruct (right crypt h buf) eqn:R.
    + exists [], buf, (c :: r). split; [reflexivity|]. cbn [app]. rewrite Nat.sub_diag. split; [intros []|apply right_iff, R].
    + destruct (IH [] H) as (a & s & b & A & D & O). exists (buf ++ c :: a), s, b. cbn [app] in A.
      split; [rewrite A, <- app_assoc; reflexivity|]. split; [|exact O].
      replace (List.length ((buf ++ c :: a) ++ s) - List.length buf) with (S (List.length (a ++ s))) by (rewrite !app_length; cbn [List.length]; lia).
      cbn [firstn]. cbn [List.length] in D. rewrite Nat.sub_0_r in D. intros [X|X]; [exact (ND X)|exact (D X)].
  - destruct (Ascii.eqb c ctrl_d) eqn:D0; [discriminate|]. apply Ascii.eqb_neq in D0.
    destruct (Nat.ltb (List.length (buf ++ [c]) + 1) 256).
    + destruct (IH _ H) as (a & s & b & A & D & O). rewrite <- app_assoc in A. cbn [app] in A. exists a, s, b. split; [exact A|]. split; [|exact O].
      rewrite (app_length buf [c]) in D. cbn [List.length] in D.
      destruct (List.length (a ++ s) - List.length buf) as [|k] eqn:K; [intros []|].
      replace (List.length (a ++ s) - (List.length buf + 1)) with k in D by lia. cbn [firstn]. intros [X|X]; [exact (D0 X)|exact (D X)].
    + destruct (right crypt h (buf ++ [c])) eqn:R.
      * exists [], (buf ++ [c]), r. split; [cbn [app]; rewrite <- app_assoc; reflexivity|]. split; [|apply right_iff, R].
        cbn [app]. rewrite app_length. cbn [List.length]. replace (List.length buf + 1 - List.length buf) with 1 by lia. cbn [firstn].
        intros [X|[]]. exact (D0 X).
      * destruct (IH [] H) as (a & s & b & A & D & O). exists (buf ++ c :: a), s, b. cbn [app] in A.
        split; [rewrite A, <- app_assoc; reflexivity|]. split; [|exact O].
        replace (List.length ((buf ++ c :: a) ++ s) - List.length buf) with (S (List.length (a ++ s))) by (rewrite !app_length; cbn [List.length]; lia).
        cbn [firstn]. cbn [List.length] in D. rewrite Nat.sub_0_r in D. intros [X|X]; [exact (D0 X)|exact (D X)].
Qed.

Lemma shell_only_ok crypt tty P S p input : root_pass P S p -> real p -> sulogin crypt tty (Some P) (Some S) input = Shell ->
  exists a s b, input = a ++ s ++ b /\ ~ In ctrl_d (a ++ s) /\ opens crypt p (upto s).
Proof.
  intros R N H. rewrite (real_asked _ _ _ _ _ _ (pass_ok _ _ _ R) N) in H. destruct tty; [|discriminate].
  destruct (ask_shell _ _ _ _ H) as (a & s & b & A & D & O). exists a, s, b. split; [exact A|]. split; [|exact O].
  cbn [app] in A. rewrite A, app_assoc in D. cbn [List.length] in D. rewrite Nat.sub_0_r, firstn_app, Nat.sub_diag, firstn_all, app_nil_r in D. exact D.
Qed.
Lemma shell_given_ok crypt P S p w s e r : root_pass P S p -> real p -> wrong crypt p w -> typed_line s -> List.length s < 255 -> opens crypt p s -> ends e ->
  sulogin crypt true (Some P) (Some S) (w ++ s ++ e :: r) = Shell.
Proof.
  intros R N W T L O E. rewrite (real_asked _ _ _ _ _ _ (pass_ok _ _ _ R) N). apply ask_opens; assumption.
Qed.
Lemma left_ok crypt P S p w s r : root_pass P S p -> real p -> wrong crypt p w -> typed_line s -> List.length s < 255 ->
  sulogin crypt true (Some P) (Some S) (w ++ s ++ ctrl_d :: r) = Exit 0 /\ sulogin crypt true (Some P) (Some S) (w ++ s) = Exit 0.
Proof.
  intros R N W T L. rewrite !(real_asked _ _ _ _ _ _ (pass_ok _ _ _ R) N). apply ask_leave; assumption.
Qed.
Lemma locked_ok crypt tty P S p input : root_pass P S p -> ~ real p ->
  (sulogin crypt tty (Some P) (Some S) input = Shell <-> exists c r, input = c :: r /\ c <> ctrl_d) /\
  (sulogin crypt tty (Some P) (Some S) input = Shell \/ sulogin crypt tty (Some P) (Some S) input = Exit 0).
Proof.
  intros R N. unfold sulogin. rewrite (pass_ok _ _ _ R).
  replace (match p with [] => true | c :: _ => ch_eqb c "*" || ch_eqb c "!" end) with true.
  - destruct input as [|c r]; [split; [split; [discriminate|intros (c & r & X & _); discriminate]|right; reflexivity]|].
    destruct (Ascii.eqb_spec c ctrl_d) as [->|D].
    + split; [split; [discriminate|]|right; reflexivity]. intros (c & s & X & Y). injection X as <- _. congruence.
    + split; [split; [intros _; exists c, r; auto|reflexivity]|left; reflexivity].
  - destruct p as [|c r]; [reflexivity|]. symmetry. apply orb_true_iff. rewrite !ch_eqb_eq.
    destruct (Ascii.eqb_spec c "*") as [X|X]; [left; exact X|]. destruct (Ascii.eqb_spec c "!") as [Y|Y]; [right; exact Y|].
    exfalso. apply N. exists c, r. auto.
Qed.
(** ** What goes wrong *)
Lemma other_ok crypt P S x l u h w s e r : root_in P ("x"%char :: x) -> account l u h -> real h ->
  wrong crypt h w -> typed_line s -> List.length s < 255 -> opens crypt h s -> ends e ->
  sulogin crypt true (Some P) (Some (l :: S)) (w ++ s ++ e :: r) = Shell.
Proof.
  intros R A N W T L O E. rewrite (real_asked crypt true _ _ h); [apply ask_opens; assumption| |exact N].
  rewrite (pass_x _ _ _ R), (scan_first _ _ _ _ A). reflexivity.
Qed.
Lemma open_ok crypt tty P S x l u h e r : root_in P ("x"%char :: x) -> account l u h -> ~ real h -> ends e ->
  sulogin crypt tty (Some P) (Some (l :: S)) (e :: r) = Shell.
Proof.
  intros R A N E. unfold sulogin. rewrite (pass_x _ _ _ R), (scan_first _ _ _ _ A).
  replace (match h with [] => true | c :: _ => ch_eqb c "*" || ch_eqb c "!" end) with true.
  - destruct E as [->| ->]; reflexivity.
  - destruct h as [|c s]; [reflexivity|]. symmetry. apply orb_true_iff. rewrite !ch_eqb_eq.
    destruct (Ascii.eqb_spec c "*") as [X|X]; [left; exact X|]. destruct (Ascii.eqb_spec c "!") as [Y|Y]; [right; exact Y|].
    exfalso. apply N. exists c, s. auto.
Qed.
Lemma crash_ok crypt tty P S x l input : root_in P ("x"%char :: x) -> ~ In ":"%char l -> sulogin crypt tty (Some P) (Some (l :: S)) input = Crash.
Proof.
  intros R N. unfold sulogin. rewrite (pass_x _ _ _ R). cbn [scan_shadow]. rewrite field_none by exact N. reflexivity.
Qed.
Lemma none_ok crypt tty P S input : P = None \/ P = Some [] \/ (exists l x, P = Some l /\ root_in l ("x"%char :: x) /\ (S = None \/ S = Some [])) ->
  sulogin crypt tty P S input = Exit 1.
Proof.
  intros [->|[->|(l & x & -> & R & H)]]; [reflexivity|reflexivity|]. unfold sulogin, get_passwd.
  rewrite (scan_root _ _ R None). destruct H as [->| ->]; reflexivity.
Qed.
