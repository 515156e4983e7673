(** More about the configuration parsers: resolving paths, quoted arguments,
    environment keys. *)
From Coq Require Import List String Ascii NArith ZArith Bool Lia Arith ZifyBool ZifyN.
From Verif Require Import CStr ParseModel ParseSpec CStrLib ParseProof ParseProofB ParseProofC ParseProofD.
Import ListNotations.

(** ** de_dotdot follows the components *)
Definition noslash (c : cstr) : Prop := ~ In "/"%char c.
Lemma ns_dot : noslash #".".
Proof. unfold noslash. cbn. intuition discriminate. Qed.
Lemma ns_up : noslash #"..".
Proof. unfold noslash. cbn. intuition discriminate. Qed.
Lemma slashed_cons c cs : cs <> [] -> slashed (c :: cs) = c ++ "/"%char :: slashed cs.
Proof. destruct cs; [congruence|reflexivity]. Qed.
Lemma slash_inj c d s r : noslash c -> noslash d -> c ++ "/"%char :: s = d ++ "/"%char :: r -> c = d /\ s = r.
Proof.
  intros Hc Hd E.
  assert (A : strchr "/" (c ++ "/"%char :: s) = Some (c, s)) by (apply strchr_some; auto).
  assert (B : strchr "/" (d ++ "/"%char :: r) = Some (d, r)) by (apply strchr_some; auto).
  rewrite E, B in A. inversion A. auto.
Qed.
Lemma starts_comp d c s : noslash d -> noslash c -> starts (d ++ #"/") (c ++ "/"%char :: s) = str_eqb c d.
Proof.
  intros Hd Hc. destruct (str_eqb c d) eqn:E.
  - apply str_eqb_eq in E. subst. apply starts_iff. exists s. rewrite <- app_assoc. reflexivity.
  - destruct (starts _ _) eqn:F; [|reflexivity]. apply starts_iff in F. destruct F as [r F]. rewrite <- app_assoc in F.
    apply slash_inj in F; [|exact Hc|exact Hd]. destruct F as [-> _]. rewrite str_eqb_refl in E. discriminate.
Qed.
Lemma starts_last d c : noslash c -> starts (d ++ #"/") c = false.
Proof.
  intros Hc. destruct (starts _ _) eqn:F; [|reflexivity]. apply starts_iff in F. destruct F as [r ->]. exfalso. apply Hc.
  rewrite <- app_assoc. apply in_or_app. right. left. reflexivity.
Qed.
Lemma starts_slashed d c cs : noslash d -> noslash c ->
  starts (d ++ #"/") (slashed (c :: cs)) = match cs with [] => false | _ => str_eqb c d end.
Proof.
  intros Hd Hc. destruct cs as [|c2 cs]; [apply starts_last, Hc|]. rewrite slashed_cons by discriminate. apply starts_comp; assumption.
Qed.
Lemma skipn_slash d s : skipn (List.length (d ++ #"/")) (d ++ "/"%char :: s) = s.
Proof. replace (d ++ "/"%char :: s) with ((d ++ #"/") ++ s) by (rewrite <- app_assoc; reflexivity). rewrite skipn_app, Nat.sub_diag, skipn_all. reflexivity. Qed.

Fixpoint dropw (d : cstr) (cs : list cstr) : list cstr :=
  match cs with
  | c :: r => if str_eqb c d then dropw d r else cs
  | [] => []
  end.
Lemma dd_lead_slashed d : noslash d -> forall cs n, Forall noslash cs -> (List.length cs <= n)%nat -> last cs d <> d -> 
  dd_lead n (d ++ #"/") (slashed cs) = slashed (dropw d cs).
Proof.
  intros Hd. induction cs as [|c cs IH]; intros n Hc Hn Hl; [destruct (Hl eq_refl)|].
  destruct n as [|n]; [cbn in Hn; lia|]. inversion Hc; subst. cbn [dd_lead dropw]. rewrite starts_slashed by assumption.
  destruct cs as [|c2 cs].
  - cbn in Hl. destruct (str_eqb c d) eqn:E; [apply str_eqb_eq in E; congruence|reflexivity].
  - destruct (str_eqb c d) eqn:E; [|reflexivity]. apply str_eqb_eq in E. subst c.
    rewrite slashed_cons, skipn_slash by discriminate. apply IH; [assumption|cbn in *; lia|exact Hl].
Qed.
Lemma dropw_last d cs x : last cs d <> d -> last (dropw d cs) x = last cs x /\ dropw d cs <> [].
Proof.
  induction cs as [|c cs IH]; intros H; [destruct (H eq_refl)|]. cbn [dropw]. destruct (str_eqb c d) eqn:E; [|split; [reflexivity|discriminate]].
  destruct cs as [|c2 cs]; [cbn in H; apply str_eqb_eq in E; congruence|]. apply IH, H.
Qed.

Lemma strstr_skip p c s : noslash c -> strstr ("/"%char :: p) (c ++ s) =
  match strstr ("/"%char :: p) s with Some (a, b) => Some (c ++ a, b) | None => None end.
Proof.
  induction c as [|x c IH]; intros H; [cbn [app]; destruct (strstr _ s) as [[a b]|]; reflexivity|].
  cbn [app strstr]. assert (E : starts ("/"%char :: p) (x :: c ++ s) = false).
  { cbn [starts]. replace (ch_eqb "/" x) with false; [reflexivity|]. symmetry. apply ch_eqb_neq. intros X. subst x. apply H. left. reflexivity. }
  rewrite E, IH by (intros X; apply H; right; exact X). destruct (strstr _ s) as [[a b]|]; reflexivity.
Qed.
Fixpoint split_at (d : cstr) (cs : list cstr) : option (list cstr * list cstr) :=
  match cs with
  | [] => None
  | c :: r => if str_eqb c d then Some ([], r)
              else match split_at d r with Some (a, b) => Some (c :: a, b) | None => None end
  end.
Lemma strstr_slashed d : noslash d -> forall cs c, Forall noslash (c :: cs) -> last (c :: cs) d <> d \/ cs = [] ->
  strstr ("/"%char :: d ++ #"/") (slashed (c :: cs)) =
  match split_at d cs with Some (a, b) => Some (slashed (c :: a), slashed b) | None => None end.
Proof.
  intros Hd. induction cs as [|c2 cs IH]; intros c Hc Hl.
  - inversion Hc; subst. cbn [slashed split_at]. apply strstr_absent. intros a b E. apply H1. rewrite E. apply in_or_app. right. left. reflexivity.
  - inversion Hc; subst. inversion H2; subst. rewrite slashed_cons by discriminate. rewrite strstr_skip by assumption.
    cbn [strstr]. change (starts ("/"%char :: d ++ #"/") ("/"%char :: slashed (c2 :: cs))) with (true && starts (d ++ #"/") (slashed (c2 :: cs)))%bool.
    cbn [andb]. rewrite starts_slashed by assumption. cbn [split_at].
    assert (Hl2 : last (c2 :: cs) d <> d) by (destruct Hl as [X|X]; [exact X|discriminate]).
    destruct cs as [|c3 cs].
    + cbn in Hl2. destruct (str_eqb c2 d) eqn:E; [apply str_eqb_eq in E; congruence|]. rewrite IH by auto. reflexivity.
    + destruct (str_eqb c2 d) eqn:E.
      * apply str_eqb_eq in E. subst c2. rewrite slashed_cons by discriminate. cbn [skipn List.length]. rewrite skipn_slash, app_nil_r. reflexivity.
      * rewrite IH by auto. destruct (split_at d (c3 :: cs)) as [[a b]|]; reflexivity.
Qed.
Lemma split_at_some d cs a b : split_at d cs = Some (a, b) -> cs = a ++ d :: b /\ ~ In d a.
Proof.
  revert a b. induction cs as [|c cs IH]; intros a b; [discriminate|]. cbn [split_at]. destruct (str_eqb c d) eqn:E.
  - intros H. inversion H; subst. apply str_eqb_eq in E. subst. auto.
  - destruct (split_at d cs) as [[a' b']|]; [|discriminate]. intros H. inversion H; subst.
    destruct (IH _ _ eq_refl) as [-> N]. split; [reflexivity|]. intros [X|X]; [|auto]. subst. rewrite str_eqb_refl in E. discriminate.
Qed.
Lemma split_at_none d cs : split_at d cs = None -> ~ In d cs.
Proof.
  induction cs as [|c cs IH]; cbn [split_at]; [intros _ []|]. destruct (str_eqb c d) eqn:E; [discriminate|].
  destruct (split_at d cs) as [[a b]|]; [discriminate|]. intros _ [X|X]; [subst; rewrite str_eqb_refl in E; discriminate|]. apply IH; auto.
Qed.
Lemma slashed_app a b : a <> [] -> b <> [] -> slashed (a ++ b) = slashed a ++ "/"%char :: slashed b.
Proof.
  intros Ha Hb. induction a as [|x a IH]; [congruence|]. cbn [app]. destruct a as [|y a].
  - cbn [app]. apply slashed_cons, Hb.
  - rewrite slashed_cons by discriminate. rewrite (slashed_cons x (y :: a)) by discriminate. rewrite IH, <- app_assoc by discriminate. reflexivity.
Qed.
Lemma last_app_ne {A} (a b : list A) x : b <> [] -> last (a ++ b) x = last b x.
Proof. intros Hb. induction a as [|y a IH]; [reflexivity|]. cbn [app]. rewrite <- IH. destruct (a ++ b) eqn:E; [apply app_eq_nil in E; destruct E; congruence|reflexivity]. Qed.
Lemma last_dflt {A} (l : list A) x y : l <> [] -> last l x = last l y.
Proof. induction l as [|a l IH]; [congruence|]. intros _. destruct l; [reflexivity|]. apply IH. discriminate. Qed.

Definition nd (d : cstr) : cstr -> bool := fun c => negb (str_eqb c d).
Lemma filter_none d cs : ~ In d cs -> filter (nd d) cs = cs.
Proof.
  induction cs as [|c cs IH]; intros H; [reflexivity|]. cbn [filter]. unfold nd at 1. destruct (str_eqb c d) eqn:E.
  - apply str_eqb_eq in E. subst. destruct H. left. reflexivity.
  - cbn. rewrite IH; [reflexivity|]. intros X. apply H. right. exact X.
Qed.
Lemma dd_dot_slashed : forall n cs c, Forall noslash (c :: cs) -> (List.length cs < n)%nat -> last (c :: cs) #"." <> #"." \/ cs = [] ->
  dd_dot n (slashed (c :: cs)) = slashed (c :: filter (nd #".") cs).
Proof.
  induction n as [|n IH]; intros cs c Hc Hn Hl; [lia|]. cbn [dd_dot].
  change #"/./" with ("/"%char :: #"." ++ #"/"). rewrite strstr_slashed; [|exact ns_dot|exact Hc|exact Hl].
  destruct (split_at #"." cs) as [[a b]|] eqn:E.
  - apply split_at_some in E. destruct E as [-> Na].
    destruct Hl as [Hl|Hl]; [|destruct a; discriminate].
    assert (Hb : b <> []).
    { intros ->. apply Hl. change (c :: a ++ [#"."]) with ((c :: a) ++ [#"."]). rewrite last_app_ne by discriminate. reflexivity. }
    rewrite <- slashed_app by (discriminate || exact Hb). change ((c :: a) ++ b) with (c :: (a ++ b)).
    change (c :: a ++ #"." :: b) with ((c :: a) ++ [#"."] ++ b) in Hl.
    rewrite app_assoc in Hl. rewrite last_app_ne in Hl by exact Hb.
    rewrite IH.
    + rewrite !filter_app. cbn [filter]. reflexivity.
    + inversion Hc; subst. constructor; [assumption|]. apply Forall_app in H2. destruct H2 as [A B]. inversion B; subst. apply Forall_app. auto.
    + rewrite app_length in *. cbn [List.length] in Hn. lia.
    + left. change (c :: a ++ b) with ((c :: a) ++ b). rewrite last_app_ne by exact Hb. exact Hl.
  - apply split_at_none in E. rewrite filter_none by exact E. reflexivity.
Qed.

Lemma up_to_slash_slashed a x : noslash x -> up_to_slash (slashed (a ++ [x])) = match a with [] => [] | _ => slashed a ++ #"/" end.
Proof.
  intros Hx. destruct a as [|y a].
  - cbn [app slashed]. unfold up_to_slash. assert (E : strrchr "/" x = None) by (apply strrchr_none, Hx). rewrite E. reflexivity.
  - rewrite slashed_app by discriminate. unfold up_to_slash.
    assert (E : strrchr "/" (slashed (y :: a) ++ "/"%char :: slashed [x]) = Some (slashed (y :: a), x)) by (apply strrchr_some; auto).
    rewrite E. reflexivity.
Qed.
Lemma resolve_push st a cs : Forall (fun c => c <> #"." /\ c <> #"..") a -> resolve st (a ++ cs) = resolve (rev a ++ st) cs.
Proof.
  intros H. revert st. induction H as [|c a [H1 H2] _ IH]; intros st; [reflexivity|]. cbn [app resolve].
  destruct (str_eqb c #".") eqn:E1; [apply str_eqb_eq in E1; congruence|].
  destruct (str_eqb c #"..") eqn:E2; [apply str_eqb_eq in E2; congruence|]. rewrite IH. cbn [rev]. rewrite <- app_assoc. reflexivity.
Qed.
Lemma resolve_dropw cs : resolve [] (dropw #".." cs) = resolve [] cs.
Proof.
  induction cs as [|c cs IH]; [reflexivity|]. cbn [dropw]. destruct (str_eqb c #"..") eqn:E; [|reflexivity].
  rewrite IH. apply str_eqb_eq in E. subst. reflexivity.
Qed.
Lemma dropw_incl d cs x : In x (dropw d cs) -> In x cs.
Proof. induction cs as [|c cs IH]; [intros []|]. cbn [dropw]. destruct (str_eqb c d); [right; auto|auto]. Qed.
Lemma dropw_length d cs : (List.length (dropw d cs) <= List.length cs)%nat.
Proof. induction cs as [|c cs IH]; [cbn; lia|]. cbn [dropw]. destruct (str_eqb c d); cbn in *; lia. Qed.
Lemma dropw_head d cs c r : dropw d cs = c :: r -> c <> d.
Proof.
  induction cs as [|x cs IH]; [discriminate|]. cbn [dropw]. destruct (str_eqb x d) eqn:E; [exact IH|].
  intros H ->. inversion H; subst. rewrite str_eqb_refl in E. discriminate.
Qed.
Lemma slashed_length cs : Forall (fun c => c <> []) (tl cs) -> (List.length cs <= S (List.length (slashed cs)))%nat.
Proof.
  induction cs as [|c cs IH]; [cbn; lia|]. cbn [tl]. intros H. destruct cs as [|c2 cs]; [cbn; lia|].
  rewrite slashed_cons by discriminate. rewrite app_length. cbn [List.length]. inversion H; subst. specialize (IH H3). cbn [List.length] in IH. lia.
Qed.
Lemma dd_up_slashed : forall n cs, Forall noslash cs -> (forall c, In c cs -> c <> #".") -> Forall (fun c => c <> []) (tl cs) ->
  (List.length cs < n)%nat -> last cs #".." <> #".." ->
  dd_up n (slashed cs) = slashed (resolve [] cs).
Proof.
  induction n as [|n IH]; intros cs Hs Hd He Hn Hl; [lia|]. cbn [dd_up].
  assert (Hlead : dd_lead (List.length (slashed cs)) #"../" (slashed cs) = slashed (dropw #".." cs)).
  { destruct cs as [|c0 cs0]; [destruct (Hl eq_refl)|].
    destruct (str_eqb c0 #"..") eqn:E0.
    - change #"../" with (#".." ++ #"/"). apply dd_lead_slashed; [exact ns_up|exact Hs| |exact Hl].
      apply str_eqb_eq in E0. subst c0. destruct cs0 as [|c1 cs0]; [destruct (Hl eq_refl)|].
      pose proof (slashed_length (c1 :: cs0)) as X. specialize (X ltac:(inversion He; assumption)).
      rewrite slashed_cons by discriminate. rewrite app_length. change (List.length #"..") with 2%nat. cbn [List.length] in *. lia.
    - cbn [dropw]. rewrite E0. rewrite dd_lead_none; [reflexivity|]. change #"../" with (#".." ++ #"/").
      inversion Hs; subst. rewrite starts_slashed; [|exact ns_up|assumption]. destruct cs0; [reflexivity|exact E0]. }
  rewrite Hlead. clear Hlead.
  pose proof (dropw_last #".." cs #".." Hl) as [Hl2 Hne]. rewrite <- (resolve_dropw cs).
  assert (Hs2 : Forall noslash (dropw #".." cs)) by (apply Forall_forall; intros x Hx; rewrite Forall_forall in Hs; apply Hs, (dropw_incl _ _ _ Hx)).
  assert (Hd2 : forall c, In c (dropw #".." cs) -> c <> #".") by (intros c Hc; apply Hd, (dropw_incl _ _ _ Hc)).
  assert (He2 : Forall (fun c => c <> []) (tl (dropw #".." cs))).
  { clear - He. induction cs as [|c cs IH]; [constructor|]. cbn [dropw]. destruct (str_eqb c #".."); [|exact He]. apply IH. cbn [tl] in He. destruct cs; [constructor|]. inversion He. assumption. }
  pose proof (dropw_length #".." cs) as Hlen. pose proof (dropw_head #".." cs) as Hh.
  destruct (dropw #".." cs) as [|c r] eqn:Ec; [congruence|]. rewrite <- Hl2 in Hl.
  specialize (Hh c r eq_refl). clear Ec Hl2 Hne.
  change #"/../" with ("/"%char :: #".." ++ #"/"). rewrite strstr_slashed; [|exact ns_up|exact Hs2|left; exact Hl].
  destruct (split_at #".." r) as [[a b]|] eqn:E.
  - apply split_at_some in E. destruct E as [-> Na].
    assert (Hb : b <> []).
    { intros ->. apply Hl. change (c :: a ++ [#".."]) with ((c :: a) ++ [#".."]). rewrite last_app_ne by discriminate. reflexivity. }
    destruct (exists_last (l := c :: a) ltac:(discriminate)) as (a' & x & Ea).
    assert (Ga : Forall (fun y => y <> #"." /\ y <> #"..") (a' ++ [x])).
    { rewrite <- Ea. apply Forall_forall. intros y Hy. split.
      - apply Hd2. destruct Hy as [->|Hy]; [left; reflexivity|right; apply in_or_app; left; exact Hy].
      - destruct Hy as [<-|Hy]; [exact Hh|]. intros ->. exact (Na Hy). }
    assert (Nx : noslash x).
    { rewrite Forall_forall in Hs2. apply Hs2. change (c :: a ++ #".." :: b) with ((c :: a) ++ #".." :: b). rewrite Ea. apply in_or_app. left. apply in_or_app. right. left. reflexivity. }
    rewrite Ea, up_to_slash_slashed by exact Nx.
    change (c :: a ++ #".." :: b) with ((c :: a) ++ #".." :: b) in *. rewrite Ea in *.
    assert (R : resolve [] ((a' ++ [x]) ++ #".." :: b) = resolve [] (a' ++ b)).
    { rewrite resolve_push by exact Ga. apply Forall_app in Ga. destruct Ga as [Ga' _]. rewrite resolve_push by exact Ga'.
      rewrite rev_app_distr. cbn [rev app resolve]. reflexivity. }
    rewrite R.
    assert (G : match a' with [] => [] | _ => slashed a' ++ #"/" end ++ slashed b = slashed (a' ++ b)).
    { destruct a' as [|y a']; [reflexivity|]. rewrite (slashed_app (y :: a') b) by (discriminate || exact Hb). rewrite <- app_assoc. reflexivity. }
    replace (match a' with [] => [] | _ :: _ => slashed a' ++ #"/" end ++ slashed b) with (slashed (a' ++ b)).
    rewrite IH; [reflexivity| | | | |].
    + apply Forall_app in Hs2. destruct Hs2 as [A B]. apply Forall_app in A. inversion B; subst. apply Forall_app. tauto.
    + intros y Hy. apply Hd2. apply in_app_or in Hy. destruct Hy as [Hy|Hy]; apply in_or_app; [left; apply in_or_app; left; exact Hy|right; right; exact Hy].
    + destruct a' as [|y a'].
      * cbn [app] in He2. cbn [tl] in He2. cbn [app]. inversion He2; subst. destruct b; [constructor|]. inversion H2. assumption.
      * cbn [app tl] in He2. cbn [app tl]. apply Forall_app in He2. destruct He2 as [A B]. apply Forall_app in A. inversion B; subst. apply Forall_app. tauto.
    + rewrite !app_length in *. cbn [List.length] in Hlen. lia.
    + rewrite last_app_ne by exact Hb. intros X. apply Hl. rewrite last_app_ne by discriminate. change (#".." :: b) with ([#".."] ++ b). rewrite last_app_ne by exact Hb. exact X.
  - apply split_at_none in E. f_equal.
    assert (X : resolve [] ((c :: r) ++ []) = rev (rev (c :: r) ++ [])).
    { rewrite resolve_push; [reflexivity|].
      apply Forall_forall. intros y Hy. split; [apply Hd2, Hy|]. destruct Hy as [<-|Hy]; [exact Hh|]. intros ->. exact (E Hy). }
    rewrite !app_nil_r, rev_involutive in X. symmetry. exact X.
Qed.


Lemma absent_last s p : p <> [] -> (forall a, s <> a ++ p) -> ends_with p s = false.
Proof.
  intros Hp H. unfold ends_with. destruct (starts (rev p) (rev s)) eqn:E; [|reflexivity]. apply starts_iff in E. destruct E as [r E].
  exfalso. apply (H (rev r)). rewrite <- (rev_involutive s), E, rev_app_distr, rev_involutive. reflexivity.
Qed.
Lemma slashed_end cs a x : Forall noslash cs -> cs <> [] -> noslash x -> slashed cs = a ++ "/"%char :: x -> last cs [] = x.
Proof.
  intros Hs Hne Hx. destruct (exists_last Hne) as (cs' & y & ->). rewrite last_app_ne by discriminate. cbn [last].
  apply Forall_app in Hs. destruct Hs as [_ Hy]. inversion Hy; subst. destruct cs' as [|z cs'].
  - cbn [app slashed]. intros E. exfalso. apply H1. rewrite E. apply in_or_app. right. left. reflexivity.
  - rewrite slashed_app by discriminate. intros E.
    assert (A : strrchr "/" (slashed (z :: cs') ++ "/"%char :: slashed [y]) = Some (slashed (z :: cs'), y)) by (apply strrchr_some; auto).
    assert (B : strrchr "/" (a ++ "/"%char :: x) = Some (a, x)) by (apply strrchr_some; auto).
    rewrite E, B in A. inversion A. reflexivity.
Qed.
Lemma dd_end_id n s : (forall a, s <> a ++ #"/..") -> dd_end n s = s.
Proof.
  intros H. destruct n; [reflexivity|]. cbn [dd_end]. rewrite absent_last by (discriminate || exact H).
  rewrite andb_false_r. reflexivity.
Qed.
Lemma strstr_cons p c s : strstr p (c :: s) = if starts p (c :: s) then Some ([], skipn (List.length p) (c :: s))
  else match strstr p s with Some (a, b) => Some (c :: a, b) | None => None end.
Proof. reflexivity. Qed.
Lemma slashed_nodouble cs : Forall noslash cs -> Forall (fun c => c <> []) (tl cs) -> absent #"//" (slashed cs).
Proof.
  induction cs as [|c cs IH]; intros Hs He; [intros a b E; destruct a; discriminate|].
  inversion Hs; subst. cbn [tl] in He. destruct cs as [|c2 cs].
  - cbn [slashed]. intros a b E. apply H1. rewrite E. apply in_or_app. right. left. reflexivity.
  - rewrite slashed_cons by discriminate. inversion He; subst.
    assert (IH' : strstr #"//" (slashed (c2 :: cs)) = None) by (apply strstr_absent, IH; auto).
    assert (E : starts ("/"%char :: #"/") ("/"%char :: slashed (c2 :: cs)) = false).
    { inversion H2; subst. destruct c2 as [|x c2]; [congruence|].
      assert (X : ch_eqb "/" x = false) by (apply ch_eqb_neq; intros X; subst x; apply H5; left; reflexivity).
      destruct cs; cbn [slashed app starts list_ascii_of_string]; rewrite X; reflexivity. }
    apply strstr_none. change #"//" with ("/"%char :: #"/"). rewrite strstr_skip by exact H1. rewrite strstr_cons, E.
    change ("/"%char :: #"/") with #"//". rewrite IH'. reflexivity.
Qed.
Lemma dd_slash_id n s : absent #"//" s -> dd_slash n s = s.
Proof. intros H. destruct n; [reflexivity|]. cbn [dd_slash]. apply strstr_absent in H. rewrite H. reflexivity. Qed.

Lemma resolve_filter st cs : resolve st (filter (nd #".") cs) = resolve st cs.
Proof.
  revert st. induction cs as [|c cs IH]; intros st; [reflexivity|]. cbn [filter resolve]. unfold nd at 1.
  destruct (str_eqb c #".") eqn:E; cbn [negb]; [apply IH|]. cbn [resolve]. rewrite E. destruct (str_eqb c #".."); apply IH.
Qed.
Lemma resolve_dropdot cs : resolve [] (dropw #"." cs) = resolve [] cs.
Proof.
  induction cs as [|c cs IH]; [reflexivity|]. cbn [dropw]. destruct (str_eqb c #".") eqn:E; [|reflexivity].
  rewrite IH. cbn [resolve]. rewrite E. reflexivity.
Qed.
Lemma resolve_in st cs x : In x (resolve st cs) -> In x st \/ In x cs /\ x <> #"." /\ x <> #"..".
Proof.
  revert st. induction cs as [|c cs IH]; intros st; cbn [resolve].
  - intros H. left. apply in_rev, H.
  - destruct (str_eqb c #".") eqn:E1; [|destruct (str_eqb c #"..") eqn:E2]; intros H; apply IH in H.
    + destruct H as [H|[H1 H2]]; [auto|right; split; [right|]; assumption].
    + destruct H as [H|[H1 H2]]; [left; destruct st; [destruct H|right; exact H]|right; split; [right|]; assumption].
    + destruct H as [[<-|H]|[H1 H2]]; [|auto|right; split; [right|]; assumption].
      right. split; [left; reflexivity|]. split; intros X; subst; [rewrite str_eqb_refl in E1|rewrite str_eqb_refl in E2]; discriminate.
Qed.
Lemma resolve_last st cs x : last cs x <> #"." -> last cs x <> #".." -> cs <> [] -> last (resolve st cs) x = last cs x /\ resolve st cs <> [].
Proof.
  intros H1 H2 Hne. destruct (exists_last Hne) as (a & y & ->). rewrite last_app_ne in * by discriminate. cbn [last] in *.
  assert (G : exists st', resolve st (a ++ [y]) = resolve st' [y]).
  { clear - a. revert st. induction a as [|c a IH]; intros st; [eexists; reflexivity|]. cbn [app resolve].
    destruct (str_eqb c #"."); [apply IH|]. destruct (str_eqb c #".."); apply IH. }
  destruct G as [st' ->]. cbn [resolve].
  destruct (str_eqb y #".") eqn:E1; [apply str_eqb_eq in E1; congruence|].
  destruct (str_eqb y #"..") eqn:E2; [apply str_eqb_eq in E2; congruence|]. cbn [rev]. split; [apply last_app_ne; discriminate|].
  destruct (rev st'); discriminate.
Qed.
Lemma filter_last d cs x : last cs x <> d -> cs <> [] -> last (filter (nd d) cs) x = last cs x /\ filter (nd d) cs <> [].
Proof.
  intros H Hne. destruct (exists_last Hne) as (a & y & ->). rewrite last_app_ne in * by discriminate. cbn [last] in *.
  rewrite filter_app. cbn [filter]. unfold nd at 2 4. destruct (str_eqb y d) eqn:E; [apply str_eqb_eq in E; congruence|]. cbn [negb].
  split; [apply last_app_ne; discriminate|]. destruct (filter (nd d) a); discriminate.
Qed.

(** components after the first are not empty; the last is no dot *)
Definition okc (cs : list cstr) : Prop :=
  Forall noslash cs /\ Forall (fun c => c <> []) (tl cs) /\ cs <> [] /\ last cs [] <> #"." /\ last cs [] <> #".." /\
  (forall c r, cs = c :: r -> c = [] -> r <> []).
Lemma slashed_length1 cs : Forall (fun c => c <> []) cs -> (List.length cs <= List.length (slashed cs))%nat.
Proof.
  induction 1 as [|c cs Hc H IH]; [cbn; lia|]. destruct c as [|x c]; [congruence|]. destruct cs as [|c2 cs]; [cbn; lia|].
  rewrite slashed_cons by discriminate. rewrite app_length. cbn [List.length] in *. lia.
Qed.
Lemma slashed_length2 cs : Forall (fun c => c <> []) (tl cs) -> (forall c r, cs = c :: r -> c = [] -> r <> []) ->
  (List.length cs <= List.length (slashed cs))%nat.
Proof.
  intros H Hh. destruct cs as [|c cs]; [cbn; lia|]. cbn [tl] in H. destruct c as [|x c].
  - specialize (Hh [] cs eq_refl eq_refl). apply slashed_length1 in H. rewrite slashed_cons by exact Hh. cbn [app List.length]. lia.
  - apply slashed_length1. constructor; [discriminate|exact H].
Qed.
Lemma filter_len {A} (f : A -> bool) l : (List.length (filter f l) <= List.length l)%nat.
Proof. induction l as [|x l IH]; [cbn; lia|]. cbn [filter]. destruct (f x); cbn [List.length]; lia. Qed.
Lemma tl_filter (P : cstr -> Prop) f cs : Forall P cs -> Forall P (filter f cs).
Proof. intros H. apply Forall_forall. intros x Hx. apply filter_In in Hx. rewrite Forall_forall in H. apply H, Hx. Qed.
Lemma de_dotdot_slashed cs : okc cs -> (forall x, In x (tl (resolve [] cs)) -> x <> []) ->
  de_dotdot (slashed cs) = slashed (resolve [] cs).
Proof.
  intros (Hs & He & Hne & L1 & L2 & Hh) Ht. unfold de_dotdot. set (n := S (List.length (slashed cs))).
  assert (Hlen : (List.length cs < n)%nat) by (unfold n; pose proof (slashed_length2 cs He Hh); lia).
  change #"./" with (#"." ++ #"/"). rewrite dd_lead_slashed; [|exact ns_dot|exact Hs|lia|rewrite (last_dflt _ _ [] Hne); exact L1].
  destruct (dropw_last #"." cs []) as [D1 D2]; [rewrite (last_dflt _ _ [] Hne); exact L1|].
  assert (Hs2 : Forall noslash (dropw #"." cs)) by (apply Forall_forall; intros x Hx; rewrite Forall_forall in Hs; apply Hs, (dropw_incl _ _ _ Hx)).
  assert (He2 : Forall (fun c => c <> []) (tl (dropw #"." cs))).
  { clear - He. induction cs as [|c cs IH]; [constructor|]. cbn [dropw]. destruct (str_eqb c #"."); [|exact He]. apply IH. cbn [tl] in He. destruct cs; [constructor|]. inversion He. assumption. }
  pose proof (dropw_length #"." cs) as Hl2. pose proof (dropw_head #"." cs) as Hh2.
  rewrite <- (resolve_dropdot cs) in Ht |- *.
  destruct (dropw #"." cs) as [|c r] eqn:Ec; [congruence|]. specialize (Hh2 c r eq_refl).
  rewrite dd_dot_slashed; [|exact Hs2|cbn [List.length] in Hl2; lia|left; rewrite (last_dflt _ _ []) by discriminate; rewrite D1; exact L1].
  assert (Ef : c :: filter (nd #".") r = filter (nd #".") (c :: r)).
  { cbn [filter]. unfold nd at 2. destruct (str_eqb c #".") eqn:E; [apply str_eqb_eq in E; congruence|reflexivity]. }
  destruct (filter_last #"." (c :: r) []) as [F1 F2]; [rewrite D1; exact L1|discriminate|].
  rewrite Ef. rewrite dd_up_slashed.
  - rewrite resolve_filter. destruct (resolve_last [] (c :: r) []) as [R1 R2]; [rewrite D1; exact L1|rewrite D1; exact L2|discriminate|].
    assert (Rs : Forall noslash (resolve [] (c :: r))).
    { apply Forall_forall. intros x Hx. apply resolve_in in Hx. destruct Hx as [[]|[Hx _]]. rewrite Forall_forall in Hs2. apply Hs2, Hx. }
    rewrite dd_end_id.
    + apply dd_slash_id, slashed_nodouble; [exact Rs|apply Forall_forall, Ht].
    + intros a E. apply (slashed_end _ a #".." Rs R2 ns_up) in E. rewrite R1, D1 in E. apply L2, E.
  - apply tl_filter; exact Hs2.
  - intros x Hx ->. apply filter_In in Hx. destruct Hx as [_ Hx]. discriminate.
  - rewrite <- Ef. cbn [tl]. apply tl_filter; exact He2.
  - pose proof (filter_len (nd #".") (c :: r)). lia.
  - rewrite (last_dflt _ _ [] F2), F1, D1. exact L2.
Qed.
Theorem dotdot_relative_lem cs : Forall component cs -> cs <> [] -> last cs [] <> #"." -> last cs [] <> #".." ->
  de_dotdot (slashed cs) = slashed (resolve [] cs).
Proof.
  intros Hc Hne L1 L2. rewrite Forall_forall in Hc. apply de_dotdot_slashed.
  - split; [apply Forall_forall; intros x Hx; apply Hc, Hx|]. split; [|repeat split; auto].
    + apply Forall_forall. intros x Hx. apply Hc. destruct cs; [destruct Hx|right; exact Hx].
    + intros c r -> E. destruct (Hc c) as [X _]; [left; reflexivity|congruence].
  - intros x Hx. assert (Hx' : In x (resolve [] cs)) by (destruct (resolve [] cs); [destruct Hx|right; exact Hx]).
    apply resolve_in in Hx'. destruct Hx' as [[]|[Hx' _]]. apply Hc, Hx'.
Qed.
Lemma resolve_root : forall cs st, inside (List.length st) cs = true -> resolve (st ++ [[]]) cs = [] :: resolve st cs.
Proof.
  induction cs as [|c cs IH]; intros st; cbn [resolve inside]; [intros _; rewrite rev_app_distr; reflexivity|].
  destruct (str_eqb c #"."); [apply IH|]. destruct (str_eqb c #"..").
  - destruct st as [|x st]; [discriminate|]. cbn [List.length app tl]. apply IH.
  - intros H. apply (IH (c :: st)). exact H.
Qed.
Theorem dotdot_absolute_lem cs : Forall component cs -> cs <> [] -> last cs [] <> #"." -> last cs [] <> #".." -> inside 0 cs = true ->
  de_dotdot ("/"%char :: slashed cs) = "/"%char :: slashed (resolve [] cs).
Proof.
  intros Hc Hne L1 L2 Hi. rewrite Forall_forall in Hc.
  assert (R : resolve [] ([] :: cs) = [] :: resolve [] cs) by (change (resolve ([] ++ [[]]) cs = [] :: resolve [] cs); apply resolve_root, Hi).
  destruct (resolve_last [] cs [] L1 L2 Hne) as [_ R2].
  change ("/"%char :: slashed cs) with ([] ++ "/"%char :: slashed cs). rewrite <- slashed_cons by exact Hne.
  rewrite de_dotdot_slashed.
  - rewrite R, slashed_cons by exact R2. reflexivity.
  - split; [constructor; [intros []|apply Forall_forall; intros x Hx; apply Hc, Hx]|].
    split; [cbn [tl]; apply Forall_forall; intros x Hx; apply Hc, Hx|]. split; [discriminate|].
    assert (E : last ([] :: cs) [] = last cs []) by (destruct cs; [congruence|reflexivity]). rewrite E.
    repeat split; auto. intros c r E1 _. inversion E1; subst. exact Hne.
  - rewrite R. cbn [tl]. intros x Hx. apply resolve_in in Hx. destruct Hx as [[]|[Hx _]]. apply Hc, Hx.
Qed.

(** ** environment keys *)
Theorem env_key_lem line k v : parse_env line = Some (k, v) -> Forall (fun c => ~ white c) k.
Proof.
  unfold parse_env. destruct (strchr "=" _) as [[a b]|]; [|discriminate]. cbv zeta.
  set (key := skip isspace _). destruct (existsb isspace key) eqn:E; [discriminate|]. intros H. inversion H; subst. clear H.
  apply Forall_forall. intros c Hc W. apply isspace_iff in W.
  assert (X : existsb isspace key = true) by (apply existsb_exists; eauto). congruence.
Qed.

(** ** quoted arguments *)
Lemma strlcat_fits n a b : (List.length a + List.length b < n)%nat -> strlcat n a b = a ++ b.
Proof.
  intros H. unfold strlcat. destruct (Nat.leb n (List.length a)) eqn:E; [apply Nat.leb_le in E; lia|].
  apply firstn_all2. rewrite app_length. lia.
Qed.
Lemma spaced_cons w ws : ws <> [] -> spaced (w :: ws) = w ++ " "%char :: spaced ws.
Proof. destruct ws; [congruence|reflexivity]. Qed.
Lemma last_any (w : cstr) x y : w <> [] -> last w x = last w y.
Proof. apply last_dflt. Qed.
Lemma cmd_loop_rest q : quote q -> forall qs ws i done cur, quoted_rest q qs -> (i < 63)%nat -> Forall (fun w => w <> []) qs ->
  (List.length cur + 1 + List.length (spaced qs) <= 63)%nat ->
  cmd_loop (qs ++ ws) i done (Some q) cur = cmd_loop ws (S i) ((cur ++ " "%char :: spaced qs) :: done) None [].
Proof.
  intros Hq qs ws i done cur H Hi Hne Hl. revert cur Hl. induction H as [w Hh El|w qs Hh El H IH]; intros cur Hl; inversion Hne; subst.
  - cbn [app cmd_loop]. replace (Nat.leb (NUM_SVC_ARGS - 1) i) with false by (symmetry; apply Nat.leb_gt; exact Hi).
    assert (Q : isquote (hd "000"%char w) = false).
    { destruct (isquote _) eqn:Q; [|reflexivity]. apply isquote_iff in Q. contradiction. }
    rewrite Q. cbn [spaced] in Hl. rewrite (strlcat_fits MAX_ARG_LEN cur #" ") by (cbn [List.length list_ascii_of_string]; unfold MAX_ARG_LEN; lia).
    rewrite strlcat_fits by (rewrite app_length; cbn [List.length list_ascii_of_string]; unfold MAX_ARG_LEN; lia).
    rewrite (last_any w _ "000"%char) by assumption. rewrite ch_eqb_refl. cbn [spaced]. rewrite <- app_assoc. reflexivity.
  - cbn [app cmd_loop]. replace (Nat.leb (NUM_SVC_ARGS - 1) i) with false by (symmetry; apply Nat.leb_gt; exact Hi).
    assert (Q : isquote (hd "000"%char w) = false).
    { destruct (isquote _) eqn:Q; [|reflexivity]. apply isquote_iff in Q. contradiction. }
    assert (Hqs : qs <> []) by (inversion H; discriminate).
    rewrite spaced_cons in Hl |- * by exact Hqs. rewrite app_length in Hl. cbn [List.length] in Hl.
    rewrite Q. rewrite (strlcat_fits MAX_ARG_LEN cur #" ") by (cbn [List.length list_ascii_of_string]; unfold MAX_ARG_LEN; lia).
    rewrite strlcat_fits by (rewrite app_length; cbn [List.length list_ascii_of_string]; unfold MAX_ARG_LEN; lia).
    rewrite (last_any w _ "000"%char) by assumption.
    replace (ch_eqb (last w "000"%char) q) with false by (symmetry; apply ch_eqb_neq; exact El).
    rewrite IH; [|assumption|rewrite !app_length; cbn [List.length list_ascii_of_string]; lia]. rewrite <- !app_assoc. reflexivity.
Qed.
Lemma cmd_loop_args ws args : arguments ws args -> forall i done, Forall (fun w => w <> []) ws ->
  (i + List.length args <= 63)%nat -> Forall (fun a => (List.length a <= 63)%nat) args ->
  cmd_loop ws i done None [] = rev args ++ done.
Proof.
  induction 1 as [|w ws args Hh H IH|q qs ws args Hq H IH]; intros i done Hne Hi Hl; [reflexivity| |].
  - inversion Hne; subst. inversion Hl; subst. cbn [List.length] in Hi. cbn [cmd_loop].
    replace (Nat.leb (NUM_SVC_ARGS - 1) i) with false by (symmetry; apply Nat.leb_gt; unfold NUM_SVC_ARGS; lia).
    assert (Q : isquote (hd "000"%char w) = false).
    { destruct (isquote _) eqn:Q; [|reflexivity]. apply isquote_iff in Q. contradiction. }
    rewrite Q, strlcat_fits by (cbn [List.length list_ascii_of_string]; unfold MAX_ARG_LEN; lia). cbn [app]. rewrite IH by (auto; lia). cbn [rev]. rewrite <- app_assoc. reflexivity.
  - inversion Hl; subst. cbn [List.length] in Hi. apply Forall_app in Hne. destruct Hne as [N1 N2].
    inversion Hq as [w Qq Ehd El|w qs' Qq Ehd El Hr]; subst qs.
    + inversion N1; subst. cbn [app cmd_loop]. replace (Nat.leb (NUM_SVC_ARGS - 1) i) with false by (symmetry; apply Nat.leb_gt; unfold NUM_SVC_ARGS; lia).
      assert (Q : isquote (hd "000"%char w) = true) by (apply isquote_iff; exact Qq). rewrite Q.
      rewrite (last_any w _ "000"%char) by assumption. rewrite El, ch_eqb_refl. cbn [spaced] in *.
      rewrite strlcat_fits by (cbn [List.length list_ascii_of_string]; unfold MAX_ARG_LEN; lia). cbn [app]. rewrite IH by (auto; lia). cbn [rev]. rewrite <- app_assoc. reflexivity.
    + inversion N1; subst. cbn [app cmd_loop]. replace (Nat.leb (NUM_SVC_ARGS - 1) i) with false by (symmetry; apply Nat.leb_gt; unfold NUM_SVC_ARGS; lia).
      assert (Q : isquote (hd "000"%char w) = true) by (apply isquote_iff; exact Qq). rewrite Q.
      rewrite (last_any w _ "000"%char) by assumption.
      replace (ch_eqb (last w "000"%char) (hd "000"%char w)) with false by (symmetry; apply ch_eqb_neq; exact El).
      assert (Hqs : qs' <> []) by (inversion Hr; discriminate). rewrite spaced_cons in * by exact Hqs. rewrite app_length in H2. cbn [List.length] in H2.
      rewrite strlcat_fits by (cbn [List.length list_ascii_of_string]; unfold MAX_ARG_LEN; lia). cbn [app].
      rewrite (cmd_loop_rest _ Qq) by (auto; lia). rewrite IH by (auto; lia). cbn [rev]. rewrite <- app_assoc. reflexivity.
Qed.
Lemma tokens_nonempty del s ws : tokens del s ws -> Forall (fun w => w <> []) ws.
Proof. induction 1; constructor; auto. Qed.
Theorem cmdline_quoted_lem cmd rest ws args : tokens (eq " "%char) rest ws -> arguments ws args ->
  (List.length args <= 62)%nat -> Forall (fun a => (List.length a <= 63)%nat) args ->
  cmdline_args cmd rest = firstn 63 cmd :: args.
Proof.
  intros Ht Ha Hn Hl. unfold cmdline_args. pose proof (tokens_nonempty _ _ _ Ht) as Hne. apply space_tokens in Ht.
  rewrite Ht, (cmd_loop_args _ _ Ha) by (auto; lia). rewrite rev_app_distr, rev_involutive. reflexivity.
Qed.
