(** Lines for the examples: [reading x arg] is what the line with the words [x]
    and the argument [arg] says, when it is one [says] is about. *)
From Coq Require Import List String Ascii NArith ZArith Bool Lia.
From Coq Require Import ZifyBool ZifyNat ZifyN.
From Verif Require Import CStr ParseSpec ParseModel CStrLib TmpModel TmpSpec TmpProof TmpProofB.
Import ListNotations.
Local Open Scope Z_scope.

Lemma tokens_ext (P Q : ascii -> Prop) s ts : (forall c, P c <-> Q c) -> tokens P s ts -> tokens Q s ts.
Proof.
  intros H. assert (A : forall l, Forall P l -> Forall Q l) by (intros l; apply Forall_impl; apply H).
  assert (B : forall l, Forall (fun c => ~ P c) l -> Forall (fun c => ~ Q c) l).
  { intros l. apply Forall_impl. intros c N X. apply N, H, X. }
  induction 1; [apply tok_end; auto|apply tok_last; auto|apply tok_more; auto; apply H; assumption].
Qed.
Lemma tokens_blank s : tokens blank s (strtoks bl s).
Proof. eapply tokens_ext; [apply bl_iff|]. apply strtoks_tokens. Qed.

Lemma octal_intro t : t <> [] -> forallb (fun c => match octd c with Some _ => true | None => false end) t = true ->
  octal t (Z.of_N (octal_ 0 t)).
Proof.
  induction t as [|c t IH] using rev_ind; [congruence|]. intros _ H. rewrite forallb_app in H. apply andb_prop in H. destruct H as [H1 H2].
  cbn [forallb] in H2. destruct (octd c) as [v|] eqn:E; [|discriminate].
  destruct t as [|x t].
  - cbn [app octal_]. rewrite E. apply oc_one. apply octd_iff, E.
  - assert (F : Forall (fun y => exists w, octd y = Some w) (x :: t)).
    { apply Forall_forall. intros y Hy. rewrite forallb_forall in H1. specialize (H1 y Hy). destruct (octd y); [eauto|discriminate]. }
    rewrite (octal_app _ _ _ _ F E).
    replace (Z.of_N (8 * octal_ 0 (x :: t) + v)) with (8 * Z.of_N (octal_ 0 (x :: t)) + Z.of_N v) by lia.
    apply oc_more; [|apply octd_iff, E]. apply IH; [discriminate|exact H1].
Qed.

Definition mode_r (ts : list cstr) : option (option Z) :=
  match nth_error ts 2 with
  | None => Some None
  | Some t =>
      if str_eqb t #"-" then Some None
      else match t with
           | [] => None
           | _ => if forallb (fun c => match octd c with Some _ => true | None => false end) t &&
                     (0 <? octal_ 0 t)%N && (octal_ 0 t <? 2 ^ 32)%N then Some (Some (Z.of_N (octal_ 0 t))) else None
           end
  end.
Definition reading (x : cstr) (arg : option cstr) : option (ascii * bool * cstr * option Z * cstr * cstr) :=
  let ts := strtoks bl x in
  let fine := match arg with
              | None => (List.length ts <=? 5)%nat
              | Some (c :: a) => (List.length ts =? 6)%nat && negb (isblank c) && negb (mem "010" (c :: a)) &&
                                 match rev x with w :: _ => negb (isblank w) | [] => false end
              | Some [] => false
              end in
  if fine then
    match nth_error ts 0, nth_error ts 1, mode_r ts with
    | Some (ty :: mods), Some p, Some m =>
        if mem "%" p then None else
        Some (ty, match mods with c :: _ => ch_eqb c "+" | [] => false end, p, m,
              name_or_root (nth_error ts 3), name_or_root (nth_error ts 4))
    | _, _, _ => None
    end
  else None.
Definition line_of (x : cstr) (arg : option cstr) : cstr :=
  x ++ match arg with Some a => [" "%char] ++ a | None => [] end.

Lemma name_r ts i : name_of ts i (name_or_root (nth_error ts i)).
Proof.
  destruct (nth_error ts i) as [t|] eqn:E; cbn [name_or_root].
  - destruct (str_eqb t #"-") eqn:F.
    + apply str_eqb_eq in F. subst t. apply no_root. right. exact E.
    + apply no_name; [exact E|]. intros ->. discriminate.
  - apply no_root. left. exact E.
Qed.
Lemma mode_r_of ts m : mode_r ts = Some m -> mode_of ts m.
Proof.
  unfold mode_r. destruct (nth_error ts 2) as [t|] eqn:E.
  - destruct (str_eqb t #"-") eqn:F.
    + intros [= <-]. apply mo_none. right. apply str_eqb_eq in F. subst t. exact E.
    + destruct t as [|c t]; [discriminate|]. destruct (forallb _ _ && _ && _)%bool eqn:B; [|discriminate].
      intros [= <-]. apply andb_prop in B. destruct B as [B B3]. apply andb_prop in B. destruct B as [B1 B2].
      apply (mo_some _ (c :: t)); [exact E|apply (octal_intro (c :: t)); [discriminate|exact B1]|].
      apply N.ltb_lt in B2, B3. change (0 < Z.of_N (octal_ 0 (c :: t)) < 2 ^ 32). split; [lia|]. apply N2Z.inj_lt in B3. exact B3.
  - intros [= <-]. apply mo_none. left. exact E.
Qed.
Lemma isblank_not c : isblank c = false -> ~ blank c.
Proof. intros H X. apply isblank_iff in X. congruence. Qed.

Lemma reading_says x arg ty pl p m u g : reading x arg = Some (ty, pl, p, m, u, g) ->
  says (line_of x arg) ty pl p m u g arg.
Proof.
  unfold reading. cbv zeta.
  match goal with |- (if ?b then _ else _) = _ -> _ => destruct b eqn:Fine; [|discriminate] end.
  destruct (nth_error (strtoks bl x) 0) as [[|c0 mods]|] eqn:E0; try discriminate.
  destruct (nth_error (strtoks bl x) 1) as [q|] eqn:E1; [|discriminate].
  destruct (mode_r (strtoks bl x)) as [m'|] eqn:Em; [|discriminate].
  destruct (mem "%" q) eqn:Eq; [discriminate|]. intros [= -> <- -> -> <- <-]. constructor; [|apply mem_false, Eq].
  exists (strtoks bl x), (match arg with Some _ => [" "%char] | None => [] end).
  split; [|split; [destruct arg; cbn; lia|]].
  - unfold line_of. destruct arg as [[|c a]|].
    + discriminate Fine.
    + apply andb_prop in Fine. destruct Fine as [Fine F4]. apply andb_prop in Fine. destruct Fine as [Fine F3].
      apply andb_prop in Fine. destruct Fine as [F1 F2]. apply lo_arg.
      * apply tokens_blank.
      * apply Nat.eqb_eq, F1.
      * destruct (rev x) as [|w y] eqn:Er; [discriminate|]. exists (rev y), w.
        split; [rewrite <- (rev_involutive x), Er; reflexivity|]. apply isblank_not. now destruct (isblank w).
      * discriminate.
      * repeat constructor.
      * apply isblank_not. now destruct (isblank c).
      * apply mem_false. now destruct (mem "010" (c :: a)).
    + rewrite app_nil_r. apply Nat.leb_le in Fine. apply lo_words; [apply tokens_blank|lia|lia].
  - split; [|split; [exact E1|split; [apply mode_r_of, Em|split; apply name_r]]].
    exists mods. split; [exact E0|]. destruct mods as [|c r].
    + split; [discriminate|]. intros (z & X). discriminate.
    + split; [intros X; apply ch_eqb_eq in X; subst c; eauto|]. intros (z & [= -> ->]). reflexivity.
Qed.

(** A file system: what is there, the directories and how many entries they
    have; patterns stand for themselves, except for the ones listed. *)
Definition fs_of (there : list cstr) (dirs : list (cstr * nat)) (globs : list (cstr * list cstr)) : fs := {|
  f_stat := fun p => existsb (str_eqb p) (there ++ map fst dirs);
  f_dir := fun p => existsb (str_eqb p) (map fst dirs);
  f_count := fun p => match find (fun d => str_eqb p (fst d)) dirs with Some (_, n) => Some n | None => None end;
  f_glob := fun p => match find (fun d => str_eqb p (fst d)) globs with
                     | Some (_, l) => l
                     | None => if existsb (str_eqb p) (there ++ map fst dirs) then [p] else [] end;
  f_real := fun p => if existsb (str_eqb p) (there ++ map fst dirs) then Some p else None;
  f_restorecon := false |}.
