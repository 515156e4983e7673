From Coq Require Import List String Ascii NArith ZArith Bool Lia ZifyBool ZifyNat ZifyN Permutation.
From Verif Require Import CStr CStrLib HookModel PartModel PartSpec.
Import ListNotations.
Local Open Scope Z_scope.

(** ** The order *)
Lemma before_cons c a b : before a b -> before (c :: a) (c :: b).
Proof.
  intros H. inversion H as [a0 d r E1 E2|p x y u v L E1 E2]; subst.
  - apply (bf_end (c :: a) d r).
  - apply (bf_char (c :: p) x y u v L).
Qed.
Lemma ltb_before a b : str_ltb a b = true <-> before a b.
Proof.
  split.
  - revert b. induction a as [|x a IH]; intros [|y b] H; cbn [str_ltb] in H; try discriminate.
    + apply (bf_end [] y b).
    + destruct (N.eqb (code x) (code y)) eqn:E.
      * apply N.eqb_eq in E. apply code_inj in E. subst. apply before_cons, IH, H.
      * apply N.ltb_lt in H. apply (bf_char [] x y a b H).
  - intros H. destruct H as [a c r|p x y u v L].
    + induction a as [|x a IH]; cbn [app str_ltb]; [reflexivity|]. rewrite N.eqb_refl. exact IH.
    + induction p as [|z p IH]; cbn [app str_ltb].
      * replace (N.eqb (code x) (code y)) with false by lia. apply N.ltb_lt, L.
      * rewrite N.eqb_refl. exact IH.
Qed.
Lemma ltb_irrefl a : str_ltb a a = false.
Proof. induction a as [|x a IH]; cbn [str_ltb]; [reflexivity|]. rewrite N.eqb_refl. exact IH. Qed.
Lemma ltb_trans a b c : str_ltb a b = true -> str_ltb b c = true -> str_ltb a c = true.
Proof.
  revert b c. induction a as [|x a IH]; intros [|y b] [|z c] H K; cbn [str_ltb] in *; try discriminate; try reflexivity.
  destruct (N.eqb (code x) (code y)) eqn:E; destruct (N.eqb (code y) (code z)) eqn:E2.
  - replace (N.eqb (code x) (code z)) with true by lia. eapply IH; eassumption.
  - replace (N.eqb (code x) (code z)) with false by lia. lia.
  - replace (N.eqb (code x) (code z)) with false by lia. lia.
  - replace (N.eqb (code x) (code z)) with false by lia. lia.
Qed.
Lemma ltb_total a b : str_ltb a b = false -> a = b \/ str_ltb b a = true.
Proof.
  revert b. induction a as [|x a IH]; intros [|y b] H; cbn [str_ltb] in *; try discriminate; [left; reflexivity|right; reflexivity|].
  destruct (N.eqb (code x) (code y)) eqn:E.
  - apply N.eqb_eq in E. apply code_inj in E. subst. rewrite N.eqb_refl. destruct (IH b H) as [->|K]; [left; reflexivity|right; exact K].
  - right. replace (N.eqb (code y) (code x)) with false by lia. lia.
Qed.
Lemma before_irrefl a : ~ before a a.
Proof. intros H. apply ltb_before in H. rewrite ltb_irrefl in H. discriminate. Qed.
Lemma before_trans a b c : before a b -> before b c -> before a c.
Proof. rewrite <- !ltb_before. apply ltb_trans. Qed.

(** ** The sort *)
Lemma insert_in n l m : In m (insert n l) <-> m = n \/ In m l.
Proof.
  induction l as [|k l IH]; cbn [insert]; [cbn [In]; intuition congruence|].
  destruct (str_ltb k n); cbn [In]; [rewrite IH|]; intuition congruence.
Qed.
Lemma insert_order n l : in_order l -> ~ In n l -> in_order (insert n l).
Proof.
  intros H. induction H as [|k l H IH K]; intros N; cbn [insert].
  - constructor; [constructor|intros m []].
  - destruct (str_ltb k n) eqn:E.
    + constructor; [apply IH; intros A; apply N; right; exact A|].
      intros m A. apply insert_in in A. destruct A as [->|A]; [apply ltb_before, E|apply K, A].
    + destruct (ltb_total k n E) as [->|E2]; [elim N; left; reflexivity|].
      constructor; [constructor; assumption|]. intros m [<-|A]; [apply ltb_before, E2|].
      apply before_trans with k; [apply ltb_before, E2|apply K, A].
Qed.
Lemma alphasort_in l m : In m (alphasort l) <-> In m l.
Proof.
  induction l as [|k l IH]; [reflexivity|]. change (alphasort (k :: l)) with (insert k (alphasort l)).
  rewrite insert_in, IH. cbn [In]. intuition congruence.
Qed.
Lemma alphasort_order l : NoDup l -> in_order (alphasort l).
Proof.
  intros H. induction H as [|k l N H IH]; [constructor|]. change (alphasort (k :: l)) with (insert k (alphasort l)).
  apply insert_order; [exact IH|]. rewrite alphasort_in. exact N.
Qed.
Lemma insert_length n l : List.length (insert n l) = S (List.length l).
Proof. induction l as [|k l IH]; cbn [insert]; [reflexivity|]. destruct (str_ltb k n); cbn [List.length]; lia. Qed.
Lemma alphasort_length l : List.length (alphasort l) = List.length l.
Proof.
  induction l as [|k l IH]; [reflexivity|]. change (alphasort (k :: l)) with (insert k (alphasort l)).
  rewrite insert_length, IH. reflexivity.
Qed.

(** ** One script *)
Lemma last_is_iff c s : last_is c s = true <-> exists p, s = p ++ [c].
Proof.
  unfold last_is. split.
  - destruct (rev s) as [|x r] eqn:E; [discriminate|]. intros H. apply ch_eqb_eq in H. subst.
    exists (rev r). rewrite <- (rev_involutive s), E. reflexivity.
  - intros [p ->]. rewrite rev_app_distr. apply ch_eqb_refl.
Qed.
Definition the_path (dir name : cstr) : cstr := dir ++ (if last_is "/" dir then [] else #"/") ++ name.
Lemma the_path_in dir name : file_in dir name (the_path dir name).
Proof.
  unfold the_path. destruct (last_is "/" dir) eqn:E.
  - apply last_is_iff in E. destruct E as [p ->]. rewrite <- app_assoc. apply (fi_slash p name).
  - apply (fi_plain dir name). intros d H. assert (X : last_is "/" dir = true) by (apply last_is_iff; exists d; exact H). congruence.
Qed.
Lemma file_in_path dir name p : file_in dir name p -> p = the_path dir name.
Proof.
  intros H. unfold the_path. destruct H as [d name|dir name N].
  - replace (last_is "/" (d ++ #"/")) with true by (symmetry; apply last_is_iff; exists d; reflexivity). rewrite <- app_assoc. reflexivity.
  - destruct (last_is "/" dir) eqn:E; [|reflexivity]. apply last_is_iff in E. destruct E as [d E]. elim (N d E).
Qed.
Lemma the_path_length dir name : (List.length (the_path dir name) <= List.length dir + 1 + List.length name)%nat.
Proof. unfold the_path. rewrite !app_length. destruct (last_is "/" dir); cbn; lia. Qed.
Lemma paste_full dir name cmd : paste_in (bufsz dir name cmd) dir name = the_path dir name.
Proof.
  unfold paste_in, strlcpy. pose proof (the_path_length dir name) as L. unfold the_path in *.
  apply firstn_all2. unfold bufsz. lia.
Qed.
Lemma strlcat_full n a b : (List.length a + List.length b < n)%nat -> strlcat n a b = a ++ b.
Proof.
  intros H. unfold strlcat. destruct (Nat.leb_spec n (List.length a)); [lia|]. apply firstn_all2. rewrite app_length. lia.
Qed.
Definition the_arg (cmd : option cstr) (name : cstr) : option cstr :=
  match cmd with
  | Some c => Some c
  | None => if numbered "S" name then Some #"start" else if numbered "K" name then Some #"stop" else None
  end.
Definition the_cmd (dir : cstr) (cmd : option cstr) (name : cstr) : cstr :=
  the_path dir name ++ match the_arg cmd name with Some a => " "%char :: a | None => [] end.
Lemma numbered_iff c name : numbered c name = true <-> exists d r, name = c :: d :: r /\ isdigit d = true.
Proof.
  unfold numbered. split.
  - destruct name as [|x [|d r]]; try discriminate. intros H. apply andb_prop in H. destruct H as [H K].
    apply ch_eqb_eq in H. subst. exists d, r. split; [reflexivity|exact K].
  - intros (d & r & -> & H). rewrite ch_eqb_refl, H. reflexivity.
Qed.
Lemma the_arg_spec cmd name a : argument cmd name a <-> a = the_arg cmd name.
Proof.
  split.
  - intros H. destruct H as [c name|d r D|d r D|name N]; cbn [the_arg].
    + reflexivity.
    + replace (numbered "S" ("S"%char :: d :: r)) with true by (symmetry; apply numbered_iff; eauto). reflexivity.
    + replace (numbered "K" ("K"%char :: d :: r)) with true by (symmetry; apply numbered_iff; eauto). reflexivity.
    + destruct (numbered "S" name) eqn:E1.
      { apply numbered_iff in E1. destruct E1 as (d & r & E1 & D). rewrite (N _ _ _ E1 (or_introl eq_refl)) in D. discriminate. }
      destruct (numbered "K" name) eqn:E2; [|reflexivity].
      apply numbered_iff in E2. destruct E2 as (d & r & E2 & D). rewrite (N _ _ _ E2 (or_intror eq_refl)) in D. discriminate.
  - intros ->. destruct cmd as [c|]; cbn [the_arg]; [constructor|].
    destruct (numbered "S" name) eqn:E1.
    { apply numbered_iff in E1. destruct E1 as (d & r & -> & D). constructor. exact D. }
    destruct (numbered "K" name) eqn:E2.
    { apply numbered_iff in E2. destruct E2 as (d & r & -> & D). constructor. exact D. }
    constructor. intros c d r -> [->| ->].
    + destruct (isdigit d) eqn:D; [|reflexivity]. assert (X : numbered "S" ("S"%char :: d :: r) = true) by (apply numbered_iff; eauto). congruence.
    + destruct (isdigit d) eqn:D; [|reflexivity]. assert (X : numbered "K" ("K"%char :: d :: r) = true) by (apply numbered_iff; eauto). congruence.
Qed.
Lemma command_full dir cmd name : command (bufsz dir name cmd) (the_path dir name) cmd name = the_cmd dir cmd name.
Proof.
  unfold command, the_cmd. pose proof (the_path_length dir name) as L. destruct cmd as [c|]; cbn [the_arg].
  - rewrite (strlcat_full _ (the_path dir name) #" ") by (unfold bufsz, cmdlen; cbn [List.length list_ascii_of_string]; lia).
    rewrite strlcat_full by (rewrite app_length; unfold bufsz, cmdlen; cbn [List.length list_ascii_of_string]; lia).
    rewrite <- app_assoc. reflexivity.
  - destruct (numbered "S" name); [|destruct (numbered "K" name); [|rewrite app_nil_r; reflexivity]];
    rewrite strlcat_full by (unfold bufsz, cmdlen; cbn [List.length list_ascii_of_string]; lia); reflexivity.
Qed.
Lemma runs_cmd dir cmd name c : runs dir cmd name c <-> c = the_cmd dir cmd name.
Proof.
  unfold runs, the_cmd. split.
  - intros (p & a & P & A & ->). apply file_in_path in P. apply the_arg_spec in A. subst. reflexivity.
  - intros ->. exists (the_path dir name), (the_arg cmd name). split; [apply the_path_in|]. split; [apply the_arg_spec; reflexivity|reflexivity].
Qed.

Definition is_script (W : world) (dir : cstr) (sysv : bool) (hist : list cstr) (name : cstr) : bool :=
  negb (last_is "~" name) && match w_stat W hist (the_path dir name) with Some (x, d) => x && negb d | None => false end &&
  (negb sysv || sysv_name name).
Lemma sysv_iff name : sysv_name name = true <-> exists r, name = "S"%char :: r \/ name = "K"%char :: r.
Proof.
  unfold sysv_name. split.
  - destruct name as [|c r]; [discriminate|]. intros H. apply orb_prop in H. exists r.
    destruct H as [H|H]; apply ch_eqb_eq in H; subst; [left|right]; reflexivity.
  - intros [r [->| ->]]; reflexivity.
Qed.
Lemma script_iff W dir sysv hist name : script W dir sysv hist name <-> is_script W dir sysv hist name = true.
Proof.
  unfold script, is_script. rewrite !andb_true_iff. split.
  - intros (A & (p & P & B) & C). apply file_in_path in P. subst. rewrite B. split; [split; [|reflexivity]|].
    + destruct (last_is "~" name) eqn:E; [|reflexivity]. apply last_is_iff in E. destruct E as [p E]. elim (A p E).
    + destruct sysv; [|reflexivity]. apply sysv_iff, C. reflexivity.
  - intros ((A & B) & C). split; [|split].
    + intros p E. assert (X : last_is "~" name = true) by (apply last_is_iff; exists p; exact E). rewrite X in A. discriminate.
    + exists (the_path dir name). split; [apply the_path_in|]. destruct (w_stat W hist (the_path dir name)) as [[x d]|]; [|discriminate].
      destruct x, d; try discriminate. reflexivity.
    + intros ->. apply sysv_iff, C.
Qed.
Lemma parts_step W dir cmd sysv hist rc name rest :
  parts W dir cmd sysv hist rc (name :: rest) =
  if is_script W dir sysv hist name then
    let c := the_cmd dir cmd name in
    let rc := rc + result (w_run W hist c) in
    if rc >? int_max then None else
    match parts W dir cmd sysv (hist ++ [c]) rc rest with
    | None => None
    | Some (l, rc) => Some ((name, c) :: l, rc)
    end
  else parts W dir cmd sysv hist rc rest.
Proof.
  cbn [parts]. rewrite paste_full, command_full. unfold is_script.
  destruct (last_is "~" name); [reflexivity|]. destruct (w_stat W hist (the_path dir name)) as [[x d]|]; [|reflexivity].
  destruct x, d, sysv, (sysv_name name); reflexivity.
Qed.

(** ** All of them *)
Definition sum (l : list Z) : Z := fold_right Z.add 0 l.
Lemma parts_ok W dir cmd sysv names : forall hist rc l rc',
  in_order names -> parts W dir cmd sysv hist rc names = Some (l, rc') ->
  in_order (map fst l) /\
  (forall n c, In (n, c) l -> In n names /\ c = the_cmd dir cmd n) /\
  (forall n, In n names -> exists l1 l2, l = l1 ++ l2 /\ (forall p, In p l1 -> before (fst p) n) /\
     (forall p, In p l2 -> fst p = n \/ before n (fst p)) /\
     (In n (map fst l) <-> is_script W dir sysv (hist ++ map snd l1) n = true)) /\
  rc' = rc + sum (map result (outcomes W hist (map snd l))).
Proof.
  induction names as [|name rest IH]; intros hist rc l rc' O H.
  - cbn [parts] in H. injection H as <- <-. split; [constructor|]. split; [intros n c []|]. split; [intros n []|]. cbn. lia.
  - inversion O as [|n0 l0 O' B E]; subst. rewrite parts_step in H. destruct (is_script W dir sysv hist name) eqn:S.
    + cbv zeta in H. set (c := the_cmd dir cmd name) in *. destruct (_ >? _); [discriminate|].
      destruct (parts W dir cmd sysv (hist ++ [c]) _ rest) as [[l' r']|] eqn:P; [|discriminate].
      injection H as <- <-. destruct (IH _ _ _ _ O' P) as (I1 & I2 & I3 & I4).
      split.
      { cbn [map fst]. constructor; [exact I1|]. intros m M. apply in_map_iff in M. destruct M as ([m' c'] & <- & M). apply B, (I2 _ _ M). }
      split.
      { intros n c' [E|M]; [injection E as <- <-; split; [left; reflexivity|reflexivity]|].
        destruct (I2 _ _ M) as [A1 A2]. split; [right; exact A1|exact A2]. }
      split.
      { intros n [<-|M].
        - exists [], ((name, c) :: l'). split; [reflexivity|]. split; [intros p []|]. split.
          + intros p [<-|Q]; [left; reflexivity|]. right. destruct p as [m c']. apply B, (I2 _ _ Q).
          + cbn [map]. rewrite app_nil_r, S. split; [reflexivity|intros _; left; reflexivity].
        - destruct (I3 n M) as (l1 & l2 & -> & Q1 & Q2 & Q3). exists ((name, c) :: l1), l2. split; [reflexivity|]. split.
          + intros p [<-|Q]; [apply B, M|apply Q1, Q].
          + split; [exact Q2|]. cbn [map]. rewrite <- app_assoc in Q3. cbn [snd]. change (hist ++ c :: map snd l1) with (hist ++ [c] ++ map snd l1).
            rewrite <- Q3. cbn [app map fst In]. split; [intros [E|E]; [|exact E]|intros E; right; exact E].
            subst n. elim (before_irrefl name). apply B, M. }
      { cbn [map snd outcomes sum fold_right]. fold (sum (map result (outcomes W (hist ++ [c]) (map snd l')))). lia. }
    + destruct (IH _ _ _ _ O' H) as (I1 & I2 & I3 & I4). split; [exact I1|].
      split; [intros n c M; destruct (I2 _ _ M); split; [right|]; assumption|]. split; [|exact I4].
      intros n [<-|M]; [|apply I3, M]. exists [], l. split; [reflexivity|]. split; [intros p []|]. split.
      * intros p Q. right. destruct p as [m c']. apply B, (I2 _ _ Q).
      * cbn [map]. rewrite app_nil_r, S. split; [|discriminate]. intros A. apply in_map_iff in A. destruct A as ([m c'] & E & A).
        cbn in E. subst m. elim (before_irrefl name). apply B, (I2 _ _ A).
Qed.

Lemma result_range o : 0 <= result o <= 255.
Proof. destruct o; cbn [result]; try lia. Qed.
Lemma parts_some W dir cmd sysv names : forall hist rc,
  rc + 255 * Z.of_nat (List.length names) <= int_max -> exists x, parts W dir cmd sysv hist rc names = Some x.
Proof.
  induction names as [|name rest IH]; intros hist rc H; [eexists; reflexivity|]. cbn [List.length] in H.
  rewrite parts_step. destruct (is_script W dir sysv hist name).
  - cbv zeta. pose proof (result_range (w_run W hist (the_cmd dir cmd name))) as R.
    destruct (Z.gtb_spec (rc + result (w_run W hist (the_cmd dir cmd name))) int_max); [lia|].
    destruct (IH (hist ++ [the_cmd dir cmd name]) (rc + result (w_run W hist (the_cmd dir cmd name)))) as [[l r] E]; [lia|].
    rewrite E. eexists. reflexivity.
  - apply IH. lia.
Qed.

(** ** The theorems *)
Lemma parts_scripts_lem : forall W dir cmd sysv names log rc, NoDup names ->
  run_parts W dir cmd sysv (Some names) = Some (log, rc) ->
  in_order (map fst log) /\
  (forall n c, In (n, c) log -> In n names /\ runs dir cmd n c) /\
  (forall n, In n names -> exists l1 l2, log = l1 ++ l2 /\ (forall p, In p l1 -> before (fst p) n) /\
     (forall p, In p l2 -> fst p = n \/ before n (fst p)) /\
     (In n (map fst log) <-> script W dir sysv (map snd l1) n)).
Proof.
  intros W dir cmd sysv names log rc D H. cbn [run_parts] in H.
  destruct (parts_ok _ _ _ _ _ _ _ _ _ (alphasort_order names D) H) as (A & B & C & _).
  split; [exact A|]. split.
  - intros n c M. destruct (B _ _ M) as [M1 M2]. split; [apply alphasort_in, M1|apply runs_cmd, M2].
  - intros n M. apply alphasort_in in M. destruct (C n M) as (l1 & l2 & E & Q1 & Q2 & Q3). exists l1, l2.
    repeat (split; [assumption|]). rewrite Q3, script_iff. reflexivity.
Qed.

Lemma parts_result_lem : forall W dir cmd sysv names, NoDup names -> Z.of_nat (List.length names) < 8388608 -> statuses W ->
  exists log rc, run_parts W dir cmd sysv (Some names) = Some (log, rc) /\ 0 <= rc /\
    (rc = 0 <-> forall o, In o (outcomes W [] (map snd log)) -> o = Exited 0).
Proof.
  intros W dir cmd sysv names D L S. destruct (parts_some W dir cmd sysv (alphasort names) [] 0) as [[log rc] H].
  { rewrite alphasort_length. unfold int_max. lia. }
  exists log, rc. split; [exact H|]. destruct (parts_ok _ _ _ _ _ _ _ _ _ (alphasort_order names D) H) as (_ & _ & _ & E).
  assert (G : forall l h, 0 <= sum (map result (outcomes W h l)) /\
     (sum (map result (outcomes W h l)) = 0 <-> forall o, In o (outcomes W h l) -> o = Exited 0)).
  { clear - S. induction l as [|c l IH]; intros h; cbn [outcomes map sum fold_right]; [split; [lia|split; [intros _ o []|reflexivity]]|].
    fold (sum (map result (outcomes W (h ++ [c]) l))). destruct (IH (h ++ [c])) as [P Q]. pose proof (result_range (w_run W h c)) as R.
    split; [lia|]. split.
    - intros Z0. assert (Z1 : result (w_run W h c) = 0) by lia. assert (Z2 : sum (map result (outcomes W (h ++ [c]) l)) = 0) by lia.
      intros o [<-|M]; [|apply Q; assumption]. destruct (w_run W h c) as [n|s|] eqn:X; cbn [result] in Z1; try lia.
      pose proof (S h c n X) as Y. rewrite Z.mod_small in Z1 by lia. congruence.
    - intros A. rewrite (A (w_run W h c)) by (left; reflexivity). assert (Y : sum (map result (outcomes W (h ++ [c]) l)) = 0) by (apply Q; intros o M; apply A; right; exact M).
      rewrite Y. reflexivity. }
  destruct (G (map snd log) []) as [G1 G2]. rewrite Z.add_0_l in E. rewrite E. split; assumption.
Qed.

(** the program: no false alarm *)
Lemma runparts_exit_lem : forall W dir sysv names n, NoDup names -> Z.of_nat (List.length names) < 8388608 -> statuses W ->
  runparts_exit W dir sysv (Some names) = Some n -> n <> 0 ->
  exists log rc o, run_parts W dir None sysv (Some names) = Some (log, rc) /\
    In o (outcomes W [] (map snd log)) /\ o <> Exited 0.
Proof.
  intros W dir sysv names n D L S H N. destruct (parts_result_lem W dir None sysv names D L S) as (log & rc & E & P & Q).
  unfold runparts_exit in H. rewrite E in H. destruct (Z.eqb_spec rc (-1)); [lia|]. injection H as <-.
  assert (R : rc <> 0) by (intros ->; apply N; reflexivity).
  assert (X : forall l, (forall o, In o l -> o = Exited 0) \/ exists o, In o l /\ o <> Exited 0).
  { induction l as [|o l IH]; [left; intros o []|].
    assert (Y : o = Exited 0 \/ o <> Exited 0).
    { destruct o as [k|k|]; [|right; discriminate|right; discriminate]. destruct (Z.eq_dec k 0) as [->|K]; [left; reflexivity|right; congruence]. }
    destruct Y as [Y|Y]; [|right; exists o; split; [left; reflexivity|exact Y]].
    destruct IH as [IH|(o' & A & B)]; [left; intros o' [<-|M]; [exact Y|apply IH, M]|right; exists o'; split; [right; exact A|exact B]]. }
  destruct (X (outcomes W [] (map snd log))) as [A|(o & A & B)]; [elim R; apply Q, A|].
  exists log, rc, o. split; [exact E|]. split; assumption.
Qed.

(** plain names are taken by the shell as what they are *)
Lemma plain_blank c : plain_char c = true -> mem c #" " = false.
Proof.
  intros H. destruct (mem c #" ") eqn:E; [|reflexivity]. apply mem_iff in E. destruct E as [<-|[]]. vm_compute in H. discriminate.
Qed.
Lemma cut_none f s : (forall c, In c s -> f c = false) -> cut f s = (s, []).
Proof.
  induction s as [|c s IH]; intros H; [reflexivity|]. cbn [cut]. rewrite (H c) by (left; reflexivity). rewrite IH by (intros d M; apply H; right; exact M). reflexivity.
Qed.
Lemma cut_at f s c r : (forall d, In d s -> f d = false) -> f c = true -> cut f (s ++ c :: r) = (s, c :: r).
Proof.
  intros H F. induction s as [|d s IH]; cbn [cut app]; [rewrite F; reflexivity|].
  rewrite (H d) by (left; reflexivity). rewrite IH by (intros e M; apply H; right; exact M). reflexivity.
Qed.
Lemma tok_one s : s <> [] -> plain s -> strtoks #" " s = [s].
Proof.
  intros N P. destruct s as [|c s]; [congruence|]. unfold strtoks. cbn [strtoks_ List.length].
  unfold strtok. cbn [skip]. rewrite (plain_blank c (P c (or_introl eq_refl))).
  rewrite cut_none by (intros d M; apply plain_blank, P, M). cbn [tl]. unfold strtok. destruct (List.length s); reflexivity.
Qed.
Lemma tok_two s a : s <> [] -> plain s -> a <> [] -> plain a -> strtoks #" " (s ++ " "%char :: a) = [s; a].
Proof.
  intros N P N2 P2. destruct s as [|c s]; [congruence|]. destruct a as [|d a]; [congruence|].
  unfold strtoks. replace (List.length ((c :: s) ++ " "%char :: d :: a)) with (S (S (List.length s + S (List.length a))))
    by (rewrite app_length; cbn [List.length]; lia).
  cbn [strtoks_]. unfold strtok at 1. cbn [skip app]. rewrite (plain_blank c (P c (or_introl eq_refl))).
  change (c :: s ++ " "%char :: d :: a) with ((c :: s) ++ " "%char :: d :: a).
  rewrite cut_at; [|intros e M; apply plain_blank, P, M|reflexivity]. cbn [tl]. f_equal.
  unfold strtok at 1. cbn [skip]. rewrite (plain_blank d (P2 d (or_introl eq_refl))).
  rewrite cut_none by (intros e M; apply plain_blank, P2, M). cbn [tl]. f_equal.
Qed.
Lemma parts_words_lem : forall dir cmd name c path, plain dir -> plain name -> (forall a, cmd = Some a -> a <> [] /\ plain a) ->
  runs dir cmd name c -> file_in dir name path ->
  strtoks #" " c = path :: match the_arg cmd name with Some a => [a] | None => [] end.
Proof.
  intros dir cmd name c path Pd Pn Pc R F. apply runs_cmd in R. apply file_in_path in F. subst. unfold the_cmd.
  assert (P : plain (the_path dir name)).
  { intros x M. unfold the_path in M. rewrite !in_app_iff in M. destruct M as [M|[M|M]]; [apply Pd, M| |apply Pn, M].
    destruct (last_is "/" dir); [elim M|]. destruct M as [<-|[]]. reflexivity. }
  assert (N : the_path dir name <> []).
  { unfold the_path. destruct dir as [|x d]; [cbn; discriminate|discriminate]. }
  assert (A : forall a, the_arg cmd name = Some a -> a <> [] /\ plain a).
  { intros a E. destruct cmd as [k|]; cbn [the_arg] in E; [injection E as ->; apply Pc; reflexivity|].
    assert (X : a = #"start" \/ a = #"stop").
    { destruct (numbered "S" name); [left; congruence|]. destruct (numbered "K" name); [right; congruence|discriminate]. }
    destruct X as [->| ->]; split; try discriminate; intros x M; cbn in M; repeat (destruct M as [<-|M]; [reflexivity|]); elim M. }
  destruct (the_arg cmd name) as [a|].
  - destruct (A a eq_refl) as [A1 A2]. apply tok_two; assumption.
  - rewrite app_nil_r. apply tok_one; assumption.
Qed.
Lemma parts_shell_lem : forall dir cmd name c path arg, plain dir -> plain name -> (forall a, cmd = Some a -> a <> [] /\ plain a) ->
  runs dir cmd name c -> file_in dir name path -> argument cmd name arg ->
  strtoks #" " c = path :: match arg with Some a => [a] | None => [] end.
Proof.
  intros dir cmd name c path arg Pd Pn Pc R F A. apply the_arg_spec in A. subst. exact (parts_words_lem dir cmd name c path Pd Pn Pc R F).
Qed.

(** ** The environment *)
Lemma getenv_app n a b : getenv n (a ++ b) = match getenv n a with Some v => Some v | None => getenv n b end.
Proof. induction a as [|[m v] a IH]; [reflexivity|]. cbn [app getenv]. destruct (str_eqb m n); [reflexivity|exact IH]. Qed.
Lemma run_env_pairs l e : run_env (flat_map (fun p => [fst p; snd p]) l) e = rev l ++ e.
Proof.
  revert e. induction l as [|[n v] l IH]; intros e; [reflexivity|]. cbn [flat_map app fst snd run_env rev]. rewrite IH, <- app_assoc. reflexivity.
Qed.
Lemma env_get_lem : forall l e n, getenv n (run_env (flat_map (fun p => [fst p; snd p]) l) e) =
  match getenv n (rev l) with Some v => Some v | None => getenv n e end.
Proof. intros. rewrite run_env_pairs. apply getenv_app. Qed.

(** ** Hook scripts *)
Lemma script_run_ok base halt h : documented h -> (List.length base + 14 < 256)%nat ->
  exists env, script_run base halt h = Some (base ++ skipn 4 (hook_name h), env) /\
    forall e, getenv #"FINIT_HOOK_NAME" (run_env env e) = Some (hook_name h) /\
      (late h -> getenv #"FINIT_SHUTDOWN" (run_env env e) = Some (shut_name halt)) /\
      (~ late h -> getenv #"FINIT_SHUTDOWN" (run_env env e) = getenv #"FINIT_SHUTDOWN" e).
Proof.
  intros [D1 D2] L. unfold script_run.
  replace (Nat.ltb (List.length (hook_name h)) 4) with false by (destruct h; try congruence; reflexivity).
  eexists. split.
  - f_equal. f_equal.
    rewrite (strlcat_full 256 [] base) by (cbn [List.length]; lia). rewrite app_nil_l.
    assert (X : (List.length (skipn 4 (hook_name h)) <= 13)%nat) by (clear; destruct h; apply Nat.leb_le; reflexivity).
    rewrite strlcat_full by lia. reflexivity.
  - intros e. unfold late. destruct h; try congruence;
      (split; [destruct halt; reflexivity|]; split; [intros K|intros K]; try (destruct halt; reflexivity);
       try solve [exfalso; intuition discriminate]).
Qed.
Definition script_hook (h : hook) : Prop :=
  h <> HSvcReconf /\ h <> HRunlevelChange /\ h <> HSvcPlugin /\ h <> HNetworkDn /\ h <> HSvcDn /\ h <> HSysDn.
Lemma hook_once_lem : forall base halt avail loaded h, documented h -> ~ (avail = true /\ loaded = false) ->
  ~ In h [HSvcPlugin; HNetworkDn; HSvcDn; HSysDn] \/ loaded = false ->
  hook_scripts base halt avail loaded h = [script_run base halt h].
Proof.
  intros base halt avail loaded h [D1 D2] A B. unfold hook_scripts. destruct avail, loaded; cbn [negb andb app].
  - destruct h; try congruence; try reflexivity; exfalso; destruct B as [B|B]; try discriminate; apply B; cbn [In]; tauto.
  - elim A. split; reflexivity.
  - destruct h; try congruence; try reflexivity; exfalso; destruct B as [B|B]; try discriminate; apply B; cbn [In]; tauto.
  - reflexivity.
Qed.
