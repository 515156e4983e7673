(** Proofs about keys and values, and kernel modules. *)
From Coq Require Import List String Ascii NArith ZArith Bool Lia Arith FinFun.
From Verif Require Import CStr CStrLib ParseModel ParseSpec TmpModel ModModel ModSpec.
Import ListNotations.
Local Open Scope Z_scope.

(** ** Keys and values *)
Lemma skip_seps sep g v : of_seps sep g -> skip (fun c => mem c sep) (g ++ v) = skip (fun c => mem c sep) v.
Proof. intros H. apply skip_app. eapply Forall_impl; [|exact H]. intros c. apply mem_iff. Qed.
Lemma no_seps_mem sep w : no_seps sep w -> Forall (fun c => mem c sep = false) w.
Proof. intros H. eapply Forall_impl; [|exact H]. intros c. apply mem_false. Qed.
Lemma cut_word sep w g : no_seps sep w -> (g = [] \/ exists c r, g = c :: r /\ In c sep) ->
  cut (fun c => mem c sep) (w ++ g) = (w, g).
Proof.
  intros H G. apply cut_app; [apply no_seps_mem, H|]. destruct G as [->|(c & r & -> & I)]; [exact Logic.I|].
  apply mem_iff, I.
Qed.
Lemma white_false c : ~ white c -> isspace c = false.
Proof. intros H. destruct (isspace c) eqn:E; [apply isspace_iff in E; tauto|reflexivity]. Qed.
Lemma skip_white sp m : Forall white sp -> skip isspace (rev sp ++ m) = skip isspace m.
Proof.
  intros H. apply skip_app. apply Forall_rev. eapply Forall_impl; [|exact H]. intros c. apply isspace_iff.
Qed.
Lemma quote_true q : quote q -> isquote q = true.
Proof. apply isquote_iff. Qed.
Lemma quote_not_white q : quote q -> ~ white q.
Proof.
  intros H W. apply isspace_iff in W. destruct H as [->| ->]; discriminate.
Qed.
Lemma unquote_ok v w : value_of v w -> unquote_val v = w.
Proof.
  intros [v' H|q w' sp Q W|q w' c sp Q N C W|q sp Q W].
  - destruct v' as [|q r]; [reflexivity|]. cbn [unquote_val]. destruct (isquote q) eqn:E; [|reflexivity].
    apply isquote_iff in E. exfalso. exact (H q r eq_refl E).
  - cbn [unquote_val]. rewrite (quote_true q Q).
    replace (rev (w' ++ q :: sp)) with (rev sp ++ q :: rev w') by (rewrite rev_app_distr; cbn [rev]; rewrite <- app_assoc; reflexivity).
    rewrite skip_white by exact W. cbn [skip]. rewrite (white_false q (quote_not_white q Q)), ch_eqb_refl. apply rev_involutive.
  - cbn [unquote_val]. rewrite (quote_true q Q).
    replace (rev (w' ++ c :: sp)) with (rev sp ++ c :: rev w') by (rewrite rev_app_distr; cbn [rev]; rewrite <- app_assoc; reflexivity).
    rewrite skip_white by exact W. cbn [skip]. rewrite (white_false c C). rewrite (proj2 (ch_eqb_neq c q) N).
    cbn [rev]. rewrite rev_involutive. reflexivity.
  - cbn [unquote_val]. rewrite (quote_true q Q). rewrite <- (app_nil_r (rev sp)), skip_white by exact W. reflexivity.
Qed.
Lemma gap_head sep (g v : cstr) : g <> [] -> of_seps sep g -> g ++ v = [] \/ exists c r, g ++ v = c :: r /\ In c sep.
Proof.
  intros N H. destruct g as [|c g]; [congruence|]. inversion H; subst. right. exists c, (g ++ v). split; [reflexivity|assumption].
Qed.
Lemma value_gap sep key g v w : no_seps sep key -> g <> [] -> of_seps sep g -> begins sep v -> value_of v w ->
  fgetval (key ++ g ++ v) key sep = GVal w.
Proof.
  intros K N G (c & r & -> & C) V. unfold fgetval.
  rewrite cut_word; [|exact K|apply gap_head; assumption].
  rewrite str_eqb_refl. destruct g as [|d g]; [congruence|]. inversion G; subst. cbn [app tl].
  rewrite skip_seps by assumption. cbn [skip]. rewrite (proj2 (mem_false c sep) C). rewrite (unquote_ok _ _ V). reflexivity.
Qed.
Lemma value_read_ok sep key line w : keyed sep key line w -> fgetval line key sep = GVal w.
Proof. intros [g v w' K N G B V]. apply value_gap; assumption. Qed.
Lemma first_cut sep line w : first_word sep line w -> exists b, cut (fun c => mem c sep) line = (w, b).
Proof.
  intros [H [->|(c & r & -> & C)]].
  - exists []. rewrite <- (app_nil_r w) at 1. apply cut_word; [exact H|left; reflexivity].
  - exists (c :: r). apply cut_word; [exact H|]. right. eauto.
Qed.
Lemma value_other_ok sep key line w : first_word sep line w -> w <> key -> fgetval line key sep = GNone.
Proof.
  intros H N. destruct (first_cut _ _ _ H) as [b E]. unfold fgetval. rewrite E.
  destruct (str_eqb w key) eqn:X; [apply str_eqb_eq in X; congruence|reflexivity].
Qed.
Lemma value_crash sep key g : no_seps sep key -> of_seps sep g -> fgetval (key ++ g) key sep = GCrash.
Proof.
  intros K G. unfold fgetval. rewrite cut_word.
  - rewrite str_eqb_refl. destruct g as [|c g]; [reflexivity|]. inversion G; subst. cbn [tl].
    rewrite <- (app_nil_r g), skip_seps by assumption. reflexivity.
  - exact K.
  - destruct g as [|c g]; [left; reflexivity|]. inversion G; subst. right. eauto.
Qed.
Lemma last_none key old b : Forall (fun l => exists w, first_word #"=" l w /\ w <> key) b -> last_value key old b = Some old.
Proof.
  induction 1 as [|l b (w & F & N) _ IH]; [reflexivity|]. cbn [last_value].
  rewrite (value_other_ok _ _ _ _ F N). exact IH.
Qed.
Lemma last_ok key a l v b : forall old,
  Forall (fun l => (exists w, first_word #"=" l w /\ w <> key) \/ exists w, keyed #"=" key l w) a ->
  keyed #"=" key l v -> Forall (fun l => exists w, first_word #"=" l w /\ w <> key) b ->
  last_value key old (a ++ l :: b) = Some (Some v).
Proof.
  intros old A L B. revert old. induction A as [|x a X _ IH]; intros old; cbn [app last_value].
  - rewrite (value_read_ok _ _ _ _ L). apply last_none, B.
  - destruct X as [(w & F & N)|(w & K)].
    + rewrite (value_other_ok _ _ _ _ F N). apply IH.
    + rewrite (value_read_ok _ _ _ _ K). apply IH.
Qed.
Lemma last_crash key a g b : forall old,
  Forall (fun l => (exists w, first_word #"=" l w /\ w <> key) \/ exists w, keyed #"=" key l w) a ->
  no_seps #"=" key -> of_seps #"=" g -> last_value key old (a ++ (key ++ g) :: b) = None.
Proof.
  intros old A K G. revert old. induction A as [|x a X _ IH]; intros old; cbn [app last_value].
  - rewrite value_crash by assumption. reflexivity.
  - destruct X as [(w & F & N)|(w & Q)].
    + rewrite (value_other_ok _ _ _ _ F N). apply IH.
    + rewrite (value_read_ok _ _ _ _ Q). apply IH.
Qed.

(** ** Modules *)
Lemma seps_eq : seps = separators.
Proof. reflexivity. Qed.
Lemma gap_seps g : gap g -> g <> [] /\ of_seps seps g.
Proof.
  intros [N H]. split; [exact N|]. eapply Forall_impl; [|exact H]. intros c [->|[->| ->]]; cbn; tauto.
Qed.
Lemma hash_free s : ~ In "#"%char s -> Forall (fun c => ch_eqb c "#" = false) s.
Proof.
  intros H. apply Forall_forall. intros c I. apply ch_eqb_neq. intros ->. exact (H I).
Qed.
Lemma hash_not s : Forall (fun c => c <> "#"%char) s -> ~ In "#"%char s.
Proof. intros H I. rewrite Forall_forall in H. exact (H _ I eq_refl). Qed.
Lemma gap_hash g : gap g -> ~ In "#"%char g.
Proof.
  intros [_ H] I. rewrite Forall_forall in H. destruct (H _ I) as [E|[E|E]]; discriminate.
Qed.
Lemma strip_ok b s : Forall blank b -> (forall c r, s = c :: r -> ~ blank c) -> ~ In "#"%char s -> strip_line (b ++ s) = s.
Proof.
  intros B S N. unfold strip_line. rewrite skip_app.
  - rewrite skip_head.
    + rewrite cut_none by (apply hash_free, N). reflexivity.
    + destruct s as [|c r]; [exact I|]. destruct (isblank c) eqn:E; [|reflexivity]. apply isblank_iff in E.
      exfalso. exact (S c r eq_refl E).
  - eapply Forall_impl; [|exact B]. intros c. apply isblank_iff.
Qed.
Lemma semi_not b s : Forall blank b -> (forall r, s <> ";"%char :: r) -> starts #";" (b ++ s) = false.
Proof.
  intros B S. destruct (starts #";" (b ++ s)) eqn:E; [|reflexivity]. apply starts_iff in E. destruct E as [r E].
  destruct b as [|c b]; cbn in E.
  - exfalso. exact (S _ E).
  - inversion B; subst. injection E as -> _. destruct H1 as [X|X]; discriminate.
Qed.
Lemma do_set exec x b g s : Forall blank b -> gap g -> begins seps s -> ~ In "#"%char s -> (forall q r, s = q :: r -> ~ quote q) ->
  do_line exec x (b ++ #"set" ++ g ++ s) = set_line exec x s.
Proof.
  intros B G S H Q. unfold do_line.
  rewrite semi_not; [|exact B|intros r; discriminate].
  rewrite strip_ok.
  - destruct (gap_seps g G) as [N O].
    change (match fgetval (#"set" ++ g ++ s) #"set" seps with
       | GCrash => ACrash | GVal v => set_line exec x v
       | GNone => match strtok #" " (#"set" ++ g ++ s) with None => ASkip | Some (m, args) => ATask {| t_mod := m; t_index := x_index x; t_lvl := x_lvl x; t_prog := x_prog x; t_args := args |} end end = set_line exec x s).
    rewrite (value_gap seps #"set" g s s).
    + reflexivity.
    + repeat (apply Forall_cons; [cbn; intuition discriminate|]). apply Forall_nil.
    + exact N.
    + exact O.
    + exact S.
    + apply vo_plain. exact Q.
  - exact B.
  - intros c r E. cbn in E. injection E as <- _. intros [X|X]; discriminate.
  - rewrite !in_app_iff. intros [X|[X|X]]; [cbn in X; intuition discriminate|exact (gap_hash g G X)|exact (H X)].
Qed.
Definition keys := [#"index"; #"runlevel"; #"modprobe"].
Lemma key_facts key : In key keys -> no_seps seps key /\ ~ In "#"%char key /\ exists c r, key = c :: r /\ ~ quote c /\ ~ In c seps.
Proof.
  intros H. cbn [keys In] in H. destruct H as [<-|[<-|[<-|[]]]];
  (split; [repeat (apply Forall_cons; [cbn; intuition discriminate|]); apply Forall_nil|]);
  (split; [cbn; intuition discriminate|]); eexists; eexists; (split; [reflexivity|]); (split; [intros [X|X]; discriminate|cbn; intuition discriminate]).
Qed.
Lemma do_setting exec x key line w : In key keys -> setting key line w -> exists h v, gap h /\ begins seps v /\ value_of v w /\
  do_line exec x line = set_line exec x (key ++ h ++ v).
Proof.
  intros K [b g h v w' B G H V N U]. exists h, v. split; [exact H|]. split; [exact V|]. split; [exact U|].
  destruct (key_facts key K) as (S & Q & c & r & E & QC & SC).
  apply do_set; [exact B|exact G| | |].
  - rewrite E. exists c, (r ++ h ++ v). split; [reflexivity|exact SC].
  - rewrite !in_app_iff. intros [X|[X|X]]; [exact (Q X)|exact (gap_hash h H X)|exact (N X)].
  - intros q r' E'. rewrite E in E'. injection E' as <- _. exact QC.
Qed.
Lemma noindex_not key h v : In key keys -> str_eqb (key ++ h ++ v) #"noindex" = false.
Proof. intros H. cbn [keys In] in H. destruct H as [<-|[<-|[<-|[]]]]; reflexivity. Qed.
Lemma other_key key key' h v : In key keys -> In key' keys -> key <> key' -> gap h -> fgetval (key ++ h ++ v) key' seps = GNone.
Proof.
  intros K _ N G. apply value_other_ok with (w := key); [|exact N]. destruct (key_facts key K) as (S & _).
  split; [exact S|]. right. destruct (gap_seps h G) as [M O]. destruct h as [|c h]; [congruence|]. inversion O; subst.
  exists c, (h ++ v). split; [reflexivity|assumption].
Qed.
Lemma keys_in : In #"index" keys /\ In #"runlevel" keys /\ In #"modprobe" keys.
Proof. cbn. tauto. Qed.
Lemma key_val key h v w : In key keys -> gap h -> begins seps v -> value_of v w -> fgetval (key ++ h ++ v) key seps = GVal w.
Proof.
  intros K G B V. destruct (gap_seps h G) as [N O]. destruct (key_facts key K) as (S & _). apply value_gap; assumption.
Qed.
Lemma int_of_number v n : number v n -> - 2147483648 <= n <= 2147483647 -> int_of v = Some n.
Proof.
  intros N R. unfold int_of. rewrite (proj2 (strtoll_number v n) N). change INT_MAX with 2147483647.
  destruct ((- (2147483647) - 1 <=? n) && (n <=? 2147483647)) eqn:E; [reflexivity|]. lia.
Qed.
Lemma line_index exec x line v n : setting #"index" line v -> number v n -> - 2147483648 <= n <= 2147483647 ->
  do_line exec x line = ASet {| x_index := n; x_lvl := x_lvl x; x_prog := x_prog x |}.
Proof.
  intros S N R. destruct keys_in as (K & _ & _). destruct (do_setting exec x _ _ _ K S) as (h & w & G & B & V & ->).
  unfold set_line. rewrite (noindex_not _ h w K), (key_val _ _ _ _ K G B V), (int_of_number _ _ N R). reflexivity.
Qed.
Lemma line_level exec x line v : setting #"runlevel" line v -> do_line exec x line = ASet {| x_index := x_index x; x_lvl := v; x_prog := x_prog x |}.
Proof.
  intros S. destruct keys_in as (K1 & K & _). destruct (do_setting exec x _ _ _ K S) as (h & w & G & B & V & ->).
  unfold set_line. rewrite (noindex_not _ h w K), (other_key #"runlevel" #"index"), (key_val _ _ _ _ K G B V) by (assumption || discriminate). reflexivity.
Qed.
Lemma line_prog exec x line v : setting #"modprobe" line v ->
  do_line exec x line = if exec v then ASet {| x_index := x_index x; x_lvl := x_lvl x; x_prog := v |} else AStop.
Proof.
  intros S. destruct keys_in as (K1 & K2 & K). destruct (do_setting exec x _ _ _ K S) as (h & w & G & B & V & ->).
  unfold set_line. rewrite (noindex_not _ h w K), (other_key #"modprobe" #"index"), (other_key #"modprobe" #"runlevel"), (key_val _ _ _ _ K G B V) by (assumption || discriminate).
  reflexivity.
Qed.
Lemma line_off exec x line : off line -> do_line exec x line = ASet {| x_index := 0; x_lvl := x_lvl x; x_prog := x_prog x |}.
Proof.
  intros [b g B G]. rewrite do_set; [reflexivity|exact B|exact G| | |].
  - exists "n"%char, #"oindex". split; [reflexivity|]. cbn. intuition discriminate.
  - cbn. intuition discriminate.
  - intros q r E. injection E as <- _. intros [X|X]; discriminate.
Qed.
Lemma line_idle exec x line : idle line -> do_line exec x line = ASkip.
Proof.
  intros [r|b B|b g w r B G N F H Q1 Q2 K].
  - reflexivity.
  - unfold do_line. rewrite <- (app_nil_r b), semi_not by (exact B || intros r; discriminate).
    rewrite strip_ok; [reflexivity|exact B|intros c r E; discriminate|intros []].
  - rewrite do_set; [|exact B|exact G| |exact H|].
    + unfold set_line. destruct (str_eqb r #"noindex") eqn:E.
      * exfalso. apply str_eqb_eq in E. subst r. apply K. left. destruct F as [F [->|(c & r & E & I)]]; [reflexivity|].
        exfalso. assert (X : In c #"noindex") by (rewrite E; apply in_or_app; right; left; reflexivity).
        cbn in X, I. destruct I as [<-|[<-|[<-|[]]]]; intuition discriminate.
      * rewrite !(value_other_ok separators _ r w) by (exact F || (intros ->; apply K; cbn; tauto)). reflexivity.
    + destruct w as [|c w]; [congruence|]. destruct F as [F E]. inversion F; subst. exists c.
      destruct E as [->|(d & s & -> & _)]; eexists; (split; [reflexivity|assumption]).
    + intros q s -> [->| ->]; [apply Q2|apply Q1]; left; reflexivity.
Qed.
Lemma mod_facts m : modname m -> no_seps seps m /\ Forall (fun c => ~ In c #" ") m /\ ~ In "#"%char m /\ exists c r, m = c :: r /\ ~ blank c.
Proof.
  intros [N _ C _]. repeat split.
  - eapply Forall_impl; [|exact C]. intros c (E & B & _) X. cbn in X. destruct X as [<-|[<-|[<-|[]]]]; [congruence| |]; apply B; [left|right]; reflexivity.
  - eapply Forall_impl; [|exact C]. intros c (_ & B & _) [<-|[]]. apply B. left. reflexivity.
  - apply hash_not. eapply Forall_impl; [|exact C]. intros c (_ & _ & H). exact H.
  - destruct m as [|c r]; [congruence|]. inversion C; subst. exists c, r. split; [reflexivity|tauto].
Qed.
Lemma do_mod exec x b s m a : Forall blank b -> modname m -> ~ In "#"%char s ->
  (s = m /\ a = [] \/ s = m ++ " "%char :: a) ->
  do_line exec x (b ++ s) = ATask {| t_mod := m; t_index := x_index x; t_lvl := x_lvl x; t_prog := x_prog x; t_args := a |}.
Proof.
  intros B M H S. destruct (mod_facts m M) as (W & P & _ & c & r & E & C). unfold do_line.
  assert (X : exists r', s = c :: r') by (destruct S as [[-> _]| ->]; rewrite E; cbn; eauto). destruct X as [r' X].
  rewrite semi_not; [|exact B|].
  - rewrite strip_ok; [|exact B| |exact H].
    + rewrite X. cbv iota beta. rewrite <- X. rewrite (value_other_ok seps #"set" s m).
      * assert (T : strtok #" " s = Some (m, a)).
        { unfold strtok. rewrite skip_head.
          - destruct S as [[S Ha]|S].
            + rewrite X. cbv iota beta. rewrite <- X, S. rewrite cut_none by (eapply Forall_impl; [|exact P]; intros d D; apply mem_false, D).
              rewrite Ha. reflexivity.
            + rewrite X. cbv iota beta. rewrite <- X, S, cut_app; [reflexivity| |reflexivity].
              eapply Forall_impl; [|exact P]; intros d D; apply mem_false, D.
          - rewrite X. apply mem_false. intros [<-|[]]. apply C. left. reflexivity. }
        rewrite T. reflexivity.
      * split; [exact W|]. destruct S as [[-> _]| ->]; [left; reflexivity|right]. exists " "%char, a. split; [reflexivity|cbn; tauto].
      * apply (mn_set m M).
    + intros d q Q. rewrite X in Q. injection Q as <- _. exact C.
  - intros q Q. rewrite X in Q. injection Q as -> _. exact (mn_semi m M r E).
Qed.
Lemma line_module exec x line m a : module line m a ->
  do_line exec x line = ATask {| t_mod := m; t_index := x_index x; t_lvl := x_lvl x; t_prog := x_prog x; t_args := a |}.
Proof.
  intros [b m' B M|b m' a' B M N].
  - apply do_mod; [exact B|exact M|apply (mod_facts m' M)|left; split; reflexivity].
  - apply do_mod; [exact B|exact M| |right; reflexivity]. destruct (mod_facts m' M) as (_ & _ & H & _).
    rewrite in_app_iff. intros [X|[X|X]]; [exact (H X)|discriminate|exact (N X)].
Qed.
Lemma file_ok exec i l p lines ts : file_is exec i l p lines ts ->
  modules_load exec {| x_index := i; x_lvl := l; x_prog := p |} lines = MDone ts.
Proof.
  induction 1; cbn [modules_load].
  - reflexivity.
  - rewrite (line_idle _ _ _ H). exact IHfile_is.
  - rewrite (line_off _ _ _ H). exact IHfile_is.
  - rewrite (line_index _ _ _ _ _ H H0 H1). exact IHfile_is.
  - rewrite (line_level _ _ _ _ H). exact IHfile_is.
  - rewrite (line_prog _ _ _ _ H), H0. exact IHfile_is.
  - rewrite (line_prog _ _ _ _ H), H0. reflexivity.
  - rewrite (line_module _ _ _ _ _ H0). unfold count_up. cbn [x_index x_lvl x_prog].
    rewrite (proj2 (Z.eqb_neq i 0) H), IHfile_is. reflexivity.
  - rewrite (line_module _ _ _ _ _ H). unfold count_up. cbn [x_index x_lvl x_prog Z.eqb]. rewrite IHfile_is. reflexivity.
Qed.
Lemma files_ok exec n files ts : files_are exec n files ts -> load_files exec (Z.of_nat n) files = MDone ts.
Proof.
  induction 1; cbn [load_files]; [reflexivity|exact IHfiles_are|].
  unfold start_file. rewrite (file_ok _ _ _ _ _ _ H). rewrite <- Nat2Z.inj_add, IHfiles_are. reflexivity.
Qed.
Lemma load_ok exec files ts : files_are exec 1 files ts -> load exec files = MDone ts.
Proof. apply files_ok. Qed.

(** ** Files that only name modules *)
Fixpoint number_from (n : nat) (l : list (cstr * cstr)) : list mtask :=
  match l with
  | [] => []
  | (m, a) :: l => {| t_mod := m; t_index := Z.of_nat n; t_lvl := #"S"; t_prog := #"/sbin/modprobe"; t_args := a |} :: number_from (S n) l
  end.
Lemma number_app n a b : number_from n (a ++ b) = number_from n a ++ number_from (n + List.length a) b.
Proof.
  revert n. induction a as [|[m x] a IH]; intros n; cbn [app number_from List.length]; [rewrite Nat.add_0_r; reflexivity|].
  rewrite IH. replace (S n + List.length a)%nat with (n + S (List.length a))%nat by lia. reflexivity.
Qed.
Lemma number_length n l : List.length (number_from n l) = List.length l.
Proof. revert n. induction l as [|[m a] l IH]; intros n; cbn; [reflexivity|]. rewrite IH. reflexivity. Qed.
Lemma plain_file exec lines l : plain lines l -> forall n, (0 < n)%nat ->
  file_is exec (Z.of_nat n) #"S" #"/sbin/modprobe" lines (number_from n l).
Proof.
  induction 1; intros n N; cbn [number_from].
  - apply fi_end.
  - apply fi_idle; [assumption|]. apply IHplain, N.
  - apply fi_module; [lia|assumption|]. replace (Z.of_nat n + 1) with (Z.of_nat (S n)) by lia. apply IHplain. lia.
Qed.
Lemma plain_load exec files l : plain_files files l -> forall n, (0 < n)%nat -> files_are exec n files (number_from n l).
Proof.
  induction 1; intros n N.
  - apply fa_end.
  - apply fa_gone. apply IHplain_files, N.
  - rewrite number_app. apply fa_file; [apply plain_file; assumption|]. rewrite number_length. apply IHplain_files. lia.
Qed.
Lemma number_facts n l : let ts := number_from n l in
  map (fun t => (t_mod t, t_args t)) ts = l /\ map t_index ts = map Z.of_nat (seq n (List.length l)) /\
  Forall (fun t => t_lvl t = #"S" /\ t_prog t = #"/sbin/modprobe") ts.
Proof.
  revert n. induction l as [|[m a] l IH]; intros n; cbn [number_from map seq List.length]; [repeat split; constructor|].
  destruct (IH (S n)) as (A & B & C). cbn zeta in *. rewrite A, B. repeat split. constructor; [split; reflexivity|exact C].
Qed.
Lemma ident_nodup ts : NoDup (map t_index ts) -> NoDup (map ident ts).
Proof.
  intros H. apply (NoDup_map_inv snd). rewrite map_map. exact H.
Qed.
Lemma default_ok exec files l : plain_files files l -> exists ts, load exec files = MDone ts /\
  map (fun t => (t_mod t, t_args t)) ts = l /\ map t_index ts = map Z.of_nat (seq 1 (List.length l)) /\
  Forall (fun t => t_lvl t = #"S" /\ t_prog t = #"/sbin/modprobe") ts /\ NoDup (map ident ts).
Proof.
  intros H. exists (number_from 1 l). destruct (number_facts 1 l) as (A & B & C). cbn zeta in *.
  split; [apply load_ok, plain_load; [exact H|lia]|]. split; [exact A|]. split; [exact B|]. split; [exact C|].
  apply ident_nodup. rewrite B. apply FinFun.Injective_map_NoDup; [|apply seq_NoDup]. intros x y. apply Nat2Z.inj.
Qed.

(** ** What goes wrong *)
Lemma clash_ok exec m a : modname m -> ~ In "#"%char a ->
  load exec [Some [#"set index 2"; m ++ " "%char :: a]; Some [m]] =
    MDone [{| t_mod := m; t_index := 2; t_lvl := #"S"; t_prog := #"/sbin/modprobe"; t_args := a |};
           {| t_mod := m; t_index := 2; t_lvl := #"S"; t_prog := #"/sbin/modprobe"; t_args := [] |}].
Proof.
  intros M A. unfold load. cbn [load_files modules_load].
  change (do_line exec (start_file 1) #"set index 2") with (ASet {| x_index := 2; x_lvl := #"S"; x_prog := #"/sbin/modprobe" |}). cbv iota beta.
  rewrite (line_module _ _ (m ++ " "%char :: a) m a) by (apply (module_args [] m a); [constructor|exact M|exact A]). cbv iota beta.
  unfold count_up, start_file. cbn [add_tasks app List.length x_index x_lvl x_prog Z.eqb Z.of_nat Z.add Pos.add Pos.of_succ_nat].
  rewrite (line_module _ _ m m []) by (apply (module_bare [] m); [constructor|exact M]). reflexivity.
Qed.
Lemma noindex_blank exec b g m : Forall blank b -> gap g -> modname m ->
  load exec [Some [b ++ #"set" ++ g ++ #"noindex "; m]] =
    MDone [{| t_mod := m; t_index := 1; t_lvl := #"S"; t_prog := #"/sbin/modprobe"; t_args := [] |}].
Proof.
  intros B G M. unfold load. cbn [load_files modules_load]. rewrite do_set; [|exact B|exact G| | |].
  - change (set_line exec (start_file 1) #"noindex ") with ASkip. cbv iota beta.
    rewrite (line_module _ _ m m []) by (apply (module_bare [] m); [constructor|exact M]). reflexivity.
  - exists "n"%char, #"oindex ". split; [reflexivity|]. cbn. intuition discriminate.
  - cbn. intuition discriminate.
  - intros q r E. injection E as <- _. intros [X|X]; discriminate.
Qed.
Lemma do_crash exec x b g : Forall blank b -> Forall (fun c => c = "="%char \/ blank c) g -> do_line exec x (b ++ #"set" ++ g) = ACrash.
Proof.
  intros B G. unfold do_line.
  rewrite semi_not; [|exact B|intros r; discriminate].
  assert (O : of_seps seps g) by (eapply Forall_impl; [|exact G]; intros c [->|[->| ->]]; cbn; tauto).
  rewrite strip_ok.
  - change (match fgetval (#"set" ++ g) #"set" seps with
       | GCrash => ACrash | GVal v => set_line exec x v
       | GNone => match strtok #" " (#"set" ++ g) with None => ASkip | Some (m, args) => ATask {| t_mod := m; t_index := x_index x; t_lvl := x_lvl x; t_prog := x_prog x; t_args := args |} end end = ACrash).
    rewrite value_crash; [reflexivity| |exact O].
    repeat (apply Forall_cons; [cbn; intuition discriminate|]). apply Forall_nil.
  - exact B.
  - intros c r E. cbn in E. injection E as <- _. intros [X|X]; discriminate.
  - rewrite in_app_iff. intros [X|X]; [cbn in X; intuition discriminate|].
    rewrite Forall_forall in G. destruct (G _ X) as [E|[E|E]]; discriminate.
Qed.
Lemma do_crash_key exec x b g key h : Forall blank b -> gap g -> In key keys -> Forall (fun c => c = "="%char \/ blank c) h ->
  do_line exec x (b ++ #"set" ++ g ++ key ++ h) = ACrash.
Proof.
  intros B G K H. destruct (key_facts key K) as (S & Q & c & r & E & QC & SC).
  assert (O : of_seps seps h) by (eapply Forall_impl; [|exact H]; intros d [->|[->| ->]]; cbn; tauto).
  rewrite do_set; [|exact B|exact G| | |].
  - assert (F : forall k, In k keys -> key <> k -> fgetval (key ++ h) k seps = GNone).
    { intros k _ N. apply value_other_ok with (w := key); [|exact N]. split; [exact S|]. destruct h as [|d h]; [left; apply app_nil_r|right].
      inversion O; subst. exists d, h. split; [reflexivity|assumption]. }
    pose proof (value_crash seps key h S O) as C. destruct keys_in as (K1 & K2 & K3). unfold set_line.
    replace (str_eqb (key ++ h) #"noindex") with false.
    + cbn [keys In] in K. destruct K as [<-|[<-|[<-|[]]]].
      * rewrite C. reflexivity.
      * rewrite (F #"index"), C by (assumption || discriminate). reflexivity.
      * rewrite (F #"index"), (F #"runlevel"), C by (assumption || discriminate). reflexivity.
    + cbn [keys In] in K. destruct K as [<-|[<-|[<-|[]]]]; reflexivity.
  - rewrite E. exists c, (r ++ h). split; [reflexivity|exact SC].
  - rewrite in_app_iff. intros [X|X]; [exact (Q X)|]. rewrite Forall_forall in H. destruct (H _ X) as [Y|[Y|Y]]; discriminate.
  - intros q r' E'. rewrite E in E'. injection E' as <- _. exact QC.
Qed.
Lemma crash_ok exec b g key h rest files : Forall blank b -> gap g -> In key [#"index"; #"runlevel"; #"modprobe"] ->
  Forall (fun c => c = "="%char \/ blank c) h ->
  load exec (Some ((b ++ #"set" ++ g ++ key ++ h) :: rest) :: files) = MCrash /\
  load exec (Some ((b ++ #"set" ++ h) :: rest) :: files) = MCrash.
Proof.
  intros B G K H. unfold load. cbn [load_files modules_load]. rewrite (do_crash_key _ _ b g key h B G K H), (do_crash _ _ b h B H). split; reflexivity.
Qed.
Lemma line_text t : t_index t <> 0 ->
  let s := #"cgroup.init name:modprobe." ++ t_mod t ++ #" :" ++ show_int (t_index t) ++ #" [" ++ t_lvl t ++ #"] " ++ t_prog t ++ #" " ++ t_mod t ++ #" " ++ t_args t ++ #" --" in
  (List.length s < N.to_nat 1024)%nat -> task_line t = s.
Proof.
  intros N s L. subst s. unfold task_line. rewrite (proj2 (Z.eqb_neq _ 0) N). unfold strlcpy. rewrite <- app_assoc. apply firstn_all2.
  rewrite <- app_assoc in L || idtac. lia.
Qed.
Lemma any_file n : n <> [] -> (forall r, n <> "."%char :: r) -> (forall a, n <> a ++ #"~") -> module_filter n = true.
Proof.
  intros N D T. unfold module_filter. apply andb_true_iff. split; apply negb_true_iff.
  - destruct (starts #"." n) eqn:E; [|reflexivity]. apply starts_iff in E. destruct E as [r E]. exfalso. exact (D r E).
  - destruct (exists_last N) as (a & c & E). rewrite E, last_last. apply ch_eqb_neq. intros ->. exact (T a E).
Qed.
Lemma skipped_file r : module_filter ("."%char :: r) = false /\ module_filter (r ++ #"~") = false.
Proof.
  unfold module_filter. split; [reflexivity|]. change #"~" with ["~"%char]. rewrite last_last. apply andb_false_r.
Qed.
