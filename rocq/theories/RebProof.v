(** Proofs about the reboot command. *)
From Coq Require Import List String Ascii NArith ZArith Bool Lia.
From Verif Require Import CStr CStrLib RebModel RebSpec.
Import ListNotations.
Local Open Scope Z_scope.

Lemma reserved_iff l : reserved l = true <-> is_reserved l.
Proof. unfold reserved, is_reserved. rewrite !orb_true_iff, !Z.eqb_eq. tauto. Qed.
Lemma sm_halt f n : f_halt (sm_runlevel f n) = f_halt f.
Proof. unfold sm_runlevel. destruct (f_busy f), (f_level f =? n); reflexivity. Qed.
Lemma sm_emerg f n : f_emerg (sm_runlevel f n) = f_emerg f.
Proof. unfold sm_runlevel. destruct (f_busy f), (f_level f =? n); reflexivity. Qed.
Lemma sm_level f n : f_level (sm_runlevel f n) = n \/ f_new (sm_runlevel f n) = Some n.
Proof. unfold sm_runlevel. destruct (f_busy f), (f_level f =? n); cbn [f_level f_new]; tauto. Qed.
Lemma sm_now f n : f_busy f = false -> f_level (sm_runlevel f n) = n.
Proof. unfold sm_runlevel. intros ->. destruct (f_level f =? n); reflexivity. Qed.
Lemma sm_stays f n : f_busy f = true -> f_level (sm_runlevel f n) = f_level f.
Proof. unfold sm_runlevel. intros ->. reflexivity. Qed.
Lemma emergency_busy f t : f_busy (emergency f t) = f_busy f.
Proof. unfold emergency. destruct (0 <? t); reflexivity. Qed.
Lemma emergency_level f t : f_level (emergency f t) = f_level f.
Proof. unfold emergency. destruct (0 <? t); reflexivity. Qed.
Lemma emergency_emerg f t : 1 <= t -> f_emerg (emergency f t) = Some t.
Proof. unfold emergency. intros H. assert (X : 0 <? t = true) by (apply Z.ltb_lt; lia). rewrite X. reflexivity. Qed.
Lemma emergency_zero f : emergency f 0 = f.
Proof. reflexivity. Qed.

(** ** Options *)
(** the action after the options, the last one wins *)
Definition one (a : action) (o : ascii * Z) : action :=
  if ch_eqb (fst o) "H" then Halt
  else if ch_eqb (fst o) "h" || ch_eqb (fst o) "P" || ch_eqb (fst o) "p" then PowerOff
  else if ch_eqb (fst o) "r" then Reboot else a.
Definition onet (t : Z) (o : ascii * Z) : Z := if ch_eqb (fst o) "t" then snd o else t.
Lemma options_good opts : good_options opts -> forall a b t,
  options opts a b t = inr (fold_left one opts a, b || existsb (fun o => ch_eqb (fst o) "f") opts, fold_left onet opts t).
Proof.
  induction opts as [|[c v] r I]; intros G a b t; [rewrite orb_false_r; reflexivity|].
  assert (G' : good_options r) by (intros c' v' H; apply G; right; exact H).
  destruct (G c v (or_introl eq_refl)) as [H T].
  cbn [In] in H.
  repeat (destruct H as [H|H]; [subst c;
    first [ transitivity (options r a true t); [reflexivity|]; rewrite (I G'); cbn [existsb fst]; change (ch_eqb "f" "f") with true; rewrite orb_true_r; reflexivity
          | transitivity (options r Halt b t); [reflexivity|]; rewrite (I G'); reflexivity
          | transitivity (options r PowerOff b t); [reflexivity|]; rewrite (I G'); reflexivity
          | transitivity (options r Reboot b t); [reflexivity|]; rewrite (I G'); reflexivity
          | transitivity (if v <? 1 then inl 1 else options r a b v); [reflexivity|];
            assert (X : v <? 1 = false) by (apply Z.ltb_ge; apply T; reflexivity); rewrite X, (I G'); reflexivity ]|]).
  contradiction.
Qed.
Lemma one_none q : asks_none q -> forall a, fold_left one q a = a.
Proof.
  induction q as [|[c v] q I]; intros N a; [reflexivity|]. cbn [fold_left].
  rewrite I by (intros c' v' a' H; apply (N c' v' a'); right; exact H).
  unfold one. cbn [fst].
  destruct (ch_eqb c "H") eqn:A; [apply ch_eqb_eq in A; subst; exfalso; apply (N _ v Halt (or_introl eq_refl)); constructor|].
  destruct (ch_eqb c "h") eqn:B; [apply ch_eqb_eq in B; subst; exfalso; apply (N _ v PowerOff (or_introl eq_refl)); constructor; cbn; tauto|].
  destruct (ch_eqb c "P") eqn:C; [apply ch_eqb_eq in C; subst; exfalso; apply (N _ v PowerOff (or_introl eq_refl)); constructor; cbn; tauto|].
  destruct (ch_eqb c "p") eqn:D; [apply ch_eqb_eq in D; subst; exfalso; apply (N _ v PowerOff (or_introl eq_refl)); constructor; cbn; tauto|].
  destruct (ch_eqb c "r") eqn:E; [apply ch_eqb_eq in E; subst; exfalso; apply (N _ v Reboot (or_introl eq_refl)); constructor|].
  reflexivity.
Qed.
Lemma one_asked nm opts a : asked nm opts a -> fold_left one opts (transform nm) = a.
Proof.
  intros [b N A|p c v q b -> O A].
  - rewrite one_none by exact A. destruct N; reflexivity.
  - rewrite fold_left_app. cbn [fold_left]. rewrite one_none by exact A.
    destruct O as [|c I|]; try reflexivity. cbn [In] in I. repeat (destruct I as [<-|I]; [reflexivity|]). destruct I.
Qed.
Lemma onet_none q : (forall v, ~ In ("t"%char, v) q) -> forall t, fold_left onet q t = t.
Proof.
  induction q as [|[c v] q I]; intros N t; [reflexivity|]. cbn [fold_left].
  rewrite I by (intros v' H; apply (N v'); right; exact H). unfold onet. cbn [fst].
  destruct (ch_eqb c "t") eqn:A; [apply ch_eqb_eq in A; subst; exfalso; apply (N v); left; reflexivity|reflexivity].
Qed.
Lemma onet_given opts t : time_given opts t -> fold_left onet opts 0 = t.
Proof.
  intros [N|p v q -> N]; [apply onet_none; exact N|]. rewrite fold_left_app. cbn [fold_left]. rewrite onet_none by exact N. reflexivity.
Qed.
Lemma force_iff opts : existsb (fun o : ascii * Z => ch_eqb (fst o) "f") opts = true <-> forced opts.
Proof.
  rewrite existsb_exists. split.
  - intros ([c v] & I & E). cbn [fst] in E. apply ch_eqb_eq in E. subst. exists v. exact I.
  - intros (v & I). exists ("f"%char, v). split; [exact I|reflexivity].
Qed.
Lemma time_ok opts t : good_options opts -> time_given opts t -> t = 0 \/ 1 <= t.
Proof.
  intros G [N|p v q -> N]; [left; reflexivity|right]. destruct (G "t"%char v) as [_ T]; [apply in_or_app; right; left; reflexivity|]. apply T. reflexivity.
Qed.

(** ** The commands *)
Lemma main_forced nm opts sulogin up ok f a : good_options opts -> asked nm opts a -> (forced opts \/ sulogin = true) ->
  reboot_main nm opts sulogin up ok f = {| d_exit := 0; d_kernel := Some a; d_fin := f |}.
Proof.
  intros G A F. unfold reboot_main. rewrite (options_good _ G), (one_asked _ _ _ A). cbn [orb].
  assert (X : existsb (fun o : ascii * Z => ch_eqb (fst o) "f") opts || sulogin = true) by (rewrite orb_true_iff, force_iff; exact F).
  rewrite X. reflexivity.
Qed.
Lemma api_end ok f a t : a <> Suspend -> ends_with (fst (api_reboot ok f a t)) a.
Proof.
  intros N. destruct a; [| | |contradiction]; cbn [api_reboot fst]; (split; [rewrite sm_halt; reflexivity|apply sm_level]).
Qed.
Lemma api_busy ok f a t : a <> Suspend -> f_busy f = false -> f_level (fst (api_reboot ok f a t)) = level_for a.
Proof.
  intros N B. destruct a; [| | |contradiction]; cbn [api_reboot fst level_for]; apply sm_now; cbn [set_halt f_busy]; rewrite emergency_busy; exact B.
Qed.
Lemma api_level ok f a t : f_level (fst (api_reboot ok f a t)) = f_level f \/ f_level (fst (api_reboot ok f a t)) = level_for a.
Proof.
  destruct a; cbn [api_reboot fst level_for];
    [| | |left; apply emergency_level];
    (destruct (f_busy f) eqn:B; [left; rewrite sm_stays by (cbn [set_halt f_busy]; rewrite emergency_busy; exact B); cbn [set_halt f_level]; rewrite emergency_level; reflexivity
                                |right; apply sm_now; cbn [set_halt f_busy]; rewrite emergency_busy; exact B]).
Qed.
Lemma api_emerg ok f a t : t = 0 \/ 1 <= t -> f_emerg (fst (api_reboot ok f a t)) = if t =? 0 then f_emerg f else Some t.
Proof.
  intros [->|T].
  - destruct a; cbn [api_reboot fst]; try rewrite sm_emerg; reflexivity.
  - assert (X : t =? 0 = false) by (apply Z.eqb_neq; lia). rewrite X.
    destruct a; cbn [api_reboot fst]; try rewrite sm_emerg; cbn [set_halt f_emerg]; apply (emergency_emerg _ t T).
Qed.
Lemma usr2_end f : ends_with f PowerOff -> ends_with (sigusr2 f) PowerOff.
Proof. intros E. unfold sigusr2. destruct (reserved (f_level f)); [exact E|]. split; [rewrite sm_halt; reflexivity|apply sm_level]. Qed.
Lemma term_end f : ends_with f Reboot -> ends_with (sigterm f) Reboot.
Proof. intros E. unfold sigterm. destruct (reserved (f_level f)); [exact E|]. split; [rewrite sm_halt; reflexivity|apply sm_level]. Qed.
Lemma usr2_emerg f : f_emerg (sigusr2 f) = f_emerg f.
Proof. unfold sigusr2. destruct (reserved (f_level f)); [reflexivity|]. rewrite sm_emerg. reflexivity. Qed.
Lemma term_emerg f : f_emerg (sigterm f) = f_emerg f.
Proof. unfold sigterm. destruct (reserved (f_level f)); [reflexivity|]. rewrite sm_emerg. reflexivity. Qed.

Lemma main_asks nm opts ok f a t : good_options opts -> asked nm opts a -> time_given opts t -> ~ forced opts ->
  a <> Suspend -> (a = Halt -> f_busy f = false \/ is_reserved (f_level f)) ->
  let d := reboot_main nm opts false true ok f in
  d_kernel d = None /\ ends_with (d_fin d) a /\ f_emerg (d_fin d) = (if t =? 0 then f_emerg f else Some t).
Proof.
  intros G A T F N H. unfold reboot_main. rewrite (options_good _ G), (one_asked _ _ _ A), (onet_given _ _ T). cbn [orb].
  destruct (existsb (fun o : ascii * Z => ch_eqb (fst o) "f") opts) eqn:X; [apply force_iff in X; contradiction|]. cbn [orb do_cmd].
  pose proof (api_end ok f a t N) as E. pose proof (api_busy ok f a t N) as B. pose proof (api_emerg ok f a t (time_ok _ _ G T)) as M.
  pose proof (api_level ok f a t) as L.
  assert (K : snd (api_reboot ok f a t) = 1) by (destruct a; [reflexivity|reflexivity|reflexivity|contradiction]).
  destruct (api_reboot ok f a t) as [f' r]. cbn [fst snd] in *. subst r. change (1 =? 0) with false. cbn [d_kernel d_fin].
  split; [reflexivity|]. destruct a; [| | |contradiction].
  - split; [apply term_end; exact E|rewrite term_emerg; exact M].
  - assert (S : sigusr2 f' = f').
    { unfold sigusr2. assert (R : reserved (f_level f') = true).
      { apply reserved_iff. destruct (H eq_refl) as [Y|Y]; [left; exact (B Y)|]. destruct L as [L|L]; [rewrite L; exact Y|left; exact L]. }
      rewrite R. reflexivity. }
    rewrite S. split; assumption.
  - split; [apply usr2_end; exact E|rewrite usr2_emerg; exact M].
Qed.
Lemma main_fallback nm opts ok f a : good_options opts -> asked nm opts a -> ~ forced opts -> a = Reboot \/ a = PowerOff -> ~ is_reserved (f_level f) ->
  let d := reboot_main nm opts false false ok f in d_kernel d = None /\ ends_with (d_fin d) a.
Proof.
  intros G A F N R. unfold reboot_main. rewrite (options_good _ G), (one_asked _ _ _ A). cbn [orb].
  destruct (existsb (fun o : ascii * Z => ch_eqb (fst o) "f") opts) eqn:X; [apply force_iff in X; contradiction|]. cbn [orb do_cmd d_kernel d_fin].
  split; [reflexivity|].
  assert (Q : reserved (f_level f) = false) by (destruct (reserved (f_level f)) eqn:E; [apply reserved_iff in E; contradiction|reflexivity]).
  destruct N as [->| ->]; [unfold sigterm|unfold sigusr2]; rewrite Q; (split; [rewrite sm_halt; reflexivity|apply sm_level]).
Qed.
Lemma main_suspend nm opts up ok f : good_options opts -> asked nm opts Suspend -> time_given opts 0 -> ~ forced opts ->
  reboot_main nm opts false up ok f = {| d_exit := 0; d_kernel := None; d_fin := f |}.
Proof.
  intros G A T F. unfold reboot_main. rewrite (options_good _ G), (one_asked _ _ _ A), (onet_given _ _ T). cbn [orb].
  destruct (existsb (fun o : ascii * Z => ch_eqb (fst o) "f") opts) eqn:X; [apply force_iff in X; contradiction|].
  cbn [orb]. unfold do_cmd. destruct up, ok; reflexivity.
Qed.
Lemma main_bad nm p c v q sulogin up ok f : good_options p -> ~ In c ["f"; "H"; "h"; "P"; "p"; "r"; "t"]%char \/ (c = "t"%char /\ v < 1) ->
  let d := reboot_main nm (p ++ (c, v) :: q) sulogin up ok f in d_kernel d = None /\ d_fin d = f.
Proof.
  intros G B.
  assert (X : forall a b t, exists e, options (p ++ (c, v) :: q) a b t = inl e).
  { induction p as [|[c' v'] p I]; intros a b t.
    - cbn [app options]. destruct B as [N|[-> L]].
      + cbn [In] in N.
        destruct (ch_eqb c "?"); [eexists; reflexivity|].
        repeat match goal with |- context [ch_eqb c ?x] =>
          let E := fresh in destruct (ch_eqb c x) eqn:E; [apply ch_eqb_eq in E; exfalso; apply N; subst c; tauto|] end.
        cbn [orb]. eexists; reflexivity.
      + assert (T : v <? 1 = true) by (apply Z.ltb_lt; exact L). exists 1. cbn. rewrite T. reflexivity.
    - assert (G' : good_options p) by (intros c2 v2 H; apply G; right; exact H). specialize (I G').
      destruct (G c' v' (or_introl eq_refl)) as [H T]. cbn [app options]. cbn [In] in H.
      repeat (destruct H as [H|H]; [subst c'; try exact (I _ _ _)|]). all: try contradiction.
      + assert (Y : v' <? 1 = false) by (apply Z.ltb_ge; apply T; reflexivity). destruct (I a b v') as [e E]. exists e. cbn. rewrite Y. exact E. }
  unfold reboot_main. destruct (X (transform nm) false 0) as [e E]. rewrite E. split; reflexivity.
Qed.
Lemma halt_fallback f ok : ~ is_reserved (f_level f) -> ends_with (d_fin (reboot_main #"halt" [] false false ok f)) PowerOff.
Proof.
  intros R. change (d_fin (reboot_main #"halt" [] false false ok f)) with (sigusr2 f). unfold sigusr2.
  destruct (reserved (f_level f)) eqn:E; [apply reserved_iff in E; contradiction|]. split; [rewrite sm_halt; reflexivity|apply sm_level].
Qed.
Lemma nack ok f a t : a <> Suspend -> ends_with (fst (do_cmd true ok f a t)) a /\ snd (do_cmd true ok f a t) = false.
Proof.
  intros N. pose proof (api_end ok f a t N) as E. assert (K : snd (api_reboot ok f a t) = 1) by (destruct a; [reflexivity|reflexivity|reflexivity|contradiction]).
  unfold do_cmd. destruct (api_reboot ok f a t) as [f' r]. cbn [fst snd] in *. subst r. split; [exact E|reflexivity].
Qed.
