(** Concrete histories: evaluating them, and deciding that they are tame. *)
From Coq Require Import List String Ascii ZArith NArith Bool Lia Arith.
From Verif Require Import CondModel CoreTypes CoreModel CoreMicro CoreCalm CoreSpec.
Import ListNotations.
Local Open Scope Z_scope.

(** some entry of the log satisfies [P] *)
Fixpoint found (P : core -> eff -> log -> bool) (l : log) : bool :=
  match l with
  | [] => false
  | (c, x) :: r => P c x r || found P r
  end.
Lemma found_happened P w : found P (wl w) = true -> exists c x older, happened w c x older /\ P c x older = true.
Proof.
  unfold happened. induction (wl w) as [|[c x] r IH]; [discriminate|]. cbn [found].
  destruct (P c x r) eqn:E.
  - intros _. exists c, x, r. split; [exists []; reflexivity|exact E].
  - intros H. destruct (IH H) as (c1 & x1 & r1 & (nn & A) & B). exists c1, x1, r1. split; [|exact B].
    exists ((c, x) :: nn). rewrite A. reflexivity.
Qed.

Definition result (n : nat) (evs : list ev) (cfgl cmdl : Z) (Q : world -> bool) : bool :=
  match run n evs (init_world cfgl cmdl) with Some (_, w) => Q w | None => false end.
Lemma result_history n evs cfgl cmdl Q : result n evs cfgl cmdl Q = true ->
  exists w, history n evs cfgl cmdl w /\ Q w = true.
Proof.
  unfold result, history. destruct (run n evs _) as [[[] w]|]; [|discriminate]. intros H. exists w. auto.
Qed.
Lemma result_happened n evs cfgl cmdl P : result n evs cfgl cmdl (fun w => found P (wl w)) = true ->
  exists w c x older, history n evs cfgl cmdl w /\ happened w c x older /\ P c x older = true.
Proof.
  intros H. destruct (result_history _ _ _ _ _ H) as (w & A & B).
  destruct (found_happened P w B) as (c & x & older & C & D). eauto 8.
Qed.

(** ** Deciding [tame] *)

Definition bases (s : svc) : list string := [pidcond s; readycond s; servicedir s; successcond s; failurecond s].
Definition ownsb (s : svc) (n : string) : bool :=
  String.prefix (servicedir s) n ||
  existsb (fun m => String.eqb n m || below (strip_slash (cond_path m)) n) (bases s).
Lemma ownsb_owns s n : owns s n -> ownsb s n = true.
Proof.
  intros [H|(m & Hb & H)]; unfold ownsb; rewrite orb_true_iff; [auto|]. right.
  apply existsb_exists. exists m. split.
  - unfold base_of in Hb. cbn. intuition.
  - rewrite orb_true_iff. destruct H as [->|H]; [left; apply String.eqb_refl|right; exact H].
Qed.
Definition waitsb (r r0 : reg) : bool := existsb (ownsb (svc_new 0 r0)) (c_cond (r_cfg r)).
Lemma waitsb_waits r r0 : waits_for r r0 -> waitsb r r0 = true.
Proof.
  intros (n & H1 & H2). unfold cond_affects in H2. apply existsb_exists in H2. destruct H2 as (m & A & B).
  apply String.eqb_eq in B. subst. apply existsb_exists. exists m. split; [exact A|]. apply ownsb_owns, H1.
Qed.

Definition pairsb {A} (f : A -> A -> bool) (l : list A) : bool := forallb (fun x => forallb (f x) l) l.
Lemma pairsb_all {A} (f : A -> A -> bool) l : pairsb f l = true -> forall x y, In x l -> In y l -> f x y = true.
Proof.
  unfold pairsb. rewrite forallb_forall. intros H x y Hx Hy. specialize (H x Hx). rewrite forallb_forall in H. auto.
Qed.

Definition tameb (rank : string -> nat) (evs : list ev) : bool :=
  pairsb (fun r r0 => negb (waitsb r r0) || Nat.ltb (rank (rident r0)) (rank (rident r))) (regs evs) &&
  forallb (fun r => negb (c_forking (r_cfg r))) (regs evs) &&
  pairsb (fun r r0 => negb (String.eqb (c_name (r_cfg r)) (c_name (r_cfg r0)) &&
                            String.eqb (c_id (r_cfg r)) (c_id (r_cfg r0))) ||
                      Bool.eqb (respawns r) (respawns r0)) (regs evs) &&
  forallb (fun r => negb (only_boot (c_levels (r_cfg r))) || negb (respawns r)) (regs evs) &&
  forallb (fun e => match e with EvGone _ => false | _ => true end) evs.
Lemma tameb_tame rank evs : tameb rank evs = true -> tame evs.
Proof.
  unfold tameb. rewrite !andb_true_iff. intros ((((H1 & H2) & H3) & H4) & H5). constructor.
  - exists rank. intros r r0 A B C. pose proof (pairsb_all _ _ H1 r r0 A B) as X. cbv beta in X.
    rewrite (waitsb_waits _ _ C) in X. cbn in X. apply Nat.ltb_lt, X.
  - intros r Hr. rewrite forallb_forall in H2. apply negb_true_iff. apply H2, Hr.
  - intros r r0 A B C D. pose proof (pairsb_all _ _ H3 r r0 A B) as X. cbv beta in X.
    rewrite C, D, !String.eqb_refl in X. cbn in X. apply Bool.eqb_prop, X.
  - intros r Hr E. rewrite forallb_forall in H4. specialize (H4 r Hr). cbv beta in H4. rewrite E in H4. apply negb_true_iff, H4.
  - intros p Hp. rewrite forallb_forall in H5. specialize (H5 _ Hp). discriminate.
Qed.

(** ** A small system *)

(** a stanza with default settings *)
Definition stanza (n : string) (t : sty) (lv : N) (cond : list string) : cfg :=
  mkCfg n "" t lv cond [] [] [] "arg" false false false false false false
    (match t with TRun | TTask => false | _ => true end) false false false
    NfPid 3000 3000 3000 3000 3000 10 OcIgnore 15.
(** a stanza with one setting changed *)
Definition with_conflict x (c : cfg) : cfg :=
  mkCfg (c_name c) (c_id c) (c_type c) (c_levels c) (c_cond c) x (c_if c) (c_ifconf c) (c_args c) (c_pre c) (c_post c) (c_ready c) (c_cleanup c) (c_stop c) (c_reload c) (c_sighup c) (c_forking c) (c_manual c) (c_respawn c) (c_notify c) (c_killdelay c) (c_pre_tmo c) (c_post_tmo c) (c_ready_tmo c) (c_cleanup_tmo c) (c_restart_max c) (c_oncrash c) (c_sighalt c).
Definition with_cond_if x (c : cfg) : cfg :=
  mkCfg (c_name c) (c_id c) (c_type c) (c_levels c) (c_cond c) (c_conflict c) x (c_ifconf c) (c_args c) (c_pre c) (c_post c) (c_ready c) (c_cleanup c) (c_stop c) (c_reload c) (c_sighup c) (c_forking c) (c_manual c) (c_respawn c) (c_notify c) (c_killdelay c) (c_pre_tmo c) (c_post_tmo c) (c_ready_tmo c) (c_cleanup_tmo c) (c_restart_max c) (c_oncrash c) (c_sighalt c).
Definition with_ifconf x (c : cfg) : cfg :=
  mkCfg (c_name c) (c_id c) (c_type c) (c_levels c) (c_cond c) (c_conflict c) (c_if c) x (c_args c) (c_pre c) (c_post c) (c_ready c) (c_cleanup c) (c_stop c) (c_reload c) (c_sighup c) (c_forking c) (c_manual c) (c_respawn c) (c_notify c) (c_killdelay c) (c_pre_tmo c) (c_post_tmo c) (c_ready_tmo c) (c_cleanup_tmo c) (c_restart_max c) (c_oncrash c) (c_sighalt c).
Definition with_args x (c : cfg) : cfg :=
  mkCfg (c_name c) (c_id c) (c_type c) (c_levels c) (c_cond c) (c_conflict c) (c_if c) (c_ifconf c) x (c_pre c) (c_post c) (c_ready c) (c_cleanup c) (c_stop c) (c_reload c) (c_sighup c) (c_forking c) (c_manual c) (c_respawn c) (c_notify c) (c_killdelay c) (c_pre_tmo c) (c_post_tmo c) (c_ready_tmo c) (c_cleanup_tmo c) (c_restart_max c) (c_oncrash c) (c_sighalt c).
Definition with_pre x (c : cfg) : cfg :=
  mkCfg (c_name c) (c_id c) (c_type c) (c_levels c) (c_cond c) (c_conflict c) (c_if c) (c_ifconf c) (c_args c) x (c_post c) (c_ready c) (c_cleanup c) (c_stop c) (c_reload c) (c_sighup c) (c_forking c) (c_manual c) (c_respawn c) (c_notify c) (c_killdelay c) (c_pre_tmo c) (c_post_tmo c) (c_ready_tmo c) (c_cleanup_tmo c) (c_restart_max c) (c_oncrash c) (c_sighalt c).
Definition with_post x (c : cfg) : cfg :=
  mkCfg (c_name c) (c_id c) (c_type c) (c_levels c) (c_cond c) (c_conflict c) (c_if c) (c_ifconf c) (c_args c) (c_pre c) x (c_ready c) (c_cleanup c) (c_stop c) (c_reload c) (c_sighup c) (c_forking c) (c_manual c) (c_respawn c) (c_notify c) (c_killdelay c) (c_pre_tmo c) (c_post_tmo c) (c_ready_tmo c) (c_cleanup_tmo c) (c_restart_max c) (c_oncrash c) (c_sighalt c).
Definition with_ready x (c : cfg) : cfg :=
  mkCfg (c_name c) (c_id c) (c_type c) (c_levels c) (c_cond c) (c_conflict c) (c_if c) (c_ifconf c) (c_args c) (c_pre c) (c_post c) x (c_cleanup c) (c_stop c) (c_reload c) (c_sighup c) (c_forking c) (c_manual c) (c_respawn c) (c_notify c) (c_killdelay c) (c_pre_tmo c) (c_post_tmo c) (c_ready_tmo c) (c_cleanup_tmo c) (c_restart_max c) (c_oncrash c) (c_sighalt c).
Definition with_cleanup x (c : cfg) : cfg :=
  mkCfg (c_name c) (c_id c) (c_type c) (c_levels c) (c_cond c) (c_conflict c) (c_if c) (c_ifconf c) (c_args c) (c_pre c) (c_post c) (c_ready c) x (c_stop c) (c_reload c) (c_sighup c) (c_forking c) (c_manual c) (c_respawn c) (c_notify c) (c_killdelay c) (c_pre_tmo c) (c_post_tmo c) (c_ready_tmo c) (c_cleanup_tmo c) (c_restart_max c) (c_oncrash c) (c_sighalt c).
Definition with_stop x (c : cfg) : cfg :=
  mkCfg (c_name c) (c_id c) (c_type c) (c_levels c) (c_cond c) (c_conflict c) (c_if c) (c_ifconf c) (c_args c) (c_pre c) (c_post c) (c_ready c) (c_cleanup c) x (c_reload c) (c_sighup c) (c_forking c) (c_manual c) (c_respawn c) (c_notify c) (c_killdelay c) (c_pre_tmo c) (c_post_tmo c) (c_ready_tmo c) (c_cleanup_tmo c) (c_restart_max c) (c_oncrash c) (c_sighalt c).
Definition with_forking x (c : cfg) : cfg :=
  mkCfg (c_name c) (c_id c) (c_type c) (c_levels c) (c_cond c) (c_conflict c) (c_if c) (c_ifconf c) (c_args c) (c_pre c) (c_post c) (c_ready c) (c_cleanup c) (c_stop c) (c_reload c) (c_sighup c) x (c_manual c) (c_respawn c) (c_notify c) (c_killdelay c) (c_pre_tmo c) (c_post_tmo c) (c_ready_tmo c) (c_cleanup_tmo c) (c_restart_max c) (c_oncrash c) (c_sighalt c).
Definition with_manual x (c : cfg) : cfg :=
  mkCfg (c_name c) (c_id c) (c_type c) (c_levels c) (c_cond c) (c_conflict c) (c_if c) (c_ifconf c) (c_args c) (c_pre c) (c_post c) (c_ready c) (c_cleanup c) (c_stop c) (c_reload c) (c_sighup c) (c_forking c) x (c_respawn c) (c_notify c) (c_killdelay c) (c_pre_tmo c) (c_post_tmo c) (c_ready_tmo c) (c_cleanup_tmo c) (c_restart_max c) (c_oncrash c) (c_sighalt c).
Definition with_respawn x (c : cfg) : cfg :=
  mkCfg (c_name c) (c_id c) (c_type c) (c_levels c) (c_cond c) (c_conflict c) (c_if c) (c_ifconf c) (c_args c) (c_pre c) (c_post c) (c_ready c) (c_cleanup c) (c_stop c) (c_reload c) (c_sighup c) (c_forking c) (c_manual c) x (c_notify c) (c_killdelay c) (c_pre_tmo c) (c_post_tmo c) (c_ready_tmo c) (c_cleanup_tmo c) (c_restart_max c) (c_oncrash c) (c_sighalt c).
Definition with_notify x (c : cfg) : cfg :=
  mkCfg (c_name c) (c_id c) (c_type c) (c_levels c) (c_cond c) (c_conflict c) (c_if c) (c_ifconf c) (c_args c) (c_pre c) (c_post c) (c_ready c) (c_cleanup c) (c_stop c) (c_reload c) (c_sighup c) (c_forking c) (c_manual c) (c_respawn c) x (c_killdelay c) (c_pre_tmo c) (c_post_tmo c) (c_ready_tmo c) (c_cleanup_tmo c) (c_restart_max c) (c_oncrash c) (c_sighalt c).
Definition with_killdelay x (c : cfg) : cfg :=
  mkCfg (c_name c) (c_id c) (c_type c) (c_levels c) (c_cond c) (c_conflict c) (c_if c) (c_ifconf c) (c_args c) (c_pre c) (c_post c) (c_ready c) (c_cleanup c) (c_stop c) (c_reload c) (c_sighup c) (c_forking c) (c_manual c) (c_respawn c) (c_notify c) x (c_pre_tmo c) (c_post_tmo c) (c_ready_tmo c) (c_cleanup_tmo c) (c_restart_max c) (c_oncrash c) (c_sighalt c).
Definition with_restart_max x (c : cfg) : cfg :=
  mkCfg (c_name c) (c_id c) (c_type c) (c_levels c) (c_cond c) (c_conflict c) (c_if c) (c_ifconf c) (c_args c) (c_pre c) (c_post c) (c_ready c) (c_cleanup c) (c_stop c) (c_reload c) (c_sighup c) (c_forking c) (c_manual c) (c_respawn c) (c_notify c) (c_killdelay c) (c_pre_tmo c) (c_post_tmo c) (c_ready_tmo c) (c_cleanup_tmo c) x (c_oncrash c) (c_sighalt c).
Definition with_oncrash x (c : cfg) : cfg :=
  mkCfg (c_name c) (c_id c) (c_type c) (c_levels c) (c_cond c) (c_conflict c) (c_if c) (c_ifconf c) (c_args c) (c_pre c) (c_post c) (c_ready c) (c_cleanup c) (c_stop c) (c_reload c) (c_sighup c) (c_forking c) (c_manual c) (c_respawn c) (c_notify c) (c_killdelay c) (c_pre_tmo c) (c_post_tmo c) (c_ready_tmo c) (c_cleanup_tmo c) (c_restart_max c) x (c_sighalt c).
Definition with_sighalt x (c : cfg) : cfg :=
  mkCfg (c_name c) (c_id c) (c_type c) (c_levels c) (c_cond c) (c_conflict c) (c_if c) (c_ifconf c) (c_args c) (c_pre c) (c_post c) (c_ready c) (c_cleanup c) (c_stop c) (c_reload c) (c_sighup c) (c_forking c) (c_manual c) (c_respawn c) (c_notify c) (c_killdelay c) (c_pre_tmo c) (c_post_tmo c) (c_ready_tmo c) (c_cleanup_tmo c) (c_restart_max c) (c_oncrash c) x.
Definition entry (c : cfg) : reg := mkReg c 1 false false.
Definition boots (l : list cfg) (forks : list Z) : list ev :=
  [EvConf (map entry l); EvOracle forks [] []; EvBoot].

(** run [S] r; service [2345] a; service [2345] <pid/a> b; task [2345] t *)
Definition ex_conf : list cfg :=
  [stanza "a" TService 60 []; stanza "b" TService 60 ["pid/a"%string];
   stanza "r" TRun 1024 []; stanza "t" TTask 60 []].
Definition ex_rank (s : string) : nat := if String.eqb s "b" then 1%nat else 0%nat.
(** boot; r ends; a and t are started, then b; t ends; a crashes, b ends, both are
    restarted; the user stops b, which has to be killed, and starts it again; reboot *)
Definition ex_up : list ev :=
  boots ex_conf [10;11;12;13;14;15;16;17] ++
  [EvReap 10 (Exited 0); EvBootCheck; EvWork; EvPidfile 0 (Some 11); EvWork; EvPidfile 1 (Some 13);
   EvReap 12 (Exited 0)].
Definition ex_crash : list ev :=
  [EvReap 11 (Signaled 11); EvReap 13 (Exited 0); EvTimer 0; EvPidfile 0 (Some 14); EvWork; EvTimer 1; EvPidfile 1 (Some 15)].
Definition ex_user : list ev := [EvStop 1; EvTimer 1; EvReap 15 (Signaled 9); EvStart 1; EvPidfile 1 (Some 16)].
Definition ex_down : list ev := [EvSigTerm; EvReap 16 (Exited 0); EvReap 14 (Exited 0)].
Definition ex_evs : list ev := ex_up ++ ex_crash ++ ex_user ++ ex_down.

Lemma ex_tame : tame ex_evs.
Proof. apply (tameb_tame ex_rank). vm_compute. reflexivity. Qed.
