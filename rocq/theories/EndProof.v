(** Proofs about the end of the system. *)
From Coq Require Import List String Ascii NArith ZArith Bool Lia Arith.
From Verif Require Import CStr CStrLib EndModel EndSpec.
Import ListNotations.
Local Open Scope Z_scope.

(** ** Processes *)
Lemma iterated_iff p : readable p -> (iterated p = true <-> ~ spared p).
Proof.
  intros R. unfold iterated. split.
  - intros H S. apply andb_true_iff in H. destruct H as [H1 H2].
    destruct S as [E|E|r E|a b E].
    + rewrite E in H1. discriminate.
    + rewrite E in H2. discriminate.
    + rewrite E in H2. rewrite firstn_all2 in H2 by (apply R; exact E).
      destruct (strstr #"gdbserver" ("@"%char :: r)); [discriminate|]. change (ch_eqb "@" "@") with true in H2. discriminate.
    + destruct E as [E|E]; rewrite E in H2; rewrite firstn_all2 in H2 by (apply R; exact E).
      * destruct (strstr #"gdbserver" (a ++ #"gdbserver" ++ b)) eqn:Q; [discriminate|]. apply strstr_none in Q. exact (Q a b eq_refl).
      * destruct (strstr #"gdbserver" (a ++ #"initctl" ++ b)); [discriminate|].
        destruct (match a ++ #"initctl" ++ b with x :: _ => ch_eqb x "@" | [] => false end); [discriminate|].
        destruct (strstr #"initctl" (a ++ #"initctl" ++ b)) eqn:Q; [discriminate|]. apply strstr_none in Q. exact (Q a b eq_refl).
  - intros N. apply andb_true_iff. split.
    + apply negb_true_iff, Z.eqb_neq. intros E. apply N. apply sp_init. exact E.
    + destruct (p_cmd p) as [c|] eqn:E; [|exfalso; apply N; apply sp_kernel; exact E].
      rewrite firstn_all2 by (apply R; exact E).
      rewrite strstr_absent by (intros a b X; apply N; apply (sp_tool p a b); left; rewrite E, X; reflexivity).
      assert (A : match c with x :: _ => ch_eqb x "@" | [] => false end = false).
      { destruct c as [|x r]; [reflexivity|]. destruct (ch_eqb x "@") eqn:Q; [|reflexivity]. apply ch_eqb_eq in Q. subst x. exfalso. apply N. apply (sp_at p r). exact E. }
      rewrite A. rewrite strstr_absent by (intros a b X; apply N; apply (sp_tool p a b); right; rewrite E, X; reflexivity). reflexivity.
Qed.
Lemma kill_all_in s ps z t : Forall readable ps -> (In (z, t) (kill_all s ps) <-> t = s /\ exists p, In p ps /\ p_pid p = z /\ ~ spared p).
Proof.
  intros R. rewrite Forall_forall in R. unfold kill_all. rewrite in_map_iff. split.
  - intros (p & E & I). apply filter_In in I. destruct I as [I T]. injection E as <- <-. split; [reflexivity|]. exists p.
    split; [exact I|]. split; [reflexivity|]. apply (iterated_iff p (R p I)). exact T.
  - intros (-> & p & I & <- & N). exists p. split; [reflexivity|]. apply filter_In. split; [exact I|]. apply (iterated_iff p (R p I)). exact N.
Qed.
Lemma shutdown_signals now later z s : Forall readable now -> Forall readable later ->
  (In (z, s) (shutdown_kill now later) <->
   exists p, p_pid p = z /\ ~ spared p /\ ((s = TERM /\ In p now) \/ (s = KILL /\ In p later))).
Proof.
  intros A B. unfold shutdown_kill. rewrite in_app_iff, (kill_all_in _ _ _ _ A).
  assert (W : In (z, s) (if do_wait later then kill_all KILL later else []) <-> In (z, s) (kill_all KILL later)).
  { unfold do_wait. destruct (existsb iterated later) eqn:E; [tauto|]. split; [intros []|]. intros H. exfalso.
    unfold kill_all in H. apply in_map_iff in H. destruct H as (p & _ & H). apply filter_In in H. destruct H as [I T].
    assert (X : existsb iterated later = true) by (apply existsb_exists; exists p; split; assumption). congruence. }
  rewrite W, (kill_all_in _ _ _ _ B). split.
  - intros [(-> & p & I & P & N)|(-> & p & I & P & N)]; exists p; tauto.
  - intros (p & P & N & [(-> & I)|(-> & I)]); [left|right]; (split; [reflexivity|exists p; tauto]).
Qed.

(** ** File systems *)
Lemma protected_iff d : protected d = true <-> kept d.
Proof.
  unfold protected. rewrite orb_true_iff, !existsb_exists. split.
  - intros [(x & I & E)|(x & I & E)].
    + apply str_eqb_eq in E. subst x. apply k_dir. cbn [In] in *. tauto.
    + apply starts_iff in E. destruct E as [r ->]. apply k_below. exact I.
  - intros [x I|p r I].
    + left. exists x. split; [cbn [In] in *; tauto|apply str_eqb_refl].
    + right. exists p. split; [exact I|apply starts_app].
Qed.
Lemma reading_some k pick l todo l' : one_reading k pick l todo = Some l' -> exists m, In m todo /\ ~ kept (m_dir m) /\ k l (m_dir m) = Some l'.
Proof.
  induction todo as [|m r I]; cbn [one_reading]; [discriminate|]. intros H.
  destruct (protected (m_dir m)) eqn:P; [destruct (I H) as (x & X & Y); exists x; split; [right; exact X|exact Y]|].
  destruct (pick m); [|destruct (I H) as (x & X & Y); exists x; split; [right; exact X|exact Y]].
  destruct (k l (m_dir m)) as [l2|] eqn:K; [|destruct (I H) as (x & X & Y); exists x; split; [right; exact X|exact Y]].
  exists m. split; [left; reflexivity|]. split; [rewrite <- protected_iff, P; discriminate|]. rewrite K. exact H.
Qed.
Lemma reading_none k pick l todo : one_reading k pick l todo = None -> forall m, In m todo -> pick m = true -> ~ kept (m_dir m) -> k l (m_dir m) = None.
Proof.
  induction todo as [|m r I]; cbn [one_reading]; intros H x X Q N; [destruct X|].
  destruct (protected (m_dir m)) eqn:P.
  - destruct X as [->|X]; [apply protected_iff in P; contradiction|exact (I H x X Q N)].
  - destruct (pick m) eqn:T.
    + destruct (k l (m_dir m)) eqn:K; [discriminate|]. destruct X as [->|X]; [exact K|exact (I H x X Q N)].
    + destruct X as [->|X]; [congruence|exact (I H x X Q N)].
Qed.
Lemma readings_ok k pick : good_kernel k -> forall n l, (List.length l < n)%nat ->
  exists l', readings n k pick l = Some l' /\ all_done k (fun m => pick m = true) l' /\
    filter (fun m => protected (m_dir m)) l' = filter (fun m => protected (m_dir m)) l /\ (forall m, In m l' -> In m l).
Proof.
  intros G. induction n as [|n IH]; intros l L; [lia|]. cbn [readings].
  destruct (one_reading k pick l l) as [l2|] eqn:E.
  - destruct (reading_some _ _ _ _ _ E) as (m & _ & N & K). destruct (G _ _ _ K) as (a & x & b & -> & D & ->).
    destruct (IH (a ++ b)) as (l' & R & A & F & S); [rewrite app_length in *; cbn [List.length] in L; lia|].
    exists l'. split; [exact R|]. split; [exact A|]. split.
    + rewrite F, !filter_app. cbn [filter]. rewrite D.
      destruct (protected (m_dir m)) eqn:P; [apply protected_iff in P; contradiction|reflexivity].
    + intros y Y. apply S in Y. apply in_app_or in Y. apply in_or_app. destruct Y as [Y|Y]; [left; exact Y|right; right; exact Y].
  - exists l. split; [reflexivity|]. split; [exact (reading_none _ _ _ _ E)|]. split; [reflexivity|auto].
Qed.
Lemma kept_stay (l l' : list mnt) : filter (fun m => protected (m_dir m)) l' = filter (fun m => protected (m_dir m)) l -> forall m, kept (m_dir m) -> In m l -> In m l'.
Proof.
  intros F m K I. apply protected_iff in K. assert (X : In m (filter (fun m => protected (m_dir m)) l)) by (apply filter_In; split; assumption).
  rewrite <- F in X. apply filter_In in X. apply X.
Qed.
Lemma regular_ok k l : good_kernel k -> exists l', unmount_regular (S (List.length l)) k l = Some l' /\
  all_done k (fun _ => True) l' /\ (forall m, kept (m_dir m) -> In m l -> In m l') /\ (forall m, In m l' -> In m l).
Proof.
  intros G. destruct (readings_ok k (fun _ => true) G (S (List.length l)) l) as (l' & R & A & F & S); [lia|].
  exists l'. split; [exact R|]. split; [intros m I _ N; apply A; try assumption; reflexivity|]. split; [apply kept_stay; exact F|exact S].
Qed.
Lemma tmpfs_ok k l : good_kernel k -> exists l', unmount_tmpfs (S (List.length l)) k l = Some l' /\
  all_done k (fun m => m_src m = #"tmpfs") l' /\ (forall m, kept (m_dir m) -> In m l -> In m l') /\ (forall m, In m l' -> In m l).
Proof.
  intros G. destruct (readings_ok k (fun m => str_eqb #"tmpfs" (m_src m)) G (S (List.length l)) l) as (l' & R & A & F & S); [lia|].
  exists l'. split; [exact R|]. split; [intros m I E N; apply A; try assumption; rewrite E; apply str_eqb_refl|]. split; [apply kept_stay; exact F|exact S].
Qed.

(** a kernel: a directory is busy while something else is mounted below it *)
Definition below (d e : cstr) : bool := starts (d ++ #"/") e.
Fixpoint drop_dir (l : list mnt) (d : cstr) : option (list mnt) :=
  match l with
  | [] => None
  | m :: r => match drop_dir r d with
              | Some r => Some (m :: r)
              | None => if str_eqb (m_dir m) d then Some r else None
              end
  end.
Definition simple_kernel (busy : cstr -> bool) : kernel :=
  fun l d => if busy d || existsb (fun m => below d (m_dir m)) l then None else drop_dir l d.
Lemma drop_ok l d l' : drop_dir l d = Some l' -> exists a m b, l = a ++ m :: b /\ m_dir m = d /\ l' = a ++ b.
Proof.
  revert l'. induction l as [|m r I]; intros l' H; [discriminate|]. cbn [drop_dir] in H.
  destruct (drop_dir r d) as [r'|].
  - destruct (I r' eq_refl) as (a & x & b & -> & D & ->). exists (m :: a), x, b. injection H as <-. repeat split. exact D.
  - destruct (str_eqb (m_dir m) d) eqn:E; [|discriminate]. apply str_eqb_eq in E. injection H as <-. exists [], m, r. repeat split. exact E.
Qed.
Lemma simple_good busy : good_kernel (simple_kernel busy).
Proof. intros l d l' H. unfold simple_kernel in H. destruct (busy d || _); [discriminate|]. apply drop_ok. exact H. Qed.

(** ** The clock *)
Lemma restore_ok c : 0 <= c_min c -> c_sys (rtc_restore false c) = match c_hw c with Some (Some t) => if c_min c <=? t then t else c_min c | _ => c_min c end /\
  c_hw (rtc_restore false c) = c_hw c /\ c_file (rtc_restore false c) = c_file c /\ c_min c <= c_sys (rtc_restore false c).
Proof.
  intros M. unfold rtc_restore. destruct (c_hw c) as [[t|]|] eqn:H; [|split; [reflexivity|]; split; [exact H|]; split; [reflexivity|]; cbn; lia|split; [reflexivity|]; split; [exact H|]; split; [reflexivity|]; cbn; lia].
  cbn [time_set]. destruct (Z.leb_spec (c_min c) t).
  - assert (X : (t =? -1) || (t <? c_min c) = false) by (apply orb_false_iff; split; [apply Z.eqb_neq; lia|apply Z.ltb_ge; lia]). rewrite X.
    split; [reflexivity|]. split; [exact H|]. split; [reflexivity|exact H0].
  - assert (X : (t =? -1) || (t <? c_min c) = true) by (apply orb_true_iff; right; apply Z.ltb_lt; lia). rewrite X.
    split; [reflexivity|]. split; [exact H|]. split; [reflexivity|cbn; lia].
Qed.
Lemma saved_ok c h : c_hw c = Some h -> c_min c <= c_sys c ->
  clock_save false c = {| c_sys := c_sys c; c_hw := Some (Some (c_sys c)); c_file := Some (Some (c_sys c)); c_min := c_min c |}.
Proof.
  intros H V. unfold clock_save, rtc_save, file_save. rewrite H. assert (X : c_sys c <? c_min c = false) by (apply Z.ltb_ge; exact V).
  rewrite X. cbn [c_sys c_min c_hw c_file]. rewrite X. reflexivity.
Qed.
Lemma hw_kept c : c_sys c < c_min c -> c_hw (clock_save false c) = c_hw c.
Proof.
  intros V. unfold clock_save, rtc_save, file_save. assert (X : c_sys c <? c_min c = true) by (apply Z.ltb_lt; exact V).
  destruct (c_hw c) eqn:E; [rewrite X|]; cbn [c_hw]; exact E.
Qed.
Lemma file_never c t : c_hw c = None -> c_file c = Some (Some t) -> c_sys (rtc_restore false c) = c_min c.
Proof. intros H _. unfold rtc_restore. rewrite H. reflexivity. Qed.
Lemma file_lost c rescue t : c_file c = Some (Some t) -> c_sys c < c_min c -> c_file (clock_save rescue c) = Some None.
Proof.
  intros _ V. assert (X : c_sys c <? c_min c = true) by (apply Z.ltb_lt; exact V).
  unfold clock_save, file_save. cbn [c_file].
  assert (S : c_sys (rtc_save rescue c) = c_sys c /\ c_min (rtc_save rescue c) = c_min c).
  { unfold rtc_save. destruct rescue; [split; reflexivity|]. destruct (c_hw c); [|split; reflexivity]. rewrite X. split; reflexivity. }
  destruct S as [-> ->]. rewrite X. reflexivity.
Qed.
