(** C49: readiness is announced when, and only when, it was reported. *)
From Coq Require Import List String Ascii ZArith NArith Bool Lia Arith.
From Verif Require Import CondModel CoreTypes CoreModel CoreTame CoreLib CoreSpec CoreEx CoreSpecF CoreKeep.
Import ListNotations.
Local Open Scope Z_scope.

(** A service that announces itself with a pid file: when the file is written, and
    the service is not being stopped, its pid condition is asserted at once... *)
Theorem pidfile_announces : forall n evs cfgl cmdl w1, history n evs cfgl cmdl w1 -> ~ over w1 -> forall m s p w2,
  In s (k_svcs (wc w1)) -> c_notify (s_cf s) = NfPid -> c_forking (s_cf s) = false ->
  is_script_state (s_state s) = false -> s_state s <> Stopping ->
  on_event m (EvPidfile (s_key s) p) w1 = Some (tt, w2) -> asserted_first (pid_name s) w1 w2.
Proof. exact pidfile_first_lem. Qed.
Print Assumptions pidfile_announces.

(** ... and service/NAME/ready after it, in the same event *)
Theorem pidfile_means_ready : forall n evs cfgl cmdl w1 m s p w2, tame (evs ++ [EvPidfile (s_key s) p]) ->
  history n evs cfgl cmdl w1 -> ~ over w1 -> In s (k_svcs (wc w1)) ->
  c_notify (s_cf s) = NfPid \/ c_notify (s_cf s) = NfNone -> c_forking (s_cf s) = false -> a_service s ->
  is_script_state (s_state s) = false -> s_state s <> Stopping ->
  on_event m (EvPidfile (s_key s) p) w1 = Some (tt, w2) -> asserted (ready_name s) w1 w2.
Proof. exact pidfile_ready_lem. Qed.
Print Assumptions pidfile_means_ready.

(** A service with notify:systemd or notify:s6 is ready when it says so. *)
Theorem notify_means_ready : forall n evs cfgl cmdl w1, history n evs cfgl cmdl w1 -> ~ over w1 -> forall m s w2,
  In s (k_svcs (wc w1)) -> c_notify (s_cf s) = NfSystemd \/ c_notify (s_cf s) = NfS6 -> a_service s ->
  on_event m (EvNotify (s_key s)) w1 = Some (tt, w2) -> asserted_first (ready_name s) w1 w2.
Proof. exact notify_first_lem. Qed.
Print Assumptions notify_means_ready.

(** When the pid file goes, the pid condition does, at once. *)
Theorem pidfile_gone_withdraws : forall n evs cfgl cmdl w1, history n evs cfgl cmdl w1 -> ~ over w1 -> forall m s w2,
  In s (k_svcs (wc w1)) -> is_script_state (s_state s) = false ->
  is_dir (k_cond (wc w1)) (cond_path (pid_name s)) = false ->
  on_event m (EvPidfileDel (s_key s)) w1 = Some (tt, w2) -> withdrawn_first (pid_name s) w1 w2.
Proof. exact pidfile_gone_lem. Qed.
Print Assumptions pidfile_gone_withdraws.

(** ... and for a service that announces itself with it, its readiness too. *)
Theorem pidfile_gone_unready : forall n evs cfgl cmdl w1 m s w2, tame (evs ++ [EvPidfileDel (s_key s)]) ->
  history n evs cfgl cmdl w1 -> ~ over w1 -> In s (k_svcs (wc w1)) -> c_notify (s_cf s) = NfPid -> a_service s ->
  is_script_state (s_state s) = false ->
  on_event m (EvPidfileDel (s_key s)) w1 = Some (tt, w2) -> withdrawn (pid_name s) w1 w2 /\ withdrawn (ready_name s) w1 w2.
Proof. exact pidfile_unready_lem. Qed.
Print Assumptions pidfile_gone_unready.

(** When a deleted stanza is disposed of, its pid condition goes, unless a stanza
    of that name is registered again. *)
Theorem deleted_withdraws : forall n evs cfgl cmdl w1 m s w2, history n evs cfgl cmdl w1 -> ~ over w1 -> In s (k_gc (wc w1)) ->
  (forall t, In t (k_svcs (wc w1)) -> name_of t <> name_of s) ->
  on_event m (EvGc (s_key s)) w1 = Some (tt, w2) -> withdrawn (pid_name s) w1 w2.
Proof. exact gc_withdraws_lem. Qed.
Print Assumptions deleted_withdraws.

(** Nothing else asserts a condition with cond_set() than readiness, the pid file
    and the user. *)
Theorem asserted_only_if_reported : forall n evs cfgl cmdl e c nm older, tame evs ->
  during n evs cfgl cmdl e c (ECond (OpSet nm)) older ->
  (exists k s, record_at c k s /\ a_service s /\ nm = ready_name s /\ readiness_reported e k s) \/
  (exists k s, record_at c k s /\ nm = pid_name s /\ pid_reported e k s) \/
  e = EvCondSet nm.
Proof. exact set_why_lem. Qed.
Print Assumptions asserted_only_if_reported.

(** After a reload, and on resuming a paused service, pid/NAME is asserted by its
    path: only for a stanza that is running and not marked as changed. *)
Theorem confirmed_only_if_running : forall n evs cfgl cmdl e c q older, tame evs ->
  during n evs cfgl cmdl e c (ECond (OpSetPath q)) older ->
  exists k s, record_at c k s /\ q = cond_path (pid_name s) /\ s_state s = Running /\ s_dirty s = false.
Proof. exact setpath_why_lem. Qed.
Print Assumptions confirmed_only_if_running.

(** ** These do happen *)

(** b <pid/a>, a; and n, which notifies *)
Definition rd_conf : list cfg :=
  [stanza "a" TService 60 []; stanza "b" TService 60 ["pid/a"%string]; with_notify NfS6 (stanza "n" TService 60 [])].
Definition rd_up : list ev := boots rd_conf [10;11;12;13] ++ [EvBootCheck; EvWork].
Definition set_of (nm : string) (x : eff) : bool := match x with ECond (OpSet m) => String.eqb m nm | _ => false end.

Example pidfile_ex : result 60 rd_up 2 0 (fun w => match k_svcs (wc w) with
  | [a; b; s] => st_eqb (s_state a) Running && st_eqb (s_state b) Waiting && (1 <? s_pid s) && negb (k_down (wc w)) &&
      match c_notify (s_cf a), c_notify (s_cf s) with NfPid, NfS6 => true | _, _ => false end
  | _ => false end) = true.
Proof. vm_compute. reflexivity. Qed.
Example pidfile_ex_after : result 60 (rd_up ++ [EvPidfile 0 (Some 10); EvNotify 2; EvPidfileDel 0]) 2 0 (fun w =>
  existsb (fun x => set_of "pid/a" (snd x)) (wl w) && existsb (fun x => set_of "service/a/ready" (snd x)) (wl w) &&
  existsb (fun x => set_of "service/n/ready" (snd x)) (wl w) &&
  existsb (fun x => match snd x with ECond (OpClear m) => String.eqb m "pid/a" | _ => false end) (wl w)) = true.
Proof. vm_compute. reflexivity. Qed.
Example pidfile_ex_tame : tame (rd_up ++ [EvPidfile 0 (Some 10); EvNotify 2; EvPidfileDel 0]).
Proof. apply (tameb_tame ex_rank). vm_compute. reflexivity. Qed.

(** a is no longer configured: it is stopped, its record deleted and later disposed of *)
Definition rm_evs : list ev :=
  rd_up ++ [EvPidfile 0 (Some 10); EvConf (map entry (tl rd_conf)); EvReloadAll; EvReap 10 (Exited 0); EvReap 12 (Exited 0); EvWork].
Example deleted_ex : result 60 rm_evs 2 0 (fun w => match k_gc (wc w) with
  | [a] => (s_key a =? 0)%nat && negb (k_down (wc w)) && forallb (fun t => negb (String.eqb (name_of t) (name_of a))) (k_svcs (wc w))
  | _ => false end) = true.
Proof. vm_compute. reflexivity. Qed.

(** ** What they do not say is not so *)

(** The command line of s, which has no way to say that it is ready, is edited:
    it is stopped, and after that announced as ready. *)
Definition st_evs : list ev :=
  boots [with_notify NfNone (stanza "s" TService 60 [])] [10;11;12;13] ++ [EvBootCheck; EvWork;
   EvConf [entry (with_args "x" (with_notify NfNone (stanza "s" TService 60 [])))]; EvReloadAll; EvWork].
Theorem ready_while_stopping_refuted : exists evs w c k s older, tame evs /\ history 60 evs 2 0 w /\
  happened w c (ECond (OpSet (ready_name s))) older /\ record_at c k s /\ a_service s /\ s_state s = Stopping.
Proof.
  destruct (result_happened 60 st_evs 2 0 (fun c x _ => set_of "service/s/ready" x && match k_svcs c with
    | [s] => st_eqb (s_state s) Stopping && String.eqb (ready_name s) "service/s/ready" && match c_type (s_cf s) with TService => true | _ => false end
    | _ => false end)) as (w & c & x & older & A & B & C); [vm_compute; reflexivity|].
  apply andb_prop in C. destruct C as [C D]. destruct x; try discriminate C.
  match goal with o : cop |- _ => destruct o; try discriminate C end. cbn in C. apply String.eqb_eq in C. subst.
  destruct (k_svcs c) as [|s []] eqn:Es; try discriminate D. rewrite !andb_true_iff in D. destruct D as [[D1 D2] D3].
  apply st_eqb_eq in D1. apply String.eqb_eq in D2.
  exists st_evs, w, c, (s_key s), s, older. split; [apply (tameb_tame ex_rank); vm_compute; reflexivity|].
  split; [exact A|]. rewrite D2. split; [exact B|]. split; [split; [rewrite Es; left; reflexivity|reflexivity]|].
  split; [|exact D1]. left. destruct (c_type (s_cf s)); try discriminate D3. reflexivity.
Qed.
Print Assumptions ready_while_stopping_refuted.

(** s says it is ready over its socket; it never writes a pid file, and nobody sets
    its condition.  Yet any reload asserts pid/s. *)
Definition np_evs : list ev :=
  boots [with_notify NfS6 (stanza "s" TService 60 [])] [10;11;12;13] ++ [EvBootCheck; EvWork; EvNotify 0;
   EvConf [entry (with_notify NfS6 (stanza "s" TService 60 []))]; EvReloadAll; EvWork].
Theorem pid_without_pidfile_refuted : exists evs w s, tame evs /\ history 60 evs 2 0 w /\ In s (k_svcs (wc w)) /\
  cond_get (k_cond (wc w)) (pid_name s) = COn /\
  (forall e, In e evs -> match e with EvPidfile _ _ | EvCondSet _ | EvCondOneshot _ => False | _ => True end).
Proof.
  destruct (result_history 60 np_evs 2 0 (fun w => match k_svcs (wc w) with
    | [s] => cs_eqb (cond_get (k_cond (wc w)) (pid_name s)) COn | _ => false end)) as (w & A & B); [vm_compute; reflexivity|].
  destruct (k_svcs (wc w)) as [|s []] eqn:Es; try discriminate B.
  exists np_evs, w, s. split; [apply (tameb_tame ex_rank); vm_compute; reflexivity|]. split; [exact A|]. rewrite Es.
  split; [left; reflexivity|]. split; [destruct (cond_get _ _); try discriminate B; reflexivity|].
  intros e He. assert (X : forallb (fun e => match e with EvPidfile _ _ | EvCondSet _ | EvCondOneshot _ => false | _ => true end) np_evs = true)
    by (vm_compute; reflexivity).
  rewrite forallb_forall in X. specialize (X e He). destruct e; try discriminate X; exact I.
Qed.
Print Assumptions pid_without_pidfile_refuted.
