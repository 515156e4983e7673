(** C50: requests take effect at once. *)
From Coq Require Import List String Ascii ZArith NArith Bool Lia Arith.
From Verif Require Import CondModel CoreTypes CoreModel CoreTame CoreLib CoreSpec CoreSpecB CoreEx CoreSpecG CoreReq.
Import ListNotations.
Local Open Scope Z_scope.

(** `initctl start' of a halted stanza that is kept from running only because it
    was stopped by the user, crashed too often, or the like: the first thing that
    happens is that it leaves the halted state. *)
Theorem start_request : forall n evs cfgl cmdl w1, history n evs cfgl cmdl w1 -> ~ over w1 -> forall m s w2,
  reserved (k_rl (wc w1)) = false -> In s (k_svcs (wc w1)) ->
  on_event m (EvStart (s_key s)) w1 = Some (tt, w2) ->
  s_state s = Halted -> may_start (wc w1) (released s) ->
  answered (wl w1) (wl w2) (s_key s) RqStart (EState (s_key s) Halted Waiting).
Proof. exact start_request_lem. Qed.
Print Assumptions start_request.

(** `initctl restart' and `initctl reload NAME' do the same to a halted stanza. *)
Theorem restart_starts : forall n evs cfgl cmdl w1, history n evs cfgl cmdl w1 -> ~ over w1 -> forall m s w2,
  reserved (k_rl (wc w1)) = false -> In s (k_svcs (wc w1)) ->
  on_event m (EvRestart (s_key s)) w1 = Some (tt, w2) ->
  s_state s = Halted -> may_start (wc w1) (released s) ->
  answered (wl w1) (wl w2) (s_key s) RqRestart (EState (s_key s) Halted Waiting).
Proof. exact restart_starts_lem. Qed.
Print Assumptions restart_starts.
Theorem reload_starts : forall n evs cfgl cmdl w1, history n evs cfgl cmdl w1 -> ~ over w1 -> forall m s w2,
  reserved (k_rl (wc w1)) = false -> In s (k_svcs (wc w1)) ->
  on_event m (EvReload (s_key s)) w1 = Some (tt, w2) ->
  s_state s = Halted -> may_start (wc w1) (released s) ->
  answered (wl w1) (wl w2) (s_key s) RqReload (EState (s_key s) Halted Waiting).
Proof. exact reload_starts_lem. Qed.
Print Assumptions reload_starts.

(** `initctl reload NAME' of a running stanza that takes SIGHUP: SIGHUP to its
    process, before anything else. *)
Theorem reload_tells : forall n evs cfgl cmdl w1, history n evs cfgl cmdl w1 -> ~ over w1 -> forall m s w2,
  reserved (k_rl (wc w1)) = false -> In s (k_svcs (wc w1)) ->
  on_event m (EvReload (s_key s)) w1 = Some (tt, w2) ->
  s_state s = Running -> may_start (wc w1) s -> conds_on (wc w1) s -> 1 < s_pid s ->
  c_reload (s_cf s) = false -> c_sighup (s_cf s) = true -> s_adirty s = false ->
  k_inrl (wc w1) = false -> k_norespawn (wc w1) = false ->
  answered (wl w1) (wl w2) (s_key s) RqReload (EKill (s_key s) (s_pid s) 1).
Proof. exact reload_tells_lem. Qed.
Print Assumptions reload_tells.

(** One that cannot be reloaded, or whose command line was edited, is stopped, to be
    started again: its signal to its process, and the timer for SIGKILL. *)
Theorem reload_restarts : forall n evs cfgl cmdl w1, history n evs cfgl cmdl w1 -> ~ over w1 -> forall m s w2,
  reserved (k_rl (wc w1)) = false -> In s (k_svcs (wc w1)) ->
  on_event m (EvReload (s_key s)) w1 = Some (tt, w2) ->
  s_state s = Running -> may_start (wc w1) s -> conds_on (wc w1) s ->
  c_reload (s_cf s) = false /\ c_sighup (s_cf s) = false \/ s_adirty s = true ->
  c_stop (s_cf s) = false -> c_type (s_cf s) <> TSysv -> 1 < s_pid s -> In (s_pid s) (k_procs (wc w1)) -> 0 < c_killdelay (s_cf s) ->
  stop_order (wl w1) (wl w2) (s_key s) RqReload (s_state s) (s_pid s) (c_sighalt (s_cf s)) (c_killdelay (s_cf s)).
Proof. exact reload_restarts_lem. Qed.
Print Assumptions reload_restarts.

(** ** These do happen *)

(** a takes SIGHUP, n does not; x was stopped by the user *)
Definition rq_conf : list cfg :=
  [set_c_sighup true (stanza "a" TService 60 []); set_c_sighup false (stanza "n" TService 60 []); stanza "x" TService 60 []].
Definition rq_up : list ev :=
  boots rq_conf [10;11;12;13] ++ [EvBootCheck; EvWork; EvPidfile 0 (Some 10); EvPidfile 1 (Some 11); EvStop 2; EvReap 12 (Exited 0); EvWork].
Definition may_startb (c : core) (s : svc) : bool :=
  N.testbit (c_levels (s_cf s)) (Z.to_N (k_rl c)) && negb (s_removed s) &&
  match s_block s with BNone => true | _ => false end && match c_if (s_cf s) with [] => true | _ => false end &&
  match c_type (s_cf s) with TTty => false | _ => true end.
Lemma may_startb_ok c s : may_startb c s = true -> may_start c s.
Proof.
  unfold may_startb. rewrite !andb_true_iff. intros [[[[A B] C] D] E]. apply negb_true_iff in B. constructor.
  - exact A.
  - exact B.
  - destruct (s_block s); try discriminate C. reflexivity.
  - destruct (c_if (s_cf s)); [intros g []|discriminate D].
  - intros X. rewrite X in E. discriminate E.
Qed.
Example requests_ex : exists w a b x, history 60 rq_up 2 0 w /\ reserved (k_rl (wc w)) = false /\
  k_svcs (wc w) = [a; b; x] /\ s_state x = Halted /\ s_block x = BUser /\ may_start (wc w) (released x) /\
  s_state a = Running /\ may_start (wc w) a /\ conds_on (wc w) a /\ 1 < s_pid a /\ c_sighup (s_cf a) = true /\
  s_adirty a = false /\ k_inrl (wc w) = false /\ k_norespawn (wc w) = false /\
  s_state b = Running /\ may_start (wc w) b /\ conds_on (wc w) b /\ 1 < s_pid b /\ c_sighup (s_cf b) = false /\ In (s_pid b) (k_procs (wc w)).
Proof.
  destruct (result_history 60 rq_up 2 0 (fun w => negb (reserved (k_rl (wc w))) && negb (k_inrl (wc w)) && negb (k_norespawn (wc w)) &&
    match k_svcs (wc w) with
    | [a; b; x] => st_eqb (s_state x) Halted && match s_block x with BUser => true | _ => false end && may_startb (wc w) (released x) &&
        (st_eqb (s_state a) Running && may_startb (wc w) a && match c_cond (s_cf a) with [] => true | _ => false end && (1 <? s_pid a) &&
         c_sighup (s_cf a) && negb (s_adirty a)) &&
        (st_eqb (s_state b) Running && may_startb (wc w) b && match c_cond (s_cf b) with [] => true | _ => false end && (1 <? s_pid b) &&
         negb (c_sighup (s_cf b)) && existsb (Z.eqb (s_pid b)) (k_procs (wc w)))
    | _ => false end)) as (w & A & B); [vm_compute; reflexivity|].
  destruct (k_svcs (wc w)) as [|a [|b [|x []]]] eqn:Es; rewrite ?andb_false_r in B; try discriminate B.
  rewrite !andb_true_iff, !negb_true_iff in B.
  destruct B as [[[B1 B2] B3] [[[[B4 B5] B6] [[[[[B7 B8] B9] B10] B11] B12]] [[[[[B13 B14] B15] B16] B17] B18]]].
  apply st_eqb_eq in B4, B7, B13. apply may_startb_ok in B6, B8, B14. apply existsb_exists in B18. destruct B18 as (p & P1 & P2).
  apply Z.eqb_eq in P2. subst p.
  exists w, a, b, x. split; [exact A|]. split; [exact B1|]. split; [exact Es|]. split; [exact B4|].
  split; [destruct (s_block x); try discriminate B5; reflexivity|]. split; [exact B6|]. split; [exact B7|]. split; [exact B8|].
  split; [unfold conds_on; destruct (c_cond (s_cf a)); [intros ? []|discriminate B9]|]. split; [apply Z.ltb_lt, B10|].
  split; [exact B11|]. split; [exact B12|]. split; [exact B2|]. split; [exact B3|]. split; [exact B13|]. split; [exact B14|].
  split; [unfold conds_on; destruct (c_cond (s_cf b)); [intros ? []|discriminate B15]|]. split; [apply Z.ltb_lt, B16|].
  split; [exact B17|exact P1].
Qed.
