(** Theorems about what run and task stanzas report (C19).  Each proof only applies
    a lemma of CoreTaskB. *)
From Coq Require Import List String Ascii ZArith NArith Bool Lia Arith.
From Verif Require Import CondModel CoreTypes CoreModel CoreTame CoreSpec CoreSpecB CoreTaskB CoreEx CorePropsC.
Import ListNotations.
Local Open Scope Z_scope.

(** ** C19 *)

(** When a run or task stanza is done, the very next thing finit does is to assert
    the condition that tells how its process ended: .../success if it exited with
    status 0, .../failure otherwise. *)
Theorem task_reported : forall evs, tame evs -> results_from_finit evs -> sockets_work evs -> bare_tasks evs ->
  forall n cfgl cmdl w k o c newer older, history n evs cfgl cmdl w ->
  wl w = newer ++ (c, EState k o Done) :: older ->
  exists newer' c' s st, newer = newer' ++ [(c', ECond (OpOneshot (result_name s st)))] /\
    record_at c k s /\ outcome_of k older = Ended st.
Proof. exact task_reported_lem. Qed.
Print Assumptions task_reported.

(** No such condition is asserted at any other time. *)
Theorem task_result : forall evs, tame evs -> results_from_finit evs -> sockets_work evs -> bare_tasks evs ->
  forall n cfgl cmdl w c name older, history n evs cfgl cmdl w ->
  happened w c (ECond (OpOneshot name)) older -> task_cond name = true ->
  exists k o c' older' s st, older = (c', EState k o Done) :: older' /\ record_at c' k s /\
    name = result_name s st /\ outcome_of k older' = Ended st.
Proof. exact task_result_lem. Qed.
Print Assumptions task_result.

Definition fakeb (evs : list ev) : bool := forallb (fun e => match e with EvCondOneshot n => negb (task_cond n) | _ => true end) evs.
Lemma fake_ok evs : fakeb evs = true -> results_from_finit evs.
Proof. intros H n Hn Hi. unfold fakeb in H. rewrite forallb_forall in H. specialize (H _ Hi). cbn in H. rewrite Hn in H. discriminate H. Qed.
Definition bareb (evs : list ev) : bool :=
  forallb (fun r => negb (c_pre (r_cfg r)) && negb (c_post (r_cfg r)) && negb (c_stop (r_cfg r))) (regs evs).
Lemma bare_ok evs : bareb evs = true -> bare_tasks evs.
Proof.
  intros H r Hr _. unfold bareb in H. rewrite forallb_forall in H. specialize (H _ Hr). cbv beta in H.
  destruct (c_pre (r_cfg r)); [discriminate H|]. destruct (c_post (r_cfg r)); [discriminate H|].
  destruct (c_stop (r_cfg r)); [discriminate H|]. auto.
Qed.
Definition asserted (n : string) (x : eff) : bool := match x with ECond (OpOneshot m) => String.eqb m n | _ => false end.
Lemma asserted_eq n x : asserted n x = true -> x = ECond (OpOneshot n).
Proof. destruct x; try discriminate. destruct o; try discriminate. cbn. intros H. apply String.eqb_eq in H. congruence. Qed.

(** task t ends well, task u and run r do not *)
Definition ex_tasks : list ev :=
  boots [stanza "t" TTask 60 []; stanza "u" TTask 60 []; stanza "r" TRun 60 []] [10;11;12] ++
  [EvBootCheck; EvWork; EvReap 11 (Exited 2); EvWork; EvReap 10 (Exited 0); EvWork; EvReap 12 (Signaled 9); EvWork].
Definition asserts (evs : list ev) (n : string) : Prop :=
  exists w c older, history 60 evs 2 0 w /\ happened w c (ECond (OpOneshot n)) older.
Lemma asserts_ok evs n : result 60 evs 2 0 (fun w => found (fun _ x _ => asserted n x) (wl w)) = true -> asserts evs n.
Proof.
  intros H. destruct (result_happened 60 evs 2 0 (fun _ x _ => asserted n x) H) as (w & c & x & older & A & B & C).
  apply asserted_eq in C. subst. exists w, c, older. auto.
Qed.
Example task_ex : tame ex_tasks /\ results_from_finit ex_tasks /\ sockets_work ex_tasks /\ bare_tasks ex_tasks /\
  asserts ex_tasks "task/t/success" /\ asserts ex_tasks "task/u/failure" /\ asserts ex_tasks "run/r/failure".
Proof.
  split; [apply (tameb_tame (fun _ => O)); vm_compute; reflexivity|]. split; [apply fake_ok; vm_compute; reflexivity|].
  split; [apply works_ok; vm_compute; reflexivity|]. split; [apply bare_ok; vm_compute; reflexivity|].
  split; [|split]; apply asserts_ok; vm_compute; reflexivity.
Qed.

(** With a pre: script the report can be false: a task that ended well once is
    reported as a success again when, the next time, its pre: script is killed and
    the task itself is not run at all. *)
Definition ex_prekill : list ev :=
  boots [with_pre true (stanza "t" TTask 60 [])] [10;11;12;13] ++
  [EvBootCheck; EvWork; EvReap 10 (Exited 0); EvWork; EvReap 11 (Exited 0); EvWork; EvRunlevel 3; EvWork;
   EvReap 12 (Signaled 9); EvWork].
Theorem task_result_pre_refuted : exists evs w c older, tame evs /\ results_from_finit evs /\ sockets_work evs /\
  history 60 evs 2 0 w /\ happened w c (ECond (OpOneshot "task/t/success")) older /\ last_exit 0 older = Some (Signaled 9).
Proof.
  destruct (result_happened 60 ex_prekill 2 0 (fun _ x older => asserted "task/t/success" x &&
      match last_exit 0 older with Some (Signaled 9) => true | _ => false end))
    as (w & c & x & older & A & B & C); [vm_compute; reflexivity|].
  apply andb_prop in C. destruct C as [C1 C2]. apply asserted_eq in C1. subst.
  exists ex_prekill, w, c, older. split; [apply (tameb_tame (fun _ => O)); vm_compute; reflexivity|].
  split; [apply fake_ok; vm_compute; reflexivity|]. split; [apply works_ok; vm_compute; reflexivity|].
  split; [exact A|]. split; [exact B|].
  destruct (last_exit 0 older) as [[|z]|]; [discriminate C2| |discriminate C2].
  destruct (z =? 9) eqn:E; [apply Z.eqb_eq in E; subst; reflexivity|].
  destruct z as [|p|]; [discriminate C2| |discriminate C2].
  do 4 (destruct p as [p|p|]; try discriminate C2). vm_compute in E. discriminate E.
Qed.

(** Success and failure can hold together: a manual:yes task that failed and was
    started again keeps its failure condition when it then succeeds. *)
Definition ex_manual_twice : list ev :=
  boots [with_manual true (stanza "t" TTask 60 [])] [10;11;12] ++
  [EvBootCheck; EvWork; EvStart 0; EvWork; EvReap 10 (Exited 1); EvWork; EvStart 0; EvWork; EvReap 11 (Exited 0); EvWork].
Theorem task_result_both_refuted : exists evs w, tame evs /\ results_from_finit evs /\ sockets_work evs /\ bare_tasks evs /\
  history 60 evs 2 0 w /\ cond_get (k_cond (wc w)) "task/t/success" = COn /\ cond_get (k_cond (wc w)) "task/t/failure" = COn.
Proof.
  destruct (result_history 60 ex_manual_twice 2 0 (fun w => cs_eqb (cond_get (k_cond (wc w)) "task/t/success") COn &&
      cs_eqb (cond_get (k_cond (wc w)) "task/t/failure") COn)) as (w & A & B); [vm_compute; reflexivity|].
  exists ex_manual_twice, w. split; [apply (tameb_tame (fun _ => O)); vm_compute; reflexivity|].
  split; [apply fake_ok; vm_compute; reflexivity|]. split; [apply works_ok; vm_compute; reflexivity|].
  split; [apply bare_ok; vm_compute; reflexivity|]. split; [exact A|].
  destruct (cond_get _ "task/t/success"); try discriminate B. destruct (cond_get _ "task/t/failure"); try discriminate B. auto.
Qed.
