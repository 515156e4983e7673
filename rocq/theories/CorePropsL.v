(** C51: what is taken out of the configuration goes away. *)
From Coq Require Import List String Ascii ZArith NArith Bool Lia Arith.
From Verif Require Import CondModel CoreTypes CoreModel CoreTame CoreLib CoreSpec CoreSpecB CoreSpecC CoreEx CorePropsC CorePropsI CoreGone CoreSpecE.
Import ListNotations.
Local Open Scope Z_scope.

(** Bootstrap is over and no change of runlevel and no reload is under way. *)
Definition settled_down (c : core) : Prop := k_sm c = SmRunning /\ k_rl c <> 10.

(** Then every registered stanza was in the configuration as it was last read, but
    for the built-in ones, and none is waiting to be deleted. *)
Theorem removed_is_gone : forall n evs cfgl cmdl w s, tame evs -> history n evs cfgl cmdl w ->
  settled_down (wc w) -> In s (k_svcs (wc w)) ->
  s_removed s = false /\
  (s_protect s = true \/ exists c r, last_read (wl w) = Some c /\ In r (k_conf c) /\ names r s).
Proof. intros n evs cfgl cmdl w s HT Hh [H1 H2]. exact (gone_configured_lem n evs cfgl cmdl w s HT Hh H1 H2). Qed.
Print Assumptions removed_is_gone.

(** So is every process that was started for one: a living process belongs to a
    stanza of the configuration as it was last read, to a built-in one, or to a
    stanza for runlevel S alone that was dropped with its process. *)
Theorem removed_process_gone : forall evs, tame evs -> sockets_work evs -> signal_stop evs ->
  forall n cfgl cmdl w k p, history n evs cfgl cmdl w -> settled_down (wc w) -> In (p, k) (k_mains (wc w)) ->
  (exists s, In s (k_svcs (wc w)) /\ s_key s = k /\ s_pid s = p /\
     (s_protect s = true \/ exists c r, last_read (wl w) = Some c /\ In r (k_conf c) /\ names r s)) \/
  (exists c older s, happened w c (EForget k p) older /\ record_at c k s /\ only_boot (c_levels (s_cf s)) = true).
Proof.
  intros evs HT HS HG n cfgl cmdl w k p Hh [H1 H2] Hp.
  destruct (main_known evs HT HS HG n cfgl cmdl w k p Hh Hp) as [(s & A & B & C & _)|(c & older & A)].
  - left. exists s. destruct (gone_configured_lem n evs cfgl cmdl w s HT Hh H1 H2 A) as [_ D]. auto.
  - right. destruct (process_forgotten _ _ _ _ _ _ _ _ _ Hh A) as (s & B & _ & C). exists c, older, s. auto.
Qed.
Print Assumptions removed_process_gone.

(** ** A case that meets the hypotheses *)

(** Of a, b, h, x and z, all running, x was taken out.  While x is being stopped it is
    still there, marked; afterwards neither it nor its process is. *)
Example gone_before : result 60 (rl_up ++ [EvConf rl_new_conf; EvReloadAll]) 2 0 (fun w =>
  negb (sm_eqb (k_sm (wc w)) SmRunning) && existsb (fun s => s_removed s && (s_key s =? 3)%nat) (k_svcs (wc w)) &&
  existsb (fun a => (snd a =? 3)%nat) (k_mains (wc w))) = true.
Proof. vm_compute. reflexivity. Qed.
Example gone_after : result 60 rl_evs 2 0 (fun w =>
  sm_eqb (k_sm (wc w)) SmRunning && (k_rl (wc w) =? 2) && (List.length (k_svcs (wc w)) =? 4)%nat &&
  forallb (fun s => negb (s_protect s)) (k_svcs (wc w)) &&
  negb (existsb (fun a => (snd a =? 3)%nat) (k_mains (wc w))) && (3 <=? List.length (k_mains (wc w)))%nat) = true.
Proof. vm_compute. reflexivity. Qed.
Example gone_class : tame rl_evs /\ sockets_work rl_evs /\ signal_stop rl_evs.
Proof.
  split; [apply rl_tame|]. split; [apply works_ok|apply signal_ok]; vm_compute; reflexivity.
Qed.
