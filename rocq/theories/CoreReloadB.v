(** Every reading of the configuration is done in one go, and what is marked
    changed or removed is so because of the last one. *)
From Coq Require Import List String Ascii ZArith NArith Bool Lia Arith Relations.
From Coq Require Import ZifyBool ZifyNat.
From Verif Require Import CondModel CoreTypes CoreModel CoreLib CoreMicro CoreExec CoreCalm CoreLog CoreSpec CoreSpecE CoreAny CoreProof CoreIdent CoreReload.
Import ListNotations.
Local Open Scope Z_scope.

(** ** The log: EReconf and EReconfEnd come together *)

Definition atread (l : log) : Prop := match l with (_, EReconf) :: _ => True | _ => False end.
Fixpoint lok (l : log) : Prop :=
  match l with
  | [] => True
  | (c', x) :: l' =>
      match x, l' with
      | EReconfEnd, (c, EReconf) :: _ => c' = reload1 c
      | EReconfEnd, _ => False
      | _, _ => ~ atread l'
      end /\ lok l'
  end.
Definition lokt (l : log) : Prop := lok l /\ ~ atread l.
Definition lext {A} (m : ST A) : Prop := forall w a w', m w = Some (a, w') -> lokt (wl w) -> lokt (wl w').

Lemma lext_ret {A} (a : A) : lext (ret a).
Proof. intros w b w' E. inversion E. auto. Qed.
Lemma lext_getc : lext getc.
Proof. intros w b w' E. inversion E. subst. auto. Qed.
Lemma lext_modc f : lext (modc f).
Proof. intros w b w' E. inversion E. auto. Qed.
Definition plain_eff (x : eff) : bool := match x with EReconf | EReconfEnd => false | _ => true end.
Lemma lokt_cons c x l : plain_eff x = true -> lokt l -> lokt ((c, x) :: l).
Proof. intros Hx [H1 H2]. split; [|destruct x; cbn; try tauto; discriminate]. destruct x; try discriminate; split; auto. Qed.
Lemma lext_emit x : plain_eff x = true -> lext (emit x).
Proof. intros Hx w b w' E H. inversion E. cbn. apply lokt_cons; assumption. Qed.
Lemma lext_bind {A B} (m : ST A) (f : A -> ST B) : lext m -> (forall a, lext (f a)) -> lext (bind m f).
Proof.
  intros H1 H2 w b w' E H. unfold bind in E. destruct (m w) as [[a w1]|] eqn:Em; [|discriminate E].
  eapply H2; [exact E|]. eapply H1; eassumption.
Qed.
Lemma lext_foreach l f : (forall k, lext (f k)) -> lext (foreach l f).
Proof. intros H. induction l as [|x l IH]; [apply lext_ret|]. cbn [foreach]. apply lext_bind; auto. Qed.
Lemma lext_conf : lext conf_reload.
Proof.
  intros w a w' E [H1 H2]. rewrite conf_reload_eq in E. inversion E. cbn. split; [|intros []]. cbn.
  split; [reflexivity|]. split; assumption.
Qed.

Ltac lx1 :=
  match goal with
  | H : _ |- _ => solve [apply H]
  | |- lext (ret _) => apply lext_ret
  | |- lext getc => apply lext_getc
  | |- lext (modc _) => apply lext_modc
  | |- lext (emit _) => apply lext_emit; reflexivity
  | |- lext conf_reload => apply lext_conf
  | |- lext (bind _ _) => apply lext_bind; [|intros ?]
  | |- lext (foreach _ _) => apply lext_foreach; intros ?
  | |- lext (if ?b then _ else _) => destruct b
  | |- lext (match ?b with _ => _ end) => destruct b
  | |- lext (let _ := _ in _) => cbv zeta
  | |- lext ?m => let rec hd t := lazymatch t with ?f _ => hd f | _ => t end in
                 let h := hd m in unfold h
  end.
Ltac lxs := repeat lx1.

Section Rec.
Variable rec : call -> ST unit.
Hypothesis Hr : forall cl, lext (rec cl).

Lemma lext_delpath l : lext (c_delpath rec l).
Proof. induction l as [|q l IH]; cbn [c_delpath]; lxs. Qed.
Lemma lext_skl k l : lext (script_kill_list k l).
Proof. induction l as [|[p q] l IH]; cbn [script_kill_list]; lxs. Qed.
Lemma lext_set_state k n : lext (set_state rec k n).
Proof. pose proof lext_delpath. lxs. Qed.
Lemma lext_cset n : lext (c_set rec n). Proof. lxs. Qed.
Lemma lext_coneshot n : lext (c_oneshot rec n). Proof. lxs. Qed.
Lemma lext_cclear n : lext (c_clear rec n). Proof. pose proof lext_delpath. lxs. Qed.
Lemma lext_ready k b : lext (service_ready rec k b).
Proof. pose proof lext_cset. pose proof lext_cclear. lxs. Qed.
Lemma lext_step_all m : lext (step_all rec m). Proof. lxs. Qed.
Lemma lext_stop k : lext (service_stop rec k).
Proof. pose proof lext_set_state. lxs. Qed.
Lemma lext_switch k s c : lext (step_switch rec k s c).
Proof.
  pose proof lext_set_state. pose proof lext_ready. pose proof lext_stop. pose proof lext_cclear.
  unfold step_switch. destruct (s_state s); lxs.
Qed.
Lemma lext_hook h : lext (run_hook rec h).
Proof. pose proof lext_step_all. pose proof lext_coneshot. pose proof lext_ready. lxs. Qed.
Lemma lext_body cl : lext (body rec cl).
Proof.
  pose proof lext_set_state. pose proof lext_ready. pose proof lext_stop. pose proof lext_cclear. pose proof lext_switch.
  pose proof lext_hook. pose proof lext_step_all. pose proof lext_coneshot. pose proof lext_conf.
  lxs.
Qed.
Lemma lext_handle e : lext (handle rec e).
Proof.
  pose proof lext_set_state. pose proof lext_ready. pose proof lext_stop. pose proof lext_cclear. pose proof lext_switch.
  pose proof lext_hook. pose proof lext_step_all. pose proof lext_coneshot. pose proof lext_cset. pose proof lext_conf. pose proof lext_skl.
  unfold handle. destruct e; lxs.
Qed.
End Rec.

Lemma lext_exec n cl : lext (exec n cl).
Proof. revert cl. induction n as [|n IH]; intros cl; [intros w a w' E; discriminate E|]. cbn [exec]. apply lext_body, IH. Qed.
Lemma lext_event n e : lext (on_event n e).
Proof. unfold on_event. apply lext_bind; [apply lext_getc|]. intros c. destruct (k_down c); [apply lext_ret|]. apply lext_handle, lext_exec. Qed.
Lemma lext_run n evs : lext (run n evs).
Proof. induction evs as [|e evs IH]; cbn [run]; [apply lext_ret|]. apply lext_bind; [apply lext_event|intros ?; apply IH]. Qed.
Lemma history_lokt n evs cfgl cmdl w : history n evs cfgl cmdl w -> lokt (wl w).
Proof. intros H. eapply lext_run; [exact H|]. cbn. split; [exact I|auto]. Qed.
