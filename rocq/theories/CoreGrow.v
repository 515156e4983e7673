(** The log only grows, and what an event logs first. *)
From Coq Require Import List String Ascii ZArith NArith Bool Lia Arith Relations.
From Coq Require Import ZifyBool ZifyNat.
From Verif Require Import CondModel CoreTypes CoreModel CoreLib.
Import ListNotations.
Local Open Scope Z_scope.

Definition grown (w w' : world) : Prop := exists new, wl w' = new ++ wl w.
Definition ext {A} (m : ST A) : Prop := forall w a w', m w = Some (a, w') -> grown w w'.

Lemma grown_refl w : grown w w.
Proof. exists []. reflexivity. Qed.
Lemma grown_trans w1 w2 w3 : grown w1 w2 -> grown w2 w3 -> grown w1 w3.
Proof. intros (a & A) (b & B). exists (b ++ a). rewrite B, A. apply app_assoc. Qed.
Lemma grown_emit x w w' : grown (wemit x w) w' -> grown w w'.
Proof. apply grown_trans. exists [(wc w, x)]. reflexivity. Qed.

Lemma ext_ret {A} (a : A) : ext (ret a).
Proof. intros w b w' E. inversion E. apply grown_refl. Qed.
Lemma ext_getc : ext getc.
Proof. intros w b w' E. inversion E. subst. apply grown_refl. Qed.
Lemma ext_modc f : ext (modc f).
Proof. intros w b w' E. inversion E. exists []. reflexivity. Qed.
Lemma ext_emit x : ext (emit x).
Proof. intros w b w' E. inversion E. exists [(wc w, x)]. reflexivity. Qed.
Lemma ext_bind {A B} (m : ST A) (f : A -> ST B) : ext m -> (forall a, ext (f a)) -> ext (bind m f).
Proof.
  intros H1 H2 w b w' E. unfold bind in E. destruct (m w) as [[a w1]|] eqn:Em; [|discriminate E].
  eapply grown_trans; [eapply H1, Em|eapply H2, E].
Qed.
Lemma ext_foreach l f : (forall k, ext (f k)) -> ext (foreach l f).
Proof. intros H. induction l as [|x l IH]; [apply ext_ret|]. cbn [foreach]. apply ext_bind; auto. Qed.

Ltac ex1 :=
  match goal with
  | H : _ |- _ => solve [apply H]
  | |- ext (ret _) => apply ext_ret
  | |- ext getc => apply ext_getc
  | |- ext (modc _) => apply ext_modc
  | |- ext (emit _) => apply ext_emit
  | |- ext (bind _ _) => apply ext_bind; [|intros ?]
  | |- ext (foreach _ _) => apply ext_foreach; intros ?
  | |- ext (if ?b then _ else _) => destruct b
  | |- ext (match ?b with _ => _ end) => destruct b
  | |- ext (let _ := _ in _) => cbv zeta
  | |- ext ?m => let rec hd t := lazymatch t with ?f _ => hd f | _ => t end in
                 let h := hd m in unfold h
  end.
Ltac exs := repeat ex1.

Section Rec.
Variable rec : call -> ST unit.
Hypothesis Hr : forall cl, ext (rec cl).

Lemma ext_delpath l : ext (c_delpath rec l).
Proof. induction l as [|q l IH]; cbn [c_delpath]; exs. Qed.
Lemma ext_regall l : ext (register_all l).
Proof. induction l as [|q l IH]; cbn [register_all]; exs. Qed.
Lemma ext_skl k l : ext (script_kill_list k l).
Proof. induction l as [|[p q] l IH]; cbn [script_kill_list]; exs. Qed.
Lemma ext_set_state k n : ext (set_state rec k n).
Proof. pose proof ext_delpath. exs. Qed.
Lemma ext_cset n : ext (c_set rec n). Proof. exs. Qed.
Lemma ext_coneshot n : ext (c_oneshot rec n). Proof. exs. Qed.
Lemma ext_cclear n : ext (c_clear rec n). Proof. pose proof ext_delpath. exs. Qed.
Lemma ext_ready k b : ext (service_ready rec k b).
Proof. pose proof ext_cset. pose proof ext_cclear. exs. Qed.
Lemma ext_step_all m : ext (step_all rec m). Proof. exs. Qed.
Lemma ext_stop k : ext (service_stop rec k).
Proof. pose proof ext_set_state. exs. Qed.
Lemma ext_switch k s c : ext (step_switch rec k s c).
Proof.
  pose proof ext_set_state. pose proof ext_ready. pose proof ext_stop. pose proof ext_cclear.
  unfold step_switch. destruct (s_state s); exs.
Qed.
Lemma ext_hook h : ext (run_hook rec h).
Proof. pose proof ext_step_all. pose proof ext_coneshot. pose proof ext_ready. exs. Qed.
Lemma ext_body cl : ext (body rec cl).
Proof.
  pose proof ext_set_state. pose proof ext_ready. pose proof ext_stop. pose proof ext_cclear. pose proof ext_switch.
  pose proof ext_hook. pose proof ext_step_all. pose proof ext_coneshot. pose proof ext_regall.
  exs.
Qed.
Lemma ext_handle e : ext (handle rec e).
Proof.
  pose proof ext_set_state. pose proof ext_ready. pose proof ext_stop. pose proof ext_cclear. pose proof ext_switch.
  pose proof ext_hook. pose proof ext_step_all. pose proof ext_coneshot. pose proof ext_cset. pose proof ext_regall. pose proof ext_skl.
  unfold handle. destruct e; exs.
Qed.
End Rec.

Lemma ext_exec n cl : ext (exec n cl).
Proof. revert cl. induction n as [|n IH]; intros cl; [intros w a w' E; discriminate E|]. cbn [exec]. apply ext_body, IH. Qed.
Lemma ext_event n e : ext (on_event n e).
Proof. unfold on_event. apply ext_bind; [apply ext_getc|]. intros c. destruct (k_down c); [apply ext_ret|]. apply ext_handle, ext_exec. Qed.
