(** C52: bootstrap waits for its tasks, and ends. *)
From Coq Require Import List String Ascii ZArith NArith Bool Lia Arith.
From Coq Require Import ZifyBool ZifyNat.
From Verif Require Import CondModel CoreTypes CoreModel CoreTame CoreLib CoreSpec CoreGrow CoreSpecH CoreSpecE.
Import ListNotations.
Local Open Scope Z_scope.

(** * The counter is left alone by everything but the check itself *)

(** what is not done: to end bootstrap, and, if [a], to ask for a runlevel *)
Definition bad (a : bool) (x : eff) : Prop :=
  match x with EBooted _ => True | EAsk _ => a = true | _ => False end.
Definition none_bad (a : bool) (l : log) : Prop := forall c x, In (c, x) l -> ~ bad a x.
Definition quiet (a : bool) (w w' : world) : Prop :=
  k_bootleft (wc w') = k_bootleft (wc w) /\
  exists new, wl w' = new ++ wl w /\ none_bad a new.
Definition mute {A} (a : bool) (m : ST A) : Prop := forall w x w', m w = Some (x, w') -> quiet a w w'.

Section Closure.
Variable a : bool.
Notation mute := (mute a).
Notation quiet := (quiet a).

Lemma quiet_refl w : quiet w w.
Proof. split; [reflexivity|]. exists []. split; [reflexivity|]. intros c b []. Qed.
Lemma quiet_trans w1 w2 w3 : quiet w1 w2 -> quiet w2 w3 -> quiet w1 w3.
Proof.
  intros (A1 & l & A3 & A4) (B1 & m & B3 & B4). split; [congruence|].
  exists (m ++ l). split; [rewrite B3, A3; apply app_assoc|].
  intros c x Hx. apply in_app_or in Hx. destruct Hx as [Hx|Hx]; [exact (B4 _ _ Hx)|exact (A4 _ _ Hx)].
Qed.
Lemma mute_ret {A} (x : A) : mute (ret x).
Proof. intros w b w' E. inversion E. apply quiet_refl. Qed.
Lemma mute_getc : mute getc.
Proof. intros w b w' E. inversion E. subst. apply quiet_refl. Qed.
Lemma mute_modc f : (forall c, k_bootleft (f c) = k_bootleft c) -> mute (modc f).
Proof.
  intros H w b w' E. inversion E. subst. split; [exact (H (wc w))|].
  exists []. split; [reflexivity|]. intros c x [].
Qed.
Lemma mute_upd k f : mute (upd k f).
Proof. apply mute_modc. intros c. reflexivity. Qed.
Lemma mute_emit x : ~ bad a x -> mute (emit x).
Proof.
  intros H w b w' E. inversion E. split; [reflexivity|]. exists [(wc w, x)]. split; [reflexivity|].
  intros c y [Hy|[]]. injection Hy as _ <-. exact H.
Qed.
Lemma mute_bind {A B} (m : ST A) (f : A -> ST B) : mute m -> (forall x, mute (f x)) -> mute (bind m f).
Proof.
  intros H1 H2 w b w' E. unfold bind in E. destruct (m w) as [[x w1]|] eqn:Em; [|discriminate E].
  eapply quiet_trans; [eapply H1, Em|eapply H2, E].
Qed.
Lemma mute_foreach l f : (forall k, mute (f k)) -> mute (foreach l f).
Proof. intros H. induction l as [|x l IH]; [apply mute_ret|]. cbn [foreach]. apply mute_bind; auto. Qed.
End Closure.

Ltac same_left :=
  let c := fresh in intros c; cbv beta zeta;
  repeat match goal with
  | |- context [if ?b then _ else _] => destruct b
  | |- context [match ?b with Some _ => _ | None => _ end] => destruct b
  end; reflexivity.
Ltac mu1 :=
  match goal with
  | H : _ |- _ => solve [apply H]
  | |- mute _ (ret _) => apply mute_ret
  | |- mute _ getc => apply mute_getc
  | |- mute _ (upd _ _) => apply mute_upd
  | |- mute _ (modc _) => apply mute_modc; same_left
  | |- mute _ (emit _) => apply mute_emit; let H := fresh in intros H; first [exact H|discriminate H]
  | |- mute _ (bind _ _) => apply mute_bind; [|intros ?]
  | |- mute _ (foreach _ _) => apply mute_foreach; intros ?
  | |- mute _ (if ?b then _ else _) => destruct b
  | |- mute _ (match ?b with _ => _ end) => destruct b
  | |- mute _ (let _ := _ in _) => cbv zeta
  | |- mute _ ?m => let rec hd t := lazymatch t with ?f _ => hd f | _ => t end in
                 let h := hd m in unfold h
  end.
Ltac mus := repeat mu1.

Section Rec.
Variable a : bool.
Variable rec : call -> ST unit.
Hypothesis Hr : forall cl, mute a (rec cl).

Lemma mute_delpath l : mute a (c_delpath rec l).
Proof. induction l as [|q l IH]; cbn [c_delpath]; mus. Qed.
Lemma mute_regall l : mute a (register_all l).
Proof. induction l as [|q l IH]; cbn [register_all]; mus. Qed.
Lemma mute_skl k l : mute a (script_kill_list k l).
Proof. induction l as [|[p q] l IH]; cbn [script_kill_list]; mus. Qed.
Lemma mute_set_state k n : mute a (set_state rec k n).
Proof. pose proof mute_delpath. mus. Qed.
Lemma mute_cset n : mute a (c_set rec n). Proof. mus. Qed.
Lemma mute_coneshot n : mute a (c_oneshot rec n). Proof. mus. Qed.
Lemma mute_cclear n : mute a (c_clear rec n). Proof. pose proof mute_delpath. mus. Qed.
Lemma mute_ready k b : mute a (service_ready rec k b).
Proof. pose proof mute_cset. pose proof mute_cclear. mus. Qed.
Lemma mute_step_all m : mute a (step_all rec m). Proof. mus. Qed.
Lemma mute_stop k : mute a (service_stop rec k).
Proof. pose proof mute_set_state. mus. Qed.
Lemma mute_switch k s c : mute a (step_switch rec k s c).
Proof.
  pose proof mute_set_state. pose proof mute_ready. pose proof mute_stop. pose proof mute_cclear.
  unfold step_switch. destruct (s_state s); mus.
Qed.
Lemma mute_hook h : mute a (run_hook rec h).
Proof. pose proof mute_step_all. pose proof mute_coneshot. pose proof mute_ready. mus. Qed.
Lemma mute_body cl : mute a (body rec cl).
Proof.
  pose proof mute_set_state. pose proof mute_ready. pose proof mute_stop. pose proof mute_cclear. pose proof mute_switch.
  pose proof mute_hook. pose proof mute_step_all. pose proof mute_coneshot. pose proof mute_regall.
  mus.
Qed.
Lemma mute_prune : mute a prune_bootstrap.
Proof. mus. Qed.
End Rec.

Section Ev.
Variable rec : call -> ST unit.
Hypothesis Hr : forall cl, mute false (rec cl).
Lemma mute_runlevel l : mute false (sm_runlevel rec l).
Proof. pose proof (mute_cset false rec Hr). pose proof (mute_cclear false rec Hr). pose proof (mute_step_all false rec Hr). mus. Qed.
Lemma mute_handle e : e <> EvBootCheck -> mute false (handle rec e).
Proof.
  intros He.
  pose proof (mute_set_state false rec Hr). pose proof (mute_ready false rec Hr). pose proof (mute_stop false rec Hr). pose proof (mute_cclear false rec Hr). pose proof (mute_switch false rec Hr).
  pose proof (mute_hook false rec Hr). pose proof (mute_step_all false rec Hr). pose proof (mute_coneshot false rec Hr). pose proof (mute_cset false rec Hr). pose proof (mute_regall false). pose proof (mute_skl false).
  pose proof mute_runlevel.
  unfold handle. destruct e; try (exfalso; apply He; reflexivity); mus.
Qed.
End Ev.


Lemma mute_exec a n cl : mute a (exec n cl).
Proof. revert cl. induction n as [|n IH]; intros cl; [intros w x w' E; discriminate E|]. cbn [exec]. apply mute_body, IH. Qed.
Lemma mute_event n e : e <> EvBootCheck -> mute false (on_event n e).
Proof. intros He. unfold on_event. apply mute_bind; [apply mute_getc|]. intros c. destruct (k_down c); [apply mute_ret|]. apply mute_handle; [apply mute_exec|exact He]. Qed.
