(** Properties that hold now and held at every logged moment. *)
From Coq Require Import List String Ascii ZArith NArith Bool Lia Arith Relations.
From Verif Require Import CondModel CoreTypes CoreModel CoreLib CoreMicro CoreExec CoreLog CoreSpec CoreAny CoreProof.
Import ListNotations.
Local Open Scope Z_scope.

Section Moment.
Variable B : core -> log -> Prop.

Definition mom (w : world) : Prop :=
  B (wc w) (wl w) /\ forall l1 c x l2, wl w = l1 ++ (c, x) :: l2 -> B c l2.

Lemma mom_emit x w : (B (wc w) (wl w) -> B (wc w) ((wc w, x) :: wl w)) -> mom w -> mom (wemit x w).
Proof.
  intros H [H1 H2]. split; [apply H, H1|]. intros l1 c y l2 E. cbn in E. destruct l1 as [|z l1].
  - inversion E; subst. exact H1.
  - inversion E; subst. eapply H2; eauto.
Qed.
Lemma mom_mod g w : (B (wc w) (wl w) -> B (g (wc w)) (wl w)) -> mom w -> mom (wmod g w).
Proof. intros H [H1 H2]. split; [apply H, H1|exact H2]. Qed.
Lemma mom_emod x g w : (B (wc w) (wl w) -> B (g (wc w)) ((wc w, x) :: wl w)) -> mom w -> mom (wmod g (wemit x w)).
Proof.
  intros H [H1 H2]. split; [apply H, H1|]. intros l1 c y l2 E. cbn in E. destruct l1 as [|z l1].
  - inversion E; subst. exact H1.
  - inversion E; subst. eapply H2; eauto.
Qed.
Lemma mom_happened w c x older : mom w -> happened w c x older -> B c older.
Proof. intros [_ H] (newer & E). eapply H, E. Qed.
Lemma mom_init cfgl cmdl : B (init_core cfgl cmdl) [] -> mom (init_world cfgl cmdl).
Proof. intros H. split; [exact H|]. intros l1 c x l2 E. destruct l1; discriminate. Qed.
End Moment.

(** ... proved along a history *)
Lemma history_mom B : (forall e w w', micro False e w w' -> mom B w -> mom B w') ->
  forall n evs cfgl cmdl w, B (init_core cfgl cmdl) [] -> history n evs cfgl cmdl w -> mom B w.
Proof.
  intros HB n evs cfgl cmdl w H0 Hh. apply run_any in Hh. revert w Hh.
  apply (reach_ind False (fun e => In e evs) (mom B)); [apply mom_init, H0|].
  intros e w1 w2 _ Hm _. apply (HB e), Hm.
Qed.
