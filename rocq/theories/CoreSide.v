(** Parts of the machine that stay as they are in quieter runs: readiness
    sockets, the respawn lock and the ready: scripts. *)
From Coq Require Import List String Ascii ZArith NArith Bool Lia Arith Relations.
From Coq Require Import ZifyBool ZifyNat.
From Verif Require Import CondModel CoreTypes CoreModel CoreLib CoreMicro CoreExec CoreCalm CoreLog
  CoreSpec CoreSpecB CoreAny CoreProof CoreSlice.
Import ListNotations.
Local Open Scope Z_scope.

Section Side.
Variable evs : list ev.
Hypothesis HT : tame evs.

Record side (c : core) : Prop := {
  sd_notes : sockets_work evs -> ~ In true (k_notes c);
  sd_resp : no_lock evs -> k_norespawn c = false;
  sd_assoc : no_ready evs -> k_assoc c = []
}.
Definition sw (w : world) := side (wc w).

Lemma sw_emit x w : sw w -> sw (wemit x w).
Proof. exact (fun h => h). Qed.
Lemma sw_mod g w : (forall c, side c -> side (g c)) -> sw w -> sw (wmod g w).
Proof. intros Hg H. apply Hg, H. Qed.
Lemma side_same (g : core -> core) : (forall c, k_notes (g c) = k_notes c) -> (forall c, k_norespawn (g c) = k_norespawn c) ->
  (forall c, k_assoc (g c) = k_assoc c) -> forall c, side c -> side (g c).
Proof. intros E1 E2 E3 c [A B C]. constructor; rewrite ?E1, ?E2, ?E3; assumption. Qed.
Ltac same := apply side_same; intros ?; reflexivity.
Lemma sw_upd k f w : sw w -> sw (wupd k f w).
Proof. apply sw_mod. same. Qed.
Lemma sw_went k new w : sw w -> sw (went k new w).
Proof.
  intros H. unfold went. destruct (lookup_svc (wc w) k) as [s|]; [|exact H]. unfold wenter. cbv zeta.
  assert (G : forall w1, sw w1 -> sw (if st_eqb (s_state s) new then w1
           else wupd k (set_s_state new) (wemit (EState k (s_state s) new) w1))).
  { intros w1 H1. destruct (st_eqb (s_state s) new); [exact H1|]. apply sw_upd, sw_emit, H1. }
  apply G. destruct (st_eqb new Stopping); [|exact H]. unfold wtimeout, wcancel. repeat apply sw_upd. exact H.
Qed.
Lemma sw_fork k f q w : sw w -> sw (wfork_ok k f q w).
Proof. intros H. unfold wfork_ok. apply sw_mod; [destruct f; same|]. apply sw_mod; [same|]. apply sw_emit, sw_mod; [same|exact H]. Qed.
Lemma sw_notes w : sw w -> sw (wmod (fun c => set_k_notes (tl (k_notes c)) c) w).
Proof.
  apply sw_mod. intros c [A B C]. constructor; [|exact B|exact C]. intros X Y. apply (A X). cbn in Y.
  destruct (k_notes c); [destruct Y|right; exact Y].
Qed.
Ltac sw1 :=
  match goal with
  | H : sw ?w |- sw ?w' => constr_eq w w'; exact H
  | |- sw (wemit _ _) => apply sw_emit
  | |- sw (went _ _ _) => apply sw_went
  | |- sw (wfork_ok _ _ _ _) => apply sw_fork
  | |- sw (wupd _ _ _) => apply sw_upd
  | |- sw (wmod (fun c => set_k_notes (tl (k_notes c)) c) _) => apply sw_notes
  | |- sw (wmod _ _) => apply sw_mod; [same|]
  | |- sw (if ?b then _ else _) => destruct b
  | |- sw (match ?b with _ => _ end) => destruct b
  end.
Ltac swt := unfold w_done, w_aux, w_collect, w_forked, w_prep, wcleanup, wcancel, wblock, wclean, wtimeout, wscript, wcond, wfork_fail; cbv zeta; repeat sw1.

Lemma side_micro e w w' : In e evs -> micro True e w w' -> binv evs w -> sw w -> sw w'.
Proof.
  intros He Hm Hi H.
  assert (DR : forall q, sw (wmod (c_drop q) w)) by (intros q; apply sw_mod; [same|exact H]).
  destruct Hm; try (swt; fail).
  - subst w1. swt.
  - (* a ready: script *)
    unfold wtimeout. apply sw_upd, sw_mod; [|apply sw_fork, H]. intros c [A B C]. constructor; [exact A|exact B|].
    intros X. exfalso. specialize (H2 Logic.I).
    destruct (i_cf evs (wc w) Hi s) as (r & b & Hr & E); [apply lookup_record in H0; destruct H0 as [H0 _]; exact H0|].
    rewrite E in H2. cbn in H2. rewrite (X r Hr) in H2. discriminate H2.
  - contradiction.
  - destruct (lookup_svc (wc w) k).
    + apply sw_mod; [intros c [A B C]; constructor; [exact A|exact B|intros X; cbn; rewrite (C X); reflexivity]|swt].
    + apply sw_mod; [intros c [A B C]; constructor; [exact A|exact B|intros X; cbn; rewrite (C X); reflexivity]|swt].
  - apply sw_mod; [apply side_same; intros c; unfold c_del; destruct (find_key _ (k_svcs c)); reflexivity|swt].
  - apply sw_mod; [apply side_same; intros c; unfold c_del; destruct (find_key _ (k_svcs c)); reflexivity|swt].
  - apply sw_mod; [|exact H]. apply side_same; intros c; unfold c_nologin; cbv zeta;
    destruct (_ || _); cbn [k_prev set_k_nologin]; destruct (_ || _); reflexivity.
  - apply sw_mod; [intros c [A B C]; constructor; [exact A|exact B|intros X; cbn; rewrite (C X); reflexivity]|exact H].
  - subst e. apply sw_mod; [|exact H]. intros c [A B C]. constructor; [exact A| |exact C]. intros X. cbn.
    destruct b; [destruct (X He)|reflexivity].
  - subst e. apply sw_mod; [|exact H]. intros c [A B C]. constructor; [|exact B|exact C]. intros X. cbn. apply (X _ _ _ He).
Qed.

Lemma side_reach cfgl cmdl w : reach True (E evs) (init_world cfgl cmdl) w -> side (wc w).
Proof.
  revert w. apply (reach_ind True (E evs) sw).
  - constructor; cbn; auto.
  - intros e w w' He Hm Hr H. apply (side_micro e w w' He Hm); [|exact H]. apply (inv_reach evs HT _ _ _ Hr).
Qed.
End Side.
