(** Every history: what the runlevel machine remembers is what was last asked
    for. *)
From Coq Require Import List String Ascii ZArith NArith Bool Lia Arith Relations.
From Coq Require Import ZifyBool ZifyNat.
From Verif Require Import CondModel CoreTypes CoreModel CoreLib CoreMicro CoreExec CoreCalm CoreLog
  CoreSpec CoreAny CoreProof CoreMoment.
Import ListNotations.
Local Open Scope Z_scope.

Fixpoint last_halt (l : log) : shut :=
  match l with
  | [] => ShutHalt
  | (_, EHalt s) :: _ => s
  | _ :: l => last_halt l
  end.
Fixpoint last_ask (l : log) : option Z :=
  match l with
  | [] => None
  | (_, EAsk n) :: _ => Some n
  | _ :: l => last_ask l
  end.
Fixpoint ended (l : log) : bool :=
  match l with
  | [] => false
  | (_, EShutdown _) :: _ => true
  | _ :: l => ended l
  end.

Definition hb (c : core) (l : log) : Prop :=
  k_halt c = last_halt l /\ (k_newl c = -1 \/ last_ask l = Some (k_newl c)) /\ k_down c = ended l.
Definition hglob (c : core) : shut * Z * bool := (k_halt c, k_newl c, k_down c).
Lemma hb_eq c c' l : hglob c' = hglob c -> hb c l -> hb c' l.
Proof. unfold hglob, hb. intros E. inversion E as [[E1 E2 E3]]. rewrite E1, E2, E3. auto. Qed.
Lemma hm_mod g w : (forall c, hglob (g c) = hglob c) -> mom hb w -> mom hb (wmod g w).
Proof. intros H. apply mom_mod, hb_eq, H. Qed.
Lemma hm_upd k f w : mom hb w -> mom hb (wupd k f w).
Proof. apply hm_mod. reflexivity. Qed.
Lemma hm_emit x w : (forall c l, last_halt ((c, x) :: l) = last_halt l /\ last_ask ((c, x) :: l) = last_ask l /\ ended ((c, x) :: l) = ended l) ->
  mom hb w -> mom hb (wemit x w).
Proof. intros H. apply mom_emit. unfold hb. destruct (H (wc w) (wl w)) as (A & B & C). rewrite A, B, C. auto. Qed.
Lemma hm_went k new w : mom hb w -> mom hb (went k new w).
Proof.
  intros H. unfold went. destruct (lookup_svc (wc w) k) as [s|]; [|exact H]. unfold wenter. cbv zeta.
  assert (G : forall w1, mom hb w1 -> mom hb (if st_eqb (s_state s) new then w1
           else wupd k (set_s_state new) (wemit (EState k (s_state s) new) w1))).
  { intros w1 H1. destruct (st_eqb (s_state s) new); [exact H1|]. apply hm_upd, hm_emit; [auto|exact H1]. }
  apply G. destruct (st_eqb new Stopping); [|exact H]. unfold wtimeout, wcancel. repeat apply hm_upd. exact H.
Qed.
Ltac hm1 :=
  match goal with
  | H : mom hb ?w |- mom hb ?w' => constr_eq w w'; exact H
  | |- mom hb (wemit _ _) => apply hm_emit; [intros ? ?; auto|]
  | |- mom hb (went _ _ _) => apply hm_went
  | |- mom hb (wupd _ _ _) => apply hm_upd
  | |- mom hb (wmod _ _) => apply hm_mod; [intros ?; reflexivity|]
  | |- mom hb (if ?b then _ else _) => destruct b
  | |- mom hb (match ?b with _ => _ end) => destruct b
  end.
Ltac hm := unfold w_done, w_aux, w_collect, w_forked, w_prep, wcleanup, wcancel, wblock, wclean, wtimeout, wscript, wcond, wfork_fail, wfork_ok; cbv zeta; repeat hm1.

Lemma hmom_micro calm e w w' : micro calm e w w' -> mom hb w -> mom hb w'.
Proof.
  intros Hm H. destruct Hm; try (hm; fail).
  - subst w1. hm.
  - apply hm_mod; [intros c; unfold c_del; destruct (find_key _ (k_svcs c)); reflexivity|hm].
  - apply hm_mod; [intros c; unfold c_del; destruct (find_key _ (k_svcs c)); reflexivity|hm].
  - apply mom_emod; [|exact H]. intros (A & B & C). split; [exact A|]. split; [right; reflexivity|exact C].
  - apply mom_mod; [|exact H]. intros (A & B & C). split; [exact A|]. split; [left; reflexivity|exact C].
  - apply mom_emod; [|exact H]. intros (A & B & C). split; [exact A|]. split; [left; reflexivity|exact C].
  - apply hm_mod; [|exact H]. intros c. unfold c_nologin. cbv zeta.
    destruct (_ || _); cbn [k_prev set_k_nologin]; destruct (_ || _); reflexivity.
  - apply mom_emod; [|exact H]. intros (A & B & C). split; [exact A|]. split; [exact B|reflexivity].
  - apply mom_emod; [|exact H]. intros (A & B & C). split; [reflexivity|]. split; [exact B|exact C].
Qed.
