(** Proofs about the watchdog daemon. *)
From Coq Require Import List Bool ZArith Lia Arith.
From Verif Require Import WdtModel WdtSpec.
Import ListNotations.

Lemma run_app s a b : wrun s (a ++ b) = wrun (wrun s a) b.
Proof. apply fold_left_app. Qed.
Lemma kept_S n : kept_alive (S n) = kept_alive n ++ [Ping; Nap].
Proof.
  unfold kept_alive. replace (S n) with (n + 1) by lia. rewrite repeat_app, concat_app. reflexivity.
Qed.
Lemma fed_state m : wrun start (repeat Step (1 + 3 * m)) =
  {| w_at := PTest; running := true; handover := false; shutdown := false; w_log := SetTimeout 30 :: kept_alive m |}.
Proof.
  induction m as [|m IH]; [reflexivity|].
  replace (1 + 3 * S m) with ((1 + 3 * m) + 3) by lia. rewrite repeat_app, run_app, IH.
  unfold wrun. cbn [repeat fold_left wdo wstep w_at running go act]. rewrite kept_S. unfold act, go. cbn [w_log running handover shutdown].
  rewrite <- app_assoc. reflexivity.
Qed.
Lemma fed_ok m : did (repeat Step (1 + 3 * m)) = SetTimeout 30 :: kept_alive m.
Proof. unfold did. rewrite fed_state. reflexivity. Qed.

(** ** Without SIGPWR *)
Definition no_close (l : list wop) : Prop := ~ In Close l.
Definition inv_term (s : wst) : Prop :=
  shutdown s = false /\ running s = negb (handover s) /\
  match w_at s with
  | PSet | PTest | PPing | PNap => no_close (w_log s)
  | PDown | PHand | PHPing => handover s = true /\ no_close (w_log s)
  | PMagic => handover s = true /\ no_close (w_log s) /\ exists t, w_log s = t ++ [Ping]
  | PMain | PClose => handover s = true /\ no_close (w_log s) /\ exists t, w_log s = t ++ [Ping; Magic]
  | PEnd => handover s = true /\ exists t, w_log s = t ++ [Ping; Magic; Close]
  | PNap1 | PShort => False
  end.
Lemma no_close_app l o : no_close l -> o <> Close -> no_close (l ++ [o]).
Proof. unfold no_close. intros H N. rewrite in_app_iff. intros [X|[X|[]]]; [exact (H X)|congruence]. Qed.
Lemma inv_term_do s e : e <> Pwr -> inv_term s -> inv_term (wdo s e).
Proof.
  intros NP (A & B & C). destruct s as [p r h d l]. cbn in A, B, C. subst d r. destruct e; [| |congruence]; cbn [wdo].
  - destruct p, h; cbn in C; unfold wstep, go, act; cbn [w_at running handover shutdown w_log negb]; unfold inv_term;
      cbn [w_at running handover shutdown w_log negb]; (split; [reflexivity|]); (split; [reflexivity|]);
      repeat match goal with
      | H : _ /\ _ |- _ => destruct H
      | H : False |- _ => destruct H
      | H : false = true |- _ => discriminate H
      | H : exists _, _ |- _ => destruct H as [t ->]
      end;
      first [apply no_close_app; [assumption|discriminate] | assumption | idtac];
      repeat split; try assumption; try (apply no_close_app; [assumption|discriminate]);
      try (exists l; reflexivity); try (exists t; rewrite <- app_assoc; reflexivity); try (exists t; reflexivity).
  - unfold inv_term. cbn [w_at running handover shutdown w_log negb]. split; [reflexivity|]. split; [reflexivity|].
    destruct p, h; cbn in C; repeat match goal with H : _ /\ _ |- _ => destruct H | H : False |- _ => destruct H | H : false = true |- _ => discriminate H end;
      repeat split; assumption.
Qed.
Lemma inv_term_run evs : forall s, ~ In Pwr evs -> inv_term s -> inv_term (wrun s evs).
Proof.
  induction evs as [|e evs IH]; intros s N I; [exact I|]. cbn [wrun fold_left]. apply IH.
  - intros X. apply N. right. exact X.
  - apply inv_term_do; [|exact I]. intros ->. apply N. left. reflexivity.
Qed.
Lemma inv_term_start : inv_term start.
Proof. repeat split. intros []. Qed.
Lemma handover_ok evs : ~ In Pwr evs -> In Close (did evs) -> handed_over (did evs).
Proof.
  intros N C. pose proof (inv_term_run evs start N inv_term_start) as (_ & _ & I). unfold did in *.
  destruct (w_at (wrun start evs)); unfold no_close in I; repeat match goal with H : _ /\ _ |- _ => destruct H end; try contradiction. assumption.
Qed.
Lemma grow_step s : exists u, w_log (wstep s) = w_log s ++ u.
Proof.
  destruct s as [p r h d l]. unfold wstep. cbn [w_at running handover shutdown].
  destruct p; try (eexists; reflexivity); try (exists []; cbn; symmetry; apply app_nil_r).
  - destruct r; exists []; symmetry; apply app_nil_r.
  - destruct d; [eexists; reflexivity|exists []; symmetry; apply app_nil_r].
  - destruct h; exists []; symmetry; apply app_nil_r.
  - destruct h; exists []; symmetry; apply app_nil_r.
Qed.
Lemma grow s evs : exists u, w_log (wrun s evs) = w_log s ++ u.
Proof.
  revert s. induction evs as [|e evs IH]; intros s; [exists []; symmetry; apply app_nil_r|].
  cbn [wrun fold_left]. destruct (IH (wdo s e)) as [u U]. unfold wrun in U. rewrite U.
  destruct e; [|exists u; reflexivity|exists u; reflexivity].
  destruct (grow_step s) as [v V]. cbn [wdo]. rewrite V, <- app_assoc. eauto.
Qed.
Lemma stays o s evs : In o (w_log s) -> In o (w_log (wrun s evs)).
Proof. destruct (grow s evs) as [u ->]. intros H. apply in_or_app. left. exact H. Qed.
(** the daemon ends soon after SIGTERM *)
Lemma term_ends s n : inv_term s -> 9 <= n -> In Close (w_log (wrun s (Term :: repeat Step n))).
Proof.
  intros I L. replace n with (9 + (n - 9)) by lia. rewrite repeat_app, app_comm_cons, run_app. apply stays.
  destruct I as (A & B & C). destruct s as [p r h d l]. cbn in A, B, C. subst d r.
  destruct p; cbn in C |- *; try contradiction; rewrite ?in_app_iff; cbn; try tauto.
  destruct C as (_ & t & ->). rewrite in_app_iff. cbn. tauto.
Qed.
Lemma handover_done evs n : ~ In Pwr evs -> 9 <= n -> handed_over (did (evs ++ Term :: repeat Step n)).
Proof.
  intros N L. apply handover_ok.
  - rewrite in_app_iff. intros [X|[X|X]]; [exact (N X)|discriminate|]. apply repeat_spec in X. discriminate.
  - unfold did. rewrite run_app. apply term_ends; [apply inv_term_run; [exact N|apply inv_term_start]|exact L].
Qed.

(** ** Without SIGTERM *)
Definition inv_pwr (s : wst) : Prop :=
  handover s = false /\ running s = negb (shutdown s) /\ ~ In Magic (w_log s) /\ ~ In Close (w_log s) /\
  match w_at s with
  | PSet | PTest | PPing | PNap => True
  | PDown => shutdown s = true
  | PHand | PMain | PNap1 | PShort => shutdown s = true /\ cut_short (w_log s)
  | PHPing | PMagic | PClose | PEnd => False
  end.
Lemma cut_app l o : cut_short l -> (forall n, o = SetTimeout n -> n = 1%Z) -> cut_short (l ++ [o]).
Proof.
  intros (t & u & -> & H) N. exists t, (u ++ [o]). split; [rewrite <- app_assoc; reflexivity|].
  intros n. rewrite in_app_iff. intros [X|[X|[]]]; [exact (H n X)|exact (N n X)].
Qed.
Lemma cut_new l : cut_short (l ++ [SetTimeout 10]).
Proof. exists l, []. split; [reflexivity|intros n []]. Qed.
Lemma not_in_app (x : wop) l o : ~ In x l -> o <> x -> ~ In x (l ++ [o]).
Proof. intros H N. rewrite in_app_iff. intros [X|[X|[]]]; [exact (H X)|exact (N X)]. Qed.
Lemma inv_pwr_do s e : e <> Term -> inv_pwr s -> inv_pwr (wdo s e).
Proof.
  intros NT (A & B & M & C & D). destruct s as [p r h d l]. cbn in A, B, M, C, D. subst h r. destruct e; [|congruence|]; cbn [wdo].
  - destruct p, d; cbn in D; unfold wstep, go, act; cbn [w_at running handover shutdown w_log negb]; unfold inv_pwr;
      cbn [w_at running handover shutdown w_log negb];
      repeat match goal with H : _ /\ _ |- _ => destruct H | H : False |- _ => destruct H | H : false = true |- _ => discriminate H end;
      repeat split; try assumption; try (apply not_in_app; [assumption|discriminate]); try apply cut_new;
      try (apply cut_app; [assumption|]; intros n X; congruence).
  - unfold inv_pwr. cbn [w_at running handover shutdown w_log negb]. repeat split; try assumption.
    destruct p, d; cbn in D; repeat match goal with H : _ /\ _ |- _ => destruct H | H : False |- _ => destruct H | H : false = true |- _ => discriminate H end;
      repeat split; assumption.
Qed.
Lemma inv_pwr_run evs : forall s, ~ In Term evs -> inv_pwr s -> inv_pwr (wrun s evs).
Proof.
  induction evs as [|e evs IH]; intros s N I; [exact I|]. cbn [wrun fold_left]. apply IH.
  - intros X. apply N. right. exact X.
  - apply inv_pwr_do; [|exact I]. intros ->. apply N. left. reflexivity.
Qed.
Lemma inv_pwr_start : inv_pwr start.
Proof. repeat split; intros []. Qed.
Lemma kept_ok evs : ~ In Term evs -> ~ In Magic (did evs) /\ ~ In Close (did evs).
Proof. intros N. destruct (inv_pwr_run evs start N inv_pwr_start) as (_ & _ & M & C & _). split; assumption. Qed.
(** after SIGPWR it waits for the reset *)
Definition waits (s : wst) : Prop :=
  shutdown s = true /\ ~ In Magic (w_log s) /\ cut_short (w_log s) /\
  match w_at s with PMain | PNap1 | PShort => True | PClose | PEnd => True | _ => False end.
Lemma pwr_wait s n : inv_pwr s -> 5 <= n -> waits (wrun s (Pwr :: repeat Step n)) /\ inv_pwr (wrun s (Pwr :: repeat Step n)).
Proof.
  intros I L.
  assert (J : inv_pwr (wrun s (Pwr :: repeat Step n))).
  { apply inv_pwr_run; [|exact I]. intros [X|X]; [discriminate|]. apply repeat_spec in X. discriminate. }
  split; [|exact J].
  assert (P : forall k s, match w_at s with PMain | PNap1 | PShort => True | _ => False end -> handover s = false ->
             match w_at (wrun s (repeat Step k)) with PMain | PNap1 | PShort => True | _ => False end).
  { induction k as [|k IH]; intros x X H; [exact X|]. cbn [repeat wrun fold_left wdo]. destruct x as [p r h d l]. cbn in H. subst h.
    apply IH; destruct p; try contradiction; exact Logic.I || reflexivity. }
  assert (Q : match w_at (wrun s (Pwr :: repeat Step n)) with PMain | PNap1 | PShort => True | _ => False end).
  { replace n with (5 + (n - 5)) by lia. rewrite repeat_app, app_comm_cons, run_app. apply P.
    - destruct I as (A & B & _ & _ & D). destruct s as [p r h d l]. cbn in A, B, D. subst h r. destruct p; try contradiction; exact Logic.I.
    - destruct I as (A & B & _ & _ & D). destruct s as [p r h d l]. cbn in A, B, D. subst h r. destruct p; try contradiction; reflexivity. }
  destruct J as (_ & _ & M & _ & D). unfold waits. destruct (w_at (wrun s (Pwr :: repeat Step n))); try contradiction; tauto.
Qed.
Lemma waits_do s e : waits s -> waits (wdo s e).
Proof.
  intros (A & M & C & D). destruct s as [p r h d l]. cbn in A, M, C, D. subst d. destruct e; cbn [wdo];
  [|repeat split; cbn; assumption|repeat split; cbn; assumption].
  destruct p; try contradiction; destruct h; unfold wstep, go, act; cbn [w_at running handover shutdown w_log]; unfold waits; cbn [w_at running handover shutdown w_log];
    repeat split; try assumption; try (apply not_in_app; [assumption|discriminate]); try (apply cut_app; [assumption|]; intros n X; congruence).
Qed.
Lemma waits_run evs : forall s, waits s -> waits (wrun s evs).
Proof. induction evs as [|e evs IH]; intros s W; [exact W|]. cbn [wrun fold_left]. apply IH, waits_do, W. Qed.
Lemma reset_ok a n c : ~ In Term a -> 5 <= n -> ~ In Magic (did (a ++ (Pwr :: repeat Step n) ++ c)) /\ cut_short (did (a ++ (Pwr :: repeat Step n) ++ c)).
Proof.
  intros N L. unfold did. rewrite !run_app.
  destruct (pwr_wait _ n (inv_pwr_run a start N inv_pwr_start) L) as [W _].
  destruct (waits_run c _ W) as (_ & M & C & _). split; assumption.
Qed.
Lemma waits_end s m : waits s -> (In Close (w_log s) \/ w_at s <> PEnd) -> 4 <= m -> In Close (w_log (wrun s (Term :: repeat Step m))).
Proof.
  intros (_ & _ & _ & D) E L. replace m with (4 + (m - 4)) by lia. rewrite repeat_app, app_comm_cons, run_app. apply stays.
  destruct s as [p r h d l]. cbn in D, E. destruct p; try contradiction; cbn; rewrite ?in_app_iff; cbn; try tauto.
Qed.
Lemma closed s e : (In Close (w_log s) \/ w_at s <> PEnd) -> In Close (w_log (wdo s e)) \/ w_at (wdo s e) <> PEnd.
Proof.
  intros H. destruct s as [p r h d l]. cbn in H. destruct e; cbn [wdo w_log w_at]; [|exact H|exact H].
  destruct p; cbn; first [exact H | left; apply in_or_app; right; left; reflexivity | right; discriminate
    | right; destruct r; discriminate | right; destruct d; discriminate | right; destruct h; discriminate].
Qed.
Lemma closed_run evs : forall s, (In Close (w_log s) \/ w_at s <> PEnd) -> In Close (w_log (wrun s evs)) \/ w_at (wrun s evs) <> PEnd.
Proof. induction evs as [|e evs IH]; intros s H; [exact H|]. cbn [wrun fold_left]. apply IH, closed, H. Qed.
Lemma reset_done a n c m : ~ In Term a -> 5 <= n -> 4 <= m -> In Close (did (a ++ (Pwr :: repeat Step n) ++ c ++ Term :: repeat Step m)).
Proof.
  intros N L M. unfold did. rewrite run_app, run_app, run_app.
  destruct (pwr_wait _ n (inv_pwr_run a start N inv_pwr_start) L) as [W _].
  apply waits_end; [apply waits_run, W| |exact M]. apply closed_run. rewrite <- run_app. apply closed_run. right. discriminate.
Qed.
(** ** Both at once *)
Lemma both_ok m n : 9 <= n -> In Magic (did (repeat Step (1 + 3 * m) ++ Pwr :: Term :: repeat Step n)).
Proof.
  intros L. unfold did. rewrite run_app, fed_state. replace n with (9 + (n - 9)) by lia.
  rewrite repeat_app, !app_comm_cons, run_app. apply stays. cbn. rewrite !in_app_iff. cbn. tauto.
Qed.
