(** Weakest preconditions for the supervisor model, and its elementary state
    changes as plain functions on worlds. *)
From Coq Require Import List String Ascii ZArith Bool Lia Arith Relations.
From Verif Require Import CondModel CoreTypes CoreModel.
Import ListNotations.
Local Open Scope Z_scope.

(** partial correctness: running out of fuel satisfies everything *)
Definition wp {A} (m : ST A) (Q : A -> world -> Prop) (w : world) : Prop :=
  match m w with None => True | Some (a, w') => Q a w' end.

Lemma wp_mono {A} (m : ST A) (Q Q' : A -> world -> Prop) w :
  wp m Q w -> (forall a w', Q a w' -> Q' a w') -> wp m Q' w.
Proof. unfold wp. destruct (m w) as [[a w']|]; auto. Qed.

Lemma wp_ret {A} (a : A) (Q : A -> world -> Prop) w : Q a w -> wp (ret a) Q w.
Proof. auto. Qed.

Lemma wp_bind {A B} (m : ST A) (f : A -> ST B) (Q : B -> world -> Prop) w :
  wp m (fun a w' => wp (f a) Q w') w -> wp (bind m f) Q w.
Proof. unfold wp, bind. destruct (m w) as [[a w']|]; auto. Qed.

Lemma wp_getc (Q : core -> world -> Prop) w : Q (wc w) w -> wp getc Q w.
Proof. auto. Qed.

Definition wmod (f : core -> core) (w : world) : world := mkWorld (f (wc w)) (wl w).
Definition wemit (e : eff) (w : world) : world := mkWorld (wc w) ((wc w, e) :: wl w).
Definition cupd (k : nat) (f : svc -> svc) (c : core) : core :=
  set_k_svcs (map_key k f (k_svcs c)) (set_k_gc (map_key k f (k_gc c)) c).
Definition wupd (k : nat) (f : svc -> svc) (w : world) : world := wmod (cupd k f) w.

Lemma wp_modc f (Q : unit -> world -> Prop) w : Q tt (wmod f w) -> wp (modc f) Q w.
Proof. auto. Qed.
Lemma wp_emit e (Q : unit -> world -> Prop) w : Q tt (wemit e w) -> wp (emit e) Q w.
Proof. auto. Qed.
Definition wcond (o : cop) (w : world) : world :=
  wmod (fun c => set_k_cond (apply_cop o (k_cond c)) c) (wemit (ECond o) w).
Lemma wp_op o (Q : unit -> world -> Prop) w : Q tt (wcond o w) -> wp (c_op o) Q w.
Proof. auto. Qed.
Lemma wp_upd k f (Q : unit -> world -> Prop) w : Q tt (wupd k f w) -> wp (upd k f) Q w.
Proof. auto. Qed.

Lemma wp_when b m (Q : unit -> world -> Prop) w :
  (b = true -> wp m Q w) -> (b = false -> Q tt w) -> wp (when b m) Q w.
Proof. intros H1 H2. destruct b; [exact (H1 eq_refl)|exact (H2 eq_refl)]. Qed.

Lemma wp_with_svc {A} k (d : A) f (Q : A -> world -> Prop) w :
  (forall s, lookup_svc (wc w) k = Some s -> wp (f s) Q w) ->
  (lookup_svc (wc w) k = None -> Q d (wemit (EUaf k) w)) ->
  wp (with_svc k d f) Q w.
Proof.
  intros H1 H2. unfold with_svc. apply wp_bind, wp_getc.
  destruct (lookup_svc (wc w) k) as [s|] eqn:E; [auto|].
  apply wp_bind, wp_emit, wp_ret. auto.
Qed.

(** loops preserve any relation that is reflexive and transitive *)
Lemma wp_foreach (R : world -> world -> Prop) l f :
  (forall w, R w w) -> (forall a b c, R a b -> R b c -> R a c) ->
  (forall k w, In k l -> wp (f k) (fun _ w' => R w w') w) ->
  forall w, wp (foreach l f) (fun _ w' => R w w') w.
Proof.
  intros Hr Ht. induction l as [|x l IH]; intros Hf w; cbn [foreach].
  - apply wp_ret, Hr.
  - apply wp_bind. eapply wp_mono; [apply Hf; left; reflexivity|].
    intros a1 w1 H1. eapply wp_mono; [apply IH; intros; apply Hf; right; assumption|].
    intros a2 w2 H2. cbn in *. eapply Ht; eauto.
Qed.

(** ** Elementary changes *)

Definition wcancel (k : nat) : world -> world := wupd k (set_s_timer TmNone).
Definition f_timeout (ms : Z) (cb : tcb) (s : svc) : svc :=
  if ms =? 0 then s
  else match s_timer s with
       | TmNone => set_s_timer (if ms <? 0 then TmStale cb else TmArmed cb ms) s
       | _ => s
       end.
Definition wtimeout (k : nat) (ms : Z) (cb : tcb) : world -> world := wupd k (f_timeout ms cb).
Definition f_clean (s : svc) : svc := set_s_dirty false (set_s_adirty false s).
Definition wclean (k : nat) : world -> world := wupd k f_clean.
Definition wblock (k : nat) (b : blk) : world -> world := wupd k (set_s_block b).
Definition f_cleanup (s : svc) : svc := set_s_pid 0 (set_s_starting false (set_s_oldpid (s_pid s) s)).
Definition wcleanup (k : nat) (w : world) : world := wupd k f_cleanup (wcancel k w).
Definition f_incr (s : svc) : svc := set_s_rcnt (wrap8 (s_rcnt s + 1)) s.

(** svc_set_state up to its condition bookkeeping *)
Definition wenter (k : nat) (s : svc) (new : sst) (w : world) : world :=
  let w := if st_eqb new Stopping
           then wupd k (set_s_killed false) (wtimeout k (c_killdelay (s_cf s)) TcKill (wcancel k w))
           else w in
  if st_eqb (s_state s) new then w
  else wupd k (set_s_state new) (wemit (EState k (s_state s) new) w).

Definition wfork_ok (k : nat) (f : fkind) (p : Z) (w : world) : world :=
  wmod (fun c => set_k_mains (match f with FMain => (p, k) :: k_mains c | _ => k_mains c end) c)
    (wmod (fun c => set_k_procs (p :: k_procs c) c)
      (wemit (EFork k f p) (wmod (fun c => set_k_forks (tl (k_forks c)) c) w))).
Definition wfork_fail (k : nat) (f : fkind) (w : world) : world :=
  wemit (EForkFail k f) (wmod (fun c => set_k_forks (tl (k_forks c)) c) w).

Definition fresh_pid (p : Z) (w : world) : Prop := 1 < p /\ memZ p (k_procs (wc w)) = false.

Lemma set_forks_same c : k_forks c = [] -> set_k_forks [] c = c.
Proof. destruct c; cbn. intros ->. reflexivity. Qed.

Lemma wp_fork k f (Q : Z -> world -> Prop) w :
  (forall p, fresh_pid p w -> Q p (wfork_ok k f p w)) ->
  Q (-1) (wfork_fail k f w) -> wp (do_fork k f) Q w.
Proof.
  intros H1 H2. unfold do_fork. apply wp_bind, wp_getc.
  destruct (k_forks (wc w)) as [|p l] eqn:E.
  - apply wp_bind, wp_emit, wp_ret.
    unfold wfork_fail, wmod in H2. rewrite E in H2. cbn [tl] in H2.
    rewrite (set_forks_same _ E) in H2. destruct w; exact H2.
  - destruct ((p <=? 1) || memZ p (k_procs (wc w))) eqn:B.
    + apply wp_bind, wp_modc, wp_bind, wp_emit, wp_ret.
      unfold wfork_fail, wmod in H2. rewrite E in H2. exact H2.
    + apply orb_false_iff in B. destruct B as [B1 B2]. apply Z.leb_gt in B1.
      do 4 (apply wp_bind; first [apply wp_modc | apply wp_emit]). apply wp_ret.
      specialize (H1 p (conj B1 B2)). unfold wfork_ok, wmod in H1. rewrite E in H1. exact H1.
Qed.

Lemma wp_kill k p sig (Q : Z -> world -> Prop) w :
  Q (if (0 <? p) && negb (memZ p (k_procs (wc w))) then -1 else 0) (wemit (EKill k p sig) w) ->
  wp (do_kill k p sig) Q w.
Proof. auto. Qed.

Definition wscript (k : nat) (s : skind) (rc : Z) (w : world) : world :=
  wemit (EScript k s rc) (wmod (fun c => set_k_scripts (tl (k_scripts c)) c) w).

Lemma set_scripts_same c : k_scripts c = [] -> set_k_scripts [] c = c.
Proof. destruct c; cbn. intros ->. reflexivity. Qed.

Lemma wp_script k s (Q : Z -> world -> Prop) w :
  (forall rc, Q rc (wscript k s rc w)) -> wp (run_script k s) Q w.
Proof.
  intros H. unfold run_script. apply wp_bind, wp_getc.
  destruct (k_scripts (wc w)) as [|r l] eqn:E.
  - apply wp_bind, wp_emit, wp_ret. specialize (H 1).
    unfold wscript, wmod in H. rewrite E in H. cbn [tl] in H.
    rewrite (set_scripts_same _ E) in H. destruct w; exact H.
  - apply wp_bind, wp_modc, wp_bind, wp_emit, wp_ret. specialize (H r).
    unfold wscript, wmod in H. rewrite E in H. exact H.
Qed.

(** ** Looking records up after a change *)

Lemma find_map_key k f l j :
  (forall s, s_key (f s) = s_key s) ->
  find_key j (map_key k f l) =
  if Nat.eqb j k then option_map f (find_key j l) else find_key j l.
Proof.
  intros Hf. unfold find_key, map_key. induction l as [|x l IH]; cbn.
  - destruct (Nat.eqb j k); reflexivity.
  - destruct (Nat.eqb (s_key x) k) eqn:E.
    + rewrite Hf. destruct (Nat.eqb (s_key x) j) eqn:F.
      * apply Nat.eqb_eq in E, F. subst. rewrite Nat.eqb_refl. reflexivity.
      * exact IH.
    + destruct (Nat.eqb (s_key x) j) eqn:F.
      * apply Nat.eqb_eq in F. subst j. rewrite E. reflexivity.
      * exact IH.
Qed.

Lemma lookup_upd k f c j :
  (forall s, s_key (f s) = s_key s) ->
  lookup_svc (cupd k f c) j =
  if Nat.eqb j k then option_map f (lookup_svc c j) else lookup_svc c j.
Proof.
  intros Hf. unfold lookup_svc, cupd. cbn [k_svcs k_gc set_k_svcs set_k_gc]. rewrite !find_map_key by exact Hf.
  destruct (Nat.eqb j k); [|reflexivity].
  destruct (find_key j (k_svcs c)); reflexivity.
Qed.

Lemma lookup_wupd_same k f w s :
  (forall s, s_key (f s) = s_key s) ->
  lookup_svc (wc w) k = Some s -> lookup_svc (wc (wupd k f w)) k = Some (f s).
Proof.
  intros Hf H. unfold wupd, wmod. cbn [wc]. rewrite lookup_upd by exact Hf.
  rewrite Nat.eqb_refl, H. reflexivity.
Qed.

Lemma lookup_wupd_other k f w j :
  (forall s, s_key (f s) = s_key s) -> j <> k ->
  lookup_svc (wc (wupd k f w)) j = lookup_svc (wc w) j.
Proof.
  intros Hf H. unfold wupd, wmod. cbn [wc]. rewrite lookup_upd by exact Hf.
  apply Nat.eqb_neq in H. rewrite H. reflexivity.
Qed.

Lemma lookup_wemit e w j : lookup_svc (wc (wemit e w)) j = lookup_svc (wc w) j.
Proof. reflexivity. Qed.

Lemma find_key_in k l s : find_key k l = Some s -> In s l /\ s_key s = k.
Proof.
  unfold find_key. intros H. apply find_some in H. destruct H as [H1 H2].
  apply Nat.eqb_eq in H2. auto.
Qed.

Lemma lookup_key c k s : lookup_svc c k = Some s -> s_key s = k.
Proof.
  unfold lookup_svc. destruct (find_key k (k_svcs c)) eqn:E; intros H.
  - inversion H; subst. apply find_key_in in E. tauto.
  - apply find_key_in in H. tauto.
Qed.

Lemma find_lookup c k s : find_key k (k_svcs c) = Some s -> lookup_svc c k = Some s.
Proof. unfold lookup_svc. intros ->. reflexivity. Qed.

Lemma st_eqb_eq a b : st_eqb a b = true <-> a = b.
Proof. split; [|intros ->; destruct b; reflexivity]. destruct a, b; cbn; congruence. Qed.
Lemma st_eqb_neq a b : st_eqb a b = false <-> a <> b.
Proof. rewrite <- st_eqb_eq. destruct (st_eqb a b); intuition congruence. Qed.
Lemma blk_eqb_eq a b : blk_eqb a b = true <-> a = b.
Proof. split; [|intros ->; destruct b; reflexivity]. destruct a, b; cbn; congruence. Qed.
Lemma cs_eqb_eq a b : cs_eqb a b = true <-> a = b.
Proof. split; [|intros ->; destruct b; reflexivity]. destruct a, b; cbn; congruence. Qed.
