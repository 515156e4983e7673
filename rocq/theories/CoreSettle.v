(** C47, services: after a service has been stepped there is nothing to do for
    it, and whoever is affected has been stepped too. *)
From Coq Require Import List String Ascii ZArith NArith Bool Lia Arith.
From Coq Require Import ZifyBool ZifyNat.
From Verif Require Import CondModel CondProof CoreTypes CoreModel CoreLib CoreTame CoreExec CoreSpec CoreSpecD.
From Verif Require CoreMicro.
Import ListNotations.
Local Open Scope Z_scope.

(** ** conditions *)

Lemma get_ext cs cs' p : lookup p (ents cs') = lookup p (ents cs) -> reconf cs' = reconf cs ->
  cond_get_path cs' p = cond_get_path cs p.
Proof. intros A B. unfold cond_get_path. rewrite A, B. reflexivity. Qed.

Definition op_path (o : cop) : string :=
  match o with
  | OpSet n | OpOneshot n | OpClear n => cond_path n
  | OpUnlink p | OpSetPath p => p
  | OpReload => ""%string
  end.

Lemma set_path_other cs p q : q <> p -> lookup q (ents (snd (cond_set_path cs p))) = lookup q (ents cs) /\
  reconf (snd (cond_set_path cs p)) = reconf cs.
Proof.
  intros H. unfold cond_set_path; destruct (checkpath_fails _ _); [auto|].
  destruct (N.eqb _ 0); [auto|]. cbn [snd]. unfold write_gen.
  assert (E : String.eqb q p = false) by (apply String.eqb_neq, H).
  destruct (lookup p (ents cs)) as [[|]|]; cbn [ents reconf lookup]; auto.
  - rewrite E, lookup_remove_neq by auto; auto.
  - destruct (is_dir _ _); cbn [ents reconf lookup]; auto. rewrite E. auto.
Qed.

Lemma op_other o cs q : o <> OpReload -> q <> op_path o -> cond_get_path (apply_cop o cs) q = cond_get_path cs q.
Proof.
  intros H1 H2. destruct o as [n|n|n|p|p|]; cbn [apply_cop op_path] in *.
  - unfold cond_set_nu. destruct (is_nop n); [reflexivity|]. apply get_ext; apply (set_path_other cs _ q H2).
  - unfold cond_oneshot_nu. destruct (is_nop n); [reflexivity|]. destruct (checkpath_fails _ _); [reflexivity|].
    destruct (lookup (cond_path n) (ents cs)); [reflexivity|]. destruct (is_dir _ _); [reflexivity|].
    apply get_ext; [|reflexivity]. cbn [snd ents lookup]. apply String.eqb_neq in H2. rewrite H2. reflexivity.
  - unfold cond_clear_nu. destruct (is_nop n); [reflexivity|]. apply get_ext; [|reflexivity].
    cbn [snd ents cond_unlink]. apply lookup_remove_neq, H2.
  - apply get_ext; [|reflexivity]. cbn [snd ents cond_unlink]. apply lookup_remove_neq, H2.
  - apply get_ext; apply (set_path_other cs _ q H2).
  - congruence.
Qed.

Lemma set_path_on cs p : cond_get_path cs p = COn -> cond_get_path (snd (cond_set_path cs p)) p = COn.
Proof.
  intros H. unfold cond_set_path. destruct (checkpath_fails _ _); [exact H|].
  destruct (N.eqb (reconf cs) 0) eqn:Z; [exact H|]. cbn [snd]. unfold write_gen, cond_get_path.
  destruct (lookup p (ents cs)) as [[|g]|] eqn:El; cbn [ents reconf lookup].
  - rewrite El. rewrite Z, N.eqb_refl. reflexivity.
  - rewrite String.eqb_refl, Z, N.eqb_refl. reflexivity.
  - unfold cond_get_path in H. rewrite El in H. discriminate H.
Qed.
Lemma set_path_get cs p : cond_get_path (snd (cond_set_path cs p)) p = COn \/
  cond_get_path (snd (cond_set_path cs p)) p = cond_get_path cs p.
Proof.
  unfold cond_set_path. destruct (checkpath_fails _ _); [auto|].
  destruct (N.eqb (reconf cs) 0) eqn:Z; [auto|]. cbn [snd]. unfold write_gen.
  destruct (lookup p (ents cs)) as [[|g]|] eqn:El.
  - left. unfold cond_get_path. cbn [ents reconf]. rewrite El, Z, N.eqb_refl. reflexivity.
  - left. unfold cond_get_path. cbn [ents reconf lookup]. rewrite String.eqb_refl, Z, N.eqb_refl. reflexivity.
  - destruct (is_dir cs p); [auto|]. left. unfold cond_get_path. cbn [ents reconf lookup].
    rewrite String.eqb_refl, Z, N.eqb_refl. reflexivity.
Qed.

(** whether those concerned are told *)
Definition op_flag (o : cop) (cs : cstore) : bool :=
  match o with
  | OpSet n => fst (cond_set_nu cs n)
  | OpOneshot n => fst (cond_oneshot_nu cs n)
  | OpClear n => fst (cond_clear_nu cs n)
  | _ => true
  end.
Lemma op_unflagged o cs q : op_flag o cs = false -> cond_get_path (apply_cop o cs) q = cond_get_path cs q.
Proof.
  intros H. destruct (String.eqb q (op_path o)) eqn:E.
  2: { apply String.eqb_neq in E. apply op_other; [|exact E]. intros ->. discriminate H. }
  apply String.eqb_eq in E. subst q. destruct o as [n|n|n|p|p|]; cbn [apply_cop op_path op_flag] in *; try discriminate H.
  - unfold cond_set_nu in *. destruct (is_nop n); [reflexivity|].
    assert (X : cond_get_path cs (cond_path n) = COn \/ snd (cond_set_path cs (cond_path n)) = cs).
    { unfold cond_set_path in *. destruct (checkpath_fails _ _); [auto|]. destruct (N.eqb _ 0); [discriminate|].
      cbn [fst] in H. apply negb_false_iff, cs_eqb_eq in H. auto. }
    destruct X as [X|X]; [rewrite X; apply set_path_on, X|rewrite X; reflexivity].
  - unfold cond_oneshot_nu in *. destruct (is_nop n); [reflexivity|]. destruct (checkpath_fails _ _); [reflexivity|].
    destruct (lookup (cond_path n) (ents cs)); [discriminate|]. destruct (is_dir _ _); discriminate.
  - unfold cond_clear_nu in *. destruct (is_nop n); [reflexivity|]. cbn [snd fst cond_unlink] in *.
    apply negb_false_iff, cs_eqb_eq in H. rewrite H. unfold cond_get_path. cbn [ents].
    rewrite lookup_remove_eq. reflexivity.
Qed.
Lemma agg_ext cs cs' l : (forall n, In n l -> cond_get cs' n = cond_get cs n) ->
  cond_get_agg cs' l = cond_get_agg cs l.
Proof.
  unfold cond_get_agg. generalize COn as s. induction l as [|x l IH]; intros s H; [reflexivity|].
  cbn [cond_get_agg_from]. destruct s; [reflexivity| |];
    (rewrite (H x (or_introl eq_refl)); apply IH; intros n Hn; apply H; right; exact Hn).
Qed.
Lemma agg_all_on cs l : (forall n, In n l -> cond_get cs n = COn) -> cond_get_agg cs l = COn.
Proof.
  unfold cond_get_agg. induction l as [|x l IH]; intros H; [reflexivity|].
  cbn [cond_get_agg_from]. rewrite (H x (or_introl eq_refl)). apply IH. intros n Hn. apply H. right. exact Hn.
Qed.
Lemma agg_on_all cs l : cond_get_agg cs l = COn -> forall n, In n l -> cond_get cs n = COn.
Proof.
  unfold cond_get_agg. intros H n Hn.
  assert (X : forall s, cond_get_agg_from cs s l = COn -> s = COn /\ forall n, In n l -> cond_get cs n = COn).
  { clear. induction l as [|x l IH]; intros s H; [split; [exact H|intros n []]|]. cbn [cond_get_agg_from] in H.
    destruct s; [discriminate| |].
    - destruct (IH _ H) as [A _]. unfold cs_min in A. destruct (cond_get cs x); discriminate A.
    - destruct (IH _ H) as [A B]. split; [reflexivity|]. intros n [<-|Hn]; [|auto].
      unfold cs_min in A. destruct (cond_get cs x); [discriminate A|discriminate A|reflexivity]. }
  apply (X COn H). exact Hn.
Qed.

(** ** what is tracked *)
Section Settle.
Variable rank : string -> nat.
Variable Cok : cfg -> Prop.
Hypothesis Hacyc : forall s t n, Cok (s_cf s) -> Cok (s_cf t) -> owns s n ->
  cond_affects n (c_cond (s_cf t)) = true -> (rank (ident s) < rank (ident t))%nat.
Hypothesis Hshort : forall c n, Cok c -> In n (c_cond c) -> (String.length n < 43)%nat.
Hypothesis Hnoconf : forall c, Cok c -> c_conflict c = [].
(** [T k l]: the restart timer made [k] running and nothing changed that since *)
Variable T : nat -> log -> Prop.
Hypothesis Text : forall k l c e, T k l -> (forall o n, e <> EState k o n) -> T k ((c, e) :: l).

Definition plain (s : svc) : Prop := c_if (s_cf s) = [].
(** [L]: a step is under way that will have every service stepped *)
Definition due (L : Prop) (w : world) : Prop := k_work (wc w) = true \/ L.
Definition still (L : Prop) (w : world) (s : svc) : Prop :=
  match s_state s with
  | Halted => enabled (wc w) s = false /\ s_removed s = false
  | Waiting => enabled (wc w) s = true /\ (agg (wc w) s <> COn \/ due L w)
  | Setup => enabled (wc w) s = true /\ s_pid s <> 0 \/ enabled (wc w) s = false /\ s_pid s <= 1
  | Starting => enabled (wc w) s = true
  | Running => enabled (wc w) s = true /\ agg (wc w) s = COn /\ s_dirty s = false \/ s_pid s <= 1 \/ T (s_key s) (wl w)
  | Paused => enabled (wc w) s = true /\ s_pid s <> 0 /\ (agg (wc w) s = CFlux \/ due L w) \/ s_pid s <= 1
  | Stopping | Teardown | Cleanup => s_pid s <> 0
  | Done => s_dirty s = false /\ is_runtask s && c_manual (s_cf s) && enabled (wc w) s = false
  | Dead => True
  end.

Definition F (w : world) (k : nat) (s : svc) : Prop := find_key k (k_svcs (wc w)) = Some s.
Definition fit (w : world) : Prop := forall j s, F w j s ->
  Cok (s_cf s) /\ (1 < s_pid s -> alive (wc w) (s_pid s) = true) /\ s_block s <> BConflict.
Definition glob (w0 w : world) : Prop :=
  k_sm (wc w) = k_sm (wc w0) /\ k_down (wc w) = k_down (wc w0) /\ k_inrl (wc w) = k_inrl (wc w0) /\
  k_norespawn (wc w) = k_norespawn (wc w0) /\ k_rl (wc w) = k_rl (wc w0) /\ k_boot (wc w) = k_boot (wc w0) /\
  keys (wc w) = keys (wc w0).
Definition A (r : nat) (w0 w : world) : Prop :=
  fit w /\ glob w0 w /\
  forall j s, F w0 j s -> exists s', F w j s' /\ s_cf s' = s_cf s /\ ((rank (ident s) < r)%nat -> s' = s).

(** who may have something to do, and whether every service will be stepped
    once what is under way is over *)
Record xset := mkX { xin : nat -> cfg -> Prop; late : Prop }.
Coercion xin : xset >-> Funclass.
Definition Sett (X : xset) (w : world) : Prop :=
  forall j s, F w j s -> plain s -> ~ X j (s_cf s) -> still (late X) w s.
Definition also (k : nat) (X : xset) : xset := mkX (fun j c => j = k \/ X j c) (late X).
Definition less (k : nat) (X : xset) : xset := mkX (fun j c => j <> k /\ X j c) (late X).
Definition affs (n : string) (X : xset) : xset := mkX (fun j c => cond_affects n (c_cond c) = true \/ X j c) (late X).
Definition unaffs (n : string) (X : xset) : xset := mkX (fun j c => cond_affects n (c_cond c) = false /\ X j c) (late X).
Definition loud (b : bool) (X : xset) : xset := mkX X (late X \/ b = true).
Definition sub (X Y : xset) : Prop := (forall j c, X j c -> Y j c) /\ (late X -> late Y).

Lemma still_late (L L' : Prop) w s : (L -> due L' w) -> still L w s -> still L' w s.
Proof.
  intros H. assert (D : due L w -> due L' w) by (intros [A|A]; [left; exact A|exact (H A)]).
  unfold still. destruct (s_state s); tauto.
Qed.
Lemma Sett_sub X Y w : sub X Y -> Sett X w -> Sett Y w.
Proof.
  intros [H1 H3] H2 j s Hf Hp Hn. apply (still_late (late X)); [intros H; right; exact (H3 H)|].
  apply (H2 j s Hf Hp). intros H. apply Hn, H1, H.
Qed.
Lemma Sett_quiet b X w : (b = true -> k_work (wc w) = true) -> Sett (loud b X) w -> Sett X w.
Proof.
  intros Hb H j s Hf Hp Hn. apply (still_late (late (loud b X))); [|exact (H j s Hf Hp Hn)].
  intros [Hl|Hl]; [right; exact Hl|left; exact (Hb Hl)].
Qed.

Lemma A_refl r w : fit w -> A r w w.
Proof.
  intros H. split; [exact H|]. split; [unfold glob; tauto|]. intros j s Hj. exists s. auto.
Qed.
Lemma A_trans r a b c : A r a b -> A r b c -> A r a c.
Proof.
  intros (A1 & A2 & A3) (B1 & B2 & B3). split; [exact B1|]. split.
  - unfold glob in *. intuition congruence.
  - intros j s Hj. destruct (A3 _ _ Hj) as (s1 & C1 & C2 & C3). destruct (B3 _ _ C1) as (s2 & D1 & D2 & D3).
    exists s2. split; [exact D1|]. split; [congruence|]. intros Hr. specialize (C3 Hr). subst s1. auto.
Qed.
Lemma A_le r r' w w' : (r <= r')%nat -> A r' w w' -> A r w w'.
Proof.
  intros Hr (A1 & A2 & A3). split; [exact A1|]. split; [exact A2|]. intros j s Hj.
  destruct (A3 _ _ Hj) as (s1 & C1 & C2 & C3). exists s1. split; [exact C1|]. split; [exact C2|].
  intros H. apply C3. lia.
Qed.
Lemma A_steady r w w' : A r w w' -> steady (wc w) -> steady (wc w').
Proof. intros (_ & (E1 & E2 & E3 & E4 & _) & _). unfold steady. rewrite E1, E2, E3, E4. auto. Qed.
Lemma F_key w k s : F w k s -> s_key s = k.
Proof. intros H. apply find_key_in in H. apply H. Qed.
Lemma F_L w k s : F w k s -> lookup_svc (wc w) k = Some s.
Proof. unfold F, lookup_svc. intros ->. reflexivity. Qed.
Lemma F_keys w k s : F w k s -> In k (keys (wc w)).
Proof. intros H. apply find_key_in in H. destruct H as [H <-]. apply in_map, H. Qed.

(** *** preservation of [still] *)
Lemma enabled_ext c c' s : c_if (s_cf s) = [] -> k_rl c' = k_rl c -> k_boot c' = k_boot c ->
  enabled c' s = enabled c s.
Proof. intros H1 H2 H3. unfold enabled. rewrite H1, H2, H3. reflexivity. Qed.

Lemma still_emit L w e s : (forall o n, e <> EState (s_key s) o n) -> still L w s -> still L (wemit e w) s.
Proof.
  intros H2. unfold still, due. cbn [wc wemit] in *.
  assert (G2 : T (s_key s) (wl w) -> T (s_key s) (wl (wemit e w))) by (intros; apply Text; assumption).
  destruct (s_state s); auto; tauto.
Qed.
Lemma still_mod L w f s : k_rl (f (wc w)) = k_rl (wc w) -> k_boot (f (wc w)) = k_boot (wc w) ->
  k_cond (f (wc w)) = k_cond (wc w) -> (k_work (wc w) = true -> k_work (f (wc w)) = true) ->
  still L w s -> still L (wmod f w) s.
Proof.
  intros H1 H2 H3 H4. unfold still, due, agg, enabled, wmod. cbn [wc wl]. rewrite H1, H2, H3. destruct (s_state s); tauto.
Qed.

Lemma path_short n m : (String.length m < 43)%nat -> cond_path m = cond_path n -> n = m.
Proof.
  unfold cond_path. intros H1 H2. rewrite (substring_ge 43 m) in H2 by lia.
  destruct (Nat.le_gt_cases (String.length n) 43) as [Hn|Hn].
  - rewrite (substring_ge 43 n) in H2 by exact Hn. congruence.
  - exfalso. assert (X : String.length (substring 0 43 n) = 43%nat).
    { clear H2 H1. revert Hn. generalize 43%nat as q. induction n as [|a n IH]; intros q Hq; [cbn in Hq; lia|].
      destruct q; [reflexivity|]. cbn in *. rewrite IH; lia. }
    rewrite <- H2 in X. lia.
Qed.
Lemma path_id m : (String.length m < 43)%nat -> cond_path m = m.
Proof. unfold cond_path. intros H. apply substring_ge. lia. Qed.
Lemma not_affects n l m : cond_affects n l = false -> In m l -> m <> n.
Proof.
  intros H1 H2 ->. unfold cond_affects in H1.
  assert (X : existsb (String.eqb n) l = true) by (apply existsb_exists; exists n; split; [exact H2|apply String.eqb_refl]).
  congruence.
Qed.

(** an operation on the condition store leaves those alone who do not wait for
    that condition *)
Lemma still_cond L w o s :
  (forall n, In n (c_cond (s_cf s)) -> cond_get (apply_cop o (k_cond (wc w))) n = cond_get (k_cond (wc w)) n) ->
  c_if (s_cf s) = [] -> still L w s -> still L (wcond o w) s.
Proof.
  intros H1 H3.
  assert (E1 : enabled (wc (wcond o w)) s = enabled (wc w) s) by (apply enabled_ext; [exact H3| |]; reflexivity).
  assert (E2 : agg (wc (wcond o w)) s = agg (wc w) s) by (apply agg_ext; exact H1).
  assert (E3 : due L w -> due L (wcond o w)) by (intros H; exact H).
  assert (E4 : T (s_key s) (wl w) -> T (s_key s) (wl (wcond o w))).
  { intros H. apply Text; [exact H|]. intros ? ?. discriminate. }
  unfold still. rewrite E1, E2. destruct (s_state s); tauto.
Qed.

Lemma still_op L w o s : c_if (s_cf s) = [] -> o <> OpReload ->
  (op_flag o (k_cond (wc w)) = true ->
   forall n, In n (c_cond (s_cf s)) -> cond_path n <> op_path o) ->
  still L w s -> still L (wcond o w) s.
Proof.
  intros Hi Ho Hf. apply still_cond; [|exact Hi].
  intros n Hn. unfold cond_get. destruct (op_flag o (k_cond (wc w))) eqn:Ef.
  - apply op_other; [exact Ho|]. apply Hf; auto.
  - apply op_unflagged, Ef.
Qed.

Lemma still_setpath (L : Prop) w p s : L -> c_if (s_cf s) = [] -> still L w s -> still L (wcond (OpSetPath p) w) s.
Proof.
  intros HL H3.
  assert (E1 : enabled (wc (wcond (OpSetPath p) w)) s = enabled (wc w) s) by (apply enabled_ext; [exact H3| |]; reflexivity).
  assert (E3 : due L (wcond (OpSetPath p) w)) by (right; exact HL).
  assert (E2 : agg (wc w) s = COn -> agg (wc (wcond (OpSetPath p) w)) s = COn).
  { intros H. apply agg_all_on. intros m Hm. pose proof (agg_on_all _ _ H m Hm) as Hg. unfold cond_get in *.
    cbn [wcond wmod wc wemit k_cond set_k_cond apply_cop].
    destruct (string_dec (cond_path m) p) as [E4|E4].
    - subst p. destruct (set_path_get (k_cond (wc w)) (cond_path m)) as [X|X]; cbn [apply_cop] in X; [exact X|congruence].
    - pose proof (op_other (OpSetPath p) (k_cond (wc w)) (cond_path m)) as X.
      cbn [apply_cop op_path] in X. rewrite X; [exact Hg|discriminate|exact E4]. }
  assert (E4 : T (s_key s) (wl w) -> T (s_key s) (wl (wcond (OpSetPath p) w))).
  { intros H. apply Text; [exact H|]. intros ? ?. discriminate. }
  unfold still. rewrite E1. destruct (s_state s); try tauto.
Qed.

(** *** primitive changes *)
Definition K (X : xset) (k r : nat) (s : svc) (w0 w : world) : Prop :=
  A r w0 w /\ F w k s /\ Sett X w /\ (r <= rank (ident s))%nat /\ steady (wc w).

Lemma F_upd w k f j t : (forall t, s_key (f t) = s_key t) ->
  F (wupd k f w) j t -> if Nat.eqb j k then exists s, F w k s /\ t = f s else F w j t.
Proof.
  intros Hf. unfold F, wupd, wmod, cupd. cbn [wc k_svcs set_k_svcs set_k_gc]. rewrite find_map_key by exact Hf.
  destruct (Nat.eqb j k) eqn:E; [|auto]. apply Nat.eqb_eq in E. subst j.
  destruct (find_key k (k_svcs (wc w))) as [s|]; [|discriminate]. cbn. intros H. injection H as <-. eauto.
Qed.
Lemma F_upd_same w k f s : (forall t, s_key (f t) = s_key t) -> F w k s -> F (wupd k f w) k (f s).
Proof.
  intros Hf H. unfold F, wupd, wmod, cupd in *. cbn [wc k_svcs set_k_svcs set_k_gc].
  rewrite find_map_key by exact Hf. rewrite Nat.eqb_refl, H. reflexivity.
Qed.
Lemma F_upd_other w k f j s : (forall t, s_key (f t) = s_key t) -> j <> k -> F w j s -> F (wupd k f w) j s.
Proof.
  intros Hf Hn H. unfold F, wupd, wmod, cupd in *. cbn [wc k_svcs set_k_svcs set_k_gc].
  rewrite find_map_key by exact Hf. apply Nat.eqb_neq in Hn. rewrite Hn. exact H.
Qed.

Lemma k_upd (X : xset) k r s w0 w f : (forall t, s_key (f t) = s_key t) -> s_cf (f s) = s_cf s ->
  (s_block (f s) = s_block s \/ s_block (f s) <> BConflict) ->
  (1 < s_pid (f s) -> s_pid (f s) = s_pid s \/ alive (wc w) (s_pid (f s)) = true) ->
  (X k (s_cf s) \/ forall L w, still L w s -> still L w (f s)) ->
  K X k r s w0 w -> K X k r (f s) w0 (wupd k f w).
Proof.
  intros Hf Hcf Hb Hp Hx ((A1 & A2 & A3) & HF & HS & Hr & Hst).
  assert (HI : ident (f s) = ident s) by (apply ident_cf, Hcf).
  split; [split; [|split]|split; [|split; [|split]]].
  - intros j t Hj. apply F_upd in Hj; [|exact Hf]. destruct (Nat.eqb j k) eqn:E.
    + destruct Hj as (s1 & H1 & ->). unfold F in *. rewrite HF in H1. injection H1 as <-.
      destruct (A1 _ _ HF) as (B1 & B2 & B3). rewrite Hcf. split; [exact B1|]. split.
      * intros Hl. destruct (Hp Hl) as [Hq|Hq]; [rewrite Hq in *; apply B2, Hl|exact Hq].
      * destruct Hb as [Hb|Hb]; [rewrite Hb; exact B3|exact Hb].
    + apply (A1 _ _ Hj).
  - destruct A2 as (? & ? & ? & ? & ? & ? & Hk). unfold glob. cbn [wupd wmod wc]. repeat (split; [assumption|]).
    rewrite <- Hk. apply map_key_keys, Hf.
  - intros j t Hj. destruct (A3 _ _ Hj) as (t1 & C1 & C2 & C3). destruct (Nat.eq_dec j k) as [->|Hn].
    + unfold F in C1, HF. rewrite HF in C1. injection C1 as <-. exists (f s).
      split; [apply F_upd_same; assumption|]. split; [congruence|]. intros Hlt. exfalso.
      rewrite (ident_cf _ _ C2) in Hr. lia.
    + exists t1. split; [apply F_upd_other; assumption|]. auto.
  - apply F_upd_same; assumption.
  - intros j t Hj Hpl Hnx.
    assert (HM : still (late X) w t -> still (late X) (wupd k f w) t) by (apply still_mod; try reflexivity; intros HW; exact HW).
    pose proof (F_key _ _ _ Hj) as Hkey. apply F_upd in Hj; [|exact Hf]. destruct (Nat.eqb j k) eqn:E.
    + apply Nat.eqb_eq in E. subst j. destruct Hj as (s1 & H1 & ->). unfold F in *. rewrite HF in H1. injection H1 as <-.
      rewrite Hcf in Hnx. destruct Hx as [Hx|Hx]; [contradiction|]. apply HM, Hx.
      apply (HS k s HF); [|exact Hnx]. unfold plain in *. rewrite Hcf in Hpl. exact Hpl.
    + apply HM. apply (HS j t Hj Hpl Hnx).
  - rewrite HI. exact Hr.
  - exact Hst.
Qed.

Lemma k_emit (X : xset) k r s w0 w e : (forall o, e <> ECond o) ->
  (forall j o n, e = EState j o n -> j = k /\ X k (s_cf s)) ->
  K X k r s w0 w -> K X k r s w0 (wemit e w).
Proof.
  intros H1 H2 ((A1 & A2 & A3) & HF & HS & Hr & Hst).
  split; [split; [exact A1|split; [exact A2|exact A3]]|]. split; [exact HF|]. split; [|split; [exact Hr|exact Hst]].
  intros j t Hj Hpl Hnx. apply still_emit; [|apply (HS j t Hj Hpl Hnx)].
  intros o n He. destruct (H2 _ _ _ He) as [Ek Hx]. rewrite (F_key _ _ _ Hj) in Ek. subst j.
  unfold F in Hj, HF. cbn [wc wemit] in Hj. rewrite HF in Hj. injection Hj as <-. contradiction.
Qed.

Definition inert (f : core -> core) : Prop := forall c,
  k_svcs (f c) = k_svcs c /\ k_sm (f c) = k_sm c /\ k_down (f c) = k_down c /\ k_inrl (f c) = k_inrl c /\
  k_norespawn (f c) = k_norespawn c /\ k_rl (f c) = k_rl c /\ k_boot (f c) = k_boot c /\ k_cond (f c) = k_cond c /\
  (k_work c = true -> k_work (f c) = true) /\
  forall p, alive c p = true -> alive (f c) p = true.
Lemma A_mod r w0 w f : inert f -> A r w0 w -> A r w0 (wmod f w).
Proof.
  intros Hi (A1 & A2 & A3). destruct (Hi (wc w)) as (E1 & E2 & E3 & E4 & E5 & E6 & E7 & E8 & EW & E9).
  split; [|split].
  - intros j t Hj. unfold F in Hj. cbn [wc wmod] in *. rewrite E1 in Hj. destruct (A1 _ _ Hj) as (B1 & B2 & B3). auto.
  - unfold glob, keys in *. cbn [wc wmod]. rewrite E1, E2, E3, E4, E5, E6, E7. exact A2.
  - intros j t Hj. destruct (A3 _ _ Hj) as (t1 & C1 & C2 & C3). exists t1. unfold F. cbn [wc wmod]. rewrite E1. auto.
Qed.
Lemma Sett_mod X w f : inert f -> Sett X w -> Sett X (wmod f w).
Proof.
  intros Hi HS j t Hj Hpl Hnx. destruct (Hi (wc w)) as (E1 & E2 & E3 & E4 & E5 & E6 & E7 & E8 & EW & E9).
  apply still_mod; [assumption..|]. unfold F in Hj. cbn [wc wmod] in Hj. rewrite E1 in Hj. apply (HS j t Hj Hpl Hnx).
Qed.
Lemma k_mod X k r s w0 w f : inert f -> K X k r s w0 w -> K X k r s w0 (wmod f w).
Proof.
  intros Hi (HA & HF & HS & Hr & Hst). destruct (Hi (wc w)) as (E1 & E2 & E3 & E4 & E5 & _).
  split; [apply A_mod; assumption|]. split; [unfold F in *; cbn [wc wmod]; rewrite E1; exact HF|].
  split; [apply Sett_mod; assumption|]. split; [exact Hr|].
  unfold steady in *. cbn [wc wmod]. rewrite E2, E3, E4, E5. exact Hst.
Qed.

Lemma alive_cons c p q : alive c p = true -> alive (set_k_procs (q :: k_procs c) c) p = true.
Proof. unfold alive, memZ. cbn [k_procs set_k_procs existsb]. intros ->. apply orb_true_r. Qed.

Ltac inert := intros ?; do 8 (split; [reflexivity|]); split; [first [intros HW; exact HW|reflexivity]|]; first [intros ? HA; exact HA | intros ? HA; apply alive_cons, HA].

Lemma k_fork X k r s w0 w f (Q : Z -> world -> Prop) :
  K X k r s w0 w ->
  (forall p w', 1 < p -> K X k r s w0 w' -> alive (wc w') p = true -> Q p w') ->
  (forall w', K X k r s w0 w' -> Q (-1) w') -> wp (do_fork k f) Q w.
Proof.
  intros HK H1 H2. apply wp_fork.
  - intros p [Hp _]. apply H1; [exact Hp| |].
    + unfold wfork_ok. apply k_mod; [inert|]. apply k_mod; [inert|]. apply k_emit; [discriminate|discriminate|].
      apply k_mod; [inert|exact HK].
    + unfold wfork_ok, alive, memZ. cbn. rewrite Z.eqb_refl. reflexivity.
  - apply H2. unfold wfork_fail. apply k_emit; [discriminate|discriminate|]. apply k_mod; [inert|exact HK].
Qed.
Lemma k_script X k r s w0 w i (Q : Z -> world -> Prop) :
  K X k r s w0 w -> (forall rc w', K X k r s w0 w' -> Q rc w') -> wp (run_script k i) Q w.
Proof.
  intros HK H. apply wp_script. intros rc. apply H. unfold wscript.
  apply k_emit; [discriminate|discriminate|]. apply k_mod; [inert|exact HK].
Qed.
Lemma k_kill X k r s w0 w p sig (Q : Z -> world -> Prop) :
  K X k r s w0 w ->
  (forall rc w', (alive (wc w) p = true -> rc = 0) -> K X k r s w0 w' -> (forall q, alive (wc w') q = alive (wc w) q) -> Q rc w') ->
  wp (do_kill k p sig) Q w.
Proof.
  intros HK H. apply wp_kill. apply H; [|apply k_emit; [discriminate|discriminate|exact HK]|reflexivity].
  unfold alive. intros ->. rewrite andb_false_r. reflexivity.
Qed.
Lemma k_with {B} X k r s w0 w (d : B) f (Q : B -> world -> Prop) :
  K X k r s w0 w -> wp (f s) Q w -> wp (with_svc k d f) Q w.
Proof.
  intros (_ & HF & _) H. apply F_L in HF. apply wp_with_svc.
  - intros s' Hs'. rewrite HF in Hs'. injection Hs' as <-. exact H.
  - intros Hn. rewrite HF in Hn. discriminate.
Qed.

(** *** conditions *)
Definition Crank (n : string) (r : nat) (w : world) : Prop :=
  forall j t, F w j t -> cond_affects n (c_cond (s_cf t)) = true -> (r <= rank (ident t))%nat.
Lemma Crank_A n r r' w w' : A r w w' -> Crank n r' w -> Crank n r' w'.
Proof.
  intros (A1 & A2 & A3) H j t Hj Ha.
  assert (X : exists s, F w j s).
  { destruct A2 as (_ & _ & _ & _ & _ & _ & Hk). apply F_keys in Hj. rewrite Hk in Hj. unfold F, find_key.
    destruct (find _ (k_svcs (wc w))) as [s|] eqn:Ef; [eauto|]. exfalso. apply in_map_iff in Hj.
    destruct Hj as (s & Es & Hs). pose proof (find_none _ _ Ef s Hs) as D. cbn in D. rewrite Es, Nat.eqb_refl in D. discriminate. }
  destruct X as (s & Hs). destruct (A3 _ _ Hs) as (t1 & C1 & C2 & _). unfold F in C1, Hj. rewrite Hj in C1. injection C1 as <-.
  rewrite (ident_cf _ _ C2). apply (H j s Hs). rewrite <- C2. exact Ha.
Qed.

Lemma A_cond r w0 w o : A r w0 w -> A r w0 (wcond o w).
Proof. intros HA. exact HA. Qed.

Lemma Sett_op X w o n : fit w -> o <> OpReload ->
  (forall m, (String.length m < 43)%nat -> cond_path m = op_path o -> n = m) -> Sett X w ->
  Sett (if op_flag o (k_cond (wc w)) then affs n X else X) (wcond o w).
Proof.
  intros Hfit H1 H4 HS j t Hj Hpl Hnx. destruct (Hfit j t Hj) as [Hc _].
  replace (late (if op_flag o (k_cond (wc w)) then affs n X else X)) with (late X) by (destruct (op_flag _ _); reflexivity).
  apply still_op; [exact Hpl|exact H1| |].
  - intros Ef m Hm Ep. rewrite Ef in Hnx. apply Hnx. left.
    pose proof (H4 m (Hshort _ _ Hc Hm) Ep) as ->. unfold cond_affects. apply existsb_exists. exists m.
    split; [exact Hm|apply String.eqb_refl].
  - apply (HS j t Hj Hpl). intros Hx. apply Hnx. destruct (op_flag _ _); [right|]; exact Hx.
Qed.

Variable rec : call -> ST unit.
Hypothesis Rstep : forall k ch wa w X r s, fit w -> steady (wc w) -> F w k s -> (r <= rank (ident s))%nat ->
  Sett (loud ch X) w -> wp (rec (CStep k ch wa)) (fun _ w' => A r w w' /\ Sett (less k X) w') w.
Hypothesis Rupd : forall n w X r, fit w -> steady (wc w) -> Crank n r w ->
  Sett X w -> wp (rec (CUpdate n)) (fun _ w' => A r w w' /\ Sett (unaffs n X) w') w.

Definition NB (X : xset) (r : nat) (w w' : world) : Prop := A r w w' /\ Sett X w'.

Lemma upd_after (X : xset) w w1 n r (b : bool) : A r w w1 -> steady (wc w) -> Crank n r w ->
  Sett (if b then affs n X else X) w1 -> wp (when b (rec (CUpdate n))) (fun _ => NB X r w) w1.
Proof.
  intros HA Hst HC HS. apply wp_when; intros ->.
  - eapply wp_mono; [apply Rupd; [apply HA|eapply A_steady; eauto|eapply Crank_A; eauto|exact HS]|].
    intros a w' [B1 B2]. split; [eapply A_trans; eauto|]. eapply Sett_sub; [|exact B2].
    split; [|auto]. intros j c [E1 [E2|E2]]; [congruence|exact E2].
  - split; assumption.
Qed.
Lemma c_set_sp n X r w : fit w -> steady (wc w) -> Crank n r w -> Sett X w ->
  wp (c_set rec n) (fun _ => NB X r w) w.
Proof.
  intros H1 H2 H3 H4. unfold c_set. apply wp_bind, wp_getc, wp_bind, wp_op.
  apply upd_after; [apply A_cond, A_refl, H1|exact H2|exact H3|].
  apply (Sett_op X w (OpSet n) n); auto; try discriminate. intros m Hm Ep. apply path_short; [exact Hm|exact Ep].
Qed.
Lemma c_oneshot_sp n X r w : fit w -> steady (wc w) -> Crank n r w -> Sett X w ->
  wp (c_oneshot rec n) (fun _ => NB X r w) w.
Proof.
  intros H1 H2 H3 H4. unfold c_oneshot. apply wp_bind, wp_getc, wp_bind, wp_op.
  apply upd_after; [apply A_cond, A_refl, H1|exact H2|exact H3|].
  apply (Sett_op X w (OpOneshot n) n); auto; try discriminate. intros m Hm Ep. apply path_short; [exact Hm|exact Ep].
Qed.
Lemma c_delpath_sp l X r w : fit w -> steady (wc w) -> (forall q, In q l -> Crank q r w) -> Sett X w ->
  wp (c_delpath rec l) (fun _ => NB X r w) w.
Proof.
  revert w. induction l as [|q l IH]; intros w H1 H2 H3 H4; cbn [c_delpath].
  - apply wp_ret. split; [apply A_refl, H1|exact H4].
  - apply wp_bind, wp_op, wp_bind, wp_getc, wp_bind.
    assert (Hin : k_inrl (wc w) = false) by apply H2.
    assert (HA : A r w (wcond (OpUnlink q) w)) by apply A_cond, A_refl, H1.
    replace (negb (k_inrl (wc (wcond (OpUnlink q) w)))) with true by (cbn; rewrite Hin; reflexivity).
    eapply wp_mono.
    + apply (upd_after X w (wcond (OpUnlink q) w) q r true HA H2 (H3 q (or_introl eq_refl))).
      apply (Sett_op X w (OpUnlink q) q); auto; try discriminate.
      intros m Hm Ep. cbn [op_path] in Ep. rewrite path_id in Ep by exact Hm. congruence.
    + intros a w' [B1 B2]. eapply wp_mono; [apply IH|].
      * apply B1.
      * eapply A_steady; eauto.
      * intros p Hp. eapply Crank_A; [exact B1|]. apply H3. right. exact Hp.
      * exact B2.
      * intros a' w2 [D1 D2]. split; [eapply A_trans; eauto|exact D2].
Qed.
Lemma c_clear_sp n X r w : fit w -> steady (wc w) -> Crank n r w ->
  (forall q, below (strip_slash (cond_path n)) q = true -> Crank q r w) -> Sett X w ->
  wp (c_clear rec n) (fun _ => NB X r w) w.
Proof.
  intros H1 H2 H3 H5 H4. unfold c_clear. apply wp_bind, wp_getc.
  destruct (is_nop n) eqn:En; [apply wp_ret; split; [apply A_refl, H1|exact H4]|].
  destruct (is_dir _ _).
  - apply c_delpath_sp; auto. intros q Hq. apply H5. eapply dir_children_below, Hq.
  - apply wp_bind, wp_op. apply upd_after; [apply A_cond, A_refl, H1|exact H2|exact H3|].
    apply (Sett_op X w (OpClear n) n); auto; try discriminate.
    intros m Hm Ep. apply path_short; [exact Hm|exact Ep].
Qed.

(** a record's own conditions *)
Lemma Crank_own w k s t n : fit w -> F w k s -> s_cf t = s_cf s -> owns t n -> Crank n (S (rank (ident s))) w.
Proof.
  intros H1 H2 H3 H4 j u Hj Ha. destruct (H1 _ _ H2) as [C1 _]. destruct (H1 _ _ Hj) as [C2 _].
  pose proof (Hacyc t u n) as G. rewrite H3 in G. specialize (G C1 C2 H4 Ha). rewrite (ident_cf t s H3) in G. lia.
Qed.
Lemma k_nb X k r s w0 w (m : ST unit) (Q : unit -> world -> Prop) : K X k r s w0 w ->
  wp m (fun _ => NB X (S (rank (ident s))) w) w -> (forall w', K X k r s w0 w' -> Q tt w') -> wp m Q w.
Proof.
  intros (HA & HF & HS & Hr & Hst) Hm HQ. eapply wp_mono; [exact Hm|]. intros [] w' [B1 B2]. apply HQ.
  split; [eapply A_trans; [exact HA|eapply A_le; [|exact B1]; lia]|].
  split; [|split; [exact B2|split; [exact Hr|eapply A_steady; eauto]]].
  destruct B1 as (_ & _ & B3). destruct (B3 _ _ HF) as (s' & C1 & _ & C3). rewrite <- C3 by lia. exact C1.
Qed.
Lemma k_set X k r s w0 w n t (Q : unit -> world -> Prop) : K X k r s w0 w -> s_cf t = s_cf s -> owns t n ->
  (forall w', K X k r s w0 w' -> Q tt w') -> wp (c_set rec n) Q w.
Proof.
  intros HK H1 H2. apply (k_nb _ _ _ _ _ _ _ _ HK). destruct HK as (HA & HF & HS & Hr & Hst).
  apply c_set_sp; auto; [apply HA|]. eapply Crank_own; eauto. apply HA.
Qed.
Lemma k_oneshot X k r s w0 w n t (Q : unit -> world -> Prop) : K X k r s w0 w -> s_cf t = s_cf s -> owns t n ->
  (forall w', K X k r s w0 w' -> Q tt w') -> wp (c_oneshot rec n) Q w.
Proof.
  intros HK H1 H2. apply (k_nb _ _ _ _ _ _ _ _ HK). destruct HK as (HA & HF & HS & Hr & Hst).
  apply c_oneshot_sp; auto; [apply HA|]. eapply Crank_own; eauto. apply HA.
Qed.
Lemma k_clear X k r s w0 w n t (Q : unit -> world -> Prop) : K X k r s w0 w -> s_cf t = s_cf s -> base_of t n ->
  (forall w', K X k r s w0 w' -> Q tt w') -> wp (c_clear rec n) Q w.
Proof.
  intros HK H1 H2. apply (k_nb _ _ _ _ _ _ _ _ HK). destruct HK as (HA & HF & HS & Hr & Hst).
  apply c_clear_sp; auto; [apply HA| |].
  - eapply Crank_own; eauto; [apply HA|]. apply owns_base, H2.
  - intros q Hq. eapply Crank_own; eauto; [apply HA|]. eapply owns_below; eauto.
Qed.

(** *** svc_set_state *)
Lemma owns_cf s t n : s_cf s = s_cf t -> owns s n -> owns t n.
Proof.
  intros E [H|(m & H1 & H2)].
  - left. unfold servicedir, ident in *. rewrite <- E. exact H.
  - right. exists m. split; [eapply base_cf; eauto|exact H2].
Qed.
Ltac kx := left; left; reflexivity.
Ltac pidsame := let H := fresh in intros H; left; reflexivity.

Lemma k_cancel X k r s w0 w : K X k r s w0 w -> K X k r (set_s_timer TmNone s) w0 (wcancel k w).
Proof. intros HK. apply (k_upd X k r s w0 w (set_s_timer TmNone)); [reflexivity|reflexivity|left; reflexivity|pidsame| |exact HK]. right. intros L w1 H. exact H. Qed.
Lemma still_timer L w s t : still L w (set_s_timer t s) = still L w s.
Proof. reflexivity. Qed.
Lemma k_timeout X k r s w0 w ms cb : K X k r s w0 w -> K X k r (f_timeout ms cb s) w0 (wtimeout k ms cb w).
Proof.
  intros HK. destruct (f_timeout_fields ms cb s) as (E1 & E2 & E3 & E4 & E5 & _).
  apply (k_upd X k r s w0 w (f_timeout ms cb)); [apply f_timeout_key|exact E2|left; exact E4|intros _; left; exact E5| |exact HK].
  right. intros L w1 H. unfold f_timeout. destruct (ms =? 0); [exact H|]. destruct (s_timer s); exact H.
Qed.

Lemma k_tail X k r s w0 w old new (Q : unit -> world -> Prop) :
  K X k r s w0 w -> (forall w', K X k r s w0 w' -> Q tt w') ->
  forall s0, s_cf s0 = s_cf s ->
  wp (when (is_runtask s0)
        (when (st_eqb new Done)
           (if s_started s0 && (wexitstatus (s_status s0) =? 0)
            then c_oneshot rec (successcond s0) else c_oneshot rec (failurecond s0)) ;;;
         when (st_eqb new Halted)
           (c_clear rec (successcond s0) ;;; c_clear rec (failurecond s0))) ;;;
      when (is_daemon s0)
        ((if (st_eqb old Running && st_eqb new Paused) || (st_eqb old Paused && st_eqb new Running)
          then ret tt
          else c <- getc ;;
               if k_inrl c then c_clear_nu rec (servicedir s0) else c_clear rec (servicedir s0)) ;;;
         when (st_eqb new Halted || st_eqb new Running)
           (with_svc k tt (fun s2 => c_oneshot rec (servicedir s0 ++ status_str s2)%string)))) Q w.
Proof.
  intros HK HQ s0 Ecf. apply wp_bind.
  assert (G : forall w, K X k r s w0 w ->
    wp (when (is_daemon s0)
        ((if (st_eqb old Running && st_eqb new Paused) || (st_eqb old Paused && st_eqb new Running)
          then ret tt
          else c <- getc ;;
               if k_inrl c then c_clear_nu rec (servicedir s0) else c_clear rec (servicedir s0)) ;;;
         when (st_eqb new Halted || st_eqb new Running)
           (with_svc k tt (fun s2 => c_oneshot rec (servicedir s0 ++ status_str s2)%string)))) Q w).
  { clear w HK. intros w HK. apply wp_when; intros _; [|apply HQ, HK]. apply wp_bind.
    assert (G : forall w, K X k r s w0 w ->
      wp (when (st_eqb new Halted || st_eqb new Running)
           (with_svc k tt (fun s2 => c_oneshot rec (servicedir s0 ++ status_str s2)%string))) Q w).
    { clear w HK. intros w HK. apply wp_when; intros _; [|apply HQ, HK]. eapply k_with; [exact HK|].
      eapply k_oneshot; [exact HK|exact Ecf| |exact HQ]. left. apply prefix_app. }
    destruct ((st_eqb old Running && st_eqb new Paused) || (st_eqb old Paused && st_eqb new Running));
      [apply wp_ret, G, HK|]. apply wp_bind, wp_getc.
    replace (k_inrl (wc w)) with false by (symmetry; apply HK).
    eapply k_clear; [exact HK|exact Ecf| |exact G]. unfold base_of; tauto. }
  apply wp_when; intros _; [|apply G, HK]. apply wp_bind.
  assert (G2 : forall w, K X k r s w0 w ->
    wp (when (st_eqb new Halted) (c_clear rec (successcond s0) ;;; c_clear rec (failurecond s0)))
       (fun _ w' => wp (when (is_daemon s0)
        ((if (st_eqb old Running && st_eqb new Paused) || (st_eqb old Paused && st_eqb new Running)
          then ret tt
          else c <- getc ;;
               if k_inrl c then c_clear_nu rec (servicedir s0) else c_clear rec (servicedir s0)) ;;;
         when (st_eqb new Halted || st_eqb new Running)
           (with_svc k tt (fun s2 => c_oneshot rec (servicedir s0 ++ status_str s2)%string)))) Q w') w).
  { clear w HK. intros w HK. apply wp_when; intros _; [|apply G, HK]. apply wp_bind.
    eapply k_clear; [exact HK|exact Ecf|unfold base_of; tauto|]. intros w1 HK1.
    eapply k_clear; [exact HK1|exact Ecf|unfold base_of; tauto|]. exact G. }
  apply wp_when; intros _; [|apply G2, HK].
  destruct (s_started s0 && (wexitstatus (s_status s0) =? 0)); (eapply k_oneshot; [exact HK|exact Ecf|apply owns_base; unfold base_of; tauto|]; exact G2).
Qed.

Lemma k_state X k r s w0 w new (Q : unit -> world -> Prop) : K (also k X) k r s w0 w ->
  (forall w', K (also k X) k r (f_enter new s) w0 w' -> Q tt w') -> wp (set_state rec k new) Q w.
Proof.
  intros HK HQ. unfold set_state. eapply k_with; [exact HK|]. cbv zeta. apply wp_bind.
  set (s1 := if st_eqb new Stopping
            then set_s_killed false (f_timeout (c_killdelay (s_cf s)) TcKill (set_s_timer TmNone s)) else s).
  assert (E1 : s_cf s1 = s_cf s).
  { unfold s1. destruct (st_eqb new Stopping); [|reflexivity]. cbn [s_cf set_s_killed].
    rewrite f_timeout_cf. reflexivity. }
  assert (G : forall w, K (also k X) k r s1 w0 w ->
    wp (if st_eqb (s_state s) new then ret tt
    else
      emit (EState k (s_state s) new) ;;;
      upd k (set_s_state new) ;;;
      when (is_runtask s)
        (when (st_eqb new Done)
           (if s_started s && (wexitstatus (s_status s) =? 0)
            then c_oneshot rec (successcond s) else c_oneshot rec (failurecond s)) ;;;
         when (st_eqb new Halted)
           (c_clear rec (successcond s) ;;; c_clear rec (failurecond s))) ;;;
      when (is_daemon s)
        ((if (st_eqb (s_state s) Running && st_eqb new Paused) || (st_eqb (s_state s) Paused && st_eqb new Running)
          then ret tt
          else c <- getc ;;
               if k_inrl c then c_clear_nu rec (servicedir s) else c_clear rec (servicedir s)) ;;;
         when (st_eqb new Halted || st_eqb new Running)
           (with_svc k tt (fun s2 => c_oneshot rec (servicedir s ++ status_str s2)%string)))) Q w).
  { clear w HK. intros w HK. unfold f_enter in HQ. fold s1 in HQ.
    destruct (st_eqb (s_state s) new); [apply wp_ret, HQ, HK|].
    apply wp_bind, wp_emit, wp_bind, wp_upd.
    apply (k_tail (also k X) k r (set_s_state new s1) w0).
    - apply (k_upd (also k X) k r s1 w0 _ (set_s_state new)); [reflexivity|reflexivity|left; reflexivity|pidsame|kx|].
      apply k_emit; [discriminate| |exact HK]. intros j o n He. injection He as <- _ _. split; [reflexivity|left; reflexivity].
    - exact HQ.
    - cbn [s_cf set_s_state]. congruence. }
  unfold s1 in *. destruct (st_eqb new Stopping); [|apply G, HK].
  apply wp_bind, wp_upd, wp_bind, wp_upd, wp_upd. apply G.
  apply (k_upd (also k X) k r _ w0 _ (set_s_killed false)); [reflexivity|reflexivity|left; reflexivity|pidsame|kx|].
  apply k_timeout, k_cancel, HK.
Qed.

(** *** the functions of the switch *)
Lemma k_cleanup X k r s w0 w (Q : unit -> world -> Prop) : K (also k X) k r s w0 w ->
  (forall w', K (also k X) k r (f_cleanup (set_s_timer TmNone s)) w0 w' -> Q tt w') -> wp (service_cleanup k) Q w.
Proof.
  intros HK HQ. unfold service_cleanup. apply wp_bind, wp_upd, wp_upd. apply HQ.
  apply (k_upd (also k X) k r _ w0 _ f_cleanup); [reflexivity|reflexivity|left; reflexivity| |kx|apply k_cancel, HK].
  intros H. cbn in H. lia.
Qed.

(** changes that do not matter *)
Definition alike (s s' : svc) : Prop :=
  s_key s' = s_key s /\ s_cf s' = s_cf s /\ s_state s' = s_state s /\ s_block s' = s_block s /\
  s_pid s' = s_pid s /\ s_removed s' = s_removed s /\ s_dirty s' = s_dirty s.
Lemma alike_refl s : alike s s. Proof. unfold alike; tauto. Qed.
Lemma alike_trans a b c : alike a b -> alike b c -> alike a c.
Proof. unfold alike. intuition congruence. Qed.
Lemma alike_enabled c s s' : alike s s' -> enabled c s' = enabled c s.
Proof. intros (E0 & E1 & E2 & E3 & E4 & E5 & E6). unfold enabled, blocked, is_tty, ty. rewrite E1, E3, E5. reflexivity. Qed.
(** the record has the same configuration, and another state *)
Definition changed (s s' : svc) : Prop := s_cf s' = s_cf s /\ s_state s' <> s_state s.

Lemma k_stop X k r s w0 w (Q : unit -> world -> Prop) : K (also k X) k r s w0 w ->
  (forall s' w', K (also k X) k r s' w0 w' -> changed s s' \/
     alike s s' /\ (forall t, enabled (wc w') t = enabled (wc w) t) /\
     (s_pid s <= 1 \/ (st_num (s_state s) <= st_num Stopping)%nat) -> Q tt w') ->
  wp (service_stop rec k) Q w.
Proof.
  intros HK HQ. unfold service_stop. eapply k_with; [exact HK|].
  destruct (Nat.leb (st_num (s_state s)) (st_num Stopping)) eqn:El.
  { apply Nat.leb_le in El. apply wp_ret. apply (HQ s); [exact HK|]. right. auto using alike_refl. }
  apply Nat.leb_gt in El. apply wp_bind, wp_upd. pose proof (k_cancel _ _ _ _ _ _ HK) as HK1.
  fold (wcancel k w). set (s1 := set_s_timer TmNone s) in *. set (w1 := wcancel k w) in *.
  assert (Hs1 : s_cf s1 = s_cf s /\ s_state s1 = s_state s /\ s_pid s1 = s_pid s) by (repeat split).
  destruct Hs1 as (E1 & E2 & E3).
  assert (Hak : alike s s1) by (unfold alike; auto 10).
  assert (Hen : forall t, enabled (wc w1) t = enabled (wc w) t) by reflexivity.
  clearbody s1 w1.
  assert (Hch : forall st s', (st_num st <= st_num Stopping)%nat -> s_cf s' = s_cf s -> s_state s' = st -> changed s s').
  { intros st s' H1 H2 H3. split; [exact H2|]. rewrite H3. intros H4. rewrite H4 in H1. lia. }
  assert (Ghalt : forall s2 w2, s_cf s2 = s_cf s -> K (also k X) k r s2 w0 w2 ->
    wp (service_cleanup k ;;; set_state rec k Halted) Q w2).
  { intros s2 w2 Hcf HK2. apply wp_bind. eapply k_cleanup; [exact HK2|]. intros w3 HK3.
    eapply k_state; [exact HK3|]. intros w4 HK4. apply (HQ _ _ HK4). left.
    apply (Hch Halted); [cbn; lia| |apply f_enter_state]. rewrite f_enter_cf. exact Hcf. }
  apply wp_bind, wp_getc.
  destruct (negb (c_stop (s_cf s)) && negb (is_sysv s)) eqn:Epl; cbn [andb].
  - destruct (s_pid s <=? 1) eqn:Ep.
    { apply wp_ret. apply (HQ s1); [exact HK1|]. right. split; [exact Hak|]. split; [exact Hen|]. left. lia. }
    destruct (negb (alive (wc w1) (s_pid s))) eqn:Ea; [apply (Ghalt s1); assumption|].
    apply wp_bind, wp_upd. cbn [andb].
    replace ((1 <? s_pid s) && false) with false by (rewrite andb_false_r; reflexivity).
    assert (HK2 : K (also k X) k r (set_s_starting false s1) w0 (wupd k (set_s_starting false) w1)).
    { apply (k_upd (also k X) k r s1 w0 _ (set_s_starting false)); [reflexivity|reflexivity|left; reflexivity|pidsame|kx|exact HK1]. }
    apply andb_true_iff in Epl. destruct Epl as [P1 P2]. apply negb_true_iff in P1. rewrite P1, P2.
    apply wp_bind, wp_bind. eapply k_kill; [exact HK2|]. intros rc w3 _ HK3 _. apply wp_ret.
    destruct (_ =? 1); [apply (Ghalt (set_s_starting false s1) w3 E1 HK3)|].
    eapply k_state; [exact HK3|]. intros w4 HK4. apply (HQ _ _ HK4). left.
    apply (Hch Stopping); [cbn; lia|rewrite f_enter_cf; exact E1|apply f_enter_state].
  - assert (Ha : (1 <? s_pid s) && negb (alive (wc w1) (s_pid s)) = false).
    { destruct (1 <? s_pid s) eqn:Ep; [|reflexivity]. cbn [andb]. apply negb_false_iff.
      destruct HK1 as ((HF & _) & HF1 & _). destruct (HF _ _ HF1) as (_ & Hal & _). rewrite E3 in Hal. apply Hal. lia. }
    apply wp_bind, wp_upd. rewrite Ha.
    assert (HK2 : K (also k X) k r (set_s_starting false s1) w0 (wupd k (set_s_starting false) w1)).
    { apply (k_upd (also k X) k r s1 w0 _ (set_s_starting false)); [reflexivity|reflexivity|left; reflexivity|pidsame|kx|exact HK1]. }
    assert (Gfin : forall (rc : Z) w3, K (also k X) k r (set_s_starting false s1) w0 w3 ->
      wp (if rc =? 1 then service_cleanup k ;;; set_state rec k Halted else set_state rec k Stopping) Q w3).
    { intros rc w3 HK3. destruct (rc =? 1); [apply (Ghalt (set_s_starting false s1) w3 E1 HK3)|].
      eapply k_state; [exact HK3|]. intros w4 HK4. apply (HQ _ _ HK4). left.
      apply (Hch Stopping); [cbn; lia|rewrite f_enter_cf; exact E1|apply f_enter_state]. }
    apply wp_bind. destruct (c_stop (s_cf s)).
    { eapply k_script; [exact HK2|]. intros rc w3 HK3. apply Gfin, HK3. }
    destruct (negb (is_sysv s)).
    { apply wp_bind. eapply k_kill; [exact HK2|]. intros rc w3 _ HK3 _. apply wp_ret. apply Gfin, HK3. }
    apply wp_bind. eapply k_fork; [exact HK2| |]; intros; apply wp_ret, Gfin; assumption.
Qed.

Lemma still_alike L w s s' : alike s s' -> still L w s -> still L w s'.
Proof.
  intros HA. pose proof (alike_enabled (wc w) _ _ HA) as He. destruct HA as (E0 & E1 & E2 & E3 & E4 & E5 & E6).
  unfold still, agg, is_runtask, ty. rewrite E0, E1, E2, E4, E5, E6, He. auto.
Qed.
Lemma k_alike X k r s w0 w f : (forall t, s_key (f t) = s_key t) -> alike s (f s) -> K X k r s w0 w -> K X k r (f s) w0 (wupd k f w).
Proof.
  intros H1 H2 HK. pose proof H2 as (_ & E1 & _ & E3 & E4 & _). apply k_upd; [exact H1|exact E1|left; exact E3|intros _; left; exact E4| |exact HK].
  right. intros L w1. apply still_alike, H2.
Qed.

Lemma k_ready X k r s w0 w b (Q : unit -> world -> Prop) : K X k r s w0 w ->
  (forall s' w', alike s s' -> K X k r s' w0 w' -> Q tt w') -> wp (service_ready rec k b) Q w.
Proof.
  intros HK HQ. unfold service_ready. eapply k_with; [exact HK|].
  destruct (negb (is_daemon s)); [apply wp_ret, (HQ s), HK; apply alike_refl|].
  destruct b.
  - apply wp_bind. eapply k_set; [exact HK|reflexivity|apply owns_base; unfold base_of; tauto|]. intros w1 HK1.
    apply wp_when; intros _; [|apply (HQ s), HK1; apply alike_refl].
    unfold ready_script. apply wp_bind. eapply k_fork; [exact HK1| |].
    + intros p w2 Hp HK2 _. replace (p <? 0) with false by lia. apply wp_bind, wp_modc.
      assert (HK3 := k_mod X k r s w0 w2 (fun c => set_k_assoc (k_assoc c ++ [(p, k)]) c) ltac:(inert) HK2).
      eapply k_with; [exact HK3|]. apply wp_upd.
      eapply HQ; [|apply (k_timeout X k r s w0 _ (c_ready_tmo (s_cf s)) TcScriptKill), HK3].
      destruct (f_timeout_fields (c_ready_tmo (s_cf s)) TcScriptKill s) as (E0 & E1 & E2 & E3 & E4 & E5 & E6 & _).
      unfold alike; tauto.
    + intros w2 HK2. cbn. apply (HQ s), HK2. apply alike_refl.
  - eapply k_clear; [exact HK|reflexivity|unfold base_of; tauto|]. intros w1 HK1. apply (HQ s), HK1. apply alike_refl.
Qed.

(** what one pass of the switch leaves behind *)
Definition passed (X : xset) (k r : nat) (s : svc) (w0 : world) (d : bool) (w' : world) : Prop :=
  exists s', s_cf s' = s_cf s /\
   (K (also k X) k r s' w0 w' /\ (d = true \/ s_state s' = s_state s -> plain s -> still (late X) w' s') \/
    K (also k (loud true X)) k r s' w0 w' /\ d = false /\ s_state s' <> s_state s).

Lemma passed_changed X k r s w0 s' w' : K (also k X) k r s' w0 w' -> changed s s' -> passed X k r s w0 false w'.
Proof.
  intros HK [H1 H2]. exists s'. split; [exact H1|]. left. split; [exact HK|]. intros [H|H]; [discriminate|contradiction].
Qed.
Lemma passed_loud X k r s w0 s' w' : K (also k (loud true X)) k r s' w0 w' -> changed s s' -> passed X k r s w0 false w'.
Proof. intros HK [H1 H2]. exists s'. split; [exact H1|]. right. auto. Qed.
Lemma passed_still X k r s w0 s' w' d : K (also k X) k r s' w0 w' -> s_cf s' = s_cf s -> (plain s -> still (late X) w' s') -> passed X k r s w0 d w'.
Proof. intros HK H1 H2. exists s'. auto. Qed.
Lemma passed_enter X k r s s' w0 new w' : K (also k X) k r (f_enter new s') w0 w' -> s_cf s' = s_cf s -> new <> s_state s ->
  passed X k r s w0 false w'.
Proof.
  intros HK H1 H2. apply (passed_changed _ _ _ _ _ _ _ HK). split; [rewrite f_enter_cf; exact H1|].
  rewrite f_enter_state. exact H2.
Qed.

Lemma k_block X k r s w0 w b : b <> BConflict -> K (also k X) k r s w0 w -> K (also k X) k r (set_s_block b s) w0 (wblock k b w).
Proof. intros Hb HK. apply (k_upd (also k X) k r s w0 w (set_s_block b)); [reflexivity|reflexivity|right; exact Hb|pidsame|kx|exact HK]. Qed.
Lemma k_clean X k r s w0 w : K (also k X) k r s w0 w -> K (also k X) k r (f_clean s) w0 (wclean k w).
Proof. intros HK. apply (k_upd (also k X) k r s w0 w f_clean); [reflexivity|reflexivity|left; reflexivity|pidsame|kx|exact HK]. Qed.
Lemma K_noconf X k r s w0 w : K X k r s w0 w -> s_block s <> BConflict.
Proof. intros ((H & _) & HF & _). apply (H _ _ HF). Qed.
Ltac enter HK1 := eapply passed_enter; [exact HK1|first [reflexivity|assumption]|congruence].

Lemma p_halted X k r s w0 w : K (also k X) k r s w0 w -> s_state s = Halted ->
  wp (step_halted rec k s (wc w)) (passed X k r s w0) w.
Proof.
  intros HK Hs. unfold step_halted. apply wp_bind. destruct (enabled (wc w) s) eqn:Ee.
  { eapply k_state; [exact HK|]. intros w1 HK1. apply wp_ret. enter HK1. }
  destruct (s_removed s) eqn:Er.
  { eapply k_state; [exact HK|]. intros w1 HK1. apply wp_ret. enter HK1. }
  apply wp_when.
  - intros Hc. apply andb_true_iff in Hc. destruct Hc as [Hb _]. apply blk_eqb_eq in Hb.
    destruct (K_noconf _ _ _ _ _ _ HK Hb).
  - intros _. apply wp_ret. eapply passed_still; [exact HK|reflexivity|]. intros _. unfold still. rewrite Hs. auto.
Qed.

Lemma k_aux X k r s w0 w f tmo (Q : unit -> world -> Prop) : K (also k X) k r s w0 w ->
  (forall s' w', s_cf s' = s_cf s -> s_state s' = s_state s -> K (also k X) k r s' w0 w' -> Q tt w') ->
  wp (aux_script k f tmo) Q w.
Proof.
  intros HK HQ. unfold aux_script. apply wp_bind. eapply k_fork; [exact HK| |].
  - intros p w1 Hp HK1 Hal. apply wp_bind, wp_upd.
    assert (HK2 : K (also k X) k r (set_s_pid p s) w0 (wupd k (set_s_pid p) w1)).
    { apply (k_upd (also k X) k r s w0 w1 (set_s_pid p)); [reflexivity|reflexivity|left; reflexivity| |kx|exact HK1].
      intros _. right. exact Hal. }
    replace (p <? 0) with false by lia. eapply k_with; [exact HK2|]. apply wp_upd.
    eapply HQ; [| |apply (k_timeout _ _ _ _ _ _ (tmo (s_cf (set_s_pid p s))) TcKillScript HK2)];
      destruct (f_timeout_fields (tmo (s_cf (set_s_pid p s))) TcKillScript (set_s_pid p s)) as (E0 & E1 & E2 & _);
      rewrite ?E1, ?E2; reflexivity.
  - intros w1 HK1. apply wp_bind, wp_upd. cbn. apply wp_ret.
    apply (HQ (set_s_pid (-1) s)); [reflexivity|reflexivity|].
    apply (k_upd (also k X) k r s w0 w1 (set_s_pid (-1))); [reflexivity|reflexivity|left; reflexivity| |kx|exact HK1].
    cbn. lia.
Qed.
Lemma p_aux X k r s w0 w new f tmo s1 : K (also k X) k r s1 w0 w -> s_cf s1 = s_cf s -> new <> s_state s ->
  wp (set_state rec k new ;;; aux_script k f tmo) (fun _ w' => passed X k r s w0 false w') w.
Proof.
  intros HK H1 H2. apply wp_bind. eapply k_state; [exact HK|]. intros w1 HK1.
  eapply k_aux; [exact HK1|]. intros s' w' E1 E2 HK2. eapply passed_changed; [exact HK2|].
  rewrite f_enter_cf in E1. rewrite f_enter_state in E2. split; congruence.
Qed.

Lemma p_teardown X k r s w0 w : K (also k X) k r s w0 w -> s_state s = Teardown ->
  wp (step_teardown rec k s) (passed X k r s w0) w.
Proof.
  intros HK Hs. unfold step_teardown. apply wp_bind. apply wp_when.
  - intros _. apply wp_bind, wp_upd. pose proof (k_cancel _ _ _ _ _ _ HK) as HK1. fold (wcancel k w).
    destruct (_ && _).
    + eapply wp_mono; [apply (p_aux X k r s w0 _ Cleanup _ _ _ HK1); [reflexivity|congruence]|]. auto.
    + eapply k_state; [exact HK1|]. intros w2 HK2. apply wp_ret. enter HK2.
  - intros Hp. apply wp_ret. eapply passed_still; [exact HK|reflexivity|]. intros _. unfold still. rewrite Hs. lia.
Qed.
Lemma p_cleanup X k r s w0 w : K (also k X) k r s w0 w -> s_state s = Cleanup ->
  wp (step_cleanup rec k s) (passed X k r s w0) w.
Proof.
  intros HK Hs. unfold step_cleanup. apply wp_bind. apply wp_when.
  - intros _. eapply k_state; [exact HK|]. intros w2 HK2. apply wp_ret. enter HK2.
  - intros Hp. apply wp_ret. eapply passed_still; [exact HK|reflexivity|]. intros _. unfold still. rewrite Hs. lia.
Qed.
Lemma p_done X k r s w0 w : K (also k X) k r s w0 w -> s_state s = Done ->
  wp (step_done rec k s (wc w)) (passed X k r s w0) w.
Proof.
  intros HK Hs. unfold step_done. cbv zeta. apply wp_bind.
  assert (G : forall s1 w1, K (also k X) k r s1 w0 w1 -> s_cf s1 = s_cf s -> 
    (changed s s1 \/ s1 = s /\ w1 = w /\ s_dirty s = false) ->
    wp (when (is_runtask s && c_manual (s_cf s) && enabled (wc w) s) (set_state rec k Waiting))
       (fun _ w' => wp (ret false) (passed X k r s w0) w') w1).
  { intros s1 w1 HK1 H1 H2. apply wp_when.
    - intros _. eapply k_state; [exact HK1|]. intros w2 HK2. apply wp_ret. enter HK2.
    - intros Hn. apply wp_ret. destruct H2 as [H2|(-> & -> & H2)]; [eapply passed_changed; eauto|].
      eapply passed_still; [exact HK1|reflexivity|]. intros _. unfold still. rewrite Hs. auto. }
  apply wp_when; intros Hd.
  - eapply k_state; [exact HK|]. intros w1 HK1. apply wp_bind. eapply G; [exact HK1|apply f_enter_cf|].
    left. split; [apply f_enter_cf|rewrite f_enter_state; congruence].
  - apply wp_bind. eapply G; [exact HK|reflexivity|]. right. auto.
Qed.
Lemma p_stopping X k r s w0 w : K (also k X) k r s w0 w -> s_state s = Stopping ->
  wp (step_stopping rec k s) (passed X k r s w0) w.
Proof.
  intros HK Hs. unfold step_stopping. apply wp_bind. apply wp_when.
  - intros _. apply wp_bind, wp_upd. pose proof (k_cancel _ _ _ _ _ _ HK) as HK1. fold (wcancel k w).
    apply wp_bind. eapply k_clear; [exact HK1| |unfold base_of; left; reflexivity|]; [reflexivity|]. intros w2 HK2.
    eapply k_with; [exact HK2|]. destruct (is_runtask _).
    + apply wp_bind. apply wp_when; intros _.
      * apply wp_upd. eapply k_state; [apply (k_block _ _ _ _ _ _ BUser ltac:(discriminate) HK2)|]. intros w3 HK3. apply wp_ret. enter HK3.
      * eapply k_state; [exact HK2|]. intros w3 HK3. apply wp_ret. enter HK3.
    + destruct (c_post _); [eapply wp_mono; [apply (p_aux X k r s w0 _ Teardown _ _ _ HK2); [reflexivity|congruence]|]; auto|].
      destruct (_ && _); [eapply wp_mono; [apply (p_aux X k r s w0 _ Cleanup _ _ _ HK2); [reflexivity|congruence]|]; auto|].
      eapply k_state; [exact HK2|]. intros w3 HK3. apply wp_ret. enter HK3.
  - intros Hp. apply wp_ret. eapply passed_still; [exact HK|reflexivity|]. intros _. unfold still. rewrite Hs. lia.
Qed.

(** [enabled] under service_stop: nothing it looks at was touched *)
Lemma p_setup X k r s w0 w : K (also k X) k r s w0 w -> s_state s = Setup ->
  wp (step_setup rec k s (wc w)) (passed X k r s w0) w.
Proof.
  intros HK Hs. unfold step_setup. apply wp_bind. destruct (enabled (wc w) s) eqn:Ee; cbn [negb].
  - apply wp_when.
    + intros Hp. destruct (_ || _).
      * apply wp_bind. eapply k_state; [exact HK|]. intros w1 HK1. apply wp_upd, wp_ret.
        eapply passed_changed; [apply (k_block _ _ _ _ _ _ BCrashing ltac:(discriminate) HK1)|].
        split; cbn [s_cf s_state set_s_block]; rewrite ?f_enter_cf, ?f_enter_state; congruence.
      * eapply k_state; [exact HK|]. intros w1 HK1. apply wp_ret. enter HK1.
    + intros Hp. apply wp_ret. eapply passed_still; [exact HK|reflexivity|]. intros _. unfold still. rewrite Hs, Ee. left. lia.
  - eapply k_stop; [exact HK|]. intros s' w' HK' [Hc|(E1 & E2 & E3)]; apply wp_ret; [eapply passed_changed; eauto|].
    pose proof E1 as (_ & Ec & Es & _ & Epid & _).
    eapply passed_still; [exact HK'|exact Ec|]. intros _. unfold still. rewrite Es, Hs. right.
    rewrite (alike_enabled _ _ _ E1), E2. split; [exact Ee|]. rewrite Hs in E3. cbn in E3. lia.
Qed.

Lemma p_waiting X k r s w0 w : K (also k X) k r s w0 w -> s_state s = Waiting ->
  wp (step_waiting rec k s (wc w)) (passed X k r s w0) w.
Proof.
  intros HK Hs. unfold step_waiting. apply wp_bind. destruct (enabled (wc w) s) eqn:Ee; cbn [negb].
  2: { eapply k_state; [exact HK|]. intros w1 HK1. apply wp_ret. enter HK1. }
  assert (Hst : steady (wc w)) by apply HK. destruct Hst as (_ & _ & H1 & H2). rewrite H1, H2.
  apply wp_when.
  - intros _. assert (Hc : conflicts (wc w) s = false).
    { unfold conflicts. destruct HK as ((HF & _) & HF1 & _). destruct (HF _ _ HF1) as (Hc & _).
      rewrite (Hnoconf _ Hc). reflexivity. }
    rewrite Hc. destruct (c_pre (s_cf s)).
    + eapply wp_mono; [apply (p_aux X k r s w0 _ Setup _ _ _ HK); [reflexivity|congruence]|]. auto.
    + eapply k_state; [exact HK|]. intros w1 HK1. apply wp_ret. enter HK1.
  - intros Hn. apply wp_ret. eapply passed_still; [exact HK|reflexivity|]. intros _. unfold still. rewrite Hs.
    split; [exact Ee|]. left. intros Ha. rewrite Ha in Hn. discriminate.
Qed.

Lemma p_starting X k r s w0 w : K (also k X) k r s w0 w -> s_state s = Starting ->
  wp (step_starting rec k s (wc w)) (passed X k r s w0) w.
Proof.
  intros HK Hs. unfold step_starting. apply wp_bind. destruct (enabled (wc w) s) eqn:Ee; cbn [negb].
  2: { eapply k_state; [exact HK|]. intros w1 HK1. apply wp_ret. enter HK1. }
  assert (Hb0 : s_block s = BNone).
  { apply blk_eqb_eq. unfold enabled, blocked in Ee. destruct (blk_eqb (s_block s) BNone); [reflexivity|].
    rewrite andb_false_r in Ee. discriminate. }
  set (okay := fun (t : svc) (v : world) => K (also k X) k r t w0 v /\ s_cf t = s_cf s /\
    s_state t = Starting /\ s_block t = BNone /\ s_removed t = s_removed s).
  assert (Hen : forall t v, okay t v -> plain s -> still (late X) v t).
  { intros t v ((HA & _) & E1 & E2 & E3 & E4) Hpl. unfold still. rewrite E2.
    destruct HA as (_ & (G1 & G2 & G3 & G4 & G5 & G6 & G7) & _).
    destruct HK as ((_ & (J1 & J2 & J3 & J4 & J5 & J6 & J7) & _) & _).
    rewrite (enabled_ext (wc w) (wc v)) by (unfold plain in Hpl; congruence).
    unfold enabled, blocked, is_tty, ty in *. rewrite E1, E3, E4. rewrite Hb0 in Ee. exact Ee. }
  assert (Gpass : forall t v, okay t v -> wp (ret false) (passed X k r s w0) v).
  { intros t v Hok. apply wp_ret. pose proof Hok as (HK1 & E1 & _). eapply passed_still; [exact HK1|exact E1|].
    apply Hen, Hok. }
  assert (Hup : forall t v f, (forall x, s_key (f x) = s_key x) -> s_cf (f t) = s_cf t -> s_state (f t) = s_state t ->
    s_block (f t) = s_block t -> s_removed (f t) = s_removed t ->
    (1 < s_pid (f t) -> s_pid (f t) = s_pid t \/ alive (wc v) (s_pid (f t)) = true) ->
    okay t v -> okay (f t) (wupd k f v)).
  { intros t v f F1 F2 F3 F4 F5 F6 (HK1 & E1 & E2 & E3 & E4). unfold okay. rewrite F2, F3, F4, F5.
    split; [|auto]. apply (k_upd (also k X) k r t w0 v f); [exact F1|exact F2|left; exact F4|exact F6|kx|exact HK1]. }
  assert (G : forall (err : Z) t v, okay t v ->
    wp (if negb (err =? 0) then
       c <- getc ;;
       if negb (k_runblk c =? 0) then ret tt
       else with_svc k tt (fun s =>
              if blk_eqb (s_block s) BMissing then set_state rec k Halted else incr_cnt k)
     else mark_clean k ;;; set_state rec k Running) (fun _ w' => wp (ret false) (passed X k r s w0) w') v).
  { intros err t v Hok. pose proof Hok as (HK1 & E1 & E2 & E3 & E4). destruct (negb (err =? 0)).
    - apply wp_bind, wp_getc. destruct (negb (k_runblk (wc v) =? 0)); [apply wp_ret; apply (Gpass t v Hok)|].
      eapply k_with; [exact HK1|]. rewrite E3. cbn [blk_eqb]. apply wp_upd.
      eapply Gpass. apply (Hup t v f_incr); try reflexivity; [pidsame|exact Hok].
    - apply wp_bind, wp_upd. fold (wclean k v). eapply k_state; [apply (k_clean _ _ _ _ _ _ HK1)|]. intros w2 HK2.
      apply wp_ret. eapply passed_enter; [exact HK2|exact E1|congruence]. }
  apply wp_bind. unfold service_start. eapply k_with; [exact HK|]. apply wp_bind, wp_getc.
  assert (Hst : steady (wc w)) by apply HK. destruct Hst as (_ & _ & _ & H2). rewrite H2.
  assert (Hok : okay s w) by (unfold okay; auto 10).
  destruct (negb (k_runblk (wc w) =? 0)) eqn:Erb; [apply wp_ret, (G 1 s w Hok)|].
  destruct (mem_str _ _).
  { apply wp_bind, wp_upd, wp_ret. cbn [Z.eqb negb]. apply wp_bind, wp_getc.
    pose proof (k_block _ _ _ _ _ _ BMissing ltac:(discriminate) HK) as HK1. unfold wblock in HK1.
    replace (negb (k_runblk (wc (wupd k (set_s_block BMissing) w)) =? 0)) with false by (symmetry; exact Erb).
    eapply k_with; [exact HK1|]. cbn [s_block set_s_block blk_eqb].
    eapply k_state; [exact HK1|]. intros w2 HK2. apply wp_ret. enter HK2. }
  apply wp_bind, wp_upd, wp_bind, wp_upd, wp_bind.
  set (f1 := fun s : svc => if is_daemon s && (negb (s_rcnt s =? 0) || negb (s_rtot s =? 0)) then set_s_rtot (s_rtot s + 1) s else s).
  assert (Hok1 : okay (set_s_starting true s) (wupd k (set_s_starting true) w)) by (apply Hup; try reflexivity; [pidsame|exact Hok]).
  assert (Hok2 : okay (f1 (set_s_starting true s)) (wupd k f1 (wupd k (set_s_starting true) w))).
  { apply Hup; [intros x|..|exact Hok1]; unfold f1; destruct (_ && _); try reflexivity; pidsame. }
  set (s2 := f1 (set_s_starting true s)) in *. set (w2 := wupd k f1 (wupd k (set_s_starting true) w)) in *.
  clearbody s2 w2. pose proof Hok2 as (HK2 & Erest). eapply k_fork; [exact HK2| |].
  2: { intros w3 HK3. cbn [Z.ltb Z.compare]. apply wp_ret, (G (-1) s2). split; [exact HK3|exact Erest]. }
  intros p w3 Hp HK3 Hal. replace (p <? 0) with false by lia. apply wp_bind, wp_upd, wp_bind.
  assert (Hok4 : okay (set_s_pid p s2) (wupd k (set_s_pid p) w3)).
  { apply Hup; try reflexivity; [intros _; right; exact Hal|split; [exact HK3|exact Erest]]. }
  set (w4 := wupd k (set_s_pid p) w3) in *. set (s4 := set_s_pid p s2) in *. clearbody s4 w4.
  assert (Hmod : forall v f, inert f -> okay s4 v -> okay s4 (wmod f v)).
  { intros v f Hi (HK5 & E5). split; [apply k_mod; assumption|exact E5]. }
  assert (Gfin : forall (rr : Z) v, okay s4 v ->
    wp (when (is_run_t (ty s)) (modc (set_k_runblk p)) ;;; ret rr)
       (fun err w' => wp (if negb (err =? 0) then
       c <- getc ;;
       if negb (k_runblk c =? 0) then ret tt
       else with_svc k tt (fun s =>
              if blk_eqb (s_block s) BMissing then set_state rec k Halted else incr_cnt k)
     else mark_clean k ;;; set_state rec k Running) (fun _ w' => wp (ret false) (passed X k r s w0) w') w') v).
  { intros rr v Hv. apply wp_bind. apply wp_when; intros _.
    - apply wp_modc, wp_ret, (G rr s4). apply Hmod; [inert|exact Hv].
    - apply wp_ret, (G rr s4), Hv. }
  destruct (c_notify (s_cf s)); try (apply wp_ret, Gfin, Hok4);
    (apply wp_bind, wp_getc; destruct (k_notes (wc w4)) as [|b l];
     [apply wp_ret, Gfin, Hok4|apply wp_bind, wp_modc, wp_ret, Gfin, Hmod; [inert|exact Hok4]]).
Qed.

Lemma k_settle X k r s w0 w : K (also k X) k r s w0 w -> (plain s -> still (late X) w s) -> K (less k X) k r s w0 w.
Proof.
  intros (HA & HF & HS & Hr & Hst) H. split; [exact HA|]. split; [exact HF|]. split; [|split; assumption].
  intros j t Hj Hpl Hnx. destruct (Nat.eq_dec j k) as [->|Hn].
  - unfold F in Hj, HF. rewrite HF in Hj. injection Hj as <-. auto.
  - apply (HS j t Hj Hpl). intros [Hx|Hx]; [contradiction|]. apply Hnx. split; assumption.
Qed.
Lemma k_unsettle X k r s w0 w : K (less k X) k r s w0 w -> K (also k X) k r s w0 w /\ (plain s -> still (late X) w s).
Proof.
  intros (HA & HF & HS & Hr & Hst). split.
  - split; [exact HA|]. split; [exact HF|]. split; [|split; assumption].
    eapply Sett_sub; [|exact HS]. split; [|auto]. intros j c [_ H]. right. exact H.
  - intros Hpl. apply (HS k s HF Hpl). intros [H _]. apply H. reflexivity.
Qed.
Lemma k_loud X k r s w0 w : K (also k X) k r s w0 w -> K (also k (loud true X)) k r s w0 w.
Proof.
  intros (HA & HF & HS & Hr & Hst). split; [exact HA|]. split; [exact HF|]. split; [|split; assumption].
  eapply Sett_sub; [|exact HS]. split; [auto|]. intros H; left; exact H.
Qed.
Lemma k_setpath X k r s w0 w p : K (also k X) k r s w0 w -> K (also k (loud true X)) k r s w0 (wcond (OpSetPath p) w).
Proof.
  intros HK. apply k_loud in HK. destruct HK as (HA & HF & HS & Hr & Hst). split; [exact HA|]. split; [exact HF|]. split; [|split; assumption].
  intros j t Hj Hpl Hnx. apply still_setpath; [right; reflexivity|exact Hpl|]. apply (HS j t Hj Hpl Hnx).
Qed.

Lemma k_reload X k r s w0 w (Q : unit -> world -> Prop) : K (also k X) k r s w0 w -> s_state s = Running ->
  (forall s' w', K (also k X) k r s' w0 w' -> s_cf s' = s_cf s -> s_state s' = Running ->
     s_pid s' <= 1 \/ enabled (wc w') s' = enabled (wc w) s /\ agg (wc w') s' = agg (wc w) s -> Q tt w') ->
  wp (service_reload rec k) Q w.
Proof.
  intros HK Hs HQ. unfold service_reload. eapply k_with; [exact HK|]. apply wp_bind, wp_getc.
  assert (Hst : steady (wc w)) by apply HK. destruct Hst as (_ & _ & _ & H2). rewrite H2.
  assert (Gs : forall v, K (also k X) k r s w0 v -> enabled (wc v) s = enabled (wc w) s -> agg (wc v) s = agg (wc w) s ->
    wp (upd k (set_s_starting true)) Q v).
  { intros v HK1 G1 G2. apply wp_upd. apply (HQ (set_s_starting true s)); [|reflexivity|exact Hs|right; split; [exact G1|exact G2]].
    apply (k_alike (also k X) k r s w0 v (set_s_starting true)); [reflexivity| |exact HK1]. unfold alike; cbn; tauto. }
  destruct (c_reload (s_cf s)).
  { apply wp_bind, wp_script. intros rc.
    assert (HK1 : K (also k X) k r s w0 (wscript k KReload rc w)).
    { unfold wscript. apply k_emit; [discriminate|discriminate|]. apply k_mod; [inert|exact HK]. }
    apply wp_when; intros _; [apply Gs; [exact HK1|reflexivity|reflexivity]|].
    apply (HQ s); auto. }
  destruct (c_sighup (s_cf s)); [|apply wp_ret, (HQ s); auto].
  destruct (s_pid s <=? 1) eqn:Ep.
  - apply wp_upd. apply (HQ (set_s_pid 0 s)); [|reflexivity|exact Hs|left; cbn; lia].
    apply (k_upd (also k X) k r s w0 w (set_s_pid 0)); [reflexivity|reflexivity|left; reflexivity|cbn; lia|kx|exact HK].
  - apply wp_bind, wp_kill. assert (Hal : alive (wc w) (s_pid s) = true).
    { destruct HK as ((HF & _) & HF1 & _). destruct (HF _ _ HF1) as (_ & Hal & _). apply Hal. lia. }
    unfold alive in Hal. rewrite Hal, andb_false_r. cbn [Z.eqb].
    apply Gs; [apply k_emit; [discriminate|discriminate|exact HK]|reflexivity|reflexivity].
Qed.

Lemma p_running X k r s w0 w : K (also k X) k r s w0 w -> s_state s = Running ->
  wp (step_running rec k s (wc w)) (passed X k r s w0) w.
Proof.
  intros HK Hs. unfold step_running.
  assert (Gstop : forall s1 v, K (also k X) k r s1 w0 v -> s_cf s1 = s_cf s -> s_state s1 = Running -> 
    wp (service_stop rec k) (fun _ w' => wp (ret false) (passed X k r s w0) w') v).
  { intros s1 v HK1 E1 E2. eapply k_stop; [exact HK1|]. intros s' w' HK' [[Hc1 Hc2]|(F1 & F2 & F3)]; apply wp_ret.
    - eapply passed_changed; [exact HK'|]. split; congruence.
    - pose proof F1 as (_ & Ec & Es & _ & Epid & _). eapply passed_still; [exact HK'|congruence|]. intros _.
      unfold still. rewrite Es, E2. right. left. rewrite E2 in F3. cbn in F3. lia. }
  destruct (enabled (wc w) s) eqn:Ee; cbn [negb]; [|apply wp_bind, (Gstop s w); auto].
  destruct ((s_pid s =? 0) && (is_daemon s || is_tty s)).
  { apply wp_bind, wp_upd. pose proof (k_block _ _ _ _ _ _ BRestarting ltac:(discriminate) HK) as HK1.
    fold (wblock k BRestarting w). apply wp_bind. eapply k_state; [exact HK1|]. intros w2 HK2.
    eapply k_with; [exact HK2|]. 
    destruct (negb _).
    - apply wp_bind, wp_upd, wp_ret. pose proof (k_timeout _ _ _ _ _ _ (s_rtmo (f_enter Halted (set_s_block BRestarting s))) TcRetry HK2) as HK3.
      destruct (f_timeout_fields (s_rtmo (f_enter Halted (set_s_block BRestarting s))) TcRetry (f_enter Halted (set_s_block BRestarting s)))
        as (T0 & T1 & T2 & T3 & T4 & T5 & _).
      destruct (f_enter_fields Halted (set_s_block BRestarting s)) as (U0 & U1 & U2 & U3 & U4 & U5 & _).
      eapply passed_still; [exact HK3|rewrite T1, U1; reflexivity|]. intros _. unfold still. rewrite T2, U2.
      unfold enabled, blocked. rewrite T3, T5, U3, U5. cbn [s_block set_s_block blk_eqb s_removed].
      replace (s_removed s) with false.
      + rewrite !andb_false_r. split; reflexivity.
      + unfold enabled in Ee. destruct (s_removed s); [|reflexivity]. cbn [negb] in Ee.
        rewrite andb_false_r in Ee. discriminate Ee.
    - apply wp_bind, wp_upd, wp_ret. pose proof (k_block _ _ _ _ _ _ BNone ltac:(discriminate) HK2) as HK3.
      eapply passed_changed; [exact HK3|]. destruct (f_enter_fields Halted (set_s_block BRestarting s)) as (U0 & U1 & U2 & _).
      split; cbn [s_cf s_state set_s_block]; rewrite ?U1, ?U2; [reflexivity|congruence]. }
  destruct ((s_pid s =? 0) && is_runtask s).
  { apply wp_bind. eapply k_state; [exact HK|]. intros w1 HK1. apply wp_bind, wp_upd, wp_ret.
    eapply passed_changed; [apply (k_upd (also k X) k r (f_enter Stopping s) w0 w1 (fun s => set_s_rtot (s_rtot s + 1) (set_s_once (wrap8 (s_once s + 1)) s)));
      [reflexivity|reflexivity|left; reflexivity|pidsame|kx|exact HK1]|].
    split; cbn [s_cf s_state set_s_rtot set_s_once]; rewrite ?f_enter_cf, ?f_enter_state; [reflexivity|congruence]. }
  apply wp_bind, wp_upd. pose proof (k_cancel _ _ _ _ _ _ HK) as HK1. fold (wcancel k w).
  assert (Hag : agg (wc (wcancel k w)) s = agg (wc w) s) by reflexivity.
  assert (Hen : enabled (wc (wcancel k w)) s = enabled (wc w) s) by reflexivity.
  assert (Hak : alike s (set_s_timer TmNone s)) by (unfold alike; cbn; tauto).
  set (s1 := set_s_timer TmNone s) in *. set (w1 := wcancel k w) in *. clearbody s1 w1.
  pose proof Hak as (_ & Ec & Es & _ & Epid & _). rewrite Hs in Es.
  apply wp_bind. rewrite <- Hag. destruct (agg (wc w1) s) eqn:Ea.
  - apply (Gstop s1); auto.
  - apply wp_bind. eapply k_kill; [exact HK1|]. intros rc w2 _ HK2 _. eapply k_state; [exact HK2|]. intros w3 HK3.
    apply wp_ret. eapply passed_enter; [exact HK3|exact Ec|congruence].
  - (* the end: readiness *)
    assert (Gr : forall s2 v Y, K Y k r s2 w0 v ->
      wp (with_svc k tt (fun s =>
                match c_notify (s_cf s) with NfNone => service_ready rec k true | _ => ret tt end))
         (fun _ w' => exists s', alike s2 s' /\ K Y k r s' w0 w') v).
    { intros s2 v Y HK2. eapply k_with; [exact HK2|].
      destruct (c_notify (s_cf s2)); try (apply wp_ret; exists s2; split; [apply alike_refl|exact HK2]).
      eapply k_ready; [exact HK2|]. intros s' w' H1 H2. exists s'. auto. }
    assert (Gok : forall s2 v, K (less k X) k r s2 w0 v -> s_cf s2 = s_cf s ->
      wp (with_svc k tt (fun s =>
                match c_notify (s_cf s) with NfNone => service_ready rec k true | _ => ret tt end))
         (fun _ w' => wp (ret false) (passed X k r s w0) w') v).
    { intros s2 v HK2 E2. eapply wp_mono; [apply (Gr s2 v _ HK2)|]. intros a w' (s' & (_ & F1 & _) & HK3).
      apply wp_ret. destruct (k_unsettle _ _ _ _ _ _ HK3) as [G1 G2]. eapply passed_still; [exact G1|congruence|].
      intros Hpl. apply G2. unfold plain in *. congruence. }
    apply wp_bind. destruct (s_dirty s) eqn:Ed.
    + destruct (noreload s || s_adirty s).
      * apply wp_bind. eapply k_stop; [exact HK1|]. intros s2 w2 HK2 Hcase. apply wp_bind, wp_upd, wp_ret.
        pose proof (k_clean _ _ _ _ _ _ HK2) as HK3. fold (wclean k w2).
        destruct Hcase as [[Hc1 Hc2]|(F1 & F2 & F3)].
        -- eapply wp_mono; [apply (Gr _ _ _ HK3)|]. intros a w' (s' & (_ & B1 & B2 & _) & HK4). apply wp_ret.
           eapply passed_changed; [exact HK4|]. cbn in B1, B2. split; congruence.
        -- pose proof F1 as (_ & B1 & B2 & _ & B3 & _). apply (Gok (f_clean s2)).
           ++ apply k_settle; [exact HK3|]. intros _. unfold still. cbn [s_state f_clean set_s_dirty set_s_adirty s_pid].
              rewrite B2, Es. right. left. rewrite Es in F3. cbn in F3. lia.
           ++ cbn. congruence.
      * assert (Hst : steady (wc w)) by apply HK. destruct Hst as (_ & _ & H1 & _). rewrite H1.
        apply wp_bind. eapply k_reload; [exact HK1|exact Es|]. intros s2 w2 HK2 B1 B2 B3. apply wp_bind, wp_upd, wp_ret.
        apply (Gok (f_clean s2)); [|cbn; congruence]. apply k_settle; [apply k_clean, HK2|]. intros Hpl.
        unfold still. cbn [s_state f_clean set_s_dirty set_s_adirty s_pid s_dirty]. rewrite B2.
        destruct B3 as [B3|[B3 B4]]; [right; left; exact B3|left]. split; [|split; [|reflexivity]].
        -- transitivity (enabled (wc w2) s2); [reflexivity|]. rewrite B3, (alike_enabled _ _ _ Hak), Hen. exact Ee.
        -- transitivity (agg (wc w2) s2); [reflexivity|]. rewrite B4. unfold agg. rewrite Ec. exact Ea.
    + apply wp_ret. apply (Gok s1); auto. apply k_settle; [exact HK1|]. intros Hpl. apply (still_alike _ _ s); [exact Hak|].
      unfold still. rewrite Hs. left. rewrite Hen, Ea. auto.
Qed.

Lemma p_paused X k r s w0 w : K (also k X) k r s w0 w -> s_state s = Paused ->
  wp (step_paused rec k s (wc w)) (passed X k r s w0) w.
Proof.
  intros HK Hs. unfold step_paused. apply wp_bind.
  assert (Gstop : forall v, K (also k X) k r s w0 v ->
    wp (service_stop rec k) (fun _ w' => wp (ret false) (passed X k r s w0) w') v).
  { intros v HK1. eapply k_stop; [exact HK1|]. intros s' w' HK' [Hc|(F1 & F2 & F3)]; apply wp_ret.
    - eapply passed_changed; eauto.
    - pose proof F1 as (_ & Ec & Es & _ & Epid & _). eapply passed_still; [exact HK'|congruence|]. intros _.
      unfold still. rewrite Es, Hs. right. rewrite Hs in F3. cbn in F3. lia. }
  assert (Gks : forall p, wp (do_kill k p 18 ;;; service_stop rec k) (fun _ w' => wp (ret false) (passed X k r s w0) w') w).
  { intros p. apply wp_bind. eapply k_kill; [exact HK|]. intros rc w1 _ HK1 _. apply Gstop, HK1. }
  destruct (enabled (wc w) s) eqn:Ee; cbn [negb]; [|apply Gks].
  destruct (s_pid s =? 0) eqn:Ep.
  { apply wp_bind, wp_upd. eapply k_state.
    - apply (k_upd (also k X) k r s w0 w f_incr); [reflexivity|reflexivity|left; reflexivity|pidsame|kx|exact HK].
    - intros w1 HK1. apply wp_ret. enter HK1. }
  destruct (agg (wc w) s) eqn:Ea; [apply Gks| |].
  - apply wp_ret, wp_ret. eapply passed_still; [exact HK|reflexivity|]. intros _. unfold still. rewrite Hs. left.
    split; [exact Ee|]. split; [lia|]. left. exact Ea.
  - apply wp_bind. eapply k_kill; [exact HK|]. intros rc w1 _ HK1 _. apply wp_bind. eapply k_state; [exact HK1|].
    intros w2 HK2. eapply k_with; [exact HK2|].
    assert (Hch : forall s', alike (f_enter Running s) s' -> changed s s').
    { intros s' (_ & E1 & E2 & _). rewrite f_enter_cf in E1. rewrite f_enter_state in E2. split; congruence. }
    apply wp_when; intros _; [|apply wp_ret; eapply passed_changed; [exact HK2|apply Hch, alike_refl]].
    assert (G : forall v, K (also k (loud true X)) k r (f_enter Running s) w0 v ->
      wp (service_ready rec k true) (fun _ w' => wp (ret false) (passed X k r s w0) w') v).
    { intros v HKv. eapply k_ready; [exact HKv|]. intros s' w' H1 H2. apply wp_ret. eapply passed_loud; [exact H2|apply Hch, H1]. }
    apply wp_bind. destruct (c_notify _); try (apply wp_ret, G, k_loud, HK2). apply wp_op, G, k_setpath, HK2.
Qed.

Lemma p_switch X k r s w0 w : K (also k X) k r s w0 w ->
  wp (step_switch rec k s (wc w)) (passed X k r s w0) w.
Proof.
  intros HK. unfold step_switch. destruct (s_state s) eqn:Hs.
  - apply p_halted; assumption.
  - apply p_done; assumption.
  - apply wp_ret. eapply passed_still; [exact HK|reflexivity|]. intros _. unfold still. rewrite Hs. exact Logic.I.
  - apply p_cleanup; assumption.
  - apply p_teardown; assumption.
  - apply p_stopping; assumption.
  - apply p_setup; assumption.
  - apply p_paused; assumption.
  - apply p_waiting; assumption.
  - apply p_starting; assumption.
  - apply p_running; assumption.
Qed.

Lemma sched_sp X b k r s w0 w (Q : unit -> world -> Prop) : K X k r s w0 w ->
  (forall w', K X k r s w0 w' -> (b = true -> k_work (wc w') = true) -> Q tt w') -> wp (sched b) Q w.
Proof.
  intros HK HQ. unfold sched. apply wp_when; intros Hb.
  - apply wp_modc, HQ; [apply k_mod; [inert|exact HK]|reflexivity].
  - apply HQ; [exact HK|congruence].
Qed.

(** *** service_step *)
Lemma step_sp k ch wa w X r s : fit w -> steady (wc w) -> F w k s -> (r <= rank (ident s))%nat ->
  Sett (loud ch X) w -> wp (service_step rec k ch wa) (fun _ => NB (less k X) r w) w.
Proof.
  intros H1 H2 H3 H4 H5.
  assert (HK : K (also k (loud ch X)) k r s w w).
  { split; [apply A_refl, H1|]. split; [exact H3|]. split; [|split; assumption].
    eapply Sett_sub; [|exact H5]. split; [|auto]. intros j c Hx. right. exact Hx. }
  unfold service_step. eapply k_with; [exact HK|]. apply wp_bind, wp_getc, wp_bind.
  eapply wp_mono; [apply (p_switch (loud ch X) k r s w w HK)|]. intros d w1 (s1 & E1 & HP).
  assert (Gnext : forall wa', K (also k (loud true X)) k r s1 w w1 ->
    wp (rec (CStep k true wa')) (fun _ => NB (less k X) r w) w1).
  { intros wa' (G1 & G2 & G3 & G4 & G5).
    eapply wp_mono; [apply (Rstep k _ _ w1 (also k X) r s1); auto; apply G1|].
    intros [] w2 [J1 J2]. split; [eapply A_trans; eauto|]. eapply Sett_sub; [|exact J2].
      split; [|auto]. intros j c [Hj [Hx|Hx]]; [contradiction|]. split; assumption. }
  destruct HP as [[HK1 Hst1]|(HK1 & -> & Hne)].
  2: { apply wp_bind, wp_getc. eapply k_with; [exact HK1|].
       destruct (st_eqb (s_state s1) (s_state s)) eqn:Es; cbn [negb]; [apply st_eqb_eq in Es; contradiction|].
       apply Gnext. destruct HK1 as (G1 & G2 & G3 & G4). split; [exact G1|]. split; [exact G2|]. split; [|exact G4].
       eapply Sett_sub; [|exact G3]. split; [auto|]. intros _. right. reflexivity. }
  assert (Gdone : forall b, (d = true \/ s_state s1 = s_state s) -> wp (sched (ch || b)) (fun _ => NB (less k X) r w) w1).
  { intros b Hd. assert (HK2 : K (less k (loud ch X)) k r s1 w w1).
    { apply k_settle; [exact HK1|]. intros Hpl. apply Hst1; [exact Hd|]. unfold plain in *. congruence. }
    eapply sched_sp; [exact HK2|]. intros w2 (G1 & _ & G3 & _) Hw. split; [exact G1|].
    apply (Sett_quiet ch); [intros Hc; apply Hw; rewrite Hc; reflexivity|exact G3]. }
  destruct d; [apply Gdone; auto|]. apply wp_bind, wp_getc. eapply k_with; [exact HK1|].
  destruct (st_eqb (s_state s1) (s_state s)) eqn:Es; cbn [negb].
  - apply Gdone. right. apply st_eqb_eq, Es.
  - apply Gnext. destruct HK1 as (G1 & G2 & G3 & G4). split; [exact G1|]. split; [exact G2|]. split; [|exact G4].
    eapply Sett_sub; [|exact G3]. split; [auto|]. intros _. right. reflexivity.
Qed.

Lemma Sett_loud b X w : Sett X w -> Sett (loud b X) w.
Proof. intros H. eapply Sett_sub; [|exact H]. split; [auto|]. intros HL. left. exact HL. Qed.
(** *** loops over the services *)
Definition left_in (g : cfg -> bool) (l : list nat) (X : xset) : xset :=
  mkX (fun j c => X j c /\ (g c = true -> In j l)) (late X).
Lemma find_fun w k s t : F w k s -> F w k t -> s = t.
Proof. unfold F. congruence. Qed.

Lemma loop_sp (g : cfg -> bool) (f : nat -> ST unit) r w0 X :
  (forall k w Y s, A r w0 w -> steady (wc w) -> F w k s -> g (s_cf s) = true -> Sett Y w -> wp (f k) (fun _ => NB (less k Y) r w) w) ->
  (forall k w Y s, A r w0 w -> steady (wc w) -> F w k s -> g (s_cf s) = false -> Sett Y w -> wp (f k) (fun _ => NB Y r w) w) ->
  (forall k w Y, A r w0 w -> steady (wc w) -> find_key k (k_svcs (wc w)) = None -> Sett Y w -> wp (f k) (fun _ => NB Y r w) w) ->
  forall l w, A r w0 w -> steady (wc w) -> Sett (left_in g l X) w ->
  wp (foreach l f) (fun _ => NB (left_in g [] X) r w0) w.
Proof.
  intros H1 H2 H3. induction l as [|k l IH]; intros w HA Hst HS; cbn [foreach].
  - apply wp_ret. split; assumption.
  - apply wp_bind.
    assert (G : wp (f k) (fun _ => NB (left_in g l X) r w) w).
    { destruct (find_key k (k_svcs (wc w))) as [s|] eqn:Ef.
      - destruct (g (s_cf s)) eqn:Eg.
        + eapply wp_mono; [apply (H1 k w _ s HA Hst Ef Eg HS)|]. intros a w' [B1 B2]. split; [exact B1|].
          eapply Sett_sub; [|exact B2]. split; [|auto]. intros j c [Hn [Hx Hin]]. split; [exact Hx|]. intros Hg.
          destruct (Hin Hg) as [Hj|Hj]; [congruence|exact Hj].
        + assert (HS' : Sett (left_in g l X) w).
          { intros j t Hj Hpl Hnx. apply (HS j t Hj Hpl). intros [Hx Hin]. apply Hnx. split; [exact Hx|]. intros Hg.
            destruct (Hin Hg) as [Hk|Hk]; [|exact Hk]. subst j. pose proof (find_fun _ _ _ _ Ef Hj). subst t. congruence. }
          apply (H2 k w _ s HA Hst Ef Eg HS').
      - assert (HS' : Sett (left_in g l X) w).
        { intros j t Hj Hpl Hnx. apply (HS j t Hj Hpl). intros [Hx Hin]. apply Hnx. split; [exact Hx|]. intros Hg.
          destruct (Hin Hg) as [Hk|Hk]; [|exact Hk]. subst j. unfold F in Hj. congruence. }
        apply (H3 k w _ HA Hst Ef HS'). }
    eapply wp_mono; [exact G|]. intros a w1 [B1 B2]. apply IH; [eapply A_trans; eauto|eapply A_steady; eauto|exact B2].
Qed.
Lemma left_all g X w : Sett X w -> Sett (left_in g (keys (wc w)) X) w.
Proof.
  intros HS j t Hj Hpl Hnx. apply (HS j t Hj Hpl). intros Hx. apply Hnx. split; [exact Hx|]. intros _. eapply F_keys, Hj.
Qed.

Lemma update_sp n X r w : fit w -> steady (wc w) -> Crank n r w -> Sett X w ->
  wp (cond_update rec n) (fun _ => NB (unaffs n X) r w) w.
Proof.
  intros H1 H2 H3 H4. unfold cond_update. apply wp_bind, wp_getc.
  eapply wp_mono.
  - apply (loop_sp (fun c => cond_affects n (c_cond c)) _ r w X); [| | |apply A_refl, H1|exact H2|apply left_all, H4].
    + intros k w1 Y s HA Hst HF Hg HS. apply wp_bind, wp_getc. rewrite HF.
      replace (has_cond s) with true by (unfold has_cond; destruct (c_cond (s_cf s)); [discriminate Hg|reflexivity]).
      rewrite Hg. cbn [andb]. apply wp_bind.
      pose proof (Crank_A _ _ _ _ _ HA H3 k s HF Hg) as Hr.
      assert (G : forall s2 w2, s_cf s2 = s_cf s -> K (also k Y) k r s2 w1 w2 ->
        wp (rec (CStep k false false)) (fun _ => NB (less k Y) r w1) w2).
      { intros s2 w2 E2 (G1 & G2 & G3 & G4 & G5). eapply wp_mono; [apply (Rstep k _ _ w2 (also k Y) r s2); auto; [apply G1|apply Sett_loud, G3]|].
        intros [] w3 [J1 J2]. split; [eapply A_trans; eauto|]. eapply Sett_sub; [|exact J2].
        split; [|auto]. intros j c [Hj [Hx|Hx]]; [contradiction|]. split; assumption. }
      assert (HK : K (also k Y) k r s w1 w1).
      { split; [apply A_refl, HA|]. split; [exact HF|]. split; [|split; assumption].
        eapply Sett_sub; [|exact HS]. split; [|auto]. intros j c Hx. right. exact Hx. }
      apply wp_when; intros _; [|apply (G s); [reflexivity|exact HK]].
      apply wp_bind, wp_upd, wp_upd. apply (G (set_s_block BNone (set_s_timer TmNone s))); [reflexivity|].
      apply (k_block Y k r _ w1 _ BNone); [discriminate|]. apply k_cancel, HK.
    + intros k w1 Y s HA Hst HF Hg HS. apply wp_bind, wp_getc. rewrite HF, Hg, andb_false_r. apply wp_ret.
      split; [apply A_refl, HA|exact HS].
    + intros k w1 Y HA Hst HF HS. apply wp_bind, wp_getc. rewrite HF. apply wp_ret. split; [apply A_refl, HA|exact HS].
  - intros a w' [B1 B2]. split; [exact B1|]. eapply Sett_sub; [|exact B2]. split; [|auto]. intros j c [Hx Hn]. split; [|exact Hx].
    destruct (cond_affects n (c_cond c)); [destruct (Hn eq_refl)|reflexivity].
Qed.

Lemma all_sp m X w : fit w -> steady (wc w) -> Sett X w ->
  wp (step_all rec m) (fun _ => NB (mkX (fun j c => X j c /\ m (c_type c) = false) (late X)) 0 w) w.
Proof.
  intros H1 H2 H4. unfold step_all. apply wp_bind, wp_getc.
  eapply wp_mono.
  - apply (loop_sp (fun c => m (c_type c)) _ 0 w X); [| | |apply A_refl, H1|exact H2|apply left_all, H4].
    + intros k w1 Y s HA Hst HF Hg HS. apply wp_bind, wp_getc. rewrite HF. unfold ty. rewrite Hg. cbn [when].
      apply (Rstep k _ _ w1 Y 0 s); auto; [apply HA|lia|apply Sett_loud, HS].
    + intros k w1 Y s HA Hst HF Hg HS. apply wp_bind, wp_getc. rewrite HF. unfold ty. rewrite Hg. cbn [when]. apply wp_ret.
      split; [apply A_refl, HA|exact HS].
    + intros k w1 Y HA Hst HF HS. apply wp_bind, wp_getc. rewrite HF. apply wp_ret. split; [apply A_refl, HA|exact HS].
  - intros a w' [B1 B2]. split; [exact B1|]. eapply Sett_sub; [|exact B2]. split; [|auto]. intros j c [Hx Hn]. split; [exact Hx|].
    destruct (m (c_type c)); [destruct (Hn eq_refl)|reflexivity].
Qed.

(** *** events that do not ask the runlevel state machine to go on *)
Definition none : xset := mkX (fun _ _ => False) False.
Definition OK (w : world) : Prop := fit w /\ steady (wc w) /\ Sett none w.

Lemma K_OK k r s w0 w : K none k r s w0 w -> OK w.
Proof. intros ((H & _) & _ & HS & _ & Hst). split; [exact H|]. split; assumption. Qed.
Lemma OK_K k s w : OK w -> F w k s -> K none k 0 s w w.
Proof. intros (H1 & H2 & H3) HF. split; [apply A_refl, H1|]. split; [exact HF|]. split; [exact H3|]. split; [lia|exact H2]. Qed.
Lemma OK_Ka k s w : OK w -> F w k s -> K (also k none) k 0 s w w.
Proof.
  intros H HF. destruct (OK_K k s w H HF) as (A1 & A2 & A3 & A4 & A5). split; [exact A1|]. split; [exact A2|].
  split; [eapply Sett_sub; [|exact A3]; split; [intros ? ? []|auto]|]. split; assumption.
Qed.
Lemma NB_OK (X : xset) r w w' : (forall j c, ~ X j c) -> ~ late X -> steady (wc w) -> NB X r w w' -> OK w'.
Proof.
  intros HX HL Hst [HA HS]. split; [apply HA|]. split; [eapply A_steady; eauto|].
  eapply Sett_sub; [|exact HS]. split; [|intros H; destruct (HL H)]. intros j c Hx. destruct (HX j c Hx).
Qed.
Lemma Crank_0 n w : Crank n 0 w. Proof. intros j t _ _. lia. Qed.

Lemma o_step k ch wa s w0 w : K (also k none) k 0 s w0 w -> wp (rec (CStep k ch wa)) (fun _ => OK) w.
Proof.
  intros (HA & HF & HS & Hr & Hst).
  eapply wp_mono; [eapply (Rstep k ch wa w (also k none) 0 s (proj1 HA) Hst HF Hr (Sett_loud _ _ _ HS))|].
  intros a w' H. eapply NB_OK; [| |exact Hst|exact H]; [|intros []]. intros j c [H1 [H2|[]]]. contradiction.
Qed.
Lemma o_all m w : OK w -> wp (step_all rec m) (fun _ => OK) w.
Proof.
  intros (H1 & H2 & H3). eapply wp_mono; [apply (all_sp m none w H1 H2 H3)|].
  intros a w' H. eapply NB_OK; [| |exact H2|exact H]; [|intros []]. intros j c [[] _].
Qed.
Lemma all_m m w : (forall t, m t = true) -> fit w -> steady (wc w) -> wp (step_all rec m) (fun _ => OK) w.
Proof.
  intros Hm H1 H2. eapply wp_mono; [apply (all_sp m (mkX (fun _ _ => True) False) w H1 H2)|].
  - intros j s _ _ H. destruct (H Logic.I).
  - intros a w' H. eapply NB_OK; [| |exact H2|exact H]; [|intros []]. intros j c [_ H3]. rewrite Hm in H3. discriminate H3.
Qed.
Lemma all_any w : fit w -> steady (wc w) -> wp (step_all rec m_any) (fun _ => OK) w.
Proof. apply all_m. reflexivity.
Qed.
Lemma o_set n w : OK w -> wp (c_set rec n) (fun _ => OK) w.
Proof.
  intros (H1 & H2 & H3). eapply wp_mono; [apply (c_set_sp n none 0 w H1 H2 (Crank_0 _ _) H3)|].
  intros a w' H. eapply NB_OK; [| |exact H2|exact H]; [|intros []]. intros j c [].
Qed.
Lemma o_oneshot n w : OK w -> wp (c_oneshot rec n) (fun _ => OK) w.
Proof.
  intros (H1 & H2 & H3). eapply wp_mono; [apply (c_oneshot_sp n none 0 w H1 H2 (Crank_0 _ _) H3)|].
  intros a w' H. eapply NB_OK; [| |exact H2|exact H]; [|intros []]. intros j c [].
Qed.
Lemma o_clear n w : OK w -> wp (c_clear rec n) (fun _ => OK) w.
Proof.
  intros (H1 & H2 & H3). eapply wp_mono; [apply (c_clear_sp n none 0 w H1 H2 (Crank_0 _ _) (fun _ _ => Crank_0 _ _) H3)|].
  intros a w' H. eapply NB_OK; [| |exact H2|exact H]; [|intros []]. intros j c [].
Qed.

Lemma OK_emit e w : (forall o, e <> ECond o) -> (forall k o n, e <> EState k o n) -> OK w -> OK (wemit e w).
Proof.
  intros H1 H2 (A1 & A2 & A3). split; [exact A1|]. split; [exact A2|].
  intros j t Hj Hpl Hnx. apply still_emit; [apply H2|]. apply (A3 j t Hj Hpl Hnx).
Qed.
Lemma OK_mod f w : inert f -> OK w -> OK (wmod f w).
Proof.
  intros Hi (A1 & A2 & A3). split; [apply (A_mod 0 w w f Hi (A_refl 0 w A1))|].
  split; [|apply Sett_mod; assumption]. eapply A_steady; [|exact A2]. apply (A_mod 0 w w f Hi (A_refl 0 w A1)).
Qed.
Lemma OK_alike k f w : (forall t, s_key (f t) = s_key t) -> (forall s, F w k s -> alike s (f s)) -> OK w -> OK (wupd k f w).
Proof.
  intros Hf Ha (A1 & A2 & A3). split; [|split; [exact A2|]].
  - intros j t Hj. apply F_upd in Hj; [|exact Hf]. destruct (Nat.eqb j k); [|exact (A1 _ _ Hj)].
    destruct Hj as (s & HF & ->). destruct (Ha s HF) as (_ & E1 & _ & E3 & E4 & _). rewrite E1, E3, E4. exact (A1 _ _ HF).
  - intros j t Hj Hpl Hnx. assert (HM : still False w t -> still False (wupd k f w) t) by (apply still_mod; try reflexivity; intros HW; exact HW).
    apply F_upd in Hj; [|exact Hf]. apply HM. destruct (Nat.eqb j k) eqn:E; [|exact (A3 _ _ Hj Hpl Hnx)].
    apply Nat.eqb_eq in E. subst j. destruct Hj as (s & HF & ->). pose proof (Ha s HF) as Hal.
    apply (still_alike _ _ _ _ Hal). destruct Hal as (_ & E1 & _). unfold plain in *. rewrite E1 in *. exact (A3 _ _ HF Hpl Hnx).
Qed.
Lemma find_key_map k f l : (forall s : svc, s_key (f s) = s_key s) -> find_key k (map f l) = option_map f (find_key k l).
Proof.
  intros Hf. unfold find_key. induction l as [|a l IH]; [reflexivity|]. cbn [map find]. rewrite Hf.
  destruct (Nat.eqb (s_key a) k); [reflexivity|exact IH].
Qed.
Lemma OK_all f w : (forall s, alike s (f s)) -> OK w -> OK (wmod (fun c => set_k_svcs (map f (k_svcs c)) c) w).
Proof.
  intros Ha (A1 & A2 & A3).
  assert (HF : forall j t, F (wmod (fun c => set_k_svcs (map f (k_svcs c)) c) w) j t -> exists s, F w j s /\ t = f s).
  { intros j t Hj. unfold F in *. cbn [wc wmod k_svcs set_k_svcs] in Hj. rewrite find_key_map in Hj by (intros s; apply Ha).
    destruct (find_key j (k_svcs (wc w))) as [s|]; [|discriminate]. injection Hj as <-. eauto. }
  split; [|split; [exact A2|]].
  - intros j t Hj. destruct (HF _ _ Hj) as (s & Hs & ->). destruct (Ha s) as (_ & E1 & _ & E3 & E4 & _).
    rewrite E1, E3, E4. exact (A1 _ _ Hs).
  - intros j t Hj Hpl Hnx. destruct (HF _ _ Hj) as (s & Hs & ->). apply still_mod; [reflexivity|reflexivity|reflexivity|intros HW; exact HW|].
    apply (still_alike _ _ _ _ (Ha s)). destruct (Ha s) as (_ & E1 & _). unfold plain in *. rewrite E1 in *. exact (A3 _ _ Hs Hpl Hnx).
Qed.
Lemma timer_alike t s : alike s (set_s_timer t s). Proof. unfold alike. cbn. tauto. Qed.
Lemma timeout_alike ms cb s : alike s (f_timeout ms cb s).
Proof. unfold alike, f_timeout. destruct (ms =? 0); [tauto|]. destruct (s_timer s); cbn; tauto. Qed.

Lemma ka_emit e k s w0 w : (forall o, e <> ECond o) -> (forall j o n, e <> EState j o n) ->
  K (also k none) k 0 s w0 w -> K (also k none) k 0 s w0 (wemit e w).
Proof. intros H1 H2 HK. apply k_emit; [exact H1| |exact HK]. intros j o n He. destruct (H2 _ _ _ He). Qed.

Lemma ev_go k s w0 w : K (also k none) k 0 s w0 w -> wp (api_go rec k) (fun _ => OK) w.
Proof.
  intros HK. unfold api_go. apply wp_bind, wp_upd, wp_bind, wp_upd, wp_bind.
  eapply wp_mono; [|intros a w1 H1; apply o_all, H1].
  eapply o_step. eapply (k_block none k 0 _ w0 _ BNone); [discriminate|]. apply k_cancel, HK.
Qed.
Lemma ev_stop k w : OK w -> wp (api_stop rec k) (fun _ => OK) w.
Proof.
  intros H. unfold api_stop, if_registered. apply wp_bind, wp_getc. destruct (find_key k (k_svcs (wc w))) as [s|] eqn:Ef; [|exact H].
  apply wp_bind, wp_emit, wp_bind, wp_upd, wp_bind, wp_upd, wp_bind.
  eapply wp_mono; [|intros a w1 H1; apply o_all, H1].
  eapply o_step. eapply (k_block none k 0 _ w _ BUser); [discriminate|]. apply k_cancel, ka_emit; [discriminate..|].
  eapply OK_Ka; [exact H|exact Ef].
Qed.
Lemma ev_start k w : OK w -> wp (api_start rec k) (fun _ => OK) w.
Proof.
  intros H. unfold api_start, if_registered. apply wp_bind, wp_getc. destruct (find_key k (k_svcs (wc w))) as [s|] eqn:Ef; [|exact H].
  apply wp_bind, wp_emit. eapply ev_go. apply ka_emit; [discriminate..|]. eapply OK_Ka; [exact H|exact Ef].
Qed.
Lemma ev_restart k w : OK w -> wp (api_restart rec k) (fun _ => OK) w.
Proof.
  intros H. unfold api_restart, if_registered. apply wp_bind, wp_getc. destruct (find_key k (k_svcs (wc w))) as [s|] eqn:Ef; [|exact H].
  apply wp_bind, wp_emit. assert (HK : K (also k none) k 0 s w (wemit (ERequest k RqRestart) w)).
  { apply ka_emit; [discriminate..|]. eapply OK_Ka; [exact H|exact Ef]. }
  destruct (negb _); [eapply ev_go, HK|]. apply wp_bind, wp_upd, wp_bind.
  eapply k_stop; [apply k_cancel, HK|]. intros s' w' HK' _. eapply o_step, HK'.
Qed.
Lemma ev_reload k w : OK w -> wp (api_reload rec k) (fun _ => OK) w.
Proof.
  intros H. unfold api_reload, if_registered. apply wp_bind, wp_getc. destruct (find_key k (k_svcs (wc w))) as [s|] eqn:Ef; [|exact H].
  apply wp_bind, wp_emit. assert (HK : K (also k none) k 0 s w (wemit (ERequest k RqReload) w)).
  { apply ka_emit; [discriminate..|]. eapply OK_Ka; [exact H|exact Ef]. }
  assert (G : forall s1 w1, K (also k none) k 0 s1 w w1 -> wp (upd k (set_s_dirty true) ;;; rec (CStep k false false)) (fun _ => OK) w1).
  { intros s1 w1 HK1. apply wp_bind, wp_upd. eapply o_step.
    apply (k_upd (also k none) k 0 s1 w w1 (set_s_dirty true)); [reflexivity|reflexivity|left; reflexivity|pidsame|kx|exact HK1]. }
  apply wp_bind. destruct (blocked s); apply wp_upd; eapply G.
  - eapply (k_block none k 0 _ w _ BNone); [discriminate|exact HK].
  - apply k_cancel, HK.
Qed.
Lemma ev_signal k sig w : OK w -> wp (api_signal k sig) (fun _ => OK) w.
Proof.
  intros H. unfold api_signal, if_registered. apply wp_bind, wp_getc. destruct (find_key k (k_svcs (wc w))) as [s|] eqn:Ef; [|exact H].
  apply wp_when; intros _; [|exact H]. apply wp_bind, wp_kill, wp_ret, OK_emit; [discriminate..|exact H].
Qed.
Lemma ev_work w : OK w -> wp (c <- getc ;; when (k_work c) (modc (set_k_work false) ;;; step_all rec m_worker)) (fun _ => OK) w.
Proof.
  intros H. apply wp_bind, wp_getc. apply wp_when; intros _; [|exact H]. apply wp_bind, wp_modc. destruct H as (H1 & H2 & _). apply all_m; [intros []; reflexivity|exact H1|exact H2].
Qed.
Lemma ev_interval w : OK w -> wp interval (fun _ => OK) w.
Proof.
  intros H. unfold interval. apply wp_bind, wp_emit. unfold upd_all. apply wp_modc.
  apply (OK_all (fun s => if is_daemon s && st_eqb (s_state s) Running && (0 <? s_rcnt s) then set_s_rcnt (s_rcnt s - 1) s else s)).
  - intros s. destruct (_ && _); unfold alike; cbn; tauto.
  - apply OK_emit; [discriminate..|exact H].
Qed.
Lemma ev_gc k w : OK w -> wp (gc_one rec k) (fun _ => OK) w.
Proof.
  intros H. unfold gc_one. apply wp_bind, wp_getc. destruct (find_key k (k_gc (wc w))) as [s|] eqn:Ef; [|exact H].
  apply wp_bind, wp_modc. assert (H1 : OK (wmod (fun c => set_k_freed ((k, s_timer s) :: k_freed c)
      (set_k_gc (filter (fun t => negb (Nat.eqb (s_key t) k)) (k_gc c)) c)) w)) by (apply OK_mod; [inert|exact H]).
  apply wp_when; intros _; [apply o_clear, H1|exact H1].
Qed.
Lemma o_ready k b w : OK w -> wp (service_ready rec k b) (fun _ => OK) w.
Proof.
  intros H. destruct (find_key k (k_svcs (wc w))) as [s|] eqn:Ef.
  - eapply k_ready; [apply OK_K; eassumption|]. intros s' w' _ HK. eapply K_OK, HK.
  - unfold service_ready. apply wp_with_svc; [|intros _; apply OK_emit; [discriminate..|exact H]].
    intros s Hs. destruct (negb (is_daemon s)); [exact H|]. destruct b.
    + apply wp_bind. eapply wp_mono; [apply o_set, H|]. intros a w1 H1. apply wp_when; intros _; [|exact H1].
      unfold ready_script. apply wp_bind, wp_fork.
      * intros p Hp. destruct (p <? 0).
        { unfold wfork_ok. apply OK_mod; [inert|]. apply OK_mod; [inert|]. apply OK_emit; [discriminate..|]. apply OK_mod; [inert|exact H1]. }
        assert (H2 : OK (wfork_ok k FReady p w1)).
        { unfold wfork_ok. apply OK_mod; [inert|]. apply OK_mod; [inert|]. apply OK_emit; [discriminate..|]. apply OK_mod; [inert|exact H1]. }
        apply wp_bind, wp_modc. apply wp_with_svc; [|intros _; apply OK_emit; [discriminate..|]; apply OK_mod; [inert|exact H2]].
        intros s2 _. apply wp_upd, OK_alike; [apply f_timeout_key|intros; apply timeout_alike|]. apply OK_mod; [inert|exact H2].
      * unfold wfork_fail. apply OK_emit; [discriminate..|]. apply OK_mod; [inert|exact H1].
    + apply o_clear, H.
Qed.
Lemma o_gone k w : OK w -> wp (pidfile_gone rec k) (fun _ => OK) w.
Proof.
  intros H. unfold pidfile_gone. apply wp_with_svc; [|intros _; apply OK_emit; [discriminate..|exact H]].
  intros s Hs. apply wp_bind. eapply wp_mono; [apply o_clear, H|]. intros a w1 H1. destruct (c_notify (s_cf s)); try exact H1.
  apply o_ready, H1.
Qed.
Lemma starting_OK k b w : OK w -> OK (wupd k (set_s_starting b) w).
Proof. apply OK_alike; [reflexivity|]. intros s _. unfold alike. cbn. tauto. Qed.
Lemma ev_pidfile k p w : (forall c, Cok c -> c_forking c = false) -> OK w -> wp (pidfile_write rec k p) (fun _ => OK) w.
Proof.
  intros Hfk H. unfold pidfile_write, if_registered. apply wp_bind, wp_getc. destruct (find_key k (k_svcs (wc w))) as [s|] eqn:Ef; [|exact H].
  destruct (is_script_state (s_state s)); [exact H|]. destruct (st_eqb (s_state s) Stopping); [apply o_gone, H|].
  rewrite (Hfk (s_cf s)) by (apply (proj1 H k s Ef)).
  assert (G : forall w1, OK w1 -> wp (stop <- ret false ;; if stop then ret tt else
     (match c_notify (s_cf s) with NfPid => c_set rec (pidcond s) | _ => ret tt end) ;;;
     match c_notify (s_cf s) with NfPid | NfNone => service_ready rec k true | _ => ret tt end) (fun _ => OK) w1).
  { intros w1 H1. apply wp_bind, wp_ret, wp_bind. destruct (c_notify (s_cf s)); try (apply wp_ret; first [apply o_ready, H1|exact H1]).
    eapply wp_mono; [apply o_set, H1|]. intros a w2 H2. apply o_ready, H2. }
  apply wp_bind. destruct (c_notify (s_cf s)); try (apply wp_ret, G, H). apply wp_upd, G, starting_OK, H.
Qed.
Lemma ev_pidfile_del k w : OK w -> wp (pidfile_delete rec k) (fun _ => OK) w.
Proof.
  intros H. unfold pidfile_delete, if_registered. apply wp_bind, wp_getc. destruct (find_key k (k_svcs (wc w))) as [s|] eqn:Ef; [|exact H].
  destruct (is_script_state (s_state s)); [exact H|apply o_gone, H].
Qed.
Lemma ev_notify k w : OK w -> wp (notify_ready rec k) (fun _ => OK) w.
Proof.
  intros H. unfold notify_ready, if_registered. apply wp_bind, wp_getc. destruct (find_key k (k_svcs (wc w))) as [s|] eqn:Ef; [|exact H].
  destruct (c_notify (s_cf s)); try exact H; (apply wp_bind, wp_upd, o_ready, starting_OK, H).
Qed.

(** *** timers *)
Lemma o_script_kill k w : OK w -> wp (script_kill k) (fun _ => OK) w.
Proof.
  intros H. unfold script_kill. apply wp_bind, wp_getc, wp_bind.
  assert (G : forall l w1, OK w1 -> wp (script_kill_list k l) (fun _ => OK) w1).
  { induction l as [|[p q] l IH]; intros w1 H1; cbn [script_kill_list]; [exact H1|]. apply wp_bind. apply wp_when; intros _.
    - apply wp_bind, wp_kill, wp_ret, IH, OK_emit; [discriminate..|exact H1].
    - apply IH, H1. }
  eapply wp_mono; [apply G, H|]. intros a w1 H1. apply wp_modc, OK_mod; [inert|exact H1].
Qed.

Lemma wp_else {B} (c : bool) (a b : ST B) Q w : c = false -> wp b Q w -> wp (if c then a else b) Q w.
Proof. intros ->. auto. Qed.
Lemma k_running k s w0 w (Q : unit -> world -> Prop) : K (also k none) k 0 s w0 w -> s_state s <> Running ->
  T k ((wc w, EState k (s_state s) Running) :: wl w) ->
  (forall w', OK w' -> Q tt w') -> wp (set_state rec k Running) Q w.
Proof.
  intros HK Hs HT HQ. unfold set_state. eapply k_with; [exact HK|]. cbv zeta. cbn [st_eqb]. apply wp_bind, wp_ret.
  apply wp_else; [apply st_eqb_neq, Hs|]. apply wp_bind, wp_emit, wp_bind, wp_upd.
  apply (k_tail (less k none) k 0 (set_s_state Running s) w0).
  - apply k_settle.
    + apply (k_upd (also k none) k 0 s w0 _ (set_s_state Running)); [reflexivity|reflexivity|left; reflexivity|pidsame|kx|].
      apply k_emit; [discriminate| |exact HK]. intros j o n He. injection He as <- _ _. split; [reflexivity|left; reflexivity].
    + intros _. unfold still. cbn [s_state set_s_state]. right. right. cbn [s_key set_s_state].
      destruct HK as (_ & HF & _). rewrite (F_key _ _ _ HF). exact HT.
  - intros w' HK'. apply HQ. destruct HK' as ((B1 & _) & B2 & B3 & _ & B4). split; [exact B1|]. split; [exact B4|].
    eapply Sett_sub; [|exact B3]. split; [intros j c [_ []]|auto].
  - reflexivity.
Qed.

Lemma o_retry k s w : OK w -> F w k s -> (forall o, T k ((wc (wupd k (fun s => set_s_rtmo (s_rsaved s) s) (wupd k (set_s_timer TmNone) w)), EState k o Running) :: wl w)) ->
  wp (service_retry rec k) (fun _ => OK) w.
Proof.
  intros H HF HT. unfold service_retry. apply wp_bind, wp_upd, wp_bind, wp_getc.
  replace (k_norespawn (wc (wupd k (set_s_timer TmNone) w))) with false by (symmetry; apply H).
  assert (HK : K (also k none) k 0 (set_s_timer TmNone s) w (wupd k (set_s_timer TmNone) w)) by (apply k_cancel, OK_Ka; assumption).
  eapply k_with; [exact HK|]. cbn [s_cf set_s_timer s_state s_block s_rcnt].
  destruct (c_respawn (s_cf s)).
  { apply wp_bind, wp_upd. eapply o_step. eapply (k_block none k 0 _ w _ BNone); [discriminate|exact HK]. }
  destruct (negb (st_eqb (s_state s) Halted) || negb (blk_eqb (s_block s) BRestarting)).
  { apply wp_bind, wp_upd.
    assert (H2 : OK (wupd k (fun s => set_s_rtmo (s_rsaved s) s) (wupd k (set_s_timer TmNone) w))).
    { apply OK_alike; [reflexivity|intros; unfold alike; cbn; tauto|]. apply OK_alike; [reflexivity|intros; apply timer_alike|exact H]. }
    assert (HF2 : F (wupd k (fun s => set_s_rtmo (s_rsaved s) s) (wupd k (set_s_timer TmNone) w)) k (set_s_rtmo (s_rsaved s) (set_s_timer TmNone s))).
    { change (set_s_rtmo (s_rsaved s) (set_s_timer TmNone s)) with ((fun s => set_s_rtmo (s_rsaved s) s) (set_s_timer TmNone s)).
      apply F_upd_same; [reflexivity|]. apply F_upd_same; [reflexivity|exact HF]. }
    destruct (st_eqb (s_state s) Running) eqn:Er.
    - apply st_eqb_eq in Er. unfold set_state. eapply k_with; [apply OK_K; eassumption|]. cbv zeta. cbn [st_eqb]. apply wp_bind, wp_ret.
      cbn [s_state set_s_rtmo set_s_timer]. rewrite Er. exact H2.
    - apply st_eqb_neq in Er. eapply k_running; [eapply OK_Ka; [exact H2|exact HF2]|exact Er|apply HT|]. auto. }
  destruct (_ && _).
  - apply wp_bind, wp_emit, wp_bind, wp_upd.
    set (w1 := wupd k _ _).
    assert (HK1 : K (also k none) k 0 (set_s_block BCrashing (set_s_rcnt 0 (set_s_rtmo (s_rsaved s) (set_s_timer TmNone s)))) w w1).
    { apply (k_upd (also k none) k 0 (set_s_timer TmNone s) w _ (fun s => set_s_block BCrashing (set_s_rcnt 0 (set_s_rtmo (s_rsaved s) s))));
        [reflexivity|reflexivity|right; discriminate|pidsame|kx|]. apply ka_emit; [discriminate..|exact HK]. }
    apply wp_bind. destruct (c_oncrash (s_cf s)).
    + apply wp_ret. eapply o_step, HK1.
    + apply wp_emit. eapply o_step. apply ka_emit; [discriminate..|exact HK1].
    + apply wp_when; intros _; [|eapply o_step, HK1]. unfold post_script. eapply k_aux; [exact HK1|].
      intros s' w' _ _ HK'. eapply o_step, HK'.
  - apply wp_bind, wp_emit, wp_bind, wp_upd, wp_bind.
    eapply wp_mono.
    + eapply o_step. apply (k_upd (also k none) k 0 (set_s_timer TmNone s) w _ _); [| | | |kx|apply ka_emit; [discriminate..|exact HK]].
      * intros t. cbv zeta. cbn. destruct (_ =? 1); reflexivity.
      * cbv zeta. cbn. destruct (_ =? 1); reflexivity.
      * right. cbv zeta. cbn. discriminate.
      * intros _. left. cbv zeta. cbn. destruct (_ =? 1); reflexivity.
    + intros a w1 H1. apply wp_with_svc; [|intros _; apply OK_emit; [discriminate..|exact H1]].
      intros s1 _. apply wp_upd, OK_alike; [apply f_timeout_key|intros; apply timeout_alike|exact H1].
Qed.

Lemma ev_timer k w : OK w ->
  (forall p st w1, OK w1 -> keys (wc w1) = keys (wc w) -> alive (wc w1) p = false -> wp (rec (CMonitor p st)) (fun _ => OK) w1) ->
  (forall s ms, lookup_svc (wc w) k = Some s -> s_timer s = TmArmed TcRetry ms -> F w k s) ->
  (forall c o, T k ((c, EState k o Running) :: wl w)) ->
  wp (timer_fires rec k) (fun _ => OK) w.
Proof.
  intros H Hmon Hret HT. unfold timer_fires. apply wp_bind, wp_getc. destruct (lookup_svc (wc w) k) as [s|] eqn:El.
  2: { destruct (find _ _) as [[j t]|]; [|exact H]. destruct t; try exact H. apply wp_emit, OK_emit; [discriminate..|exact H]. }
  destruct (s_timer s) as [|cb ms|cb] eqn:Et; try exact H. apply wp_bind, wp_upd.
  assert (H1 : OK (wupd k (set_s_timer (TmStale cb)) w)) by (apply OK_alike; [reflexivity|intros; apply timer_alike|exact H]).
  destruct cb.
  - unfold service_kill. apply wp_bind, wp_upd.
    assert (H2 : OK (wupd k (set_s_timer TmNone) (wupd k (set_s_timer (TmStale TcKill)) w))) by (apply OK_alike; [reflexivity|intros; apply timer_alike|exact H1]).
    apply wp_with_svc; [|intros _; apply OK_emit; [discriminate..|exact H2]]. intros s2 _. apply wp_bind, wp_getc.
    destruct (s_pid s2 <=? 1); [exact H2|]. destruct (alive _ (s_pid s2)) eqn:Ea; cbn [negb]; [|apply Hmon; [exact H2|rewrite !keys_wupd by reflexivity; reflexivity|exact Ea]].
    apply wp_bind, wp_kill, wp_upd, OK_alike; [reflexivity|intros; unfold alike; cbn; tauto|]. apply OK_emit; [discriminate..|exact H2].
  - eapply o_retry; [exact H1|apply F_upd_same; [reflexivity|eapply Hret; eauto]|]. intros o. apply HT.
  - unfold kill_script. apply wp_with_svc; [|intros _; apply OK_emit; [discriminate..|exact H1]]. intros s2 _.
    destruct (s_pid s2 <=? 1); [exact H1|]. apply wp_bind, wp_kill, wp_ret, OK_emit; [discriminate..|exact H1].
  - apply o_script_kill, H1.
Qed.

(** *** what follows a step of the runlevel state machine *)
Lemma OK_del k f w : (forall t, s_key (f t) = s_key t) -> OK w -> OK (wmod (CoreMicro.c_del k) (wupd k f w)).
Proof.
  intros Hf (A1 & A2 & A3).
  assert (HF : forall j t, F (wmod (CoreMicro.c_del k) (wupd k f w)) j t -> F w j t).
  { intros j t Hj. assert (Hjk : Nat.eqb j k = false).
    { destruct (Nat.eqb j k) eqn:E; [|reflexivity]. exfalso. apply Nat.eqb_eq in E. subst j. unfold F, wmod in Hj. cbn [wc] in Hj. unfold CoreMicro.c_del in Hj.
      destruct (find_key k (k_svcs (wc (wupd k f w)))) eqn:Ef; [|congruence].
      cbn [k_svcs set_k_svcs] in Hj. apply find_key_in in Hj. destruct Hj as [Hj Ek]. apply filter_In in Hj.
      destruct Hj as [_ Hj]. rewrite Ek, Nat.eqb_refl in Hj. discriminate. }
    assert (HU : F (wupd k f w) j t).
    { unfold F, wmod in *. cbn [wc] in Hj. unfold CoreMicro.c_del in Hj. destruct (find_key k (k_svcs (wc (wupd k f w)))) eqn:Ef; [|exact Hj].
      cbn [k_svcs set_k_svcs] in Hj. revert Hj. generalize (k_svcs (wc (wupd k f w))). unfold find_key. intros l.
      induction l as [|a l IH]; [auto|]. cbn [filter find]. destruct (Nat.eqb (s_key a) k) eqn:E1; cbn [negb].
      - apply Nat.eqb_eq in E1. rewrite E1, Nat.eqb_sym, Hjk. exact IH.
      - cbn [find]. destruct (Nat.eqb (s_key a) j); [auto|exact IH]. }
    apply F_upd in HU; [|exact Hf]. rewrite Hjk in HU. exact HU. }
  assert (HE : forall B (g : core -> B), (forall c l m, g (set_k_svcs l (set_k_gc m c)) = g c) -> g (wc (wmod (CoreMicro.c_del k) (wupd k f w))) = g (wc w)).
  { intros B g Hg. unfold wmod, wupd, cupd, CoreMicro.c_del. cbn [wc]. destruct (find_key _ _); cbn [wmod wc]; rewrite ?Hg; reflexivity. }
  split; [|split].
  - intros j t Hj. unfold alive. rewrite (HE _ k_procs) by reflexivity. exact (A1 _ _ (HF _ _ Hj)).
  - unfold steady. rewrite (HE _ k_sm), (HE _ k_down), (HE _ k_inrl), (HE _ k_norespawn) by reflexivity. exact A2.
  - intros j t Hj Hpl Hnx. apply still_mod; [apply (HE _ k_rl)|apply (HE _ k_boot)|apply (HE _ k_cond)|intros HW; rewrite <- HW; apply (HE _ k_work)|]; try reflexivity.
    apply still_mod; [reflexivity|reflexivity|reflexivity|intros HW; exact HW|]. exact (A3 _ _ (HF _ _ Hj) Hpl Hnx).
Qed.
Lemma o_clean k w : OK w -> wp (clean_bootstrap k) (fun _ => OK) w.
Proof.
  intros H. unfold clean_bootstrap. apply wp_with_svc; [|intros _; apply OK_emit; [discriminate..|exact H]].
  intros s _. apply wp_when; intros _; [|exact H]. apply wp_bind. apply wp_when; intros _.
  - apply wp_emit, wp_bind, wp_upd. unfold svc_del. apply wp_modc. apply (OK_del k (set_s_pid 0)); [reflexivity|].
    apply OK_emit; [discriminate..|exact H].
  - apply wp_bind, wp_upd. unfold svc_del. apply wp_modc. apply (OK_del k (set_s_pid 0)); [reflexivity|exact H].
Qed.
Lemma o_prune w : OK w -> wp prune_bootstrap (fun _ => OK) w.
Proof.
  intros H. unfold prune_bootstrap. apply wp_bind, wp_getc. apply (wp_loop OK); [|exact H].
  intros k w1 _ H1. apply wp_bind, wp_getc. destruct (find_key k (k_svcs (wc w1))); [|exact H1].
  apply wp_when; intros _; [apply o_clean, H1|exact H1].
Qed.
Lemma o_hook h w : h <> HkReconf -> OK w -> wp (run_hook rec h) (fun _ => OK) w.
Proof.
  intros Hh H. unfold run_hook. apply wp_bind, wp_emit, wp_bind.
  assert (G : forall w, OK w -> wp (c_oneshot rec (hook_cond h) ;;; step_all rec m_runtask) (fun _ => OK) w).
  { clear w H. intros w H. apply wp_bind. eapply wp_mono; [apply o_oneshot, H|]. intros a w1 H1. apply o_all, H1. }
  destruct h; try contradiction; (apply wp_ret, G, OK_emit; [discriminate..|exact H]).
Qed.
Lemma o_networking up w : OK w -> wp (networking rec up) (fun _ => OK) w.
Proof.
  intros H. unfold networking. apply wp_bind, wp_getc. destruct (_ && _); [exact H|].
  destruct up; (apply o_hook; [discriminate|exact H]).
Qed.
Lemma o_script_del p w : OK w -> wp (script_del p) (fun _ => OK) w.
Proof.
  intros H. unfold script_del. apply wp_bind, wp_getc. destruct (find _ (k_assoc (wc w))) as [[q k]|]; [|exact H].
  assert (G : forall w, OK w -> wp (do_kill k (- q) 9 ;;;
      modc (fun c => set_k_assoc (filter (fun a => negb (Z.eqb (fst a) p)) (k_assoc c)) c)) (fun _ => OK) w).
  { clear w H. intros w H. apply wp_bind, wp_kill, wp_modc, OK_mod; [inert|]. apply OK_emit; [discriminate..|exact H]. }
  apply wp_bind. apply wp_with_svc.
  - intros s _. apply wp_upd, G, OK_alike; [reflexivity|intros; apply timer_alike|exact H].
  - intros _. apply G, OK_emit; [discriminate..|exact H].
Qed.

End Settle.

(** ** every call *)
Section Calls.
Variable rank : string -> nat.
Variable Cok : cfg -> Prop.
Hypothesis Hacyc : forall s t n, Cok (s_cf s) -> Cok (s_cf t) -> owns s n ->
  cond_affects n (c_cond (s_cf t)) = true -> (rank (ident s) < rank (ident t))%nat.
Hypothesis Hshort : forall c n, Cok c -> In n (c_cond c) -> (String.length n < 43)%nat.
Hypothesis Hnoconf : forall c, Cok c -> c_conflict c = [].
Variable T : nat -> log -> Prop.
Hypothesis Text : forall k l c e, T k l -> (forall o n, e <> EState k o n) -> T k ((c, e) :: l).

Lemma calls_sp n :
  (forall k ch wa w X r s, fit Cok w -> steady (wc w) -> F w k s -> (r <= rank (ident s))%nat ->
     Sett T (loud ch X) w -> wp (exec n (CStep k ch wa)) (fun _ => NB rank Cok T (less k X) r w) w) /\
  (forall m w X r, fit Cok w -> steady (wc w) -> Crank rank m r w ->
     Sett T X w -> wp (exec n (CUpdate m)) (fun _ => NB rank Cok T (unaffs m X) r w) w).
Proof.
  induction n as [|n [IH1 IH2]]; [split; intros; exact Logic.I|].
  split; intros; cbn [exec body]; apply wp_bind, wp_getc;
    (replace (k_down (wc w)) with false by (symmetry; match goal with H : steady _ |- _ => apply H end)).
  - eapply step_sp; eauto.
  - eapply update_sp; eauto.
Qed.
End Calls.
