(** Re-reading the configuration, as a function. *)
From Coq Require Import List String Ascii ZArith NArith Bool Lia Arith.
From Coq Require Import ZifyBool ZifyNat.
From Verif Require Import CondModel CoreTypes CoreModel CoreLib CoreMicro CoreSpec CoreSpecE CoreIdent.
Import ListNotations.
Local Open Scope Z_scope.

Definition accepts (r : reg) (c : core) : bool :=
  ifthen_conf (k_svcs c) (c_ifconf (r_cfg r)) &&
  negb (only_boot (c_levels (r_cfg r)) && negb (k_rl c =? 10)) &&
  negb (mem_str (ident_of (c_name (r_cfg r)) (c_id (r_cfg r))) (k_unavail c)).
Definition reg1 (r : reg) (c : core) : core :=
  if accepts r c then
    match find_ident (c_name (r_cfg r)) (c_id (r_cfg r)) (k_svcs c) with
    | None => set_k_next (S (k_next c)) (set_k_svcs (k_svcs c ++ [fresh_svc (k_next c) r]) c)
    | Some s0 => cupd (s_key s0) (f_rereg r) c
    end
  else c.
Definition regs1 (l : list reg) (c : core) : core := fold_left (fun c r => reg1 r c) l c.
Definition rdep1 (k : nat) (c : core) : core :=
  match find_key k (k_svcs c) with
  | Some s => if s_dirty s && noreload s then f_all (fun _ => f_affected (pidcond s)) c else c
  | None => c
  end.
Definition rdeps1 (l : list nat) (c : core) : core := fold_left (fun c k => rdep1 k c) l c.
Definition rdeps (c : core) : core := rdeps1 (keys c) c.
Definition reload1 (c : core) : core :=
  f_all f_unavail (rdeps (regs1 (k_conf c) (f_all (fun _ => svc_mark) c))).

Lemma register_eq r w : register r w = Some (tt, mkWorld (reg1 r (wc w)) (wl w)).
Proof.
  unfold register, reg1, accepts, bind, getc.
  destruct (ifthen_conf (k_svcs (wc w)) (c_ifconf (r_cfg r))); cbn [negb andb]; [|destruct w; reflexivity].
  destruct (only_boot (c_levels (r_cfg r)) && negb (k_rl (wc w) =? 10)); cbn [negb andb]; [destruct w; reflexivity|].
  destruct (mem_str _ (k_unavail (wc w))); cbn [negb andb]; [destruct w; reflexivity|].
  destruct (find_ident _ _ _); reflexivity.
Qed.
Lemma register_all_eq l w : register_all l w = Some (tt, mkWorld (regs1 l (wc w)) (wl w)).
Proof.
  revert w. induction l as [|r l IH]; intros w; [destruct w; reflexivity|].
  cbn [register_all]. unfold bind at 1. rewrite register_eq, IH. reflexivity.
Qed.
Lemma rdeps_eq l w :
  foreach l (fun k =>
    c <- getc ;;
    match find_key k (k_svcs c) with
    | Some s =>
        when (s_dirty s && noreload s)
          (upd_all (fun _ t => if has_cond t && cond_affects (pidcond s) (c_cond (s_cf t))
                               then set_s_dirty true t else t))
    | None => ret tt
    end) w = Some (tt, mkWorld (rdeps1 l (wc w)) (wl w)).
Proof.
  revert w. induction l as [|k l IH]; intros w; [destruct w; reflexivity|].
  cbn [foreach]. unfold bind at 1. unfold bind at 1, getc at 1.
  change (rdeps1 (k :: l) (wc w)) with (rdeps1 l (rdep1 k (wc w))). unfold rdep1.
  destruct (find_key k (k_svcs (wc w))) as [s|]; [|unfold ret; rewrite IH; reflexivity].
  destruct (s_dirty s && noreload s); unfold when, upd_all, modc, ret; rewrite IH; reflexivity.
Qed.
Lemma conf_reload_eq w :
  conf_reload w = Some (tt, mkWorld (c_confdone (reload1 (wc w)))
                             ((reload1 (wc w), EReconfEnd) :: (wc w, EReconf) :: wl w)).
Proof.
  unfold conf_reload. unfold bind at 1, emit at 1. unfold bind at 1, upd_all at 1, modc at 1.
  unfold bind at 1, getc at 1. unfold bind at 1. rewrite register_all_eq. cbn [wc wl].
  unfold bind at 1. unfold update_rdeps. unfold bind at 1, getc at 1. rewrite rdeps_eq. reflexivity.
Qed.

(** ** One step of registration *)

Record wf (c : core) : Prop := {
  wf_keys : NoDup (map s_key (k_svcs c ++ k_gc c));
  wf_nids : NoDup (map nid (k_svcs c));
  wf_next : forall s, In s (k_svcs c ++ k_gc c) -> (s_key s < k_next c)%nat
}.

Definition framed (c c' : core) : Prop := exists n l, c' = set_k_next n (set_k_svcs l c).
Lemma framed_refl c : framed c c.
Proof. exists (k_next c), (k_svcs c). destruct c; reflexivity. Qed.
Lemma framed_trans a b c : framed a b -> framed b c -> framed a c.
Proof. intros (n & l & ->) (n' & l' & ->). exists n', l'. destruct a; reflexivity. Qed.
Lemma framed_back c c' : framed c c' -> set_k_next (k_next c) (set_k_svcs (k_svcs c) c') = c.
Proof. intros (n & l & ->). destruct c; reflexivity. Qed.
Lemma framed_get c c' : framed c c' -> k_gc c' = k_gc c /\ k_rl c' = k_rl c /\ k_unavail c' = k_unavail c /\ k_conf c' = k_conf c.
Proof. intros (n & l & ->). repeat split; reflexivity. Qed.

Lemma names_nid r s : names r s <-> nid s = (c_name (r_cfg r), c_id (r_cfg r)).
Proof. unfold names, nid. split; [intros [-> ->]; reflexivity|]. intros E. inversion E; split; congruence. Qed.
Lemma nid_rereg r s : nid (f_rereg r s) = (c_name (r_cfg r), c_id (r_cfg r)).
Proof. apply nid_fin. Qed.
Lemma key_fin r h a s : s_key (f_fin r h a s) = s_key s.
Proof.
  unfold f_fin. destruct (is_runtask_t _ && _), (r_changed r || a), (r_static r); reflexivity.
Qed.
Lemma key_rereg r s : s_key (f_rereg r s) = s_key s.
Proof. unfold f_rereg. rewrite key_fin. destruct (c_manual _); reflexivity. Qed.
Lemma key_fresh k r : s_key (fresh_svc k r) = k.
Proof. unfold fresh_svc. rewrite key_fin. destruct (c_manual _); reflexivity. Qed.
Lemma nid_fresh k r : nid (fresh_svc k r) = (c_name (r_cfg r), c_id (r_cfg r)).
Proof. apply nid_fin. Qed.

(** the records a stanza goes through while [l] is registered *)
Inductive wt (c : core) : list reg -> svc -> svc -> Prop :=
  | wt_nil s : wt c [] s s
  | wt_skip r l s s' : ~ (names r s /\ taken c r) -> wt c l s s' -> wt c (r :: l) s s'
  | wt_go r l s s' : names r s -> wt c l (f_rereg r s) s' -> wt c (r :: l) s s'.

Definition fresh_of (c : core) (l : list reg) (s' : svc) : Prop :=
  exists k r l1 l2, l = l1 ++ r :: l2 /\ (k_next c <= k)%nat /\ wt c l2 (fresh_svc k r) s'.

Lemma taken_accepts r c c' : taken c r -> k_rl c' = k_rl c -> k_unavail c' = k_unavail c -> accepts r c' = true.
Proof.
  intros (A & B & C) E1 E2. unfold accepts. rewrite A, E1, E2, C. cbn [ifthen_conf forallb negb andb].
  rewrite andb_true_r. destruct (only_boot (c_levels (r_cfg r))) eqn:Eb; [|reflexivity].
  rewrite (B eq_refl). reflexivity.
Qed.

Lemma gc_fresh k f c : wf c -> In k (keys c) -> map_key k f (k_gc c) = k_gc c.
Proof.
  intros [H _ _] Hk. unfold map_key. rewrite <- (map_id (k_gc c)) at 2. apply map_ext_in.
  intros t Ht. destruct (Nat.eqb (s_key t) k) eqn:E; [|reflexivity]. apply Nat.eqb_eq in E. exfalso.
  rewrite map_app in H. unfold keys in Hk. apply in_split in Hk. destruct Hk as (a & b & Ek).
  rewrite Ek in H. rewrite <- app_assoc in H. apply NoDup_remove_2 in H. apply H.
  rewrite !in_app_iff. right. right. rewrite <- E. apply in_map, Ht.
Qed.

Lemma reg1_framed r c : wf c -> framed c (reg1 r c).
Proof.
  intros H. unfold reg1. destruct (accepts r c); [|apply framed_refl].
  destruct (find_ident _ _ _) as [s0|] eqn:E; [|do 2 eexists; reflexivity].
  apply find_ident_some in E. destruct E as [E _]. unfold cupd. rewrite gc_fresh; [|exact H|apply in_map, E].
  exists (k_next c), (map_key (s_key s0) (f_rereg r) (k_svcs c)). destruct c; reflexivity.
Qed.

Lemma nodup_in_eq l a b : NoDup (map nid l) -> In a l -> In b l -> nid a = nid b -> a = b.
Proof.
  induction l as [|x l IH]; [intros _ []|]. cbn [map]. intros H Ha Hb E. inversion H; subst.
  destruct Ha as [->|Ha], Hb as [->|Hb]; auto.
  - exfalso. apply H2. rewrite E. apply in_map, Hb.
  - exfalso. apply H2. rewrite <- E. apply in_map, Ha.
Qed.
Lemma nodup_key_eq l a b : NoDup (map s_key l) -> In a l -> In b l -> s_key a = s_key b -> a = b.
Proof.
  induction l as [|x l IH]; [intros _ []|]. cbn [map]. intros H Ha Hb E. inversion H; subst.
  destruct Ha as [->|Ha], Hb as [->|Hb]; auto.
  - exfalso. apply H2. rewrite E. apply in_map, Hb.
  - exfalso. apply H2. rewrite <- E. apply in_map, Ha.
Qed.
Lemma nodup_app_l {A} (a b : list A) : NoDup (a ++ b) -> NoDup a.
Proof.
  induction a as [|x a IH]; cbn [List.app]; intros H; [constructor|]. inversion H; subst. constructor; [|auto].
  intros Hx. apply H2, in_app_iff. left; exact Hx.
Qed.
Lemma wf_svcs c : wf c -> NoDup (map s_key (k_svcs c)).
Proof. intros [H _ _]. rewrite map_app in H. exact (nodup_app_l _ _ H). Qed.

Lemma reg1_wf r c : wf c -> wf (reg1 r c).
Proof.
  intros H. pose proof (framed_get _ _ (reg1_framed r c H)) as (Eg & _). unfold reg1 in *.
  destruct (accepts r c); [|exact H].
  destruct (find_ident _ _ _) as [s0|] eqn:E.
  - pose proof (find_ident_some _ _ _ _ E) as [Hin Hn].
    assert (Ek : forall l, map s_key (map_key (s_key s0) (f_rereg r) l) = map s_key l).
    { intros l. unfold map_key. rewrite map_map. apply map_ext. intros t. destruct (Nat.eqb _ _); [apply key_rereg|reflexivity]. }
    destruct H as [H1 H2 H3]. constructor.
    + rewrite Eg. cbn [cupd set_k_svcs k_svcs]. rewrite map_app, Ek, <- map_app. exact H1.
    + cbn [cupd set_k_svcs k_svcs]. rewrite (nids_rereg r s0); [exact H2| |exact H2|exact Hin|exact Hn].
      rewrite map_app in H1. exact (nodup_app_l _ _ H1).
    + rewrite Eg. cbn [cupd set_k_svcs set_k_gc k_svcs k_next]. intros s Hs. apply in_app_iff in Hs. destruct Hs as [Hs|Hs].
      * unfold map_key in Hs. apply in_map_iff in Hs. destruct Hs as (t & Et & Ht).
        assert (Ekk : s_key s = s_key t) by (rewrite <- Et; destruct (Nat.eqb _ _); [apply key_rereg|reflexivity]).
        rewrite Ekk. apply H3, in_app_iff. left; exact Ht.
      * apply H3, in_app_iff. right; exact Hs.
  - destruct H as [H1 H2 H3]. cbn [set_k_next set_k_svcs k_svcs k_gc k_next] in *. constructor; cbn [set_k_next set_k_svcs k_svcs k_gc k_next].
    + rewrite <- app_assoc. rewrite map_app in *. cbn [List.app map]. rewrite key_fresh.
      apply NoDup_Add with (a := k_next c) (l := map s_key (k_svcs c) ++ map s_key (k_gc c)); [apply Add_app|].
      split; [exact H1|]. intros Hk. rewrite <- map_app in Hk. apply in_map_iff in Hk. destruct Hk as (t & Et & Ht).
      apply H3 in Ht. lia.
    + rewrite map_app. cbn [map]. rewrite nid_fresh.
      apply NoDup_Add with (a := (c_name (r_cfg r), c_id (r_cfg r))) (l := map nid (k_svcs c)).
      * rewrite <- (app_nil_r (map nid (k_svcs c))) at 1. apply Add_app.
      * split; [exact H2|]. apply find_ident_none, E.
    + intros s Hs. rewrite !in_app_iff in Hs. destruct Hs as [[Hs|[<-|[]]]|Hs].
      * specialize (H3 s). rewrite in_app_iff in H3. specialize (H3 (or_introl Hs)). lia.
      * rewrite key_fresh. lia.
      * specialize (H3 s). rewrite in_app_iff in H3. specialize (H3 (or_intror Hs)). lia.
Qed.

Lemma Forall2_map_self {A} (R : A -> A -> Prop) f l : (forall x, In x l -> R x (f x)) -> Forall2 R l (map f l).
Proof. induction l as [|x l IH]; intros H; [constructor|]. cbn [map]. constructor; [apply H; left; reflexivity|apply IH; intros y Hy; apply H; right; exact Hy]. Qed.

(** one entry *)
Definition step1 (c : core) (r : reg) (s s' : svc) : Prop :=
  s' = s /\ ~ (names r s /\ taken c r) \/ names r s /\ s' = f_rereg r s.
Lemma reg1_step r c : wf c -> exists new, k_svcs (reg1 r c) = map (fun s => if accepts r c && existsb (fun s => String.eqb (c_name (s_cf s)) (c_name (r_cfg r)) && String.eqb (c_id (s_cf s)) (c_id (r_cfg r))) [s] then f_rereg r s else s) (k_svcs c) ++ new /\
  (new = [] \/ new = [fresh_svc (k_next c) r]) /\ (k_next c <= k_next (reg1 r c))%nat.
Proof.
  intros H. unfold reg1. destruct (accepts r c).
  2:{ exists []. rewrite app_nil_r. split; [|auto]. rewrite <- (map_id (k_svcs c)) at 1. apply map_ext. reflexivity. }
  cbn [andb]. destruct (find_ident _ _ _) as [s0|] eqn:E.
  - exists []. rewrite app_nil_r. split; [|split; [auto|cbn; lia]]. cbn [cupd set_k_svcs k_svcs]. unfold map_key.
    apply find_ident_some in E. destruct E as [E1 E2].
    apply map_ext_in. intros s Hs. cbn [existsb]. rewrite orb_false_r.
    destruct (Nat.eqb (s_key s) (s_key s0)) eqn:Ek.
    + apply Nat.eqb_eq in Ek. assert (s = s0) by (eapply nodup_key_eq; [apply wf_svcs, H|..]; assumption). subst s.
      unfold nid in E2. inversion E2 as [[A B]]. rewrite !String.eqb_refl. reflexivity.
    + destruct (_ && _) eqn:Eb; [|reflexivity]. apply andb_prop in Eb. destruct Eb as [B1 B2].
      apply String.eqb_eq in B1, B2. exfalso. apply Nat.eqb_neq in Ek. apply Ek. f_equal.
      eapply nodup_in_eq; [apply (wf_nids _ H)|..]; try assumption. rewrite E2. unfold nid. congruence.
  - exists [fresh_svc (k_next c) r]. split; [|split; [auto|cbn; lia]]. cbn [set_k_next set_k_svcs k_svcs]. f_equal.
    rewrite <- (map_id (k_svcs c)) at 1. apply map_ext_in. intros s Hs. cbn [existsb]. rewrite orb_false_r.
    destruct (_ && _) eqn:Eb; [|reflexivity]. apply andb_prop in Eb. destruct Eb as [B1 B2].
    apply String.eqb_eq in B1, B2. exfalso. apply find_ident_none in E. apply E. rewrite <- B1, <- B2.
    apply (in_map nid) in Hs. exact Hs.
Qed.

Lemma regs1_spec c0 l c : wf c -> framed c0 c -> exists l' news, k_svcs (regs1 l c) = l' ++ news /\
  Forall2 (wt c0 l) (k_svcs c) l' /\
  Forall (fun s' => exists k r l1 l2, l = l1 ++ r :: l2 /\ (k_next c <= k)%nat /\ wt c0 l2 (fresh_svc k r) s') news /\
  wf (regs1 l c) /\ framed c0 (regs1 l c).
Proof.
  revert c. induction l as [|r l IH]; intros c Hw Hf.
  { exists (k_svcs c), []. rewrite app_nil_r. split; [reflexivity|]. split; [|split; [constructor|split; assumption]].
    rewrite <- (map_id (k_svcs c)) at 2. apply Forall2_map_self. intros s _. constructor. }
  change (regs1 (r :: l) c) with (regs1 l (reg1 r c)).
  destruct (reg1_step r c Hw) as (new & E1 & E2 & E3).
  assert (Hf1 : framed c0 (reg1 r c)) by (eapply framed_trans; [exact Hf|apply reg1_framed, Hw]).
  destruct (IH (reg1 r c) (reg1_wf r c Hw) Hf1) as (l' & news & A & B & C & D & F).
  rewrite E1 in B. apply Forall2_app_inv_l in B. destruct B as (la & lb & B1 & B2 & ->).
  exists la, (lb ++ news). split; [rewrite A, app_assoc; reflexivity|]. split; [|split; [|split; assumption]].
  - clear - B1 Hf. remember (k_svcs c) as ls eqn:El. clear El. revert la B1.
    induction ls as [|s ls IHs]; intros la B1; cbn [map] in B1; inversion B1; subst; constructor; [|apply IHs; assumption].
    cbn [existsb] in H1. rewrite orb_false_r in H1.
    destruct (accepts r c && (String.eqb (c_name (s_cf s)) (c_name (r_cfg r)) && String.eqb (c_id (s_cf s)) (c_id (r_cfg r)))) eqn:Eb.
    + apply andb_prop in Eb. destruct Eb as [_ Eb]. apply andb_prop in Eb. destruct Eb as [B2 B3].
      apply String.eqb_eq in B2, B3. apply wt_go; [split; congruence|exact H1].
    + apply wt_skip; [|exact H1]. intros [[N1 N2] Ht].
      pose proof (framed_get _ _ Hf) as (_ & F1 & F2 & _).
      rewrite (taken_accepts r c0 c Ht F1 F2), N1, N2, !String.eqb_refl in Eb. discriminate.
  - apply Forall_app. split.
    + destruct E2 as [->| ->]; [inversion B2; constructor|].
      inversion B2 as [|x y xs ys H1 H2 Hx Hy]; subst. inversion H2; subst. constructor; [|constructor].
      exists (k_next c), r, [], l. split; [reflexivity|]. split; [lia|exact H1].
    + eapply Forall_impl; [|exact C]. intros s' (k & r' & l1 & l2 & -> & Hk & Hw').
      exists k, r', (r :: l1), l2. split; [reflexivity|]. split; [lia|exact Hw'].
Qed.

(** ** What registration does to one record *)

Lemma fin_fields r h a s :
  s_state (f_fin r h a s) = s_state s /\ s_pid (f_fin r h a s) = s_pid s /\ s_oldpid (f_fin r h a s) = s_oldpid s /\
  s_starting (f_fin r h a s) = s_starting s /\ s_started (f_fin r h a s) = s_started s /\
  s_status (f_fin r h a s) = s_status s /\ s_rcnt (f_fin r h a s) = s_rcnt s /\ s_rtot (f_fin r h a s) = s_rtot s /\
  s_rsaved (f_fin r h a s) = s_rsaved s /\ s_timer (f_fin r h a s) = s_timer s /\ s_killed (f_fin r h a s) = s_killed s /\
  s_cf (f_fin r h a s) = set_c_sighup h (r_cfg r) /\ s_removed (f_fin r h a s) = false /\
  s_dirty (f_fin r h a s) = r_changed r || a /\ s_adirty (f_fin r h a s) = a /\ s_block (f_fin r h a s) = s_block s.
Proof.
  unfold f_fin. destruct (is_runtask_t _ && _), (r_changed r), a, (r_static r); cbn; repeat split; reflexivity.
Qed.

Lemma ident_nid s s' : nid s' = nid s -> ident s' = ident s.
Proof. unfold nid, ident. intros E. inversion E as [[A B]]. rewrite A, B. reflexivity. Qed.

Lemma sp_refl s : same_process s s.
Proof. unfold same_process. repeat split. Qed.
Lemma sp_trans a b c : same_process a b -> same_process b c -> same_process a c.
Proof. unfold same_process. intuition congruence. Qed.
Lemma sp_rereg r s : names r s -> same_process s (f_rereg r s).
Proof.
  intros H. unfold same_process. rewrite key_rereg.
  assert (I0 : c_name (s_cf (f_rereg r s)) = c_name (s_cf s) /\ c_id (s_cf (f_rereg r s)) = c_id (s_cf s)).
  { pose proof (nid_rereg r s) as E. apply names_nid in H. rewrite <- H in E. unfold nid in E. inversion E; auto. }
  split; [reflexivity|]. split; [exact I0|]. unfold f_rereg.
  pose proof (fin_fields r) as F.
  match goal with |- context [f_fin r ?h ?a ?t] => specialize (F h a t) end.
  destruct F as (F1 & F2 & F3 & F4 & F5 & F6 & F7 & F8 & F9 & F10 & F11 & _).
  rewrite F1, F2, F3, F4, F5, F6, F7, F8, F9, F10, F11. destruct (c_manual _); repeat split; reflexivity.
Qed.
Lemma sp_mark s : same_process s (svc_mark s).
Proof. unfold svc_mark. destruct (s_protect s); [apply sp_refl|]. unfold same_process. repeat split. Qed.

Lemma rereg_fields r s :
  s_cf (f_rereg r s) = set_c_sighup (c_sighup (s_cf (f_rereg r s))) (r_cfg r) /\
  (is_daemon_t (c_type (r_cfg r)) = true -> c_sighup (s_cf (f_rereg r s)) = c_sighup (r_cfg r)) /\
  s_removed (f_rereg r s) = false /\
  s_dirty (f_rereg r s) = r_changed r || negb (String.eqb (c_args (r_cfg r)) (c_args (s_cf s))) /\
  s_adirty (f_rereg r s) = negb (String.eqb (c_args (r_cfg r)) (c_args (s_cf s))) /\
  s_block (f_rereg r s) = (if c_manual (r_cfg r) then s_block s else BNone) /\
  c_args (s_cf (f_rereg r s)) = c_args (r_cfg r).
Proof.
  unfold f_rereg. pose proof (fin_fields r) as F.
  match goal with |- context [f_fin r ?h ?a ?t] => specialize (F h a t) end.
  destruct F as (_ & _ & _ & _ & _ & _ & _ & _ & _ & _ & _ & F1 & F2 & F3 & F4 & F5).
  rewrite F1, F2, F3, F4, F5.
  assert (E : s_cf (if c_manual (r_cfg r) then s else set_s_block BNone s) = s_cf s) by (destruct (c_manual _); reflexivity).
  rewrite E. split; [reflexivity|]. split; [intros ->; reflexivity|]. split; [reflexivity|]. split; [reflexivity|].
  split; [reflexivity|]. split; [destruct (c_manual _); reflexivity|reflexivity].
Qed.

Lemma names_rereg r x s : names r s -> (names x (f_rereg r s) <-> names x s).
Proof.
  rewrite !names_nid, nid_rereg. intros ->. split; auto.
Qed.

Lemma eqb_neq_args a b : negb (String.eqb a b) = true <-> a <> b.
Proof. rewrite negb_true_iff. apply String.eqb_neq. Qed.

Lemma wt_sp c l s s' : wt c l s s' -> same_process s s'.
Proof.
  induction 1 as [s|r l s s' H1 H2 IH|r l s s' H1 H2 IH]; [apply sp_refl|exact IH|].
  eapply sp_trans; [apply sp_rereg, H1|exact IH].
Qed.
Lemma wt_nid c l s s' : wt c l s s' -> nid s' = nid s.
Proof.
  induction 1 as [s|r l s s' H1 H2 IH|r l s s' H1 H2 IH]; [reflexivity|exact IH|].
  rewrite IH, nid_rereg. symmetry. apply names_nid, H1.
Qed.
Lemma wt_none c l s s' : wt c l s s' -> (forall r, In r l -> ~ names r s) -> s' = s.
Proof.
  induction 1 as [s|r l s s' H1 H2 IH|r l s s' H1 H2 IH]; intros Hn; [reflexivity| |].
  - apply IH. intros x Hx. apply Hn. right; exact Hx.
  - exfalso. apply (Hn r); [left; reflexivity|exact H1].
Qed.
Lemma wt_entry c l1 r l2 s s' : wt c (l1 ++ r :: l2) s s' -> names r s -> taken c r ->
  (forall x, In x (l1 ++ l2) -> ~ names x s) -> s' = f_rereg r s.
Proof.
  revert s. induction l1 as [|y l1 IH]; intros s H Hn Ht Hx; cbn [List.app] in *.
  - inversion H as [|? ? ? ? A B|? ? ? ? A B]; subst; [exfalso; apply A; split; assumption|].
    eapply wt_none; [exact B|]. intros x Hin Hnx. apply (Hx x Hin). apply (names_rereg r x s Hn), Hnx.
  - inversion H as [|? ? ? ? A B|? ? ? ? A B]; subst.
    + apply IH; [assumption..|]. intros x Hin. apply Hx. right; exact Hin.
    + exfalso. apply (Hx y); [left; reflexivity|exact A].
Qed.
Lemma wt_cases c l s s' : wt c l s s' ->
  s' = s /\ (forall r, In r l -> ~ (names r s /\ taken c r)) \/
  (s_dirty s' = true -> exists r, In r l /\ names r s /\ edited r s) /\
  (s_adirty s' = true -> exists r, In r l /\ names r s /\ c_args (r_cfg r) <> c_args (s_cf s)).
Proof.
  induction 1 as [s|r l s s' H1 H2 IH|r l s s' H1 H2 IH].
  - left. split; [reflexivity|]. intros r [].
  - destruct IH as [[-> IH]|[IH1 IH2]].
    + left. split; [reflexivity|]. intros x [<-|Hx]; [exact H1|apply IH, Hx].
    + right. split; intros Hd.
      * destruct (IH1 Hd) as (x & A & B). exists x. split; [right; exact A|exact B].
      * destruct (IH2 Hd) as (x & A & B). exists x. split; [right; exact A|exact B].
  - destruct (rereg_fields r s) as (_ & _ & _ & F1 & F2 & _ & F3).
    right. destruct IH as [[-> IH]|[IH1 IH2]].
    + split; intros Hd.
      * exists r. split; [left; reflexivity|]. split; [exact H1|]. rewrite F1 in Hd. apply orb_prop in Hd.
        destruct Hd as [Hd|Hd]; [left; exact Hd|right; apply eqb_neq_args, Hd].
      * exists r. split; [left; reflexivity|]. split; [exact H1|]. rewrite F2 in Hd. apply eqb_neq_args, Hd.
    + assert (K : forall x, names x s -> c_args (r_cfg x) <> c_args (r_cfg r) ->
        c_args (r_cfg x) <> c_args (s_cf s) \/ c_args (r_cfg r) <> c_args (s_cf s)).
      { intros x _ Hne. destruct (string_dec (c_args (r_cfg x)) (c_args (s_cf s))) as [E|E]; [|left; exact E].
        right. congruence. }
      split; intros Hd.
      * destruct (IH1 Hd) as (x & A & B & C). apply (names_rereg r x s H1) in B. destruct C as [C|C].
        -- exists x. split; [right; exact A|]. split; [exact B|left; exact C].
        -- rewrite F3 in C. destruct (K x B C) as [C'|C'].
           ++ exists x. split; [right; exact A|]. split; [exact B|right; exact C'].
           ++ exists r. split; [left; reflexivity|]. split; [exact H1|right; exact C'].
      * destruct (IH2 Hd) as (x & A & B & C). apply (names_rereg r x s H1) in B. rewrite F3 in C.
        destruct (K x B C) as [C'|C'].
        -- exists x. split; [right; exact A|]. split; [exact B|exact C'].
        -- exists r. split; [left; reflexivity|]. split; [exact H1|exact C'].
Qed.

(** ** Those that wait for it, and if: *)

Definition dp (s s' : svc) : Prop := s' = s \/ s' = set_s_dirty true s.
Lemma dp_refl s : dp s s. Proof. left; reflexivity. Qed.
Lemma dp_trans a b c : dp a b -> dp b c -> dp a c.
Proof. intros [->| ->] [->| ->]; [left|right|right|right]; try reflexivity; destruct a; reflexivity. Qed.
Lemma dp_affected n s : dp s (f_affected n s).
Proof. unfold f_affected. destruct (_ && _); [right|left]; reflexivity. Qed.
Lemma dp_key a b : dp a b -> s_key b = s_key a. Proof. intros [->| ->]; reflexivity. Qed.
Lemma dp_cf a b : dp a b -> s_cf b = s_cf a. Proof. intros [->| ->]; reflexivity. Qed.
Lemma dp_dirty a b : dp a b -> s_dirty a = true -> s_dirty b = true. Proof. intros [->| ->] H; [exact H|reflexivity]. Qed.

Lemma Forall2_trans' {A} (R : A -> A -> Prop) a b c :
  (forall x y z, R x y -> R y z -> R x z) -> Forall2 R a b -> Forall2 R b c -> Forall2 R a c.
Proof.
  intros Ht H. revert c. induction H as [|x y l l' H1 H2 IH]; intros c H; inversion H; subst; constructor; eauto.
Qed.
Lemma Forall2_in_l {A B} (R : A -> B -> Prop) l l' x : Forall2 R l l' -> In x l -> exists y, In y l' /\ R x y.
Proof.
  induction 1 as [|a b l l' H1 H2 IH]; intros Hx; [destruct Hx|]. destruct Hx as [->|Hx].
  - exists b. split; [left; reflexivity|exact H1].
  - destruct (IH Hx) as (y & A1 & A2). exists y. split; [right; exact A1|exact A2].
Qed.
Lemma Forall2_in_r {A B} (R : A -> B -> Prop) l l' y : Forall2 R l l' -> In y l' -> exists x, In x l /\ R x y.
Proof.
  induction 1 as [|a b l l' H1 H2 IH]; intros Hx; [destruct Hx|]. destruct Hx as [->|Hx].
  - exists a. split; [left; reflexivity|exact H1].
  - destruct (IH Hx) as (z & A1 & A2). exists z. split; [right; exact A1|exact A2].
Qed.

Lemma dp_self l : Forall2 dp l l.
Proof. induction l; constructor; [apply dp_refl|assumption]. Qed.
Lemma framed_all f c : framed c (f_all f c).
Proof. exists (k_next c), (map (f c) (k_svcs c)). unfold f_all. destruct c; reflexivity. Qed.
Lemma rdep1_dp k c : Forall2 dp (k_svcs c) (k_svcs (rdep1 k c)) /\ framed c (rdep1 k c).
Proof.
  assert (I0 : Forall2 dp (k_svcs c) (k_svcs c) /\ framed c c).
  { split; [|apply framed_refl]. apply dp_self. }
  unfold rdep1. destruct (find_key k (k_svcs c)) as [s|]; [|exact I0].
  destruct (s_dirty s && noreload s); [|exact I0]. split.
  - cbn [f_all set_k_svcs k_svcs]. apply Forall2_map_self. intros; apply dp_affected.
  - apply framed_all.
Qed.
Lemma rdeps1_dp l c : Forall2 dp (k_svcs c) (k_svcs (rdeps1 l c)) /\ framed c (rdeps1 l c).
Proof.
  revert c. induction l as [|k l IH]; intros c.
  - split; [|apply framed_refl]. apply dp_self.
  - change (rdeps1 (k :: l) c) with (rdeps1 l (rdep1 k c)). destruct (rdep1_dp k c) as [A B]. destruct (IH (rdep1 k c)) as [C D].
    split; [eapply Forall2_trans'; [exact dp_trans|exact A|exact C]|eapply framed_trans; eassumption].
Qed.

Lemma affects_in n l : cond_affects n l = true <-> In n l.
Proof.
  unfold cond_affects. rewrite existsb_exists. split.
  - intros (x & H & E). apply String.eqb_eq in E. subst. exact H.
  - intros H. exists n. split; [exact H|apply String.eqb_refl].
Qed.
Lemma noreload_no s : noreload s = true <-> no_reload s.
Proof.
  unfold noreload, no_reload. destruct (c_sighup (s_cf s)), (c_reload (s_cf s)); cbn; split; intros H; try discriminate H; auto;
    destruct H; discriminate.
Qed.

(** only dependants get marked *)
Lemma rdeps1_only l c (M : nat -> Prop) :
  (forall s, In s (k_svcs c) -> s_dirty s = true -> M (s_key s)) ->
  (forall s t, In s (k_svcs c) -> In t (k_svcs c) -> M (s_key s) -> no_reload s -> waits_for t s -> M (s_key t)) ->
  forall s, In s (k_svcs (rdeps1 l c)) -> s_dirty s = true -> M (s_key s).
Proof.
  revert c. induction l as [|k l IH]; intros c H1 H2; [exact H1|].
  change (rdeps1 (k :: l) c) with (rdeps1 l (rdep1 k c)).
  destruct (rdep1_dp k c) as [A _].
  assert (K : forall s t, dp s t -> no_reload t -> no_reload s) by (unfold no_reload; intros s t D; rewrite (dp_cf _ _ D); auto).
  assert (K2 : forall s t s' t', dp s s' -> dp t t' -> waits_for t' s' -> waits_for t s).
  { unfold waits_for, ident. intros s t s' t' D1 D2. rewrite (dp_cf _ _ D1), (dp_cf _ _ D2). auto. }
  apply IH.
  - intros s' Hs' Hd. unfold rdep1 in Hs'. destruct (find_key k (k_svcs c)) as [s|] eqn:Ef; [|apply H1; assumption].
    destruct (s_dirty s && noreload s) eqn:Eb; [|apply H1; assumption].
    apply andb_prop in Eb. destruct Eb as [B1 B2].
    cbn [f_all set_k_svcs k_svcs] in Hs'. apply in_map_iff in Hs'. destruct Hs' as (t & Et & Ht).
    unfold f_affected in Et. destruct (has_cond t && cond_affects (pidcond s) (c_cond (s_cf t))) eqn:Ea.
    + subst s'. change (s_key (set_s_dirty true t)) with (s_key t). apply find_key_in in Ef. destruct Ef as [F1 F2].
      apply (H2 s t F1 Ht); [apply H1; assumption|apply noreload_no, B2|].
      apply andb_prop in Ea. destruct Ea as [_ Ea]. apply affects_in in Ea. exact Ea.
    + subst s'. apply H1; assumption.
  - intros s' t' Hs Ht HM Hn Hw.
    destruct (Forall2_in_r _ _ _ _ A Hs) as (s & S1 & S2). destruct (Forall2_in_r _ _ _ _ A Ht) as (t & T1 & T2).
    rewrite (dp_key _ _ T2). apply (H2 s t S1 T1); [rewrite <- (dp_key _ _ S2); exact HM|eapply K; eauto|eapply K2; eauto].
Qed.

Lemma f2_keys (R : svc -> svc -> Prop) l l' : (forall a b, R a b -> s_key b = s_key a) -> Forall2 R l l' -> map s_key l' = map s_key l.
Proof. intros Hk. induction 1; [reflexivity|]. cbn [map]. f_equal; [apply Hk; assumption|assumption]. Qed.

(** and all of those that wait for one that will be restarted *)
Lemma rdeps1_all l c s : NoDup (map s_key (k_svcs c)) -> In s (k_svcs c) -> s_dirty s = true -> no_reload s ->
  In (s_key s) l -> forall t, In t (k_svcs (rdeps1 l c)) -> waits_for t s -> s_dirty t = true.
Proof.
  revert c s. induction l as [|k l IH]; intros c s Hnd Hs Hd Hn Hin; [destruct Hin|].
  change (rdeps1 (k :: l) c) with (rdeps1 l (rdep1 k c)).
  destruct (rdep1_dp k c) as [A _]. pose proof (f2_keys _ _ _ dp_key A) as Ek.
  destruct (Nat.eq_dec (s_key s) k) as [E|E].
  - intros t Ht Hw. destruct (rdeps1_dp l (rdep1 k c)) as [B _].
    destruct (Forall2_in_r _ _ _ _ B Ht) as (t1 & T1 & T2).
    eapply dp_dirty; [exact T2|]. unfold rdep1 in T1.
    assert (Ef : find_key k (k_svcs c) = Some s).
    { subst k. clear - Hnd Hs. unfold find_key. induction (k_svcs c) as [|x ls IHl]; [destruct Hs|]. cbn [find map] in *.
      inversion Hnd; subst. destruct Hs as [->|Hs]; [rewrite Nat.eqb_refl; reflexivity|].
      destruct (Nat.eqb (s_key x) (s_key s)) eqn:Ex; [|apply IHl; assumption].
      apply Nat.eqb_eq in Ex. exfalso. apply H1. rewrite Ex. apply in_map, Hs. }
    rewrite Ef, Hd in T1. rewrite (proj2 (noreload_no s) Hn) in T1. cbn [andb f_all set_k_svcs k_svcs] in T1.
    apply in_map_iff in T1. destruct T1 as (t0 & E0 & _). subst t1. unfold f_affected in *.
    assert (Hw0 : In (pidcond s) (c_cond (s_cf t0))).
    { unfold waits_for in Hw. rewrite (dp_cf _ _ T2) in Hw. destruct (has_cond t0 && _); exact Hw. }
    rewrite (proj2 (affects_in _ _) Hw0). unfold has_cond.
    destruct (c_cond (s_cf t0)) eqn:Ec; [destruct Hw0|reflexivity].
  - destruct Hin as [->|Hin]; [congruence|].
    destruct (Forall2_in_l _ _ _ _ A Hs) as (s1 & S1 & S2). intros t Ht Hw.
    apply (IH (rdep1 k c) s1); try assumption.
    + rewrite Ek. exact Hnd.
    + eapply dp_dirty; eauto.
    + unfold no_reload. rewrite (dp_cf _ _ S2). exact Hn.
    + rewrite (dp_key _ _ S2). exact Hin.
    + unfold waits_for, ident in *. rewrite (dp_cf _ _ S2). exact Hw.
Qed.

(** ** All of it *)

Definition mk_rel (s s' : svc) : Prop := s' = s \/ s' = svc_mark s.
Lemma mark_fields s : s_cf (svc_mark s) = s_cf s /\ s_key (svc_mark s) = s_key s /\ nid (svc_mark s) = nid s /\
  s_dirty (svc_mark s) = s_dirty s /\ s_adirty (svc_mark s) = s_adirty s /\ s_block (svc_mark s) = s_block s /\
  s_protect (svc_mark s) = s_protect s /\ s_removed (svc_mark s) = s_removed s || negb (s_protect s).
Proof. unfold svc_mark. destruct s as [k cf st bl p op d ad rm pr stg std stt on rc rt rtm rs tm ki]; destruct pr, rm; cbn; repeat split; reflexivity. Qed.

Lemma wf_mark c : wf c -> wf (f_all (fun _ => svc_mark) c).
Proof.
  intros [H1 H2 H3]. unfold f_all.
  assert (E1 : map s_key (map svc_mark (k_svcs c)) = map s_key (k_svcs c)).
  { rewrite map_map. apply map_ext. intros s. apply mark_fields. }
  assert (E2 : map nid (map svc_mark (k_svcs c)) = map nid (k_svcs c)).
  { rewrite map_map. apply map_ext. intros s. apply mark_fields. }
  constructor; cbn [set_k_svcs k_svcs k_gc k_next].
  - rewrite map_app, E1, <- map_app. exact H1.
  - rewrite E2. exact H2.
  - intros s Hs. apply in_app_iff in Hs. destruct Hs as [Hs|Hs].
    + apply in_map_iff in Hs. destruct Hs as (t & <- & Ht). destruct (mark_fields t) as (_ & -> & _).
      apply H3, in_app_iff. left; exact Ht.
    + apply H3, in_app_iff. right; exact Hs.
Qed.

(** from a record after registration to the end *)
Definition late (c4 : core) (s s' : svc) : Prop := exists t, dp s t /\ s' = f_unavail c4 t.
Lemma unavail_rel c t : mk_rel t (f_unavail c t).
Proof. unfold f_unavail. destruct (ifthen_conf _ _); [left|right]; reflexivity. Qed.
Lemma mk_rel_fields s s' : mk_rel s s' -> s_cf s' = s_cf s /\ s_key s' = s_key s /\
  s_dirty s' = s_dirty s /\ s_adirty s' = s_adirty s /\ s_block s' = s_block s /\ s_protect s' = s_protect s.
Proof. intros [->| ->]; [repeat split; reflexivity|]. destruct (mark_fields s) as (? & ? & ? & ? & ? & ? & ? & ?). repeat split; assumption. Qed.
Lemma late_fields c4 s s' : late c4 s s' -> s_cf s' = s_cf s /\ s_key s' = s_key s /\
  (s_dirty s = true -> s_dirty s' = true) /\ s_adirty s' = s_adirty s /\ s_block s' = s_block s /\ s_protect s' = s_protect s.
Proof.
  intros (t & D & ->). destruct (mk_rel_fields _ _ (unavail_rel c4 t)) as (A1 & A2 & A3 & A4 & A5 & A6).
  rewrite A1, A2, A3, A4, A5, A6. destruct D as [->| ->]; repeat split; auto.
Qed.
Lemma sp_late c4 s s' : late c4 s s' -> same_process s s'.
Proof.
  intros (t & D & ->). apply sp_trans with (b := t).
  - destruct D as [->| ->]; [apply sp_refl|unfold same_process; repeat split].
  - destruct (unavail_rel c4 t) as [->| ->]; [apply sp_refl|apply sp_mark].
Qed.
Lemma late_removed c4 s s' : late c4 s s' -> s_removed s' = s_removed s || s_removed s' /\
  (c_ifconf (s_cf s) = [] -> s_removed s' = s_removed s) /\
  (s_removed s = true \/ s_protect s = true -> s_removed s' = s_removed s).
Proof.
  intros (t & D & ->).
  assert (E : s_removed t = s_removed s /\ s_cf t = s_cf s /\ s_protect t = s_protect s) by (destruct D as [->| ->]; repeat split; reflexivity).
  destruct E as (E1 & E2 & E3). rewrite <- E1, <- E2, <- E3. unfold f_unavail.
  destruct (mark_fields t) as (_ & _ & _ & _ & _ & _ & M1 & M2).
  destruct (ifthen_conf (k_svcs c4) (c_ifconf (s_cf t))) eqn:Ei.
  - split; [destruct (s_removed t); reflexivity|]. auto.
  - rewrite M2. split; [destruct (s_removed t), (s_protect t); reflexivity|]. split.
    + intros E. rewrite E in Ei. discriminate Ei.
    + intros [->| ->]; [reflexivity|]. destruct (s_removed t); reflexivity.
Qed.

Lemma split_unique {A} (Pn : A -> Prop) l1 r l2 a1 r0 a2 : l1 ++ r :: l2 = a1 ++ r0 :: a2 -> Pn r ->
  (forall x, In x (a1 ++ a2) -> ~ Pn x) -> l1 = a1 /\ r = r0 /\ l2 = a2.
Proof.
  revert a1. induction l1 as [|x l1 IH]; intros [|y a1] E Hp Ha; cbn [List.app] in E; inversion E; subst.
  - auto.
  - exfalso. apply (Ha y); [left; reflexivity|exact Hp].
  - exfalso. apply (Ha r); [|exact Hp]. change (In r (l1 ++ r :: l2)). apply in_app_iff. right. left. reflexivity.
  - assert (Ha' : forall z, In z (a1 ++ a2) -> ~ Pn z) by (intros z Hz; apply Ha; right; exact Hz).
    match goal with H : l1 ++ r :: l2 = _ |- _ => destruct (IH a1 H Hp Ha') as (U1 & U2 & U3) end. subst. auto.
Qed.

Lemma reload1_spec c : wf c -> reloaded c (reload1 c).
Proof.
  intros Hw. set (c1 := f_all (fun _ => svc_mark) c).
  assert (Hf1 : framed c c1) by apply framed_all.
  destruct (regs1_spec c (k_conf c) c1 (wf_mark c Hw) Hf1) as (l' & news & A & B & C & D & F).
  set (c3 := regs1 (k_conf c) c1) in *.
  destruct (rdeps1_dp (keys c3) c3) as [G1 G2]. fold (rdeps c3) in G1, G2.
  set (c4 := rdeps c3) in *.
  assert (E5 : reload1 c = f_all f_unavail c4) by reflexivity.
  assert (Hf5 : framed c (reload1 c)).
  { rewrite E5. eapply framed_trans; [exact F|]. eapply framed_trans; [exact G2|]. apply framed_all. }
  (* every record after registration, to the end *)
  assert (HL : Forall2 (late c4) (k_svcs c3) (k_svcs (reload1 c))).
  { rewrite E5. cbn [f_all set_k_svcs k_svcs]. clear - G1. induction G1 as [|x y l l' H1 H2 IH]; cbn [map]; constructor; [|exact IH].
    exists y. split; [exact H1|reflexivity]. }
  assert (Ekeys : map s_key (k_svcs (reload1 c)) = map s_key (k_svcs c3)).
  { apply f2_keys with (R := late c4); [|exact HL]. intros a b Hab. apply (late_fields c4 a b Hab). }
  assert (Hold : forall s, In s (k_svcs c) -> exists s3 s5, wt c (k_conf c) (svc_mark s) s3 /\ In s3 (k_svcs c3) /\
    late c4 s3 s5 /\ In s5 (k_svcs (reload1 c)) /\ s_key s5 = s_key s).
  { intros s Hs.
    destruct (Forall2_in_l _ _ _ (svc_mark s) B) as (s3 & S1 & S2); [cbn [c1 f_all set_k_svcs k_svcs]; apply in_map, Hs|].
    assert (S3 : In s3 (k_svcs c3)) by (rewrite A; apply in_app_iff; left; exact S1).
    destruct (Forall2_in_l _ _ _ _ HL S3) as (s5 & S4 & S5).
    exists s3, s5. repeat (split; [assumption|]).
    destruct (late_fields _ _ _ S5) as (_ & -> & _). destruct (wt_sp _ _ _ _ S2) as (-> & _). apply mark_fields. }
  assert (Hback : forall s5, In s5 (k_svcs (reload1 c)) -> exists s3, In s3 (k_svcs c3) /\ late c4 s3 s5 /\
    ((exists s, In s (k_svcs c) /\ wt c (k_conf c) (svc_mark s) s3 /\ s_key s5 = s_key s) \/
     (exists k r l1 l2, k_conf c = l1 ++ r :: l2 /\ (k_next c <= k)%nat /\ wt c l2 (fresh_svc k r) s3 /\ s_key s5 = k))).
  { intros s5 H5. destruct (Forall2_in_r _ _ _ _ HL H5) as (s3 & S1 & S2). exists s3. split; [exact S1|]. split; [exact S2|].
    destruct (late_fields _ _ _ S2) as (_ & Ek & _).
    rewrite A in S1. apply in_app_iff in S1. destruct S1 as [S1|S1].
    - left. destruct (Forall2_in_r _ _ _ _ B S1) as (s1 & T1 & T2). cbn [c1 f_all set_k_svcs k_svcs] in T1.
      apply in_map_iff in T1. destruct T1 as (s & <- & Hs). exists s. split; [exact Hs|]. split; [exact T2|].
      rewrite Ek. destruct (wt_sp _ _ _ _ T2) as (-> & _). apply mark_fields.
    - right. rewrite Forall_forall in C. destruct (C _ S1) as (k & r & l1 & l2 & T1 & T2 & T3).
      exists k, r, l1, l2. split; [exact T1|]. split; [exact T2|]. split; [exact T3|].
      rewrite Ek. destruct (wt_sp _ _ _ _ T3) as (-> & _). apply key_fresh. }
  assert (Hnew : forall k, (k_next c <= k)%nat -> forall s, In s (k_svcs c) -> s_key s <> k).
  { intros k Hk s Hs Ek. pose proof (wf_next _ Hw s) as Hn. rewrite in_app_iff in Hn. specialize (Hn (or_introl Hs)). lia. }
  assert (Huniq : forall s t, In s (k_svcs c) -> In t (k_svcs c) -> s_key s = s_key t -> s = t).
  { intros s t Hs Ht. apply (nodup_key_eq (k_svcs c)); [apply wf_svcs, Hw|exact Hs|exact Ht]. }
  assert (Hnm : forall s x, names x (svc_mark s) <-> names x s).
  { intros s x. unfold names. destruct (mark_fields s) as (-> & _). reflexivity. }
  assert (Hfol : forall s r s3, In s (k_svcs c) -> the_entry c s r -> taken c r -> wt c (k_conf c) (svc_mark s) s3 -> s3 = f_rereg r (svc_mark s)).
  { intros s r s3 Hs (Hn & l1 & l2 & El & Hx) Ht Hwt. rewrite El in Hwt.
    eapply wt_entry; [exact Hwt|apply Hnm, Hn|exact Ht|]. intros x Hin Hxn. apply (Hx x Hin), Hnm, Hxn. }
  constructor.
  - (* kept *)
    intros s Hs. destruct (Hold s Hs) as (s3 & s5 & S1 & S2 & S3 & S4 & S5). exists s5. split; [exact S4|].
    split; [eapply sp_trans; [apply sp_mark|]; eapply sp_trans; [eapply wt_sp, S1|eapply sp_late, S3]|].
    destruct (late_fields _ _ _ S3) as (L1 & L2 & L3 & L4 & L5 & L6).
    destruct (mark_fields s) as (M1 & M2 & M3 & M4 & M5 & M6 & M7 & M8). split.
    + intros Hno. assert (E3 : s3 = svc_mark s).
      { eapply wt_none; [exact S1|]. intros r Hr Hnr. apply (Hno r Hr), Hnm, Hnr. }
      subst s3. rewrite L1, L5, L6, M1, M6, M7. repeat (split; [reflexivity|]).
      destruct (late_removed _ _ _ S3) as (_ & _ & R3). rewrite R3, M8; [reflexivity|].
      rewrite M8, M7. destruct (s_removed s), (s_protect s); auto.
    + intros r He Ht. pose proof (Hfol s r s3 Hs He Ht S1) as ->.
      destruct (rereg_fields r (svc_mark s)) as (R1 & R2 & R3 & R4 & R5 & R6 & R7).
      assert (EC : s_cf s5 = set_c_sighup (c_sighup (s_cf s5)) (r_cfg r)) by (rewrite L1; exact R1).
      unfold follows. split; [exact EC|].
      split. { intros Hd. rewrite L1. apply R2. unfold is_daemon, ty in Hd. rewrite EC in Hd. exact Hd. }
      split.
      { destruct (late_removed _ _ _ S3) as (_ & R & _). rewrite R; [exact R3|]. rewrite R1. cbn [set_c_sighup c_ifconf]. apply Ht. }
      split.
      { intros He'. apply L3. rewrite R4. rewrite M1. destruct He' as [->|He']; [reflexivity|].
        rewrite (proj2 (eqb_neq_args _ _) He'). apply orb_true_r. }
      split.
      { intros He'. rewrite L4, R5, M1. apply eqb_neq_args, He'. }
      rewrite L5, R6, M6. reflexivity.
  - (* new *)
    intros s5 H5 Hk. destruct (Hback s5 H5) as (s3 & S1 & S2 & [(s & Hs & _ & Ek)|(k & r & l1 & l2 & T1 & T2 & T3 & T4)]).
    { exfalso. exact (Hk s Hs (eq_sym Ek)). }
    destruct (sp_late _ _ _ S2) as (_ & _ & P1 & P2 & _). destruct (wt_sp _ _ _ _ T3) as (_ & _ & Q1 & Q2 & _).
    rewrite P1, P2, Q1, Q2. unfold fresh_svc.
    match goal with |- context [f_fin r ?h ?a ?t] => destruct (fin_fields r h a t) as (U1 & U2 & _) end.
    rewrite U1, U2. split; [destruct (c_manual _); reflexivity|]. split; [destruct (c_manual _); reflexivity|].
    assert (Hn5 : names r s5).
    { apply names_nid. unfold nid. destruct (late_fields _ _ _ S2) as (-> & _). change (nid s3 = (c_name (r_cfg r), c_id (r_cfg r))).
      rewrite (wt_nid _ _ _ _ T3). apply nid_fresh. }
    split; [exists r; split; [rewrite T1; apply in_app_iff; right; left; reflexivity|exact Hn5]|].
    intros r0 (Hr0 & a1 & a2 & Ea & Ha) Ht0. rewrite T1 in Ea.
    destruct (split_unique (fun x => names x s5) l1 r l2 a1 r0 a2 Ea Hn5 Ha) as (-> & -> & ->).
    assert (Ecf : nid s5 = nid (fresh_svc k r0)).
    { rewrite <- (wt_nid _ _ _ _ T3). unfold nid. destruct (late_fields _ _ _ S2) as (-> & _). reflexivity. }
    assert (E3 : s3 = fresh_svc k r0).
    { eapply wt_none; [exact T3|]. intros x Hx Hnx. apply (Ha x); [apply in_app_iff; right; exact Hx|].
      apply names_nid. rewrite Ecf. apply names_nid, Hnx. }
    subst s3. destruct (late_removed _ _ _ S2) as (_ & R & _). unfold fresh_svc in *.
    match type of R with context [f_fin r0 ?h ?a ?t] => destruct (fin_fields r0 h a t) as (_ & _ & _ & _ & _ & _ & _ & _ & _ & _ & _ & V1 & V2 & _) end.
    rewrite R; [exact V2|]. rewrite V1. apply Ht0.
  - (* marked *)
    intros s5 H5 Hd.
    set (M := marked c (reload1 c) (fun k => exists s, In s (k_svcs c) /\ s_key s = k /\ s_dirty s = true)).
    rewrite E5 in H5. cbn [f_all set_k_svcs k_svcs] in H5. apply in_map_iff in H5. destruct H5 as (s4 & E4 & H4).
    destruct (mk_rel_fields _ _ (unavail_rel c4 s4)) as (_ & K1 & K2 & _). rewrite E4 in K1, K2.
    rewrite K1. rewrite K2 in Hd. apply (rdeps1_only (keys c3) c3 M); try assumption.
    + intros s3 H3 Hd3.
      destruct (Forall2_in_l _ _ _ _ HL H3) as (s6 & H6 & L6).
      destruct (late_fields _ _ _ L6) as (_ & Ek & _). rewrite <- Ek.
      rewrite A in H3. apply in_app_iff in H3. destruct H3 as [H3|H3].
      * destruct (Forall2_in_r _ _ _ _ B H3) as (s1 & T1 & T2). cbn [c1 f_all set_k_svcs k_svcs] in T1.
        apply in_map_iff in T1. destruct T1 as (s & <- & Hs).
        assert (Ek2 : s_key s6 = s_key s) by (rewrite Ek; destruct (wt_sp _ _ _ _ T2) as (-> & _); apply mark_fields).
        destruct (mark_fields s) as (M1 & M2 & M3 & M4 & _).
        rewrite Ek2. destruct (wt_cases _ _ _ _ T2) as [[-> Hno]|[Hy _]].
        -- apply mk_still; [exists s; rewrite M4 in Hd3; auto|]. intros s' r Hs' Hk He Ht.
           assert (s' = s) by (apply Huniq; assumption). subst s'. destruct He as (Hn & l1 & l2 & El & _).
           apply (Hno r); [rewrite El; apply in_app_iff; right; left; reflexivity|]. split; [apply Hnm, Hn|exact Ht].
        -- destruct (Hy Hd3) as (r & Hr & Hn & He). apply (mk_edited _ _ _ s r Hs Hr); [apply Hnm, Hn|].
           unfold edited in *. rewrite M1 in He. exact He.
      * rewrite Forall_forall in C. destruct (C _ H3) as (k & r & l1 & l2 & T1 & T2 & T3).
        apply mk_new; [exact H6|]. intros s Hs. apply Hnew; [|exact Hs]. rewrite Ek.
        destruct (wt_sp _ _ _ _ T3) as (-> & _). rewrite key_fresh. exact T2.
    + intros s3 t3 Hs3 Ht3 HM Hn Hwt.
      destruct (Forall2_in_l _ _ _ _ HL Hs3) as (s6 & H6 & L6). destruct (Forall2_in_l _ _ _ _ HL Ht3) as (t6 & H7 & L7).
      destruct (late_fields _ _ _ L6) as (F6 & K6 & _). destruct (late_fields _ _ _ L7) as (F7 & K7 & _).
      rewrite <- K7. apply (mk_depends _ _ _ s6 t6 H6 H7); [rewrite K6; exact HM| |].
      * unfold no_reload. rewrite F6. exact Hn.
      * unfold waits_for, ident. rewrite F6, F7. exact Hwt.
  - (* remarked *)
    intros s5 H5 Hd. destruct (Hback s5 H5) as (s3 & S1 & S2 & [(s & Hs & Hwt & Ek)|(k & r & l1 & l2 & T1 & T2 & T3 & T4)]).
    2:{ apply rm_new; [exact H5|]. rewrite T4. apply Hnew, T2. }
    rewrite Ek. destruct (late_fields _ _ _ S2) as (_ & _ & _ & L4 & _). rewrite L4 in Hd.
    destruct (mark_fields s) as (M1 & M2 & M3 & M4 & M5 & _).
    destruct (wt_cases _ _ _ _ Hwt) as [[-> Hno]|[_ Hy]].
    + apply rm_still; [exists s; rewrite M5 in Hd; auto|]. intros s' r Hs' Hk He Ht.
      assert (s' = s) by (apply Huniq; assumption). subst s'. destruct He as (Hn & l1 & l2 & El & _).
      apply (Hno r); [rewrite El; apply in_app_iff; right; left; reflexivity|]. split; [apply Hnm, Hn|exact Ht].
    + destruct (Hy Hd) as (r & Hr & Hn & He). apply (rm_edited _ _ _ s r Hs Hr); [apply Hnm, Hn|]. rewrite M1 in He. exact He.
  - (* dependants *)
    intros s r s5 t5 Hs He Ht Hed H5 Hk Hn5 H6 Hwt.
    destruct (Hold s Hs) as (s3 & s5' & S1 & S2 & S3 & S4 & S5).
    assert (s5' = s5).
    { apply (nodup_key_eq (k_svcs (reload1 c))); try assumption; [|congruence].
      rewrite Ekeys. apply wf_svcs, D. }
    subst s5'. pose proof (Hfol s r s3 Hs He Ht S1) as E3.
    destruct (late_fields _ _ _ S3) as (L1 & _).
    assert (Hd3 : s_dirty s3 = true).
    { rewrite E3. destruct (rereg_fields r (svc_mark s)) as (_ & _ & _ & R4 & _). rewrite R4.
      destruct (mark_fields s) as (-> & _). destruct Hed as [->|Hed]; [reflexivity|].
      rewrite (proj2 (eqb_neq_args _ _) Hed). apply orb_true_r. }
    rewrite E5 in H6. cbn [f_all set_k_svcs k_svcs] in H6. apply in_map_iff in H6. destruct H6 as (t4 & E4 & H4).
    destruct (mk_rel_fields _ _ (unavail_rel c4 t4)) as (K1 & _ & K2 & _). rewrite E4 in K1, K2. rewrite K2.
    apply (rdeps1_all (keys c3) c3 s3); try assumption.
    + apply wf_svcs, D.
    + unfold no_reload in *. rewrite <- L1. exact Hn5.
    + unfold keys. apply in_map, S2.
    + unfold waits_for, ident in *. rewrite K1, L1 in Hwt. exact Hwt.
  - apply framed_back, Hf5.
Qed.

Lemma reload1_keys c : wf c -> NoDup (map s_key (k_svcs (reload1 c))).
Proof.
  intros Hw. set (c1 := f_all (fun _ => svc_mark) c).
  destruct (regs1_spec c (k_conf c) c1 (wf_mark c Hw) (framed_all _ c)) as (l' & news & A & B & C & D & F).
  set (c3 := regs1 (k_conf c) c1) in *. destruct (rdeps1_dp (keys c3) c3) as [G1 G2]. fold (rdeps c3) in G1, G2.
  change (NoDup (map s_key (k_svcs (f_all f_unavail (rdeps c3))))).
  cbn [f_all set_k_svcs k_svcs]. rewrite map_map.
  rewrite (map_ext _ s_key) by (intros t; apply (mk_rel_fields _ _ (unavail_rel (rdeps c3) t))).
  rewrite (f2_keys dp _ _ dp_key G1). apply wf_svcs, D.
Qed.
