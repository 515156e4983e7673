(** Proofs about device conditions. *)
From Coq Require Import List String Ascii NArith ZArith Bool Lia.
From Coq Require Import ZifyBool ZifyNat ZifyN.
From Verif Require Import CondModel CondSpec CondProof NetModel NetProof DevModel DevSpec.
Import ListNotations.
Local Open Scope string_scope.

Lemma cond_op_step c o : cond_op c o = CondProof.step c o.
Proof. destruct o; reflexivity. Qed.

(** ** Names *)
Lemma file_slash n : file_name n -> slashes n = 0.
Proof.
  intros [_ H]. induction n as [|c n IH]; [reflexivity|]. cbn in *. rewrite IH by tauto.
  destruct (Ascii.eqb c "/") eqn:E; [|reflexivity]. apply Ascii.eqb_eq in E. subst. tauto.
Qed.
Lemma has_slash_iff s : has_slash s = negb (Nat.eqb (slashes s) 0).
Proof. induction s as [|c s IH]; [reflexivity|]. cbn. rewrite IH. destruct (Ascii.eqb c "/"); reflexivity. Qed.
Lemma app_cons_inj a b x y : slashes a = 0 -> slashes b = 0 -> a ++ "/" ++ x = b ++ "/" ++ y -> a = b /\ x = y.
Proof.
  revert b. induction a as [|c a IH]; intros [|d b] A B H; cbn in *.
  - inversion H. auto.
  - inversion H; subst. discriminate B.
  - inversion H; subst. discriminate A.
  - inversion H; subst. destruct (Ascii.eqb d "/"); [discriminate A|]. destruct (IH b A B H2). subst. auto.
Qed.
Lemma app_inj_l (p a b : string) : p ++ a = p ++ b -> a = b.
Proof. induction p as [|c p IH]; cbn; [auto|]. intros H. inversion H. auto. Qed.
Lemma dev_name_inj d n d' n' : file_dir d -> file_name n -> file_dir d' -> file_name n' ->
  dev_name d n = dev_name d' n' -> d = d' /\ n = n'.
Proof.
  intros D N D' N' H. apply file_slash in N, N'.
  destruct d as [a|], d' as [b|]; cbn [dev_name file_dir] in *; apply app_inj_l in H.
  - apply file_slash in D, D'. apply app_cons_inj in H; try assumption. destruct H. subst. auto.
  - rewrite <- H in N'. rewrite !slashes_app in N'. cbn in N'. lia.
  - rewrite H in N. rewrite !slashes_app in N. cbn in N. lia.
  - subst. auto.
Qed.
Lemma dev_name_slashes d n : file_dir d -> file_name n -> slashes (dev_name d n) <= 2.
Proof.
  intros D N. apply file_slash in N. destruct d as [a|]; cbn [dev_name file_dir] in *; rewrite ?slashes_app, ?N.
  - apply file_slash in D. rewrite D. cbn. lia.
  - cbn. lia.
Qed.
Lemma dev_name_prefix d n : String.prefix "dev/" (dev_name d n) = true.
Proof. apply prefix_app. destruct d as [a|]; eexists; reflexivity. Qed.
Lemma dev_name_not d n : file_name n -> dev_name d n <> "dev/".
Proof.
  intros [N _] H. destruct d as [a|]; cbn [dev_name] in H; change "dev/" with ("dev/" ++ "") in H at 2; apply app_inj_l in H.
  - destruct a; discriminate H.
  - congruence.
Qed.
Lemma last_slash_app a c : last_slash (a ++ String c "") = Ascii.eqb c "/".
Proof.
  unfold last_slash. rewrite app_length. cbn [String.length]. rewrite Nat.add_1_r.
  assert (S : substring (String.length a) 1 (a ++ String c "") = String c "") by (induction a; cbn; auto). rewrite S. cbn. destruct (Ascii.eqb c "/"); reflexivity.
Qed.
Lemma snoc_string s : s <> "" -> exists a c, s = a ++ String c "".
Proof.
  induction s as [|c s IH]; [congruence|]. intros _. destruct s as [|d s].
  - exists "", c. reflexivity.
  - destruct IH as (a & x & E); [discriminate|]. exists (String c a), x. cbn. rewrite <- E. reflexivity.
Qed.
Lemma str_app_assoc (a b c : string) : (a ++ b) ++ c = a ++ b ++ c.
Proof. induction a; cbn; congruence. Qed.
Lemma last_slash_dir a : file_name a -> last_slash ("/dev/" ++ a) = false.
Proof.
  intros N. pose proof (file_slash a N) as S. destruct N as [N _]. destruct (snoc_string a N) as (b & c & ->). rewrite <- str_app_assoc, last_slash_app.
  rewrite slashes_app in S. cbn in S. destruct (Ascii.eqb c "/"); [lia|reflexivity].
Qed.
Lemma no_slash_first n : file_name n -> String.prefix "/" n = false.
Proof.
  intros [_ N]. destruct (String.prefix "/" n) eqn:E; [|reflexivity]. apply prefix_app in E. destruct E as (r & ->). exfalso. apply N. cbn. auto.
Qed.
Lemma paste_name d n : file_dir d -> file_name n -> paste (dir_path d) n = "/" ++ dev_name d n.
Proof.
  intros D N. unfold paste. destruct d as [a|]; cbn [dir_path file_dir dev_name] in *.
  - rewrite (last_slash_dir a D), (no_slash_first n N). reflexivity.
  - reflexivity.
Qed.
Lemma scan_name d n f : file_dir d -> file_name n -> file_name f ->
  2 < slashes (tail (paste (paste (dir_path d) n) (paste (dir_path d) n ++ "/" ++ f))).
Proof.
  intros D N F. rewrite (paste_name d n D N). unfold paste. assert (P : String.prefix "/" (("/" ++ dev_name d n) ++ "/" ++ f) = true) by (apply prefix_app; eexists; reflexivity).
  rewrite P, orb_true_r. cbn [append tail]. rewrite !slashes_app. cbn. rewrite slashes_app.
  destruct d as [a|]; cbn [dev_name]; rewrite !slashes_app; cbn; lia.
Qed.

Lemma after_here pat s : String.prefix pat s = true ->
  after_str pat s = Some (substring (String.length pat) (String.length s - String.length pat) s).
Proof. intros H. destruct s; cbn [after_str]; rewrite H; reflexivity. Qed.
Lemma after_skip pat c s : String.prefix pat (String c s) = false -> after_str pat (String c s) = after_str pat s.
Proof. intros H. cbn [after_str]. rewrite H. reflexivity. Qed.
Lemma after_dev r : after_str "dev/" ("/dev/" ++ r) = Some r.
Proof.
  change ("/dev/" ++ r) with (String "/" ("dev/" ++ r)). rewrite after_skip by reflexivity.
  rewrite after_here by (apply prefix_app; eexists; reflexivity).
  f_equal. cbn [append substring String.length Nat.sub]. apply substring_ge. lia.
Qed.

(** ** The list of nodes *)
Definition tracks (l : list (string * N)) (c : string) : bool := existsb (fun x => String.eqb (fst x) c) l.
Lemma tracks_up c x l : tracks (ref_up c l) x = tracks l x.
Proof.
  induction l as [|[y n] l IH]; [reflexivity|]. cbn [ref_up]. destruct (String.eqb y c); [reflexivity|].
  unfold tracks in *. cbn [existsb]. rewrite IH. reflexivity.
Qed.
Lemma down_none c l : tracks l c = false -> ref_down c l = l.
Proof. induction l as [|[y n] l IH]; [reflexivity|]. cbn. intros H. apply orb_false_iff in H. destruct H as [-> H]. rewrite IH by exact H. reflexivity. Qed.
Lemma tracks_add c s x : tracks (d_nodes (devmon_add_cond c s)) x = tracks (d_nodes s) x || (String.prefix "dev/" c && String.eqb c x).
Proof.
  unfold devmon_add_cond. destruct (String.prefix "dev/" c); cbn [negb andb]; [|rewrite orb_false_r; reflexivity].
  change (find_node c s) with (tracks (d_nodes s) c). destruct (tracks (d_nodes s) c) eqn:E; cbn [d_nodes].
  - rewrite tracks_up. destruct (String.eqb c x) eqn:F; [|rewrite orb_false_r; reflexivity].
    apply String.eqb_eq in F. subst. rewrite E. reflexivity.
  - unfold tracks. rewrite existsb_app. cbn. rewrite orb_false_r. reflexivity.
Qed.

(** ** The invariant *)
Definition shows (sp : cspec) (c : string) (x : status) : Prop :=
  match x with
  | On => marks sp c = AtGen (now sp)
  | Flux => exists g, marks sp c = AtGen g /\ (g < now sp)%N
  | Off => marks sp c = Unset
  end.
Record dinv (ns : list string) (es : list dev) (s : dst) (sp : cspec) : Prop := {
  di_nodes : forall c, tracks (d_nodes s) c = true <-> waits es c /\ String.prefix "dev/" c = true;
  di_dev : forall c, tracks (d_nodes s) c = true -> device c /\ In c ns;
  di_watch : forall d, file_dir d -> existsb (String.eqb (dir_path d)) (d_watch s) = watched es d;
  di_rel : rel ns (d_cond s) sp;
  di_good : forall c, String.prefix "dev/" c = true -> marks sp c <> ForGood;
  di_now : now sp = (1 + N.of_nat (dev_reloads es))%N;
  di_shows : forall d n x, file_dir d -> file_name n -> dev_shows d n es x -> shows sp (dev_name d n) x
}.
Lemma watched_snoc es e d : watched (es ++ [e])%list d = watching d (watched es d) e.
Proof. unfold watched. rewrite fold_left_app. reflexivity. Qed.
Lemma dir_path_inj d d' : dir_path d = dir_path d' -> file_dir d -> file_dir d' -> d = d'.
Proof.
  destruct d as [a|], d' as [b|]; cbn; intros H D D'; [| | |reflexivity]; inversion H; subst; [reflexivity| |];
    [destruct D as [D0 _]|destruct D' as [D0 _]]; congruence.
Qed.
Lemma reloads_snoc es e : dev_reloads (es ++ [e])%list = dev_reloads es + (match e with DvOp OpReload => 1 | _ => 0 end).
Proof. unfold dev_reloads. rewrite filter_app, List.app_length. cbn. destruct e as [| | | |[]]; reflexivity. Qed.
(** a step that changes neither nodes, watches nor conditions *)
Lemma shows_inv d n es e x : dev_shows d n (es ++ [e])%list x ->
  (exists y, dev_shows d n es y /\ watched es d = true /\ waits es (dev_name d n) /\ e = DvFile d n true /\ x = On) \/
  (exists y, dev_shows d n es y /\ watched es d = true /\ waits es (dev_name d n) /\ e = DvFile d n false /\ x = Off) \/
  (exists b, dev_shows d n es x /\ (watched es d = false \/ ~ waits es (dev_name d n)) /\ e = DvFile d n b) \/
  (exists y, dev_shows d n es y /\ e = DvOp OpReload /\ x = match y with On => Flux | y => y end) \/
  (dev_shows d n es x /\ e <> DvOp OpReload /\ forall b, e <> DvFile d n b).
Proof.
  intros H. remember (es ++ [e])%list as l eqn:E. destruct H as [|es' y H W S|es' y H W S|es' y b H W|es' y H|es' y e' H N1 N2].
  - destruct es; discriminate E.
  - apply app_inj_tail in E. destruct E; subst. left. eauto 10.
  - apply app_inj_tail in E. destruct E; subst. right. left. eauto 10.
  - apply app_inj_tail in E. destruct E; subst. right. right. left. eauto 10.
  - apply app_inj_tail in E. destruct E; subst. right. right. right. left. eauto 10.
  - apply app_inj_tail in E. destruct E; subst. right. right. right. right. auto.
Qed.
Lemma waits_snoc es e c : waits (es ++ [e])%list c <-> waits es c \/ e = DvAdd c.
Proof. unfold waits. rewrite in_app_iff. cbn. intuition. Qed.
Lemma set_marks sp n : marks sp n <> ForGood -> spec_step sp (OpSet n) = {| now := now sp; marks := put n (AtGen (now sp)) (marks sp) |}.
Proof. intros H. cbn. destruct (marks sp n); [reflexivity|congruence|reflexivity]. Qed.
Lemma put_same n m f : put n m f n = m.
Proof. unfold put. rewrite String.eqb_refl. reflexivity. Qed.
Lemma put_other n m f x : x <> n -> put n m f x = f x.
Proof. intros H. unfold put. apply String.eqb_neq in H. rewrite H. reflexivity. Qed.
Lemma scan_nop l path s d n : file_dir d -> file_name n -> path = paste (dir_path d) n -> Forall file_name l ->
  (forall c, tracks (d_nodes s) c = true -> device c) -> devmon_scandir path l s = s.
Proof.
  intros D N -> F T. unfold devmon_scandir. induction F as [|f l Hf _ IH]; [reflexivity|]. cbn [fold_left].
  assert (X : devmon_update_conds (paste (dir_path d) n) (paste (dir_path d) n ++ "/" ++ f) true s = s); [|rewrite X; exact IH].
  unfold devmon_update_conds. pose proof (scan_name d n f D N Hf) as S. set (c := tail _) in *.
  change (find_node c s) with (tracks (d_nodes s) c). destruct (tracks (d_nodes s) c) eqn:E; [|reflexivity]. exfalso.
  apply T in E. destruct E as (d' & n' & D' & N' & E). pose proof (dev_name_slashes d' n' D' N'). rewrite E in S. lia.
Qed.

Lemma existsb_filter_neq path q w : existsb (String.eqb q) (filter (fun p => negb (String.eqb path p)) w) =
  negb (String.eqb path q) && existsb (String.eqb q) w.
Proof.
  induction w as [|p w IH]; [cbn; rewrite andb_false_r; reflexivity|]. cbn [filter existsb]. destruct (String.eqb path p) eqn:E; cbn [negb existsb].
  - apply String.eqb_eq in E. subst p. rewrite IH. destruct (String.eqb path q) eqn:E2; [reflexivity|].
    cbn. rewrite String.eqb_sym, E2. reflexivity.
  - rewrite IH. destruct (String.eqb q p) eqn:E2; cbn [orb]; [|reflexivity].
    apply String.eqb_eq in E2. subst p. rewrite E. reflexivity.
Qed.
Section Step.
Variable ns : list string.
Hypothesis HG : forallb good_name ns = true.
Hypothesis HF : flat ns = true.
Lemma dev_step es s sp e : dinv ns es s sp -> dev_ok e -> (forall c, In c (dev_names [e]) -> In c ns) ->
  (now sp + 1 < two32)%N \/ e <> DvOp OpReload -> exists sp', dinv ns (es ++ [e])%list (dev_event s e) sp'.
Proof.
  intros I OK HN HW. destruct e as [c|c|d n b|d n b res found|o]; cbn [dev_event dev_ok] in *.
  - (* a stanza is read *)
    exists sp. assert (X : d_watch (devmon_add_cond c s) = d_watch s /\ d_cond (devmon_add_cond c s) = d_cond s).
    { unfold devmon_add_cond. destruct (negb _); [auto|]. destruct (find_node c s); auto. }
    destruct X as [X1 X2]. constructor.
    + intros x. rewrite tracks_add, orb_true_iff, andb_true_iff, (di_nodes _ _ _ _ I x), waits_snoc, String.eqb_eq. split.
      * intros [[A B]|[A ->]]; auto.
      * intros [[A|A] B]; [left; auto|]. inversion A; subst. auto.
    + intros x. rewrite tracks_add, orb_true_iff, andb_true_iff, String.eqb_eq. intros [H|[A ->]]; [apply (di_dev _ _ _ _ I x H)|].
      destruct OK as [OK|OK]; [|congruence]. split; [exact OK|]. apply HN. cbn. rewrite A. cbn. auto.
    + intros d D. rewrite X1, watched_snoc, (di_watch _ _ _ _ I d D). destruct d; reflexivity.
    + rewrite X2. apply I.
    + apply I.
    + rewrite (di_now _ _ _ _ I), reloads_snoc. lia.
    + intros d n x D N H. apply shows_inv in H.
      destruct H as [(y & _ & _ & _ & H & _)|[(y & _ & _ & _ & H & _)|[(y & _ & _ & H)|[(y & _ & H & _)|(H & _)]]]]; try discriminate H.
      apply (di_shows _ _ _ _ I d n x D N H).
  - (* a stanza is removed *)
    exists sp. assert (X : devmon_del_cond c s = s \/ (c = "dev/" /\ devmon_del_cond c s = mkDst (ref_down "dev/" (d_nodes s)) (d_watch s) (d_cond s))).
    { unfold devmon_del_cond. destruct (String.eqb c "dev/") eqn:E; [|auto]. apply String.eqb_eq in E. subst. auto. }
    assert (Y : devmon_del_cond c s = s).
    { destruct X as [X|[_ X]]; [exact X|]. rewrite X. rewrite down_none; [destruct s; reflexivity|].
      destruct (tracks (d_nodes s) "dev/") eqn:E; [|reflexivity]. destruct (di_dev _ _ _ _ I _ E) as [(d & n & _ & N & H) _].
      symmetry in H. destruct (dev_name_not d n N H). }
    rewrite Y. constructor; try apply I.
    + intros x. rewrite (di_nodes _ _ _ _ I x), waits_snoc. split; [tauto|]. intros [[A|A] B]; [auto|discriminate A].
    + intros d D. rewrite watched_snoc, (di_watch _ _ _ _ I d D). destruct d; reflexivity.
    + rewrite (di_now _ _ _ _ I), reloads_snoc. lia.
    + intros d n x D N H. apply shows_inv in H.
      destruct H as [(y & _ & _ & _ & H & _)|[(y & _ & _ & _ & H & _)|[(y & _ & _ & H)|[(y & _ & H & _)|(H & _)]]]]; try discriminate H.
      apply (di_shows _ _ _ _ I d n x D N H).
  - (* a node comes or goes *)
    destruct OK as [D N]. rewrite (di_watch _ _ _ _ I d D).
    assert (C : tail (paste (dir_path d) n) = dev_name d n) by (rewrite (paste_name d n D N); reflexivity).
    assert (KEEP : (watched es d = false \/ tracks (d_nodes s) (dev_name d n) = false) -> dinv ns (es ++ [DvFile d n b])%list s sp).
    { intros K. constructor; try apply I.
      - intros x. rewrite (di_nodes _ _ _ _ I x), waits_snoc. split; [tauto|]. intros [[A|A] B]; [auto|discriminate A].
      - intros d' D'. rewrite watched_snoc, (di_watch _ _ _ _ I d' D'). destruct d'; reflexivity.
      - rewrite (di_now _ _ _ _ I), reloads_snoc. lia.
      - intros d' n' x D' N' H. apply shows_inv in H.
        assert (NW : forall d' n', DvFile d n b = DvFile d' n' true \/ DvFile d n b = DvFile d' n' false -> watched es d' = true -> waits es (dev_name d' n') -> False).
        { intros d1 n1 E W1 W2. assert (d1 = d /\ n1 = n) as [-> ->] by (destruct E as [E|E]; inversion E; auto).
          destruct K as [K|K]; [congruence|]. assert (T : tracks (d_nodes s) (dev_name d n) = true); [|congruence].
          apply (di_nodes _ _ _ _ I). split; [exact W2|apply dev_name_prefix]. }
        destruct H as [(y & _ & W1 & W2 & H & _)|[(y & _ & W1 & W2 & H & _)|[(y & H & _)|[(y & _ & H & _)|(H & _)]]]].
        + destruct (NW d' n'); auto.
        + destruct (NW d' n'); auto.
        + apply (di_shows _ _ _ _ I d' n' x D' N' H).
        + discriminate H.
        + apply (di_shows _ _ _ _ I d' n' x D' N' H). }
    destruct (watched es d) eqn:W; [|exists sp; apply KEEP; auto].
    unfold devmon_update_conds. rewrite C. change (find_node (dev_name d n) s) with (tracks (d_nodes s) (dev_name d n)).
    destruct (tracks (d_nodes s) (dev_name d n)) eqn:T; cbn [negb]; [|exists sp; apply KEEP; auto]. clear KEEP.
    destruct (di_dev _ _ _ _ I _ T) as [_ Hns].
    set (o := if b then OpSet (dev_name d n) else OpClear (dev_name d n)).
    exists (spec_step sp o).
    assert (NG : marks sp (dev_name d n) <> ForGood) by (apply (di_good _ _ _ _ I); apply dev_name_prefix).
    assert (NOW : now (spec_step sp o) = now sp) by (unfold o; destruct b; [rewrite set_marks by exact NG|]; reflexivity).
    assert (MK : marks (spec_step sp o) = put (dev_name d n) (if b then AtGen (now sp) else Unset) (marks sp))
      by (unfold o; destruct b; [rewrite set_marks by exact NG|]; reflexivity).
    constructor.
    + intros x. cbn [d_nodes]. rewrite (di_nodes _ _ _ _ I x), waits_snoc. split; [tauto|]. intros [[A|A] B]; [auto|discriminate A].
    + apply I.
    + intros d' D'. cbn [d_watch]. rewrite watched_snoc, (di_watch _ _ _ _ I d' D'). destruct d'; reflexivity.
    + cbn [d_cond]. assert (E : (if b then snd (cond_set_nu (d_cond s) (dev_name d n)) else snd (cond_clear_nu (d_cond s) (dev_name d n)))
                               = CondProof.step (d_cond s) o) by (unfold o; destruct b; reflexivity). rewrite E.
      apply step_rel; [exact HG|exact HF|apply I| |right; unfold o; destruct b; discriminate]. intros x Hx. unfold o in Hx. destruct b; cbn in Hx; destruct Hx as [<-|[]]; exact Hns.
    + intros x P. rewrite MK. unfold put. destruct (String.eqb x (dev_name d n)); [destruct b; discriminate|apply I, P].
    + rewrite NOW, (di_now _ _ _ _ I), reloads_snoc. lia.
    + intros d' n' x D' N' H. apply shows_inv in H.
      destruct H as [(y & _ & _ & _ & H & ->)|[(y & _ & _ & _ & H & ->)|[(y & H & WW & HE)|[(y & _ & H & _)|(H & _ & HE)]]]].
      * inversion H; subst. cbn [shows]. rewrite MK, NOW, put_same. reflexivity.
      * inversion H; subst. cbn [shows]. rewrite MK, put_same. reflexivity.
      * exfalso. inversion HE; subst. destruct WW as [WW|WW]; [congruence|]. apply WW. apply (di_nodes _ _ _ _ I), T.
      * discriminate H.
      * pose proof (di_shows _ _ _ _ I d' n' x D' N' H) as S.
        assert (NE : dev_name d' n' <> dev_name d n).
        { intros E. destruct (dev_name_inj d' n' d n D' N' D N E) as [-> ->]. destruct (HE b). reflexivity. }
        unfold shows in *. rewrite MK, NOW. rewrite (put_other _ _ _ _ NE). exact S.
  - (* a directory comes or goes *)
    destruct OK as (D & N & F). rewrite (di_watch _ _ _ _ I d D).
    assert (SH : forall d' n' x, file_dir d' -> file_name n' -> dev_shows d' n' (es ++ [DvDir d n b res found])%list x -> shows sp (dev_name d' n') x).
    { intros d' n' x D' N' H. apply shows_inv in H.
      destruct H as [(y & _ & _ & _ & H & _)|[(y & _ & _ & _ & H & _)|[(y & _ & _ & H)|[(y & _ & H & _)|(H & _)]]]]; try discriminate H.
      apply (di_shows _ _ _ _ I d' n' x D' N' H). }
    assert (GEN : forall w, (forall d', file_dir d' -> existsb (String.eqb (dir_path d')) w = watching d' (watched es d') (DvDir d n b res found)) ->
              dinv ns (es ++ [DvDir d n b res found])%list (mkDst (d_nodes s) w (d_cond s)) sp).
    { intros w Hw. constructor; try apply I; cbn [d_nodes d_watch d_cond].
      - intros x. rewrite (di_nodes _ _ _ _ I x), waits_snoc. split; [tauto|]. intros [[A|A] B]; [auto|discriminate A].
      - intros d' D'. rewrite watched_snoc. apply Hw, D'.
      - rewrite (di_now _ _ _ _ I), reloads_snoc. lia.
      - exact SH. }
    exists sp.
    assert (SAME : (forall d', file_dir d' -> watching d' (watched es d') (DvDir d n b res found) = watched es d') ->
              dinv ns (es ++ [DvDir d n b res found])%list s sp).
    { intros H. destruct s as [nd w cd]. apply (GEN w). intros d' D'. rewrite (H d' D'). apply (di_watch _ _ _ _ I d' D'). }
    destruct (watched es d) eqn:W.
    2:{ apply SAME. intros d' D'. destruct d as [a|]; [destruct d'; reflexivity|].
        pose proof W as W'. assert (Q : forall l, watched l None = true).
        { intros l. unfold watched. induction l as [|e l IH] using rev_ind; [reflexivity|]. rewrite fold_left_app. cbn. rewrite IH. reflexivity. }
        rewrite Q in W'. discriminate W'. }
    unfold devmon_handle_dir. cbv zeta. set (path := paste (dir_path d) n).
    assert (P : path = "/" ++ dev_name d n) by (apply paste_name; assumption).
    destruct d as [a|].
    + (* below /dev/a: never watched *)
      assert (NI : existsb (String.eqb path) (d_watch s) = false \/ existsb (String.eqb path) (d_watch s) = true) by (destruct (existsb _ _); auto).
      assert (DEEP : match after_str "dev/" path with Some r => has_slash r | None => false end = true).
      { rewrite P. change ("/" ++ dev_name (Some a) n) with ("/dev/" ++ a ++ "/" ++ n). rewrite after_dev, has_slash_iff, !slashes_app. cbn. lia. }
      destruct b.
      * destruct (existsb (String.eqb path) (d_watch s)); [apply SAME; intros d' _; destruct d'; reflexivity|].
        unfold devmon_add_path. rewrite DEEP. apply SAME. intros d' _; destruct d'; reflexivity.
      * destruct (existsb (String.eqb path) (d_watch s)); [|apply SAME; intros d' _; destruct d'; reflexivity].
        apply GEN. intros d' D'. rewrite <- (di_watch _ _ _ _ I d' D').
        assert (NE : dir_path d' <> path).
        { rewrite P. intros E. apply (f_equal slashes) in E. cbn [dev_name] in E. rewrite !slashes_app in E. cbn in E.
          destruct d' as [a'|]; cbn in E; [pose proof (file_slash a' D')|]; lia. }
        transitivity (existsb (String.eqb (dir_path d')) (d_watch s)); [|destruct d'; reflexivity]. clear -NE.
        induction (d_watch s) as [|p w IH]; [reflexivity|]. cbn. destruct (String.eqb path p) eqn:E; cbn.
        -- apply String.eqb_eq in E. subst p. apply String.eqb_neq in NE. rewrite NE. exact IH.
        -- rewrite IH. reflexivity.
    + (* below /dev *)
      assert (PP : path = dir_path (Some n)) by exact P.
      assert (DN : file_dir (Some n)) by exact N.
      assert (SHALLOW : match after_str "dev/" path with Some r => has_slash r | None => false end = false).
      { rewrite P. change ("/" ++ dev_name None n) with ("/dev/" ++ n). rewrite after_dev, has_slash_iff, (file_slash n N). reflexivity. }
      assert (WP : existsb (String.eqb path) (d_watch s) = watched es (Some n)) by (rewrite PP; apply (di_watch _ _ _ _ I (Some n) DN)).
      rewrite !WP.
      assert (DEV : forall w c, tracks (d_nodes (mkDst (d_nodes s) w (d_cond s))) c = true -> device c)
        by (intros w c Hc; apply (di_dev _ _ _ _ I c Hc)).
      destruct b.
      * destruct (watched es (Some n)) eqn:WN.
        -- apply SAME. intros [a|] D'; [|reflexivity]. cbn [watching]. destruct res as [[]|]; [|reflexivity|reflexivity].
           destruct (String.eqb n a) eqn:E; [|reflexivity]. apply String.eqb_eq in E. subst. symmetry. exact WN.
        -- unfold devmon_add_path. rewrite SHALLOW.
           assert (NI : existsb (String.eqb path) (d_watch s) = false) by (rewrite WP; exact WN || reflexivity).
           rewrite NI. destruct res as [[]|].
           ++ rewrite (scan_nop found path _ None n D N eq_refl F (DEV _)). apply GEN. intros d' D'. cbn [existsb]. rewrite (di_watch _ _ _ _ I d' D').
              destruct d' as [a|]; cbn [watching].
              ** rewrite PP. destruct (String.eqb n a) eqn:E.
                 --- apply String.eqb_eq in E. subst. rewrite String.eqb_refl. reflexivity.
                 --- assert (X : String.eqb (dir_path (Some a)) (dir_path (Some n)) = false).
                     { apply String.eqb_neq. intros X. apply dir_path_inj in X; [|exact D'|exact N]. inversion X; subst. rewrite String.eqb_refl in E. discriminate E. }
                     rewrite X. reflexivity.
              ** assert (X : String.eqb (dir_path None) path = false).
                 { rewrite PP. apply String.eqb_neq. intros X. apply dir_path_inj in X; [discriminate X|exact D'|exact N]. }
                 rewrite X. reflexivity.
           ++ rewrite (scan_nop found path s None n D N eq_refl F); [|intros c Hc; apply (di_dev _ _ _ _ I c Hc)]. apply SAME. intros [a|] _; reflexivity.
           ++ apply SAME. intros [a|] _; reflexivity.
      * destruct (watched es (Some n)) eqn:WN.
        -- apply GEN. intros d' D'. assert (X : existsb (String.eqb (dir_path d')) (filter (fun p => negb (String.eqb path p)) (d_watch s)) =
                       negb (String.eqb path (dir_path d')) && existsb (String.eqb (dir_path d')) (d_watch s)).
           { apply existsb_filter_neq. }
           rewrite X, (di_watch _ _ _ _ I d' D'). destruct d' as [a|]; cbn [watching].
           ++ rewrite PP. destruct (String.eqb n a) eqn:E.
              ** apply String.eqb_eq in E. subst. rewrite String.eqb_refl. reflexivity.
              ** assert (Z : String.eqb (dir_path (Some n)) (dir_path (Some a)) = false).
                 { apply String.eqb_neq. intros Z. apply dir_path_inj in Z; [|exact N|exact D']. inversion Z; subst. rewrite String.eqb_refl in E. discriminate E. }
                 rewrite Z. reflexivity.
           ++ assert (Z : String.eqb path (dir_path None) = false).
              { rewrite PP. apply String.eqb_neq. intros Z. apply dir_path_inj in Z; [discriminate Z|exact N|exact D']. }
              rewrite Z. reflexivity.
        -- apply SAME. intros [a|] D'; [|reflexivity]. cbn [watching]. destruct (String.eqb n a) eqn:E; [|reflexivity].
           apply String.eqb_eq in E. subst. symmetry. exact WN.
  - (* another condition *)
    exists (spec_step sp o).
    assert (NOW : now (spec_step sp o) = (now sp + (match o with OpReload => 1 | _ => 0 end))%N).
    { destruct o as [n|n|n|]; cbn [spec_step]; [destruct (marks sp n)|destruct (marks sp n)| |]; cbn [now]; lia. }
    assert (MK : forall c, String.prefix "dev/" c = true -> marks (spec_step sp o) c = marks sp c).
    { intros c P. assert (NE : forall n, In n (op_names o) -> c <> n) by (intros n Hn E; subst; destruct (OK n Hn); congruence).
      destruct o as [n|n|n|]; cbn [spec_step op_names] in *; [destruct (marks sp n)|destruct (marks sp n)| |]; cbn [marks]; try reflexivity;
        apply put_other, NE; cbn; auto. }
    constructor; cbn [d_nodes d_watch d_cond].
    + intros x. rewrite (di_nodes _ _ _ _ I x), waits_snoc. split; [tauto|]. intros [[A|A] B]; [auto|discriminate A].
    + apply I.
    + intros d' D'. rewrite watched_snoc, (di_watch _ _ _ _ I d' D'). destruct d'; reflexivity.
    + rewrite cond_op_step. apply step_rel; [exact HG|exact HF|apply I| |destruct HW as [HW|HW]; [left; exact HW|right; congruence]]. intros x Hx. apply HN. cbn. rewrite app_nil_r. exact Hx.
    + intros c P. rewrite (MK c P). apply I, P.
    + rewrite NOW, (di_now _ _ _ _ I), reloads_snoc. destruct o; lia.
    + intros d' n' x D' N' H. apply shows_inv in H.
      destruct H as [(y & _ & _ & _ & H & _)|[(y & _ & _ & _ & H & _)|[(y & _ & _ & H)|[(y & H & HE & ->)|(H & HE & _)]]]]; try discriminate H.
      * inversion HE; subst o. pose proof (di_shows _ _ _ _ I d' n' y D' N' H) as S. unfold shows in *. rewrite (MK _ (dev_name_prefix d' n')), NOW.
        destruct y; [exact S|destruct S as (g & S1 & S2); exists g; split; [exact S1|lia]|exists (now sp); split; [exact S|lia]].
      * pose proof (di_shows _ _ _ _ I d' n' x D' N' H) as S. unfold shows in *. rewrite (MK _ (dev_name_prefix d' n')), NOW.
        destruct o; [| | |congruence]; destruct x; rewrite ?N.add_0_r; exact S.
Qed.
Lemma dev_run_inv es : Forall dev_ok es -> (forall c, In c (dev_names es) -> In c ns) -> (N.of_nat (dev_reloads es) < 4294967295)%N ->
  exists sp, dinv ns es (dev_run es) sp.
Proof.
  induction es as [|e es IH] using rev_ind; intros H1 H2 H3.
  - exists spec_init. constructor; cbn.
    + intros c. split; [discriminate|]. intros [[] _].
    + discriminate.
    + intros [a|] D; [|reflexivity]. cbn in D. destruct D as [D _]. destruct a; [congruence|reflexivity].
    + constructor; cbn; [reflexivity|lia|reflexivity|tauto|discriminate].
    + discriminate.
    + reflexivity.
    + intros d n x _ _ H. inversion H as [| | | | |]; subst; try reflexivity;
        match goal with X : (_ ++ [_])%list = [] |- _ => destruct es; [discriminate X|]; discriminate X || (apply app_eq_nil in X; destruct X as [_ X]; discriminate X) | _ => idtac end;
        match goal with X : (?l ++ [_])%list = [] |- _ => destruct l; discriminate X | _ => idtac end.
  - apply Forall_app in H1. destruct H1 as [H1 H1']. inversion H1' as [|? ? OK _]; subst.
    rewrite reloads_snoc in H3. destruct IH as (sp & I); [exact H1| |lia|].
    + intros c Hc. apply H2. unfold dev_names. rewrite flat_map_app. apply in_or_app. left. exact Hc.
    + unfold dev_run. rewrite fold_left_app. cbn [fold_left]. eapply dev_step; [exact I|exact OK| |].
      * intros c Hc. apply H2. unfold dev_names in *. rewrite flat_map_app. apply in_or_app. right. exact Hc.
      * rewrite (di_now _ _ _ _ I). unfold two32. destruct e as [| | | |[]]; try (right; discriminate). left. lia.
Qed.
End Step.
Lemma dev_name_good es d n x : dev_history es -> file_dir d -> file_name n -> good_name (dev_name d n) = true ->
  dev_shows d n es x -> view (cond_get (d_cond (dev_run es)) (dev_name d n)) = x.
Proof.
  intros (H1 & H2 & H3 & H4) D N G S. destruct (dev_run_inv (dev_names es) H2 H3 es H1 (fun c H => H) H4) as (sp & I).
  rewrite (get_rel (dev_names es) H2 H3 (d_cond (dev_run es)) sp _ (di_rel _ _ _ _ I) G).
  pose proof (di_shows _ _ _ _ I d n x D N S) as Q. unfold spec_get. destruct x; cbn [shows] in Q.
  - rewrite Q. reflexivity.
  - destruct Q as (g & -> & L). assert (N.eqb g (now sp) = false) as -> by lia. reflexivity.
  - rewrite Q, N.eqb_refl. reflexivity.
Qed.
Lemma dev_tracked_lem es c : dev_history es -> device c ->
  (find_node c (dev_run es) = true <-> waits es c).
Proof.
  intros (H1 & H2 & H3 & H4) (d & n & D & N & ->). destruct (dev_run_inv (dev_names es) H2 H3 es H1 (fun c H => H) H4) as (sp & I).
  change (find_node (dev_name d n) (dev_run es)) with (tracks (d_nodes (dev_run es)) (dev_name d n)). rewrite (di_nodes _ _ _ _ I).
  pose proof (dev_name_prefix d n). tauto.
Qed.
