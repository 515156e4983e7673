(** Proofs about the cleaning at boot. *)
From Coq Require Import List String Ascii Bool.
From Verif Require Import CStr CStrLib BootModel BootSpec.
Import ListNotations.

(** the walk over the entries of a directory *)
Fixpoint walk (d : nat) (k : entries) : list (nat * cstr) :=
  match k with
  | [] => []
  | (n, y) :: k => visit y ++ (d, n) :: walk d k
  end.
Lemma visit_dir t k : visit (Dir t k) = walk t k.
Proof. cbn [visit]. induction k as [|[n y] k IH]; [reflexivity|]. cbn [walk]. rewrite <- IH. reflexivity. Qed.
Lemma visit_link t k : visit (Link (Some (t, k))) = walk t k.
Proof. cbn [visit]. induction k as [|[n y] k IH]; [reflexivity|]. cbn [walk]. rewrite <- IH. reflexivity. Qed.
Lemma walk_app d a b : walk d (a ++ b) = walk d a ++ walk d b.
Proof. induction a as [|[n y] a IH]; [reflexivity|]. cbn [app walk]. rewrite IH, <- app_assoc. reflexivity. Qed.
Lemma walk_in d k n y : In (n, y) k -> In (d, n) (walk d k).
Proof.
  intros H. apply in_split in H. destruct H as (a & b & ->). rewrite walk_app. cbn [walk]. rewrite !in_app_iff. right. right. left. reflexivity.
Qed.
Lemma removed_wrap a acts b e m x : removed acts e m x -> removed (a ++ acts ++ b) e m x.
Proof.
  intros (p & q & -> & H). exists (a ++ p), (q ++ b). split; [rewrite <- !app_assoc; reflexivity|].
  destruct x as [|t k|l]; try exact I. intros n y X. apply in_or_app. right. exact (H n y X).
Qed.
Lemma walk_removed d k e m x : inside d k e m x -> removed (walk d k) e m x.
Proof.
  induction 1 as [d k n x H|d k n t j e m x H _ IH]; apply in_split in H; destruct H as (a & b & ->); rewrite walk_app; cbn [walk].
  - exists (walk d a ++ visit x), (walk d b). split; [rewrite <- app_assoc; reflexivity|].
    destruct x as [|t k|l]; try exact I. intros n' y X. apply in_or_app. right. rewrite visit_dir. exact (walk_in _ _ _ _ X).
  - rewrite visit_dir. apply removed_wrap. exact IH.
Qed.
(** nodes with what is in them *)
Fixpoint size (x : node) : nat :=
  let sz := fix sz (k : list (cstr * node)) : nat := match k with [] => 0 | (_, y) :: k => S (size y + sz k) end in
  match x with File => 1 | Dir _ k => S (sz k) | Link None => 1 | Link (Some (_, k)) => S (sz k) end.
Fixpoint ksize (k : entries) : nat := match k with [] => 0 | (_, y) :: k => S (size y + ksize k) end.
Lemma size_dir t k : size (Dir t k) = S (ksize k).
Proof. cbn [size]. f_equal. Qed.
Require Import Lia Arith.
Lemma walk_inside : forall s d k, ksize k < s -> (forall e m to, ~ inside d k e m (Link (Some to))) ->
  forall e m, In (e, m) (walk d k) -> exists x, inside d k e m x.
Proof.
  induction s as [|s IH]; intros d k S0 L e m H; [lia|].
  assert (G : forall k', (forall z, In z k' -> In z k) -> ksize k' < Datatypes.S s -> In (e, m) (walk d k') -> exists x, inside d k e m x).
  { induction k' as [|[n y] k' IHk]; intros Sub Sz X; [destruct X|]. cbn [walk] in X. cbn [ksize] in Sz.
    assert (I : In (n, y) k) by (apply Sub; left; reflexivity).
    rewrite in_app_iff in X. destruct X as [X|[X|X]].
    - destruct y as [|t j|[[t j]|]]; [destruct X| | |destruct X].
      + rewrite visit_dir in X. rewrite size_dir in Sz.
        destruct (IH t j) with (e := e) (m := m) as [x Y]; [lia| |exact X|exists x; exact (in_sub _ _ _ _ _ _ _ _ I Y)].
        intros e' m' to Y. exact (L e' m' to (in_sub _ _ _ _ _ _ _ _ I Y)).
      + exfalso. exact (L d n (t, j) (in_here _ _ _ _ I)).
    - injection X as -> ->. exists y. apply in_here. exact I.
    - apply IHk; [intros z Z; apply Sub; right; exact Z|lia|exact X]. }
  apply (G k); [auto|exact S0|exact H].
Qed.
Lemma tmpfs_iff mounts t : is_tmpfs mounts (top_real t) = true <-> on_tmpfs mounts t.
Proof.
  unfold is_tmpfs, on_tmpfs. destruct (top_real t) as [r|]; [|split; [discriminate|intros (r & a & b & X & _); discriminate]].
  induction mounts as [|[d ty] l IH]; cbn [find fst].
  - split; [discriminate|]. intros (r' & a & b & _ & X & _). destruct a; discriminate.
  - destruct (str_eqb r d) eqn:E.
    + apply str_eqb_eq in E. subst d. cbn [snd]. rewrite str_eqb_eq. split.
      * intros <-. exists r, [], l. repeat split. intros ty [].
      * intros (r' & a & b & X & Y & N). injection X as <-. destruct a as [|[d ty'] a]; cbn [app] in Y; [injection Y as -> _; reflexivity|].
        injection Y as -> -> _. exfalso. apply (N ty'). left. reflexivity.
    + assert (ND : r <> d) by (intros ->; rewrite str_eqb_refl in E; discriminate). rewrite IH. split.
      * intros (r' & a & b & X & -> & N). injection X as <-. exists r, ((d, ty) :: a), b. repeat split. intros ty' [X|X]; [injection X as -> _; congruence|exact (N ty' X)].
      * intros (r' & a & b & X & Y & N). injection X as <-. destruct a as [|[d' ty'] a]; cbn [app] in Y; [injection Y as -> _ _; congruence|].
        injection Y as -> -> ->. exists r, a, b. repeat split. intros ty Z. apply (N ty). right. exact Z.
Qed.
Lemma one_removed mounts t d k e m x : ~ on_tmpfs mounts t -> top_dir t = Some (d, k) -> inside d k e m x -> removed (clean_one mounts t) e m x.
Proof.
  intros N D I. unfold clean_one. destruct (is_tmpfs mounts (top_real t)) eqn:E; [apply tmpfs_iff in E; contradiction|].
  rewrite D, visit_dir. apply walk_removed, I.
Qed.
Lemma removed_ok mounts tmp run lock t d k e m x : In t [tmp; run; lock] -> ~ on_tmpfs mounts t -> top_dir t = Some (d, k) -> inside d k e m x ->
  removed (clean mounts tmp run lock) e m x.
Proof.
  intros H N D I. pose proof (one_removed _ _ _ _ _ _ _ N D I) as R. unfold clean. destruct H as [<-|[<-|[<-|[]]]].
  - apply (removed_wrap []). exact R.
  - apply removed_wrap. exact R.
  - rewrite app_assoc. rewrite <- (app_nil_r (clean_one mounts lock)). apply removed_wrap. exact R.
Qed.
Lemma only_ok mounts tmp run lock e m : (forall t d k, In t [tmp; run; lock] -> top_dir t = Some (d, k) -> no_dir_links k) ->
  In (e, m) (clean mounts tmp run lock) -> exists t d k x, In t [tmp; run; lock] /\ ~ on_tmpfs mounts t /\ top_dir t = Some (d, k) /\ inside d k e m x.
Proof.
  intros L H.
  assert (G : forall t, In t [tmp; run; lock] -> In (e, m) (clean_one mounts t) -> exists t d k x, In t [tmp; run; lock] /\ ~ on_tmpfs mounts t /\ top_dir t = Some (d, k) /\ inside d k e m x).
  { intros t T X. unfold clean_one in X. destruct (is_tmpfs mounts (top_real t)) eqn:E; [destruct X|].
    destruct (top_dir t) as [[d k]|] eqn:D; [|destruct X]. rewrite visit_dir in X.
    destruct (walk_inside (S (ksize k)) d k (Nat.lt_succ_diag_r _) (L t d k T D d) e m X) as [x I].
    exists t, d, k, x. repeat split; try assumption. intros Y. apply tmpfs_iff in Y. congruence. }
  unfold clean in H. rewrite !in_app_iff in H. destruct H as [H|[H|H]]; [apply (G tmp)|apply (G run)|apply (G lock)]; try exact H; cbn; tauto.
Qed.
Lemma walk_link d k e m t j e' m' y : inside d k e m (Link (Some (t, j))) -> inside t j e' m' y -> In (e', m') (walk d k).
Proof.
  intros A B. remember (Link (Some (t, j))) as x eqn:X. induction A as [d k n x H|d k n t' j' e m x H _ IH]; apply in_split in H; destruct H as (a & b & ->); rewrite walk_app; cbn [walk]; rewrite !in_app_iff.
  - right. left. subst x. rewrite visit_link. destruct (walk_removed _ _ _ _ _ B) as (p & q & -> & _). apply in_or_app. right. left. reflexivity.
  - right. left. rewrite visit_dir. apply IH. exact X.
Qed.
Lemma link_ok mounts tmp run lock s d k e m t j e' m' y : In s [tmp; run; lock] -> ~ on_tmpfs mounts s -> top_dir s = Some (d, k) ->
  inside d k e m (Link (Some (t, j))) -> inside t j e' m' y -> In (e', m') (clean mounts tmp run lock).
Proof.
  intros S N D A B.
  assert (X : In (e', m') (clean_one mounts s)).
  { unfold clean_one. destruct (is_tmpfs mounts (top_real s)) eqn:E; [apply tmpfs_iff in E; contradiction|].
    rewrite D, visit_dir. exact (walk_link _ _ _ _ _ _ _ _ _ A B). }
  unfold clean. rewrite !in_app_iff. destruct S as [<-|[<-|[<-|[]]]]; tauto.
Qed.
