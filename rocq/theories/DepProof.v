(** Proofs about the order of plugins. *)
From Coq Require Import List String Ascii Bool Lia Arith Permutation.
From Verif Require Import CStr CStrLib DepModel DepSpec.
Import ListNotations.

Lemma known_iff l n : known l n = true <-> In n l.
Proof.
  unfold known. rewrite existsb_exists. split.
  - intros (x & I & E). apply str_eqb_eq in E. subst x. exact I.
  - intros I. exists n. split; [exact I|apply str_eqb_refl].
Qed.
Lemma lookup_some dir n p : lookup dir n = Some p -> In p dir /\ g_name p = n.
Proof. intros H. unfold lookup in H. apply find_some in H. destruct H as [I E]. apply str_eqb_eq in E. split; [exact I|congruence]. Qed.
Lemma lookup_none dir n p : lookup dir n = None -> In p dir -> g_name p <> n.
Proof. intros H I E. pose proof (find_none _ _ H p I) as X. cbn beta in X. rewrite E, str_eqb_refl in X. discriminate. Qed.
Lemma name_inj dir p q : unique dir -> In p dir -> In q dir -> g_name p = g_name q -> p = q.
Proof.
  unfold unique. induction dir as [|r dir IH]; intros U P Q E; [destruct P|]. cbn [map] in U. inversion U as [|x y N U']; subst.
  destruct P as [<-|P], Q as [<-|Q]; [reflexivity| | |exact (IH U' P Q E)].
  - exfalso. apply N. rewrite E. apply in_map, Q.
  - exfalso. apply N. rewrite <- E. apply in_map, P.
Qed.
Lemma lookup_in dir p : unique dir -> In p dir -> lookup dir (g_name p) = Some p.
Proof.
  intros U I. destruct (lookup dir (g_name p)) as [q|] eqn:E.
  - destruct (lookup_some _ _ _ E) as [J N]. f_equal. exact (name_inj dir q p U J I N).
  - exfalso. exact (lookup_none _ _ _ E I eq_refl).
Qed.
Lemma registered_iff s n : registered s n = true <-> exists p, In p (plugins s) /\ g_name p = n.
Proof. unfold registered. rewrite known_iff, in_map_iff. split; intros (p & A & B); exists p; tauto. Qed.
(** the dependencies, as a function of their own *)
Fixpoint deps (fuel : nat) (dir : list plug) (s : pst) (l : list cstr) : option pst :=
  match l with
  | [] => Some s
  | d :: r => if registered s d then deps fuel dir s r
              else match load_one fuel dir s d with Some s => deps fuel dir s r | None => None end
  end.
Lemma load_eq fuel dir s n : load_one (S fuel) dir s n =
  match lookup dir n with
  | None => Some s
  | Some p =>
      if known (opened s) n then Some s
      else
        let s := {| opened := n :: opened s; plugins := plugins s |} in
        if registered s n then Some s
        else match deps fuel dir s (g_deps p) with
             | Some s => Some {| opened := opened s; plugins := plugins s ++ [p] |}
             | None => None
             end
  end.
Proof.
  cbn [load_one]. destruct (lookup dir n) as [p|]; [|reflexivity]. destruct (known (opened s) n); [reflexivity|].
  cbv zeta. destruct (registered _ n); [reflexivity|].
  generalize {| opened := n :: opened s; plugins := plugins s |} as s0. intros s0.
  match goal with |- match ?f s0 (g_deps p) with _ => _ end = _ => assert (E : forall l s, f s l = deps fuel dir s l) end.
  { induction l as [|d l IH]; intros s1; [reflexivity|]. cbn [deps]. destruct (registered s1 d); [apply IH|].
    destruct (load_one fuel dir s1 d); [apply IH|reflexivity]. }
  rewrite E. reflexivity.
Qed.

Section Order.
Variable dir : list plug.
Variable level : plug -> nat.
Hypothesis U : unique dir.
Hypothesis L : forall p q, depends dir p q -> level q < level p.

(** being loaded: opened, but not in the list *)
Definition open_ (s : pst) (n : cstr) : Prop := In n (opened s) /\ registered s n = false.
Definition ordered (l : list plug) : Prop := forall a p b, l = a ++ p :: b -> forall q, depends dir p q -> In q a.
Record good (s : pst) : Prop := {
  gd_dir : forall p, In p (plugins s) -> In p dir;
  gd_op : forall p, In p (plugins s) -> In (g_name p) (opened s);
  gd_nd : NoDup (plugins s);
  gd_ord : ordered (plugins s) }.
Lemma ordered_snoc l p : ordered l -> (forall q, depends dir p q -> In q l) -> ordered (l ++ [p]).
Proof.
  intros O D a x b E q Q. destruct b as [|y b] using rev_ind.
  - apply app_inj_tail in E. destruct E as [<- <-]. exact (D q Q).
  - rewrite app_comm_cons, app_assoc in E. apply app_inj_tail in E. destruct E as [E _]. exact (O a x b E q Q).
Qed.
Record later (s t : pst) : Prop := {
  lt_good : good t;
  lt_keep : exists l, plugins t = plugins s ++ l;
  lt_open : forall n, open_ t n <-> open_ s n }.
Lemma later_refl s : good s -> later s s.
Proof. intros G. split; [exact G|exists []; rewrite app_nil_r; reflexivity|tauto]. Qed.
Lemma later_trans s t u : later s t -> later t u -> later s u.
Proof.
  intros [_ (a & A) O1] [G (b & B) O2]. split; [exact G| |intros n; rewrite O2; apply O1].
  exists (a ++ b). rewrite B, A, app_assoc. reflexivity.
Qed.
Lemma later_in s t p : later s t -> In p (plugins s) -> In p (plugins t).
Proof. intros [_ (a & A) _] I. rewrite A. apply in_or_app. left. exact I. Qed.
Definition loads (fuel : nat) : Prop := forall s p, good s -> In p dir -> level p + 1 < fuel ->
  (forall q, In q dir -> open_ s (g_name q) -> level p < level q) ->
  exists t, load_one fuel dir s (g_name p) = Some t /\ later s t /\ In p (plugins t).
Lemma deps_ok fuel : loads fuel -> forall p l s, In p dir -> (forall d, In d l -> In d (g_deps p)) -> good s -> level p < fuel ->
  (forall q, In q dir -> open_ s (g_name q) -> level p <= level q) ->
  exists t, deps fuel dir s l = Some t /\ later s t /\ forall q, In q dir -> In (g_name q) l -> In q (plugins t).
Proof.
  intros IH p. induction l as [|d l IHl]; intros s P Sub G F O; cbn [deps].
  - exists s. split; [reflexivity|]. split; [apply later_refl, G|]. intros q _ [].
  - assert (Sub' : forall x, In x l -> In x (g_deps p)) by (intros x X; apply Sub; right; exact X).
    destruct (registered s d) eqn:R.
    + destruct (IHl s P Sub' G F O) as (t & E & T & H). exists t. split; [exact E|]. split; [exact T|].
      intros q Q [X|X]; [|exact (H q Q X)]. apply registered_iff in R. destruct R as (r & R & N).
      apply (later_in _ _ _ T). rewrite (name_inj dir q r U Q (gd_dir _ G r R)); [exact R|congruence].
    + destruct (lookup dir d) as [q|] eqn:K.
      * destruct (lookup_some _ _ _ K) as [Q N]. subst d.
        assert (D : depends dir p q) by (split; [exact P|split; [exact Q|apply Sub; left; reflexivity]]).
        pose proof (L p q D) as LQ.
        destruct (IH s q G Q) as (s1 & E & T & H); [lia| |].
        { intros r Hr X. pose proof (O r Hr X). lia. }
        rewrite E. destruct (IHl s1 P Sub' (lt_good _ _ T) F) as (t & E2 & T2 & H2).
        { intros r Hr X. apply O; [exact Hr|]. apply (lt_open _ _ T). exact X. }
        exists t. split; [exact E2|]. split; [exact (later_trans _ _ _ T T2)|].
        intros r Hr [X|X]; [|exact (H2 r Hr X)]. apply (later_in _ _ _ T2). rewrite (name_inj dir r q U Hr Q); [exact H|congruence].
      * destruct fuel as [|f]; [lia|]. assert (E : load_one (S f) dir s d = Some s) by (rewrite load_eq, K; reflexivity). rewrite E.
        destruct (IHl s P Sub' G F O) as (t & E2 & T & H). exists t. split; [exact E2|]. split; [exact T|].
        intros q Q [X|X]; [|exact (H q Q X)]. exfalso. exact (lookup_none _ _ _ K Q (eq_sym X)).
Qed.
Lemma load_ok : forall fuel, loads fuel.
Proof.
  induction fuel as [|fuel IH]; intros s p G P F O; [lia|]. rewrite load_eq, (lookup_in dir p U P).
  destruct (known (opened s) (g_name p)) eqn:K.
  - apply known_iff in K. exists s. split; [reflexivity|]. split; [apply later_refl, G|].
    destruct (registered s (g_name p)) eqn:R.
    + apply registered_iff in R. destruct R as (q & Q & N). rewrite (name_inj dir p q U P (gd_dir _ G q Q) (eq_sym N)). exact Q.
    + exfalso. pose proof (O p P (conj K R)). lia.
  - cbv zeta. set (s1 := {| opened := g_name p :: opened s; plugins := plugins s |}).
    assert (NK : ~ In (g_name p) (opened s)) by (intros X; apply known_iff in X; congruence).
    assert (NP : ~ In p (plugins s)) by (intros X; exact (NK (gd_op _ G p X))).
    assert (R : registered s1 (g_name p) = false).
    { destruct (registered s1 (g_name p)) eqn:R; [|reflexivity]. apply registered_iff in R. destruct R as (q & Q & N).
      exfalso. apply NP. rewrite (name_inj dir p q U P (gd_dir _ G q Q) (eq_sym N)). exact Q. }
    rewrite R.
    assert (G1 : good s1) by (destruct G as [A B C D]; split; [exact A|intros q Q; right; exact (B q Q)|exact C|exact D]).
    destruct (deps_ok fuel IH p (g_deps p) s1 P (fun d X => X) G1) as (t & E & T & H); [lia| |].
    { intros q Q [[X|X] Y]; [rewrite (name_inj dir q p U Q P (eq_sym X)); lia|]. pose proof (O q Q (conj X Y)). lia. }
    rewrite E. eexists. split; [reflexivity|].
    assert (OT : open_ t (g_name p)) by (apply (lt_open _ _ T); split; [left; reflexivity|exact R]).
    assert (NT : ~ In p (plugins t)).
    { intros X. destruct OT as [_ Y]. assert (Z : registered t (g_name p) = true) by (apply registered_iff; exists p; split; [exact X|reflexivity]). congruence. }
    split; [|cbn [plugins]; apply in_or_app; right; left; reflexivity].
    destruct T as [[A B C D] (k & KE) OO]. split.
    + split; cbn [plugins opened].
      * intros q X. apply in_app_iff in X. destruct X as [X|[<-|[]]]; [exact (A q X)|exact P].
      * intros q X. apply in_app_iff in X. destruct X as [X|[<-|[]]]; [exact (B q X)|exact (proj1 OT)].
      * apply (Permutation_NoDup (l := p :: plugins t)); [apply Permutation_cons_append|]. apply NoDup_cons; [exact NT|exact C].
      * apply ordered_snoc; [exact D|]. intros q (_ & Q & X). exact (H q Q X).
    + exists (k ++ [p]). cbn [plugins]. rewrite KE. cbn [plugins s1]. rewrite app_assoc. reflexivity.
    + intros n. assert (RN : forall m, registered {| opened := opened t; plugins := plugins t ++ [p] |} m = registered t m || str_eqb m (g_name p)).
      { intros m. unfold registered, known. cbn [plugins]. rewrite map_app, existsb_app. cbn [map existsb]. rewrite orb_false_r. reflexivity. }
      unfold open_. rewrite RN. cbn [opened]. rewrite orb_false_iff. split.
      * intros (X & Y & Z). assert (W : open_ s1 n) by (apply OO; split; assumption). destruct W as [[W|W] V]; [subst n; rewrite str_eqb_refl in Z; discriminate|].
        split; [exact W|exact V].
      * intros (X & Y). assert (W : open_ t n) by (apply OO; split; [right; exact X|exact Y]). destruct W as [W V].
        split; [exact W|]. split; [exact V|]. destruct (str_eqb n (g_name p)) eqn:Z; [|reflexivity]. apply str_eqb_eq in Z. subst n. contradiction.
Qed.
Lemma all_ok : (forall p, In p dir -> level p < List.length dir) -> forall l s, (forall p, In p l -> In p dir) -> good s -> (forall n, ~ open_ s n) ->
  exists t, load_all (S (List.length dir)) dir s l = Some t /\ later s t /\ forall p, In p l -> In p (plugins t).
Proof.
  intros B. induction l as [|p l IH]; intros s Sub G O; cbn [load_all].
  - exists s. split; [reflexivity|]. split; [apply later_refl, G|]. intros p [].
  - assert (P : In p dir) by (apply Sub; left; reflexivity).
    destruct (load_ok (S (List.length dir)) s p G P) as (s1 & E & T & H); [pose proof (B p P); lia|intros q _ X; destruct (O _ X)|].
    rewrite E. destruct (IH s1) as (t & E2 & T2 & H2); [intros q Q; apply Sub; right; exact Q|exact (lt_good _ _ T)|intros n X; apply (lt_open _ _ T) in X; exact (O n X)|].
    exists t. split; [exact E2|]. split; [exact (later_trans _ _ _ T T2)|]. intros q [<-|Q]; [exact (later_in _ _ _ T2 H)|exact (H2 q Q)].
Qed.
End Order.
Lemma plugins_ok dir : unique dir -> acyclic dir -> exists s, load_plugins dir = Some s /\ Permutation (plugins s) dir /\ ordered dir (plugins s).
Proof.
  intros U (level & B & L). unfold load_plugins.
  destruct (all_ok dir level U L B dir {| opened := []; plugins := [] |} (fun p X => X)) as (t & E & T & H).
  - split; cbn [plugins]; [intros p []|intros p []|apply NoDup_nil|]. intros a p b X. destruct a; discriminate.
  - intros n [[] _].
  - exists t. split; [exact E|]. destruct T as [[A C D O] _ _]. split; [|exact O].
    apply NoDup_Permutation; [exact D|exact (NoDup_map_inv _ _ U)|]. intros p. split; [apply A|apply H].
Qed.
Lemma once_ok dir : unique dir -> acyclic dir -> exists s, load_plugins dir = Some s /\ Permutation (plugins s) dir.
Proof. intros U A. destruct (plugins_ok dir U A) as (s & E & P & _). exists s. split; assumption. Qed.
Lemma filter_split {A} (f : A -> bool) (a b c : list A) x y : f x = true -> f y = true ->
  filter f (a ++ x :: b ++ y :: c) = filter f a ++ x :: filter f b ++ y :: filter f c.
Proof. intros X Y. rewrite filter_app. cbn [filter]. rewrite X, filter_app. cbn [filter]. rewrite Y. reflexivity. Qed.
Lemma order_ok dir s p q hook : unique dir -> acyclic dir -> load_plugins dir = Some s -> depends dir p q -> In hook (g_hooks p) -> In hook (g_hooks q) ->
  before (called s hook) (g_name q) (g_name p).
Proof.
  intros U A E D Hp Hq. destruct (plugins_ok dir U A) as (s' & E' & P & O). rewrite E in E'. injection E' as <-.
  assert (I : In p (plugins s)) by (apply (Permutation_in _ (Permutation_sym P)), D).
  apply in_split in I. destruct I as (a & c & X). pose proof (O a p c X q D) as J. apply in_split in J. destruct J as (a1 & b & ->).
  unfold called, before. rewrite X, <- app_assoc. cbn [app].
  assert (Y : forall x, In hook (g_hooks x) -> existsb (Nat.eqb hook) (g_hooks x) = true) by (intros x Hx; apply existsb_exists; exists hook; split; [exact Hx|apply Nat.eqb_refl]).
  rewrite (filter_split _ a1 b c q p (Y q Hq) (Y p Hp)). do 3 eexists. rewrite map_app. cbn [map]. rewrite map_app. cbn [map]. reflexivity.
Qed.
Lemma called_ok dir s n hook : unique dir -> acyclic dir -> load_plugins dir = Some s ->
  NoDup (called s hook) /\ (In n (called s hook) <-> exists p, In p dir /\ g_name p = n /\ In hook (g_hooks p)).
Proof.
  intros U A E. destruct (plugins_ok dir U A) as (s' & E' & P & _). rewrite E in E'. injection E' as <-. unfold called. split.
  - assert (N : NoDup (map g_name (plugins s))) by (apply (Permutation_NoDup (l := map g_name dir)); [apply Permutation_map, Permutation_sym, P|exact U]).
    revert N. generalize (plugins s). induction l as [|x l IH]; intros N; [apply NoDup_nil|]. cbn [map] in N. inversion N as [|y z M N']; subst. cbn [filter].
    destruct (existsb _ _); [|exact (IH N')]. cbn [map]. apply NoDup_cons; [|exact (IH N')].
    intros X. apply M. apply in_map_iff in X. destruct X as (w & <- & X). apply in_map. apply filter_In in X. exact (proj1 X).
  - rewrite in_map_iff. split.
    + intros (p & N & X). apply filter_In in X. destruct X as [X Y]. exists p. split; [exact (Permutation_in _ P X)|]. split; [exact N|].
      apply existsb_exists in Y. destruct Y as (h & Y & Z). apply Nat.eqb_eq in Z. subst h. exact Y.
    + intros (p & X & N & Y). exists p. split; [exact N|]. apply filter_In. split; [exact (Permutation_in _ (Permutation_sym P) X)|].
      apply existsb_exists. exists hook. split; [exact Y|apply Nat.eqb_refl].
Qed.
Lemma missing_ok dir s p d hook : unique dir -> acyclic dir -> load_plugins dir = Some s -> In p dir ->
  In d (g_deps p) -> (forall q, In q dir -> g_name q <> d) -> In hook (g_hooks p) -> In (g_name p) (called s hook).
Proof. intros U A E P _ _ H. apply (called_ok dir s (g_name p) hook U A E). exists p. auto. Qed.
