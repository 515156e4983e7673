From Coq Require Import List String Ascii NArith ZArith Bool Lia.
From Coq Require Import ZifyBool ZifyNat ZifyN.
From Verif Require Import CStr ParseSpec ParseModel CStrLib TmpModel TmpSpec TmpProof TmpProofB.
Import ListNotations.
Local Open Scope Z_scope.

Ltac chars := cbv beta iota zeta delta [ch_eqb Ascii.eqb Bool.eqb orb andb negb].

Lemma digit_number x a : digits_value x a -> a <= INT_MAX -> int_of x = Some a.
Proof.
  intros H L. pose proof (digits_value_nonneg _ _ H) as N. unfold int_of.
  assert (X : strtoll x = Some (a, [])).
  { apply strtoll_number. exists [], x. split; [constructor|]. left. split; [left; reflexivity|exact H]. }
  rewrite X. cbv zeta. 
  destruct ((- INT_MAX - 1 <=? a) && (a <=? INT_MAX))%bool eqn:E; [reflexivity|]. exfalso. unfold INT_MAX in *. lia.
Qed.
Lemma number_mm s x y : device_number s x y -> x <> 0 -> y <> 0 -> parse_mm (Some s) = Mm x y.
Proof.
  intros (a & b & -> & Ha & Hb & La & Lb) Nx Ny. unfold parse_mm.
  assert (X : strchr ":" (a ++ ":"%char :: b) = Some (a, b)).
  { apply strchr_some. split; [reflexivity|]. intros H. apply digits_value_iff in Ha. destruct Ha as (_ & Ha & _).
    rewrite Forall_forall in Ha. specialize (Ha _ H). discriminate. }
  rewrite X, (digit_number _ _ Ha La), (digit_number _ _ Hb Lb).
  replace ((x =? 0) || (y =? 0))%bool with false by lia. reflexivity.
Qed.

Lemma run_create F line e : fields line = Some e -> tmpfiles F true false line = create_ops F e.
Proof. intros H. unfold tmpfiles. rewrite H. destruct (create_ops F e); reflexivity. Qed.

Theorem line_makes_lem F line ty pl p m u g a ops :
  says line ty pl p m u g a -> makes F ty pl p m u g a ops -> tmpfiles F true false line = Some ops.
Proof.
  intros Hs Hm. destruct (says_reads _ _ _ _ _ _ _ _ Hs) as (e & Hf & R). rewrite (run_create _ _ _ Hf).
  destruct R as [[mods Et] Ep Epath Em Eu Eg Ea]. unfold create_ops. rewrite Et.
  destruct Hm.
  - destruct H as [-> | ->]; chars; rewrite Epath, Em, Eu, Eg; reflexivity.
  - chars. rewrite Epath, Em, Eu, Eg. reflexivity.
  - chars. unfold node. rewrite Epath, H, Em. reflexivity.
  - chars. unfold node. rewrite Epath, H, Em, Ep. reflexivity.
  - chars. unfold device, node. rewrite Ea, (number_mm _ _ _ H0 H1 H2), Epath, H, Em. reflexivity.
  - chars. unfold device, node. rewrite Ea, (number_mm _ _ _ H0 H1 H2), Epath, H, Em, Ep. reflexivity.
  - chars. unfold device, node. rewrite Ea, (number_mm _ _ _ H0 H1 H2), Epath, H, Em. reflexivity.
  - chars. unfold device, node. rewrite Ea, (number_mm _ _ _ H0 H1 H2), Epath, H, Em, Ep. reflexivity.
  - chars. unfold link_ops. rewrite Epath, H, Ea. reflexivity.
  - chars. unfold link_ops, rmrf. rewrite Epath, H, H0, Ea, Ep. reflexivity.
  - chars. unfold target_there, link_ops. rewrite Ea, Epath, H. change (ch_eqb "/" "/") with true. cbv iota. rewrite H0. reflexivity.
  - chars. unfold target_there. rewrite Ea. change (ch_eqb "/" "/") with true. cbv iota. rewrite H. reflexivity.
  - chars. unfold file_ops. rewrite Ea, Epath, H, (write_text _ _ H0 H1). cbn [negb]. rewrite orb_true_r. reflexivity.
  - assert (X : (plus e || match e_type e with c :: _ => ch_eqb c "F" | [] => false end)%bool = true).
    { rewrite Et. destruct H as [->|[-> ->]]; [apply orb_true_r|rewrite Ep; reflexivity]. }
    assert (Y : forall z : option (list op), (if (ch_eqb ty "f" || ch_eqb ty "F")%bool then file_ops F e else z) = file_ops F e).
    { intros z. destruct H as [->|[-> _]]; reflexivity. }
    assert (Z : file_ops F e = Some [OParent p; OWrite p false 438 out]).
    { unfold file_ops. cbv zeta. rewrite X, Ea, Epath, (write_text _ _ H0 H1). reflexivity. }
    destruct H as [->|[-> _]]; chars; exact Z.
  - chars. unfold file_ops. rewrite Ea, Epath, H, Ep, Et. reflexivity.
  - assert (X : (plus e || match e_type e with c :: _ => ch_eqb c "F" | [] => false end)%bool = true).
    { rewrite Et. destruct H as [->|[-> ->]]; [apply orb_true_r|rewrite Ep; reflexivity]. }
    assert (Z : file_ops F e = Some [OParent p; OFile p (or_mode m 420) u g]).
    { unfold file_ops. cbv zeta. rewrite X, Ea, Epath, Em, Eu, Eg. reflexivity. }
    destruct H as [->|[-> _]]; chars; exact Z.
  - chars. rewrite Ea, Epath, H, Ep. cbn [write_all]. rewrite (write_text _ _ H0 H1). reflexivity.
  - chars. unfold copy_ops. rewrite Ea, Epath, H, H0. reflexivity.
  - chars. unfold copy_ops. rewrite Ea, Epath, H, H0.
    assert (X : fisslashdir (s ++ [c]) = false).
    { unfold fisslashdir. destruct s as [|d s]; cbn [app].
      - apply ch_eqb_neq. exact H1.
      - change (d :: s ++ [c]) with ((d :: s) ++ [c]). rewrite last_last. apply ch_eqb_neq, H1. }
    rewrite X. cbn [andb negb]. rewrite <- app_assoc. reflexivity.
Qed.

Theorem line_kept_lem F line ty p m u g a create remove ops o :
  says line ty false p m u g a -> In ty ["b"; "c"; "f"; "p"; "L"; "l"]%char -> f_stat F p = true ->
  tmpfiles F create remove line = Some ops -> In o ops -> o = OParent p.
Proof.
  intros Hs Ht He Ho Hi. destruct (says_reads _ _ _ _ _ _ _ _ Hs) as (e & Hf & [[mods Et] Ep Epath Em Eu Eg Ea]).
  unfold tmpfiles in Ho. rewrite Hf in Ho.
  assert (R : remove_ops F e = []).
  { unfold remove_ops. rewrite Et. cbn [In] in Ht. repeat destruct Ht as [<-|Ht]; try contradiction; reflexivity. }
  rewrite R in Ho. destruct create.
  2:{ destruct remove; injection Ho as <-; contradiction. }
  assert (C : forall l, create_ops F e = Some l -> forall x, In x l -> x = OParent p).
  { unfold create_ops. rewrite Et. unfold device, node, file_ops, link_ops. rewrite Epath, He, Ep, Et, Ea.
    cbn [In] in Ht. repeat destruct Ht as [<-|Ht]; try contradiction; chars; intros l Hl x Hx.
    - destruct (parse_mm a); try discriminate; injection Hl as <-; contradiction.
    - destruct (parse_mm a); try discriminate; injection Hl as <-; contradiction.
    - destruct a; injection Hl as <-; destruct Hx as [<-|[]]; reflexivity.
    - injection Hl as <-; contradiction.
    - injection Hl as <-; contradiction.
    - destruct (target_there F e); injection Hl as <-; contradiction. }
  destruct (create_ops F e) as [l|]; [|discriminate]. injection Ho as <-.
  apply (C l eq_refl). destruct remove; exact Hi.
Qed.

Lemma write_all_in app paths : forall arg l o, write_all app paths arg = Some l -> In o l ->
  exists q b, In q paths /\ o = OWrite q app m666 b.
Proof.
  induction paths as [|q paths IH]; intros arg l o H Hi; cbn [write_all] in H.
  - injection H as <-. contradiction.
  - destruct (write_arg arg); [|discriminate]. destruct (write_all app paths (written arg)) eqn:E; [|discriminate].
    injection H as <-. destruct Hi as [<-|Hi]; [exists q; eauto 10 using in_eq|].
    destruct (IH _ _ _ E Hi) as (q' & b & A & B). exists q', b. split; [right; exact A|exact B].
Qed.

(** every operation of --create, by kind *)
Lemma create_in F e l o : create_ops F e = Some l -> In o l ->
  (subject o = e_path e \/ In (subject o) (f_glob F (e_path e))) /\
  (removes o -> plus e = true /\ subject o = e_path e /\ f_stat F (e_path e) = true).
Proof.
  unfold create_ops. destruct (e_type e) as [|c r] eqn:Et; [intros [= <-] []|].
  assert (Nd : forall mk, subject mk = e_path e -> ~ removes mk -> In o (node F e mk) ->
    (subject o = e_path e \/ In (subject o) (f_glob F (e_path e))) /\
    (removes o -> plus e = true /\ subject o = e_path e /\ f_stat F (e_path e) = true)).
  { intros mk S N. unfold node. destruct (f_stat F (e_path e)); [destruct (plus e)|]; cbn [In];
    repeat match goal with |- context [_ \/ _] => idtac end; intros H.
    - destruct H as [<-|[<-|[<-|[]]]]; cbn; try (split; [auto|]); try contradiction; auto.
    - contradiction.
    - destruct H as [<-|[<-|[]]]; cbn; (split; [auto|]); contradiction. }
  assert (Dv : forall mk l, (forall a b, subject (mk a b) = e_path e /\ ~ removes (mk a b)) -> device F e mk = Some l -> In o l ->
    (subject o = e_path e \/ In (subject o) (f_glob F (e_path e))) /\
    (removes o -> plus e = true /\ subject o = e_path e /\ f_stat F (e_path e) = true)).
  { intros mk l' S. unfold device. destruct (parse_mm (e_arg e)); [intros [= <-] []|discriminate|].
    intros [= <-]. apply Nd; apply S. }
  assert (Lk : In o (link_ops F e) ->
    (subject o = e_path e \/ In (subject o) (f_glob F (e_path e))) /\
    (removes o -> plus e = true /\ subject o = e_path e /\ f_stat F (e_path e) = true)).
  { unfold link_ops, rmrf. destruct (f_stat F (e_path e)); [destruct (plus e); [destruct (f_dir F (e_path e))|]|]; cbn [In app]; intros H;
    repeat destruct H as [<-|H]; try contradiction; cbn; (split; [auto|]); try contradiction; auto. }
  destruct (ch_eqb c "b"); [apply Dv; cbn; auto|]. destruct (ch_eqb c "c"); [apply Dv; cbn; auto|].
  destruct (ch_eqb c "C").
  { intros [= <-]. unfold copy_ops. destruct (_ && _)%bool; [intros []|]. intros [<-|[<-|[]]]; cbn; (split; [auto|contradiction]). }
  destruct (ch_eqb c "d" || ch_eqb c "D")%bool.
  { intros [= <-] [<-|[<-|[]]]; cbn; (split; [auto|contradiction]). }
  destruct (ch_eqb c "e").
  { intros [= <-] H. apply in_map_iff in H. destruct H as (q & <- & H). cbn. split; [auto|contradiction]. }
  destruct (ch_eqb c "f" || ch_eqb c "F")%bool.
  { unfold file_ops. cbv zeta. rewrite Et. destruct (e_arg e); [destruct (_ || negb _)%bool; [destruct (write_arg _); [|discriminate]|]|
      destruct (_ || _)%bool; [|destruct (f_stat F (e_path e))]]; intros [= <-] H; repeat destruct H as [<-|H]; try contradiction; cbn; (split; [auto|contradiction]). }
  destruct (ch_eqb c "l"). { destruct (target_there F e); intros [= <-]; [exact Lk|intros []]. }
  destruct (ch_eqb c "L"). { intros [= <-]. exact Lk. }
  destruct (ch_eqb c "p"). { intros [= <-]. apply Nd; cbn; auto. }
  destruct (ch_eqb c "w").
  { destruct (e_arg e); [|intros [= <-] []]. intros H Hi. destruct (write_all_in _ _ _ _ _ H Hi) as (q & b & A & ->). cbn. split; [auto|contradiction]. }
  destruct (ch_eqb c "Z" || ch_eqb c "z")%bool; [|intros [= <-] []].
  destruct (f_restorecon F); [|intros [= <-] []]. intros [= <-] H. apply in_map_iff in H. destruct H as (q & <- & H). cbn. split; [auto|contradiction].
Qed.

Lemma remove_in F e o c r : e_type e = c :: r -> In o (remove_ops F e) <-> clears F c (e_path e) o.
Proof.
  intros Et. unfold remove_ops. rewrite Et. split.
  - destruct (ch_eqb c "D") eqn:E1.
    { apply ch_eqb_eq in E1. subst c. destruct (f_dir F (e_path e)) eqn:E; [|intros []]. intros [<-|[]]. constructor. exact E. }
    destruct (ch_eqb c "r") eqn:E2.
    { apply ch_eqb_eq in E2. subst c. intros H. apply in_map_iff in H. destruct H as (q & <- & H). constructor. exact H. }
    destruct (ch_eqb c "R") eqn:E3; [|intros []].
    apply ch_eqb_eq in E3. subst c. intros H. apply in_flat_map in H. destruct H as (q & H & H'). unfold rmrf in H'.
    destruct (f_dir F q) eqn:E; [|contradiction]. destruct H' as [<-|[]]. constructor; assumption.
  - intros H. destruct H; chars.
    + rewrite H. left. reflexivity.
    + apply in_map, H.
    + apply in_flat_map. exists q. split; [exact H|]. unfold rmrf. rewrite H0. left. reflexivity.
Qed.

Theorem line_frame_lem F line ty pl p m u g a create remove ops o :
  says line ty pl p m u g a -> tmpfiles F create remove line = Some ops -> In o ops ->
  subject o = p \/ In (subject o) (f_glob F p).
Proof.
  intros Hs Ho Hi. destruct (says_reads _ _ _ _ _ _ _ _ Hs) as (e & Hf & [[mods Et] Ep Epath Em Eu Eg Ea]).
  unfold tmpfiles in Ho. rewrite Hf in Ho. rewrite <- Epath.
  destruct (if create then create_ops F e else Some []) as [l|] eqn:E; [|discriminate]. injection Ho as <-.
  apply in_app_or in Hi. destruct Hi as [Hi|Hi].
  - destruct remove; [|contradiction]. apply (remove_in _ _ _ _ _ Et) in Hi. destruct Hi; cbn [subject]; auto.
  - destruct create; [|injection E as <-; contradiction]. exact (proj1 (create_in _ _ _ _ E Hi)).
Qed.
Theorem line_spares_lem F line ty pl p m u g a ops o :
  says line ty pl p m u g a -> tmpfiles F true false line = Some ops -> In o ops -> removes o ->
  pl = true /\ subject o = p /\ f_stat F p = true.
Proof.
  intros Hs Ho Hi Hr. destruct (says_reads _ _ _ _ _ _ _ _ Hs) as (e & Hf & [[mods Et] Ep Epath Em Eu Eg Ea]).
  rewrite (run_create _ _ _ Hf) in Ho. rewrite <- Epath, <- Ep. exact (proj2 (create_in _ _ _ _ Ho Hi) Hr).
Qed.
Theorem line_clears_lem F line ty pl p m u g a :
  says line ty pl p m u g a -> exists ops, tmpfiles F false true line = Some ops /\
  forall o, In o ops <-> clears F ty p o.
Proof.
  intros Hs. destruct (says_reads _ _ _ _ _ _ _ _ Hs) as (e & Hf & [[mods Et] Ep Epath Em Eu Eg Ea]).
  unfold tmpfiles. rewrite Hf. eexists. split; [reflexivity|]. intros o. rewrite app_nil_r, <- Epath. apply (remove_in _ _ _ _ _ Et).
Qed.
(** Both at once: first everything that is cleared *)
Theorem line_both_lem F line ty pl p m u g a ops :
  says line ty pl p m u g a -> tmpfiles F true true line = Some ops -> exists first rest,
  ops = first ++ rest /\ tmpfiles F false true line = Some first /\ tmpfiles F true false line = Some rest.
Proof.
  intros Hs Ho. destruct (says_reads _ _ _ _ _ _ _ _ Hs) as (e & Hf & _). unfold tmpfiles in *. rewrite Hf in *.
  destruct (create_ops F e) as [l|]; [|discriminate]. injection Ho as <-. exists (remove_ops F e), l. rewrite app_nil_r. auto.
Qed.

Theorem read_last_one_lem : forall files f,
  In f (to_read files) <-> exists a b, files = a ++ f :: b /\
    forall g n, In g b -> base_is f n -> ~ base_is g n.
Proof.
  intros files f. split.
  - intros H. destruct (read_in _ _ H) as (a & b & E & N). exists a, b. split; [exact E|].
    intros g n Hg A B. apply (N g Hg). apply base_same. eauto.
  - intros (a & b & -> & N). apply in_read. intros g Hg E. apply base_same in E. destruct E as (n & A & B). exact (N g n Hg B A).
Qed.

Theorem read_every_name_lem : forall files f n, In f files -> base_is f n -> exists g, In g (to_read files) /\ base_is g n.
Proof.
  intros files f n H B. destruct (read_last _ _ H) as (g & A & E). exists g. split; [exact A|].
  apply basenm_iff. apply basenm_iff in B. congruence.
Qed.

Theorem read_once_lem : forall files before f between g after n,
  to_read files = before ++ f :: between ++ g :: after -> base_is f n -> ~ base_is g n.
Proof.
  intros files before f between g after n E A B. pose proof (read_nodup files) as H. rewrite E in H.
  rewrite map_app in H. cbn [map] in H. apply NoDup_remove_2 in H. apply H. apply in_or_app. right.
  rewrite map_app. apply in_or_app. right. left. apply basenm_iff in A, B. congruence.
Qed.
