(** Proofs about log rotation. *)
From Coq Require Import List NArith ZArith Bool Arith Lia.
From Coq Require Import ZifyBool ZifyNat.
From Verif Require Import RotModel RotSpec.
Import ListNotations.

Lemma mv_shift c n g : c <> n -> (g c = None -> g n = None) ->
  forall i, mv c n g i = if Nat.eqb i n then g c else if Nat.eqb i c then None else g i.
Proof.
  intros D H i. unfold mv. destruct (g c) as [v|] eqn:E; [reflexivity|].
  destruct (Nat.eqb_spec i n) as [->|]; [auto|]. destruct (Nat.eqb_spec i c) as [->|]; [exact E|reflexivity].
Qed.
Lemma age_gz_shift cnt : forall g, (forall i, 2 <= i -> S i <= cnt -> g i = None -> g (S i) = None) ->
  forall i, age_gz cnt g i = if Nat.leb 3 i && Nat.leb i cnt then g (i - 1)
                             else if Nat.eqb i 2 && Nat.leb 3 cnt then None else g i.
Proof.
  induction cnt as [|c IH]; intros g C i.
  - cbn [age_gz]. destruct (Nat.leb_spec 3 i), (Nat.leb_spec i 0), (Nat.eqb_spec i 2), (Nat.leb_spec 3 0); cbn; try reflexivity; lia.
  - cbn [age_gz]. destruct (Nat.ltb_spec 2 (S c)) as [L|L].
    + assert (S1 : forall j, mv c (S c) g j = if Nat.eqb j (S c) then g c else if Nat.eqb j c then None else g j)
        by (apply mv_shift; [lia|apply C; lia]).
      rewrite IH.
      * rewrite !S1. destruct (Nat.eqb_spec i (S c)), (Nat.eqb_spec i c), (Nat.leb_spec 3 i), (Nat.leb_spec i c), (Nat.leb_spec i (S c)), (Nat.eqb_spec i 2),
          (Nat.leb_spec 3 c), (Nat.leb_spec 3 (S c)), (Nat.eqb_spec (i - 1) (S c)), (Nat.eqb_spec (i - 1) c); cbn; try reflexivity; try lia;
          try (f_equal; lia).
      * intros j J1 J2. rewrite !S1. destruct (Nat.eqb_spec j (S c)), (Nat.eqb_spec j c), (Nat.eqb_spec (S j) (S c)), (Nat.eqb_spec (S j) c); try lia; try (intros H; apply C; [lia|lia|exact H]); auto.
    + destruct (Nat.leb_spec 3 i), (Nat.leb_spec i (S c)), (Nat.eqb_spec i 2), (Nat.leb_spec 3 (S c)); cbn; try reflexivity; lia.
Qed.
Lemma age_cur hg cnt : forall f, cur (age hg cnt f) = cur f.
Proof.
  induction cnt as [|c IH]; intros f; [reflexivity|]. cbn [age]. rewrite IH. destruct (Nat.eqb (S c) 2); [|reflexivity].
  unfold zip. cbn [plain gz cur]. destruct (mv c (S c) (plain f) 2); [|reflexivity]. destruct (negb hg); [reflexivity|]. destruct (gz f 2); reflexivity.
Qed.
(** without gzip *)
Lemma age_plain cnt : forall f, plain f 0 = None -> (forall i, 1 <= i -> S i <= cnt -> plain f i = None -> plain f (S i) = None) ->
  forall i, (i <> 1 -> plain (age false cnt f) i = if Nat.leb 2 i && Nat.leb i cnt then plain f (i - 1) else plain f i) /\
            gz (age false cnt f) i = gz f i.
Proof.
  induction cnt as [|c IH]; intros f Z C i.
  - cbn [age]. split; [|reflexivity]. intros N. destruct (Nat.leb_spec 2 i), (Nat.leb_spec i 0); cbn; try reflexivity; lia.
  - cbn [age]. set (f1 := mkFiles (cur f) (mv c (S c) (plain f)) (gz f)).
    assert (ZF : (if Nat.eqb (S c) 2 then zip false 2 f1 else f1) = f1).
    { destruct (Nat.eqb (S c) 2); [|reflexivity]. unfold zip. destruct (plain f1 2); reflexivity. }
    rewrite ZF. destruct c as [|c].
    + (* the last turn: FILE.0 *)
      cbn [age]. unfold f1. cbn [plain gz]. split; [|reflexivity]. intros N. unfold mv. rewrite Z. destruct (Nat.leb_spec 2 i), (Nat.leb_spec i 1); cbn; try reflexivity; lia.
    + assert (S1 : forall j, plain f1 j = if Nat.eqb j (S (S c)) then plain f (S c) else if Nat.eqb j (S c) then None else plain f j).
      { unfold f1. cbn [plain]. apply mv_shift; [lia|apply C; lia]. }
      assert (Z1 : plain f1 0 = None) by (rewrite S1; cbn; exact Z).
      assert (C1 : forall j, 1 <= j -> S j <= S c -> plain f1 j = None -> plain f1 (S j) = None).
      { intros j J1 J2. rewrite !S1. destruct (Nat.eqb_spec j (S (S c))), (Nat.eqb_spec j (S c)), (Nat.eqb_spec (S j) (S (S c))), (Nat.eqb_spec (S j) (S c)); try lia; try (intros H; apply C; [lia|lia|exact H]); auto. }
      destruct (IH f1 Z1 C1 i) as [P G]. split; [|rewrite G; reflexivity]. intros N. rewrite (P N), !S1.
      destruct (Nat.eqb_spec i (S (S c))), (Nat.eqb_spec i (S c)), (Nat.leb_spec 2 i), (Nat.leb_spec i (S c)), (Nat.leb_spec i (S (S c))),
        (Nat.eqb_spec (i - 1) (S (S c))), (Nat.eqb_spec (i - 1) (S c)); cbn [andb]; try reflexivity; try lia; try (f_equal; lia).
Qed.
(** with gzip *)
Lemma age_zip_low f : plain f 0 = None -> forall i, i <> 1 -> plain (age true 1 f) i = plain f i /\ gz (age true 1 f) i = gz f i.
Proof. intros Z i N. cbn [age Nat.eqb]. cbn [plain gz]. unfold mv. rewrite Z. auto. Qed.
Lemma age_zip cnt : forall f, 2 <= cnt -> (forall i, i <> 1 -> plain f i = None) -> gz f 2 = None ->
  forall i, (i <> 1 -> plain (age true cnt f) i = None) /\ gz (age true cnt f) i = if Nat.eqb i 2 then plain f 1 else gz f i.
Proof.
  induction cnt as [|c IH]; intros f L P G i; [lia|]. destruct (Nat.eq_dec c 1) as [->|N].
  - change (age true 2 f) with (age true 1 (zip true 2 (mkFiles (cur f) (mv 1 2 (plain f)) (gz f)))).
    destruct (plain f 1) as [v|] eqn:E.
    + assert (X : zip true 2 (mkFiles (cur f) (mv 1 2 (plain f)) (gz f)) =
                  mkFiles (cur f) (put_n 2 None (mv 1 2 (plain f))) (put_n 2 (Some v) (gz f))).
      { unfold zip. cbn [plain gz cur]. assert (M : mv 1 2 (plain f) 2 = Some v) by (unfold mv; rewrite E; reflexivity). rewrite M, G. reflexivity. }
      rewrite X. set (f2 := mkFiles _ _ _). assert (Z : plain f2 0 = None) by (cbn; unfold put_n, mv; rewrite E; cbn; apply P; lia).
      split.
      * intros N. destruct (age_zip_low f2 Z i N) as [A _]. rewrite A. cbn [f2 plain]. unfold put_n, mv. rewrite E.
        destruct (Nat.eqb_spec i 2); [reflexivity|]. destruct (Nat.eqb_spec i 1); [reflexivity|apply P, N].
      * cbn [age Nat.eqb gz f2]. unfold put_n. reflexivity.
    + assert (X : zip true 2 (mkFiles (cur f) (mv 1 2 (plain f)) (gz f)) = mkFiles (cur f) (plain f) (gz f)).
      { unfold zip. cbn [plain gz cur]. assert (M : mv 1 2 (plain f) = plain f) by (unfold mv; rewrite E; reflexivity). rewrite M, (P 2) by lia. reflexivity. }
      rewrite X. split.
      * intros N. destruct (age_zip_low (mkFiles (cur f) (plain f) (gz f))) with (i := i) as [A _]; [apply P; lia|exact N|]. rewrite A. apply P, N.
      * cbn [age Nat.eqb gz]. destruct (Nat.eqb_spec i 2) as [->|]; [exact G|reflexivity].
  - change (age true (S c) f) with (age true c (if Nat.eqb (S c) 2 then zip true 2 (mkFiles (cur f) (mv c (S c) (plain f)) (gz f)) else mkFiles (cur f) (mv c (S c) (plain f)) (gz f))).
    destruct (Nat.eqb_spec (S c) 2); [lia|]. assert (E : mv c (S c) (plain f) = plain f) by (unfold mv; rewrite (P c) by lia; reflexivity). rewrite E.
    destruct (IH (mkFiles (cur f) (plain f) (gz f))) with (i := i) as [A B]; [lia|exact P|exact G|]. auto.
Qed.
Lemma version_cons v vs i : version (v :: vs) (S i) = match i with 0 => Some v | S _ => version vs i end.
Proof. destruct i; reflexivity. Qed.
Lemma version_closed vs i : version vs (S i) = None -> version vs (S (S i)) = None.
Proof. unfold version. intros H. apply nth_error_None in H. apply nth_error_None. lia. Qed.
Lemma rotate_zip num vs f : 3 <= num -> kept_zipped num vs f -> kept_zipped num (cur f :: vs) (logrotate true num true f).
Proof.
  intros L K. unfold logrotate. destruct num as [|n]; [lia|]. cbn [negb]. set (num := S n) in *.
  set (g := age_gz num (gz f)).
  assert (G : forall i, g i = if Nat.leb 3 i && Nat.leb i num then gz f (i - 1) else if Nat.eqb i 2 && Nat.leb 3 num then None else gz f i).
  { apply age_gz_shift. intros i I1 I2. destruct (K i) as [_ A], (K (S i)) as [_ B]. rewrite A, B.
    destruct (Nat.leb_spec 2 i), (Nat.leb_spec i num), (Nat.leb_spec 2 (S i)), (Nat.leb_spec (S i) num); cbn [andb]; try lia; auto.
    destruct i; [lia|]. apply version_closed. }
  set (f1 := mkFiles (cur f) (plain f) g).
  assert (P1 : forall i, i <> 1 -> plain f1 i = None).
  { intros i N. destruct (K i) as [A _]. cbn. rewrite A. destruct (Nat.eqb_spec i 1); [lia|reflexivity]. }
  assert (G1 : gz f1 2 = None). { cbn [gz f1]. rewrite G. destruct (Nat.leb_spec 3 num); [reflexivity|lia]. }
  intros i. destruct (age_zip num f1 ltac:(lia) P1 G1 i) as [A B]. rewrite age_cur. cbn [plain gz cur f1]. split.
  - unfold put_n. destruct (Nat.eqb_spec i 1) as [->|N]; [reflexivity|]. apply A, N.
  - rewrite B. cbn [f1 plain gz]. rewrite G. destruct (K 1) as [K1 _]. cbn in K1. destruct (K (i - 1)) as [_ K2], (K i) as [_ K3]. rewrite K1, K2, K3.
    assert (V : 3 <= i -> version (cur f :: vs) i = version vs (i - 1)).
    { intros I. destruct i as [|[|i]]; [lia|lia|]. rewrite version_cons. replace (S (S i) - 1) with (S i) by lia. reflexivity. }
    destruct (Nat.eqb_spec i 2) as [->|N2].
    + destruct (Nat.leb_spec 2 2), (Nat.leb_spec 2 num); try lia. reflexivity.
    + destruct (Nat.leb_spec 3 i), (Nat.leb_spec i num), (Nat.leb_spec 2 (i - 1)), (Nat.leb_spec (i - 1) num), (Nat.leb_spec 2 i); cbn [andb]; try lia; try reflexivity.
      symmetry. apply V. lia.
Qed.
Lemma rotate_plain num vs f : 1 <= num -> kept_plain num vs f -> kept_plain num (cur f :: vs) (logrotate false num true f).
Proof.
  intros L K. unfold logrotate. destruct num as [|n]; [lia|]. cbn [negb]. set (num := S n) in *.
  assert (G : forall i, age_gz num (gz f) i = None).
  { intros i. rewrite age_gz_shift; [|intros j _ _ _; apply K]. destruct (_ && _); [apply K|]. destruct (_ && _); [reflexivity|apply K]. }
  set (f1 := mkFiles (cur f) (plain f) (age_gz num (gz f))).
  assert (Z : plain f1 0 = None) by (cbn; destruct (K 0) as [A _]; exact A).
  assert (C : forall i, 1 <= i -> S i <= num -> plain f1 i = None -> plain f1 (S i) = None).
  { intros i I1 I2. cbn [plain f1]. destruct (K i) as [A _], (K (S i)) as [B _]. rewrite A, B.
    destruct (Nat.leb_spec 1 i), (Nat.leb_spec i num), (Nat.leb_spec 1 (S i)), (Nat.leb_spec (S i) num); cbn [andb]; try lia; auto.
    destruct i; [lia|]. apply version_closed. }
  intros i. destruct (age_plain num f1 Z C i) as [A B]. rewrite age_cur. cbn [plain gz cur f1]. split; [|rewrite B; apply G].
  unfold put_n. destruct (Nat.eqb_spec i 1) as [->|N].
  - destruct (Nat.leb_spec 1 num); [reflexivity|lia].
  - rewrite (A N). cbn [plain f1]. destruct (K (i - 1)) as [K2 _], (K i) as [K3 _]. rewrite K2, K3.
    assert (V : 2 <= i -> version (cur f :: vs) i = version vs (i - 1)).
    { intros I. destruct i as [|[|i]]; [lia|lia|]. rewrite version_cons. replace (S (S i) - 1) with (S i) by lia. reflexivity. }
    destruct (Nat.leb_spec 2 i), (Nat.leb_spec i num), (Nat.leb_spec 1 (i - 1)), (Nat.leb_spec (i - 1) num), (Nat.leb_spec 1 i); cbn [andb]; try lia; try reflexivity.
    symmetry. apply V. lia.
Qed.
Lemma rotate_one hg vs f : kept_plain 1 vs f -> kept_plain 1 (cur f :: vs) (logrotate hg 1 true f).
Proof. intros K. destruct hg; [|apply rotate_plain; [lia|exact K]]. apply (rotate_plain 1 vs f) in K; [exact K|lia]. Qed.
Lemma run_gen (Q : list N -> files -> Prop) hg num :
  (forall vs f v, Q vs f -> Q vs (mkFiles v (plain f) (gz f))) -> (forall vs f, Q vs f -> Q (cur f :: vs) (logrotate hg num true f)) ->
  (0 < num) -> Q [] (mkFiles empty (fun _ => None) (fun _ => None)) ->
  forall es, Q (snd (history es)) (rot_run hg num es) /\ cur (rot_run hg num es) = fst (history es).
Proof.
  intros W R NP I es. unfold rot_run, history.
  assert (X : forall es f s, Q (snd s) f -> cur f = fst s ->
     Q (snd (fold_left rot_spec es s)) (fold_left (rot_event hg num) es f) /\ cur (fold_left (rot_event hg num) es f) = fst (fold_left rot_spec es s)).
  { clear es. induction es as [|e es IH]; intros f s A B; [auto|]. cbn [fold_left]. apply IH.
    - destruct e as [v|[]]; cbn [rot_event rot_spec snd]; [apply W, A|rewrite <- B; apply R, A|exact A].
    - destruct e as [v|[]]; cbn [rot_event rot_spec fst cur]; [reflexivity| |exact B]. unfold logrotate. destruct num; [lia|reflexivity]. }
  apply X; [exact I|reflexivity].
Qed.
Lemma rotate_zipped_lem num es : 3 <= num ->
  kept_zipped num (snd (history es)) (rot_run true num es) /\ cur (rot_run true num es) = fst (history es).
Proof.
  intros L. apply (run_gen (kept_zipped num)); [intros vs f v H; exact H|intros vs f H; apply rotate_zip; assumption|lia|].
  intros i. cbn. split; [destruct (Nat.eqb i 1); reflexivity|]. destruct (_ && _); [|reflexivity]. destruct i as [|i]; [reflexivity|destruct i; reflexivity].
Qed.
Lemma rotate_plain_lem hg num es : hg = false /\ 1 <= num \/ num = 1 ->
  kept_plain num (snd (history es)) (rot_run hg num es) /\ cur (rot_run hg num es) = fst (history es).
Proof.
  intros H. apply (run_gen (kept_plain num)); [intros vs f v K; exact K| |lia|].
  - intros vs f K. destruct H as [[-> L]| ->]; [apply rotate_plain; assumption|apply rotate_one, K].
  - intros i. cbn. split; [|reflexivity]. destruct (_ && _); [|reflexivity]. destruct i as [|i]; [reflexivity|destruct i; reflexivity].
Qed.
