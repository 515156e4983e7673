(** Property theorems: log rotation (C37). *)
From Coq Require Import List NArith Bool Arith Lia.
From Verif Require Import RotModel RotSpec RotProof.
Import ListNotations.

(** C37 With gzip and at least three versions to keep: after any sequence of writes
    and rotations exactly the newest [num] versions are there, each in its place. *)
Theorem rotate_zipped num es : 3 <= num ->
  kept_zipped num (snd (history es)) (rot_run true num es) /\ cur (rot_run true num es) = fst (history es).
Proof. exact (rotate_zipped_lem num es). Qed.
Print Assumptions rotate_zipped.

(** C37 The same without gzip, for any number, and with it for one version. *)
Theorem rotate_plain hg num es : hg = false /\ 1 <= num \/ num = 1 ->
  kept_plain num (snd (history es)) (rot_run hg num es) /\ cur (rot_run hg num es) = fst (history es).
Proof. exact (rotate_plain_lem hg num es). Qed.
Print Assumptions rotate_plain.

(** C37 A log that is not too big is left alone; with no versions to keep it is only
    emptied. *)
Theorem rotate_small hg num f : logrotate hg num false f = f /\
  logrotate hg 0 true f = mkFiles empty (plain f) (gz f).
Proof. split; reflexivity. Qed.
Print Assumptions rotate_small.

Definition ex_log : list rev :=
  [RWrite 1; RRotate true; RWrite 2; RRotate false; RWrite 3; RRotate true; RWrite 4; RRotate true; RWrite 5; RRotate true; RWrite 6]%N.
Example rotate_ex : history ex_log = (6, [5; 4; 3; 1])%N /\
  map (plain (rot_run true 3 ex_log)) [0; 1; 2; 3; 4] = [None; Some 5; None; None; None]%N /\
  map (gz (rot_run true 3 ex_log)) [0; 1; 2; 3; 4] = [None; None; Some 4; Some 3; None]%N /\
  map (plain (rot_run false 3 ex_log)) [0; 1; 2; 3; 4] = [None; Some 5; Some 4; Some 3; None]%N.
Proof. repeat split. Qed.

(** C37 With gzip and two versions to keep, three are kept, and the third is not the
    third newest: FILE.2.gz is made once and never replaced. *)
Theorem rotate_two_refuted : exists es v1 v2 v3 v4,
  snd (history es) = [v4; v3; v2; v1] /\ NoDup [v4; v3; v2; v1] /\
  holds (rot_run true 2 es) v4 /\ holds (rot_run true 2 es) v3 /\ ~ holds (rot_run true 2 es) v2 /\ holds (rot_run true 2 es) v1.
Proof.
  exists [RWrite 1; RRotate true; RWrite 2; RRotate true; RWrite 3; RRotate true; RWrite 4; RRotate true]%N, 1%N, 2%N, 3%N, 4%N.
  split; [reflexivity|]. split; [repeat (apply NoDup_cons; [cbn; intuition discriminate|]); apply NoDup_nil|].
  split; [exists 1; left; reflexivity|]. split; [exists 2; left; reflexivity|]. split; [|exists 2; right; reflexivity].
  intros (i & [H|H]).
  - destruct i as [|[|[|i]]]; discriminate H.
  - destruct i as [|[|[|i]]]; discriminate H.
Qed.
Print Assumptions rotate_two_refuted.
