(** What log rotation leaves behind. *)
From Coq Require Import List NArith Bool Arith.
From Verif Require Import RotModel.
Import ListNotations.

(** the texts the log had when it was rotated, newest first, and what it holds now *)
Definition rot_spec (s : N * list N) (e : rev) : N * list N :=
  match e with
  | RWrite v => (v, snd s)
  | RRotate true => (empty, fst s :: snd s)
  | RRotate false => s
  end.
Definition history (es : list rev) : N * list N := fold_left rot_spec es (empty, []).
(** version number i: 1 is the newest *)
Definition version (vs : list N) (i : nat) : option N := match i with 0 => None | S i => nth_error vs i end.
(** exactly the newest [num] versions are kept, FILE.1 as it was and the older ones
    compressed *)
Definition kept_zipped (num : nat) (vs : list N) (f : files) : Prop :=
  forall i, plain f i = (if Nat.eqb i 1 then version vs 1 else None) /\
            gz f i = (if Nat.leb 2 i && Nat.leb i num then version vs i else None).
(** exactly the newest [num] versions are kept, none compressed *)
Definition kept_plain (num : nat) (vs : list N) (f : files) : Prop :=
  forall i, plain f i = (if Nat.leb 1 i && Nat.leb i num then version vs i else None) /\ gz f i = None.
(** all old versions there are *)
Definition holds (f : files) (v : N) : Prop := exists i, plain f i = Some v \/ gz f i = Some v.
