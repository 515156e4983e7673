(** Model of src/logrotate.c: rotation of a log file. *)
From Coq Require Import List NArith Bool Arith.
Import ListNotations.

(** The files: FILE, FILE.n and FILE.n.gz.  What a file holds is a number standing for
    its text; a compressed file holds the same number. *)
Record files := mkFiles { cur : N; plain : nat -> option N; gz : nat -> option N }.
(** the text of an empty file *)
Definition empty : N := 0%N.

(** rename(2) within one family of names: without a source nothing happens *)
Definition mv (o n : nat) (g : nat -> option N) : nat -> option N :=
  match g o with
  | None => g
  | Some v => fun i => if Nat.eqb i n then Some v else if Nat.eqb i o then None else g i
  end.
Definition put_n (n : nat) (v : option N) (g : nat -> option N) : nat -> option N := fun i => if Nat.eqb i n then v else g i.

(** src/logrotate.c:64-73: the compressed ones, cnt from num down to 3.  Renaming does
    not fail except for want of a source; names are not cut off (num < 1000000). *)
Fixpoint age_gz (cnt : nat) (g : nat -> option N) : nat -> option N :=
  match cnt with
  | S c => if Nat.ltb 2 cnt then age_gz c (mv c cnt g) else g
  | 0 => g
  end.
(** src/logrotate.c:86-91: gzip(1) if it is there; it does not overwrite a file, and
    removes its source *)
Definition zip (has_gzip : bool) (n : nat) (f : files) : files :=
  match plain f n with
  | None => f
  | Some v =>
      if negb has_gzip then f
      else match gz f n with
           | Some _ => f
           | None => mkFiles (cur f) (put_n n None (plain f)) (put_n n (Some v) (gz f))
           end
  end.
(** src/logrotate.c:75-92: cnt from num down to 1 *)
Fixpoint age (has_gzip : bool) (cnt : nat) (f : files) : files :=
  match cnt with
  | S c =>
      let f := mkFiles (cur f) (mv c cnt (plain f)) (gz f) in
      let f := if Nat.eqb cnt 2 then zip has_gzip 2 f else f in
      age has_gzip c f
  | 0 => f
  end.
(** src/logrotate.c:50-107 logrotate: [big] is st_size > sz > 0 for a regular file;
    recreate (src/logrotate.c:32-42) makes the file anew *)
Definition logrotate (has_gzip : bool) (num : nat) (big : bool) (f : files) : files :=
  if negb big then f
  else match num with
       | 0 => mkFiles empty (plain f) (gz f)
       | _ => let f := age has_gzip num (mkFiles (cur f) (plain f) (age_gz num (gz f))) in
              mkFiles empty (put_n 1 (Some (cur f)) (plain f)) (gz f)
       end.

(** what happens: the log gets a new text, the log is looked at *)
Inductive rev := RWrite (v : N) | RRotate (big : bool).
Definition rot_event (has_gzip : bool) (num : nat) (f : files) (e : rev) : files :=
  match e with RWrite v => mkFiles v (plain f) (gz f) | RRotate b => logrotate has_gzip num b f end.
Definition rot_run (has_gzip : bool) (num : nat) (es : list rev) : files :=
  fold_left (rot_event has_gzip num) es (mkFiles empty (fun _ => None) (fun _ => None)).
