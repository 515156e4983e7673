(** Specification for C50: requests take effect. *)
From Coq Require Import List String Ascii ZArith NArith Bool.
From Verif Require Import CondModel CoreTypes CoreModel CoreSpec.
Import ListNotations.

(** [x] is the first thing that happens after request [r] for stanza [k] was
    taken, and that the first thing that happens after [l0] *)
Definition answered (l0 l : log) (k : nat) (r : rq) (x : eff) : Prop :=
  exists newer c c0, l = newer ++ (c, x) :: (c0, ERequest k r) :: l0.

(** the stanza without what keeps it from running on its own account: stopped by
    the user, crashed too often, missing program... *)
Definition released (s : svc) : svc := set_s_block BNone s.
