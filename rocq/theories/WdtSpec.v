(** What C74 means. *)
From Coq Require Import List ZArith.
From Verif Require Import WdtModel.
Import ListNotations.
(** the device is given back safely *)
Definition handed_over (l : list wop) : Prop := exists t, l = t ++ [Ping; Magic; Close].
(** a reset is due: the time was cut to ten seconds and then to one *)
Definition cut_short (l : list wop) : Prop := exists t u, l = t ++ SetTimeout 10 :: u /\ forall n, In (SetTimeout n) u -> n = 1%Z.
(** keep alive, n times *)
Definition kept_alive (n : nat) : list wop := concat (repeat [Ping; Nap] n).
