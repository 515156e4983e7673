(** What C62 means. *)
From Coq Require Import List String Ascii NArith ZArith Bool.
From Verif Require Import CStr ParseSpec.
Import ListNotations.

(** the types of supplies that are mains power *)
Definition ac_type (t : cstr) : Prop := exists n r, In n [#"Mains"; #"USB"; #"BrickID"; #"Wireless"] /\ t = n ++ r.
(** a supply, by the first lines of its files; only what is mains has to be
    readable *)
Inductive supply : option cstr * option cstr -> list bool -> Prop :=
| sup_ac : forall t v n, ac_type t -> (List.length v < 10)%nat -> number v n -> supply (Some t, Some v) [negb (Z.eqb n 0)]
| sup_no : forall t v, ~ ac_type t -> supply (Some t, v) []
| sup_unread : forall v, supply (None, v) [].
(** the state of all supplies that are mains *)
Inductive supplies : list (option cstr * option cstr) -> list bool -> Prop :=
| sups_none : supplies [] []
| sups_more : forall s l a b, supply s a -> supplies l b -> supplies (s :: l) (a ++ b).

Definition var (name line : cstr) : Prop := exists v, line = name ++ v.
Notation is_type := (var #"POWER_SUPPLY_TYPE=").
Notation is_online := (var #"POWER_SUPPLY_ONLINE=").
(** a message fits in the buffer *)
Definition fits (m : list cstr) : Prop := (list_sum (map (@List.length _) m) + List.length m < N.to_nat 1024)%nat.
(** the message of the kernel on a change of a mains supply *)
Inductive reports : list cstr -> bool -> Prop :=
| rep : forall x y l1 l2 l3 t v n, ac_type t -> number v n ->
    Forall (fun l => ~ is_online l /\ ~ is_type l) (l1 ++ l2 ++ l3) ->
    let h := #"change@" ++ x ++ #"power_supply" ++ y in
    let m := h :: l1 ++ (#"POWER_SUPPLY_TYPE=" ++ t) :: l2 ++ (#"POWER_SUPPLY_ONLINE=" ++ v) :: l3 in
    fits m -> reports m (negb (Z.eqb n 0)).
(** any message that says nothing about a mains supply: of another kind, of
    another subsystem, of another supply such as a battery, or without its state *)
Inductive silent : list cstr -> Prop :=
| sil_kind : forall h l, ~ var #"change@" h -> fits (h :: l) -> silent (h :: l)
| sil_sub : forall h l, (forall a b, h <> a ++ #"power_supply" ++ b) -> fits (h :: l) -> silent (h :: l)
| sil_type : forall m, (forall t, In (#"POWER_SUPPLY_TYPE=" ++ t) m -> ~ ac_type t) -> fits m -> silent m
| sil_state : forall m, (forall l, In l m -> ~ is_online l) -> fits m -> silent m.

(** Histories: the state of the mains supplies before, the messages, the state after. *)
Inductive history : list bool -> list (list cstr) -> list bool -> Prop :=
| h_end : forall w, history w [] w
| h_silent : forall w m ms w', silent m -> history w ms w' -> history w (m :: ms) w'
| h_report : forall a b c m ms w', reports m (negb b) -> history (a ++ negb b :: c) ms w' -> history (a ++ b :: c) (m :: ms) w'.
