(** What the net/ conditions stand for. *)
From Coq Require Import List String Ascii NArith ZArith Bool.
From Verif Require Import CondModel CondSpec NetModel.
Import ListNotations.
Local Open Scope string_scope.

(** an interface: gone, or there with its flags *)
Inductive link := Gone | There (up running : bool).
Definition linkmap : Type := string -> link.
Definition say (n : string) (x : link) (m : linkmap) : linkmap := fun k => if String.eqb k n then x else m k.
(** what the kernel has told so far *)
Definition hear (m : linkmap) (x : nmsg) : linkmap :=
  match x with
  | NNewLink ns up running => fold_left (fun m n => say n (There up running) m) ns m
  | NDelLink ns => fold_left (fun m n => say n Gone m) ns m
  | _ => m
  end.
Definition known (m : linkmap) (e : nev) : linkmap :=
  match e with
  | NvRead _ ms nobufs links routes =>
      let m := fold_left hear ms m in
      if nobufs then fold_left hear (links ++ routes) (fun _ => Gone)
      else m
  | _ => m
  end.
Definition links_of (es : list nev) : linkmap := fold_left known es (fun _ => Gone).

(** the interface conditions that should hold *)
Definition exists_ (l : link) : bool := match l with There _ _ => true | Gone => false end.
Definition is_up (l : link) : bool := match l with There u _ => u | Gone => false end.
Definition is_running (l : link) : bool := match l with There _ r => r | Gone => false end.
Definition shown (c : cstore) (name : string) (b : bool) : Prop := cond_get c name = if b then COn else COff.

(** a name the kernel allows for an interface *)
Definition interface_name (n : string) : Prop :=
  n <> "" /\ (String.length n < 16)%nat /\ n <> "." /\ n <> ".." /\
  forall c, In c (list_ascii_of_string n) -> c <> "/"%char /\ c <> ":"%char /\ c <> " "%char /\ ~ (9 <= N_of_ascii c <= 13)%N.
(** dumps of routes hold no link messages *)
Definition only_routes (ms : list nmsg) : Prop :=
  Forall (fun m => match m with NNewLink _ _ _ | NDelLink _ => False | _ => True end) ms.
(** nobody else uses net or net/..., and fewer than 2^32 reloads *)
Definition others (e : nev) : Prop :=
  match e with
  | NvSet n | NvOneshot n | NvClear n => String.prefix "net" n = false
  | NvRead _ _ _ _ routes => only_routes routes
  | NvReload => True
  end.
Definition nreloads (es : list nev) : nat :=
  List.length (filter (fun e => match e with NvReload => true | _ => false end) es).
Definition net_history (es : list nev) : Prop :=
  Forall others es /\ (N.of_nat (nreloads es) < 4294967295)%N.

(** ** The default route *)
(** a route to 0.0.0.0/0 through a gateway or an interface *)
Definition to_anywhere (dst plen gw idx : Z) : Prop := (dst = 0 /\ plen = 0 /\ (gw <> 0 \/ idx <> 0))%Z.
(** the last thing heard about a default route was that it was added *)
Inductive last_added : list nmsg -> bool -> Prop :=
| la_none : last_added [] false
| la_add ms b dst plen gw idx : last_added ms b -> to_anywhere dst plen gw idx -> last_added (ms ++ [NNewRoute dst plen gw idx]) true
| la_del ms b dst plen gw idx : last_added ms b -> to_anywhere dst plen gw idx -> last_added (ms ++ [NDelRoute dst plen gw idx]) false
| la_other ms b m : last_added ms b ->
    (forall dst plen gw idx, m = NNewRoute dst plen gw idx \/ m = NDelRoute dst plen gw idx -> ~ to_anywhere dst plen gw idx) ->
    last_added (ms ++ [m]) b.
(** what was heard since the last time messages were lost, and the answers to the
    questions asked then *)
Definition heard (l : list nmsg) (e : nev) : list nmsg :=
  match e with
  | NvRead _ ms false _ _ => l ++ ms
  | NvRead _ ms true links routes => links ++ routes
  | _ => l
  end.
Definition all_heard (es : list nev) : list nmsg := fold_left heard es [].
(** no interface goes away or loses its link *)
Definition steady_msg (m : nmsg) : Prop :=
  match m with NNewLink _ up running => up = true /\ running = true | NDelLink _ => False | _ => True end.
Definition steady (e : nev) : Prop :=
  match e with NvRead _ ms _ links routes => Forall steady_msg (ms ++ links ++ routes) | _ => True end.
(** the default routes in the kernel: what was added and not deleted *)
Definition route_eqb (a b : Z * Z) : bool := Z.eqb (fst a) (fst b) && Z.eqb (snd a) (snd b).
Fixpoint present (ms : list nmsg) (l : list (Z * Z)) : list (Z * Z) :=
  match ms with
  | [] => l
  | NNewRoute 0 0 gw i :: ms => present ms ((gw, i) :: l)
  | NDelRoute 0 0 gw i :: ms => present ms (filter (fun x => negb (route_eqb (gw, i) x)) l)
  | _ :: ms => present ms l
  end.

(** What finit should believe about the default route when interfaces do go away:
    whether there is one, and the interface it goes through (0 = not known). *)
Record belief := mkBelief { b_route : bool; b_via : Z; b_doubt : bool }.
Definition anywhere (dst plen gw idx : Z) : bool := ((dst =? 0) && (plen =? 0) && negb ((gw =? 0) && (idx =? 0)))%Z.
(** an interface without link is a reason for doubt if the route goes through it, or
    if the kernel does not know it any longer *)
Definition doubtful (idx : string -> Z) (n : string) (b : belief) : belief :=
  if valid_ifname n && ((idx n =? 0) || ((0 <? idx n) && (b_via b =? idx n)))%Z then mkBelief (b_route b) (b_via b) true else b.
Definition believe (idx : string -> Z) (b : belief) (m : nmsg) : belief :=
  match m with
  | NNewRoute dst plen gw i => if anywhere dst plen gw i then mkBelief true i (b_doubt b) else b
  | NDelRoute dst plen gw i => if anywhere dst plen gw i then mkBelief false 0 (b_doubt b) else b
  | NNewLink ns up running => if up && running then b else fold_left (fun b n => doubtful idx n b) ns b
  | NDelLink ns => fold_left (fun b n => doubtful idx n b) ns b
  | NOther => b
  end.
(** In doubt about a route through a known interface, the kernel is asked for its
    routes, and only one through an interface counts.  After lost messages all is
    asked for again. *)
Definition checked (idx : string -> Z) (b : belief) (routes : list nmsg) : belief :=
  let a := fold_left (believe idx) routes (mkBelief false 0 false) in
  if (0 <? b_via b)%Z then (if (0 <? b_via a)%Z then mkBelief true (b_via a) false else mkBelief false 0 false)
  else mkBelief (b_route b) (b_via b) false.
Definition learn (b : belief) (e : nev) : belief :=
  match e with
  | NvRead idx ms nobufs links routes =>
      let b := fold_left (believe idx) ms b in
      if nobufs then fold_left (believe idx) (links ++ routes) (mkBelief false (b_via b) (b_doubt b))
      else if b_doubt b then checked idx b routes else b
  | _ => b
  end.
Definition route_of (es : list nev) : belief := fold_left learn es (mkBelief false 0 false).
(** the message says that interface [n] is gone, down or without link *)
Definition loses (n : string) (m : nmsg) : Prop :=
  match m with
  | NNewLink ns up running => In n ns /\ up && running = false
  | NDelLink ns => In n ns
  | _ => False
  end.
