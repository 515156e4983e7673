(** Property theorems: the conditions of network interfaces and of the default
    route (C38). *)
From Coq Require Import List String Ascii NArith ZArith Bool Lia.
From Coq Require Import ZifyBool ZifyNat ZifyN.
From Verif Require Import CondModel CondSpec NetModel NetSpec NetProof.
Import ListNotations.
Local Open Scope string_scope.

(** C38 After any sequence of messages from the kernel, with messages lost and asked
    for again, with reloads and with other conditions set and cleared in between, the
    conditions net/IF/exist, net/IF/up and net/IF/running are on exactly when the
    last thing the kernel said about IF was that it exists, is up and is running,
    and otherwise off: never in flux, for an IF no message named, or left over. *)
Theorem net_links es n : net_history es -> interface_name n ->
  shown (n_cond (nl_run es)) ("net/" ++ n ++ "/exist") (exists_ (links_of es n)) /\
  shown (n_cond (nl_run es)) ("net/" ++ n ++ "/up") (is_up (links_of es n)) /\
  shown (n_cond (nl_run es)) ("net/" ++ n ++ "/running") (is_running (links_of es n)).
Proof. exact (net_links_lem es n). Qed.
Print Assumptions net_links.
Definition ex_idx (n : string) : Z := if String.eqb n "eth0" then 2%Z else if String.eqb n "eth1" then 3%Z else 0%Z.
Definition ex_net : list nev :=
  [NvRead ex_idx [NNewLink ["eth0"] true false; NNewLink ["eth1"] true true; NNewRoute 0 0 1 3] false [] [];
   NvSet "usr/a"; NvReload;
   NvRead ex_idx [NNewLink ["eth0"] true true] true [NNewLink ["eth0"] true true] [NNewRoute 0 0 1 2]].
Example net_links_ex : net_history ex_net /\ interface_name "eth0" /\ interface_name "eth1" /\
  links_of ex_net "eth0" = There true true /\ links_of ex_net "eth1" = Gone /\
  shown (n_cond (nl_run ex_net)) "net/eth0/running" true /\ shown (n_cond (nl_run ex_net)) "net/eth1/running" false.
Proof.
  split; [split; [repeat constructor|reflexivity]|].
  split; [apply valid_iff; reflexivity|]. split; [apply valid_iff; reflexivity|].
  split; [reflexivity|]. split; [reflexivity|]. split; reflexivity.
Qed.

(** C38 net/route/default: as long as no interface goes down, it is on exactly when
    the last message about a default route was that one was added. *)
Theorem net_route es b : net_history es -> Forall steady es -> last_added (all_heard es) b ->
  shown (n_cond (nl_run es)) "net/route/default" b.
Proof. exact (net_route_lem es b). Qed.
Print Assumptions net_route.
Definition ex_route : list nev :=
  [NvRead ex_idx [NNewLink ["eth0"] true true; NNewRoute 0 0 1 2] false [] []; NvReload;
   NvRead ex_idx [NDelRoute 10 8 1 2] false [] []].
Example net_route_ex : net_history ex_route /\ Forall steady ex_route /\ last_added (all_heard ex_route) true /\
  shown (n_cond (nl_run ex_route)) "net/route/default" true.
Proof.
  split; [split; [repeat constructor|reflexivity]|]. split; [repeat constructor|]. split; [|reflexivity].
  change (all_heard ex_route) with ((([] ++ [NNewLink ["eth0"] true true]) ++ [NNewRoute 0 0 1 2]) ++ [NDelRoute 10 8 1 2])%list.
  apply la_other; [eapply la_add; [apply la_other; [apply la_none|]|]|].
  - intros ? ? ? ? [H|H]; discriminate H.
  - unfold to_anywhere. lia.
  - intros ? ? ? ? [H|H]; inversion H. unfold to_anywhere. lia.
Qed.

(** C38 In every history, with interfaces going down and away: it is what the last
    message about a default route said, except that when the interface of that route
    loses its link (or any interface vanishes) the kernel is asked for its routes, and
    the answer counts. *)
Theorem net_route_believed es : net_history es -> shown (n_cond (nl_run es)) "net/route/default" (b_route (route_of es)).
Proof. exact (net_route_believed_lem es). Qed.
Print Assumptions net_route_believed.
(** So when the interface of the default route loses its link, and the kernel lists no
    other default route, the condition is off. *)
Theorem net_route_lost es idx ms d links routes n : net_history (es ++ [NvRead idx (ms ++ [d]) false links routes]) ->
  loses n d -> interface_name n -> (0 < idx n)%Z -> b_via (fold_left (believe idx) ms (route_of es)) = idx n ->
  Forall (fun m => forall dst plen gw i, m = NNewRoute dst plen gw i -> ~ to_anywhere dst plen gw i) routes ->
  shown (n_cond (nl_run (es ++ [NvRead idx (ms ++ [d]) false links routes]))) "net/route/default" false.
Proof. exact (net_route_lost_lem es idx ms d links routes n). Qed.
Print Assumptions net_route_lost.
Definition ex_down : list nev := [NvRead ex_idx ([NOther] ++ [NNewLink ["eth0"] true false]) false [] [NNewRoute 10 8 1 3]].
Definition ex_other : list nev := [NvRead ex_idx [NNewLink ["eth0"] true false] false [] [NNewRoute 0 0 1 3]].
Example net_route_lost_ex : net_history (ex_route ++ ex_down) /\ loses "eth0" (NNewLink ["eth0"] true false) /\
  interface_name "eth0" /\ b_via (fold_left (believe ex_idx) [NOther] (route_of ex_route)) = ex_idx "eth0" /\
  shown (n_cond (nl_run ex_route)) "net/route/default" true /\
  shown (n_cond (nl_run (ex_route ++ ex_down))) "net/route/default" false /\
  net_history (ex_route ++ ex_other) /\ b_via (route_of (ex_route ++ ex_other)) = 3%Z /\
  shown (n_cond (nl_run (ex_route ++ ex_other))) "net/route/default" true.
Proof.
  split; [split; [repeat constructor|reflexivity]|]. split; [split; [left; reflexivity|reflexivity]|].
  split; [apply valid_iff; reflexivity|]. split; [reflexivity|]. split; [reflexivity|]. split; [reflexivity|].
  split; [split; [repeat constructor|reflexivity]|]. split; reflexivity.
Qed.

(** C38 The condition does not say that there is a default route: with two of them,
    deleting one turns it off. *)
Theorem net_route_refuted : exists es,
  net_history es /\ Forall steady es /\
  present (all_heard es) [] <> [] /\ shown (n_cond (nl_run es)) "net/route/default" false.
Proof.
  exists [NvRead ex_idx [NNewLink ["eth0"; "eth1"] true true; NNewRoute 0 0 1 2; NNewRoute 0 0 9 3; NDelRoute 0 0 9 3] false [] []].
  split; [split; [repeat constructor|reflexivity]|]. split; [repeat constructor|]. split; [discriminate|reflexivity].
Qed.
Print Assumptions net_route_refuted.
