(** C77: plugins are called after those they depend on. *)
From Coq Require Import List String Ascii Bool Permutation Lia.
From Verif Require Import CStr CStrLib DepModel DepSpec DepProof.
Import ListNotations.

(** Every plugin of the directory is loaded, once, in whatever order they are found... *)
Theorem plugins_loaded : forall dir, unique dir -> acyclic dir -> exists s, load_plugins dir = Some s /\ Permutation (plugins s) dir.
Proof. exact once_ok. Qed.
(** ...at each hook the callbacks of all that have one are called, once... *)
Theorem plugins_called : forall dir s n hook, unique dir -> acyclic dir -> load_plugins dir = Some s ->
  NoDup (called s hook) /\ (In n (called s hook) <-> exists p, In p dir /\ g_name p = n /\ In hook (g_hooks p)).
Proof. exact called_ok. Qed.
(** ...and that of a plugin after those of all it depends on. *)
Theorem plugins_order : forall dir s p q hook, unique dir -> acyclic dir -> load_plugins dir = Some s -> depends dir p q ->
  In hook (g_hooks p) -> In hook (g_hooks q) -> before (called s hook) (g_name q) (g_name p).
Proof. exact order_ok. Qed.
(** Claim that is false: a plugin is called only if what it depends on is there. *)
Theorem plugins_missing_refuted : forall dir s p d hook, unique dir -> acyclic dir -> load_plugins dir = Some s -> In p dir ->
  In d (g_deps p) -> (forall q, In q dir -> g_name q <> d) -> In hook (g_hooks p) -> In (g_name p) (called s hook).
Proof. exact missing_ok. Qed.

(** some that come with Finit *)
Definition some : list plug := [
  {| g_name := #"urandom"; g_deps := [#"bootmisc"]; g_hooks := [4; 12] |};
  {| g_name := #"bootmisc"; g_deps := [#"pidfile"]; g_hooks := [3; 4] |};
  {| g_name := #"modprobe"; g_deps := [#"bootmisc"]; g_hooks := [4] |};
  {| g_name := #"pidfile"; g_deps := [#"netlink"]; g_hooks := [4] |}].
Definition some_level (p : plug) : nat :=
  if str_eqb (g_name p) #"pidfile" then 0 else if str_eqb (g_name p) #"bootmisc" then 1 else 2.
Example plugins_hyps_met : unique some /\ acyclic some.
Proof.
  split.
  - unfold unique. cbn [some map g_name]. repeat (apply NoDup_cons; [cbn; intuition discriminate|]). apply NoDup_nil.
  - exists some_level. split.
    + intros p [<-|[<-|[<-|[<-|[]]]]]; cbn; lia.
    + intros p q (P & Q & D). destruct P as [<-|[<-|[<-|[<-|[]]]]]; destruct Q as [<-|[<-|[<-|[<-|[]]]]]; cbn in D;
        destruct D as [D|[]]; try discriminate D; cbn; lia.
Qed.
Example plugins_met : match load_plugins some with
                      | Some s => called s 4 = [#"pidfile"; #"bootmisc"; #"urandom"; #"modprobe"] /\ called s 12 = [#"urandom"]
                      | None => False
                      end.
Proof. split; reflexivity. Qed.
Example plugins_missing_met : forall q, In q some -> g_name q <> #"netlink".
Proof. intros q [<-|[<-|[<-|[<-|[]]]]]; discriminate. Qed.

Print Assumptions plugins_loaded.
Print Assumptions plugins_called.
Print Assumptions plugins_order.
Print Assumptions plugins_missing_refuted.
