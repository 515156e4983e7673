(** C03, C04, C05: conditions. *)
From Coq Require Import List String NArith Bool.
From Verif Require Import CondModel CondSpec CondProof.
Import ListNotations.
Local Open Scope string_scope.

(** C05: along any history the store behaves like a map from names to
    {unset, for good, at a generation}. *)
Theorem cond_store_refines : forall os n,
  good_history os = true -> good_name n = true ->
  view (cond_get (run os) n) = spec_get (spec_run os) n.
Proof. exact store_refines_lem. Qed.
Print Assumptions cond_store_refines.

Example cond_store_refines_ex :
  good_history [OpSet "pid/a"; OpOneshot "hook/sys/up"; OpReload; OpSet "net/eth0/up"; OpClear "pid/b"; OpReload; OpSet "pid/a"] = true
  /\ map (fun n => view (cond_get (run [OpSet "pid/a"; OpOneshot "hook/sys/up"; OpReload; OpSet "net/eth0/up"; OpClear "pid/b"; OpReload; OpSet "pid/a"]) n))
         ["pid/a"; "hook/sys/up"; "net/eth0/up"; "pid/b"] = [On; On; Flux; Off].
Proof. vm_compute; auto. Qed.

(** C05: an operation on one condition leaves every other condition alone
    (two conditions are the same iff their first 43 characters agree). *)
Theorem cond_independent : forall cs o m,
  o <> OpReload ->
  (forall n, In n (op_names o) -> substring 0 43 m <> substring 0 43 n) ->
  cond_get (step cs o) m = cond_get cs m.
Proof. exact step_other_lem. Qed.
Print Assumptions cond_independent.

Example cond_independent_ex :
  cond_get (step (run [OpSet "pid/a"]) (OpClear "pid/b")) "pid/a" = COn.
Proof. vm_compute; reflexivity. Qed.

(** C05: while <q> is asserted, nothing below it can be. *)
Theorem cond_clash : forall cs n q e,
  In (q, e) (ents cs) -> String.prefix (q ++ "/") (substring 0 43 n) = true ->
  step cs (OpSet n) = cs /\ step cs (OpOneshot n) = cs.
Proof. exact clash_lem. Qed.
Print Assumptions cond_clash.

Example cond_clash_ex :
  In ("usr/a", Gen 1) (ents (run [OpSet "usr/a"])) /\ String.prefix ("usr/a" ++ "/") (substring 0 43 "usr/a/b") = true.
Proof. vm_compute; auto. Qed.

(** C05 in full generality is false: two different names, asserting one
    asserts the other. *)
Theorem cond_independent_refuted : exists os n m,
  n <> m /\ cond_get (run os) m = COff /\ cond_get (run (os ++ [OpSet n])) m = COn.
Proof.
  exists [], "net/a-very-long-interface-name-0123456789/exist-one", "net/a-very-long-interface-name-0123456789/exist-two".
  split; [discriminate|]. vm_compute; auto.
Qed.
Print Assumptions cond_independent_refuted.

(** C03: the combined state is the weakest member. *)
Theorem cond_agg_weakest : forall cs names,
  agg_spec (map (fun n => view (cond_get cs n)) names) (view (cond_get_agg cs names)).
Proof. exact agg_spec_lem. Qed.
Print Assumptions cond_agg_weakest.

Theorem cond_agg_empty : forall cs, cond_get_agg cs [] = COn.
Proof. reflexivity. Qed.

(** C03: order and repetition do not matter. *)
Theorem cond_agg_set : forall cs l1 l2,
  (forall n, In n l1 <-> In n l2) -> cond_get_agg cs l1 = cond_get_agg cs l2.
Proof. exact agg_set_equal. Qed.
Print Assumptions cond_agg_set.

Example cond_agg_set_ex :
  cond_get_agg (run [OpSet "a"; OpReload; OpSet "b"]) ["a"; "b"] = CFlux
  /\ cond_get_agg (run [OpSet "a"; OpReload; OpSet "b"]) ["b"; "a"; "b"] = CFlux
  /\ cond_get_agg (run [OpSet "a"; OpReload; OpSet "b"]) ["b"; "c"; "a"] = COff
  /\ cond_get_agg (run [OpSet "a"; OpReload; OpSet "b"]) ["b"] = COn.
Proof. vm_compute; auto. Qed.

(** C04: after a reload, whatever happened before (any names at all), a
    condition asserted with a generation reads flux, a one-shot condition
    reads on and an absent one reads off -- as long as fewer than 2^32 - 2
    reloads happened. *)
Theorem reload_flux : forall os n,
  (N.of_nat (reloads os) + 2 < 4294967296)%N ->
  view (cond_get (run (os ++ [OpReload])) n) =
  match lookup (cond_path n) (ents (run os)) with
  | None => Off | Some Oneshot => On | Some (Gen _) => Flux end.
Proof. exact reload_history_lem. Qed.
Print Assumptions reload_flux.

Example reload_flux_ex :
  map (fun n => view (cond_get (run ([OpSet "pid/a"; OpOneshot "usr/x"] ++ [OpReload])) n))
      ["pid/a"; "usr/x"; "pid/b"] = [Flux; On; Off].
Proof. vm_compute; reflexivity. Qed.

(** C04 without the bound is false: the generation counter is 32 bits wide;
    when it wraps to 0 every condition, one-shot ones included, reads off. *)
Theorem reload_wrap_refuted : exists cs n,
  reconf cs = 4294967295%N /\ cond_get cs n = COn
  /\ lookup n (ents cs) = Some Oneshot /\ cond_get (cond_reload cs) n = COff.
Proof.
  exists (mkCstore 4294967295 [("hook/sys/up", Oneshot)]), "hook/sys/up".
  vm_compute; auto.
Qed.
Print Assumptions reload_wrap_refuted.
