(** Property theorems: device conditions (C39). *)
From Coq Require Import List String Ascii NArith ZArith Bool Lia.
From Coq Require Import ZifyBool ZifyNat ZifyN.
From Verif Require Import CondModel CondSpec CondProof DevModel DevSpec DevProof.
Import ListNotations.
Local Open Scope string_scope.

Lemma file_ok n : n <> "" -> DevModel.has_slash n = false -> file_name n.
Proof.
  intros H S. split; [exact H|]. clear H. induction n as [|c n IH]; [intros []|]. cbn in *. apply orb_false_iff in S. destruct S as [S1 S2].
  intros [->|Hi]; [discriminate S1|]. exact (IH S2 Hi).
Qed.
Lemma device_ok d n c : file_dir d -> file_name n -> c = dev_name d n -> device c.
Proof. intros. exists d, n. auto. Qed.
Ltac fn := apply file_ok; [discriminate|reflexivity].
Ltac dev1 := lazymatch goal with
  | |- dev_ok (DvAdd ?c) => left
  | |- dev_ok (DvDel _) => exact Logic.I
  | |- dev_ok (DvFile None _ _) => split; [exact Logic.I|fn]
  | |- dev_ok (DvFile _ _ _) => split; [fn|fn]
  | |- dev_ok (DvDir None _ _ _ _) => split; [exact Logic.I|split; [fn|repeat (apply Forall_cons; [fn|]); apply Forall_nil]]
  | |- dev_ok (DvOp OpReload) => intros ? []
  end.

(** C39 A device is tracked as soon as one stanza waits for it, and for good. *)
Theorem dev_tracked es c : dev_history es -> device c -> (find_node c (dev_run es) = true <-> waits es c).
Proof. exact (dev_tracked_lem es c). Qed.
Print Assumptions dev_tracked.

(** C39 The condition of a node in /dev or in a watched directory is on from the
    moment its creation is seen while some stanza waits for it until its removal is
    seen, except that a reload leaves it in flux; events of other nodes and
    directories, other stanzas and other conditions do not touch it. *)
Theorem dev_condition es d n x : dev_history es -> file_dir d -> file_name n -> good_name (dev_name d n) = true ->
  dev_shows d n es x -> view (cond_get (d_cond (dev_run es)) (dev_name d n)) = x.
Proof. exact (dev_name_good es d n x). Qed.
Print Assumptions dev_condition.

Definition ex_dev : list dev :=
  [DvAdd "dev/modem"; DvAdd "dev/snd/c0"; DvDir None "snd" true (Some true) []; DvFile (Some "snd") "c0" true;
   DvFile None "other" true; DvDel "dev/modem"; DvFile None "modem" true; DvFile None "modem" false].
Lemma dev_ok_ex : dev_history ex_dev.
Proof.
  split; [|split; [reflexivity|split; [reflexivity|reflexivity]]].
  repeat (apply Forall_cons; [dev1|]); [| |apply Forall_nil].
  - apply (device_ok None "modem"); [exact Logic.I|fn|reflexivity].
  - apply (device_ok (Some "snd") "c0"); [fn|fn|reflexivity].
Qed.
Example dev_condition_ex : dev_history ex_dev /\ dev_shows None "modem" ex_dev Off /\ dev_shows (Some "snd") "c0" ex_dev On /\
  cond_get (d_cond (dev_run ex_dev)) "dev/modem" = COff /\ cond_get (d_cond (dev_run ex_dev)) "dev/snd/c0" = COn.
Proof.
  split; [apply dev_ok_ex|]. split; [|split; [|split; reflexivity]].
  - change ex_dev with (((((((([] ++ [DvAdd "dev/modem"]) ++ [DvAdd "dev/snd/c0"]) ++ [DvDir None "snd" true (Some true) []]) ++
      [DvFile (Some "snd") "c0" true]) ++ [DvFile None "other" true]) ++ [DvDel "dev/modem"]) ++ [DvFile None "modem" true]) ++ [DvFile None "modem" false])%list.
    eapply ds_gone; [|reflexivity|cbn; auto]. eapply ds_made; [|reflexivity|cbn; auto].
    do 6 (apply ds_other; [|discriminate|intros b; try discriminate]). apply ds_none.
  - change ex_dev with (((((((([] ++ [DvAdd "dev/modem"]) ++ [DvAdd "dev/snd/c0"]) ++ [DvDir None "snd" true (Some true) []]) ++
      [DvFile (Some "snd") "c0" true]) ++ [DvFile None "other" true]) ++ [DvDel "dev/modem"]) ++ [DvFile None "modem" true]) ++ [DvFile None "modem" false])%list.
    do 4 (apply ds_other; [|discriminate|intros b; try discriminate]). eapply ds_made; [|reflexivity|cbn; auto].
    do 3 (apply ds_other; [|discriminate|intros b; try discriminate]). apply ds_none.
Qed.

(** C39 Never dropped: with as many removals as registrations the device is still
    tracked. *)
Theorem dev_release_refuted : exists es c,
  dev_history es /\ device c /\ adds es c = dels es c /\ find_node c (dev_run es) = true.
Proof.
  exists [DvAdd "dev/modem"; DvDel "dev/modem"], "dev/modem". split.
  - split; [|split; [reflexivity|split; [reflexivity|reflexivity]]]. repeat (apply Forall_cons; [dev1|]); [|apply Forall_nil].
    apply (device_ok None "modem"); [exact Logic.I|fn|reflexivity].
  - split; [apply (device_ok None "modem"); [exact Logic.I|fn|reflexivity]|]. split; reflexivity.
Qed.
Print Assumptions dev_release_refuted.

(** C39 A node that is there, with a stanza waiting for it, can have its condition
    off: when the stanza is read after the node was made... *)
Theorem dev_late_refuted : exists es d n,
  dev_history es /\ In (dev_name d n) (nodes_there es) /\ waits es (dev_name d n) /\ watched es d = true /\
  cond_get (d_cond (dev_run es)) (dev_name d n) = COff.
Proof.
  exists [DvFile None "modem" true; DvAdd "dev/modem"], None, "modem". split.
  - split; [|split; [reflexivity|split; [reflexivity|reflexivity]]]. repeat (apply Forall_cons; [dev1|]); [|apply Forall_nil].
    apply (device_ok None "modem"); [exact Logic.I|fn|reflexivity].
  - split; [cbn; auto|]. split; [cbn; auto|]. split; reflexivity.
Qed.
Print Assumptions dev_late_refuted.

(** ... when it was made in a new directory before the directory was watched: the
    scan of the new directory looks for a name with the directory in it twice... *)
Theorem dev_scan_refuted : exists es a n,
  dev_history es /\ es = [DvAdd (dev_name (Some a) n); DvDir None a true (Some true) [n]] /\
  In (dev_name (Some a) n) (nodes_there es) /\ watched es (Some a) = true /\
  cond_get (d_cond (dev_run es)) (dev_name (Some a) n) = COff.
Proof.
  exists [DvAdd "dev/snd/c0"; DvDir None "snd" true (Some true) ["c0"]], "snd", "c0". split.
  - split; [|split; [reflexivity|split; [reflexivity|reflexivity]]]. repeat (apply Forall_cons; [dev1|]); [|apply Forall_nil].
    apply (device_ok (Some "snd") "c0"); [fn|fn|reflexivity].
  - split; [reflexivity|]. split; [cbn; auto|]. split; reflexivity.
Qed.
Print Assumptions dev_scan_refuted.

(** ... and it is in flux after any reload, until the node is made anew. *)
Theorem dev_reload_refuted : exists es d n,
  dev_history es /\ In (dev_name d n) (nodes_there es) /\ waits es (dev_name d n) /\
  cond_get (d_cond (dev_run es)) (dev_name d n) = COn /\
  cond_get (d_cond (dev_run (es ++ [DvOp OpReload])%list)) (dev_name d n) = CFlux.
Proof.
  exists [DvAdd "dev/modem"; DvFile None "modem" true], None, "modem". split.
  - split; [|split; [reflexivity|split; [reflexivity|reflexivity]]]. repeat (apply Forall_cons; [dev1|]); [|apply Forall_nil].
    apply (device_ok None "modem"); [exact Logic.I|fn|reflexivity].
  - split; [cbn; auto|]. split; [cbn; auto|]. split; reflexivity.
Qed.
Print Assumptions dev_reload_refuted.
