(** C76: the drivers of the devices there are at boot. *)
From Coq Require Import List String Ascii NArith Bool Lia.
From Verif Require Import CStr CStrLib PlugModel PlugSpec PlugProof.
Import ListNotations.

(** The alias every uevent and modalias file names is given to modprobe(8), and init
    goes on... *)
Theorem coldplug_loaded : forall files f a, In f files -> names f a ->
  In a (fst (coldplug true true true files)) /\ snd (coldplug true true true files) = Init.
Proof. exact loaded_ok. Qed.
(** ...each once... *)
Theorem coldplug_once : forall mods sys found files, NoDup (fst (coldplug mods sys found files)).
Proof. exact once_ok. Qed.
(** ...in the order they are found in... *)
Theorem coldplug_order : forall files f a, names f a -> ~ In a (fst (coldplug true true true files)) ->
  fst (coldplug true true true (files ++ [f])) = fst (coldplug true true true files) ++ [a].
Proof. exact order_ok. Qed.
(** ...and nothing else, nor without modules or /sys. *)
Theorem coldplug_only : forall mods sys found files a, (forall f, In f files -> silent f \/ exists b, names f b) -> In a (fst (coldplug mods sys found files)) ->
  mods = true /\ sys = true /\ found = true /\ exists f, In f files /\ names f a.
Proof. exact only_ok. Qed.
(** Claim that is false: it is init that goes on with the boot.  Where modprobe(8) is
    not installed and there is a device, it is a child, while init waits for it. *)
Theorem coldplug_clone_refuted : forall files f a, In f files -> names f a -> exists c, coldplug true true false files = ([], Child c).
Proof. exact clone_ok. Qed.
(** Claim that is false: the alias is what the file says.  Of a long one it is the
    beginning. *)
Theorem coldplug_long_refuted : forall f l t, f_reg f = true -> f_name f = #"modalias" -> f_text f = l ++ eol :: t -> ~ In eol l -> (255 < N.of_nat (List.length l))%N ->
  fst (coldplug true true true [f]) = [firstn (N.to_nat 255) l] /\ firstn (N.to_nat 255) l <> l.
Proof. exact long_ok. Qed.

Definition dev1 : sysfile := {| f_name := #"uevent"; f_reg := true; f_text := #"DRIVER=x" ++ [eol] ++ #"MODALIAS=pci:v1" ++ [eol] |}.
Definition dev2 : sysfile := {| f_name := #"modalias"; f_reg := true; f_text := #"pci:v1" ++ [eol] |}.
Definition dev3 : sysfile := {| f_name := #"modalias"; f_reg := true; f_text := #"usb:v2" ++ [eol] |}.
Definition dev4 : sysfile := {| f_name := #"power"; f_reg := true; f_text := #"MODALIAS=no" ++ [eol] |}.
Example coldplug_met : coldplug true true true [dev4; dev1; dev2; dev3] = ([#"pci:v1"; #"usb:v2"], Init).
Proof. vm_compute. reflexivity. Qed.
Example coldplug_names_met : names dev1 #"pci:v1" /\ names dev2 #"pci:v1" /\ silent dev4.
Proof.
  split; [|split].
  - apply (names_uevent dev1 [#"DRIVER=x"] #"pci:v1" []); [reflexivity|reflexivity| | |].
    + apply (text_line #"DRIVER=x" [#"MODALIAS=pci:v1"] (#"MODALIAS=pci:v1" ++ [eol])); [cbn; intuition discriminate|].
      apply (text_line #"MODALIAS=pci:v1" [] []); [cbn; intuition discriminate|apply text_nil].
    + intros l x [<-|[]] X. discriminate X.
    + repeat (apply Forall_cons; [reflexivity|]). apply Forall_nil.
  - apply (names_modalias dev2 #"pci:v1" []); [reflexivity|reflexivity| |].
    + apply (text_line #"pci:v1" [] []); [cbn; intuition discriminate|apply text_nil].
    + repeat (apply Forall_cons; [reflexivity|]). apply Forall_nil.
  - apply silent_name; discriminate.
Qed.
Example coldplug_clone_met : coldplug true true false [dev4; dev1; dev2; dev3] = ([], Child (Child Init)).
Proof. vm_compute. reflexivity. Qed.
Example coldplug_long_met : ~ In eol (repeat "a"%char (N.to_nat 300)) /\ (255 < N.of_nat (List.length (repeat "a"%char (N.to_nat 300))))%N.
Proof. split; [intros H; apply repeat_spec in H; discriminate|]. rewrite repeat_length. lia. Qed.

Print Assumptions coldplug_loaded.
Print Assumptions coldplug_once.
Print Assumptions coldplug_order.
Print Assumptions coldplug_only.
Print Assumptions coldplug_clone_refuted.
Print Assumptions coldplug_long_refuted.
