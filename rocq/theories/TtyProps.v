(** C63: the tty stanza. *)
From Coq Require Import List String Ascii NArith ZArith Bool Lia.
From Verif Require Import CStr TtyModel TtySpec TtyProof.
Import ListNotations.

(** The options may be anywhere in the line; the first program in it, or finit's
    own getty, is run with the other words in order, on the device that is named
    first, or once on each console. *)
Theorem tty_starts : forall W id l r cmd args d devs, (List.length l < 64)%nat -> plain l r -> ~ In #"notty" l -> ~ In #"rescue" l ->
  runs W (In #"passenv" l) r cmd args -> first_device args d -> means W d devs ->
  (List.length d < 75)%nat -> Forall (fun x => (List.length x < 32)%nat) devs ->
  exists ss, tty_register W id l = Some ss /\ map s_dev ss = devs /\ Forall (svc_right l cmd args) ss /\
    forall s n, In s ss -> id = [] -> id_of (s_dev s) n -> s_id s = n.
Proof. exact starts_right. Qed.
Print Assumptions tty_starts.

Definition world : ttyworld := {| which := fun c => str_eqb c #"/sbin/getty" || str_eqb c #"screen";
  node := fun d => if str_eqb d #"/dev/ttyS0" || str_eqb d #"/dev/tty1" || str_eqb d #"/dev/pts/1" then Some true else None; consoles := [#"tty1"; #"ttyS0"] |}.
Ltac notin := let I := fresh in intros I; repeat (destruct I as [I|I]; [discriminate|]); exact I.
Ltac plains := repeat (first [apply pl_none | apply pl_opt; [cbn; tauto|] | apply pl_word; [notin|]]).
Ltac notdev := let H := fresh in intros H; destruct H as [H|[H|[? [H|H]]]]; discriminate.
Example tty_starts_ex : exists ss, tty_register world [] [#"noclear"; #"/sbin/getty"; #"-L"; #"115200"; #"@console"; #"nowait"; #"vt100"] = Some ss /\
  map s_argv ss = [[#"-L"; #"115200"; #"tty1"; #"vt100"]; [#"-L"; #"115200"; #"ttyS0"; #"vt100"]].
Proof.
  destruct (tty_starts world [] [#"noclear"; #"/sbin/getty"; #"-L"; #"115200"; #"@console"; #"nowait"; #"vt100"]
    [#"/sbin/getty"; #"-L"; #"115200"; #"@console"; #"vt100"] #"/sbin/getty" [#"-L"; #"115200"; #"@console"; #"vt100"] #"@console" [#"tty1"; #"ttyS0"]) as [ss [A [B [C _]]]].
  - cbn; lia.
  - plains.
  - notin.
  - notin.
  - apply (r_ext world _ [] #"/sbin/getty"); [constructor|reflexivity].
  - apply (fd [#"-L"; #"115200"] #"@console" [#"vt100"]); [repeat constructor; notdev|left; reflexivity].
  - constructor.
  - cbn; lia.
  - repeat constructor; cbn; lia.
  - exists ss. split; [exact A|]. destruct ss as [|s1 [|s2 [|s3 ss]]]; try discriminate B. inversion C as [|? ? [_ [X _]] C2]; subst. inversion C2 as [|? ? [_ [Y _]] _]; subst.
    cbn [map] in *. inversion B as [[D1 D2]]. rewrite X, Y, D1, D2. reflexivity.
Qed.
(** finit's own getty, a device by its name in /dev *)
Example tty_own_ex : exists s, tty_register world [] [#"ttyS0"; #"115200"; #"passenv"; #"vt100"] = Some [s] /\
  s_dev s = #"/dev/ttyS0" /\ s_cmd s = getty /\ s_argv s = [#"-p"; #"ttyS0"; #"115200"; #"vt100"] /\ s_id s = #"S0".
Proof.
  destruct (tty_starts world [] [#"ttyS0"; #"115200"; #"passenv"; #"vt100"] [#"ttyS0"; #"115200"; #"vt100"] getty [#"-p"; #"ttyS0"; #"115200"; #"vt100"]
    #"ttyS0" [#"/dev/ttyS0"]) as [ss [A [B [C D]]]].
  - cbn; lia.
  - plains.
  - notin.
  - notin.
  - apply r_env; [repeat constructor|cbn; tauto].
  - apply (fd [#"-p"] #"ttyS0"); [repeat constructor; notdev|right; right; exists #"S0"; right; reflexivity].
  - apply m_name; [reflexivity|discriminate|intros r; discriminate|discriminate].
  - cbn; lia.
  - repeat constructor; cbn; lia.
  - destruct ss as [|s [|? ?]]; try discriminate B. exists s. split; [exact A|]. inversion B as [E]. inversion C as [|? ? [X [Y _]] _]; subst.
    split; [exact E|]. split; [exact X|]. split; [rewrite Y; reflexivity|]. apply D; [left; reflexivity|reflexivity|].
    rewrite E. apply (id_tty #"/dev/" #"S0"); [cbn; tauto|notin].
Qed.

(** A line without a device is refused. *)
Theorem tty_refused : forall W id l r cmd args, (List.length l < 64)%nat -> plain l r -> ~ In #"notty" l -> ~ In #"rescue" l ->
  runs W (In #"passenv" l) r cmd args -> Forall (fun w => ~ device w) args -> tty_register W id l = None.
Proof. exact refused. Qed.
Print Assumptions tty_refused.
Example tty_refused_ex : tty_register world [] [#"/sbin/getty"; #"noclear"; #"115200"] = None.
Proof.
  apply (tty_refused world [] [#"/sbin/getty"; #"noclear"; #"115200"] [#"/sbin/getty"; #"115200"] #"/sbin/getty" [#"115200"]).
  - cbn; lia.
  - plains.
  - notin.
  - notin.
  - apply (r_ext world _ [] #"/sbin/getty"); [constructor|reflexivity].
  - repeat constructor; notdev.
Qed.

(** The terminal type may be the name of a program: then that is run on the line,
    in place of getty. *)
Theorem tty_term_refuted : exists s, tty_register world [] [#"/dev/tty1"; #"38400"; #"screen"] = Some [s] /\ s_cmd s = #"screen" /\ s_argv s = [#"/dev/tty1"; #"38400"].
Proof. eexists. split; [vm_compute; reflexivity|split; vm_compute; reflexivity]. Qed.
Print Assumptions tty_term_refuted.
(** Two lines for two devices may have the same identity. *)
Theorem tty_id_refuted : exists s t, tty_register world [] [#"/dev/tty1"] = Some [s] /\ tty_register world [] [#"/dev/pts/1"] = Some [t] /\
  s_dev s <> s_dev t /\ s_id s = s_id t.
Proof. do 2 eexists. split; [vm_compute; reflexivity|]. split; [vm_compute; reflexivity|]. split; [vm_compute; discriminate|vm_compute; reflexivity]. Qed.
Print Assumptions tty_id_refuted.
(** A longer name of a device is cut: the service looks for another device, and a
    reload does not find the service again. *)
Theorem tty_long_refuted : exists d s, means world d [d] /\ tty_register world [] [d] = Some [s] /\ s_dev s <> d /\ found_again s d = false.
Proof.
  exists #"/dev/serial/by-path/pci-0000:00:14.0-usb-0:1". eexists. split; [|split; [vm_compute; reflexivity|split; [vm_compute; discriminate|vm_compute; reflexivity]]].
  apply (m_path world #"serial/by-path/pci-0000:00:14.0-usb-0:1"). vm_compute. discriminate.
Qed.
Print Assumptions tty_long_refuted.
