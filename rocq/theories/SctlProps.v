(** C78: kernel parameters set at boot. *)
From Coq Require Import List String Ascii NArith Bool Lia.
From Verif Require Import CStr CStrLib SctlModel SctlSpec SctlProof.
Import ListNotations.

(** A parameter is what /etc/sysctl.conf says, whatever the other files say... *)
Theorem sysctl_conf : forall old p k v, short_paths p -> sets_last (in_conf p) k v -> value old (sysctl_setup false p) k = Some v.
Proof. exact conf_ok. Qed.
(** ...or what the last file of /etc/sysctl.d says, if no vendor has one... *)
Theorem sysctl_etc : forall old p k v, short_paths p -> sets_last (in_etc p) k v ->
  sets_not (in_local p) k -> sets_not (in_usr p) k -> sets_not (in_lib p) k -> sets_not (in_mnt p) k -> sets_not (in_conf p) k ->
  value old (sysctl_setup false p) k = Some v.
Proof. exact etc_ok. Qed.
(** ...or /run/sysctl.d, if no other does... *)
Theorem sysctl_run : forall old p k v, short_paths p -> sets_last (in_run p) k v ->
  sets_not (in_etc p) k -> sets_not (in_local p) k -> sets_not (in_usr p) k -> sets_not (in_lib p) k -> sets_not (in_mnt p) k -> sets_not (in_conf p) k ->
  value old (sysctl_setup false p) k = Some v.
Proof. exact run_ok. Qed.
(** ...and no other is touched, none at all in rescue mode. *)
Theorem sysctl_other : forall old p k, (forall l, In l [in_run p; in_etc p; in_local p; in_usr p; in_lib p; in_mnt p; in_conf p] -> sets_not l k) ->
  value old (sysctl_setup false p) k = old k.
Proof. exact other_ok. Qed.
Theorem sysctl_rescue : forall old p k, value old (sysctl_setup true p) k = old k.
Proof. exact rescue_ok. Qed.
(** Claim that is false: what is in /etc/sysctl.d and /run/sysctl.d takes precedence over
    what is in /usr/lib/sysctl.d.  It is the vendor's that counts, whatever is there. *)
Theorem sysctl_vendor_refuted : forall old p k v, short_paths p -> sets_last (in_usr p) k v -> sets_not (in_lib p) k -> sets_not (in_mnt p) k -> sets_not (in_conf p) k ->
  value old (sysctl_setup false p) k = Some v.
Proof. exact vendor_ok. Qed.
(** Claim that is false: every file is read.  One with a long path is not. *)
Theorem sysctl_long_refuted : forall old p k f, globbed p = [f] -> (140 < N.of_nat (List.length (s_path f)))%N -> value old (sysctl_setup false p) k = old k.
Proof. exact long_ok. Qed.

Definition mine : sfile := {| s_path := #"/etc/sysctl.d/my.conf"; s_sets := [(#"net.ipv4.ip_forward", #"1"); (#"vm.swappiness", #"10")] |}.
Definition theirs : sfile := {| s_path := #"/usr/lib/sysctl.d/50-default.conf"; s_sets := [(#"net.ipv4.ip_forward", #"0")] |}.
Definition both : places := {| in_run := []; in_etc := [mine]; in_local := []; in_usr := [theirs]; in_lib := []; in_mnt := []; in_conf := [] |}.
Example sysctl_met : value (fun _ => None) (sysctl_setup false both) #"net.ipv4.ip_forward" = Some #"0" /\
  value (fun _ => None) (sysctl_setup false both) #"vm.swappiness" = Some #"10".
Proof. split; reflexivity. Qed.
Example sysctl_hyps_met : short_paths both /\ sets_last (in_usr both) #"net.ipv4.ip_forward" #"0" /\ sets_last (in_etc both) #"vm.swappiness" #"10" /\ sets_not (in_usr both) #"vm.swappiness".
Proof.
  split; [|split; [|split]].
  - intros l f H F. cbn in H. destruct H as [<-|[<-|[<-|[<-|[<-|[<-|[<-|[]]]]]]]]; cbn in F; try contradiction; destruct F as [<-|[]]; cbn; lia.
  - exists [], [], [], [], theirs. split; [reflexivity|]. split; [reflexivity|]. split; [intros x []|intros g x []].
  - exists [], [], [(#"net.ipv4.ip_forward", #"1")], [], mine. split; [reflexivity|]. split; [reflexivity|]. split; [intros x []|intros g x []].
  - intros f x [<-|[]] [X|[]]. discriminate X.
Qed.
Example sysctl_long_met : (140 < N.of_nat (List.length (#"/etc/sysctl.d/" ++ repeat "a"%char (N.to_nat 200) ++ #".conf")))%N.
Proof. rewrite !app_length, repeat_length. cbn [List.length]. lia. Qed.

Print Assumptions sysctl_conf.
Print Assumptions sysctl_etc.
Print Assumptions sysctl_run.
Print Assumptions sysctl_other.
Print Assumptions sysctl_rescue.
Print Assumptions sysctl_vendor_refuted.
Print Assumptions sysctl_long_refuted.
