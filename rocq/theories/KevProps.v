(** C62: the condition for mains power. *)
From Coq Require Import List String Ascii NArith ZArith Bool Lia.
From Verif Require Import CStr ParseSpec CStrLib KevModel KevSpec KevProof.
Import ListNotations.

(** After any messages, of which those of mains supplies report a change, the
    condition is set if and only if a mains supply is online or there is none. *)
Theorem power_condition : forall l w ms w', supplies l w -> history w ms w' ->
  exists k, kev_run (kev_init l) ms = Some k /\ k_online k = List.length (filter (fun b => b) w') /\ (k_cond k = true <-> w' = [] \/ In true w').
Proof. exact cond_right. Qed.
Print Assumptions power_condition.

Definition msg (act type v : cstr) : list cstr :=
  [act ++ #"@/devices/platform/power_supply/AC"; #"ACTION=" ++ act; #"DEVPATH=/devices/platform/power_supply/AC"; #"POWER_SUPPLY_NAME=AC";
   #"POWER_SUPPLY_TYPE=" ++ type; #"POWER_SUPPLY_ONLINE=" ++ v; #"SEQNUM=7"].
Lemma num1 : number #"1" 1.
Proof. apply strtoll_number. reflexivity. Qed.
Lemma num0 : number #"0" 0.
Proof. apply strtoll_number. reflexivity. Qed.
Lemma msg_reports v n : number v n -> (List.length v < 10)%nat -> reports (msg #"change" #"Mains" v) (negb (Z.eqb n 0)).
Proof.
  intros N L. apply (rep #"/devices/platform/" #"/AC" [#"ACTION=change"; #"DEVPATH=/devices/platform/power_supply/AC"; #"POWER_SUPPLY_NAME=AC"] [] [#"SEQNUM=7"] #"Mains" v n).
  - exists #"Mains", []. cbn. auto.
  - exact N.
  - cbn [app]. repeat constructor; intros [x E]; discriminate.
  - unfold fits. do 9 (destruct v as [|? v]; [vm_compute; lia|]). cbn [List.length] in L. destruct v; [vm_compute; lia|cbn [List.length] in L; lia].
Qed.
Lemma bat_silent : silent (msg #"change" #"Battery" #"1").
Proof.
  apply sil_type; [|vm_compute; lia]. intros t I [n [r [J E]]].
  repeat (destruct I as [I|I]; [try discriminate I; inversion I; subst; repeat (destruct J as [<-|J]; [discriminate|]); exact J|]). exact I.
Qed.
Definition laptop : list (option cstr * option cstr) := [(Some #"Mains", Some #"1"); (Some #"Battery", None)].
Lemma laptop_supplies : supplies laptop [true].
Proof.
  apply (sups_more _ _ [true] []).
  - apply (sup_ac #"Mains" #"1" 1); [exists #"Mains", []; cbn; auto|cbn; lia|exact num1].
  - apply (sups_more _ _ [] []); [|constructor]. constructor. intros [n [r [J E]]]. repeat (destruct J as [<-|J]; [discriminate|]). exact J.
Qed.
Example power_condition_ex : exists k, kev_run (kev_init laptop) [msg #"change" #"Battery" #"1"; msg #"change" #"Mains" #"0"] = Some k /\ k_cond k = false.
Proof.
  destruct (power_condition laptop [true] [msg #"change" #"Battery" #"1"; msg #"change" #"Mains" #"0"] [false] laptop_supplies) as [k [R [_ C]]].
  - apply h_silent; [exact bat_silent|]. apply (h_report [] true []); [exact (msg_reports _ _ num0 ltac:(cbn; lia))|constructor].
  - exists k. split; [exact R|]. destruct (k_cond k); [|reflexivity]. destruct (proj1 C eq_refl) as [E|[E|[]]]; discriminate.
Qed.

(** The kernel may report the same state twice; each report counts: after the
    only supply was unplugged the condition is still set. *)
Theorem power_repeat_refuted : exists l w ms last k, supplies l w /\ Forall (fun m => reports m true) ms /\ reports last false /\
  w = [true] /\ kev_run (kev_init l) (ms ++ [last]) = Some k /\ k_cond k = true.
Proof.
  exists laptop, [true], [msg #"change" #"Mains" #"1"], (msg #"change" #"Mains" #"0"). eexists.
  split; [exact laptop_supplies|]. split; [constructor; [exact (msg_reports _ _ num1 ltac:(cbn; lia))|constructor]|].
  split; [exact (msg_reports _ _ num0 ltac:(cbn; lia))|]. split; [reflexivity|]. split; [vm_compute; reflexivity|reflexivity].
Qed.
Print Assumptions power_repeat_refuted.
(** A charger that is plugged in, and so added, is not seen. *)
Theorem power_added_refuted : exists l k, supplies l [false] /\ kev_run (kev_init l) [msg #"add" #"USB" #"1"] = Some k /\ k_cond k = false.
Proof.
  exists [(Some #"Mains", Some #"0")]. eexists. split; [|split; [vm_compute; reflexivity|reflexivity]].
  apply (sups_more _ _ [false] []); [|constructor]. apply (sup_ac #"Mains" #"0" 0); [exists #"Mains", []; cbn; auto|cbn; lia|exact num0].
Qed.
Print Assumptions power_added_refuted.
(** A message that fills the buffer makes it write after its end. *)
Theorem power_overrun_refuted : exists m, kev_run (kev_init laptop) [m] = None.
Proof. exists [repeat "x"%char (N.to_nat 1100)]. vm_compute. reflexivity. Qed.
Print Assumptions power_overrun_refuted.
