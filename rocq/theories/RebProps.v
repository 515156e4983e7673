(** C66: reboot, halt, poweroff, shutdown and suspend. *)
From Coq Require Import List String Ascii NArith ZArith Bool Lia.
From Verif Require Import CStr RebModel RebSpec RebProof.
Import ListNotations.
Local Open Scope Z_scope.

(** The command ends the system the way it is asked to: by its name, or by the last
    option that asks for something else, and at the latest after the time given; a
    halt only if finit was not still waiting for services. *)
Theorem reboot_asks : forall nm opts ok f a t, good_options opts -> asked nm opts a -> time_given opts t -> ~ forced opts ->
  a <> Suspend -> (a = Halt -> f_busy f = false \/ is_reserved (f_level f)) ->
  let d := reboot_main nm opts false true ok f in
  d_kernel d = None /\ ends_with (d_fin d) a /\ f_emerg (d_fin d) = (if t =? 0 then f_emerg f else Some t).
Proof. exact main_asks. Qed.
(** Also where finit does not answer, in a runlevel that is not reserved. *)
Theorem reboot_fallback : forall nm opts ok f a, good_options opts -> asked nm opts a -> ~ forced opts -> a = Reboot \/ a = PowerOff -> ~ is_reserved (f_level f) ->
  let d := reboot_main nm opts false false ok f in d_kernel d = None /\ ends_with (d_fin d) a.
Proof. exact main_fallback. Qed.
(** With --force, and in a rescue shell, the kernel is told, and finit is not. *)
Theorem reboot_forced : forall nm opts sulogin up ok f a, good_options opts -> asked nm opts a -> (forced opts \/ sulogin = true) ->
  reboot_main nm opts sulogin up ok f = {| d_exit := 0; d_kernel := Some a; d_fin := f |}.
Proof. exact main_forced. Qed.
(** To suspend the system does not end it. *)
Theorem reboot_suspend : forall nm opts up ok f, good_options opts -> asked nm opts Suspend -> time_given opts 0 -> ~ forced opts ->
  reboot_main nm opts false up ok f = {| d_exit := 0; d_kernel := None; d_fin := f |}.
Proof. exact main_suspend. Qed.
(** With an option that is not known, or a wrong time, nothing is done. *)
Theorem reboot_bad : forall nm p c v q sulogin up ok f, good_options p -> ~ In c ["f"; "H"; "h"; "P"; "p"; "r"; "t"]%char \/ (c = "t"%char /\ v < 1) ->
  let d := reboot_main nm (p ++ (c, v) :: q) sulogin up ok f in d_kernel d = None /\ d_fin d = f.
Proof. exact main_bad. Qed.

(** finit in runlevel 2, and the same during a change to it *)
Definition up2 : fin := {| f_level := 2; f_busy := false; f_new := None; f_halt := Halt; f_emerg := None |}.
Definition busy2 : fin := {| f_level := 2; f_busy := true; f_new := None; f_halt := Halt; f_emerg := None |}.

(** Claim that is false: halt always halts.  While finit waits for services the
    system is powered off in the end, and so it is where finit does not answer. *)
Theorem halt_busy_refuted : exists f, ~ is_reserved (f_level f) /\
  ends_with (d_fin (reboot_main #"halt" [] false true true f)) PowerOff.
Proof. exists busy2. split; [unfold is_reserved; cbn; lia|]. vm_compute. split; [reflexivity|right; reflexivity]. Qed.
Theorem halt_fallback_refuted : forall f ok, ~ is_reserved (f_level f) -> ends_with (d_fin (reboot_main #"halt" [] false false ok f)) PowerOff.
Proof. exact halt_fallback. Qed.
(** Claim that is false: what is done is acknowledged.  The answer to all three
    requests is that they failed. *)
Theorem reboot_nack_refuted : forall ok f a t, a <> Suspend -> ends_with (fst (do_cmd true ok f a t)) a /\ snd (do_cmd true ok f a t) = false.
Proof. exact nack. Qed.
(** Claim that is false: a time ends nothing but the system.  With suspend it
    is the resumed system that is ended, the way noted last. *)
Theorem suspend_timeout_refuted : exists f, d_fin (reboot_main #"suspend" [("t"%char, 60)] false true true f) <> f /\
  f_emerg (d_fin (reboot_main #"suspend" [("t"%char, 60)] false true true f)) = Some 60.
Proof. exists up2. split; [vm_compute; discriminate|reflexivity]. Qed.

Example reboot_asks_ex : let d := reboot_main #"reboot" [("r"%char, 0); ("P"%char, 0); ("t"%char, 30)] false true true up2 in
  ends_with (d_fin d) PowerOff /\ f_emerg (d_fin d) = Some 30.
Proof.
  destruct (reboot_asks #"reboot" [("r"%char, 0); ("P"%char, 0); ("t"%char, 30)] true up2 PowerOff 30) as [_ H].
  - intros c v H. cbn [In] in *. repeat (destruct H as [H|H]; [injection H as <- <-; split; [tauto|intros E; try discriminate E; lia]|]). destruct H.
  - apply (by_option _ _ [("r"%char, 0)] "P" 0 [("t"%char, 30)]); [reflexivity|apply o_off; cbn; tauto|].
    intros c v a [H|[]] O. injection H as <- <-. inversion O as [|? I|]. cbn in I. repeat (destruct I as [I|I]; [discriminate|]). destruct I.
  - apply (tg_last _ [("r"%char, 0); ("P"%char, 0)] 30 []); [reflexivity|intros w []].
  - intros [v H]. cbn [In] in H. repeat (destruct H as [H|H]; [discriminate|]). destruct H.
  - discriminate.
  - discriminate.
  - exact H.
Qed.
Example reboot_halt_ex : ends_with (d_fin (reboot_main #"halt" [] false true true up2)) Halt.
Proof.
  apply (reboot_asks #"halt" [] true up2 Halt 0).
  - intros c v [].
  - apply by_name; [constructor|intros c v a []].
  - apply tg_none. intros v [].
  - intros [v []].
  - discriminate.
  - intros _. left. reflexivity.
Qed.
Example reboot_fallback_ex : ends_with (d_fin (reboot_main #"shutdown" [] false false true busy2)) PowerOff.
Proof.
  apply (reboot_fallback #"shutdown" [] true busy2 PowerOff).
  - intros c v [].
  - apply by_name; [constructor|intros c v a []].
  - intros [v []].
  - right. reflexivity.
  - unfold is_reserved. cbn. lia.
Qed.
Example reboot_forced_ex : d_kernel (reboot_main #"poweroff" [("r"%char, 0); ("f"%char, 0)] false true true up2) = Some Reboot.
Proof. reflexivity. Qed.
Example reboot_suspend_ex : d_fin (reboot_main #"suspend" [] false true true up2) = up2.
Proof. reflexivity. Qed.
Example reboot_bad_ex : d_fin (reboot_main #"halt" [("f"%char, 0); ("x"%char, 0)] false true true up2) = up2.
Proof. reflexivity. Qed.

Print Assumptions reboot_asks.
Print Assumptions reboot_fallback.
Print Assumptions reboot_forced.
Print Assumptions reboot_suspend.
Print Assumptions reboot_bad.
Print Assumptions halt_busy_refuted.
Print Assumptions halt_fallback_refuted.
Print Assumptions reboot_nack_refuted.
Print Assumptions suspend_timeout_refuted.
