(** C74: the bundled watchdog daemon. *)
From Coq Require Import List Bool ZArith Lia Arith.
From Verif Require Import WdtModel WdtSpec WdtProof.
Import ListNotations.

(** With no signal it feeds the watchdog once in each half of the timeout, for
    ever. *)
Theorem watchdog_fed : forall m, did (repeat Step (1 + 3 * m)) = SetTimeout 30 :: kept_alive m.
Proof. exact fed_ok. Qed.
(** Without SIGTERM the device is never given back. *)
Theorem watchdog_kept : forall evs, ~ In Term evs -> ~ In Magic (did evs) /\ ~ In Close (did evs).
Proof. exact kept_ok. Qed.
(** SIGTERM alone, at any moment, hands the device over: it is fed once more and closed
    safely, and soon... *)
Theorem watchdog_handover : forall evs n, ~ In Pwr evs -> 9 <= n -> handed_over (did (evs ++ Term :: repeat Step n)).
Proof. exact handover_done. Qed.
(** ...and it is never closed in another way. *)
Theorem watchdog_safe : forall evs, ~ In Pwr evs -> In Close (did evs) -> handed_over (did evs).
Proof. exact handover_ok. Qed.
(** SIGPWR, which the daemon takes note of before SIGTERM: the time is cut short, and
    whatever signals come then the watchdog is not turned off... *)
Theorem watchdog_reset : forall a n c, ~ In Term a -> 5 <= n ->
  ~ In Magic (did (a ++ (Pwr :: repeat Step n) ++ c)) /\ cut_short (did (a ++ (Pwr :: repeat Step n) ++ c)).
Proof. exact reset_ok. Qed.
(** ...and at SIGTERM the daemon stops feeding it. *)
Theorem watchdog_reset_done : forall a n c m, ~ In Term a -> 5 <= n -> 4 <= m ->
  In Close (did (a ++ (Pwr :: repeat Step n) ++ c ++ Term :: repeat Step m)).
Proof. exact reset_done. Qed.
(** Claim that is false: after SIGPWR the watchdog resets the system.  With SIGTERM
    at its heels the daemon takes it for a handover, and turns the watchdog off. *)
Theorem watchdog_both_refuted : forall m n, 9 <= n -> In Magic (did (repeat Step (1 + 3 * m) ++ Pwr :: Term :: repeat Step n)).
Proof. exact both_ok. Qed.

Example watchdog_fed_met : did (repeat Step 7) = [SetTimeout 30; Ping; Nap; Ping; Nap].
Proof. reflexivity. Qed.
Example watchdog_kept_met : did ([Step; Step; Pwr] ++ repeat Step 9) = [SetTimeout 30; Ping; Nap; SetTimeout 10; Nap; SetTimeout 1].
Proof. reflexivity. Qed.
Example watchdog_handover_met : did ([Step; Step] ++ Term :: repeat Step 9) = [SetTimeout 30; Ping; Nap; Ping; Magic; Close].
Proof. reflexivity. Qed.
Example watchdog_reset_met : did ([Step; Step] ++ (Pwr :: repeat Step 5) ++ [Step] ++ Term :: repeat Step 4) =
  [SetTimeout 30; Ping; Nap; SetTimeout 10; Nap; SetTimeout 1; Close].
Proof. reflexivity. Qed.
Example watchdog_both_met : did ([Step] ++ Pwr :: Term :: repeat Step 9) = [SetTimeout 30; SetTimeout 10; Ping; Magic; Close].
Proof. reflexivity. Qed.

Print Assumptions watchdog_fed.
Print Assumptions watchdog_kept.
Print Assumptions watchdog_handover.
Print Assumptions watchdog_safe.
Print Assumptions watchdog_reset.
Print Assumptions watchdog_reset_done.
Print Assumptions watchdog_both_refuted.
