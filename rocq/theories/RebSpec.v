(** What C66 means. *)
From Coq Require Import List String Ascii NArith ZArith Bool.
From Verif Require Import CStr RebModel.
Import ListNotations.
Local Open Scope Z_scope.

(** The names of the program *)
Inductive named : cstr -> action -> Prop :=
| n_reboot : named #"reboot" Reboot
| n_halt : named #"halt" Halt
| n_poweroff : named #"poweroff" PowerOff
| n_shutdown : named #"shutdown" PowerOff
| n_suspend : named #"suspend" Suspend.
(** Options that ask for something: --halt; -h, -P, -p, --poweroff; -r, --reboot *)
Inductive option_asks : ascii -> action -> Prop :=
| o_halt : option_asks "H" Halt
| o_off : forall c, In c ["h"; "P"; "p"]%char -> option_asks c PowerOff
| o_reboot : option_asks "r" Reboot.
Definition asks_none (q : list (ascii * Z)) : Prop := forall c v a, In (c, v) q -> ~ option_asks c a.
(** What is asked for: the last option, or else the name *)
Inductive asked (nm : cstr) (opts : list (ascii * Z)) : action -> Prop :=
| by_name : forall a, named nm a -> asks_none opts -> asked nm opts a
| by_option : forall p c v q a, opts = p ++ (c, v) :: q -> option_asks c a -> asks_none q -> asked nm opts a.
(** The time of the last -t, or 0 *)
Inductive time_given (opts : list (ascii * Z)) : Z -> Prop :=
| tg_none : (forall v, ~ In ("t"%char, v) opts) -> time_given opts 0
| tg_last : forall p v q, opts = p ++ ("t"%char, v) :: q -> (forall w, ~ In ("t"%char, w) q) -> time_given opts v.
Definition good_options (opts : list (ascii * Z)) : Prop :=
  forall c v, In (c, v) opts -> In c ["f"; "H"; "h"; "P"; "p"; "r"; "t"]%char /\ (c = "t"%char -> 1 <= v).
Definition forced (opts : list (ascii * Z)) : Prop := exists v, In ("f"%char, v) opts.

(** finit is on its way to end with the action: the level is, or will be, the one
    for it, and the action is noted *)
Definition level_for (a : action) : Z := match a with Reboot => 6 | _ => 0 end.
Definition ends_with (f : fin) (a : action) : Prop :=
  f_halt f = a /\ (f_level f = level_for a \/ f_new f = Some (level_for a)).
(** Levels S, 0 and 6 *)
Definition is_reserved (l : Z) : Prop := l = 0 \/ l = 6 \/ l = 10.
