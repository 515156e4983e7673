(** The bundled watchdog daemon, src/watchdog.c. *)
From Coq Require Import List Bool ZArith.
Import ListNotations.

(** what it does: the ioctls on the device, the letter V, close, and sleep *)
Inductive wop := SetTimeout (n : Z) | Ping | Magic | Close | Nap.
(** where it is; signals arrive before any of these *)
Inductive wpc := PSet | PTest | PPing | PNap | PDown | PHand | PHPing | PMagic | PMain | PNap1 | PShort | PClose | PEnd.
(** src/watchdog.c:40-42 and what was done *)
Record wst := { w_at : wpc; running : bool; handover : bool; shutdown : bool; w_log : list wop }.
Definition start : wst := {| w_at := PSet; running := true; handover := false; shutdown := false; w_log := [] |}.
Definition go (s : wst) (p : wpc) : wst :=
  {| w_at := p; running := running s; handover := handover s; shutdown := shutdown s; w_log := w_log s |}.
Definition act (s : wst) (o : wop) (p : wpc) : wst :=
  {| w_at := p; running := running s; handover := handover s; shutdown := shutdown s; w_log := w_log s ++ [o] |}.
(** src/watchdog.c:71-99 loop and 113-122 of main, with WDT_TIMEOUT 30.  The device
    is there and takes the letter; time is not modelled. *)
Definition wstep (s : wst) : wst :=
  match w_at s with
  | PSet => act s (SetTimeout 30) PTest
  | PTest => if running s then go s PPing else go s PDown
  | PPing => act s Ping PNap
  | PNap => act s Nap PTest
  | PDown => if shutdown s then act s (SetTimeout 10) PHand else go s PHand
  | PHand => if handover s then go s PHPing else go s PMain
  | PHPing => act s Ping PMagic
  | PMagic => act s Magic PMain
  | PMain => if handover s then go s PClose else go s PNap1
  | PNap1 => act s Nap PShort
  | PShort => act s (SetTimeout (if shutdown s then 1 else 0)) PMain
  | PClose => act s Close PEnd
  | PEnd => s
  end.
(** src/watchdog.c:44-52 sighandler *)
Inductive wev := Step | Term | Pwr.
Definition wdo (s : wst) (e : wev) : wst :=
  match e with
  | Step => wstep s
  | Term => {| w_at := w_at s; running := false; handover := true; shutdown := shutdown s; w_log := w_log s |}
  | Pwr => {| w_at := w_at s; running := false; handover := handover s; shutdown := true; w_log := w_log s |}
  end.
Definition wrun (s : wst) (evs : list wev) : wst := fold_left wdo evs s.
(** what a daemon did that got on so far *)
Definition did (evs : list wev) : list wop := w_log (wrun start evs).
