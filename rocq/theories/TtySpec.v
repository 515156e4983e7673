(** What C63 means. *)
From Coq Require Import List String Ascii NArith ZArith Bool.
From Verif Require Import CStr TtyModel.
Import ListNotations.

Definition options : list cstr := [#"noclear"; #"nowait"; #"nologin"; #"notty"; #"passenv"; #"rescue"].
(** the words of a line that are not options, in order *)
Inductive plain : list cstr -> list cstr -> Prop :=
| pl_none : plain [] []
| pl_opt : forall w l r, In w options -> plain l r -> plain (w :: l) r
| pl_word : forall w l r, ~ In w options -> plain l r -> plain (w :: l) (w :: r).
(** what is run: the first word that is a program, with the others, or finit's
    own getty *)
Inductive runs (W : ttyworld) (passenv : Prop) : list cstr -> cstr -> list cstr -> Prop :=
| r_ext : forall a c b, Forall (fun w => which W w = false) a -> which W c = true -> runs W passenv (a ++ c :: b) c (a ++ b)
| r_own : forall r, Forall (fun w => which W w = false) r -> ~ passenv -> runs W passenv r getty r
| r_env : forall r, Forall (fun w => which W w = false) r -> passenv -> runs W passenv r getty (#"-p" :: r).
(** a word that names a device *)
Definition device (w : cstr) : Prop :=
  w = #"@console" \/ w = #"console" \/ exists r, w = #"/dev" ++ r \/ w = #"tty" ++ r.
Inductive first_device : list cstr -> cstr -> Prop :=
| fd : forall a d b, Forall (fun w => ~ device w) a -> device d -> first_device (a ++ d :: b) d.
(** the devices meant: the consoles, or the device of that name; with its path in
    full or the name of a file in /dev *)
Inductive means (W : ttyworld) : cstr -> list cstr -> Prop :=
| m_cons : means W #"@console" (consoles W)
| m_path : forall r, node W (#"/dev/" ++ r) <> Some false -> means W (#"/dev/" ++ r) [#"/dev/" ++ r]
| m_name : forall n, node W n = None -> n <> #"@console" -> (forall r, n <> #"/dev/" ++ r) -> node W (#"/dev/" ++ n) <> Some false -> means W n [#"/dev/" ++ n].
(** the identity of a device: the name of its file, without a leading "tty" *)
Inductive id_of : cstr -> cstr -> Prop :=
| id_file : forall p n, In p [[]; #"/dev/"; #"/dev/pts/"] -> ~ In "/"%char n -> (forall r, n <> #"tty" ++ r) -> id_of (p ++ n) n
| id_tty : forall p n, In p [[]; #"/dev/"; #"/dev/pts/"] -> ~ In "/"%char n -> id_of (p ++ #"tty" ++ n) n.
(** a service of the line: what it runs, with the device for @console, and the
    options *)
Definition svc_right (l : list cstr) (cmd : cstr) (args : list cstr) (s : ttysvc) : Prop :=
  s_cmd s = cmd /\ s_argv s = map (fun a => if str_eqb a #"@console" then s_dev s else a) args /\
  (s_clear s = true <-> ~ In #"noclear" l) /\ (s_wait s = true <-> ~ In #"nowait" l) /\ (s_login s = true <-> ~ In #"nologin" l).
