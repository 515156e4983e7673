(** What C56 and C57 mean. *)
From Coq Require Import List String Ascii NArith ZArith Bool.
From Verif Require Import CStr HookModel PartModel.
Import ListNotations.
Local Open Scope Z_scope.

(** the order of names: by the first character in which they differ, by its
    number; a name comes before those it is the beginning of *)
Inductive before : cstr -> cstr -> Prop :=
| bf_end : forall a c r, before a (a ++ c :: r)
| bf_char : forall p x y a b, (code x < code y)%N -> before (p ++ x :: a) (p ++ y :: b).

(** the file called [name] in [dir] *)
Inductive file_in : cstr -> cstr -> cstr -> Prop :=
| fi_slash : forall d name, file_in (d ++ #"/") name (d ++ #"/" ++ name)
| fi_plain : forall dir name, (forall d, dir <> d ++ #"/") -> file_in dir name (dir ++ #"/" ++ name).

(** the argument for a script: the one given; otherwise start for S and a digit,
    stop for K and a digit, none for all others *)
Inductive argument : option cstr -> cstr -> option cstr -> Prop :=
| ar_given : forall c name, argument (Some c) name (Some c)
| ar_start : forall d r, isdigit d = true -> argument None ("S"%char :: d :: r) (Some #"start")
| ar_stop : forall d r, isdigit d = true -> argument None ("K"%char :: d :: r) (Some #"stop")
| ar_none : forall name, (forall c d r, name = c :: d :: r -> c = "S"%char \/ c = "K"%char -> isdigit d = false) ->
    argument None name None.

(** the command for a script: its path, and its argument after a blank *)
Definition runs (dir : cstr) (cmd : option cstr) (name c : cstr) : Prop :=
  exists path arg, file_in dir name path /\ argument cmd name arg /\
    c = path ++ match arg with Some a => " "%char :: a | None => [] end.

(** a script: no backup file, an executable that is no directory and, when only
    such are asked for, called S... or K... *)
Definition script (W : world) (dir : cstr) (sysv : bool) (hist : list cstr) (name : cstr) : Prop :=
  (forall p, name <> p ++ #"~") /\
  (exists path, file_in dir name path /\ w_stat W hist path = Some (true, false)) /\
  (sysv = true -> exists r, name = "S"%char :: r \/ name = "K"%char :: r).

(** in order, each only once *)
Inductive in_order : list cstr -> Prop :=
| io_nil : in_order []
| io_cons : forall n l, in_order l -> (forall m, In m l -> before n m) -> in_order (n :: l).

(** how the commands, run one after the other, end *)
Fixpoint outcomes (W : world) (hist : list cstr) (l : list cstr) : list outcome :=
  match l with
  | [] => []
  | c :: r => w_run W hist c :: outcomes W (hist ++ [c]) r
  end.
(** an exit status is a byte *)
Definition statuses (W : world) : Prop := forall h c n, w_run W h c = Exited n -> 0 <= n < 256.

(** characters that mean nothing to a shell *)
Definition plain_char (c : ascii) : bool :=
  isdigit c || isupper c || (N.leb 97 (code c) && N.leb (code c) 122) || mem c #"/._-+,:@%".
Definition plain (s : cstr) : Prop := forall c, In c s -> plain_char c = true.

(** The hooks for scripts: doc/plugins.md *)
Definition documented (h : hook) : Prop := h <> HSvcReconf /\ h <> HRunlevelChange.
(** from hook/sys/shutdown on *)
Definition late (h : hook) : Prop := h = HShutdown \/ h = HSvcDn \/ h = HSysDn.
Definition shut_name (s : shut) : cstr := match s with ShutOff => #"poweroff" | ShutHalt => #"halt" | ShutReboot => #"reboot" end.
