(** Drivers for the devices there are at boot, plugins/modprobe.c. *)
From Coq Require Import List String Ascii NArith Bool.
From Verif Require Import CStr.
Import ListNotations.

Definition eol : ascii := "010".
(** fgets(3) until the end of the file: [size] characters at most for each call, [room]
    of them are left, [cur] is read, backwards *)
Fixpoint chunks (size room : nat) (cur s : cstr) : list cstr :=
  match s with
  | [] => match cur with [] => [] | _ => [rev cur] end
  | c :: r =>
      if Ascii.eqb c eol then rev (c :: cur) :: chunks size size [] r
      else match room with
           | S (S n) => chunks size (S n) (c :: cur) r
           | _ => rev (c :: cur) :: chunks size size [] r
           end
  end.
(** the buffers of 256 characters *)
Definition room : nat := N.to_nat 255.
Definition gets (text : cstr) : list cstr := chunks room room [] text.
(** chomp(3) of libite, for what fgets(3) gives; that it goes wrong for an empty line
    is not modelled *)
Definition chomp (s : cstr) : cstr :=
  match rev s with c :: r => if Ascii.eqb c eol then rev r else s | [] => [] end.
(** A file below /sys/devices: the last part of its path, is it a regular file that can
    be read, what is in it *)
Record sysfile := { f_name : cstr; f_reg : bool; f_text : cstr }.
(** plugins/modprobe.c:112-130 alias_exist, alias_add_uniq *)
Definition add_uniq (l : list cstr) (a : cstr) : list cstr :=
  if existsb (fun b => str_eqb b a) l then l else l ++ [a].
(** plugins/modprobe.c:165-187 scan_uevent: the first line of its kind *)
Definition tag : cstr := #"MODALIAS=".
Definition scan_uevent (text : cstr) : option cstr :=
  match find (fun c => starts tag c) (gets text) with
  | Some c => Some (skipn (List.length tag) (chomp c))
  | None => None
  end.
(** plugins/modprobe.c:146-163 scan_modalias: the first line *)
Definition scan_modalias (text : cstr) : option cstr :=
  match gets text with c :: _ => Some (chomp c) | [] => None end.
(** plugins/modprobe.c:189-202 scan_alias *)
Definition scan_alias (l : list cstr) (f : sysfile) : list cstr :=
  if f_reg f then
    let a := if str_eqb (f_name f) #"uevent" then scan_uevent (f_text f)
             else if str_eqb (f_name f) #"modalias" then scan_modalias (f_text f)
             else None in
    match a with Some a => add_uniq l a | None => l end
  else l.
(** plugins/modprobe.c:219 coldplug: the files nftw(3) comes to, in that order *)
Definition scan (files : list sysfile) : list cstr := fold_left scan_alias files [].

(** A process: init, or the child of one *)
Inductive process := Init | Child (p : process).
(** plugins/modprobe.c:220-225, with modprobe(), 62-87: each alias is given to a process
    that runs modprobe(8); the one that forked it waits.  [found]: modprobe(8) can be
    started; if not, the child, which does not exit, goes on in the loop.  The result:
    what modprobe(8) is run for, and the process that goes on after the loop, others
    wait for.  Simplified: fork(2) does not fail. *)
Fixpoint probe (found : bool) (p : process) (l : list cstr) : list cstr * process :=
  match l with
  | [] => ([], p)
  | a :: r => if found then let (done, q) := probe found p r in (a :: done, q)
              else probe found (Child p) r
  end.
(** plugins/modprobe.c:204-228 coldplug; [mods]: /lib/modules is there, [sys]: /sys is
    mounted *)
Definition coldplug (mods sys found : bool) (files : list sysfile) : list cstr * process :=
  if mods && sys then probe found Init (scan files) else ([], Init).
