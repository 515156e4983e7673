(** Kernel parameters set at boot, plugins/procps.c. *)
From Coq Require Import List String Ascii NArith Bool.
From Verif Require Import CStr.
Import ListNotations.

(** A file for sysctl(8): its path and what it sets, in order *)
Record sfile := { s_path : cstr; s_sets : list (cstr * cstr) }.
(** The files of each place, as glob(3) sorts them, and /etc/sysctl.conf *)
Record places := { in_run : list sfile; in_etc : list sfile; in_local : list sfile; in_usr : list sfile; in_lib : list sfile; in_mnt : list sfile; in_conf : list sfile }.
(** plugins/procps.c:50-56: glob(3), each with GLOB_APPEND *)
Definition globbed (p : places) : list sfile :=
  in_run p ++ in_etc p ++ in_local p ++ in_usr p ++ in_lib p ++ in_mnt p ++ in_conf p.
(** plugins/procps.c:60-65: the command is cut off at 159 characters; sysctl(8) finds no
    file by a path that is cut.  Not modelled: a redirection that is cut *)
Definition prefix : cstr := #"/sbin/sysctl -e -p ".
Definition fits (f : sfile) : bool := N.leb (N.of_nat (List.length (prefix ++ s_path f))) 159.
(** plugins/procps.c:41-69 setup: all that is set, in order *)
Definition sysctl_setup (rescue : bool) (p : places) : list (cstr * cstr) :=
  if rescue then [] else flat_map s_sets (filter fits (globbed p)).
(** what the kernel has in the end, with [old] before *)
Definition value (old : cstr -> option cstr) (sets : list (cstr * cstr)) (k : cstr) : option cstr :=
  fold_left (fun v s => if str_eqb k (fst s) then Some (snd s) else v) sets (old k).
