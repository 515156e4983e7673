(** What is cleaned up at boot, plugins/bootmisc.c. *)
From Coq Require Import List String Ascii Bool.
From Verif Require Import CStr.
Import ListNotations.

(** A file, which may be a symbolic link: to a file or nothing, or to a directory.  A
    directory has an identity [nat] and entries. *)
Inductive node := File | Dir (t : nat) (k : list (cstr * node)) | Link (to : option (nat * list (cstr * node))).
Definition entries := list (cstr * node).
(** nftw(3) with FTW_DEPTH, and without FTW_PHYS, so that links are followed, and
    bootclean (plugins/bootmisc.c:79-88): the entries remove(3) is called for, as
    directory and name, in order.  The directory that is walked is the last one seen,
    at level 0, and ends the walk.  Simplified: no directory is reached twice
    (nftw(3) would not enter it again). *)
Fixpoint visit (x : node) : list (nat * cstr) :=
  let walk := fix walk (d : nat) (k : list (cstr * node)) : list (nat * cstr) :=
    match k with
    | [] => []
    | (n, y) :: k => visit y ++ (d, n) :: walk d k
    end in
  match x with
  | File => []
  | Dir t k => walk t k
  | Link None => []
  | Link (Some (t, k)) => walk t k
  end.
(** plugins/bootmisc.c:46-77 is_tmpfs: [real] is what the path resolves to; the first
    line of /proc/mounts for it counts *)
Definition is_tmpfs (mounts : list (cstr * cstr)) (real : option cstr) : bool :=
  match real with
  | None => false
  | Some d => match find (fun m => str_eqb d (fst m)) mounts with
              | Some m => str_eqb #"tmpfs" (snd m)
              | None => false
              end
  end.
(** plugins/bootmisc.c:97-113 clean: of /tmp, /var/run and /var/lock what they resolve
    to, and the directory there, if there is one *)
Record top := { top_real : option cstr; top_dir : option (nat * list (cstr * node)) }.
Definition clean_one (mounts : list (cstr * cstr)) (t : top) : list (nat * cstr) :=
  if is_tmpfs mounts (top_real t) then []
  else match top_dir t with Some (d, k) => visit (Dir d k) | None => [] end.
Definition clean (mounts : list (cstr * cstr)) (tmp run lock : top) : list (nat * cstr) :=
  clean_one mounts tmp ++ clean_one mounts run ++ clean_one mounts lock.
