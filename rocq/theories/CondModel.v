(** Condition store: src/cond.c and src/cond-w.c.

    A condition is a file below /run/finit/cond.  A regular condition holds
    the generation number that was current when it was asserted, a one-shot
    condition is a symbolic link to the generation file "reconf" itself.
    Simplifications: the store is a list of (path relative to the condition
    directory, contents); directories exist exactly when a file below them
    exists (an empty directory left behind by unlink is not represented);
    the file "reconf" is a separate field, so a condition that is itself
    called "reconf" is outside the model; I/O errors other than the
    name clashes modelled here do not happen. *)
From Coq Require Import List String Ascii NArith Bool Arith.
Import ListNotations.
Local Open Scope string_scope.

(** enum cond_state, src/cond.h:36-40 *)
Inductive cstate := COff | CFlux | COn.

Definition cs_num (s : cstate) : nat :=
  match s with COff => 0 | CFlux => 1 | COn => 2 end.

(** min() used in src/cond.c:107 *)
Definition cs_min (a b : cstate) : cstate :=
  if Nat.leb (cs_num a) (cs_num b) then a else b.

Definition cs_eqb (a b : cstate) : bool := Nat.eqb (cs_num a) (cs_num b).

(** Contents of a condition file: symlink to reconf (src/cond-w.c:347) or a
    generation number (src/cond-w.c:148-165). *)
Inductive centry := Oneshot | Gen (g : N).

Record cstore := mkCstore {
  reconf : N;                          (* contents of reconf, 0 = missing *)
  ents   : list (string * centry)
}.

Definition two32 : N := 4294967296%N.

(** src/cond.c:47-55: the name is appended to "/var/run/finit/cond/" (20
    characters) in a buffer of 64 bytes, so only 43 characters survive. *)
Definition cond_path (name : string) : string := substring 0 43 name.

Fixpoint lookup (p : string) (l : list (string * centry)) : option centry :=
  match l with
  | [] => None
  | (q, e) :: l' => if String.eqb p q then Some e else lookup p l'
  end.

Definition remove_ent (p : string) (l : list (string * centry)) :=
  filter (fun qe => negb (String.eqb p (fst qe))) l.

(** src/cond.c:57-90 cond_get_gen, cond_get_path: generations are compared as
    C ints; equality and the zero test agree with the unsigned reading. *)
Definition cond_get_path (cs : cstore) (p : string) : cstate :=
  match lookup p (ents cs) with
  | None => COff
  | Some e =>
      let cgen := match e with Oneshot => reconf cs | Gen g => g end in
      if N.eqb cgen 0 then COff
      else if N.eqb (reconf cs) 0 then COff
      else if N.eqb cgen (reconf cs) then COn else CFlux
  end.

(** src/cond.c:92-95 *)
Definition cond_get (cs : cstore) (name : string) : cstate :=
  cond_get_path cs (cond_path name).

(** src/cond.c:97-111: loop over the comma separated names, left early once
    the minimum is off.  The list is already split (see split_commas). *)
Fixpoint cond_get_agg_from (cs : cstore) (s : cstate) (names : list string) : cstate :=
  match names with
  | [] => s
  | n :: ns =>
      match s with
      | COff => COff
      | _ => cond_get_agg_from cs (cs_min s (cond_get cs n)) ns
      end
  end.

Definition cond_get_agg (cs : cstore) (names : list string) : cstate :=
  cond_get_agg_from cs COn names.

(** strtok(s, ","): maximal runs of non-comma characters, empty ones dropped *)
Fixpoint split_commas_aux (acc : string) (s : string) : list string :=
  match s with
  | EmptyString => if String.eqb acc "" then [] else [acc]
  | String c s' =>
      if Ascii.eqb c ","%char
      then (if String.eqb acc "" then [] else [acc]) ++ split_commas_aux "" s'
      else split_commas_aux (acc ++ String c "") s'
  end.
Definition split_commas (s : string) : list string := split_commas_aux "" s.

(** src/cond.c:113-128: exact string comparison with each member, the names
    are not cut at 43 characters here. *)
Definition cond_affects (name : string) (names : list string) : bool :=
  existsb (String.eqb name) names.

(** is [p] the proper directory prefix of [q]? *)
Definition below (p q : string) : bool := String.prefix (p ++ "/") q.

(** a directory given with a trailing slash, as svc_set_state does *)
Definition strip_slash (p : string) : string :=
  let n := String.length p in
  match n with
  | 0 => p
  | S m => if String.eqb (substring m 1 p) "/" then substring 0 m p else p
  end.

Definition is_dir (cs : cstore) (p : string) : bool :=
  existsb (fun qe => below (strip_slash p) (fst qe)) (ents cs).

(** cond_checkpath (src/cond-w.c:182-199) fails iff some directory of the
    path is already a file. *)
Definition checkpath_fails (cs : cstore) (p : string) : bool :=
  existsb (fun qe => below (fst qe) p) (ents cs).

(** fopen(path,"w") + fprintf (src/cond-w.c:148-165).  Through a one-shot
    symlink it rewrites reconf with its own value.  A directory cannot be
    opened for writing; that error is ignored by the caller. *)
Definition write_gen (cs : cstore) (p : string) (g : N) : cstore :=
  match lookup p (ents cs) with
  | Some Oneshot => mkCstore g (ents cs)
  | Some (Gen _) => mkCstore (reconf cs) ((p, Gen g) :: remove_ent p (ents cs))
  | None => if is_dir cs p then cs
            else mkCstore (reconf cs) ((p, Gen g) :: ents cs)
  end.

(** cond_set_path(path, COND_ON), src/cond-w.c:244-286.  The boolean tells
    whether the C function returns non-zero. *)
Definition cond_set_path (cs : cstore) (p : string) : bool * cstore :=
  if checkpath_fails cs p then (false, cs)
  else if N.eqb (reconf cs) 0 then (true, cs)          (* returns -1 *)
  else (negb (cs_eqb (cond_get_path cs p) COn), write_gen cs p (reconf cs)).

Definition is_nop (name : string) : bool := String.eqb name "nop".

(** cond_set_noupdate, src/cond-w.c:313-323; boolean = caller must update *)
Definition cond_set_nu (cs : cstore) (name : string) : bool * cstore :=
  if is_nop name then (false, cs) else cond_set_path cs (cond_path name).

(** cond_set_oneshot_noupdate, src/cond-w.c:334-353 *)
Definition cond_oneshot_nu (cs : cstore) (name : string) : bool * cstore :=
  if is_nop name then (false, cs)
  else
    let p := cond_path name in
    if checkpath_fails cs p then (false, cs)
    else match lookup p (ents cs) with
         | Some _ => (true, cs)                          (* EEXIST *)
         | None => if is_dir cs p then (true, cs)        (* EEXIST *)
                   else (true, mkCstore (reconf cs) ((p, Oneshot) :: ents cs))
         end.

(** Names removed when the path is a directory (cond_delpath and do_delete,
    src/cond-w.c:201-242), in the order of the store. *)
Definition dir_children (cs : cstore) (p : string) : list string :=
  map fst (filter (fun qe => below (strip_slash p) (fst qe)) (ents cs)).

(** cond_set_path(path, COND_OFF) for a plain file; unlink of a name with a
    trailing slash never hits a file. *)
Definition cond_unlink (cs : cstore) (p : string) : bool * cstore :=
  (negb (cs_eqb (cond_get_path cs p) COff), mkCstore (reconf cs) (remove_ent p (ents cs))).

(** cond_clear_noupdate, src/cond-w.c:364-374, for a condition (not a
    directory). *)
Definition cond_clear_nu (cs : cstore) (name : string) : bool * cstore :=
  if is_nop name then (false, cs) else cond_unlink cs (cond_path name).

(** cond_bump_reconf and cond_reload, src/cond-w.c:167-180, 385-390 *)
Definition cond_reload (cs : cstore) : cstore :=
  mkCstore (N.modulo (reconf cs + 1) two32) (ents cs).

(** cond_init, src/cond-w.c: creates the directory and bumps reconf from 0. *)
Definition cond_init : cstore := mkCstore 1 [].
