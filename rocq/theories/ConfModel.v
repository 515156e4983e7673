(** Model of the choice of configuration files: src/conf.c:1325-1396. *)
From Coq Require Import List String Ascii Bool Arith.
Import ListNotations.
Local Open Scope string_scope.

(** basenm() of libite, which is not in /repo: what follows the last slash *)
Fixpoint basenm_from (best s : string) : string :=
  match s with
  | "" => best
  | String c s => basenm_from (if Ascii.eqb c "/" then s else best) s
  end.
Definition basenm (s : string) : string := basenm_from s s.

(** what is found at a path: src/conf.c:1368-1388 *)
Inductive found := Nothing | Directory | Dangling | AFile.
(** the directories; FINIT_SYSPATH_ and FINIT_RUNPATH_ are set by configure, the last
    one by the user *)
Record dirs := mkDirs { syspath : string; runpath : string; rcsd : string }.

(** src/conf.c:1325-1328: the paths glob() finds, given the names in each directory *)
Definition glob_all (D : dirs) (sys run etc enabled : list string) : list string :=
  map (fun n => syspath D ++ "/" ++ n) sys ++ map (fun n => runpath D ++ "/" ++ n) run ++
  map (fun n => rcsd D ++ "/" ++ n) etc ++ map (fun n => rcsd D ++ "/enabled/" ++ n) enabled.
(** src/conf.c:1352-1361 *)
Definition replaced (D : dirs) (path : string) (later : list string) : bool :=
  existsb (fun p => (String.prefix (syspath D) path || String.prefix (runpath D) path)
                    && String.eqb (basenm path) (basenm p)) later.
(** src/conf.c:1390-1393 *)
Definition ends_conf (path : string) : bool :=
  let len := String.length path in negb (Nat.ltb len 6) && String.eqb (substring (len - 5) 5 path) ".conf".
(** src/conf.c:1343-1396: the files handed to parse_conf, in order *)
Fixpoint conf_read (D : dirs) (what : string -> found) (l : list string) : list string :=
  match l with
  | [] => []
  | path :: later =>
      if replaced D path later then conf_read D what later
      else match what path with
           | AFile => if ends_conf path then path :: conf_read D what later else conf_read D what later
           | _ => conf_read D what later
           end
  end.
