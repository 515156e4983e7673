(** Plugins and what they depend on, src/plugin.c. *)
From Coq Require Import List String Ascii Bool.
From Verif Require Import CStr.
Import ListNotations.

(** A plugin in the directory of plugins: its name, what it depends on, and the numbers
    of the hooks it has a callback for.  Simplified: the file is NAME.so, as it is
    for all that come with Finit; there are no more than the ten dependencies there
    is room for. *)
Record plug := { g_name : cstr; g_deps : list cstr; g_hooks : list nat }.
Definition known (l : list cstr) (n : cstr) : bool := existsb (str_eqb n) l.
Definition lookup (dir : list plug) (n : cstr) : option plug := find (fun p => str_eqb n (g_name p)) dir.
(** What dlopen(3) has loaded, and the list of plugins *)
Record pst := { opened : list cstr; plugins : list plug }.
Definition registered (s : pst) (n : cstr) : bool := known (map g_name (plugins s)) n.
(** src/plugin.c:348-384 load_one.  dlopen(3) runs the constructor, which calls
    plugin_register (79-117), unless the file is loaded already.  None: too little
    fuel *)
Fixpoint load_one (fuel : nat) (dir : list plug) (s : pst) (n : cstr) : option pst :=
  match fuel with
  | O => None
  | S fuel =>
      match lookup dir n with
      | None => Some s
      | Some p =>
          if known (opened s) n then Some s
          else
            let s := {| opened := n :: opened s; plugins := plugins s |} in
            if registered s n then Some s
            else
              (* src/plugin.c:397-410 check_plugin_depends *)
              let deps := fix deps (s : pst) (l : list cstr) : option pst :=
                match l with
                | [] => Some s
                | d :: r => if registered s d then deps s r
                            else match load_one fuel dir s d with Some s => deps s r | None => None end
                end in
              match deps s (g_deps p) with
              | Some s => Some {| opened := opened s; plugins := plugins s ++ [p] |}
              | None => None
              end
      end
  end.
(** src/plugin.c:412-437 load_plugins: in the order of readdir(3) *)
Fixpoint load_all (fuel : nat) (dir : list plug) (s : pst) (l : list plug) : option pst :=
  match l with
  | [] => Some s
  | p :: r => match load_one fuel dir s (g_name p) with Some s => load_all fuel dir s r | None => None end
  end.
Definition load_plugins (dir : list plug) : option pst := load_all (S (List.length dir)) dir {| opened := []; plugins := [] |} dir.
(** src/plugin.c:247-274 plugin_run_hook: whose callbacks are called, in order *)
Definition called (s : pst) (hook : nat) : list cstr :=
  map g_name (filter (fun p => existsb (Nat.eqb hook) (g_hooks p)) (plugins s)).
