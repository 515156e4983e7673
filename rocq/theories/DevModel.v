(** Model of src/devmon.c: device nodes in /dev and /dev/DIR that stanzas wait for
    with <dev/NODE> and <dev/DIR/NODE>. *)
From Coq Require Import List String Ascii NArith Bool.
From Verif Require Import CondModel CondSpec.
Import ListNotations.
Local Open Scope string_scope.

(** src/devmon.c:40-46 the nodes with their number of users, the watched directories
    and the conditions.  The counter is a size_t; it does not wrap here. *)
Record dst := mkDst { d_nodes : list (string * N); d_watch : list string; d_cond : cstore }.

(** src/devmon.c:49-59 find_node *)
Definition find_node (c : string) (s : dst) : bool := existsb (fun x => String.eqb (fst x) c) (d_nodes s).
(** src/devmon.c:75-106 devmon_add_cond; memory does not run out *)
Fixpoint ref_up (c : string) (l : list (string * N)) : list (string * N) :=
  match l with
  | [] => []
  | (x, n) :: l => if String.eqb x c then (x, (n + 1)%N) :: l else (x, n) :: ref_up c l
  end.
Definition devmon_add_cond (c : string) (s : dst) : dst :=
  if negb (String.prefix "dev/" c) then s
  else if find_node c s then mkDst (ref_up c (d_nodes s)) (d_watch s) (d_cond s)
  else mkDst (d_nodes s ++ [(c, 1%N)]) (d_watch s) (d_cond s).
(** src/devmon.c:61-73 drop_node: the first node of that name *)
Fixpoint ref_down (c : string) (l : list (string * N)) : list (string * N) :=
  match l with
  | [] => []
  | (x, n) :: l => if String.eqb x c then (if N.eqb (n - 1) 0 then l else (x, (n - 1)%N) :: l) else (x, n) :: ref_down c l
  end.
(** src/devmon.c:108-114 devmon_del_cond: strcmp, not strncmp *)
Definition devmon_del_cond (c : string) (s : dst) : dst :=
  if negb (String.eqb c "dev/") then s
  else mkDst (ref_down c (d_nodes s)) (d_watch s) (d_cond s).

(** paste() of libite, which is not in /repo: DIR/FILE with no second slash *)
Definition last_slash (s : string) : bool :=
  match String.length s with 0 => false | S n => String.eqb (substring n 1 s) "/" end.
Definition paste (dir file : string) : string :=
  if last_slash dir || String.prefix "/" file then dir ++ file else dir ++ "/" ++ file.
(** src/devmon.c:138-158 devmon_update_conds *)
Definition tail (s : string) : string := match s with "" => "" | String _ s => s end.
Definition devmon_update_conds (dir name : string) (created : bool) (s : dst) : dst :=
  let cond := tail (paste dir name) in
  if negb (find_node cond s) then s
  else mkDst (d_nodes s) (d_watch s) (if created then snd (cond_set_nu (d_cond s) cond) else snd (cond_clear_nu (d_cond s) cond)).

(** strstr and strchr *)
Fixpoint after_str (pat s : string) : option string :=
  if String.prefix pat s then Some (substring (String.length pat) (String.length s - String.length pat) s)
  else match s with "" => None | String _ s => after_str pat s end.
Fixpoint has_slash (s : string) : bool :=
  match s with "" => false | String c s => Ascii.eqb c "/" || has_slash s end.
(** src/devmon.c:116-136 devmon_add_path.  The second strchr starts at the slash the
    first one found, so that any slash after "dev/" is too deep.  [res] is what
    iwatch_add1 (src/iwatch.c:84-144) does: watch the directory, find it gone
    (returns 0), or fail. *)
Definition devmon_add_path (path : string) (res : option bool) (s : dst) : bool * dst :=
  if match after_str "dev/" path with Some r => has_slash r | None => false end then (false, s)
  else if existsb (String.eqb path) (d_watch s) then (true, s)
  else match res with
       | Some true => (true, mkDst (d_nodes s) (path :: d_watch s) (d_cond s))
       | Some false => (true, s)
       | None => (false, s)
       end.
(** src/devmon.c:161-180 devmon_scandir: [found] is what is in the directory; glob
    gives full paths *)
Definition devmon_scandir (dir : string) (found : list string) (s : dst) : dst :=
  fold_left (fun s f => devmon_update_conds dir (dir ++ "/" ++ f) true s) found s.
(** src/devmon.c:185-206 devmon_handle_dir *)
Definition devmon_handle_dir (dir name : string) (created : bool) (res : option bool) (found : list string) (s : dst) : dst :=
  let path := paste dir name in
  let iwp := existsb (String.eqb path) (d_watch s) in
  if created then
    if iwp then s
    else let (ok, s) := devmon_add_path path res s in
         if ok then devmon_scandir path found s else s
  else if iwp then mkDst (d_nodes s) (filter (fun p => negb (String.eqb path p)) (d_watch s)) (d_cond s) else s.

(** What happens: a stanza with a condition is read or removed; inotify reports a
    node or a directory in a directory (None = /dev, Some a = /dev/a); the
    configuration is reloaded; somebody else uses a condition.  An event for a
    directory that is not watched any longer is dropped (src/devmon.c:234-242). *)
Inductive dev :=
| DvAdd (c : string) | DvDel (c : string)
| DvFile (dir : option string) (name : string) (created : bool)
| DvDir (dir : option string) (name : string) (created : bool) (res : option bool) (found : list string)
| DvOp (o : cop).
Definition cond_op (c : cstore) (o : cop) : cstore :=
  match o with
  | OpSet n => snd (cond_set_nu c n)
  | OpOneshot n => snd (cond_oneshot_nu c n)
  | OpClear n => snd (cond_clear_nu c n)
  | OpReload => cond_reload c
  end.
Definition dir_path (d : option string) : string := match d with None => "/dev/" | Some a => "/dev/" ++ a end.
Definition dev_event (s : dst) (e : dev) : dst :=
  match e with
  | DvAdd c => devmon_add_cond c s
  | DvDel c => devmon_del_cond c s
  | DvFile d n b => if existsb (String.eqb (dir_path d)) (d_watch s) then devmon_update_conds (dir_path d) n b s else s
  | DvDir d n b res found =>
      if existsb (String.eqb (dir_path d)) (d_watch s) then devmon_handle_dir (dir_path d) n b res found s else s
  | DvOp o => mkDst (d_nodes s) (d_watch s) (cond_op (d_cond s) o)
  end.
(** src/devmon.c:254-278 devmon_init *)
Definition dev_run (es : list dev) : dst := fold_left dev_event es (mkDst [] ["/dev/"] cond_init).
