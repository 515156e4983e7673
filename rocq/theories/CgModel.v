(** Control groups: src/cgroup.c, parse_cgroup() of src/service.c and
    conf_parse_cgroup() of src/conf.c. *)
From Coq Require Import List String Ascii NArith ZArith Bool.
From Verif Require Import CStr ParseModel.
Import ListNotations.

(** src/cgroup.c:64-106 cgset, with the choice of 142-145 in group_init: one
    setting, as it is between two commas.  The file written and the value; None:
    refused with a message.  fnwrite(), src/util.c:305-333, has a buffer of 256
    bytes for the name. *)
Definition cgset (path item : cstr) : option (cstr * cstr) :=
  let cp := if starts #"mem." item then Some (#"memory", skipn 4 item) else strchr "." item in
  match cp with
  | None => None
  | Some (ctrl, prop) =>
      match strchr ":" prop with
      | None => None
      | Some (prop, val) =>
          match unquote val with
          | None => None
          | Some val =>
              if match strstr #".." ctrl with Some _ => true | None => false end ||
                 match strstr #".." prop with Some _ => true | None => false end then None
              else Some (strlcpy 256 (path ++ #"/" ++ ctrl ++ #"." ++ prop), val)
          end
      end
  end.
(** src/cgroup.c:108-147 group_init: what is written for a group whose directory
    is there or can be made *)
Definition settings (path cfg : cstr) : list (cstr * cstr) :=
  flat_map (fun item => match cgset path item with Some w => [w] | None => [] end) (strtoks #"," cfg).

(** src/cgroup.h: struct cgroup of a stanza *)
Record cgroup := { g_name : cstr; g_cfg : cstr }.
(** src/service.c:2057-2059 and 1375-1406 parse_cgroup, in service_register():
    [cur] is the group set by the last "cgroup.NAME" line, [arg] what comes after
    "cgroup" in the stanza; [g] is the record as it was, all zero for a new one.
    None: the name is read from after the end of the word. *)
Definition reg_cgroup (cur : cstr) (arg : option cstr) (g : cgroup) : option cgroup :=
  let g := {| g_name := strlcpy 16 cur; g_cfg := g_cfg g |} in
  let cfg (g : cgroup) (p : cstr) := if Nat.leb 144 (List.length p) then g else {| g_name := g_name g; g_cfg := strlcpy 128 p |} in
  match arg with
  | None => Some g
  | Some [] => None
  | Some (c :: r) =>
      if ch_eqb c "." then
        match strchr ":" r with
        | Some (n, p) => Some (cfg {| g_name := strlcpy 16 n; g_cfg := g_cfg g |} p)
        | None => Some {| g_name := strlcpy 16 r; g_cfg := g_cfg g |}
        end
      else if ch_eqb c ":" then Some (cfg g r)
      else Some {| g_name := strlcpy 16 r; g_cfg := g_cfg g |}
  end.

(** FINIT_CGPATH *)
Definition cgpath : cstr := #"/sys/fs/cgroup".

(** src/cgroup.c:151-204 cgroup_service and cgroup_leaf_init: the directory a
    process is moved to, and the settings written there.  [isdir]: fisdir(). *)
Definition cgroup_service (isdir : cstr -> bool) (name : cstr) (g : cgroup) : cstr * list (cstr * cstr) :=
  if str_eqb (g_name g) #"root" then (cgpath, [])
  else if str_eqb (g_name g) #"init" then (cgpath ++ #"/init", [])
  else
    let group := match g_name g with
                 | [] => #"system"
                 | n => if isdir (strlcpy 256 (cgpath ++ #"/" ++ n)) then n else #"system"
                 end in
    let path := strlcpy 256 (cgpath ++ #"/" ++ group ++ #"/" ++ name) in
    (path, settings path (g_cfg g)).

(** ** The top-level groups *)
(** src/cgroup.c:45-54 struct cg *)
Record cg := { c_name : cstr; c_cfg : cstr; c_active : bool; c_prot : bool }.
Definition top_path (name : cstr) : cstr := strlcpy 256 (cgpath ++ #"/" ++ name).

(** src/cgroup.c:324-339 cgroup_mark_all *)
Definition mark_all (l : list cg) : list cg :=
  map (fun c => if c_prot c then c else {| c_name := c_name c; c_cfg := c_cfg c; c_active := false; c_prot := c_prot c |}) l.
(** src/cgroup.c:362-406 cgroup_add; memory is not short *)
Fixpoint cg_add (name cfg : cstr) (prot : bool) (l : list cg) : list cg :=
  match l with
  | [] => [{| c_name := name; c_cfg := cfg; c_active := true; c_prot := prot |}]
  | c :: r => if str_eqb (c_name c) name then {| c_name := name; c_cfg := cfg; c_active := true; c_prot := prot |} :: r
              else c :: cg_add name cfg prot r
  end.
(** src/cgroup.c:408-443 cgroup_del: what is left, and whether rmdir(2) was
    called.  [gone]: it works, or there is no such directory. *)
Fixpoint cg_del_ (gone : cstr -> bool) (dir : cstr) (l : list cg) : list cg * bool :=
  match l with
  | [] => ([], true)
  | c :: r =>
      if str_eqb (top_path (c_name c)) dir then
        if c_active c then (l, false) else (if gone dir then r else l, true)
      else let (r, b) := cg_del_ gone dir r in (c :: r, b)
  end.
(** src/cgroup.c:342-360 cgroup_cleanup: the groups left, and the directories
    rmdir(2) was called for *)
Definition cleanup (gone : cstr -> bool) (l : list cg) : list cg * list cstr :=
  fold_left (fun a c => if c_active c then a else
                        let (l, b) := cg_del_ gone (top_path (c_name c)) (fst a) in
                        (l, if b then snd a ++ [top_path (c_name c)] else snd a)) l (l, []).
(** src/cgroup.c:445-467 cgroup_config: the directories and what is written there *)
Definition config (l : list cg) : list (cstr * list (cstr * cstr)) :=
  flat_map (fun c => if c_active c then [(top_path (c_name c), settings (top_path (c_name c)) (c_cfg c))] else []) l.

(** src/conf.c:882-903 conf_parse_cgroup: "cgroup NAME SETTING SETTING..." *)
Fixpoint commas (l : list cstr) : cstr :=
  match l with [] => [] | [s] => s | s :: r => s ++ #"," ++ commas r end.
Definition parse_cg_line (line : cstr) (l : list cg) : list cg :=
  match strtoks [" "; "009"]%char line with
  | [] => l
  | name :: cfg =>
      if match strstr #".." name with Some _ => true | None => false end || mem "/" name then l
      else cg_add name (commas cfg) false l
  end.

(** src/conf.c:1252-1412 conf_reload, as far as groups go: the lines of the
    configuration in between *)
Record reloaded := { r_groups : list cg; r_made : list (cstr * list (cstr * cstr)); r_removed : list cstr }.
Definition cg_reload (gone : cstr -> bool) (lines : list cstr) (l : list cg) : reloaded :=
  let l := fold_left (fun l line => parse_cg_line line l) lines (mark_all l) in
  let made := config l in
  let (l, rm) := cleanup gone l in
  {| r_groups := l; r_made := made; r_removed := rm |}.

(** src/cgroup.c:544-546, in cgroup_init *)
Definition cg_init : list cg :=
  cg_add #"user" #"cpu.weight:100" true (cg_add #"system" #"cpu.weight:9800" true (cg_add #"init" #"cpu.weight:100" true [])).
Definition cg_run (gone : nat -> cstr -> bool) (confs : list (list cstr)) : list cg :=
  snd (fold_left (fun a ls => (S (fst a), r_groups (cg_reload (gone (fst a)) ls (snd a)))) confs (O, cg_init)).
