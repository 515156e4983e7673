(** Lines of keys and values, src/helpers.h, and the modules of
    /etc/modules-load.d, plugins/modules-load.c. *)
From Coq Require Import List String Ascii NArith ZArith Bool DecimalString.
From Verif Require Import CStr ParseModel TmpModel.
Import ListNotations.
Local Open Scope Z_scope.

(** ** A key and its value *)
(** GCrash: a null pointer is read *)
Inductive got := GCrash | GNone | GVal (v : cstr).
(** src/helpers.h:130-141: white space behind a value that begins with a quote is
    taken off, and then the quotes *)
Definition unquote_val (v : cstr) : cstr :=
  match v with
  | [] => []
  | q :: r =>
      if isquote q then
        match skip isspace (rev r) with
        | [] => []
        | e :: m => if ch_eqb e q then rev m else q :: rev (e :: m)
        end
      else v
  end.
(** src/helpers.h:103-146 fgetval.  strsep(3) leaves a null pointer behind when
    there is no separator; strchr(3) finds the zero at the end of a string in
    every string, so that 123-127 goes on to the null pointer as well.  Memory is
    never short. *)
Definition fgetval (line key sep : cstr) : got :=
  let (a, b) := cut (fun c => mem c sep) line in
  if str_eqb a key then
    match skip (fun c => mem c sep) (tl b) with
    | [] => GCrash
    | v => GVal (unquote_val v)
    end
  else GNone.
(** src/getty.c:94-107 osrel, for one of its keys, and src/initctl.c:1449-1464
    sourcerc: the value given last; None: a crash *)
Fixpoint last_value (key : cstr) (old : option cstr) (lines : list cstr) : option (option cstr) :=
  match lines with
  | [] => Some old
  | l :: r => match fgetval l key #"=" with
              | GCrash => None
              | GNone => last_value key old r
              | GVal v => last_value key (Some v) r
              end
  end.

(** ** Kernel modules *)
(** where reading of a file is: the next index, 0 for none, the runlevels and the
    program (plugins/modules-load.c:90-102) *)
Record mst := { x_index : Z; x_lvl : cstr; x_prog : cstr }.
Definition start_file (index : Z) : mst := {| x_index := index; x_lvl := #"S"; x_prog := #"/sbin/modprobe" |}.
(** a task that is registered *)
Record mtask := { t_mod : cstr; t_index : Z; t_lvl : cstr; t_prog : cstr; t_args : cstr }.
(** what a line does; AUndef: atoi(3) of a number that is too large *)
Inductive act := ACrash | AUndef | ASkip | ASet (x : mst) | AStop | ATask (t : mtask).
Definition seps : cstr := #"= " ++ ["009"%char].
(** plugins/modules-load.c:119-160: a line that begins with set *)
Definition set_line (exec : cstr -> bool) (x : mst) (s : cstr) : act :=
  if str_eqb s #"noindex" then ASet {| x_index := 0; x_lvl := x_lvl x; x_prog := x_prog x |}
  else match fgetval s #"index" seps with
       | GCrash => ACrash
       | GVal v => match int_of v with
                   | Some n => ASet {| x_index := n; x_lvl := x_lvl x; x_prog := x_prog x |}
                   | None => AUndef
                   end
       | GNone =>
           match fgetval s #"runlevel" seps with
           | GCrash => ACrash
           | GVal v => ASet {| x_index := x_index x; x_lvl := v; x_prog := x_prog x |}
           | GNone =>
               match fgetval s #"modprobe" seps with
               | GCrash => ACrash
               | GVal v => if exec v then ASet {| x_index := x_index x; x_lvl := x_lvl x; x_prog := v |} else AStop
               | GNone => ASkip
               end
           end
       end.
(** plugins/modules-load.c:104-175: a line as fparseln(3) hands it out, comments
    cut off and continued lines joined.  [exec]: access(2) with X_OK. *)
Definition do_line (exec : cstr -> bool) (x : mst) (line : cstr) : act :=
  if starts #";" line then ASkip
  else match strip_line line with
       | [] => ASkip
       | s => match fgetval s #"set" seps with
              | GCrash => ACrash
              | GVal v => set_line exec x v
              | GNone => match strtok #" " s with
                         | None => ASkip
                         | Some (m, args) => ATask {| t_mod := m; t_index := x_index x; t_lvl := x_lvl x; t_prog := x_prog x; t_args := args |}
                         end
              end
       end.
Inductive mres := MCrash | MUndef | MDone (ts : list mtask).
Definition add_tasks (ts : list mtask) (r : mres) : mres := match r with MDone l => MDone (ts ++ l) | r => r end.
(** the index goes up with each task, unless it is off (169: index++) *)
Definition count_up (x : mst) : mst :=
  {| x_index := if x_index x =? 0 then 0 else x_index x + 1; x_lvl := x_lvl x; x_prog := x_prog x |}.
(** plugins/modules-load.c:72-183 modules_load: the tasks, in order.  Index and
    count stay inside int. *)
Fixpoint modules_load (exec : cstr -> bool) (x : mst) (lines : list cstr) : mres :=
  match lines with
  | [] => MDone []
  | l :: r => match do_line exec x l with
              | ACrash => MCrash
              | AUndef => MUndef
              | ASkip => modules_load exec x r
              | ASet x => modules_load exec x r
              | AStop => MDone []
              | ATask t => add_tasks [t] (modules_load exec (count_up x) r)
              end
  end.
(** plugins/modules-load.c:198-213 load: the files in order of their names; None:
    it cannot be opened *)
Fixpoint load_files (exec : cstr -> bool) (index : Z) (files : list (option (list cstr))) : mres :=
  match files with
  | [] => MDone []
  | None :: r => load_files exec index r
  | Some lines :: r => match modules_load exec (start_file index) lines with
                       | MDone ts => add_tasks ts (load_files exec (index + Z.of_nat (List.length ts)) r)
                       | e => e
                       end
  end.
Definition load (exec : cstr -> bool) (files : list (option (list cstr))) : mres := load_files exec 1 files.
(** plugins/modules-load.c:67-70, 166-169: the line of a task, cut to CMD_SIZE.
    %d of the index *)
Definition show_int (n : Z) : cstr := list_ascii_of_string (NilZero.string_of_int (Z.to_int n)).
Definition task_line (t : mtask) : cstr :=
  strlcpy (N.to_nat 1024)
    (#"cgroup.init name:modprobe." ++ t_mod t ++ (if t_index t =? 0 then [] else #" :" ++ show_int (t_index t)) ++
     #" [" ++ t_lvl t ++ #"] " ++ t_prog t ++ #" " ++ t_mod t ++ #" " ++ t_args t ++ #" --").
(** what Finit knows the task by *)
Definition ident (t : mtask) : cstr * Z := (t_mod t, t_index t).
(** plugins/modules-load.c:186-196 module_filter, of what is no directory *)
Definition module_filter (name : cstr) : bool :=
  negb (starts #"." name) && negb (ch_eqb (last name " "%char) "~").
