(** The tmpfiles program: src/tmpfiles.c.

    One line of a tmpfiles.d file is read as it comes from fparseln(): comments
    and continuations are dealt with.  What the program learns about the file
    system is the record [fs]; what it does to it is the list of [op]s, in
    order.  The files are looked at before anything is done: with --remove and
    --create together only the content of a 'D' directory goes away in between,
    and nothing looks at that afterwards.  Whether an operation works is not
    modelled: the program only warns. *)
From Coq Require Import List String Ascii NArith ZArith Bool Lia.
From Verif Require Import CStr ParseModel.
Import ListNotations.
Local Open Scope Z_scope.

(** What is looked at: stat(2); fisdir(); number of entries besides "." and ".."
    (None: scandir fails); glob(3) with no match, or failing, as the empty
    list; realpath(3); whether there is a restorecon program. *)
Record fs := {
  f_stat : cstr -> bool;
  f_dir : cstr -> bool;
  f_count : cstr -> option nat;
  f_glob : cstr -> list cstr;
  f_real : cstr -> option cstr;
  f_restorecon : bool }.

(** What is done.  [OWrite] is fopen() and fputs(): a file that is not there is
    created with the given mode, the one of fopen(3), less the umask. *)
Inductive op :=
| OParent (path : cstr)                           (* mkpath(dirname(path), 0755) *)
| OErase (path : cstr)                            (* erase() *)
| ORmrf (path : cstr)                             (* nftw(do_delete) and remove() *)
| OEmpty (path : cstr)                            (* nftw(do_delete): everything below *)
| OBlk (path : cstr) (mode major minor : Z)
| OChr (path : cstr) (mode major minor : Z)
| OFifo (path : cstr) (mode : Z)
| OCopy (src path : cstr)                         (* rsync() *)
| ODir (path : cstr) (mode : Z) (user group : cstr)   (* mksubsys() *)
| OFile (path : cstr) (mode : Z) (user group : cstr)  (* create() *)
| OWrite (path : cstr) (append : bool) (mode : Z) (bytes : list ascii)
| OLink (target path : cstr)                      (* ln() *)
| ORestore (recursive : bool) (path : cstr).      (* restorecon *)

(** tmpfiles.c:49-65 is_dir_empty, as it is *)
Definition is_dir_empty (F : fs) (path : cstr) : bool :=
  match f_count F path with
  | Some n => (3 <=? n + 2)%nat
  | None => false
  end.

(** atoi(3); None: the number does not fit in an int, undefined in C *)
Definition int_of (s : cstr) : option Z :=
  let n := match strtoll s with Some (n, _) => n | None => 0 end in
  if (- INT_MAX - 1 <=? n) && (n <=? INT_MAX) then Some n else None.

(** tmpfiles.c:87-109 parse_mm: failure, the two numbers, or undefined *)
Inductive mm := MmBad | MmUB | Mm (major minor : Z).
Definition parse_mm (arg : option cstr) : mm :=
  match arg with
  | None => MmBad
  | Some a =>
      match strchr ":" a with
      | None => MmBad
      | Some (x, y) =>
          match int_of x, int_of y with
          | Some major, Some minor => if (major =? 0) || (minor =? 0) then MmBad else Mm major minor
          | _, _ => MmUB
          end
      end
  end.

(** tmpfiles.c:125-134 rmrf *)
Definition rmrf (F : fs) (path : cstr) : list op := if f_dir F path then [ORmrf path] else [].

(** Digits as in tmpfiles.c:150-152 (write_hex) and 184 (write_num) *)
Definition hexd (c : ascii) : option N :=
  let n := code c in
  if ((48 <=? n) && (n <=? 55))%N then Some (n - 48)%N
  else if ((97 <=? n) && (n <=? 102))%N then Some (n - 87)%N
  else if ((65 <=? n) && (n <=? 70))%N then Some (n - 55)%N
  else None.
Definition octd (c : ascii) : option N :=
  let n := code c in if ((48 <=? n) && (n <=? 55))%N then Some (n - 48)%N else None.
(** fputc(val & 0xff) *)
Definition byte (n : N) : ascii := ascii_of_N (n mod 256).

(** tmpfiles.c:213-246: the escapes of one letter *)
Definition letter (c : ascii) : ascii :=
  if ch_eqb c "a" then "007"%char else if ch_eqb c "b" then "008"%char
  else if ch_eqb c "e" then "027"%char else if ch_eqb c "n" then "010"%char
  else if ch_eqb c "t" then "009"%char else c.

(** tmpfiles.c:201-257 write_arg with write_hex (141-172) and write_num
    (174-199): what is written.  None: a backslash is the last character, the
    program goes on reading behind the end of the string (250-253). *)
Definition put (b : ascii) (r : option (list ascii)) : option (list ascii) :=
  match r with Some l => Some (b :: l) | None => None end.
Fixpoint write_arg (s : cstr) : option (list ascii) :=
  match s with
  | [] => Some []
  | c :: r =>
      if negb (ch_eqb c "\") then put c (write_arg r) else
      match r with
      | [] => None
      | d :: r1 =>
          if ch_eqb d "x" then
            match r1 with
            | [] => put "x" (write_arg r1)
            | h1 :: r2 =>
                match hexd h1 with
                | None => put "x" (write_arg r1)
                | Some v1 =>
                    match r2 with
                    | [] => put (byte v1) (write_arg r2)
                    | h2 :: r3 =>
                        match hexd h2 with
                        | None => put (byte v1) (write_arg r2)
                        | Some v2 => put (byte (16 * v1 + v2)) (write_arg r3)
                        end
                    end
                end
            end
          else
            match octd d with
            | None => put (letter d) (write_arg r1)
            | Some v1 =>
                match r1 with
                | [] => put (byte v1) (write_arg r1)
                | o2 :: r2 =>
                    match octd o2 with
                    | None => put (byte v1) (write_arg r1)
                    | Some v2 =>
                        match r2 with
                        | [] => put (byte (8 * v1 + v2)) (write_arg r2)
                        | o3 :: r3 =>
                            match octd o3 with
                            | None => put (byte (8 * v1 + v2)) (write_arg r2)
                            | Some v3 => put (byte (64 * v1 + 8 * v2 + v3)) (write_arg r3)
                            end
                        end
                    end
                end
            end
      end
  end.
(** tmpfiles.c:212: the first backslash is overwritten with a NUL; this is the
    string the next call finds *)
Definition written (s : cstr) : cstr := fst (cut (ch_eqb "\") s).

(** strtoul(3) in base 8: the value, None if there is none or it is out of range *)
Fixpoint octal_ (acc : N) (s : cstr) : N :=
  match s with
  | c :: r => match octd c with Some v => octal_ (8 * acc + v) r | None => acc end
  | [] => acc
  end.
Definition strtoul8 (s : cstr) : option Z :=
  let num s := match s with
               | c :: _ => match octd c with
                           | Some _ => let n := octal_ 0 s in if (n <? 2 ^ 64)%N then Some (Z.of_N n) else None
                           | None => None end
               | [] => None end in
  match skip isspace s with
  | c :: r =>
      if ch_eqb c "+" then num r
      else if ch_eqb c "-" then match num r with Some n => Some ((- n) mod 2 ^ 64) | None => None end
      else num (c :: r)
  | [] => None
  end.

(** tmpfiles.c:287-321: the fields of a line.  None: the line is skipped. *)
Record entry := {
  e_type : cstr; e_path : cstr; e_mode : Z; e_user : cstr; e_group : cstr; e_arg : option cstr }.
Definition tok (s : option cstr) : option cstr * option cstr :=
  match s with
  | Some s => match strtok ["009"%char; " "%char] s with
              | Some (a, b) => (Some a, Some b)
              | None => (None, None)
              end
  | None => (None, None)
  end.
Definition name_or_root (s : option cstr) : cstr :=
  match s with
  | Some u => if str_eqb u #"-" then #"root" else u
  | None => #"root"
  end.
Definition fields (line : cstr) : option entry :=
  match tok (Some line) with
  | (Some type, r) =>
      match tok r with
      | (Some path, r) =>
          if mem "%" path then None else
          let (m, r) := tok r in
          let mode := match m with
                      | Some m => match strtoul8 m with Some v => v mod 2 ^ 32 | None => 0 end
                      | None => 0 end in
          let (u, r) := tok r in
          let (g, r) := tok r in
          let (_, r) := tok r in
          let arg := match r with
                     | Some s => match strtok ["010"%char] s with Some (a, _) => Some a | None => None end
                     | None => None end in
          Some {| e_type := type; e_path := path; e_mode := mode;
                  e_user := name_or_root u; e_group := name_or_root g; e_arg := arg |}
      | (None, _) => None
      end
  | (None, _) => None
  end.

(** tmpfiles.c:325-366: with --remove *)
Definition remove_ops (F : fs) (e : entry) : list op :=
  match e_type e with
  | c :: _ =>
      if ch_eqb c "D" then (if f_dir F (e_path e) then [OEmpty (e_path e)] else [])
      else if ch_eqb c "r" then map OErase (f_glob F (e_path e))
      else if ch_eqb c "R" then flat_map (rmrf F) (f_glob F (e_path e))
      else []
  | [] => []
  end.

Definition factory (path : cstr) : cstr := strlcpy 1024 (paste #"/usr/share/factory" path).
(** dirname(3) *)
Definition dirname (p : cstr) : cstr :=
  let sl c := ch_eqb c "/" in
  match skip sl (rev p) with
  | [] => match p with [] => #"." | _ => #"/" end
  | r => match snd (cut sl r) with
         | [] => #"."
         | r => match skip sl r with [] => #"/" | r => rev r end
         end
  end.

Definition plus (e : entry) : bool :=
  match e_type e with _ :: c :: _ => ch_eqb c "+" | _ => false end.
Definition mode_or (d : Z) (e : entry) : Z := if e_mode e =? 0 then d else e_mode e.
(** 0644 and 0755, and the 0666 of fopen(3) *)
Definition m644 : Z := 420.
Definition m755 : Z := 493.
Definition m666 : Z := 438.

(** tmpfiles.c:371-398 and 473-482: nodes *)
Definition node (F : fs) (e : entry) (mk : op) : list op :=
  if f_stat F (e_path e) then
    if plus e then [OErase (e_path e); OParent (e_path e); mk] else []
  else [OParent (e_path e); mk].
Definition device (F : fs) (e : entry) (mk : Z -> Z -> op) : option (list op) :=
  match parse_mm (e_arg e) with
  | MmBad => Some []
  | MmUB => None
  | Mm a b => Some (node F e (mk a b))
  end.
(** tmpfiles.c:399-418 *)
Definition copy_ops (F : fs) (e : entry) : list op :=
  let arg := match e_arg e with Some a => a | None => factory (e_path e) end in
  if f_dir F (e_path e) && negb (is_dir_empty F (e_path e)) then []
  else
    let arg := if f_dir F arg && negb (fisslashdir arg) then arg ++ #"/" else arg in
    [OParent (e_path e); OCopy arg (e_path e)].
(** tmpfiles.c:430-450 *)
Definition file_ops (F : fs) (e : entry) : option (list op) :=
  let truncate := plus e || match e_type e with c :: _ => ch_eqb c "F" | [] => false end in
  match e_arg e with
  | None =>
      if truncate then Some [OParent (e_path e); OFile (e_path e) (mode_or m644 e) (e_user e) (e_group e)]
      else if f_stat F (e_path e) then Some [OParent (e_path e)]
      else Some [OParent (e_path e); OWrite (e_path e) false m666 []]
  | Some a =>
      if truncate || negb (f_stat F (e_path e)) then
        match write_arg a with
        | Some b => Some [OParent (e_path e); OWrite (e_path e) false m666 b]
        | None => None
        end
      else Some [OParent (e_path e)]
  end.
(** tmpfiles.c:451-472: is there something for 'l' to point to? *)
Definition target_there (F : fs) (e : entry) : bool :=
  match e_arg e with
  | None => f_stat F (factory (e_path e))
  | Some a =>
      match a with
      | c :: _ => if ch_eqb c "/" then f_stat F a
                  else match f_real F (strlcpy 1024 (paste (dirname (e_path e)) a)) with
                       | Some d => f_stat F d
                       | None => false
                       end
      | [] => false (* an argument is not empty *)
      end
  end.
(** tmpfiles.c:473-487 *)
Definition link_ops (F : fs) (e : entry) : list op :=
  let arg := match e_arg e with Some a => a | None => factory (e_path e) end in
  if f_stat F (e_path e) then
    if plus e then rmrf F (e_path e) ++ [OParent (e_path e); OLink arg (e_path e)] else []
  else [OParent (e_path e); OLink arg (e_path e)].
(** tmpfiles.c:501-514: the argument is used up by the first file *)
Fixpoint write_all (app : bool) (paths : list cstr) (arg : cstr) : option (list op) :=
  match paths with
  | [] => Some []
  | p :: rest =>
      match write_arg arg, write_all app rest (written arg) with
      | Some b, Some l => Some (OWrite p app m666 b :: l)
      | _, _ => None
      end
  end.

(** tmpfiles.c:369-536: with --create *)
Definition create_ops (F : fs) (e : entry) : option (list op) :=
  let p := e_path e in
  match e_type e with
  | c :: _ =>
      if ch_eqb c "b" then device F e (fun a b => OBlk p (mode_or m644 e) a b)
      else if ch_eqb c "c" then device F e (fun a b => OChr p (mode_or m644 e) a b)
      else if ch_eqb c "C" then Some (copy_ops F e)
      else if ch_eqb c "d" || ch_eqb c "D" then Some [OParent p; ODir p (mode_or m755 e) (e_user e) (e_group e)]
      else if ch_eqb c "e" then Some (map (fun q => ODir q (mode_or m755 e) (e_user e) (e_group e)) (f_glob F p))
      else if ch_eqb c "f" || ch_eqb c "F" then file_ops F e
      else if ch_eqb c "l" then Some (if target_there F e then link_ops F e else [])
      else if ch_eqb c "L" then Some (link_ops F e)
      else if ch_eqb c "p" then Some (node F e (OFifo p (mode_or m644 e)))
      else if ch_eqb c "w" then match e_arg e with None => Some [] | Some a => write_all (plus e) (f_glob F p) a end
      else if ch_eqb c "Z" || ch_eqb c "z" then
        Some (if f_restorecon F then map (ORestore (ch_eqb c "Z")) (f_glob F p) else [])
      else Some []
  | [] => Some []
  end.

(** tmpfiles.c:275-544 tmpfiles.  None: undefined behaviour.  A type that is not
    known is skipped in both switches. *)
Definition tmpfiles (F : fs) (create remove : bool) (line : cstr) : option (list op) :=
  match fields line with
  | None => Some []
  | Some e =>
      match (if create then create_ops F e else Some []) with
      | Some l => Some ((if remove then remove_ops F e else []) ++ l)
      | None => None
      end
  end.

(** tmpfiles.c:621-640: the files that are read, of all that were found, in
    the order of the directories *)
Fixpoint to_read (files : list cstr) : list cstr :=
  match files with
  | [] => []
  | f :: rest =>
      if existsb (fun g => str_eqb (basenm f) (basenm g)) rest then to_read rest
      else f :: to_read rest
  end.
