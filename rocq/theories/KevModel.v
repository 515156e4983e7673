(** keventd: the condition sys/pwr/ac, src/keventd.c. *)
From Coq Require Import List String Ascii NArith ZArith Bool.
From Verif Require Import CStr.
Import ListNotations.

(** src/keventd.c:124-141 is_ac *)
Definition is_ac (type : cstr) : bool :=
  existsb (fun t => starts t type) [#"Mains"; #"USB"; #"BrickID"; #"Wireless"].
(** src/keventd.c:111-122 check_online.  atoi(3) of a number that is too large is
    not modelled. *)
Definition check_online (s : cstr) : bool :=
  match strtoll s with Some (n, _) => negb (Z.eqb n 0) | None => false end.

(** src/keventd.c:53-54 num_ac_online, and whether the condition is set; the
    symlink(2) and the removal succeed (78-91 sys_cond) *)
Record kev := { k_online : nat; k_cond : bool }.

(** src/keventd.c:143-185 init.  A supply: the first lines of its files "type"
    and "online", None: cannot be read; the buffer has 10 bytes. *)
Definition kev_init (l : list (option cstr * option cstr)) : kev :=
  let ac := filter (fun s => match fst s with Some t => is_ac (strlcpy 10 t) | None => false end) l in
  let n := List.length (filter (fun s => match snd s with Some v => check_online (strlcpy 10 v) | None => false end) ac) in
  {| k_online := n; k_cond := Nat.eqb (List.length ac) 0 || Nat.ltb 0 n |}.

(** src/keventd.c:284-306: one line of a message; [ac]: the supply is one *)
Definition kev_line (a : kev * bool) (line : cstr) : kev * bool :=
  let (k, ac) := a in
  if starts #"DEVPATH=" line then a
  else if starts #"POWER_SUPPLY_TYPE=" line then (k, is_ac (skipn 18 line))
  else if starts #"POWER_SUPPLY_ONLINE=" line && ac then
    (if check_online (skipn 20 line) then
       {| k_online := S (k_online k); k_cond := if Nat.eqb (k_online k) 0 then true else k_cond k |}
     else
       let n := Nat.pred (k_online k) in
       {| k_online := n; k_cond := if Nat.eqb n 0 then false else k_cond k |}, ac)
  else a.
(** the bytes of a message: the strings in it, each with its zero *)
Definition kev_size (m : list cstr) : nat := fold_right (fun l n => List.length l + 1 + n)%nat O m.
Definition bufsz : nat := N.to_nat 1024.
(** src/keventd.c:257-307: one message.  None: it fills the buffer, and the zero
    is written after its end. *)
Definition kev_message (k : kev) (m : list cstr) : option kev :=
  if Nat.leb bufsz (kev_size m) then None
  else match m with
       | [] => Some k
       | h :: _ =>
           if negb (starts #"change@" h) then Some k
           else match strstr #"power_supply" h with
                | None => Some k
                | Some _ => Some (fst (fold_left kev_line m (k, false)))
                end
       end.
Fixpoint kev_run (k : kev) (l : list (list cstr)) : option kev :=
  match l with
  | [] => Some k
  | m :: l => match kev_message k m with Some k => kev_run k l | None => None end
  end.
