(** What tmpfiles.d(5) lines, their arguments and their files mean. *)
From Coq Require Import List String Ascii NArith ZArith Bool.
From Verif Require Import CStr ParseSpec TmpModel.
Import ListNotations.
Local Open Scope Z_scope.

(** ** Arguments: what is written for a text with escapes *)
Definition hex_is (c : ascii) (v : N) : Prop :=
  (v <= 9)%N /\ c = ascii_of_N (48 + v) \/
  (10 <= v <= 15)%N /\ (c = ascii_of_N (87 + v) \/ c = ascii_of_N (55 + v)).
Definition oct_is (c : ascii) (v : N) : Prop := (v <= 7)%N /\ c = ascii_of_N (48 + v).
Definition no_hex (s : cstr) : Prop := forall c r v, s = c :: r -> ~ hex_is c v.
Definition no_oct (s : cstr) : Prop := forall c r v, s = c :: r -> ~ oct_is c v.
(** bell, backspace, escape, newline, tab *)
Definition letter_is (c b : ascii) : Prop :=
  In (c, b) [("a", "007"); ("b", "008"); ("e", "027"); ("n", "010"); ("t", "009")]%char.
Definition low8 (n : N) : ascii := ascii_of_N (n mod 256).
Inductive text : cstr -> list ascii -> Prop :=
| tx_end : text [] []
| tx_char c s b : c <> "\"%char -> text s b -> text (c :: s) (c :: b)
| tx_letter c x s b : letter_is c x -> text s b -> text ("\"%char :: c :: s) (x :: b)
| tx_hex1 h v s b : hex_is h v -> no_hex s -> text s b ->
    text ("\"%char :: "x"%char :: h :: s) (low8 v :: b)
| tx_hex2 h1 h2 v1 v2 s b : hex_is h1 v1 -> hex_is h2 v2 -> text s b ->
    text ("\"%char :: "x"%char :: h1 :: h2 :: s) (low8 (16 * v1 + v2) :: b)
| tx_oct1 o v s b : oct_is o v -> no_oct s -> text s b -> text ("\"%char :: o :: s) (low8 v :: b)
| tx_oct2 o1 o2 v1 v2 s b : oct_is o1 v1 -> oct_is o2 v2 -> no_oct s -> text s b ->
    text ("\"%char :: o1 :: o2 :: s) (low8 (8 * v1 + v2) :: b)
| tx_oct3 o1 o2 o3 v1 v2 v3 s b : oct_is o1 v1 -> oct_is o2 v2 -> oct_is o3 v3 -> text s b ->
    text ("\"%char :: o1 :: o2 :: o3 :: s) (low8 (64 * v1 + 8 * v2 + v3) :: b)
| tx_other c s b : (forall x, ~ letter_is c x) -> (forall v, ~ oct_is c v) -> (c = "x"%char -> no_hex s) ->
    text s b -> text ("\"%char :: c :: s) (c :: b).
(** a backslash with nothing after it to escape *)
Definition dangling (s : cstr) : Prop :=
  exists a n, s = a ++ repeat "\"%char (S (2 * n)) /\ forall a', a <> a' ++ ["\"%char].
(** \x is not followed by the digits 8 or 9 *)
Definition eight_nine (c : ascii) : Prop := c = "8"%char \/ c = "9"%char.
Definition no_89 (s : cstr) : Prop :=
  (forall a d r, s = a ++ "\"%char :: "x"%char :: d :: r -> ~ eight_nine d) /\
  (forall a h d r, s = a ++ "\"%char :: "x"%char :: h :: d :: r -> ~ eight_nine d).

(** ** Lines: up to six words, then an argument to the end of the line, which
    the blanks [sep] come before *)
Definition ends_in_word (s : cstr) : Prop := exists y w, s = y ++ [w] /\ ~ blank w.
Inductive laid_out : cstr -> list cstr -> cstr -> option cstr -> Prop :=
| lo_words line ts : tokens blank line ts -> (List.length ts <= 6)%nat ->
    (List.length ts = 6%nat -> ends_in_word line) -> laid_out line ts [] None
| lo_arg x ts sep c a : tokens blank x ts -> List.length ts = 6%nat -> ends_in_word x ->
    sep <> [] -> Forall blank sep -> ~ blank c -> ~ In "010"%char (c :: a) ->
    laid_out (x ++ sep ++ c :: a) ts sep (Some (c :: a)).

Inductive octal : cstr -> Z -> Prop :=
| oc_one c v : oct_is c v -> octal [c] (Z.of_N v)
| oc_more s c n v : octal s n -> oct_is c v -> octal (s ++ [c]) (8 * n + Z.of_N v).
(** a field that is left out, or given as "-" *)
Definition left_out (ts : list cstr) (i : nat) : Prop := nth_error ts i = None \/ nth_error ts i = Some #"-".
Inductive mode_of (ts : list cstr) : option Z -> Prop :=
| mo_none : left_out ts 2 -> mode_of ts None
| mo_some t m : nth_error ts 2 = Some t -> octal t m -> 0 < m < 2 ^ 32 -> mode_of ts (Some m).
Inductive name_of (ts : list cstr) (i : nat) : cstr -> Prop :=
| no_root : left_out ts i -> name_of ts i #"root"
| no_name t : nth_error ts i = Some t -> t <> #"-" -> name_of ts i t.

(** The line says: type [ty], with a '+' or not, path, mode, user, group,
    argument.  One blank comes before the argument. *)
Record says (line : cstr) (ty : ascii) (pl : bool) (path : cstr) (mode : option Z) (user group : cstr)
            (arg : option cstr) : Prop := {
  sy_words : exists ts sep, laid_out line ts sep arg /\ (List.length sep <= 1)%nat /\
    (exists mods, nth_error ts 0 = Some (ty :: mods) /\ (pl = true <-> exists m, mods = "+"%char :: m)) /\
    nth_error ts 1 = Some path /\ mode_of ts mode /\ name_of ts 3 user /\ name_of ts 4 group;
  sy_path : ~ In "%"%char path
}.

(** ** Operations *)
(** the file that is changed; for [OParent], the one whose parents are made *)
Definition subject (o : op) : cstr :=
  match o with
  | OParent p | OErase p | ORmrf p | OEmpty p | OBlk p _ _ _ | OChr p _ _ _ | OFifo p _ | OCopy _ p
  | ODir p _ _ _ | OFile p _ _ _ | OWrite p _ _ _ | OLink _ p | ORestore _ p => p
  end.
Definition removes (o : op) : Prop :=
  match o with OErase _ | ORmrf _ | OEmpty _ => True | _ => False end.
Definition or_mode (m : option Z) (d : Z) : Z := match m with Some m => m | None => d end.
(** a device number *)
Definition device_number (s : cstr) (a b : Z) : Prop :=
  exists x y, s = x ++ ":"%char :: y /\ digits_value x a /\ digits_value y b /\ a <= 2147483647 /\ b <= 2147483647.

(** ** Files: the name without its directory *)
Definition base_is (p b : cstr) : Prop :=
  ~ In "/"%char b /\ (p = b \/ exists d, p = d ++ "/"%char :: b).

(** ** What a line makes: [ops] for type, '+', path, mode, user, group, argument *)
Inductive makes (F : fs) : ascii -> bool -> cstr -> option Z -> cstr -> cstr -> option cstr -> list op -> Prop :=
(* directories; 493 is 0755 *)
| mk_dir ty pl p m u g a : ty = "d"%char \/ ty = "D"%char ->
    makes F ty pl p m u g a [OParent p; ODir p (or_mode m 493) u g]
| mk_dirs pl p m u g a :
    makes F "e" pl p m u g a (map (fun q => ODir q (or_mode m 493) u g) (f_glob F p))
(* named pipes and devices; 420 is 0644; with a '+' they replace what is there *)
| mk_fifo pl p m u g a : f_stat F p = false ->
    makes F "p" pl p m u g a [OParent p; OFifo p (or_mode m 420)]
| mk_fifo_again p m u g a : f_stat F p = true ->
    makes F "p" true p m u g a [OErase p; OParent p; OFifo p (or_mode m 420)]
| mk_blk pl p m u g s x y : f_stat F p = false -> device_number s x y -> x <> 0 -> y <> 0 ->
    makes F "b" pl p m u g (Some s) [OParent p; OBlk p (or_mode m 420) x y]
| mk_blk_again p m u g s x y : f_stat F p = true -> device_number s x y -> x <> 0 -> y <> 0 ->
    makes F "b" true p m u g (Some s) [OErase p; OParent p; OBlk p (or_mode m 420) x y]
| mk_chr pl p m u g s x y : f_stat F p = false -> device_number s x y -> x <> 0 -> y <> 0 ->
    makes F "c" pl p m u g (Some s) [OParent p; OChr p (or_mode m 420) x y]
| mk_chr_again p m u g s x y : f_stat F p = true -> device_number s x y -> x <> 0 -> y <> 0 ->
    makes F "c" true p m u g (Some s) [OErase p; OParent p; OChr p (or_mode m 420) x y]
(* symbolic links; with 'l' only if the target is there *)
| mk_link pl p m u g t : f_stat F p = false ->
    makes F "L" pl p m u g (Some t) [OParent p; OLink t p]
| mk_link_dir p m u g t : f_stat F p = true -> f_dir F p = true ->
    makes F "L" true p m u g (Some t) [ORmrf p; OParent p; OLink t p]
| mk_link_there pl p m u g t : f_stat F p = false -> f_stat F ("/"%char :: t) = true ->
    makes F "l" pl p m u g (Some ("/"%char :: t)) [OParent p; OLink ("/"%char :: t) p]
| mk_link_not pl p m u g t : f_stat F ("/"%char :: t) = false ->
    makes F "l" pl p m u g (Some ("/"%char :: t)) []
(* files: the argument is the content; 438 is 0666 *)
| mk_file pl p m u g t out : f_stat F p = false -> text t out -> no_89 t ->
    makes F "f" pl p m u g (Some t) [OParent p; OWrite p false 438 out]
| mk_file_again ty pl p m u g t out : ty = "F"%char \/ ty = "f"%char /\ pl = true -> text t out -> no_89 t ->
    makes F ty pl p m u g (Some t) [OParent p; OWrite p false 438 out]
| mk_file_empty p m u g : f_stat F p = false ->
    makes F "f" false p m u g None [OParent p; OWrite p false 438 []]
| mk_file_truncate ty pl p m u g : ty = "F"%char \/ ty = "f"%char /\ pl = true ->
    makes F ty pl p m u g None [OParent p; OFile p (or_mode m 420) u g]
(* writing to, with '+' appending to, the one file that matches *)
| mk_write pl p m u g t out q : f_glob F p = [q] -> text t out -> no_89 t ->
    makes F "w" pl p m u g (Some t) [OWrite q pl 438 out]
(* copying a file, or what is in a directory *)
| mk_copy pl p m u g s : f_dir F p = false -> f_dir F s = false ->
    makes F "C" pl p m u g (Some s) [OParent p; OCopy s p]
| mk_copy_dir pl p m u g s c : f_dir F p = false -> f_dir F (s ++ [c]) = true -> c <> "/"%char ->
    makes F "C" pl p m u g (Some (s ++ [c])) [OParent p; OCopy (s ++ [c; "/"%char]) p].

(** What a line removes *)
Inductive clears (F : fs) : ascii -> cstr -> op -> Prop :=
| rm_content p : f_dir F p = true -> clears F "D" p (OEmpty p)
| rm_file p q : In q (f_glob F p) -> clears F "r" p (OErase q)
| rm_dir p q : In q (f_glob F p) -> f_dir F q = true -> clears F "R" p (ORmrf q).
