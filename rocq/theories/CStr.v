(** C strings and the C library functions the parsers use.  A C string is the
    list of its characters up to the terminating NUL; modified buffers are
    returned as new values.  Plain "C" locale, 8-bit characters. *)
From Coq Require Import List String Ascii NArith ZArith Bool.
Import ListNotations.

Notation cstr := (list ascii).
(** literals *)
Notation "# s" := (list_ascii_of_string s) (at level 0, s at level 0).

Definition ch_eqb (a b : ascii) : bool := Ascii.eqb a b.
Definition code (c : ascii) : N := N_of_ascii c.

(** isblank(3), isspace(3), isdigit(3), tolower(3) *)
Definition isblank (c : ascii) : bool := N.eqb (code c) 32 || N.eqb (code c) 9.
Definition isspace (c : ascii) : bool := N.eqb (code c) 32 || (N.leb 9 (code c) && N.leb (code c) 13).
Definition isdigit (c : ascii) : bool := N.leb 48 (code c) && N.leb (code c) 57.
Definition isupper (c : ascii) : bool := N.leb 65 (code c) && N.leb (code c) 90.
Definition tolower (c : ascii) : ascii := if isupper c then ascii_of_N (code c + 32) else c.
Definition digit (c : ascii) : Z := Z.of_N (code c) - 48.

(** strcmp(3) == 0, strcasecmp(3) == 0 *)
Fixpoint str_eqb (a b : cstr) : bool :=
  match a, b with
  | [], [] => true
  | x :: a, y :: b => ch_eqb x y && str_eqb a b
  | _, _ => false
  end.
Definition strcase_eqb (a b : cstr) : bool := str_eqb (map tolower a) (map tolower b).

(** strncmp(s, p, strlen(p)) == 0, and the case-insensitive one *)
Fixpoint starts (p s : cstr) : bool :=
  match p, s with
  | [], _ => true
  | x :: p, y :: s => ch_eqb x y && starts p s
  | _ :: _, [] => false
  end.
Fixpoint istarts (p s : cstr) : bool :=
  match p, s with
  | [], _ => true
  | x :: p, y :: s => ch_eqb (tolower x) (tolower y) && istarts p s
  | _ :: _, [] => false
  end.

(** skipping characters; splitting at the first character that satisfies [f] *)
Fixpoint skip (f : ascii -> bool) (s : cstr) : cstr :=
  match s with
  | c :: r => if f c then skip f r else s
  | [] => []
  end.
Fixpoint cut (f : ascii -> bool) (s : cstr) : cstr * cstr :=
  match s with
  | c :: r => if f c then ([], s) else let (a, b) := cut f r in (c :: a, b)
  | [] => ([], [])
  end.
(** strchr(3): what is before the first [c], and what comes after it *)
Definition strchr (c : ascii) (s : cstr) : option (cstr * cstr) :=
  match cut (ch_eqb c) s with
  | (a, _ :: b) => Some (a, b)
  | (_, []) => None
  end.
(** strrchr(3), likewise *)
Definition strrchr (c : ascii) (s : cstr) : option (cstr * cstr) :=
  match cut (ch_eqb c) (rev s) with
  | (a, _ :: b) => Some (rev b, rev a)
  | (_, []) => None
  end.
(** strstr(3): what is before the first occurrence, and what follows it *)
Fixpoint strstr (p s : cstr) : option (cstr * cstr) :=
  if starts p s then Some ([], skipn (List.length p) s) else
  match s with
  | [] => None
  | c :: r => match strstr p r with Some (a, b) => Some (c :: a, b) | None => None end
  end.

(** strtok(3) *)
Definition mem (c : ascii) (l : cstr) : bool := existsb (ch_eqb c) l.
Definition strtok (del s : cstr) : option (cstr * cstr) :=
  match skip (fun c => mem c del) s with
  | [] => None
  | s => let (a, b) := cut (fun c => mem c del) s in Some (a, tl b)
  end.
(** all of strtok's tokens *)
Fixpoint strtoks_ (n : nat) (del s : cstr) : list cstr :=
  match n with
  | O => []
  | S n => match strtok del s with
           | Some (a, b) => a :: strtoks_ n del b
           | None => []
           end
  end.
Definition strtoks (del s : cstr) : list cstr := strtoks_ (S (List.length s)) del s.

(** strlcpy(3), strlcat(3), snprintf("%s") into a buffer of [n] bytes *)
Definition strlcpy (n : nat) (s : cstr) : cstr := firstn (n - 1) s.
Definition strlcat (n : nat) (buf s : cstr) : cstr :=
  if Nat.leb n (List.length buf) then buf else firstn (n - 1) (buf ++ s).

(** strtoll(3) in base 10: the value and what is left; no value if there are
    no digits *)
Fixpoint digits_ (acc : Z) (s : cstr) : Z * cstr :=
  match s with
  | c :: r => if isdigit c then digits_ (10 * acc + digit c) r else (acc, s)
  | [] => (acc, [])
  end.
Definition unsigned_ (s : cstr) : option (Z * cstr) :=
  match s with
  | c :: _ => if isdigit c then Some (digits_ 0 s) else None
  | [] => None
  end.
Definition strtoll (s : cstr) : option (Z * cstr) :=
  match skip isspace s with
  | c :: r =>
      if ch_eqb c "+" then unsigned_ r
      else if ch_eqb c "-" then match unsigned_ r with Some (n, r) => Some (Z.opp n, r) | None => None end
      else unsigned_ (c :: r)
  | [] => None
  end.
(** strtonum(3): the number, if the whole string is one and it is in range.
    Bounds used here are well inside long long, so that saturation of strtoll
    changes nothing. *)
Definition strtonum (lo hi : Z) (s : cstr) : option Z :=
  match strtoll s with
  | Some (n, []) => if (Z.leb lo n && Z.leb n hi)%bool then Some n else None
  | _ => None
  end.
