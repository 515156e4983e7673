(** What the configuration syntax means. *)
From Coq Require Import List String Ascii NArith ZArith Bool.
From Verif Require Import CStr.
Import ListNotations.
Local Open Scope Z_scope.

Definition blank (c : ascii) : Prop := c = " "%char \/ c = "009"%char.
Definition white (c : ascii) : Prop := c = " "%char \/ exists n, (9 <= n <= 13)%N /\ c = ascii_of_N n.
Definition quote (c : ascii) : Prop := c = "'"%char \/ c = """"%char.

(** ** C14 *)
(** digit [c] has value [v] *)
Definition digit_is (c : ascii) (v : Z) : Prop := 0 <= v <= 9 /\ c = ascii_of_N (48 + Z.to_N v).
(** [c] names runlevel [l]; runlevel S is number 10 *)
Definition names_level (c : ascii) (l : N) : Prop :=
  digit_is c (Z.of_N l) \/ (c = "s"%char \/ c = "S"%char) /\ l = 10%N.

(** ** Words between separators *)
Inductive tokens (del : ascii -> Prop) : cstr -> list cstr -> Prop :=
| tok_end s : Forall del s -> tokens del s []
| tok_last a w : Forall del a -> w <> [] -> Forall (fun c => ~ del c) w -> tokens del (a ++ w) [w]
| tok_more a w d s ws : Forall del a -> w <> [] -> Forall (fun c => ~ del c) w -> del d ->
    tokens del s ws -> tokens del (a ++ w ++ d :: s) (w :: ws).

(** ** C42: words of a stanza *)
(** the quote that is open after [p] *)
Fixpoint open_quote_from (q : option ascii) (p : cstr) : option ascii :=
  match p with
  | [] => q
  | c :: p => open_quote_from (match q with
                               | Some qc => if Ascii.eqb c qc then None else q
                               | None => if Ascii.eqb c "'" || Ascii.eqb c """" then Some c else None
                               end) p
  end.
Definition open_quote : cstr -> option ascii := open_quote_from None.
(** a ':' outside of quotes *)
Definition has_colon (p : cstr) : Prop :=
  exists a b, p = a ++ ":"%char :: b /\ open_quote a = None.
(** next after blanks is a comma *)
Definition comma_next (s : cstr) : Prop := exists b r, Forall blank b /\ s = b ++ ","%char :: r.
(** the blank that follows [p] belongs to the word *)
Definition glued (p next : cstr) : Prop := open_quote p <> None \/ has_colon p /\ comma_next next.
(** [w] is a word when [s] comes after it *)
Record word (w s : cstr) : Prop := {
  wd_start : exists c w', w = c :: w' /\ ~ blank c;
  wd_inner : forall p c q, w = p ++ c :: q -> blank c -> glued p (c :: q ++ s);
  wd_stop : s = [] \/ exists c r, s = c :: r /\ blank c /\ ~ glued w s
}.
Inductive words : cstr -> list cstr -> Prop :=
| words_end s : Forall blank s -> words s []
| words_cons b w s ws : Forall blank b -> word w s -> words (tl s) ws -> words (b ++ w ++ s) (w :: ws).

(** ** C33, C36: numbers *)
Inductive digits_value : cstr -> Z -> Prop :=
| dv_one c v : digit_is c v -> digits_value [c] v
| dv_more s c n v : digits_value s n -> digit_is c v -> digits_value (s ++ [c]) (10 * n + v).
(** white space, a sign, digits *)
Definition number (s : cstr) (n : Z) : Prop :=
  exists sp d, Forall white sp /\
    ((s = sp ++ d \/ s = sp ++ "+"%char :: d) /\ digits_value d n \/
     s = sp ++ "-"%char :: d /\ digits_value d (- n)).

(** ** C27 *)
Fixpoint replace_i (name s : cstr) : cstr :=
  match s with
  | [] => []
  | c :: r => match r with
              | i :: r' => if Ascii.eqb c "%" && Ascii.eqb i "i" then name ++ replace_i name r'
                           else c :: replace_i name r
              | [] => [c]
              end
  end.

(** ** C30 *)
(** [v] neither starts nor ends with white space *)
Definition trimmed (v : cstr) : Prop :=
  forall c r, (v = c :: r -> ~ white c) /\ (v = r ++ [c] -> ~ white c).
(** one level of quotes taken off *)
Definition unquoted (v r : cstr) : Prop :=
  (exists q, quote q /\ v = q :: r ++ [q]) \/
  (exists q, quote q /\ v = [q] /\ r = []) \/
  r = v /\ ~ (exists q m, quote q /\ v = q :: m ++ [q]) /\ ~ (exists q, quote q /\ v = [q]).

(** ** C28 *)
(** the names of the resources, with the numbers setrlimit(2) knows them by *)
Definition resource_numbers : list (cstr * nat) :=
  [(#"as", 9); (#"core", 4); (#"cpu", 0); (#"data", 2); (#"fsize", 1); (#"locks", 10);
   (#"memlock", 8); (#"msgqueue", 12); (#"nice", 13); (#"nofile", 7); (#"nproc", 6);
   (#"rss", 5); (#"rtprio", 14); (#"rttime", 15); (#"sigpending", 11); (#"stack", 3)]%nat.
Inductive level := LSoft | LHard | LBoth.
Definition level_text (l : level) : cstr := match l with LSoft => #"soft" | LHard => #"hard" | LBoth => #"both" end.
(** the value of a limit; None is no limit at all *)
Definition limit_text (s : cstr) (v : option Z) : Prop :=
  (s = #"unlimited" \/ s = #"infinity") /\ v = None \/
  exists n, (number s n /\ 0 <= n <= 4294967296) /\ v = Some n.
(** "<resource> <value>", or "<level> <resource> <value> [anything]" *)
Definition rlimit_text (line : cstr) (l : level) (res val : cstr) : Prop :=
  (tokens blank line [res; val] /\ l = LBoth) \/
  (exists ts, tokens blank line (level_text l :: res :: val :: ts)).

(** ** C31, C43: paths *)
(** nothing to normalise *)
Record clean_path (s : cstr) : Prop := {
  cl_lead1 : forall r, s <> #"./" ++ r;
  cl_lead2 : forall r, s <> #"../" ++ r;
  cl_dot : forall a b, s <> a ++ #"/./" ++ b;
  cl_up : forall a b, s <> a ++ #"/../" ++ b;
  cl_slash : forall a b, s <> a ++ #"//" ++ b;
  cl_end : forall a, s <> a ++ #"/.."
}.

(** a path from its components *)
Fixpoint slashed (cs : list cstr) : cstr :=
  match cs with
  | [] => []
  | [c] => c
  | c :: r => c ++ "/"%char :: slashed r
  end.
Definition component (c : cstr) : Prop := c <> [] /\ ~ In "/"%char c.
(** "." stays, ".." goes back one directory, but not further than the
    directory the path starts from; [st] is the way there, latest first *)
Fixpoint resolve (st cs : list cstr) : list cstr :=
  match cs with
  | [] => rev st
  | c :: cs => if str_eqb c #"." then resolve st cs
               else if str_eqb c #".." then resolve (tl st) cs
               else resolve (c :: st) cs
  end.
(** with [d] directories to go back, the path never goes back further *)
Fixpoint inside (d : nat) (cs : list cstr) : bool :=
  match cs with
  | [] => true
  | c :: cs => if str_eqb c #"." then inside d cs
               else if str_eqb c #".." then match d with O => false | S d => inside d cs end
               else inside (S d) cs
  end.

(** ** C44: quoted arguments *)
(** the words of one quoted argument: the first starts with the quote, only
    the last ends with it, and none of the others starts with any quote *)
Inductive quoted_rest (q : ascii) : list cstr -> Prop :=
| qr_last w : ~ quote (hd "000"%char w) -> last w "000"%char = q -> quoted_rest q [w]
| qr_more w ws : ~ quote (hd "000"%char w) -> last w "000"%char <> q -> quoted_rest q ws -> quoted_rest q (w :: ws).
Inductive quoted_words (q : ascii) : list cstr -> Prop :=
| qw_one w : quote q -> hd "000"%char w = q -> last w "000"%char = q -> quoted_words q [w]
| qw_more w ws : quote q -> hd "000"%char w = q -> last w "000"%char <> q -> quoted_rest q ws -> quoted_words q (w :: ws).
Fixpoint spaced (ws : list cstr) : cstr :=
  match ws with
  | [] => []
  | [w] => w
  | w :: r => w ++ " "%char :: spaced r
  end.
Inductive arguments : list cstr -> list cstr -> Prop :=
| args_nil : arguments [] []
| args_plain w ws args : ~ quote (hd "000"%char w) -> arguments ws args -> arguments (w :: ws) (w :: args)
| args_quoted q qs ws args : quoted_words q qs -> arguments ws args -> arguments (qs ++ ws) (spaced qs :: args).

(** ** C36 *)
Definition size_suffix (s : cstr) (mult : Z) : Prop :=
  s = [] /\ mult = 1 \/
  exists x, s = "k"%char :: x /\ mult = 1000 \/ s = "M"%char :: x /\ mult = 1000000 \/ s = "G"%char :: x /\ mult = 1000000000.
