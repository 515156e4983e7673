(** The login of maintenance mode, src/sulogin.c. *)
From Coq Require Import List String Ascii NArith ZArith Bool.
From Verif Require Import CStr GetModel.
Import ListNotations.

(** strsep(3) with ":": the field and what is left, None for the null pointer *)
Definition field (s : cstr) : cstr * option cstr :=
  match cut (fun c => ch_eqb c ":") s with
  | (a, []) => (a, None)
  | (a, _ :: b) => (a, Some b)
  end.
(** src/sulogin.c:52-70, /etc/passwd, as lines of fgets(3): the name and the password
    that are known after it *)
Fixpoint scan_passwd (name : option cstr) (lines : list cstr) : option cstr * option cstr :=
  match lines with
  | [] => (name, None)
  | l :: r =>
      let (a, b) := field l in
      if str_eqb a #"root" then
        match b with
        | None => (Some a, None)
        | Some b => let p := fst (field b) in
                    (Some a, match p with c :: _ => if ch_eqb c "x" then None else Some p | [] => Some p end)
        end
      else scan_passwd (Some a) r
  end.
(** SCrash: strcmp(3) of a null pointer *)
Inductive shadow := SNone | SCrash | SPass (p : cstr).
(** src/sulogin.c:85-99, /etc/shadow: what is compared with the name is the rest of
    the line *)
Fixpoint scan_shadow (name : cstr) (lines : list cstr) : shadow :=
  match lines with
  | [] => SNone
  | l :: r => match field l with
              | (_, None) => SCrash
              | (_, Some b) => if str_eqb b name then scan_shadow name r else SPass (fst (field b))
              end
  end.
(** src/sulogin.c:42-109 get_passwd; a file that is not there is None *)
Inductive creds := CFail | CCrash | Creds (name pass : cstr).
Definition get_passwd (passwd shadow : option (list cstr)) : creds :=
  match passwd with
  | None => CFail
  | Some lines =>
      match scan_passwd None lines with
      | (None, _) => CFail
      | (Some n, Some p) => Creds n p
      | (Some n, None) => match shadow with
                          | None => CFail
                          | Some s => match scan_shadow n s with
                                      | SNone => CFail
                                      | SCrash => CCrash
                                      | SPass p => Creds n p
                                      end
                          end
      end
  end.

(** how it ends: the shell, an exit status, a crash *)
Inductive su := Shell | Exit (rc : nat) | Crash.
Definition ctrl_d : ascii := "004".
Definition return_ : ascii := "013".
(** crypt(3) *)
Definition cryptf := cstr -> cstr -> option cstr.
Definition right (crypt : cryptf) (hash pwd : cstr) : bool :=
  match crypt (upto pwd) hash with Some h => str_eqb h hash | None => false end.
(** src/sulogin.c:175-207: the loop that asks for the password; [buf]: typed so far,
    at most 255 characters; at the end of the input there is EOF *)
Fixpoint ask (crypt : cryptf) (hash buf input : cstr) : su :=
  match input with
  | [] => Exit 0
  | c :: r =>
      if Ascii.eqb c newline || Ascii.eqb c return_ then
        if right crypt hash buf then Shell else ask crypt hash [] r
      else if Ascii.eqb c ctrl_d then Exit 0
      else if Nat.ltb (List.length (buf ++ [c]) + 1) 256 then ask crypt hash (buf ++ [c]) r
      else if right crypt hash (buf ++ [c]) then Shell else ask crypt hash [] r
  end.
(** src/sulogin.c:133-215 main; [tty]: the terminal can be set up *)
Definition sulogin (crypt : cryptf) (tty : bool) (passwd shadow : option (list cstr)) (input : cstr) : su :=
  match get_passwd passwd shadow with
  | CFail => Exit 1
  | CCrash => Crash
  | Creds _ p =>
      if match p with [] => true | c :: _ => ch_eqb c "*" || ch_eqb c "!" end then
        match input with
        | [] => Exit 0
        | c :: _ => if Ascii.eqb c ctrl_d then Exit 0 else Shell
        end
      else if tty then ask crypt p [] input else Exit 1
  end.
