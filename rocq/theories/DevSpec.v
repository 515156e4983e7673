(** What the dev/ conditions stand for. *)
From Coq Require Import List String Ascii NArith Bool.
From Verif Require Import CondModel CondSpec DevModel.
Import ListNotations.
Local Open Scope string_scope.

(** the condition of a device node *)
Definition dev_name (dir : option string) (name : string) : string :=
  match dir with None => "dev/" ++ name | Some a => "dev/" ++ a ++ "/" ++ name end.
(** a file name *)
Definition file_name (n : string) : Prop := n <> "" /\ ~ In "/"%char (list_ascii_of_string n).
Definition file_dir (d : option string) : Prop := match d with None => True | Some a => file_name a end.
(** the name of a device a stanza can wait for *)
Definition device (c : string) : Prop := exists d n, file_dir d /\ file_name n /\ c = dev_name d n.

(** is there a stanza that waits for [c]? *)
Definition waits (es : list dev) (c : string) : Prop := In (DvAdd c) es.
Definition adds (es : list dev) (c : string) : nat :=
  List.length (filter (fun e => match e with DvAdd x => String.eqb x c | _ => false end) es).
Definition dels (es : list dev) (c : string) : nat :=
  List.length (filter (fun e => match e with DvDel x => String.eqb x c | _ => false end) es).

(** is a directory watched: /dev always, /dev/a when its creation was seen and it
    could be watched *)
Definition watching (d : option string) (w : bool) (e : dev) : bool :=
  match d, e with
  | Some a, DvDir None x true (Some true) _ => if String.eqb x a then true else w
  | Some a, DvDir None x false _ _ => if String.eqb x a then false else w
  | _, _ => w
  end.
Definition watched (es : list dev) (d : option string) : bool :=
  fold_left (watching d) es (match d with None => true | Some _ => false end).

(** the condition of node [n] in directory [d]: on once its creation was seen while a
    stanza waited for it, in flux from the next reload on, off again when its removal
    was seen *)
Inductive dev_shows (d : option string) (n : string) : list dev -> status -> Prop :=
| ds_none : dev_shows d n [] Off
| ds_made es x : dev_shows d n es x -> watched es d = true -> waits es (dev_name d n) ->
    dev_shows d n (es ++ [DvFile d n true]) On
| ds_gone es x : dev_shows d n es x -> watched es d = true -> waits es (dev_name d n) ->
    dev_shows d n (es ++ [DvFile d n false]) Off
| ds_missed es x b : dev_shows d n es x -> watched es d = false \/ ~ waits es (dev_name d n) ->
    dev_shows d n (es ++ [DvFile d n b]) x
| ds_reload es x : dev_shows d n es x ->
    dev_shows d n (es ++ [DvOp OpReload]) (match x with On => Flux | x => x end)
| ds_other es x e : dev_shows d n es x -> e <> DvOp OpReload -> (forall b, e <> DvFile d n b) ->
    dev_shows d n (es ++ [e]) x.

(** stanzas wait for devices; file names are file names; nobody else uses dev/ *)
Definition dev_ok (e : dev) : Prop :=
  match e with
  | DvAdd c => device c \/ String.prefix "dev/" c = false
  | DvDel _ => True
  | DvFile d n _ => file_dir d /\ file_name n
  | DvDir d n _ _ found => file_dir d /\ file_name n /\ Forall file_name found
  | DvOp o => forall n, In n (op_names o) -> String.prefix "dev/" n = false /\ n <> "dev"
  end.
(** conditions used: none too long, none below another one *)
Definition dev_names (es : list dev) : list string :=
  flat_map (fun e => match e with
                     | DvAdd c => if String.prefix "dev/" c then [c] else []
                     | DvOp o => op_names o
                     | _ => []
                     end) es.
Definition dev_reloads (es : list dev) : nat :=
  List.length (filter (fun e => match e with DvOp OpReload => true | _ => false end) es).
Definition dev_history (es : list dev) : Prop :=
  Forall dev_ok es /\ forallb good_name (dev_names es) = true /\ flat (dev_names es) = true /\
  (N.of_nat (dev_reloads es) < 4294967295)%N.

(** the device nodes that are there: those in /dev and its directories to start with,
    then what inotify saw *)
Definition node_there (l : list string) (e : dev) : list string :=
  match e with
  | DvFile d n true => dev_name d n :: l
  | DvFile d n false => filter (fun x => negb (String.eqb x (dev_name d n))) l
  | DvDir d n true _ found => map (fun f => dev_name d n ++ "/" ++ f) found ++ l
  | _ => l
  end.
Definition nodes_there (es : list dev) : list string := fold_left node_there es [].
