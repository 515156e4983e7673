(** Specification of conditions: a map from names to what was last said about
    them, plus the number of the current configuration generation.  Nothing
    here refers to files, paths or 32-bit counters. *)
From Coq Require Import List String NArith Bool.
Import ListNotations.

Inductive status := Off | Flux | On.

(** what a user or a plugin can do to conditions *)
Inductive cop :=
| OpSet (n : string)        (* assert, tied to the current generation *)
| OpOneshot (n : string)    (* assert for good *)
| OpClear (n : string)      (* deassert *)
| OpReload.                 (* a new configuration generation starts *)

Inductive mark := Unset | ForGood | AtGen (g : N).

Record cspec := { now : N; marks : string -> mark }.

Definition spec_init : cspec := {| now := 1; marks := fun _ => Unset |}.

Definition put (n : string) (m : mark) (f : string -> mark) : string -> mark :=
  fun x => if String.eqb x n then m else f x.

Definition spec_step (s : cspec) (o : cop) : cspec :=
  match o with
  | OpSet n =>
      match marks s n with
      | ForGood => s
      | _ => {| now := now s; marks := put n (AtGen (now s)) (marks s) |}
      end
  | OpOneshot n =>
      match marks s n with
      | Unset => {| now := now s; marks := put n ForGood (marks s) |}
      | _ => s
      end
  | OpClear n => {| now := now s; marks := put n Unset (marks s) |}
  | OpReload => {| now := now s + 1; marks := marks s |}
  end.

Definition spec_run (os : list cop) : cspec := fold_left spec_step os spec_init.

Definition spec_get (s : cspec) (n : string) : status :=
  match marks s n with
  | Unset => Off
  | ForGood => On
  | AtGen g => if N.eqb g (now s) then On else Flux
  end.

(** names mentioned by a history, and the number of its reloads *)
Definition op_names (o : cop) : list string :=
  match o with OpSet n | OpOneshot n | OpClear n => [n] | OpReload => [] end.
Definition names_of (os : list cop) : list string := flat_map op_names os.
Definition reloads (os : list cop) : nat :=
  List.length (filter (fun o => match o with OpReload => true | _ => false end) os).

(** A name that can be used as a condition: fits the path buffer, is not the
    reserved word "nop" and does not end in a slash. *)
Definition good_name (n : string) : bool :=
  Nat.leb (String.length n) 43 && negb (String.eqb n "nop")
  && negb (match String.length n with
           | 0 => false
           | S m => String.eqb (substring m 1 n) "/"
           end).

(** No name is a directory of another one: <a> and <a/b> are never both used. *)
Definition flat (ns : list string) : bool :=
  forallb (fun a => forallb (fun b => negb (String.prefix (String.append a "/") b)) ns) ns.

Definition good_history (os : list cop) : bool :=
  forallb good_name (names_of os) && flat (names_of os)
  && N.ltb (N.of_nat (reloads os)) 4294967295.

(** The combined state of a list of conditions, member by member. *)
Definition agg_spec (l : list status) (r : status) : Prop :=
  (r = Off  <-> In Off l) /\
  (r = Flux <-> (~ In Off l /\ In Flux l)) /\
  (r = On   <-> Forall (fun s => s = On) l).
