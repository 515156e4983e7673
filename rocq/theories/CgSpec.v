(** What C60 and C61 mean. *)
From Coq Require Import List String Ascii NArith ZArith Bool.
From Verif Require Import CStr ParseModel CgModel.
Import ListNotations.

(** the components of a path *)
Fixpoint comps (s : cstr) : list cstr :=
  match s with
  | [] => [[]]
  | c :: r => if Ascii.eqb c "/" then [] :: comps r
              else match comps r with a :: l => (c :: a) :: l | [] => [[c]] end
  end.
(** a name relative to a directory leads out of it *)
Definition dotdot (rel : cstr) : Prop := In #".." (comps rel).

(** A setting: controller, property and value *)
Record setting := { s_ctrl : cstr; s_prop : cstr; s_val : cstr }.
Definition none_of (bad s : cstr) : Prop := forall c, In c s -> ~ In c bad.
Definition good_setting (s : setting) : Prop :=
  s_ctrl s <> [] /\ none_of #".,:/" (s_ctrl s) /\
  none_of #",:/" (s_prop s) /\ (forall a b, s_prop s <> a ++ #".." ++ b) /\
  none_of #"," (s_val s) /\ match s_val s with [] => True | c :: _ => c <> "034"%char /\ c <> "'"%char end.
(** as it is written in the configuration *)
Definition setting_text (s : setting) : cstr := s_ctrl s ++ #"." ++ s_prop s ++ #":" ++ s_val s.
Definition settings_text (l : list setting) : cstr := join #"," (map setting_text l).
(** the file it is for: mem is short for memory *)
Definition setting_file (path : cstr) (s : setting) : cstr :=
  path ++ #"/" ++ (if str_eqb (s_ctrl s) #"mem" then #"memory" else s_ctrl s) ++ #"." ++ s_prop s.

(** The last line of the configuration for a group *)
Inductive says : cstr -> cstr -> cstr -> Prop :=
| sy : forall line n cfg, strtoks [" "; "009"]%char line = n :: cfg -> ~ In "/"%char n -> (forall a b, n <> a ++ #".." ++ b) ->
    says line n (commas cfg).
Definition last_says (lines : list cstr) (n cfg : cstr) : Prop :=
  exists a line b, lines = a ++ line :: b /\ says line n cfg /\ forall l c, In l b -> ~ says l n c.
Definition named (lines : list cstr) (n : cstr) : Prop := exists l c, In l lines /\ says l n c.
Definition short_lines (lines : list cstr) : Prop := Forall (fun l => (List.length l < 200)%nat) lines.
(** the groups that are always there, and their settings *)
Definition default_group (n cfg : cstr) : Prop :=
  In (n, cfg) [(#"init", #"cpu.weight:100"); (#"system", #"cpu.weight:9800"); (#"user", #"cpu.weight:100")].
(** a stanza as it is in the configuration: "cgroup.NAME:SETTINGS" or "cgroup:SETTINGS" *)
Definition group_option (n : option cstr) (text : cstr) : cstr :=
  match n with Some n => #"." ++ n | None => [] end ++ #":" ++ text.
Definition fresh_group : cgroup := {| g_name := []; g_cfg := [] |}.
(** the group a service goes to: the one it names, if that is a directory *)
Definition group_of (isdir : cstr -> bool) (n : cstr) : cstr :=
  match n with [] => #"system" | _ => if isdir (top_path n) then n else #"system" end.
