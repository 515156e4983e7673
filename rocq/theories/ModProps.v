(** C71, C72: keys and values, and the modules of /etc/modules-load.d. *)
From Coq Require Import List String Ascii NArith ZArith Bool Lia Arith.
From Verif Require Import CStr CStrLib ParseSpec ModModel ModSpec ModProof.
Import ListNotations.
Local Open Scope Z_scope.

(** ** C71 *)
(** A key, separators and a value: the value is read, without its quotes. *)
Theorem value_read : forall sep key line w, keyed sep key line w -> fgetval line key sep = GVal w.
Proof. exact value_read_ok. Qed.
(** A line for another key is not mistaken for it, be it longer, shorter or a word
    alone. *)
Theorem value_other : forall sep key line w, first_word sep line w -> w <> key -> fgetval line key sep = GNone.
Proof. exact value_other_ok. Qed.
(** Of a file, as os-release, the last line for the key counts. *)
Theorem value_last : forall key a l v b old,
  Forall (fun l => (exists w, first_word #"=" l w /\ w <> key) \/ exists w, keyed #"=" key l w) a ->
  keyed #"=" key l v -> Forall (fun l => exists w, first_word #"=" l w /\ w <> key) b ->
  last_value key old (a ++ l :: b) = Some (Some v).
Proof. exact last_ok. Qed.
(** Claim that is false: a key with no value is ignored, or its value is empty.  A
    null pointer is read, be there separators or not: one such line in os-release
    crashes every getty. *)
Theorem value_crash_refuted : forall sep key g, no_seps sep key -> of_seps sep g -> fgetval (key ++ g) key sep = GCrash.
Proof. exact value_crash. Qed.
Theorem osrel_crash_refuted : forall key a g b old,
  Forall (fun l => (exists w, first_word #"=" l w /\ w <> key) \/ exists w, keyed #"=" key l w) a ->
  no_seps #"=" key -> of_seps #"=" g -> last_value key old (a ++ (key ++ g) :: b) = None.
Proof. exact last_crash. Qed.

Example value_read_met : fgetval #"NAME=""Arch Linux""  " #"NAME" #"=" = GVal #"Arch Linux" /\ fgetval #"NAME='x" #"NAME" #"=" = GVal #"'x" /\
  fgetval #"index = 7" #"index" seps = GVal #"7".
Proof. repeat split. Qed.
Example value_read_hyps : keyed #"=" #"NAME" #"NAME=""Arch Linux""  " #"Arch Linux".
Proof.
  apply (keyed_ #"=" #"NAME" #"=" #"""Arch Linux""  ").
  - repeat (apply Forall_cons; [cbn; intuition discriminate|]). apply Forall_nil.
  - discriminate.
  - repeat (apply Forall_cons; [cbn; tauto|]). apply Forall_nil.
  - eexists; eexists. split; [reflexivity|]. cbn. intuition discriminate.
  - apply (vo_quoted """" #"Arch Linux" #"  "); [right; reflexivity|]. repeat (apply Forall_cons; [left; reflexivity|]). apply Forall_nil.
Qed.
Example value_other_met : fgetval #"PRETTY_NAME=x" #"NAME" #"=" = GNone /\ fgetval #"NAMES=x" #"NAME" #"=" = GNone /\ first_word #"=" #"NAMES=x" #"NAMES".
Proof.
  split; [reflexivity|]. split; [reflexivity|]. split; [repeat (apply Forall_cons; [cbn; intuition discriminate|]); apply Forall_nil|].
  right. exists "="%char, #"x". split; [reflexivity|cbn; tauto].
Qed.
Example value_last_met : last_value #"ID" None [#"ID=a"; #"VERSION_ID=3"; #"ID='b'"; #"NAME=c"] = Some (Some #"b").
Proof. reflexivity. Qed.
Example osrel_crash_met : last_value #"VERSION_ID" None [#"NAME=Void"; #"VERSION_ID="; #"ID=void"] = None.
Proof. reflexivity. Qed.

(** ** C72 *)
(** The tasks of the files are what their lines say: settings count for the lines
    that follow in the same file, the index is counted over all files. *)
Theorem modules_tasks : forall exec files ts, files_are exec 1 files ts -> load exec files = MDone ts.
Proof. exact load_ok. Qed.
(** Files that only name modules: one task for each, in order, numbered from 1, in
    runlevel S, and no task takes the place of another. *)
Theorem modules_default : forall exec files l, plain_files files l -> exists ts, load exec files = MDone ts /\
  map (fun t => (t_mod t, t_args t)) ts = l /\ map t_index ts = map Z.of_nat (seq 1 (List.length l)) /\
  Forall (fun t => t_lvl t = #"S" /\ t_prog t = #"/sbin/modprobe") ts /\ NoDup (map ident ts).
Proof. exact default_ok. Qed.
(** The stanza of a task. *)
Theorem modules_line : forall t, t_index t <> 0 ->
  let s := #"cgroup.init name:modprobe." ++ t_mod t ++ #" :" ++ show_int (t_index t) ++ #" [" ++ t_lvl t ++ #"] " ++ t_prog t ++ #" " ++ t_mod t ++ #" " ++ t_args t ++ #" --" in
  (List.length s < N.to_nat 1024)%nat -> task_line t = s.
Proof. exact line_text. Qed.
(** Claim that is false: the index tells tasks apart.  After "set index 2" in one
    file, the next file goes on with 2 all the same: the task of a module named in
    both is replaced, and its arguments lost. *)
Theorem modules_clash_refuted : forall exec m a, modname m -> ~ In "#"%char a ->
  load exec [Some [#"set index 2"; m ++ " "%char :: a]; Some [m]] =
    MDone [{| t_mod := m; t_index := 2; t_lvl := #"S"; t_prog := #"/sbin/modprobe"; t_args := a |};
           {| t_mod := m; t_index := 2; t_lvl := #"S"; t_prog := #"/sbin/modprobe"; t_args := [] |}].
Proof. exact clash_ok. Qed.
(** Claim that is false: "set noindex" turns the index off.  Not with a blank behind
    it, as before a comment. *)
Theorem modules_noindex_refuted : forall exec b g m, Forall blank b -> gap g -> modname m ->
  load exec [Some [b ++ #"set" ++ g ++ #"noindex "; m]] =
    MDone [{| t_mod := m; t_index := 1; t_lvl := #"S"; t_prog := #"/sbin/modprobe"; t_args := [] |}].
Proof. exact noindex_blank. Qed.
(** Claim that is false: a line that is not understood is skipped.  "set", or "set
    index" and the like with no value, crash Finit, which is process 1. *)
Theorem modules_crash_refuted : forall exec b g key h rest files, Forall blank b -> gap g -> In key [#"index"; #"runlevel"; #"modprobe"] ->
  Forall (fun c => c = "="%char \/ blank c) h ->
  load exec (Some ((b ++ #"set" ++ g ++ key ++ h) :: rest) :: files) = MCrash /\
  load exec (Some ((b ++ #"set" ++ h) :: rest) :: files) = MCrash.
Proof. exact crash_ok. Qed.
(** Hidden files and backups are not read. *)
Theorem modules_skipped : forall r, module_filter ("."%char :: r) = false /\ module_filter (r ++ #"~") = false.
Proof. exact skipped_file. Qed.
(** Claim that is false: files named *.conf are read.  All are, but hidden files and
    backups that end in "~". *)
Theorem modules_any_refuted : forall n, n <> [] -> (forall r, n <> "."%char :: r) -> (forall a, n <> a ++ #"~") -> module_filter n = true.
Proof. exact any_file. Qed.

Definition yes (_ : cstr) := true.
Lemma loop_name : modname #"loop".
Proof.
  constructor; [discriminate|discriminate| |intros r; discriminate].
  repeat (apply Forall_cons; [split; [discriminate|]; split; [intros [X|X]; discriminate|discriminate]|]). apply Forall_nil.
Qed.
Example modules_default_met : load yes [Some [#"; two"; #"  loop max=8"; #""]; None; Some [#"loop"]] =
  MDone [{| t_mod := #"loop"; t_index := 1; t_lvl := #"S"; t_prog := #"/sbin/modprobe"; t_args := #"max=8" |};
         {| t_mod := #"loop"; t_index := 2; t_lvl := #"S"; t_prog := #"/sbin/modprobe"; t_args := [] |}].
Proof. reflexivity. Qed.
Example modules_default_hyps : plain_files [Some [#"; two"; #"  loop max=8"; #""]; None; Some [#"loop"]] [(#"loop", #"max=8"); (#"loop", [])].
Proof.
  apply (pf_file _ [(#"loop", #"max=8")] _ [(#"loop", [])]).
  - apply plain_idle; [apply idle_semi|]. apply plain_module.
    + apply (module_args #"  " #"loop" #"max=8"); [repeat (apply Forall_cons; [left; reflexivity|]); apply Forall_nil|apply loop_name|cbn; intuition discriminate].
    + apply plain_idle; [apply idle_blank; apply Forall_nil|apply plain_end].
  - apply pf_gone. apply (pf_file _ [(#"loop", [])] [] []); [|apply pf_end].
    apply plain_module; [apply (module_bare [] #"loop"); [apply Forall_nil|apply loop_name]|apply plain_end].
Qed.
Example modules_tasks_met : load yes [Some [#"set runlevel 2345"; #"set index=9"; #"a"; #"set noindex"; #"b"]; Some [#"c"]] =
  MDone [{| t_mod := #"a"; t_index := 9; t_lvl := #"2345"; t_prog := #"/sbin/modprobe"; t_args := [] |};
         {| t_mod := #"b"; t_index := 0; t_lvl := #"2345"; t_prog := #"/sbin/modprobe"; t_args := [] |};
         {| t_mod := #"c"; t_index := 3; t_lvl := #"S"; t_prog := #"/sbin/modprobe"; t_args := [] |}].
Proof. reflexivity. Qed.
Example modules_tasks_hyps : exists ts, files_are yes 1 [Some [#"set runlevel 2345"; #"set noindex"; #"loop"]] ts /\ List.length ts = 1%nat.
Proof.
  assert (G : gap #" ") by (split; [discriminate|]; apply Forall_cons; [right; left; reflexivity|apply Forall_nil]).
  eexists. split.
  - apply fa_file; [|apply fa_end]. eapply fi_level.
    + apply (setting_ #"runlevel" [] #" " #" " #"2345" #"2345"); [apply Forall_nil|exact G|exact G| | |].
      * eexists; eexists. split; [reflexivity|]. cbn. intuition discriminate.
      * cbn. intuition discriminate.
      * apply vo_plain. intros q r E. injection E as <- _. intros [X|X]; discriminate.
    + apply fi_off; [apply (off_ [] #" "); [apply Forall_nil|exact G]|].
      apply fi_module_off; [apply (module_bare [] #"loop"); [apply Forall_nil|apply loop_name]|apply fi_end].
  - reflexivity.
Qed.
Example modules_stop_met : load (fun _ => false) [Some [#"a"; #"set modprobe /bin/x"; #"b"]; Some [#"c"]] =
  MDone [{| t_mod := #"a"; t_index := 1; t_lvl := #"S"; t_prog := #"/sbin/modprobe"; t_args := [] |};
         {| t_mod := #"c"; t_index := 2; t_lvl := #"S"; t_prog := #"/sbin/modprobe"; t_args := [] |}].
Proof. reflexivity. Qed.
Example modules_line_met : task_line {| t_mod := #"loop"; t_index := 12; t_lvl := #"S"; t_prog := #"/sbin/modprobe"; t_args := #"max=8" |} =
  #"cgroup.init name:modprobe.loop :12 [S] /sbin/modprobe loop max=8 --".
Proof. reflexivity. Qed.
Example modules_clash_met : load yes [Some [#"set index 2"; #"loop max=8"]; Some [#"loop"]] =
  MDone [{| t_mod := #"loop"; t_index := 2; t_lvl := #"S"; t_prog := #"/sbin/modprobe"; t_args := #"max=8" |};
         {| t_mod := #"loop"; t_index := 2; t_lvl := #"S"; t_prog := #"/sbin/modprobe"; t_args := [] |}].
Proof. reflexivity. Qed.
Example modules_crash_met : load yes [Some [#"loop"; #"set index"]] = MCrash.
Proof. reflexivity. Qed.
Example modules_any_met : module_filter #"README" = true /\ module_filter #".x.conf" = false /\ module_filter #"x.conf~" = false.
Proof. repeat split. Qed.

Print Assumptions value_read.
Print Assumptions value_other.
Print Assumptions value_last.
Print Assumptions value_crash_refuted.
Print Assumptions osrel_crash_refuted.
Print Assumptions modules_tasks.
Print Assumptions modules_default.
Print Assumptions modules_line.
Print Assumptions modules_clash_refuted.
Print Assumptions modules_noindex_refuted.
Print Assumptions modules_crash_refuted.
Print Assumptions modules_any_refuted.
Print Assumptions modules_skipped.
