(** C60 and C61: control groups. *)
From Coq Require Import List String Ascii NArith ZArith Bool Lia.
From Verif Require Import CStr ParseModel CgModel CgSpec CgProof CgProofB.
Import ListNotations.

(** ** C60 settings *)
(** Each setting goes to the file of that name in the group's directory, in the
    order of the line. *)
Theorem settings_written : forall path l,
  Forall good_setting l -> Forall (fun s => (List.length (setting_file path s) < 256)%nat) l ->
  settings path (settings_text l) = map (fun s => (setting_file path s, s_val s)) l.
Proof. exact written. Qed.
Print Assumptions settings_written.
Definition demo : list setting := [{| s_ctrl := #"cpu"; s_prop := #"weight"; s_val := #"100" |}; {| s_ctrl := #"mem"; s_prop := #"max"; s_val := #"8:0" |}].
Lemma demo_good : Forall good_setting demo.
Proof.
  apply Forall_cons; [apply good_b; reflexivity|].
  apply Forall_cons; [apply good_b; reflexivity|apply Forall_nil].
Qed.
Example settings_written_ex : settings #"/g" (settings_text demo) = [(#"/g/cpu.weight", #"100"); (#"/g/memory.max", #"8:0")].
Proof. rewrite settings_written; [reflexivity|exact demo_good|repeat constructor]. Qed.

(** Whatever the line, a file that is written lies below the group's directory,
    if the name of the controller is not empty and does not end in a slash. *)
Theorem settings_inside : forall path cfg f v, In (f, v) (settings path cfg) ->
  exists ctrl prop, f = strlcpy 256 (path ++ #"/" ++ ctrl ++ #"." ++ prop) /\
    (ctrl <> [] -> ~ (exists a, ctrl = a ++ ["/"%char]) -> ~ dotdot (ctrl ++ #"." ++ prop)).
Proof. exact inside. Qed.
Print Assumptions settings_inside.
Example settings_inside_ex : settings #"/g" #"cpu.a/../b:1,sub/cpu.weight:2" = [(#"/g/sub/cpu.weight", #"2")] /\ ~ dotdot #"sub/cpu.weight".
Proof. split; [vm_compute; reflexivity|]. intros H. vm_compute in H. repeat (destruct H as [H|H]; [discriminate|]). exact H. Qed.
(** Otherwise it is not: the check is on the two halves, and the dot between
    them makes the "..". *)
Theorem settings_inside_refuted : exists path cfg rel v, In (path ++ #"/" ++ rel, v) (settings path cfg) /\ dotdot rel.
Proof. exists #"/sys/fs/cgroup/system/sshd", #"../cgroup.procs:1", #"../cgroup.procs", #"1". vm_compute. auto. Qed.
Print Assumptions settings_inside_refuted.

(** A service's stanza: its process goes to its own directory in the group it
    names, or in the current group, and the settings are written there. *)
Theorem service_settings : forall isdir cur n name l, let m := match n with Some m => m | None => cur end in
  (forall m, n = Some m -> ~ In ":"%char m) -> (List.length m < 16)%nat -> (List.length cur < 16)%nat -> m <> #"root" -> m <> #"init" ->
  (List.length name < 100)%nat -> Forall good_setting l -> (List.length (settings_text l) < 128)%nat ->
  let path := cgpath ++ #"/" ++ group_of isdir m ++ #"/" ++ name in
  Forall (fun s => (List.length (setting_file path s) < 256)%nat) l ->
  exists g, reg_cgroup cur (Some (group_option n (settings_text l))) fresh_group = Some g /\
  cgroup_service isdir name g = (path, map (fun s => (setting_file path s, s_val s)) l).
Proof. exact service_whole. Qed.
Print Assumptions service_settings.
Example service_settings_ex : exists g, reg_cgroup [] (Some #".maint:cpu.weight:100,mem.max:8:0") fresh_group = Some g /\
  cgroup_service (fun d => str_eqb d #"/sys/fs/cgroup/maint") #"sshd" g =
    (#"/sys/fs/cgroup/maint/sshd", [(#"/sys/fs/cgroup/maint/sshd/cpu.weight", #"100"); (#"/sys/fs/cgroup/maint/sshd/memory.max", #"8:0")]).
Proof.
  destruct (service_settings (fun d => str_eqb d #"/sys/fs/cgroup/maint") [] (Some #"maint") #"sshd" demo) as [g [A B]];
    try discriminate; try (cbn; lia); try exact demo_good.
  - intros m E. inversion E. intros I. repeat (destruct I as [I|I]; [discriminate|]). exact I.
  - repeat constructor; cbn; lia.
  - exists g. split; [exact A|rewrite B; reflexivity].
Qed.
(** Settings too long for the record are not refused: the room is compared with
    the wrong size, and the text is cut. *)
Theorem service_settings_refuted : exists s l g, Forall good_setting (s :: l) /\ (List.length (settings_text (s :: l)) < 144)%nat /\
  reg_cgroup [] (Some (group_option None (settings_text (s :: l)))) fresh_group = Some g /\
  forall isdir, snd (cgroup_service isdir #"sshd" g) = [(#"/sys/fs/cgroup/system/sshd/" ++ s_ctrl s ++ #"." ++ s_prop s, firstn 120 (s_val s))] /\ firstn 120 (s_val s) <> s_val s.
Proof.
  exists {| s_ctrl := #"a"; s_prop := #"b.cd"; s_val := repeat "1"%char 121 |}, []. eexists.
  split; [|split; [vm_compute; lia|split; [vm_compute; reflexivity|]]].
  - constructor; [|constructor]. apply good_b; vm_compute; reflexivity.
  - intros isdir. split; [vm_compute; reflexivity|]. vm_compute. discriminate.
Qed.
Print Assumptions service_settings_refuted.
(** They are also kept when the stanza no longer has any. *)
Theorem service_sticky_refuted : exists g g', reg_cgroup [] (Some #":mem.max:1000") fresh_group = Some g /\
  reg_cgroup [] None g = Some g' /\ forall isdir, snd (cgroup_service isdir #"sshd" g') = [(#"/sys/fs/cgroup/system/sshd/memory.max", #"1000")].
Proof. do 2 eexists. split; [vm_compute; reflexivity|]. split; [vm_compute; reflexivity|]. intros isdir. vm_compute. reflexivity. Qed.
Print Assumptions service_sticky_refuted.
(** The group a stanza names is not checked, as the "cgroup" line is: it may be
    any directory. *)
Theorem service_outside_refuted : exists g, reg_cgroup [] (Some #".../../tmp") fresh_group = Some g /\
  fst (cgroup_service (fun _ => true) #"sshd" g) = #"/sys/fs/cgroup/../../tmp/sshd".
Proof. eexists. split; vm_compute; reflexivity. Qed.
Print Assumptions service_outside_refuted.

(** ** C61 the top-level groups *)
(** After every history of reloads, a reload gives each group in the new
    configuration the settings of the last line for it, and does not remove it. *)
Theorem groups_configured : forall gone confs g lines n cfg, Forall short_lines confs -> short_lines lines -> last_says lines n cfg ->
  In (top_path n, settings (top_path n) cfg) (r_made (cg_reload g lines (cg_run gone confs))) /\
  ~ In (top_path n) (r_removed (cg_reload g lines (cg_run gone confs))).
Proof. exact (fun gone confs g lines n cfg Sh Sl L => proj2 (reload_line g lines _ n cfg (run_wf gone confs Sh) Sl L)). Qed.
Print Assumptions groups_configured.
(** The groups init, system and user keep their settings and stay, if no
    configuration has had a line for them. *)
Theorem groups_default : forall gone confs lines g n cfg, Forall short_lines confs -> short_lines lines -> default_group n cfg ->
  Forall (fun ls => ~ named ls n) (confs ++ [lines]) ->
  In (top_path n, settings (top_path n) cfg) (r_made (cg_reload g lines (cg_run gone confs))) /\
  ~ In (top_path n) (r_removed (cg_reload g lines (cg_run gone confs))).
Proof. exact default_kept. Qed.
Print Assumptions groups_default.
(** No other directory is given settings. *)
Theorem groups_only : forall gone confs lines g d w, Forall short_lines confs -> short_lines lines ->
  In (d, w) (r_made (cg_reload g lines (cg_run gone confs))) -> exists n cfg, d = top_path n /\ w = settings d cfg /\
    (last_says lines n cfg \/ default_group n cfg /\ Forall (fun ls => ~ named ls n) (confs ++ [lines])).
Proof. exact made_only. Qed.
Print Assumptions groups_only.
(** A group in the last configuration that is not in the new one is removed, and
    forgotten if that works. *)
Theorem groups_dropped : forall gone confs ls lines g n, Forall short_lines (confs ++ [ls]) -> short_lines lines -> named ls n -> ~ named lines n ->
  In (top_path n) (r_removed (cg_reload g lines (cg_run gone (confs ++ [ls])))) /\
  (g (top_path n) = true -> ~ In n (map c_name (r_groups (cg_reload g lines (cg_run gone (confs ++ [ls])))))).
Proof. exact dropped. Qed.
Print Assumptions groups_dropped.
(** Nothing else is removed. *)
Theorem groups_removed : forall gone confs lines g d, Forall short_lines confs -> short_lines lines ->
  In d (r_removed (cg_reload g lines (cg_run gone confs))) -> exists n, d = top_path n /\ ~ named lines n /\ exists ls, In ls confs /\ named ls n.
Proof. exact removed_only. Qed.
Print Assumptions groups_removed.
Example groups_ex : let gone := fun (_ : nat) (_ : cstr) => true in
  let r := cg_reload (gone O) [#"web mem.max:2"] (cg_run gone [[#"maint cpu.weight:5"; #"web mem.max:1 cpu.weight:7"]]) in
  r_removed r = [#"/sys/fs/cgroup/maint"] /\
  map fst (r_made r) = [#"/sys/fs/cgroup/init"; #"/sys/fs/cgroup/system"; #"/sys/fs/cgroup/user"; #"/sys/fs/cgroup/web"] /\
  In (top_path #"web", [(#"/sys/fs/cgroup/web/memory.max", #"2")]) (r_made r) /\
  last_says [#"web mem.max:2"] #"web" #"mem.max:2".
Proof.
  cbn zeta. split; [vm_compute; reflexivity|]. split; [vm_compute; reflexivity|]. split; [vm_compute; tauto|].
  exists [], #"web mem.max:2", []. split; [reflexivity|]. split; [|intros l c []].
  change #"mem.max:2" with (commas [#"mem.max:2"]). constructor; [reflexivity| |].
  - intros I. repeat (destruct I as [I|I]; [discriminate|]). exact I.
  - intros a b E. do 4 (destruct a as [|? a]; [discriminate E|]; cbn in E; inversion E; clear E; try subst; rename H1 into E).
Qed.
(** But a line for one of the three makes it like any other: when the line goes,
    so does the group. *)
Theorem groups_default_refuted : exists gone confs lines n cfg, default_group n cfg /\ Forall short_lines (confs ++ [lines]) /\ ~ named lines n /\
  In (top_path n) (r_removed (cg_reload gone lines (cg_run (fun _ => gone) confs))) /\
  ~ In (top_path n) (map fst (r_made (cg_reload gone lines (cg_run (fun _ => gone) confs)))).
Proof.
  exists (fun _ => true), [[#"user cpu.weight:50"]], [], #"user", #"cpu.weight:100".
  split; [cbn; auto|]. split; [repeat constructor; cbn; lia|]. split; [intros [l [c [[] _]]]|].
  split; [vm_compute; auto|]. vm_compute. intros I. repeat (destruct I as [I|I]; [discriminate|]). exact I.
Qed.
Print Assumptions groups_default_refuted.
