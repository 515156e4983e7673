(** C56, C57: the scripts of a directory, and the hook scripts. *)
From Coq Require Import List String Ascii NArith ZArith Bool Lia.
From Verif Require Import CStr HookModel PartModel PartSpec PartProof.
Import ListNotations.
Local Open Scope Z_scope.

(** ** C56: run-parts *)

(** In every world, even one the scripts change as they run: the scripts of the
    directory are run in the order of their names, each with its argument;
    whether an entry is one is decided when those before it have been run. *)
Theorem parts_scripts : forall W dir cmd sysv names log rc, NoDup names ->
  run_parts W dir cmd sysv (Some names) = Some (log, rc) ->
  in_order (map fst log) /\
  (forall n c, In (n, c) log -> In n names /\ runs dir cmd n c) /\
  (forall n, In n names -> exists l1 l2, log = l1 ++ l2 /\ (forall p, In p l1 -> before (fst p) n) /\
     (forall p, In p l2 -> fst p = n \/ before n (fst p)) /\
     (In n (map fst log) <-> script W dir sysv (map snd l1) n)).
Proof. exact parts_scripts_lem. Qed.
Print Assumptions parts_scripts.

(** Five entries, in no order; the second script takes the "x" off the last. *)
Definition ex_world : world := {|
  w_stat := fun h p =>
    if str_eqb p #"/etc/rc.d/notes" then Some (false, false)
    else if str_eqb p #"/etc/rc.d/zz" then Some (Nat.ltb (List.length h) 2, false)
    else if str_eqb p #"/etc/rc.d/." then Some (true, true) else Some (true, false);
  w_run := fun h c => if str_eqb c #"/etc/rc.d/K20b stop" then Exited 128 else if str_eqb c #"/etc/rc.d/hello" then Exited 128 else Exited 0 |}.
Definition ex_names : list cstr := [#"zz"; #"S30c"; #"notes"; #"old~"; #"."; #"K20b"; #"hello"].
Example parts_scripts_ex : NoDup ex_names /\
  run_parts ex_world #"/etc/rc.d" None false (Some ex_names) =
    Some ([(#"K20b", #"/etc/rc.d/K20b stop"); (#"S30c", #"/etc/rc.d/S30c start"); (#"hello", #"/etc/rc.d/hello")], 256).
Proof.
  split; [|vm_compute; reflexivity].
  repeat (constructor; [cbn [In ex_names]; intuition discriminate|]). constructor.
Qed.
Example parts_sysv_ex :
  run_parts ex_world #"/etc/rc.d/" (Some #"-i") true (Some ex_names) =
    Some ([(#"K20b", #"/etc/rc.d/K20b -i"); (#"S30c", #"/etc/rc.d/S30c -i")], 0).
Proof. vm_compute. reflexivity. Qed.

(** The result is 0 if and only if all scripts were successful, in directories
    of less than eight million entries. *)
Theorem parts_result : forall W dir cmd sysv names, NoDup names -> Z.of_nat (List.length names) < 8388608 -> statuses W ->
  exists log rc, run_parts W dir cmd sysv (Some names) = Some (log, rc) /\ 0 <= rc /\
    (rc = 0 <-> forall o, In o (outcomes W [] (map snd log)) -> o = Exited 0).
Proof. exact parts_result_lem. Qed.
Print Assumptions parts_result.

Lemma ex_statuses : statuses ex_world.
Proof. intros h c n H. cbn [w_run ex_world] in H. destruct (str_eqb c _); [injection H as <-; lia|]. destruct (str_eqb c _); injection H as <-; lia. Qed.
Example parts_result_ex : statuses ex_world /\ Z.of_nat (List.length ex_names) < 8388608 /\
  outcomes ex_world [] [#"/etc/rc.d/K20b stop"; #"/etc/rc.d/S30c start"; #"/etc/rc.d/hello"] = [Exited 128; Exited 0; Exited 128].
Proof. split; [exact ex_statuses|]. split; vm_compute; reflexivity. Qed.

(** The runparts program: when it reports failure, a script has failed ... *)
Theorem runparts_fails : forall W dir sysv names n, NoDup names -> Z.of_nat (List.length names) < 8388608 -> statuses W ->
  runparts_exit W dir sysv (Some names) = Some n -> n <> 0 ->
  exists log rc o, run_parts W dir None sysv (Some names) = Some (log, rc) /\
    In o (outcomes W [] (map snd log)) /\ o <> Exited 0.
Proof. exact runparts_exit_lem. Qed.
Print Assumptions runparts_fails.

Example runparts_fails_ex : runparts_exit ex_world #"/etc/rc.d" true (Some ex_names) = Some 128.
Proof. vm_compute. reflexivity. Qed.

(** ... but it may report success although scripts have failed: the statuses are
    added, and the sum is cut to a byte. *)
Theorem runparts_exit_refuted : exists W dir names log rc, NoDup names /\ statuses W /\
  run_parts W dir None false (Some names) = Some (log, rc) /\
  In (Exited 128) (outcomes W [] (map snd log)) /\ runparts_exit W dir false (Some names) = Some 0.
Proof.
  exists ex_world, #"/etc/rc.d", ex_names. do 2 eexists. split; [exact (proj1 parts_scripts_ex)|]. split; [exact ex_statuses|].
  split; [exact (proj2 parts_scripts_ex)|]. split; [left; reflexivity|vm_compute; reflexivity].
Qed.
Print Assumptions runparts_exit_refuted.

(** The shell takes the command of a script with a plain name as that script with
    its argument, and nothing is cut off. *)
Theorem parts_shell : forall dir cmd name c path arg,
  plain dir -> plain name -> (forall a, cmd = Some a -> a <> [] /\ plain a) ->
  runs dir cmd name c -> file_in dir name path -> argument cmd name arg ->
  strtoks #" " c = path :: match arg with Some a => [a] | None => [] end.
Proof. exact parts_shell_lem. Qed.
Print Assumptions parts_shell.

Example parts_shell_ex : plain #"/etc/rc.d" /\ plain #"S30c" /\ runs #"/etc/rc.d" None #"S30c" #"/etc/rc.d/S30c start" /\
  strtoks #" " #"/etc/rc.d/S30c start" = [#"/etc/rc.d/S30c"; #"start"].
Proof.
  split; [|split; [|split; [apply runs_cmd; reflexivity|vm_compute; reflexivity]]];
  intros c M; cbn in M; repeat (destruct M as [<-|M]; [reflexivity|]); elim M.
Qed.

(** Not so for other names: the script "a b" is not run, "a" is. *)
Theorem parts_shell_refuted : exists W dir names log rc path,
  run_parts W dir None false (Some names) = Some (log, rc) /\ names = [#"a b"] /\ file_in dir #"a b" path /\
  map (fun p => strtoks #" " (snd p)) log = [[#"/etc/rc.d/a"; #"b"]] /\ path <> #"/etc/rc.d/a".
Proof.
  exists ex_world, #"/etc/rc.d", [#"a b"]. do 2 eexists. exists #"/etc/rc.d/a b". split; [vm_compute; reflexivity|].
  split; [reflexivity|]. split; [apply (the_path_in #"/etc/rc.d" #"a b")|]. split; [vm_compute; reflexivity|discriminate].
Qed.
Print Assumptions parts_shell_refuted.

(** ** C57: hook scripts *)

(** Of the environment given to a script the last value of a variable holds, all
    others keep theirs. *)
Theorem script_environment : forall l e n, getenv n (run_env (flat_map (fun p => [fst p; snd p]) l) e) =
  match getenv n (rev l) with Some v => Some v | None => getenv n e end.
Proof. exact env_get_lem. Qed.
Print Assumptions script_environment.

Example script_environment_ex :
  let e := run_env [#"A"; #"1"; #"B"; #"2"; #"A"; #"3"] [(#"B", #"0"); (#"C", #"4")] in
  map (fun n => getenv n e) [#"A"; #"B"; #"C"; #"D"] = [Some #"3"; Some #"2"; Some #"4"; None].
Proof. vm_compute. reflexivity. Qed.

(** The scripts of a hook are those in the directory of its name; they are told
    its name, and from shutdown on what the system is brought down for. *)
Theorem hook_script : forall base halt h, documented h -> (List.length base + 14 < 256)%nat ->
  exists env, script_run base halt h = Some (base ++ skipn 4 (hook_name h), env) /\
    forall e, getenv #"FINIT_HOOK_NAME" (run_env env e) = Some (hook_name h) /\
      (late h -> getenv #"FINIT_SHUTDOWN" (run_env env e) = Some (shut_name halt)) /\
      (~ late h -> getenv #"FINIT_SHUTDOWN" (run_env env e) = getenv #"FINIT_SHUTDOWN" e).
Proof. exact script_run_ok. Qed.
Print Assumptions hook_script.

Example hook_script_ex : documented HSysDn /\ late HSysDn /\
  option_map fst (script_run #"/libexec/finit/hook" ShutReboot HSysDn) = Some #"/libexec/finit/hook/sys/down".
Proof. split; [split; discriminate|]. split; [right; right; reflexivity|vm_compute; reflexivity]. Qed.

(** When a hook is run, its scripts are run, once: from the plugin when that is
    loaded, and before that as long as there are no conditions. *)
Theorem hook_once : forall base halt avail loaded h, documented h -> ~ (avail = true /\ loaded = false) ->
  ~ In h [HSvcPlugin; HNetworkDn; HSvcDn; HSysDn] \/ loaded = false ->
  hook_scripts base halt avail loaded h = [script_run base halt h].
Proof. exact hook_once_lem. Qed.
Print Assumptions hook_once.

Example hook_once_ex : documented HNetworkUp /\ ~ In HNetworkUp [HSvcPlugin; HNetworkDn; HSvcDn; HSysDn] /\
  List.length (hook_scripts #"/libexec/finit/hook" ShutOff true true HNetworkUp) = 1%nat.
Proof. split; [split; discriminate|]. split; [cbn [In]; intuition discriminate|reflexivity]. Qed.

(** The last two are run by the shutdown itself. *)
Theorem hook_down : forall base halt h, h = HSvcDn \/ h = HSysDn ->
  down_scripts base halt h = [script_run base halt h] /\ forall avail, hook_scripts base halt avail true h = [].
Proof. intros base halt h [->| ->]; (split; [reflexivity|intros [|]; reflexivity]). Qed.
Print Assumptions hook_down.

(** The scripts of hook/net/down and hook/svc/plugin are documented, but never
    run once the plugins are loaded. *)
Theorem hook_never_refuted : exists h1 h2, hook_name h1 = #"hook/net/down" /\ hook_name h2 = #"hook/svc/plugin" /\
  forall base halt avail h, h = h1 \/ h = h2 ->
    documented h /\ hook_scripts base halt avail true h = [] /\ down_scripts base halt h = [].
Proof.
  exists HNetworkDn, HSvcPlugin. split; [reflexivity|]. split; [reflexivity|].
  intros base halt avail h [->| ->]; (split; [split; discriminate|]; split; [destruct avail; reflexivity|reflexivity]).
Qed.
Print Assumptions hook_never_refuted.
