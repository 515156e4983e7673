(** C14, C27-C31, C33, C36, C42-C45: configuration syntax. *)
From Coq Require Import List String Ascii NArith ZArith Bool Lia.
From Verif Require Import CStr ParseModel ParseSpec CStrLib ParseProof ParseProofB ParseProofC ParseProofD ParseProofE.
Import ListNotations.
Local Open Scope Z_scope.

Notation commas := (eq ","%char) (only parsing).

(** ** C14: runlevel specifications *)

(** "[b]" without '!' names the levels written in it. *)
Theorem runlevels_plain : forall open b rest l,
  ~ In "]"%char b -> ~ In "!"%char b -> ~ In ":"%char b -> (rest = [] \/ exists r, rest = "]"%char :: r) ->
  N.testbit (parse_runlevels (Some (open :: b ++ rest))) l = true <-> exists x, In x b /\ names_level x l.
Proof. exact runlevels_plain_lem. Qed.
Print Assumptions runlevels_plain.
(** "[!b]" names the others of 1-9 and S. *)
Theorem runlevels_not : forall open b rest l,
  ~ In "]"%char b -> ~ In "!"%char b -> ~ In ":"%char b -> (rest = [] \/ exists r, rest = "]"%char :: r) ->
  N.testbit (parse_runlevels (Some (open :: "!"%char :: b ++ rest))) l = true <->
  (1 <= l <= 10)%N /\ forall x, In x b -> ~ names_level x l.
Proof. intros open b rest l. exact (runlevels_not_lem open [] b rest l (fun X => X)). Qed.
Print Assumptions runlevels_not.
Theorem runlevels_default : forall l, N.testbit (parse_runlevels None) l = true <-> (l = 2 \/ l = 3 \/ l = 4)%N.
Proof. exact runlevels_default_lem. Qed.
Print Assumptions runlevels_default.
Theorem runlevels_range : forall s l, N.testbit (parse_runlevels s) l = true -> (l <= 10)%N.
Proof. exact runlevels_range_lem. Qed.
Print Assumptions runlevels_range.
(** The two exclusions are needed: ':' counts as level S, and a '!' after the
    first level discards what was listed before it. *)
Theorem runlevels_refuted :
  N.testbit (parse_runlevels (Some #"[:]")) 10 = true /\ ~ (exists x, In x #":" /\ names_level x 10) /\
  N.testbit (parse_runlevels (Some #"[02!3]")) 0 = false.
Proof.
  split; [reflexivity|]. split; [|reflexivity]. intros (x & [<-|[]] & [[H _]|[[H|H] _]]); [lia|discriminate|discriminate].
Qed.
Print Assumptions runlevels_refuted.
(** The runlevel on the kernel command line: a number from 1 to 9 but 6, else
    none (0). *)
Theorem cmdline_runlevel : forall s n, parse_runlevel s = n <->
  (digits_value s n /\ 1 <= n <= 9 /\ n <> 6 \/ n = 0 /\ ~ exists m, digits_value s m /\ 1 <= m <= 9 /\ m <> 6).
Proof. exact cmdline_runlevel_lem. Qed.
Print Assumptions cmdline_runlevel.
Example runlevels_ex :
  parse_runlevels (Some #"[S12345]") = 1086%N /\ parse_runlevels (Some #"[!06] junk") = 1982%N /\ parse_runlevels None = 28%N
  /\ parse_runlevel #"3" = 3 /\ parse_runlevel #"single" = 0.
Proof. repeat split; reflexivity. Qed.

(** ** C42: the words of a stanza *)

(** The words of a line are exactly those of the specification: separated by
    blanks that are neither inside quotes nor before a comma of a "key:a, b"
    list. *)
Theorem stanza_words : forall s ws, all_args s = ws <-> words s ws.
Proof. exact words_lem. Qed.
Print Assumptions stanza_words.
(** Nothing but blanks is lost. *)
Theorem stanza_words_keep : forall s,
  filter (fun c => negb (isblank c)) s = filter (fun c => negb (isblank c)) (List.concat (all_args s)).
Proof. intros s. apply words_keep, words_lem. reflexivity. Qed.
Print Assumptions stanza_words_keep.
(** Without quotes and lists it is plain splitting at blanks. *)
Theorem stanza_words_plain : forall s, ~ In "'"%char s -> ~ In """"%char s -> ~ In ":"%char s -> tokens blank s (all_args s).
Proof. exact words_plain. Qed.
Print Assumptions stanza_words_plain.
Example stanza_words_ex : all_args #"[2345] conflict:a , b name:'x y' /bin/foo  -n 1" =
  [#"[2345]"; #"conflict:a ,"; #"b"; #"name:'x y'"; #"/bin/foo"; #"-n"; #"1"].
Proof. reflexivity. Qed.

(** ** C29: conditions *)

(** "<a,b>" and "<!a,b>" set exactly the listed conditions; '!' is remembered
    as "no SIGHUP" for services and as "run once" for run/task. *)
Theorem conditions_listed : forall daemon runtask old (bang : bool) b rest,
  ~ In ">"%char b -> (bang = false -> forall b', b <> "!"%char :: b') -> (List.length b < 192)%nat ->
  (rest = [] \/ exists r', rest = ">"%char :: r') ->
  let new := parse_cond daemon runtask old (Some ((if bang then #"!" else []) ++ b ++ rest)) in
  (forall names, tokens commas (cs_cond new) names <-> tokens commas b names) /\
  cs_sighup new = (if bang then runtask else daemon || cs_sighup old) /\
  cs_once new = (if bang && runtask then true else cs_once old).
Proof. exact parse_cond_lem. Qed.
Print Assumptions conditions_listed.
(** A list that is too long leaves the conditions of the previous load. *)
Theorem conditions_too_long : forall daemon runtask old b rest,
  ~ In ">"%char b -> (forall b', b <> "!"%char :: b') -> (192 <= List.length b)%nat ->
  (rest = [] \/ exists r', rest = ">"%char :: r') ->
  cs_cond (parse_cond daemon runtask old (Some (b ++ rest))) = cs_cond old.
Proof. exact parse_cond_long_lem. Qed.
Print Assumptions conditions_too_long.
Example conditions_ex :
  parse_cond true false (mkCondset #"old" false false) (Some #"!net/eth0/up,,pid/syslogd> x") = mkCondset #"net/eth0/up,pid/syslogd" false false
  /\ tokens commas #"net/eth0/up,,pid/syslogd" [#"net/eth0/up"; #"pid/syslogd"].
Proof.
  split; [reflexivity|]. apply (tok_more _ [] #"net/eth0/up" ","%char #",pid/syslogd"); [constructor|discriminate| |reflexivity|].
  - repeat constructor; discriminate.
  - apply (tok_last _ #","); [repeat constructor|discriminate|repeat constructor; discriminate].
Qed.

(** ** C30: environment *)

Theorem env_assignment : forall sp1 k sp2 sp3 v sp4,
  Forall white sp1 -> Forall white sp2 -> Forall white sp3 -> Forall white sp4 ->
  k <> [] -> Forall (fun c => ~ white c /\ c <> "="%char) k -> (forall r, k <> #"set" ++ r) -> trimmed v ->
  exists r, unquoted v r /\ parse_env (sp1 ++ k ++ sp2 ++ "="%char :: sp3 ++ v ++ sp4) = Some (k, r).
Proof. intros sp1 k sp2 sp3 v sp4 A B C D E F. exact (env_lem sp1 k sp2 sp3 v sp4 A B C D (conj E F)). Qed.
Print Assumptions env_assignment.
Theorem env_set_assignment : forall sp1 sp k sp2 sp3 v sp4,
  Forall white sp1 -> Forall white sp -> Forall white sp2 -> Forall white sp3 -> Forall white sp4 ->
  k <> [] -> Forall (fun c => ~ white c /\ c <> "="%char) k -> trimmed v ->
  exists r, unquoted v r /\ parse_env (sp1 ++ (#"set" ++ sp ++ k) ++ sp2 ++ "="%char :: sp3 ++ v ++ sp4) = Some (k, r).
Proof. intros sp1 sp k sp2 sp3 v sp4 A B C D E F G. exact (env_set_lem sp1 sp k sp2 sp3 v sp4 A B C D E (conj F G)). Qed.
Print Assumptions env_set_assignment.
Theorem env_no_assignment : forall s, ~ In "="%char s -> parse_env s = None.
Proof. exact env_none_lem. Qed.
Print Assumptions env_no_assignment.
(** No name with white space in it is accepted. *)
Theorem env_key : forall line k v, parse_env line = Some (k, v) -> Forall (fun c => ~ white c) k.
Proof. exact env_key_lem. Qed.
Print Assumptions env_key.
Example env_key_ex : parse_env #"set MY PATH=/bin" = None.
Proof. reflexivity. Qed.
(** A variable whose name starts with "set" loses these letters. *)
Theorem env_assignment_refuted : exists k v, k <> [] /\ Forall (fun c => ~ white c /\ c <> "="%char) k /\
  forall r, parse_env (k ++ "="%char :: v) <> Some (k, r).
Proof.
  exists #"settings", #"1". split; [discriminate|]. split.
  - repeat (constructor; [split; [intros W; apply isspace_iff in W; discriminate|discriminate]|]). constructor.
  - intros r H. vm_compute in H. discriminate.
Qed.
Print Assumptions env_assignment_refuted.
Example env_ex : parse_env #"  set PATH =  ""/bin:/sbin = x""  " = Some (#"PATH", #"/bin:/sbin = x").
Proof. reflexivity. Qed.

(** ** C28: resource limits *)

Theorem rlimit_set : forall line a level res val v r,
  rlimit_text line level res val -> In (res, r) resource_numbers -> limit_text val v ->
  parse_rlimit line a r = match level with LSoft => (v, snd (a r)) | LHard => (fst (a r), v) | LBoth => (v, v) end.
Proof. exact rlimit_set_lem. Qed.
Print Assumptions rlimit_set.
(** Anything else keeps every limit; so does a well-formed line for the
    resources it does not name. *)
Theorem rlimit_frame : forall line a r,
  ~ (exists level res val v, rlimit_text line level res val /\ In (res, r) resource_numbers /\ limit_text val v) ->
  parse_rlimit line a r = a r.
Proof. exact rlimit_same_lem. Qed.
Print Assumptions rlimit_frame.
(** names and numbers of the resources correspond *)
Theorem rlimit_names_inverse : forall s n, In (s, n) resource_numbers -> str2rlim s = Some n /\ rlim2str n = s.
Proof. intros s n H. split; [apply str2rlim_iff, H|apply rlim_names_lem, H]. Qed.
Print Assumptions rlimit_names_inverse.
Example rlimit_ex : let a := parse_rlimit #"hard nofile 	1024" (fun _ => (Some 64, Some 64)) in
  a 7%nat = (Some 64, Some 1024) /\ a 4%nat = (Some 64, Some 64) /\
  parse_rlimit #"core infinity" a 4%nat = (None, None) /\ parse_rlimit #"soft core 12x" a 4%nat = (Some 64, Some 64).
Proof. repeat split; reflexivity. Qed.

(** ** C27: templates *)

Theorem template_replaces : forall name line n, name <> [] -> ~ In "%"%char name -> (List.length line < n)%nat ->
  instantiate n name line = Some (replace_i name line).
Proof. intros name line n A B. exact (instantiate_lem name line A B n). Qed.
Print Assumptions template_replaces.
(** Whatever the name, the loop ends, ... *)
Theorem template_ends : forall name line n, (List.length line < n)%nat -> instantiate n name line <> None.
Proof. exact instantiate_ends_lem. Qed.
Print Assumptions template_ends.
(** ... and at every turn of it the line and its terminator fit the buffer. *)
Theorem template_fits : forall name line e s pos, name <> [] -> inst_reach name line e s pos ->
  (List.length s + 1 <= inst_capacity name line)%nat.
Proof. exact instantiate_fits_lem. Qed.
Print Assumptions template_fits.
(** With a '%' at the end of the name, text of the line is taken for "%i". *)
Theorem template_refuted : exists name line, name <> [] /\ instantiate 20 name line <> Some (replace_i name line).
Proof. exists #"%", #"x%ii". split; discriminate. Qed.
Print Assumptions template_refuted.
Example template_ex : instantiate 40 #"eth0" #"run -i %i --x=%i%% %" = Some #"run -i eth0 --x=eth0%% %".
Proof. reflexivity. Qed.

(** ** C31: pid files *)

(** pid:NAME and pid:!NAME: /run/NAME.pid; '!' (the daemon writes it, finit
    does not) is kept, and set for forking services. *)
Theorem pid_name : forall forking old (bang : bool) name,
  name <> [] -> ~ In "/"%char name -> (bang = false -> forall r, name <> "!"%char :: r) -> (List.length name <= 49)%nat ->
  exists file, (file = name /\ (exists r, name = r ++ #".pid") \/ file = name ++ #".pid" /\ ~ (exists r, name = r ++ #".pid")) /\
  pid_file_parse forking old (#"pid:" ++ (if bang then "!"%char :: name else name)) =
  PidSet (if bang || forking then "!"%char :: #"/run/" ++ file else #"/run/" ++ file).
Proof. exact pid_name_lem. Qed.
Print Assumptions pid_name.
(** pid:/run/FILE, pid:/var/run/FILE, with or without '!' *)
Theorem pid_path : forall forking old (bang : bool) pre file,
  (pre = [] \/ pre = #"/var") -> clean_path (pre ++ #"/run/" ++ file) -> (List.length file <= 249)%nat ->
  pid_file_parse forking old (#"pid:" ++ (if bang then "!"%char :: pre ++ #"/run/" ++ file else pre ++ #"/run/" ++ file)) =
  PidSet (if bang || forking then "!"%char :: #"/run/" ++ file else #"/run/" ++ file).
Proof. exact pid_path_lem. Qed.
Print Assumptions pid_path.
(** A path elsewhere is moved under /run, and a long name makes finit read
    outside of its buffer. *)
Theorem pid_path_refuted :
  pid_file_parse false [] #"pid:/tmp/foo.pid" = PidSet #"/run/tmp/foo.pid" /\
  exists name, ~ In "/"%char name /\ pid_file_parse false [] (#"pid:" ++ name) = PidOverread.
Proof.
  split; [reflexivity|]. exists (repeat "a"%char 60). split; [|reflexivity]. intros H. apply repeat_spec in H. discriminate.
Qed.
Print Assumptions pid_path_refuted.
Example pid_ex : pid_file_parse false [] #"pid:!foo" = PidSet #"!/run/foo.pid" /\ pid_file_parse true [] #"pid:/var/run/x/y" = PidSet #"!/run/x/y"
  /\ clean_path (#"/var" ++ #"/run/" ++ #"x").
Proof.
  split; [reflexivity|]. split; [reflexivity|]. apply clean_run; [auto| | |discriminate].
  - cbn. intuition discriminate.
  - intros [|a [|b r]]; discriminate.
Qed.

(** ** C43: path normalisation cannot be made to climb *)
Theorem no_climbing : forall s,
  (forall a b, de_dotdot s <> a ++ #"/../" ++ b) /\ (forall r, de_dotdot s <> #"../" ++ r) /\
  (forall a b, de_dotdot s <> a ++ #"//" ++ b).
Proof. exact de_dotdot_safe. Qed.
Print Assumptions no_climbing.
Theorem clean_path_kept : forall s, clean_path s -> de_dotdot s = s.
Proof. exact de_dotdot_id. Qed.
Print Assumptions clean_path_kept.
(** A ".." at the end may survive, and an absolute path may become relative. *)
Theorem no_climbing_end_refuted : de_dotdot #"a/.." = #"a/.." /\ de_dotdot #"/../x" = #"x".
Proof. split; reflexivity. Qed.
Print Assumptions no_climbing_end_refuted.
(** "." and ".." are resolved component by component. *)
Theorem dotdot_resolved : forall cs, Forall component cs -> cs <> [] -> last cs [] <> #"." -> last cs [] <> #".." ->
  de_dotdot (slashed cs) = slashed (resolve [] cs).
Proof. exact dotdot_relative_lem. Qed.
Print Assumptions dotdot_resolved.
(** The same from the root directory, if the path does not try to climb above it. *)
Theorem dotdot_resolved_root : forall cs, Forall component cs -> cs <> [] -> last cs [] <> #"." -> last cs [] <> #".." ->
  inside 0 cs = true -> de_dotdot ("/"%char :: slashed cs) = "/"%char :: slashed (resolve [] cs).
Proof. exact dotdot_absolute_lem. Qed.
Print Assumptions dotdot_resolved_root.
Example dotdot_resolved_ex :
  slashed (resolve [] [#"run"; #"a"; #".."; #"."; #"b"; #"c"]) = #"run/b/c" /\
  inside 0 [#"run"; #"a"; #".."; #"."; #"b"; #"c"] = true.
Proof. split; reflexivity. Qed.
Example no_climbing_ex : de_dotdot #"./../../etc/../run/./x//y/../z" = #"run/x/z".
Proof. reflexivity. Qed.

(** ** C33: time-outs *)

Theorem killdelay_range : forall old s n, parse_killdelay old s = n <->
  (exists v, number s v /\ 1 <= v <= 300 /\ n = 1000 * v) \/ (~ (exists v, number s v /\ 1 <= v <= 300)) /\ n = old.
Proof. exact killdelay_lem. Qed.
Print Assumptions killdelay_range.
(** pre:N,/script and the like, for scripts without quotes *)
Theorem script_timeout : forall kd found len t0 a b v,
  ~ In ","%char a -> number a v -> 0 <= v <= 3600 -> ~ In "'"%char b -> ~ In """"%char b -> found b = true -> (List.length b < len)%nat ->
  parse_script kd found len (Some t0) (a ++ ","%char :: b) = ScriptSet (Some (1000 * v)) b.
Proof. exact script_timeout_lem. Qed.
Print Assumptions script_timeout.
Theorem script_no_timeout : forall kd found len tmo b,
  ~ In ","%char b -> ~ In "'"%char b -> ~ In """"%char b -> found b = true -> (List.length b < len)%nat ->
  parse_script kd found len tmo b = ScriptSet (match tmo with Some _ => Some kd | None => None end) b.
Proof. exact script_plain_lem. Qed.
Print Assumptions script_no_timeout.
Theorem script_timeout_range : forall kd found len t0 s t p,
  parse_script kd found len (Some t0) s = ScriptSet (Some t) p ->
  t = t0 \/ t = kd \/ exists v, 0 <= v <= 3600 /\ t = 1000 * v.
Proof. exact script_range_lem. Qed.
Print Assumptions script_timeout_range.
(** stop: and reload: have no time-out; giving one is a null pointer write. *)
Theorem script_timeout_refuted : exists s, parse_script 3000 (fun _ => true) 256 None s = ScriptNullWrite.
Proof. exists #"5,/bin/stop". reflexivity. Qed.
Print Assumptions script_timeout_refuted.
Example killdelay_ex : parse_killdelay 3000 #"10" = 10000 /\ parse_killdelay 3000 #"301" = 3000 /\
  parse_script 3000 (fun _ => true) 256 (Some 0) #"7,/bin/pre" = ScriptSet (Some 7000) #"/bin/pre".
Proof. repeat split; reflexivity. Qed.

(** ** C36: sizes *)
Theorem size_suffixes : forall d n suf mult, digits_value d n -> size_suffix suf mult -> n * mult <= 2147483647 ->
  strtobytes (d ++ suf) = Int (n * mult).
Proof. exact strtobytes_lem. Qed.
Print Assumptions size_suffixes.
Theorem size_suffixes_refuted : strtobytes #"3G" = IntUB.
Proof. reflexivity. Qed.
Print Assumptions size_suffixes_refuted.
Example size_ex : strtobytes #"200k" = Int 200000 /\ strtobytes #"2x" = Int (-1).
Proof. split; reflexivity. Qed.

(** ** C44: arguments of a command *)
(** Without quotes: the words, cut at 63 characters, at most 62 of them. *)
Theorem command_args : forall cmd rest ws,
  tokens (eq " "%char) rest ws -> (List.length ws <= 62)%nat -> Forall (fun w => forall q r, w = q :: r -> ~ quote q) ws ->
  cmdline_args cmd rest = map (firstn 63) (cmd :: ws).
Proof. exact cmdline_lem. Qed.
Print Assumptions command_args.
(** Words from one that starts with a quote to the next that ends with it are
    one argument, quotes included and with single blanks in between. *)
Theorem command_args_quoted : forall cmd rest ws args, tokens (eq " "%char) rest ws -> arguments ws args ->
  (List.length args <= 62)%nat -> Forall (fun a => (List.length a <= 63)%nat) args ->
  cmdline_args cmd rest = firstn 63 cmd :: args.
Proof. exact cmdline_quoted_lem. Qed.
Print Assumptions command_args_quoted.
Example command_args_quoted_ex : arguments [#"-c"; #"'echo"; #"hi'"; #"x"] [#"-c"; #"'echo hi'"; #"x"].
Proof.
  assert (N : forall w, isquote (hd "000"%char w) = false -> ~ quote (hd "000"%char w)).
  { intros w H Q. apply isquote_iff in Q. unfold isquote in H. congruence. }
  apply args_plain; [apply N; reflexivity|].
  apply (args_quoted "'"%char [#"'echo"; #"hi'"] [#"x"] [#"x"]).
  - apply qw_more; [left; reflexivity|reflexivity|discriminate|]. apply qr_last; [apply N; reflexivity|reflexivity].
  - apply args_plain; [apply N; reflexivity|constructor].
Qed.
(** Blanks inside quotes collapse, and a quote of the other kind at the start of
    a word changes which quote ends the argument. *)
Theorem command_args_quoted_refuted :
  cmdline_args #"x" #"'a  b'" = [#"x"; #"'a b'"] /\
  cmdline_args #"x" (#"'a " ++ """"%char :: #"b' c") = [#"x"].
Proof. split; vm_compute; reflexivity. Qed.
Print Assumptions command_args_quoted_refuted.
(** Longer arguments are cut without notice, arguments after the 62nd dropped,
    and so is an argument with an unterminated quote. *)
Theorem command_args_refuted :
  (exists w, ~ In " "%char w /\ ~ In w (cmdline_args #"x" w)) /\
  cmdline_args #"x" (List.concat (repeat #"a " 70)) = #"x" :: repeat #"a" 62 /\
  cmdline_args #"x" #"'a b" = [#"x"].
Proof.
  split; [|split; vm_compute; reflexivity]. exists (repeat "a"%char 64). split.
  - intros H. apply repeat_spec in H. discriminate.
  - intros H. vm_compute in H. intuition discriminate.
Qed.
Print Assumptions command_args_refuted.
Example command_args_ex : cmdline_args #"/bin/sh" #"-c  'echo hi' x" = [#"/bin/sh"; #"-c"; #"'echo hi'"; #"x"].
Proof. reflexivity. Qed.

(** ** C45: derived names *)
Theorem derived_name : forall dir base, dir <> [] -> ~ In " "%char dir -> ~ In "/"%char base -> ~ In " "%char base ->
  parse_name (dir ++ "/"%char :: base) None = base.
Proof. exact name_lem. Qed.
Print Assumptions derived_name.
Theorem derived_name_plain : forall cmd, cmd <> [] -> ~ In "/"%char cmd -> ~ In " "%char cmd -> parse_name cmd None = cmd.
Proof. exact name_plain_lem. Qed.
Print Assumptions derived_name_plain.
(** a program in the root directory keeps its slash *)
Theorem derived_name_refuted : exists base, ~ In "/"%char base /\ parse_name ("/"%char :: base) None <> base.
Proof. exists #"init". split; [cbn; intuition discriminate|discriminate]. Qed.
Print Assumptions derived_name_refuted.
Example derived_name_ex : parse_name #"/usr/sbin/sshd" None = #"sshd" /\ parse_name #"/usr/sbin/sshd" (Some #"name:Ssh") = #"Ssh".
Proof. split; reflexivity. Qed.
