(** C52: bootstrap waits for its tasks, and ends. *)
From Coq Require Import List String Ascii ZArith NArith Bool Lia Arith.
From Verif Require Import CondModel CoreTypes CoreModel CoreTame CoreLib CoreSpec CoreEx CoreSpecE CoreSpecH CoreBootC.
Import ListNotations.
Local Open Scope Z_scope.

(** Bootstrap is left without a timeout only once every run and task that may start,
    has no active conflict and does not wait for the end of bootstrap itself, has run
    and its process has ended; or was declared not to be waited for. *)
Theorem boot_waits : forall n evs cfgl cmdl w c older s,
  history n evs cfgl cmdl w -> happened w c (EBooted false) older -> holds_up c s ->
  declared_nowait evs s \/ has_run older (s_key s).
Proof. exact boot_waits_lem. Qed.
Print Assumptions boot_waits.

(** It is left because of the timeout only at the 121st check or later ... *)
Theorem boot_timeout : forall n evs cfgl cmdl w c older,
  history n evs cfgl cmdl w -> happened w c (EBooted true) older -> (120 < checks evs)%nat.
Proof. intros n evs cfgl cmdl w c older Hh. exact (boot_timeout_lem n evs cfgl cmdl w Hh c older). Qed.
Print Assumptions boot_timeout.

(** ... and after 121 checks it has been left, whatever the tasks do, unless the system
    was shut down before. *)
Theorem boot_ends : forall n evs cfgl cmdl w,
  history n evs cfgl cmdl w -> (120 < checks evs)%nat -> ~ over w ->
  exists c b older, happened w c (EBooted b) older.
Proof. exact boot_ends_lem. Qed.
Print Assumptions boot_ends.

(** It is left at the first check that finds everything complete: after a check that
    did not end it, there is a run or task that may start and has not run yet. *)
Theorem boot_complete : forall n evs cfgl cmdl w,
  history n (evs ++ [EvBootCheck]) cfgl cmdl w -> ~ over w -> (forall c b older, ~ happened w c (EBooted b) older) ->
  exists s, In s (k_svcs (wc w)) /\ a_task s /\ may_start (wc w) s /\ ~ for_later s /\ s_once s = 0.
Proof. exact boot_complete_lem. Qed.
Print Assumptions boot_complete.

(** It is left once only. *)
Theorem boot_once : forall n evs cfgl cmdl w, history n evs cfgl cmdl w ->
  forall c1 b1 o1 c2 b2 o2, happened w c1 (EBooted b1) o1 -> happened w c2 (EBooted b2) o2 -> c1 = c2 /\ b1 = b2 /\ o1 = o2.
Proof. exact boot_once_lem. Qed.
Print Assumptions boot_once.

(** Then, as part of the same check, the runlevel given on the kernel's command line is
    asked for, or else the configured one ... *)
Theorem boot_resumes : forall n evs cfgl cmdl w c b older,
  history n evs cfgl cmdl w -> happened w c (EBooted b) older ->
  exists before after w1 w2 newer c2 mid, evs = before ++ EvBootCheck :: after /\ history n before cfgl cmdl w1 /\
    on_event n EvBootCheck w1 = Some (tt, w2) /\
    wl w2 = newer ++ (c2, EAsk (if k_cmdl c =? 0 then k_cfgl c else k_cmdl c)) :: mid ++ (c, EBooted b) :: older.
Proof. exact boot_resumes_lem. Qed.
Print Assumptions boot_resumes.

(** ... and a check never asks for a runlevel before. *)
Theorem boot_asks : forall n evs cfgl cmdl c l older,
  during n evs cfgl cmdl EvBootCheck c (EAsk l) older ->
  exists c1 b mid earlier, older = mid ++ (c1, EBooted b) :: earlier /\
    l = if k_cmdl c1 =? 0 then k_cfgl c1 else k_cmdl c1.
Proof. exact boot_asks_lem. Qed.
Print Assumptions boot_asks.

(** ** Cases that meet the hypotheses *)

(** run [S] r; task [S2] t; task [S] <!> n, which never ends; task [S] <hook/sys/up> h;
    service [2345] a.  The first two checks come to nothing, r and t end, the third
    check is the last. *)
Definition bt_conf : list cfg :=
  [stanza "r" TRun 1024 []; stanza "t" TTask 1028 []; set_c_sighup true (stanza "n" TTask 1024 []);
   stanza "h" TTask 1028 ["hook/sys/up"%string]; stanza "a" TService 60 []].
Definition bt_evs : list ev :=
  boots bt_conf [10;11;12;13;14] ++
  [EvWork; EvBootCheck; EvReap 10 (Exited 0); EvWork; EvBootCheck; EvReap 12 (Exited 0); EvReap 11 (Exited 1); EvWork].
Definition is_booted (b : bool) (x : eff) : bool := match x with EBooted d => Bool.eqb b d | _ => false end.
Example bt_waiting : result 60 bt_evs 2 0 (fun w =>
  negb (found (fun _ x _ => is_booted true x || is_booted false x) (wl w)) && (k_rl (wc w) =? 10) && (checks bt_evs =? 2)%nat) = true.
Proof. vm_compute. reflexivity. Qed.
Example bt_done : result 60 (bt_evs ++ [EvBootCheck; EvWork]) 2 0 (fun w =>
  found (fun c x l => is_booted false x &&
    found (fun _ y _ => match y with EState 0 Running Stopping => true | _ => false end) l &&
    found (fun _ y _ => match y with EState 1 Running Stopping => true | _ => false end) l) (wl w) &&
  found (fun _ x l => match x with EAsk 2 => found (fun _ y _ => is_booted false y) l | _ => false end) (wl w) &&
  (k_rl (wc w) =? 2)) = true.
Proof. vm_compute. reflexivity. Qed.

(** the same, but t never ends: 120 checks come to nothing, the next one is the last *)
Definition bt_long (k : nat) : list ev := boots bt_conf [10;11;12;13;14] ++ EvReap 10 (Exited 0) :: repeat EvBootCheck k.
Example bt_120 : result 60 (bt_long 120) 2 0 (fun w =>
  negb (found (fun _ x _ => is_booted true x || is_booted false x) (wl w)) && (k_rl (wc w) =? 10)) = true.
Proof. vm_compute. reflexivity. Qed.
Example bt_121 : result 60 (bt_long 121) 2 0 (fun w =>
  found (fun _ x _ => is_booted true x) (wl w) && (k_rl (wc w) =? 2) && negb (k_down (wc w))) = true.
Proof. vm_compute. reflexivity. Qed.
