(** C75: what is left from before is removed at boot. *)
From Coq Require Import List String Ascii Bool.
From Verif Require Import CStr CStrLib BootModel BootSpec BootProof.
Import ListNotations.

(** All that is in /tmp, /var/run and /var/lock is removed, directories after what is
    in them, if it is not on a tmpfs... *)
Theorem stale_removed : forall mounts tmp run lock t d k e m x, In t [tmp; run; lock] -> ~ on_tmpfs mounts t -> top_dir t = Some (d, k) -> inside d k e m x ->
  removed (clean mounts tmp run lock) e m x.
Proof. exact removed_ok. Qed.
(** ...and nothing else is, if there are no links to directories. *)
Theorem stale_only : forall mounts tmp run lock e m, (forall t d k, In t [tmp; run; lock] -> top_dir t = Some (d, k) -> no_dir_links k) ->
  In (e, m) (clean mounts tmp run lock) -> exists t d k x, In t [tmp; run; lock] /\ ~ on_tmpfs mounts t /\ top_dir t = Some (d, k) /\ inside d k e m x.
Proof. exact only_ok. Qed.
(** Claim that is false: nothing but what is in these directories is removed.  A link
    in one of them, to any directory, has all removed that is in that one. *)
Theorem stale_link_refuted : forall mounts tmp run lock s d k e m t j e' m' y, In s [tmp; run; lock] -> ~ on_tmpfs mounts s -> top_dir s = Some (d, k) ->
  inside d k e m (Link (Some (t, j))) -> inside t j e' m' y -> In (e', m') (clean mounts tmp run lock).
Proof. exact link_ok. Qed.

Definition nowhere : top := {| top_real := None; top_dir := None |}.
Definition old_tmp : entries := [(#"a", File); (#"d", Dir 2 [(#"b", File); (#"l", Link None)])].
Definition tmp_of (k : entries) : top := {| top_real := Some #"/tmp"; top_dir := Some (1, k) |}.
Example stale_removed_met : clean [(#"/", #"ext4"); (#"/run", #"tmpfs")] (tmp_of old_tmp) nowhere nowhere = [(1, #"a"); (2, #"b"); (2, #"l"); (1, #"d")] /\
  inside 1 old_tmp 2 #"b" File /\ ~ on_tmpfs [(#"/", #"ext4"); (#"/run", #"tmpfs")] (tmp_of old_tmp).
Proof.
  split; [reflexivity|]. split.
  - apply (in_sub 1 old_tmp #"d" 2 [(#"b", File); (#"l", Link None)]); [right; left; reflexivity|apply in_here; left; reflexivity].
  - rewrite <- tmpfs_iff. discriminate.
Qed.
Example stale_tmpfs_met : clean [(#"/", #"ext4"); (#"/tmp", #"tmpfs")] (tmp_of old_tmp) nowhere nowhere = [] /\ on_tmpfs [(#"/", #"ext4"); (#"/tmp", #"tmpfs")] (tmp_of old_tmp).
Proof. split; [reflexivity|]. apply tmpfs_iff. reflexivity. Qed.
Example stale_only_met : no_dir_links [(#"a", File); (#"l", Link None)].
Proof.
  intros d e m to H. inversion H as [d0 k0 n x I E1 E2 E3 E4 E5|d0 k0 n t j e0 m0 x I J E1 E2 E3 E4 E5]; subst;
    cbn [In] in I; destruct I as [I|[I|[]]]; discriminate.
Qed.
(** /tmp/x is a link to /etc *)
Example stale_link_met : clean [(#"/", #"ext4")] (tmp_of [(#"x", Link (Some (9, [(#"passwd", File)])))]) nowhere nowhere = [(9, #"passwd"); (1, #"x")].
Proof. reflexivity. Qed.

Print Assumptions stale_removed.
Print Assumptions stale_only.
Print Assumptions stale_link_refuted.
