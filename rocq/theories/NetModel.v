(** The netlink plugin: plugins/netlink.c.

    Messages are taken as already decoded: the size checks and the walk over
    attributes (RTA_OK) are not modelled, a link message is the list of its
    IFLA_IFNAME attributes.  The socket, and the answers of the kernel when the
    plugin asks again, are inputs. *)
From Coq Require Import List String Ascii NArith ZArith Bool.
From Verif Require Import CondModel CondSpec.
Import ListNotations.
Local Open Scope string_scope.
Local Open Scope Z_scope.

Inductive nmsg :=
| NNewLink (ifnames : list string) (up running : bool)
| NDelLink (ifnames : list string)
| NNewRoute (dst plen gw idx : Z)
| NDelRoute (dst plen gw idx : Z)
| NOther.

(** the condition store and nl_defidx, nl_ifdown (plugins/netlink.c:47-48) *)
Record nst := mkNst { n_cond : cstore; n_defidx : Z; n_ifdown : bool }.
Definition set_cond (c : cstore) (s : nst) : nst := mkNst c (n_defidx s) (n_ifdown s).

(** src/cond-w.c:325-332 cond_set, 376-383 cond_clear, without the stepping of
    services *)
Definition cset (n : string) (c : cstore) : cstore := snd (cond_set_nu c n).
Definition cclr (n : string) (c : cstore) : cstore := snd (cond_clear_nu c n).

(** plugins/netlink.c:119-128 net_cond_set *)
Definition net_cond (ifname cond : string) : string := "net/" ++ ifname ++ "/" ++ cond.
Definition net_cond_set (ifname cond : string) (set : bool) (c : cstore) : cstore :=
  if set then cset (net_cond ifname cond) c else cclr (net_cond ifname cond) c.

(** plugins/netlink.c:130-148 validate_ifname; true = valid.  The name was copied
    to IFNAMSIZ + 1 = 17 bytes, so one of 16 characters or more is refused. *)
Definition ifch (c : ascii) : bool :=
  negb (Ascii.eqb c "/" || Ascii.eqb c ":" || Ascii.eqb c " " ||
        (N.leb 9 (N_of_ascii c) && N.leb (N_of_ascii c) 13)).
Definition valid_ifname (n : string) : bool :=
  negb (String.eqb n "") && Nat.ltb (String.length n) 16 && negb (String.eqb n ".") && negb (String.eqb n "..") &&
  forallb ifch (list_ascii_of_string n).

(** plugins/netlink.c:155-161 nl_check_default; [idx] is what if_nametoindex gives,
    0 = no such interface *)
Definition nl_check_default (idx : string -> Z) (ifname : string) (s : nst) : nst :=
  if ((0 <? n_defidx s) && (n_defidx s =? idx ifname)) || (idx ifname =? 0)
  then mkNst (n_cond s) (n_defidx s) true else s.

(** plugins/netlink.c:163-224 nl_link *)
Definition nl_new1 (idx : string -> Z) (up running : bool) (s : nst) (n : string) : nst :=
  if negb (valid_ifname n) then s else
  let s := set_cond (net_cond_set n "running" running (net_cond_set n "up" up (net_cond_set n "exist" true (n_cond s)))) s in
  if negb up || negb running then nl_check_default idx n s else s.
Definition nl_del1 (idx : string -> Z) (s : nst) (n : string) : nst :=
  if negb (valid_ifname n) then s else
  nl_check_default idx n
    (set_cond (net_cond_set n "running" false (net_cond_set n "up" false (net_cond_set n "exist" false (n_cond s)))) s).
(** plugins/netlink.c:52-117 nl_route *)
Definition is_default (dst plen gw idx : Z) : bool :=
  ((dst =? 0) && (plen =? 0)) && (negb (gw =? 0) || negb (idx =? 0)).
Definition route_default : string := "net/route/default".
(** plugins/netlink.c:226-283 nl_parse, one message *)
Definition nl_msg (idx : string -> Z) (s : nst) (m : nmsg) : nst :=
  match m with
  | NNewLink ns up running => fold_left (nl_new1 idx up running) ns s
  | NDelLink ns => fold_left (nl_del1 idx) ns s
  | NNewRoute dst plen gw i => if is_default dst plen gw i then mkNst (cset route_default (n_cond s)) i (n_ifdown s) else s
  | NDelRoute dst plen gw i => if is_default dst plen gw i then mkNst (cclr route_default (n_cond s)) 0 (n_ifdown s) else s
  | NOther => s
  end.
Definition nl_parse (idx : string -> Z) (ms : list nmsg) (s : nst) : nst := fold_left (nl_msg idx) ms s.

(** src/cond-w.c:392-448: cond_reassert, cond_deassert.  The names given to cond_set
    have a slash in front, which makes no difference to the file. *)
Definition below_net (c : cstore) : list string := filter (String.prefix "net/") (map fst (ents c)).
Definition cond_reassert_net (c : cstore) : cstore := fold_left (fun c n => cset n c) (below_net c) c.
Definition cond_deassert_net (c : cstore) : cstore := fold_left (fun c n => cclr n c) (below_net c) c.

(** plugins/netlink.c:347-372 nl_resync; [links] and [routes] is what the kernel
    answers *)
Definition nl_resync (all : bool) (idx : string -> Z) (links routes : list nmsg) (s : nst) : nst :=
  if all then nl_parse idx routes (nl_parse idx links (set_cond (cond_deassert_net (n_cond s)) s))
  else nl_parse idx routes s.
(** plugins/netlink.c:375-403 nl_callback; [nobufs]: after the messages, recv()
    reports that some were lost *)
Definition nl_callback (idx : string -> Z) (ms : list nmsg) (nobufs : bool) (links routes : list nmsg) (s : nst) : nst :=
  let s := nl_parse idx ms s in
  if nobufs then nl_resync true idx links routes s
  else if n_ifdown s then
    let s := if 0 <? n_defidx s then
               let s := nl_resync false idx links routes (mkNst (n_cond s) 0 (n_ifdown s)) in
               if n_defidx s <=? 0 then mkNst (cclr route_default (n_cond s)) 0 (n_ifdown s) else s
             else s in
    mkNst (n_cond s) (n_defidx s) false
  else s.

(** what happens: the socket is readable; the configuration is reloaded (a new
    generation, then plugins/netlink.c:405-408 nl_reconf); somebody else uses a
    condition *)
Inductive nev :=
| NvRead (idx : string -> Z) (ms : list nmsg) (nobufs : bool) (links routes : list nmsg)
| NvReload
| NvSet (n : string) | NvOneshot (n : string) | NvClear (n : string).
Definition nl_event (s : nst) (e : nev) : nst :=
  match e with
  | NvRead idx ms nobufs links routes => nl_callback idx ms nobufs links routes s
  | NvReload => set_cond (cond_reassert_net (cond_reload (n_cond s))) s
  | NvSet n => set_cond (cset n (n_cond s)) s
  | NvOneshot n => set_cond (snd (cond_oneshot_nu (n_cond s) n)) s
  | NvClear n => set_cond (cclr n (n_cond s)) s
  end.
Definition nl_run (es : list nev) : nst := fold_left nl_event es (mkNst cond_init 0 false).
