(** Peers, the peer table and convergence layer selection (core/peer.rs,
    lib.rs:115-168, core/mod.rs:119-141, core/processing.rs:368-398,
    ipnd/neighbour_discovery.rs:30-61). *)
From Verif Require Import Core.
From stdpp Require Import prelude strings pretty gmap.
From Coq Require Import NArith Lia.
Open Scope N_scope.

(** core/peer.rs:28-35; an IP address is represented by its text *)
Inductive paddr := AIp (a : string) | ABroadcast (domain a : string) | AGeneric (a : string).
(** core/peer.rs:48-56 *)
Definition addr_string (a : paddr) : string :=
  match a with AIp a => a | ABroadcast d a => d +:+ "/" +:+ a | AGeneric a => a end.
(** core/peer.rs:59-68.  [pe_last] in seconds.  [pe_period] in seconds: the only
    source of a period is a beacon, which carries whole seconds
    (ipnd/beacon.rs:206, 275, 281). *)
Record peer := Peer {
  pe_eid : eid; pe_addr : paddr; pe_static : bool; pe_period : option N;
  pe_clas : list (string * option N); pe_services : list (N * string);
  pe_last : N; pe_fails : N
}.
(** core/peer.rs:154-156 *)
Definition node_name (p : peer) : string := node_or_empty (pe_eid p).
(** core/peer.rs:71-92 *)
Definition peer_new (now : N) (e : eid) (a : paddr) (static : bool) (period : option N)
    (clas : list (string * option N)) (services : list (N * string)) : peer :=
  Peer e a static period clas services now 0.
(** core/peer.rs:106-111 *)
Definition touch (now : N) (p : peer) : peer :=
  Peer (pe_eid p) (pe_addr p) (pe_static p) (pe_period p) (pe_clas p) (pe_services p) now (pe_fails p).
(** core/peer.rs:183-193; [fails] is a u16 (wrapping in release builds) *)
Definition report_fail (p : peer) : peer :=
  Peer (pe_eid p) (pe_addr p) (pe_static p) (pe_period p) (pe_clas p) (pe_services p) (pe_last p) ((pe_fails p + 1) mod 2^16).
Definition failed_too_much (p : peer) : bool := 3 <? pe_fails p.

(** the two settings still_valid consults: peer_timeout in seconds, and
    whether it was set by the user *)
Record pconf := PConf { pc_timeout : N; pc_custom : bool }.
(** core/peer.rs:128-151; u64 arithmetic *)
Definition still_valid (cf : pconf) (now : N) (p : peer) : bool :=
  if pe_static p then true
  else
    match pe_period p with
    | Some secs =>
        if pc_custom cf && (0 <? pc_timeout cf)
        then (now + 2^64 - pe_last p) mod 2^64 <? pc_timeout cf
        else (now + 2^64 - pe_last p) mod 2^64 <? (secs * 2) mod 2^64
    | None => (now + 2^64 - pe_last p) mod 2^64 <? pc_timeout cf
    end.

(** A running convergence layer: its command channel, name, whether it can
    send, and its port (cla/mod.rs:73-86) *)
Record cla := Cla { cl_chan : N; cl_name : string; cl_accepting : bool; cl_port : N }.
(** ClaSenderTask, cla/mod.rs:50-56 *)
Record sender := Sender { sd_chan : N; sd_dest : string; sd_cla : string; sd_hop : eid }.
Definition dest_string (a : paddr) (port : N) : string := addr_string a +:+ ":" +:+ pretty port.
(** core/peer.rs:158-177 *)
Definition try_cla (p : peer) (want : string * option N) (c : cla) : option sender :=
  if bool_decide (fst want = cl_name c) && cl_accepting c
  then Some (Sender (cl_chan c) (dest_string (pe_addr p) (default (cl_port c) (snd want))) (cl_name c) (pe_eid p))
  else None.
Fixpoint first_some {A B} (f : A -> option B) (l : list A) : option B :=
  match l with [] => None | a :: l => match f a with Some b => Some b | None => first_some f l end end.
Definition first_cla (clas : list cla) (p : peer) : option sender :=
  first_some (fun want => first_some (try_cla p want) clas) (pe_clas p).

(** ** The table (lib.rs:36, a BTreeMap keyed by node name) *)
Notation peers := (gmap string peer).
(** lib.rs:118-122 peers_add; [None]: the unwrap of a peer without node name
    panics *)
Definition peers_add (p : peer) (m : peers) : option (peers * bool) :=
  match eid_node (pe_eid p) with
  | None => None
  | Some n => Some (<[n := p]> m, bool_decide (m !! n = None))
  end.
(** lib.rs:124-143 *)
Definition peers_remove (n : string) (m : peers) : peers := delete n m.
Definition peers_known (n : string) (m : peers) : bool := bool_decide (is_Some (m !! n)).
Definition peers_touch (now : N) (n : string) (m : peers) : peers := alter (touch now) n m.
(** lib.rs:144-151 peers_get_for_node and 155-160 peers_cla_for_node.  The
    BTreeMap is iterated in key order; [peer_list] is some order and no
    theorem depends on which. *)
Definition peer_list (m : peers) : list peer := map snd (map_to_list m).
Definition peers_get_for_node (e : eid) (m : peers) : option peer :=
  first_some (fun p => if bool_decide (node_name p = node_or_empty e) then Some p else None) (peer_list m).
Definition peers_cla_for_node (clas : list cla) (e : eid) (m : peers) : option sender :=
  match peers_get_for_node e m with Some p => first_cla clas p | None => None end.
(** core/mod.rs:120-141 process_peers: the new table and the ids routing is
    notified about *)
Definition process_peers (cf : pconf) (now : N) (m : peers) : peers * list eid :=
  (filter (fun x => pe_static (snd x) || still_valid cf now (snd x) = true) m,
   map (fun x => pe_eid (snd x)) (filter (fun x => still_valid cf now (snd x) = false) (map_to_list m))).
(** core/processing.rs:381-398: a transfer to node [n] failed *)
Definition transfer_failed (n : string) (m : peers) : peers :=
  match m !! n with
  | None => m
  | Some p =>
      let p' := report_fail p in
      let m' := <[n := p']> m in
      if failed_too_much p' && negb (pe_static p') then delete (node_name p') m' else m'
  end.
(** ipnd/neighbour_discovery.rs:30-61: what a received beacon does to the
    table.  [self] is this node's id. *)
Record beacon_info := BeaconInfo { bi_eid : eid; bi_period : option N; bi_clas : list (string * option N); bi_services : list (N * string) }.
Definition beacon_peer (now : N) (ip : string) (b : beacon_info) : peer :=
  peer_new now (bi_eid b) (AIp ip) false (bi_period b) (bi_clas b) (bi_services b).
Definition receive_beacon (self : eid) (now : N) (ip : string) (b : beacon_info) (m : peers) : option peers :=
  if bool_decide (bi_eid b = self) then Some m
  else match peers_add (beacon_peer now ip b) m with
       | None => None
       | Some (m', true) => Some m'
       | Some (m', false) => Some (peers_touch now (default "" (eid_node (bi_eid b))) m')
       end.

(** Histories.  [PAdd] covers static peers at start-up (bin/dtnd.rs), the
    HTTP CLA and external convergence layers; a panicking addition leaves the
    table as it was (the lock is a parking_lot mutex and is released). *)
Inductive pop :=
| PAdd (p : peer) | PRemove (n : string) | PTouch (now : N) (n : string) | PClear
| PFail (n : string) | PJanitor (cf : pconf) (now : N)
| PBeacon (self : eid) (now : N) (ip : string) (b : beacon_info).
Definition pstep (m : peers) (o : pop) : peers :=
  match o with
  | PAdd p => match peers_add p m with Some (m', _) => m' | None => m end
  | PRemove n => peers_remove n m
  | PTouch now n => peers_touch now n m
  | PClear => ∅
  | PFail n => transfer_failed n m
  | PJanitor cf now => fst (process_peers cf now m)
  | PBeacon self now ip b => default m (receive_beacon self now ip b m)
  end.
Definition prun (ops : list pop) (m : peers) : peers := fold_left pstep ops m.

(** The period a node with the given announcement interval (milliseconds)
    puts into its beacons: ipnd/neighbour_discovery.rs:81-86 with
    ipnd/beacon.rs:205-208 (as_secs). *)
Definition announced_period (interval : N) : N := interval / 1000.
