(** The two external routing programs in Python that come with the daemon:
    examples/python/dtnerouting_firstcontact.py and dtnerouting_direct.py.
    External: websocket-client calls on_message for one text after the other, and
    an exception in it is logged and the program goes on with the next one. *)
From stdpp Require Import prelude strings pretty gmap sorting.
From Coq Require Import NArith Lia.
From Verif Require Import Core Peers Routing External Erouter.
Open Scope N_scope.

Inductive program := FirstContact | Direct.
(** firstcontact.py:13-17, direct.py:13-17: the dicts peers and delivered.  A
    dict read from JSON is gone through in the order of the text, which is that of
    the daemon's BTreeMap (Erouter.in_order). *)
Record pyst := Py { py_peers : peers; py_placed : gset string }.
Definition py_start : pyst := Py ∅ ∅.

(** firstcontact.py:76-88: list.index raises an exception if the
    layer is not in the list ([None]) *)
Definition py_clas (clas : list string) (q : peer) : option (list instr) :=
  if forallb (has_layer clas) (pe_clas q) then Some (map (er_sender q) (pe_clas q)) else None.
(** firstcontact.py:57-106 on_sender_for_bundle *)
Definition py_first (s : pyst) (clas : list string) (p : pack) : pyst * option response :=
  if bool_decide (p_id p ∈ py_placed s) then (s, None)
  else match in_order (py_peers s) with
       | [] => (s, None)
       | q :: _ =>
           match py_clas clas q with
           | None => (s, None)
           | Some l => (if bool_decide (l = []) then s else Py (py_peers s) ({[p_id p]} ∪ py_placed s), Some (Response p l false))
           end
       end.
(** direct.py:57-106 on_sender_for_bundle.  Line 76 asks a dict for an
    attribute, which raises an exception; so do lines 22-23 for an address that is
    no dtn address with a node. *)
Definition py_direct (s : pyst) (clas : list string) (p : pack) : pyst * option response :=
  if bool_decide (p_id p ∈ py_placed s) then (s, None)
  else match p_dst p with
       | Dtn n _ => match py_peers s !! n with
                    | Some _ => (s, None) (* print(target.eid) *)
                    | None => (s, None)
                    end
       | _ => (s, None)
       end.
(** firstcontact.py:35-49 on_message and 109-143, the same in direct.py.  The daemon calls the
    packets EncounteredPeer and DroppedPeer (erouting/mod.rs:41-44); the
    programs have entries for PeerEncountered and PeerDropped, so switcher.get
    returns None and calling it raises an exception.  The same goes for all
    packets without an entry.  del of a missing key raises, too. *)
Definition py_step (g : program) (s : pyst) (k : packet) : pyst * option response :=
  match k with
  | PPeerState m => (Py m (py_placed s), None)
  | PFailed id _ => (Py (py_peers s) (py_placed s ∖ {[id]}), None)
  | PTimeout p => (Py (py_peers s) (py_placed s ∖ {[p_id p]}), None)
  | PRequest clas p => match g with FirstContact => py_first s clas p | Direct => py_direct s clas p end
  | PEncountered _ _ | PDropped _ | PIncoming _ | PIncomingNoPrev _ _ | POther => (s, None)
  end.
(** the packets with what was sent back for each *)
Inductive py_ran (g : program) : list (packet * option response) -> pyst -> Prop :=
| py_nothing : py_ran g [] py_start
| py_more l s k s' r : py_ran g l s -> py_step g s k = (s', r) -> py_ran g (l ++ [(k, r)]) s'.
