(** The external routing program that comes with the daemon:
    examples/dtnerouting.rs.  The daemon's side of the connection is
    External.v. *)
From stdpp Require Import prelude strings pretty gmap sorting.
From Coq Require Import NArith Lia.
From Verif Require Import Core Peers Routing External.
Open Scope N_scope.

(** What arrives from the daemon (dtn7-plus style packets,
    core/dtn7/src/routing/erouting/mod.rs Packet).  [PTimeout] carries the pack
    of the request, of which only the id is read.  [POther]: Error packets and
    everything the last arm of the match takes. *)
Inductive packet :=
| PPeerState (m : peers) | PEncountered (e : eid) (q : peer) | PDropped (e : eid)
| PFailed (id node : string) | PTimeout (p : pack)
| PIncoming (b : bundle) | PIncomingNoPrev (id node : string)
| PRequest (clas : list string) (p : pack) | POther.

(** 312-329: the accepted values of --type *)
Inductive strategy := Flooding | Epidemic.

(** the entries of a BTreeMap<String, _> are visited in the order of the keys *)
Definition key_le (x y : string * peer) : Prop := String.leb (fst x) (fst y) = true.
Global Instance key_le_dec x y : Decision (key_le x y).
Proof. unfold key_le. apply _. Defined.
Definition in_order (m : peers) : list peer := map snd (merge_sort key_le (map_to_list m)).

(** 92-97, 106-111, 127-132 *)
Definition er_sender (q : peer) (c : string * option N) : instr := Instr (pe_addr q) (snd c) (fst c) (pe_eid q).
(** Vec::contains *)
Definition has_layer (clas : list string) (c : string * option N) : bool := bool_decide (fst c ∈ clas).

(** 63-72 sending_timeout: the entry stays, empty *)
Definition er_timeout (h : hist) (id : string) : hist :=
  match h !! id with Some _ => <[id := ∅]> h | None => h end.
(** 79-114: the loop over the layers of one peer.  [None]: the unwrap of line
    82 panics.  The functions add (29-32), contains (34-45), sending_failed
    (47-55) and incoming_bundle (57-61) are those of routing/epidemic.rs. *)
Fixpoint er_layers (clas : list string) (p : pack) (q : peer) (cs : list (string * option N))
    (h : hist) (acc : list instr) (del : bool) : option (hist * list instr * bool) :=
  match cs with
  | [] => Some (h, acc, del)
  | c :: cs =>
      if has_layer clas c && negb (e_contains h (p_id p) (node_name q)) then
        let h' := e_add h (p_id p) (node_name q) in
        match eid_node (p_dst p) with
        | None => None
        | Some d =>
            if bool_decide (d = node_name q) then Some (h', [er_sender q c], true)
            else er_layers clas p q cs h' (acc ++ [er_sender q c]) del
        end
      else er_layers clas p q cs h acc del
  end.
(** 78-115: the loop over the peers.  The break of line 98 leaves the inner
    loop only. *)
Fixpoint er_peers (clas : list string) (p : pack) (ps : list peer)
    (h : hist) (acc : list instr) (del : bool) : option (hist * list instr * bool) :=
  match ps with
  | [] => Some (h, acc, del)
  | q :: ps =>
      match er_layers clas p q (pe_clas q) h acc del with
      | None => None
      | Some (h', acc', del') => er_peers clas p ps h' acc' del'
      end
  end.
(** 122-138 *)
Definition er_flood (clas : list string) (ps : list peer) : list instr :=
  flat_map (fun q => map (er_sender q) (filter (fun c => has_layer clas c = true) (pe_clas q))) ps.

(** 12-14 and 170 *)
Record router := Router { er_table : peers; er_hist : hist }.
Definition er_start : router := Router ∅ ∅.
Definition upd_hist (f : hist -> hist) (st : strategy) (s : router) : router :=
  match st with Epidemic => Router (er_table s) (f (er_hist s)) | Flooding => s end.
(** 175-259: one packet; the new state and what is sent back.  [None]: the task
    panics and the program ends (262-264).  That the channel to the websocket
    client (250-255) is gone is not modelled: the answer is handed over. *)
Definition er_step (st : strategy) (s : router) (k : packet) : option (router * option response) :=
  match k with
  | PPeerState m => Some (Router m (er_hist s), None)
  | PEncountered e q =>
      match eid_node e with
      | Some n => Some (Router (<[n := q]> (er_table s)) (er_hist s), None)
      | None => None
      end
  | PDropped e =>
      match eid_node e with
      | Some n => Some (Router (delete n (er_table s)) (er_hist s), None)
      | None => None
      end
  | PFailed id n => Some (upd_hist (fun h => e_failed h id n) st s, None)
  | PTimeout p => Some (upd_hist (fun h => er_timeout h (p_id p)) st s, None)
  | PIncoming b =>
      Some (upd_hist (fun h => match previous_node b with
                               | Some e => match eid_node e with Some n => e_incoming h (bid b) n | None => h end
                               | None => h
                               end) st s, None)
  | PIncomingNoPrev id n => Some (upd_hist (fun h => e_incoming h id n) st s, None)
  | PRequest clas p =>
      match st with
      | Flooding => Some (s, Some (Response p (er_flood clas (in_order (er_table s))) false))
      | Epidemic =>
          match er_peers clas p (in_order (er_table s)) (er_hist s) [] false with
          | Some (h', ss, del) => Some (Router (er_table s) h', Some (Response p ss del))
          | None => None
          end
      end
  | POther => Some (s, None)
  end.
(** the loop 175-259: the packets with what was sent back for each *)
Fixpoint er_run (st : strategy) (s : option router) (ks : list packet) : list (packet * option response) :=
  match ks with
  | [] => []
  | k :: ks =>
      match s ≫= (fun s => er_step st s k) with
      | None => (k, None) :: er_run st None ks
      | Some (s', r) => (k, r) :: er_run st (Some s') ks
      end
  end.
Fixpoint er_state (st : strategy) (s : option router) (ks : list packet) : option router :=
  match ks with
  | [] => s
  | k :: ks => er_state st (fst <$> (s ≫= (fun s => er_step st s k))) ks
  end.
