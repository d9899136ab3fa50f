(** How an external routing program learns about the neighbours: the table of
    the node, the notifications to the external routing agent (routing/external.rs),
    the packets to the program (routing/erouting/processing.rs, erouting/mod.rs) and
    the program itself (Erouter.v). *)
From stdpp Require Import prelude strings pretty gmap sorting.
From Coq Require Import NArith Lia.
From Verif Require Import Core Peers Routing External Erouter.
Open Scope N_scope.

(** routing/mod.rs:25-34 RoutingNotifcation, those about neighbours; the others
    are left out, they do not touch the table of the program (er_step) *)
Inductive note := NMet (e : eid) | NGone (e : eid).

(** What an operation on the table announces, in this order.
    ipnd/neighbour_discovery.rs:39-68: every beacon of another node;
    core/mod.rs:121-141 process_peers: whatever was dropped.
    Nothing is announced by lib.rs:118-143 (httpd.rs:371-415 peers added and removed
    by hand, daemon.rs:127, cla/tcp/mod.rs:564-574) and core/processing.rs:381-398
    (a neighbour given up after failed transfers). *)
Definition announced (m : peers) (o : pop) : list note :=
  match o with
  | PBeacon self now ip b =>
      if bool_decide (bi_eid b = self) then []
      else match receive_beacon self now ip b m with Some _ => [NMet (bi_eid b)] | None => [] end
  | PJanitor cf now => map NGone (snd (process_peers cf now m))
  | _ => []
  end.

(** [f_out]: for each operation so far the notifications it still has to hand over
    (lib.rs:254-260, one after the other, waiting for room in the channel);
    [f_chan]: the channel of the agent; [f_alive]: the agent's task runs;
    [f_link]: if a program is connected, the packets on the way to it;
    [f_prog]: the program, [None] once it has ended; [f_lost]: something could not
    be handed over because a channel was full. *)
Record feed := Feed { f_peers : peers; f_out : list (list note); f_chan : list note; f_alive : bool;
  f_link : option (list packet); f_prog : option router; f_lost : bool }.
Definition feed0 : feed := Feed ∅ [] [] true None None false.

(** erouting/mod.rs:53-82 from, for the two notifications; [None]: an unwrap panics *)
Definition packet_of (m : peers) (x : note) : option packet :=
  match x with
  | NMet e => match eid_node e, peers_get_for_node e m with Some _, Some q => Some (PEncountered e q) | _, _ => None end
  | NGone e => match eid_node e with Some _ => Some (PDropped e) | None => None end
  end.

(** [FTable o]: an operation on the table; [FModule p]: a beacon from an external
    convergence layer (cla/ecla/processing.rs:205-229); [FSend i]: the [i]th of these
    hands over its next notification; [FAgent kept]: the agent takes the next one,
    and there is room for the packet or not; [FConnect], [FClose]: a program connects,
    is disconnected; [FProg]: the program takes the next packet. *)
Inductive fev := FTable (o : pop) | FModule (p : peer) (kept : bool) | FSend (i : nat) | FAgent (kept : bool) | FConnect | FClose | FProg.
(** [None]: this cannot happen in this state *)
Definition fstep (st : strategy) (s : feed) (e : fev) : option feed :=
  let 'Feed m out chan alive link prog lost := s in
  match e with
  | FTable o => Some (Feed (pstep m o) (out ++ [announced m o]) chan alive link prog lost)
  | FModule p kept =>
      (* ecla/processing.rs:212-229: try_send *)
      match peers_add p m with
      | None => Some s
      | Some (m', _) =>
          if kept : bool then Some (Feed m' (out ++ [[NMet (pe_eid p)]]) chan alive link prog lost)
          else Some (Feed m' (out ++ [[]]) chan alive link prog true)
      end
  | FSend i =>
      match out !! i with
      | Some (x :: l) => Some (Feed m (<[i := l]> out) (if alive then chan ++ [x] else chan) alive link prog lost)
      | _ => None
      end
  | FAgent kept =>
      (* external.rs:26-47, erouting/processing.rs:144-159 *)
      match chan with
      | [] => None
      | x :: chan =>
          if negb alive then None
          else match packet_of m x with
               | None => Some (Feed m out [] false link prog lost)
               | Some k =>
                   match link with
                   | None => Some (Feed m out chan alive None prog lost)
                   | Some q => if kept : bool then Some (Feed m out chan alive (Some (q ++ [k])) prog lost)
                               else Some (Feed m out chan alive (Some q) prog true)
                   end
               end
      end
  | FConnect =>
      (* erouting/processing.rs:50-76; the service state is not read by the program *)
      match link with
      | Some _ => Some s
      | None => Some (Feed m out chan alive (Some [PPeerState m]) (Some er_start) lost)
      end
  | FClose => Some (Feed m out chan alive None None lost)      (* 138-146 *)
  | FProg =>
      match link, prog with
      | Some (k :: q), Some r =>
          match er_step st r k with
          | Some (r', _) => Some (Feed m out chan alive (Some q) (Some r') lost)
          | None => Some (Feed m out chan alive None None lost)
          end
      | _, _ => None
      end
  end.
Fixpoint fruns (st : strategy) (s : feed) (es : list fev) : option feed :=
  match es with
  | [] => Some s
  | e :: es => match fstep st s e with Some s' => fruns st s' es | None => None end
  end.
