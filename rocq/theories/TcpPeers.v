(** Neighbours learnt from incoming TCPCL sessions, next to everything else that
    happens to the table of neighbours (Peers.v). *)
From stdpp Require Import prelude strings pretty gmap.
From Coq Require Import NArith Lia.
From Verif Require Import Core Peers.
Open Scope N_scope.

(** cla/tcp/mod.rs:564-573: the neighbour behind a connection accepted from
    [ip]:[port] *)
Definition session_peer (now : N) (e : eid) (ip : string) (port : N) : peer :=
  peer_new now e (AIp ip) false None [("tcp", Some port)] [].
(** cla/tcp/mod.rs:559-575 of connect, after the handshake (TcpclLink.v greet):
    [None] if the node id has no node part (the unwrap panics and the session does
    not start).  Simplified: peers_known and peers_add take the lock one
    after the other, here it is one step. *)
Definition session_start (now : N) (e : eid) (ip : string) (port : N) (m : peers) : option peers :=
  match eid_node e with
  | None => None
  | Some n => Some (if peers_known n m then m else <[n := session_peer now e ip port]> m)
  end.

(** The accepted sessions that are open, by address of the other side
    (cla/tcp/mod.rs:59, 621), and the table *)
Record tstate := TState { t_peers : peers; t_open : list (string * N * eid) }.
Inductive tev := TStart (now : N) (e : eid) (ip : string) (port : N) | TEnd (ip : string) (port : N) | TOp (o : pop).
(** Bundles and keepalives that arrive on a session do not touch the table: peers_touch
    is called for beacons only (ipnd/neighbour_discovery.rs:58). *)
Definition tstep (s : tstate) (x : tev) : tstate :=
  match x with
  | TStart now e ip port =>
      match session_start now e ip port (t_peers s) with
      | Some m => TState m ((ip, port, e) :: t_open s)
      | None => s
      end
  | TEnd ip port => TState (t_peers s) (filter (fun y => fst y <> (ip, port)) (t_open s))
  | TOp o => TState (pstep (t_peers s) o) (t_open s)
  end.
Definition trun (h : list tev) (s : tstate) : tstate := fold_left tstep h s.
Definition tstart : tstate := TState ∅ [].
