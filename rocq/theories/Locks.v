(** The shared tables of the node and the order in which its operations lock
    them: lib.rs:33-41 (parking_lot mutexes) and the mutexes of the convergence
    layers, routing and websocket sessions. *)
From stdpp Require Import prelude.

Inductive lk :=
| LConfig | LCore | LPeersT | LStats | LSender | LStore | LClas   (* lib.rs:34-40 *)
| LMtcp                       (* cla/mtcp.rs MTCP_CONNECTIONS *)
| LTcp                        (* cla/tcp/mod.rs TCP_CONNECTIONS (of tokio) *)
| LRouter | LResponses        (* routing/erouting/processing.rs:31-33 *)
| LModuleMap | LConnectorMap  (* cla/ecla/processing.rs MODULE_MAP, CONNECTORS_MAP *)
| LWsPeers | LTcpPeers        (* PEER_MAP of ecla/ws.rs and ecla/tcp.rs *)
| LSession (i : nat).         (* dtnd/ws.rs:60, one per websocket session (of tokio) *)
Global Instance lk_eq_dec : EqDecision lk.
Proof. solve_decision. Defined.

(** A critical section and those nested in it, in the order they are entered *)
Inductive sect := Sect (l : lk) (body : list sect).
Definition one (l : lk) : sect := Sect l [].

(** ** What the operations lock.  Branches and numbers of peers, modules etc. are
    parameters; work between critical sections and waiting for channels, timers
    and sockets is left out (no mutex of [lib.rs] is held meanwhile). *)
(** core/peer.rs:157-176 first_cla of a peer with [n] layers *)
Definition first_cla (n : nat) : list sect := replicate n (one LClas).
(** ecla/processing.rs:55-82 *)
Definition generate_beacon : list sect := [one LConfig; one LClas; one LCore].
Definition peer_map (tcp : bool) : lk := if tcp then LTcpPeers else LWsPeers.
(** ws.rs:56-70: before the packet is handled *)
Definition incoming (tcp : bool) : list sect := if tcp then [] else [one LWsPeers].
(** Commands of a websocket session (dtnd/ws.rs:210-448): the locks one takes *)
Inductive ws_part := WsConfig | WsCore | WsPop.
Definition ws_sect (p : ws_part) : sect :=
  match p with WsConfig => one LConfig | WsCore => one LCore | WsPop => Sect LCore [one LStore] end.

Inductive operation :=
(** Any function that locks one table at a time, as the accessors of lib.rs:45-275,
    the convergence layers mtcp.rs:230-250, tcp/mod.rs:493,621,646, httppull.rs,
    the announcer neighbour_discovery.rs:75-110, the functions of
    erouting/processing.rs, and web_peers and web_bundles (httpd.rs:175-245) *)
| Single (l : lk)
(** httpd.rs:143-169 GET /: the guard in the struct literal is held to the end *)
| Index
(** core/mod.rs:120-133: still_valid (peer.rs:129-149) of [n] dynamic peers *)
| Janitor (n : nat)
(** A routing agent chooses peers: epidemic.rs:86-106, flooding.rs:29-33,
    static_routing.rs:138-146, sprayandwait.rs:137-173; [ns]: the number of layers of
    each peer *)
| ChoosePeers (ns : list nat)
(** processing.rs:502-506, application_agent.rs:39-56 *)
| Deliver (subscribed : bool)
(** httpd.rs:618-640, 660-682 *)
| Poll
(** core/mod.rs:93-103 *)
| CoreReport
(** ws.rs:74-84, 136-144: a message of session [i]; its locks *)
| WsMessage (i : nat) (ps : list ws_part)
(** ecla/processing.rs:108-231 and ws.rs:56-70, tcp.rs:55-58 *)
| EclaRefused (tcp taken : bool)
| EclaRegistered (tcp : bool)
| EclaBeacon (tcp : bool)
| EclaBundle (tcp : bool)
(** ecla/processing.rs:235-259 *)
| EclaConnect (tcp : bool)
| EclaDisconnect (tcp active : bool)
(** ecla/processing.rs:89-104: the modules, by connector *)
| EclaAnnounce (ms : list bool)
(** ecla/processing.rs:262-292: the modules of the name *)
| EclaTransfer (ms : list bool).

Definition sections (o : operation) : list sect :=
  match o with
  | Single l => [one l]
  | Index => [one LConfig; one LConfig; one LConfig; one LStore; one LClas; Sect LConfig [one LPeersT; Sect LCore [one LStore]]]
  | Janitor n => [Sect LPeersT (replicate (2 * n) (one LConfig))]
  | ChoosePeers ns => [Sect LPeersT (concat (map first_cla ns))]
  | Deliver sub => [one LStore; Sect LCore ((if sub then [one LStore] else []) ++ [one LStats])]
  | Poll => [one LConfig; Sect LCore [one LStore]]
  | CoreReport => [Sect LCore [one LStore]]
  | WsMessage i ps => [Sect (LSession i) (map ws_sect ps)]
  | EclaRefused tcp taken => incoming tcp ++ [Sect LModuleMap [one LConnectorMap; Sect LConnectorMap ((if taken then [one LClas] else []) ++ [one (peer_map tcp); one (peer_map tcp)])]]
  | EclaRegistered tcp => incoming tcp ++ [Sect LModuleMap [one LConnectorMap; Sect LConnectorMap
      ([one LClas; one LClas; one LConfig; one LConfig; one (peer_map tcp)] ++ generate_beacon ++ [one (peer_map tcp)])]]
  | EclaBeacon tcp => incoming tcp ++ [Sect LModuleMap [one LConnectorMap; one LPeersT; one LCore]]
  | EclaBundle tcp => incoming tcp ++ [Sect LModuleMap [one LConnectorMap]]
  | EclaConnect tcp => [one (peer_map tcp); one LModuleMap]
  | EclaDisconnect tcp active => [Sect LModuleMap (if active then [one LClas] else []); one LModuleMap; one (peer_map tcp)]
  | EclaAnnounce ms => [Sect LModuleMap (map (fun tcp => Sect LConnectorMap (generate_beacon ++ [one (peer_map tcp)])) ms)]
  | EclaTransfer ms => [Sect LConnectorMap [Sect LModuleMap (map (fun tcp => one (peer_map tcp)) ms)]]
  end.

(** ** Threads *)
Inductive act := Acq (l : lk) | Rel (l : lk).
Fixpoint flat (s : sect) : list act :=
  match s with Sect l body => Acq l :: concat (map flat body) ++ [Rel l] end.
Definition program (os : list operation) : list act := concat (map flat (concat (map sections os))).
(** A thread: the locks it holds and what it still does *)
Record thread := Thread { th_held : list lk; th_todo : list act }.
Notation pool := (list thread).
Definition init (oss : list (list operation)) : pool := map (fun os => Thread [] (program os)) oss.
(** Nobody, also not the thread itself, holds [l]: the mutexes are not reentrant *)
Definition free (l : lk) (p : pool) : bool := forallb (fun t => bool_decide (l ∉ th_held t)) p.
(** Thread [i] goes on by one action; [None]: it waits or is done *)
Definition go (i : nat) (p : pool) : option pool :=
  match p !! i with
  | Some (Thread held (Acq l :: todo)) => if free l p then Some (<[i := Thread (l :: held) todo]> p) else None
  | Some (Thread held (Rel l :: todo)) => Some (<[i := Thread (remove lk_eq_dec l held) todo]> p)
  | _ => None
  end.
Inductive steps (p : pool) : pool -> Prop :=
| steps_nil : steps p p
| steps_go p1 i p2 : steps p p1 -> go i p1 = Some p2 -> steps p p2.
