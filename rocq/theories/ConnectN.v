(** The program that connects several daemons with each other:
    examples/dtnecla_connect_n.rs on top of cla/ecla/ws_client.rs.  Each daemon's
    side of its connection is Ecla.v. *)
From stdpp Require Import prelude strings pretty gmap.
From Coq Require Import Ascii NArith Lia.
From Verif Require Import Core Peers Ecla Config.
Open Scope N_scope.

(** How far serve of a client is (ws_client.rs:84-182): at 85-86, at 93-103 with
    the websocket open, past 107, not connected at all or over *)
Inductive cphase := CWait | COpen | CUp | CDown.
Global Instance cphase_eq_dec : EqDecision cphase.
Proof. solve_decision. Defined.
(** A client (dtnecla_connect_n.rs:47-71): [cl_conn] is its channel from the main
    loop (47), [cl_cmd] that of the websocket client (ws_client.rs:59), both hold
    100.  [cl_sent]: the packets written to its daemon. *)
Record client := Client { cl_conn : list packet; cl_cmd : list packet; cl_phase : cphase; cl_sent : list packet }.
(** The program; [h_rx]: the channel of 39 *)
Record hub := Hub { h_clients : list client; h_rx : list packet }.
(** Started for [n] daemons.  Simplified: ws_client::new accepts each address (56). *)
Definition hub0 (n : nat) : hub := Hub (replicate n (Client [] [] CWait [])) [].

Inductive hev :=
| HOpen (i : nat)                (* the websocket to daemon [i] is open *)
| HUp (i : nat)                  (* registration is queued, packets are written and read from now on *)
| HDown (i : nat)                (* the websocket could not be opened, or has ended *)
| HRelay (i : nat)               (* a packet moves to the channel of the websocket client *)
| HWrite (i : nat)               (* a packet is written to the daemon *)
| HNode (i : nat) (p : packet)   (* a packet from daemon [i] *)
| HTake.                         (* the main loop takes a packet *)

(** ws_client.rs:137-167 with the id of 55, the number of the client; None: not
    handed to the program *)
Definition tagged (i : nat) (p : packet) : option packet :=
  match p with
  | PForward _ dst id data => Some (PForward (pretty (N.of_nat i)) dst id data)
  | PRegistered _ _ => Some p
  | PBeacon e _ blk => Some (PBeacon e (pretty (N.of_nat i)) blk)
  | _ => None
  end.
(** 83-84 and 93: a number below that of the clients; usize has 64 bits *)
Definition client_no (n : nat) (s : string) : option nat :=
  match parse_uint (2^64) s with
  | Some k => if k <? N.of_nat n then Some (N.to_nat k) else None
  | None => None
  end.
(** 80-84 *)
Definition target (n : nat) (dst : string) : option nat := client_no n (default "" (head (split_at ":"%char dst))).
Definition room (l : list packet) : bool := (length l <? 100)%nat.
Definition push (p : packet) (c : client) : client := Client (cl_conn c ++ [p]) (cl_cmd c) (cl_phase c) (cl_sent c).
(** 94-102: try_send gives up when the channel is full *)
Definition announce (p : packet) (from : option nat) (i : nat) (c : client) : client :=
  if bool_decide (from = Some i) then c else if room (cl_conn c) then push p c else c.
(** [None]: not possible now; a task that waits for room in a channel does not
    run, the main loop waits at 85.  After [CDown] the tasks of 59-65 and
    ws_client.rs:107-121 go on: what they take is lost. *)
Definition hstep (e : hev) (h : hub) : option hub :=
  let '(Hub cs rx) := h in
  match e with
  | HOpen i =>                                                                   (* ws_client.rs:85-86 *)
      match cs !! i with
      | Some (Client conn cmd CWait sent) => Some (Hub (<[i := Client conn cmd COpen sent]> cs) rx)
      | _ => None
      end
  | HUp i =>                                                                     (* ws_client.rs:93-107 *)
      match cs !! i with
      | Some (Client conn cmd COpen sent) =>
          if room cmd then Some (Hub (<[i := Client conn (cmd ++ [PRegister "ConnectN" true None]) CUp sent]> cs) rx) else None
      | _ => None
      end
  | HDown i =>                                                                   (* ws_client.rs:86, 175 *)
      match cs !! i with
      | Some (Client conn cmd (CWait | CUp) sent) => Some (Hub (<[i := Client conn cmd CDown sent]> cs) rx)
      | _ => None
      end
  | HRelay i =>                                                                  (* 59-65 *)
      match cs !! i with
      | Some (Client (p :: conn) cmd CDown sent) => Some (Hub (<[i := Client conn cmd CDown sent]> cs) rx)
      | Some (Client (p :: conn) cmd ph sent) => if room cmd then Some (Hub (<[i := Client conn (cmd ++ [p]) ph sent]> cs) rx) else None
      | _ => None
      end
  | HWrite i =>                                                                  (* ws_client.rs:107-121 *)
      match cs !! i with
      | Some (Client conn (p :: cmd) CUp sent) => Some (Hub (<[i := Client conn cmd CUp (sent ++ [p])]> cs) rx)
      | Some (Client conn (p :: cmd) CDown sent) => Some (Hub (<[i := Client conn cmd CDown sent]> cs) rx)
      | _ => None
      end
  | HNode i p =>                                                                 (* ws_client.rs:126-169 *)
      match cs !! i with
      | Some (Client _ _ CUp _) =>
          match tagged i p with
          | Some q => if room rx then Some (Hub cs (rx ++ [q])) else None
          | None => Some h
          end
      | _ => None
      end
  | HTake =>                                                                     (* 77-106 *)
      match rx with
      | PForward src dst id data :: rx =>
          match target (length cs) dst with
          | Some k =>
              match cs !! k with
              | Some c => if room (cl_conn c) then Some (Hub (<[k := push (PForward src dst id data) c]> cs) rx) else None
              | None => None
              end
          | None => Some (Hub cs rx)
          end
      | PBeacon e addr blk :: rx => Some (Hub (imap (announce (PBeacon e addr blk) (client_no (length cs) addr)) cs) rx)
      | _ :: rx => Some (Hub cs rx)
      | [] => None
      end
  end.
Fixpoint hrun (es : list hev) (h : hub) : option hub :=
  match es with [] => Some h | e :: es => h' ← hstep e h; hrun es h' end.
