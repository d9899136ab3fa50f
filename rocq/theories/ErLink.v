(** The websocket clients for external programs, cla/ecla/ws_client.rs and
    routing/erouting/ws_client.rs, and how examples/dtnerouting.rs uses the second
    one.  What the routing program does with a packet is Erouter.v. *)
From stdpp Require Import prelude strings pretty gmap.
From Coq Require Import NArith Lia Ascii.
From Verif Require Import Core Peers Routing External Erouter Config.
Open Scope N_scope.

(** ** Creating a client *)
Inductive created := Client (ip : string) (port : N) | Refused | Panicked.
(** cla/ecla/ws_client.rs:42-79 *)
Definition ecla_new (addr : string) : created :=
  match split_at ":"%char addr with
  | [ip; p] => match parse_uint 65536 p with Some n => Client ip n | None => Refused end
  | _ => Refused
  end.
(** routing/erouting/ws_client.rs:33-52 *)
Definition erouting_new (addr : string) : created :=
  match split_at ":"%char addr with
  | [ip; p] => match parse_uint 65536 p with Some n => Client ip n | None => Panicked end
  | _ => Refused
  end.

(** ** The routing program and its client *)
(** What comes over the websocket: a packet; text that is none; a message that is
    not UTF-8 text; an error of the websocket *)
Inductive message := MPacket (k : packet) | MText | MBinary | MError.
(** [rl_rx]: the channel of dtnerouting.rs:142, [rl_q1]: that of 143, [rl_q2]: that
    of ws_client.rs:43; all hold 100.  [rl_router]: the state of the loop of 175-259.
    [rl_up]: the websocket is open.  [rl_sent]: what was written to it.  [rl_over]:
    the program has ended.  Only recorded: [rl_in], the packets that came. *)
Record link := Link { rl_rx : list packet; rl_router : router; rl_q1 : list response; rl_q2 : list response; rl_up : bool; rl_sent : list response; rl_over : bool; rl_in : list packet }.
Definition link0 : link := Link [] er_start [] [] false [] false [].
Inductive lev :=
| LUp                  (* the websocket is open (ws_client.rs:57-58) *)
| LMessage (m : message)
| LHandle              (* the loop takes a packet *)
| LRelay               (* an answer moves to the client's channel (dtnerouting.rs:155-161) *)
| LWrite (ok : bool)   (* an answer is written; otherwise writing fails (ws_client.rs:66-80) *)
| LEnd.                (* the websocket has ended *)
(** [None]: not possible now.  The program ends with its client (dtnerouting.rs:
    163-165: the channel of 142 closes when the client is dropped) and when its
    loop panics (262-264).  Simplified: what is still in the channel of 142 then is
    not looked at any more; nobody sends Command::Close. *)
Definition stopped (s : link) : link := Link (rl_rx s) (rl_router s) (rl_q1 s) (rl_q2 s) (rl_up s) (rl_sent s) true (rl_in s).
Definition lstep (st : strategy) (e : lev) (s : link) : option link :=
  if rl_over s then None else
  let '(Link rx r q1 q2 up sent ov log) := s in
  match e with
  | LUp => if up then None else Some (Link rx r q1 q2 true sent ov log)
  | LMessage m =>                                                           (* ws_client.rs:83-99 *)
      if up then
        match m with
        | MPacket k => if (length rx <? 100)%nat then Some (Link (rx ++ [k]) r q1 q2 up sent ov (log ++ [k])) else None
        | MText | MError => Some s
        | MBinary => Some (stopped s)                                       (* 92: unwrap *)
        end
      else None
  | LHandle =>                                                              (* dtnerouting.rs:175-259 *)
      match rx with
      | k :: rx =>
          match er_step st r k with
          | None => Some (Link rx r q1 q2 up sent true log)
          | Some (r', None) => Some (Link rx r' q1 q2 up sent ov log)
          | Some (r', Some a) => if (length q1 <? 100)%nat then Some (Link rx r' (q1 ++ [a]) q2 up sent ov log) else None
          end
      | [] => None
      end
  | LRelay =>
      match q1 with
      | a :: q1 => if (length q2 <? 100)%nat then Some (Link rx r q1 (q2 ++ [a]) up sent ov log) else None
      | [] => None
      end
  | LWrite ok =>
      match q2 with
      | a :: q2 => if up then Some (Link rx r q1 q2 up (if ok then sent ++ [a] else sent) ov log) else None
      | [] => None
      end
  | LEnd => if up then Some (stopped s) else None
  end.
Fixpoint lrun (st : strategy) (es : list lev) (s : link) : option link :=
  match es with [] => Some s | e :: es => s' ← lstep st e s; lrun st es s' end.
