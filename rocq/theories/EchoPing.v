(** The services for testing a connection, examples/dtnecho2.rs and
    examples/dtnping.rs, as clients of the websocket interface (Apps.v). *)
From stdpp Require Import prelude strings pretty gmap.
From Coq Require Import NArith Lia.
From Verif Require Import Core Apps Httpd Tools.
Open Scope N_scope.

Section echo.
(** serde_cbor::to_vec of a request to send *)
Context (enc_send : send_data -> list N).
(** dtnecho2.rs:101-111 *)
Definition echo_response (r : recv_data) : send_data := SendData (rd_dst r) (rd_src r) false 86400000 (rd_data r).
(** dtnecho2.rs:71-123: what it says after the messages [l]; a binary message that
    is not a received bundle in CBOR ends it (83-84) *)
Fixpoint echo_loop (l : list wsout) : list wsmsg :=
  match l with
  | [] => []
  | OText _ :: l | OPing :: l => echo_loop l
  | OData FCbor r :: l => MBin (enc_send (echo_response r)) :: echo_loop l
  | OData FJson _ :: _ | OBundle _ :: _ => []
  end.
(** dtnecho2.rs:53-70: the greeting; anything but the texts expected ends it *)
Definition echo_says (ep : string) (l : list wsout) : list wsmsg :=
  MText "/data" ::
  match l with
  | OText m1 :: l =>
      if starts "200 tx mode: data" m1 then
        MText ("/subscribe " +:+ ep) ::
        match l with OText m2 :: l => if starts "200 subscribed" m2 then echo_loop l else [] | _ => [] end
      else []
  | _ => []
  end.
(** dtnecho2.rs:39-49 *)
Definition echo_endpoint (host : eid) : string := match host with Ipn _ _ => "7" | _ => "echo" end.
End echo.

(** ** dtnping.rs *)
(** 11-13, 17-28: PingState, the number of pings sent, of successful ones, and
    the payloads sent so far *)
Record ping := Ping { pg_ready : bool; pg_seq : N; pg_ok : N; pg_sent : list send_data }.
(** what it reads: a message, or nothing for the time given *)
Inductive ping_in := PMsg (o : wsout) | PTimeout.
(** [PDone]: the exit code.  [PFail]: an error or a panic *)
Inductive ping_res := PGo (p : ping) | PDone (p : ping) (code : N) | PFail.
Section ping.
(** the arguments --count (a number of 64 bits with sign), source and destination *)
Context (count : Z) (src dst : string).
Definition ping0 : ping := Ping true 0 0 [].
(** 145-155 with the payload drawn: [None]: the loop ends *)
Definition ping_send (payload : list N) (p : ping) : option ping :=
  if pg_ready p then
    if (0 <? count)%Z && (pg_seq p =? Z.to_N count) then None
    else Some (Ping false (pg_seq p + 1) (pg_ok p) (pg_sent p ++ [SendData src dst false 86400000 payload]))
  else Some p.
(** 157-205 *)
Definition ping_read (i : ping_in) (p : ping) : option ping :=
  match i with
  | PTimeout => Some (Ping true (pg_seq p) (pg_ok p) (pg_sent p))
  | PMsg (OText _) | PMsg OPing => Some p
  | PMsg (OData FCbor _) => Some (Ping true (pg_seq p) (pg_ok p + 1) (pg_sent p))
  | PMsg (OData FJson _) | PMsg (OBundle _) => None
  end.
(** 208-216 *)
Definition ping_exit (p : ping) : N := if (Z.of_N (pg_ok p) <? count)%Z then 1 else 0.
(** 144-216: the turns of the loop, each with the payload drawn and what is read *)
Fixpoint ping_loop (l : list (list N * ping_in)) (p : ping) : ping_res :=
  match l with
  | [] => match ping_send [] p with None => PDone p (ping_exit p) | Some _ => PGo p end
  | (payload, i) :: l =>
      match ping_send payload p with
      | None => PDone p (ping_exit p)
      | Some p1 => match ping_read i p1 with Some p2 => ping_loop l p2 | None => PFail end
      end
  end.
End ping.
