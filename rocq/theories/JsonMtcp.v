(** The second external convergence layer program that comes with the daemon:
    examples/dtnecla_json_mtcp.rs on top of cla/ecla/ws_client.rs.  It carries the
    packets of the daemon to other such programs as JSON.  The daemon's side of
    the connection is Ecla.v, the framing that of EclaWire.v. *)
From stdpp Require Import prelude strings pretty gmap.
From Coq Require Import NArith Lia.
From Verif Require Import Bytes Core Ecla EclaWire EclaMtcp.
Open Scope N_scope.

(** An accepted connection (dtnecla_json_mtcp.rs:23-58): the address of the peer,
    the bytes that are no complete frame yet, the frames, whether a length was
    too large (LengthDelimitedCodec then ends the stream), how many frames the
    loop of 41-51 looked at, whether it is over *)
Record jconn := JConn { jc_addr : string; jc_buf : bytes; jc_frames : list bytes; jc_bad : bool; jc_done : nat; jc_over : bool }.
(** What has to do with packets for the daemon.  [ji_ctx]: the channel of line
    147, [ji_cmd]: that of the websocket client (ws_client.rs:59); both hold 100.
    [ji_up]: the websocket is open.  [ji_sent]: what was written to it.  Only
    recorded: [ji_log], the packets put into the channel, with their connection. *)
Record jin := JIn { ji_conns : list jconn; ji_ctx : list packet; ji_cmd : list packet; ji_up : bool; ji_sent : list packet; ji_log : list (nat * packet) }.
(** What has to do with packets from the daemon.  [jo_rx]: the channel of line
    146, [jo_table]: MTCP_CONNECTIONS (19-21), [jo_conns]: the connections to
    peers.  Only recorded: [jo_log], the packets for which a connection was
    written to. *)
Record jout := JOut { jo_rx : list packet; jo_table : gmap string nat; jo_conns : list outconn; jo_log : list (nat * packet) }.
Record jprog := JProg { jp_in : jin; jp_out : jout }.
Definition jprog0 : jprog := JProg (JIn [] [] [] false [] []) (JOut [] ∅ [] []).

Inductive jev :=
| JAccept (addr : string)                    (* a peer connects *)
| JChunk (c : nat) (chunk : bytes)           (* bytes arrive *)
| JHandle (c : nat)                          (* the task of a connection looks at the next frame *)
| JEnd (c : nat)                             (* the connection has ended, the task ends *)
| JRelay                                     (* a packet moves to the client's channel *)
| JUp                                        (* the websocket is open; registration is queued *)
| JWrite                                     (* a packet is written to the daemon *)
| JNode (p : packet)                         (* a packet from the daemon *)
| JTake (connects : bool) (err : option nat) (* main takes a packet; whether connecting works and writing fails *)
| JBreak (sid : nat).                        (* a connection to a peer fails *)

(** FramedRead with LengthDelimitedCodec::new (33): the frames in a buffer, what
    is left and whether the length of the next frame is too large.  [fuel]: each
    frame takes four bytes at least *)
Fixpoint cut (fuel : nat) (buf : bytes) (acc : list bytes) : bytes * list bytes * bool :=
  match fuel with
  | O => (buf, acc, false)
  | S fuel =>
      match next_frame buf with
      | FMore => (buf, acc, false)
      | FBad => (buf, acc, true)
      | FFrame f rest => cut fuel rest (acc ++ [f])
      end
  end.
Definition jc_feed (chunk : bytes) (j : jconn) : jconn :=
  if jc_bad j then j
  else let b := jc_buf j ++ chunk in
       let '(buf, fs, bad) := cut (S (length b)) b (jc_frames j) in
       JConn (jc_addr j) buf fs bad (jc_done j) (jc_over j).
Definition jc_next (j : jconn) : jconn := JConn (jc_addr j) (jc_buf j) (jc_frames j) (jc_bad j) (S (jc_done j)) (jc_over j).
Definition jc_stop (j : jconn) : jconn := JConn (jc_addr j) (jc_buf j) (jc_frames j) (jc_bad j) (jc_done j) true.

Section prog.
(** serde_json on packets (cla/ecla/mod.rs:50-116), as bytes *)
Context (to_json : packet -> bytes) (of_json : bytes -> option packet).

(** [None]: not possible now.  The address: its entry in MTCP_CONNECTIONS is
    removed (53).  Simplified: the websocket stays open (when it ends, so does
    the task that empties the channel, 173-176). *)
Definition in_step (e : jev) (s : jin) : option (jin * option string) :=
  let '(JIn cs ctx cmd up sent log) := s in
  match e with
  | JAccept addr => Some (JIn (cs ++ [JConn addr [] [] false 0 false]) ctx cmd up sent log, None)             (* 68-73 *)
  | JChunk c chunk =>
      match cs !! c with
      | Some j => if jc_over j then None else Some (JIn (alter (jc_feed chunk) c cs) ctx cmd up sent log, None)
      | None => None
      end
  | JHandle c =>                                                                                              (* 41-51 *)
      match cs !! c with
      | Some j =>
          if jc_over j then None
          else match jc_frames j !! jc_done j with
               | Some f =>
                   match of_json f with
                   | Some p =>
                       if (length ctx <? 100)%nat                                                             (* try_send *)
                       then Some (JIn (alter jc_next c cs) (ctx ++ [p]) cmd up sent (log ++ [(c, p)]), None)
                       else Some (JIn (alter jc_next c cs) ctx cmd up sent log, None)
                   | None => Some (JIn (alter jc_next c cs) ctx cmd up sent log, None)                        (* an error, the loop goes on *)
                   end
               | None => if jc_bad j then Some (JIn (alter jc_stop c cs) ctx cmd up sent log, Some (jc_addr j)) else None
               end
      | None => None
      end
  | JEnd c =>                                                                                                 (* 47-49, 53 *)
      match cs !! c with
      | Some j => if negb (jc_over j) && bool_decide (jc_done j = length (jc_frames j)) then Some (JIn (alter jc_stop c cs) ctx cmd up sent log, Some (jc_addr j)) else None
      | None => None
      end
  | JRelay =>                                                                                                 (* 165-171 *)
      match ctx with
      | p :: ctx => if (length cmd <? 100)%nat then Some (JIn cs ctx (cmd ++ [p]) up sent log, None) else None
      | [] => None
      end
  | JUp =>                                                                                                    (* 161; ws_client.rs:84-103 *)
      if negb up && (length cmd <? 100)%nat
      then Some (JIn cs ctx (cmd ++ [PRegister "jsonmtcp" false None]) true sent log, None) else None
  | JWrite =>                                                                                                 (* ws_client.rs:106-121 *)
      match cmd with
      | p :: cmd => if up then Some (JIn cs ctx cmd up (sent ++ [p]) log, None) else None
      | [] => None
      end
  | _ => Some (s, None)
  end.
(** 76-107 send_bundles.  [reach], 77-98: the connection it uses, if any.
    Simplified: one step, as in EclaMtcp.v. *)
Definition reach (s : jout) (dst : string) (connects : bool) : option (nat * jout) :=
  match jo_table s !! dst with
  | Some sid => Some (sid, s)
  | None =>
      if connects then
        let sid := length (jo_conns s) in
        Some (sid, JOut (jo_rx s) (<[dst := sid]> (jo_table s)) (jo_conns s ++ [Out dst [] false]) (jo_log s))
      else None
  end.
Definition send_bundles (s : jout) (dst : string) (p : packet) (connects : bool) (err : option nat) : jout :=
  match reach s dst connects with
  | None => s
  | Some (sid, s) =>
      let buf := frame (to_json p) in                                                                         (* 190-192 *)
      match err with
      | None => JOut (jo_rx s) (jo_table s) (alter (o_write buf) sid (jo_conns s)) (jo_log s ++ [(sid, p)])
      | Some n => JOut (jo_rx s) (delete dst (jo_table s)) (alter (fun o => o_fail (o_write (take n buf) o)) sid (jo_conns s)) (jo_log s ++ [(sid, p)])
      end
  end.
(** [up]: the websocket is open *)
Definition out_step (e : jev) (up : bool) (s : jout) : option jout :=
  let '(JOut rx tbl outs log) := s in
  match e with
  | JNode p =>                                                                                                (* ws_client.rs:126-169 *)
      if up then
        match passed_on p with
        | Some q => if (length rx <? 100)%nat then Some (JOut (rx ++ [q]) tbl outs log) else None
        | None => Some s
        end
      else None
  | JTake connects err =>                                                                                     (* 184-201 *)
      match rx with
      | p :: rx =>
          match p with
          | PForward _ dst _ _ => Some (send_bundles (JOut rx tbl outs log) dst p connects err)
          | _ => Some (JOut rx tbl outs log)
          end
      | [] => None
      end
  | JBreak sid => Some (JOut rx tbl (alter o_fail sid outs) log)
  | _ => Some s
  end.
Definition forget (a : option string) (s : jout) : jout :=
  match a with Some a => JOut (jo_rx s) (delete a (jo_table s)) (jo_conns s) (jo_log s) | None => s end.
Definition jstep (e : jev) (s : jprog) : option jprog :=
  x ← in_step e (jp_in s);
  o ← out_step e (ji_up (jp_in s)) (jp_out s);
  Some (JProg (fst x) (forget (snd x) o)).
Fixpoint jrun (es : list jev) (s : jprog) : option jprog :=
  match es with [] => Some s | e :: es => s' ← jstep e s; jrun es s' end.
End prog.
