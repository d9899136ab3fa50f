(** The external convergence layer program that comes with the daemon:
    examples/dtnecla_mtcp.rs on top of cla/ecla/ws_client.rs.  The daemon's side
    of the connection is Ecla.v, the MTCP codec Mtcp.v. *)
From stdpp Require Import prelude strings pretty gmap.
From Coq Require Import NArith Lia.
From Verif Require Import Bytes Core Ecla Mtcp.
Open Scope N_scope.

(** An accepted connection (dtnecla_mtcp.rs:25-71): the address of the peer,
    the decoder, how many of its frames were looked at, whether the loop is
    over *)
Record inconn := In { ic_addr : string; ic_dec : Mtcp.conn; ic_done : nat; ic_over : bool }.
(** A connection to a peer (89-120); as in MtcpSend.v, [o_failed]: what is written
    does not reach the peer any more *)
Record outconn := Out { o_addr : string; o_bytes : bytes; o_failed : bool }.
(** The program.  [g_ctx]: the channel of main (160), [g_cmd]: that of the
    websocket client (ws_client.rs:59); both hold 100.  [g_up]: the websocket
    to the daemon is open and its two tasks run.  [g_sent]: the packets written
    to it.  [g_rx]: the channel of 159.  [g_table]: MTCP_CONNECTIONS.
    Only recorded: [g_in_log], the bundles taken from accepted connections, and
    [g_out_log], those written completely to a connection that had not failed. *)
Record prog := Prog {
  g_in : list inconn; g_ctx : list packet; g_cmd : list packet; g_up : bool; g_sent : list packet;
  g_rx : list packet; g_table : gmap string nat; g_out : list outconn;
  g_in_log : list (nat * bundle); g_out_log : list (nat * bundle)
}.
Definition prog0 : prog := Prog [] [] [] false [] [] ∅ [] [] [].

Inductive pev :=
| GAccept (addr : string)                    (* a peer connects *)
| GChunk (c : nat) (chunk : bytes)           (* bytes arrive *)
| GHandle (c : nat)                          (* the task of a connection looks at the next frame *)
| GClosed (c : nat)                          (* the connection has ended, the task ends *)
| GRelay                                     (* a packet moves to the client's channel *)
| GUp                                        (* the websocket is open; registration is queued *)
| GWrite                                     (* a packet is written to the daemon *)
| GNode (p : packet)                         (* a packet from the daemon *)
| GTake (connects : bool) (err : option nat) (* main takes a packet; whether connecting works and writing fails *)
| GBreak (sid : nat).                        (* a connection to a peer fails *)

Section prog.
(** Bundle::try_from and to_cbor; the port given on the command line *)
Context (dec : list N -> option bundle) (enc : bundle -> list N) (port : N).

(** ws_client.rs:137-167: what is handed to the program (the id is "",
    dtnecla_mtcp.rs:174) *)
Definition passed_on (p : packet) : option packet :=
  match p with
  | PForward _ dst id data => Some (PForward "" dst id data)
  | PRegistered e n => Some p
  | PBeacon e _ blk => Some (PBeacon e "" blk)
  | _ => None
  end.
Definition set_over (i : inconn) : inconn := In (ic_addr i) (ic_dec i) (ic_done i) true.
Definition set_done (i : inconn) : inconn := In (ic_addr i) (ic_dec i) (S (ic_done i)) (ic_over i).
Definition add_chunk (chunk : bytes) (i : inconn) : inconn := In (ic_addr i) (feed (ic_dec i) chunk) (ic_done i) (ic_over i).
Definition o_write (buf : bytes) (o : outconn) : outconn :=
  Out (o_addr o) (if o_failed o then o_bytes o else o_bytes o ++ buf) (o_failed o).
Definition o_fail (o : outconn) : outconn := Out (o_addr o) (o_bytes o) true.
(** 89-120 send_bundle with the bytes of 212-215; [connect], 90-111: the
    connection it uses, if any, and the table and connections then.  Simplified:
    one step, so that no other task removes the entry between 93 and 108 (the
    [unwrap] of 109 would panic). *)
Definition connect (st : prog) (dst : string) (connects : bool) : option (nat * prog) :=
  match g_table st !! dst with
  | Some sid => Some (sid, st)
  | None =>
      if connects then
        let sid := length (g_out st) in
        Some (sid, Prog (g_in st) (g_ctx st) (g_cmd st) (g_up st) (g_sent st) (g_rx st) (<[dst := sid]> (g_table st))
                        (g_out st ++ [Out dst [] false]) (g_in_log st) (g_out_log st))
      else None
  end.
Definition send_bundle (st : prog) (dst : string) (b : bundle) (connects : bool) (err : option nat) : prog :=
  match connect st dst connects with
  | None => st
  | Some (sid, st) =>
      let buf := mtcp_encode (enc b) in
      match err with
      | None =>
          let reached := match g_out st !! sid with Some o => negb (o_failed o) | None => false end in
          Prog (g_in st) (g_ctx st) (g_cmd st) (g_up st) (g_sent st) (g_rx st) (g_table st)
               (alter (o_write buf) sid (g_out st)) (g_in_log st)
               (if reached then g_out_log st ++ [(sid, b)] else g_out_log st)
      | Some n =>
          Prog (g_in st) (g_ctx st) (g_cmd st) (g_up st) (g_sent st) (g_rx st) (delete dst (g_table st))
               (alter (fun o => o_fail (o_write (take n buf) o)) sid (g_out st)) (g_in_log st) (g_out_log st)
      end
  end.
(** [None]: not possible now.  Tasks that wait for room in a channel do not run.
    Simplified: the program has its address and port arguments, and the websocket
    stays open (when it ends, so does the program, 190-199). *)
Definition gstep (e : pev) (st : prog) : option prog :=
  let '(Prog ins ctx cmd up sent rx tbl outs il ol) := st in
  match e with
  | GAccept addr => Some (Prog (ins ++ [In addr conn0 0 false]) ctx cmd up sent rx tbl outs il ol)          (* 81-86 *)
  | GChunk c chunk =>
      match ins !! c with
      | Some i => if ic_over i then None else Some (Prog (alter (add_chunk chunk) c ins) ctx cmd up sent rx tbl outs il ol)
      | None => None
      end
  | GHandle c =>                                                                                             (* 36-68 *)
      match ins !! c with
      | Some i =>
          if ic_over i then None
          else match c_frames (ic_dec i) !! ic_done i with
               | Some f =>
                   match dec f with
                   | Some b =>
                       if (length ctx <? 100)%nat
                       then Some (Prog (alter set_done c ins) (ctx ++ [PForward "" (ic_addr i) (bid b) (enc b)]) cmd up sent rx tbl outs (il ++ [(c, b)]) ol)
                       else None
                   | None => Some (Prog (alter set_over c ins) ctx cmd up sent rx (delete (ic_addr i) tbl) outs il ol)
                   end
               | None =>
                   match c_status (ic_dec i) with
                   | Open => None
                   | _ => Some (Prog (alter set_over c ins) ctx cmd up sent rx (delete (ic_addr i) tbl) outs il ol)
                   end
               end
      | None => None
      end
  | GClosed c =>                                                                                             (* 36, 66-68 *)
      match ins !! c with
      | Some i => if bool_decide (ic_done i = length (c_frames (ic_dec i)))
                  then Some (Prog (alter set_over c ins) ctx cmd up sent rx (delete (ic_addr i) tbl) outs il ol) else None
      | None => None
      end
  | GRelay =>                                                                                                (* 179-185 *)
      match ctx with
      | p :: ctx => if (length cmd <? 100)%nat then Some (Prog ins ctx (cmd ++ [p]) up sent rx tbl outs il ol) else None
      | [] => None
      end
  | GUp =>                                                                                                   (* ws_client.rs:84-103 *)
      if negb up && (length cmd <? 100)%nat
      then Some (Prog ins ctx (cmd ++ [PRegister "mtcp" false (Some port)]) true sent rx tbl outs il ol) else None
  | GWrite =>                                                                                                (* ws_client.rs:106-121 *)
      match cmd with
      | p :: cmd => if up then Some (Prog ins ctx cmd up (sent ++ [p]) rx tbl outs il ol) else None
      | [] => None
      end
  | GNode p =>                                                                                               (* ws_client.rs:126-169 *)
      if up then
        match passed_on p with
        | Some q => if (length rx <? 100)%nat then Some (Prog ins ctx cmd up sent (rx ++ [q]) tbl outs il ol) else None
        | None => Some st
        end
      else None
  | GTake connects err =>                                                                                    (* 206-226 *)
      match rx with
      | p :: rx =>
          let st := Prog ins ctx cmd up sent rx tbl outs il ol in
          match p with
          | PForward _ dst _ data => match dec data with Some b => Some (send_bundle st dst b connects err) | None => Some st end
          | _ => Some st
          end
      | [] => None
      end
  | GBreak sid => Some (Prog ins ctx cmd up sent rx tbl (alter o_fail sid outs) il ol)
  end.
Fixpoint grun (es : list pev) (st : prog) : option prog :=
  match es with [] => Some st | e :: es => st' ← gstep e st; grun es st' end.
End prog.
