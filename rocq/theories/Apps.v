(** Application agents, the endpoint table and websocket clients
    (core/application_agent.rs, core/mod.rs:76-117, dtnd/ws.rs). *)
From stdpp Require Import prelude strings pretty gmap.
From Coq Require Import NArith Lia.
From Verif Require Import Core Routing.
Open Scope N_scope.

(** application_agent.rs:28-33 SimpleApplicationAgent; the delivery channel is
    named by the session that owns its receiving end *)
Record agent := Agent { ag_eid : eid; ag_queue : list bundle; ag_sub : option nat }.
(** core/mod.rs:103-116 is_in_endpoints, get_endpoint, get_endpoint_mut: the
    first agent for the id *)
Definition find_agent (e : eid) (l : list agent) : option agent :=
  List.find (fun a => bool_decide (e = ag_eid a)) l.
Definition known (e : eid) (l : list agent) : bool := existsb (fun a => bool_decide (e = ag_eid a)) l.
Fixpoint alter_agent (e : eid) (f : agent -> agent) (l : list agent) : list agent :=
  match l with
  | [] => []
  | a :: l => if bool_decide (e = ag_eid a) then f a :: l else a :: alter_agent e f l
  end.
(** core/mod.rs:76-83 *)
Definition register (e : eid) (l : list agent) : list agent :=
  if known e l then l else l ++ [Agent e [] None].
(** core/mod.rs:84-90: the first position *)
Fixpoint unregister (e : eid) (l : list agent) : list agent :=
  match l with
  | [] => []
  | a :: l => if bool_decide (ag_eid a = e) then l else a :: unregister e l
  end.
(** application_agent.rs:46-48 (queue), 57-58, 65-71 *)
Definition put (b : bundle) (a : agent) : agent := Agent (ag_eid a) (ag_queue a ++ [b]) (ag_sub a).
Definition take_first (a : agent) : agent := Agent (ag_eid a) (tail (ag_queue a)) (ag_sub a).
Definition set_sub (s : option nat) (a : agent) : agent := Agent (ag_eid a) (ag_queue a) s.

(** ws.rs:32-41; dtn7_plus client WsRecvData / WsSendData *)
Inductive fmt := FCbor | FJson.
Inductive mode := MBundle | MData (f : fmt).
Record recv_data := RecvData { rd_bid : string; rd_src : string; rd_dst : string; rd_time : N; rd_seq : N; rd_life : N; rd_data : list N }.
Record send_data := SendData { sd_src : string; sd_dst : string; sd_report : bool; sd_life : N; sd_data : list N }.
(** messages to the client; encodings to CBOR and JSON stay abstract *)
Inductive wsout := OText (s : string) | OBundle (b : bundle) | OData (f : fmt) (r : recv_data) | OPing.
(** bp7 Bundle::payload: the data of the first payload block *)
Definition payload_of (b : bundle) : option (list N) :=
  match List.find (fun k => k_type k =? PAYLOAD_BLOCK) (b_blocks b) with
  | Some (Block _ _ _ (CData d)) => Some d
  | _ => None
  end.
(** ws.rs:173-197 and 453-475: [None]: nothing for this client *)
Definition render (m : mode) (b : bundle) : option wsout :=
  match m with
  | MBundle => Some (OBundle b)
  | MData f =>
      match payload_of b with
      | None => None
      | Some d => Some (OData f (RecvData (bid b) (eid_string (b_src b)) (eid_string (b_dst b)) (b_time b) (b_seq b) (b_life b) d))
      end
  end.
(** The parts of ws.rs handle_message that touch shared state or the socket, one
    per access. *)
Inductive wop :=
| WSet (e : eid)       (* 264-266, 293-296: set_delivery_addr *)
| WIns (e : eid)       (* 267-269, 301-303: the session's own set *)
| WReply (s : string)
| WFetch               (* 446-449: fetch_new_bundles starts, copies its set *)
| WPop (e : eid)       (* 450-482: one endpoint *)
| WFlush               (* 484-486 *)
| WClear (e : eid).    (* 138-140, 242-244: clear_delivery_addr *)
(** ws.rs:44-54 and the local state of its tasks: [ws_open]: the tasks run;
    [ws_rx]: the receiving end of the delivery channel exists; [ws_hand]: taken
    from the channel, waiting for the session; [ws_held]: popped, not sent.
    [ws_out] is all that was handed to the socket; its bound of 100 only delays. *)
Record session := Session {
  ws_open : bool; ws_rx : bool; ws_chan : list bundle; ws_hand : option bundle;
  ws_mode : mode; ws_subs : option (list eid); ws_job : list wop;
  ws_held : list (bundle * wsout); ws_out : list wsout
}.
(** 155-166: a new session; JSON is the default *)
Definition new_session : session := Session true true [] None (MData FJson) None [] [] [].
Definition CHANNEL : nat := 32.
Record apps := AppState { a_agents : list agent; a_sessions : list session; a_sent : list bundle }.

(** str::trim (ASCII blanks), splitn(2, ' ') *)
Fixpoint rev_string (s acc : string) : string :=
  match s with "" => acc | String c s => rev_string s (String c acc) end.
Definition trim (s : string) : string := rev_string (trim_start (rev_string (trim_start s) "")) "".
Fixpoint split_space (s acc : string) : string * option string :=
  match s with
  | "" => (rev_string acc "", None)
  | String c s => if Ascii.N_of_ascii c =? 32 then (rev_string acc "", Some s) else split_space s (String c acc)
  end.
Definition is_command (s : string) : bool :=
  match s with String c _ => Ascii.N_of_ascii c =? 47 | "" => false end.

Inductive wsmsg := MText (s : string) | MBin (d : list N) | MPing | MPong.

Section ws.
(** bp7: EndpointID::try_from a text; host_eid and its new_endpoint; decoding of
    bundles and send requests *)
Context (parse_eid : string -> option eid) (host : eid) (local_eid : string -> option eid).
Context (dec_bundle : list N -> option bundle) (dec_send : fmt -> list N -> option send_data).

Definition with_job (s : session) (l : list wop) : session :=
  Session (ws_open s) (ws_rx s) (ws_chan s) (ws_hand s) (ws_mode s) (ws_subs s) l (ws_held s) (ws_out s).
Definition with_mode (s : session) (m : mode) : session :=
  Session (ws_open s) (ws_rx s) (ws_chan s) (ws_hand s) m (ws_subs s) (ws_job s) (ws_held s) (ws_out s).
Definition with_subs (s : session) (l : option (list eid)) : session :=
  Session (ws_open s) (ws_rx s) (ws_chan s) (ws_hand s) (ws_mode s) l (ws_job s) (ws_held s) (ws_out s).
Definition with_held (s : session) (l : list (bundle * wsout)) : session :=
  Session (ws_open s) (ws_rx s) (ws_chan s) (ws_hand s) (ws_mode s) (ws_subs s) (ws_job s) l (ws_out s).
Definition with_out (s : session) (l : list wsout) : session :=
  Session (ws_open s) (ws_rx s) (ws_chan s) (ws_hand s) (ws_mode s) (ws_subs s) (ws_job s) (ws_held s) l.
Definition with_chan (s : session) (l : list bundle) (h : option bundle) : session :=
  Session (ws_open s) (ws_rx s) l h (ws_mode s) (ws_subs s) (ws_job s) (ws_held s) (ws_out s).

(** ws.rs:212-325: the session after the local part and the accesses to come.
    The look-up in the endpoint table is the first access. The code writes an
    unknown command (321) quoted and escaped. *)
Definition on_text (l : list agent) (s : session) (t : string) : session :=
  let m := trim t in
  if is_command m then
    let (c, arg) := split_space m "" in
    if bool_decide (c = "/node") then with_job s [WReply ("200 node: " +:+ eid_string host)]
    else if bool_decide (c = "/bundle") then with_job (with_mode s MBundle) [WReply "200 tx mode: bundle"]
    else if bool_decide (c = "/data") then with_job (with_mode s (MData FCbor)) [WReply "200 tx mode: data"]
    else if bool_decide (c = "/json") then with_job (with_mode s (MData FJson)) [WReply "200 tx mode: JSON"]
    else if bool_decide (c = "/unsubscribe") then
      match arg with
      | None => s
      | Some a =>
          match parse_eid a with
          | Some e =>
              match ws_subs s with
              | Some subs => with_job (with_subs s (Some (filter (fun x => x <> e) subs))) [WClear e; WReply "200 unsubscribed"]
              | None => with_job s [WReply "404 endpoint not found"]
              end
          | None => with_job s [WReply "400 invalid endpoint"]
          end
      end
    else if bool_decide (c = "/subscribe") then
      match arg with
      | None => with_job s [WReply "400 endpoint is missing"]
      | Some a =>
          match parse_eid a with
          | Some e =>
              if known e l
              then with_job (with_subs s (Some (default [] (ws_subs s)))) [WSet e; WIns e; WReply "200 subscribed"; WFetch]
              else with_job s [WReply "404 unknown endpoint"]
          | None =>
              match local_eid a with
              | Some e =>
                  if known e l then with_job s [WSet e; WIns e; WReply "200 subscribed"]
                  else with_job s [WReply "404 unknown endpoint"]
              | None => with_job s [WReply "400 invalid endpoint combination"]
              end
          end
      end
    else with_job s [WReply ("501 unknown command: " +:+ m)]
  else s.
(** ws.rs:360-400 with [cts] = CreationTimestamp::now(): flags, primary block,
    one payload block; the flag BUNDLE_MUST_NOT_FRAGMENTED is not represented *)
Definition bundle_of (cts : N * N) (r : send_data) : option bundle :=
  match parse_eid (sd_dst r), parse_eid (sd_src r) with
  | Some d, Some s =>
      Some (Bundle (BFlags false false false false (sd_report r) false false) d s s (fst cts) (snd cts) (sd_life r) 0 0
              [Block PAYLOAD_BLOCK 1 (KFlags false false false false) (CData (sd_data r))])
  | _, _ => None
  end.
(** ws.rs:327-425: the session and the bundle submitted. The code adds the error
    to "400 Unexpected binary". *)
Definition on_binary (cts : N * N) (s : session) (d : list N) : session * option bundle :=
  match ws_mode s with
  | MBundle =>
      match dec_bundle d with
      | Some b => (with_job s [WReply ("200 Sent payload with " +:+ pretty (N.of_nat (length d)) +:+ " bytes")], Some b)
      | None => (with_job s [WReply "400 Invalid binary bundle"], None)
      end
  | MData f =>
      match dec_send f d with
      | Some r =>
          match bundle_of cts r with
          | Some b => (with_job s [WReply ("200 Sent bundle " +:+ bid b +:+ " with " +:+ pretty (N.of_nat (length (sd_data r))) +:+ " bytes")], Some b)
          | None => (s, None)
          end
      | None => (with_job s [WReply "400 Unexpected binary"], None)
      end
  end.

(** application_agent.rs:39-56: where a delivered bundle went *)
Inductive fate := NoEndpoint | Queued | Passed (i : nat).
Inductive ev :=
| ERegister (e : eid) | EUnregister (e : eid)
| EDeliver (b : bundle) (f : fate)               (* processing.rs:502-505 *)
| EPoll (e : eid) (r : option bundle)            (* httpd.rs:610-684 *)
| EOpen                                          (* ws.rs:56-60 *)
| EMsg (i : nat) (m : wsmsg)                     (* ws.rs:74-85 *)
| EWork (i : nat) (o : wop) (r : option bundle)  (* one access of the handler *)
| ETake (i : nat) (b : bundle)                   (* ws.rs:115, recv *)
| EHand (i : nat) (b : bundle)                   (* ws.rs:117-125 *)
| EClose (i : nat)                               (* ws.rs:129-134, at any time *)
| EDrop (i : nat).                               (* the aborted task is dropped *)
Definition upd (st : apps) (l : list agent) : apps := AppState l (a_sessions st) (a_sent st).
Definition set_session (st : apps) (i : nat) (s : session) : apps :=
  AppState (a_agents st) (<[i := s]> (a_sessions st)) (a_sent st).
(** a session accepts a bundle: try_send *)
Definition accepts (s : session) : bool := ws_rx s && (length (ws_chan s) <? CHANNEL)%nat.

Inductive step : apps -> ev -> apps -> Prop :=
| s_register st e : step st (ERegister e) (upd st (register e (a_agents st)))
| s_unregister st e : step st (EUnregister e) (upd st (unregister e (a_agents st)))
| s_none st b : find_agent (b_dst b) (a_agents st) = None -> step st (EDeliver b NoEndpoint) st
| s_queue st b a :
    find_agent (b_dst b) (a_agents st) = Some a ->
    (forall i s, ag_sub a = Some i -> a_sessions st !! i = Some s -> accepts s = false) ->
    step st (EDeliver b Queued) (upd st (alter_agent (b_dst b) (put b) (a_agents st)))
| s_pass st b a i s :
    find_agent (b_dst b) (a_agents st) = Some a -> ag_sub a = Some i ->
    a_sessions st !! i = Some s -> accepts s = true ->
    step st (EDeliver b (Passed i)) (set_session st i (with_chan s (ws_chan s ++ [b]) (ws_hand s)))
| s_poll st e r :
    r = (match find_agent e (a_agents st) with Some a => head (ag_queue a) | None => None end) ->
    step st (EPoll e r) (upd st (alter_agent e take_first (a_agents st)))
| s_open st : step st EOpen (AppState (a_agents st) (a_sessions st ++ [new_session]) (a_sent st))
(** the session is locked while its handler works *)
| s_text st i s t :
    a_sessions st !! i = Some s -> ws_open s = true -> ws_job s = [] ->
    step st (EMsg i (MText t)) (set_session st i (on_text (a_agents st) s t))
| s_bin st i s d cts s' ob :
    a_sessions st !! i = Some s -> ws_open s = true -> ws_job s = [] -> on_binary cts s d = (s', ob) ->
    step st (EMsg i (MBin d)) (AppState (a_agents st) (<[i := s']> (a_sessions st)) (a_sent st ++ option_list ob))
| s_ping st i s :
    a_sessions st !! i = Some s -> ws_open s = true -> ws_job s = [] ->
    step st (EMsg i MPing) (set_session st i (with_out s (ws_out s ++ [OPing])))
| s_pong st i s :
    a_sessions st !! i = Some s -> ws_open s = true -> ws_job s = [] -> step st (EMsg i MPong) st
| s_set st i s e l :
    a_sessions st !! i = Some s -> ws_job s = WSet e :: l ->
    step st (EWork i (WSet e) None)
      (AppState (alter_agent e (set_sub (Some i)) (a_agents st)) (<[i := with_job s l]> (a_sessions st)) (a_sent st))
| s_ins st i s e l :
    a_sessions st !! i = Some s -> ws_job s = WIns e :: l ->
    step st (EWork i (WIns e) None)
      (set_session st i (with_job (with_subs s (Some (let subs := default [] (ws_subs s) in if decide (e ∈ subs) then subs else e :: subs))) l))
| s_reply st i s t l :
    a_sessions st !! i = Some s -> ws_job s = WReply t :: l ->
    step st (EWork i (WReply t) None) (set_session st i (with_job (with_out s (ws_out s ++ [OText t])) l))
| s_fetch st i s ord l :
    a_sessions st !! i = Some s -> ws_job s = WFetch :: l -> ord ≡ₚ default [] (ws_subs s) ->
    step st (EWork i WFetch None) (set_session st i (with_job s (map WPop ord ++ WFlush :: l)))
| s_pop st i s e l r :
    a_sessions st !! i = Some s -> ws_job s = WPop e :: l ->
    r = (match find_agent e (a_agents st) with Some a => head (ag_queue a) | None => None end) ->
    step st (EWork i (WPop e) r)
      (AppState (alter_agent e take_first (a_agents st))
         (<[i := with_job (with_held s (ws_held s ++ match r with
                                                    | Some b => match render (ws_mode s) b with Some o => [(b, o)] | None => [] end
                                                    | None => [] end)) l]> (a_sessions st)) (a_sent st))
| s_flush st i s b o h l :
    a_sessions st !! i = Some s -> ws_job s = WFlush :: l -> ws_held s = (b, o) :: h ->
    step st (EWork i WFlush (Some b)) (set_session st i (with_out (with_held s h) (ws_out s ++ [o])))
| s_flushed st i s l :
    a_sessions st !! i = Some s -> ws_job s = WFlush :: l -> ws_held s = [] ->
    step st (EWork i WFlush None) (set_session st i (with_job s l))
| s_clear st i s e l :
    a_sessions st !! i = Some s -> ws_job s = WClear e :: l ->
    step st (EWork i (WClear e) None)
      (AppState (alter_agent e (set_sub None) (a_agents st)) (<[i := with_job s l]> (a_sessions st)) (a_sent st))
| s_take st i s b l :
    a_sessions st !! i = Some s -> ws_open s = true -> ws_hand s = None -> ws_chan s = b :: l ->
    step st (ETake i b) (set_session st i (with_chan s l (Some b)))
| s_hand st i s b :
    a_sessions st !! i = Some s -> ws_open s = true -> ws_job s = [] -> ws_hand s = Some b ->
    step st (EHand i b)
      (set_session st i (with_out (with_chan s (ws_chan s) None) (ws_out s ++ option_list (render (ws_mode s) b))))
(** 129-143: the tasks are aborted (whatever the handler was doing), then the
    session clears its endpoints, in some order *)
| s_close st i s ord :
    a_sessions st !! i = Some s -> ws_open s = true -> ord ≡ₚ default [] (ws_subs s) ->
    step st (EClose i)
      (set_session st i (Session false (ws_rx s) (ws_chan s) (ws_hand s) (ws_mode s) (ws_subs s) (map WClear ord) [] (ws_out s)))
| s_drop st i s :
    a_sessions st !! i = Some s -> ws_open s = false ->
    step st (EDrop i)
      (set_session st i (Session false false [] None (ws_mode s) (ws_subs s) (ws_job s) (ws_held s) (ws_out s))).
Inductive run : apps -> list ev -> apps -> Prop :=
| run_nil st : run st [] st
| run_step st e st1 tr st2 : step st e st1 -> run st1 tr st2 -> run st (e :: tr) st2.
End ws.
