(** The HTTP interface of the daemon (dtnd/httpd.rs) and the helpers it uses
    (core/helpers.rs).  A handler runs under the locks it takes; bundles handed
    to send_bundle / receive are recorded here and processed by the pipeline
    (Pipeline.v). *)
From stdpp Require Import prelude strings pretty gmap sorting.
From Coq Require Import NArith Lia.
From Verif Require Import Core StoreMem Peers Apps.
Open Scope N_scope.

(** ** Client addresses.  std::net::IpAddr; an address is its number *)
Inductive ipaddr := V4 (a : N) | V6 (a : N).
(** Ipv4Addr::is_loopback: first octet 127 *)
Definition loopback4 (a : N) : bool := a / 2^24 =? 127.
(** IpAddr::is_loopback *)
Definition is_loopback (i : ipaddr) : bool := match i with V4 a => loopback4 a | V6 a => a =? 1 end.
(** Ipv6Addr::to_ipv4: the leading 96 bits are zero or ::ffff *)
Definition to_ipv4 (a : N) : option N :=
  if (a / 2^32 =? 0) || (a / 2^32 =? 65535) then Some (a mod 2^32) else None.

(** the settings the interface consults *)
Record hconf := HConf { h_unsafe : bool; h_external : bool; h_ecla : bool; h_host : eid }.
(** httpd.rs:64-91 RequireLocalhost *)
Definition allowed (cf : hconf) (i : ipaddr) : bool :=
  h_unsafe cf || is_loopback i ||
  match i with
  | V6 a => match to_ipv4 a with Some b => loopback4 b | None => false end
  | V4 _ => false
  end.

(** ** Requests and responses.  The path is the matched one, [rq_query] the raw
    query, [rq_upgrade]: a well-formed websocket handshake. *)
Inductive meth := GET | HEAD | POST | DELETE | OPTIONS | OTHER.
Record request := Request { rq_meth : meth; rq_path : string; rq_query : option string; rq_body : list N; rq_from : ipaddr; rq_upgrade : bool }.
(** Bodies: texts; bundles as CBOR or in hex; lists of texts as JSON; the SHA-1 of
    the concatenation of texts; peers as JSON; source, destination and creation
    time of bundles (the size is left out); ids with constraints; pages and other
    texts that are not modelled *)
Inductive body := BNone | BText (s : string) | BBundle (b : bundle) | BHex (b : bundle) | BList (l : list string)
  | BDigest (l : list string) | BPeers (l : list (string * peer))
  | BMeta (l : list (string * string * N)) | BStatus (l : list (string * cset)) | BPage.
(** [Crash]: the handler panicked, the connection is dropped.  [NoRoute]: no
    handler for the path (404, 403, or a redirect to the path without its last
    slash). *)
Inductive response := Resp (code : N) (b : body) | NoRoute | Crash.
Inductive wskind := WsApp | WsRouting | WsEcla.
(** The state the handlers touch: endpoints, peers, store, statistics (broken),
    bundles given to send_bundle and to receive, commands sent to the routing
    agent and websocket sessions opened *)
Record daemon := Daemon {
  d_agents : list agent; d_peers : peers; d_store : mem; d_broken : N;
  d_sent : list bundle; d_received : list bundle; d_cmds : list string; d_ws : list wskind
}.
Definition set_agents (d : daemon) (l : list agent) : daemon :=
  Daemon l (d_peers d) (d_store d) (d_broken d) (d_sent d) (d_received d) (d_cmds d) (d_ws d).
Definition set_peers (d : daemon) (m : peers) : daemon :=
  Daemon (d_agents d) m (d_store d) (d_broken d) (d_sent d) (d_received d) (d_cmds d) (d_ws d).
Definition set_store (d : daemon) (s : mem) : daemon :=
  Daemon (d_agents d) (d_peers d) s (d_broken d) (d_sent d) (d_received d) (d_cmds d) (d_ws d).
Definition one_broken (d : daemon) : daemon :=
  Daemon (d_agents d) (d_peers d) (d_store d) (d_broken d + 1) (d_sent d) (d_received d) (d_cmds d) (d_ws d).
Definition submit (d : daemon) (b : bundle) : daemon :=
  Daemon (d_agents d) (d_peers d) (d_store d) (d_broken d) (d_sent d ++ [b]) (d_received d) (d_cmds d) (d_ws d).
Definition take_in (d : daemon) (b : bundle) : daemon :=
  Daemon (d_agents d) (d_peers d) (d_store d) (d_broken d) (d_sent d) (d_received d ++ [b]) (d_cmds d) (d_ws d).
Definition command (d : daemon) (c : string) : daemon :=
  Daemon (d_agents d) (d_peers d) (d_store d) (d_broken d) (d_sent d) (d_received d) (d_cmds d ++ [c]) (d_ws d).
Definition upgrade (d : daemon) (k : wskind) : daemon :=
  Daemon (d_agents d) (d_peers d) (d_store d) (d_broken d) (d_sent d) (d_received d) (d_cmds d) (d_ws d ++ [k]).
(** What the environment contributes to one request: clock (seconds), creation
    timestamp, rnd_bundle, rnd_peer, and whether the routing agent takes the
    command / its answer *)
Record env := Env { ev_now : N; ev_time : N; ev_seq : N; ev_bundle : bundle; ev_peer : peer; ev_open : bool; ev_data : option string }.

(** ** core/helpers.rs *)
Fixpoint all_chars (f : N -> bool) (s : string) : bool :=
  match s with "" => true | String c s => f (Ascii.N_of_ascii c) && all_chars f s end.
Definition digit (c : N) : bool := (48 <=? c) && (c <=? 57).
Definition alpha (c : N) : bool := (65 <=? c) && (c <=? 90) || (97 <=? c) && (c <=? 122).
(** 172-176 is_valid_service_name; / - _ . ~ *)
Definition valid_service (s : string) : bool :=
  all_chars (fun c => digit c || alpha c || (c =? 47) || (c =? 45) || (c =? 95) || (c =? 46) || (c =? 126)) s.
(** 161-169 is_valid_node_name; [None]: the unwrap on an empty name panics.
    The first character may be any Unicode letter; here names are ASCII. *)
Fixpoint last_char (c : Ascii.ascii) (s : string) : N :=
  match s with "" => Ascii.N_of_ascii c | String c' s => last_char c' s end.
Definition valid_node (s : string) : option bool :=
  match s with
  | "" => None
  | String c r =>
      Some (alpha (Ascii.N_of_ascii c)
            && all_chars (fun c => digit c || alpha c || (c =? 95) || (c =? 45) || (c =? 46)) r
            && (let l := last_char c r in digit l || alpha l)
            || all_chars digit s)
  end.
(** str::replace('/', "") *)
Fixpoint no_slashes (s : string) : string :=
  match s with "" => "" | String c s => if Ascii.N_of_ascii c =? 47 then no_slashes s else String c (no_slashes s) end.
(** str::strip_prefix *)
Fixpoint strip_prefix (p s : string) : option string :=
  match p, s with
  | "", _ => Some s
  | String a p, String b s => if bool_decide (a = b) then strip_prefix p s else None
  | _, _ => None
  end.
(** str::contains *)
Fixpoint contains (sub s : string) : bool :=
  match strip_prefix sub s with
  | Some _ => true
  | None => match s with "" => false | String _ s => contains sub s end
  end.
(** core/peer.rs:17-26 PeerType::try_from; [true]: static *)
Definition lower (s : string) : string :=
  string_of_list_ascii (map (fun c => let n := Ascii.N_of_ascii c in if (65 <=? n) && (n <=? 90) then Ascii.ascii_of_N (n + 32) else c) (list_ascii_of_string s)).
Definition peer_type (s : string) : option bool :=
  if bool_decide (lower s = "static") then Some true
  else if bool_decide (lower s = "dynamic") then Some false
  else None.
(** url::Url: the parts used *)
Record url := Url { u_scheme : string; u_host : option string; u_port : option N; u_path : string }.
Inductive url_error := InvalidUrl | InvalidNodeId | NoSuchCLA | UnknownError.

(** the size limit axum puts on the bodies of requests (axum-core 0.2.9, Bytes) *)
Definition BODY_LIMIT : N := 2097152.

Section http.
(** External functions: EndpointID::try_from; host_eid.new_endpoint; the decoded
    query (a map, the last value for a name wins); Bundle::try_from;
    bp7 unhexify ([None]: panics); humantime::parse_duration in ms; Url::parse;
    the names of the convergence layers (CLAsAvailable); IpAddr::from_str with
    the canonical text of the address *)
Context (parse_eid : string -> option eid) (local_eid : string -> option eid) (params : string -> gmap string string).
Context (dec_bundle : list N -> option bundle) (unhex : string -> option (option (list N))) (duration : string -> option N).
Context (parse_url : string -> option url) (is_cla : string -> bool) (parse_ip : string -> option string).

(** helpers.rs:89-154 parse_peer_url *)
Definition peer_url (now : N) (s : string) : peer + url_error :=
  let (external, r) := match strip_prefix "ecla+" s with Some r => (true, r) | None => (false, s) end in
  match parse_url r with
  | None => inr InvalidUrl
  | Some u =>
      if negb external && negb (is_cla (u_scheme u)) then inr NoSuchCLA
      else
        match u_host u with
        | None => inr InvalidUrl
        | Some h =>
            if bool_decide (u_path u = "/") || bool_decide (u_path u = "") then inr InvalidNodeId
            else
              let addr := match parse_ip h with Some a => AIp a | None => AGeneric h end in
              let n := no_slashes (u_path u) in
              let e := if all_chars digit n then "ipn:" +:+ n +:+ ".0" else "dtn://" +:+ n +:+ "/" in
              match parse_eid e with
              | Some e => inl (peer_new now e addr true None [(u_scheme u, u_port u)] [])
              | None => inr UnknownError
              end
        end
  end.

Definition query_map (r : request) : gmap string string := params (default "" (rq_query r)).
Definition too_large (r : request) : bool := BODY_LIMIT <? N.of_nat (length (rq_body r)).

(** ** Handlers *)
(** httpd.rs:371-395 *)
Definition do_peers_add (ev : env) (r : request) (d : daemon) : response * daemon :=
  match query_map r !! "p" with
  | None => (Resp 400 (BText "missing peer parameter p"), d)
  | Some s =>
      match peer_type (default "DYNAMIC" (query_map r !! "p_t")) with
      | None => (Crash, d)
      | Some static =>
          match peer_url (ev_now ev) s with
          | inr _ => (Resp 400 (BText "Malformed peer URL"), d)
          | inl p =>
              let p := Peer (pe_eid p) (pe_addr p) static (pe_period p) (pe_clas p) (pe_services p) (pe_last p) (pe_fails p) in
              match peers_add p (d_peers d) with
              | None => (Crash, d)
              | Some (m, true) => (Resp 200 (BText "Added new peer"), set_peers d m)
              | Some (m, false) => (Resp 200 (BText "Updated existing peer"), set_peers d m)
              end
          end
      end
  end.
(** httpd.rs:396-415 *)
Definition do_peers_del (ev : env) (r : request) (d : daemon) : response * daemon :=
  match query_map r !! "p" with
  | None => (Resp 400 (BText "missing peer parameter p"), d)
  | Some s =>
      match peer_url (ev_now ev) s with
      | inr _ => (Resp 400 (BText "Malformed peer URL"), d)
      | inl p =>
          match eid_node (pe_eid p) with
          | None => (Crash, d)
          | Some n => (Resp 200 (BText "Removed peer"), set_peers d (peers_remove n (d_peers d)))
          end
      end
  end.
(** httpd.rs:336-355, lib.rs:233-239 *)
Definition do_routing_cmd (ev : env) (r : request) (d : daemon) : response * daemon :=
  match query_map r !! "c" with
  | None => (Resp 400 (BText "missing routing command parameter cmd"), d)
  | Some c =>
      if ev_open ev then (Resp 200 (BText "Sent command to routing agent."), command d c)
      else (Resp 500 (BText "error sending cmd to routing agent"), d)
  end.
(** httpd.rs:357-369; the agent's answer to a query leaves it as it is *)
Definition do_routing_data (ev : env) (r : request) (d : daemon) : response * daemon :=
  match ev_data ev with
  | Some s => (Resp 200 (BText s), d)
  | None => (Resp 500 (BText "error getting data from routing agent"), d)
  end.
(** httpd.rs:469-522.  The flag against fragmentation is not part of the model of
    bundles. *)
Definition send_request (host : eid) (ev : env) (dst : eid) (life : N) (payload : list N) : bundle :=
  Bundle (BFlags false false false false true false false) dst host host (ev_time ev) (ev_seq ev) life 0 0
    [Block PAYLOAD_BLOCK 1 (KFlags false false false false) (CData payload);
     Block HOP_COUNT_BLOCK 2 (KFlags false false false false) (CHop 32 0)].
Definition do_send (cf : hconf) (ev : env) (r : request) (d : daemon) : response * daemon :=
  if too_large r then (Resp 413 BPage, d)
  else
    match (match query_map r !! "dst" with None => Some DtnNone | Some s => parse_eid s end) with
    | None => (Crash, d)
    | Some dst =>
        if bool_decide (dst = DtnNone) then (Resp 400 (BText "Missing destination endpoint id!"), d)
        else
          let life := match query_map r !! "lifetime" with
                      | None => 3600000
                      | Some s => default 3600000 (duration s)
                      end in
          (Resp 200 (BText ("Sent payload with " +:+ pretty (N.of_nat (length (rq_body r))) +:+ " bytes")),
           submit d (send_request (h_host cf) ev dst life (rq_body r)))
    end.
(** httpd.rs:693-706, lib.rs:184-191 *)
Definition do_delete (r : request) (d : daemon) : response * daemon :=
  match rq_query r with
  | None => (Resp 400 (BText "Bundle ID not specified"), d)
  | Some id =>
      let (s, ok) := mem_remove id (d_store d) in
      (if ok then Resp 200 (BText ("Deleted " +:+ id)) else Resp 404 (BText "Bundle not found"), set_store d s)
  end.
(** The endpoint a query names: httpd.rs:557-563 and 567, likewise 587-593, 616-620,
    629, 658-662, 672; [None]: the expect panics; [Some None]: malformed *)
Definition named (path : string) : option (option (bool * eid)) :=
  if valid_service path then
    match local_eid path with Some e => Some (Some (true, e)) | None => None end
  else match parse_eid path with Some e => Some (Some (false, e)) | None => Some None end.
(** httpd.rs:551-577, 581-607 *)
Definition do_register (add : bool) (r : request) (d : daemon) : response * daemon :=
  match rq_query r with
  | None => (Resp 400 (BText "missing query parameter"), d)
  | Some path =>
      match named path with
      | None => (Crash, d)
      | Some None => (Resp 400 (BText "Malformed endpoint path, only alphanumeric strings or endpoint URIs are allowed!"), d)
      | Some (Some (l, e)) =>
          (Resp 200 (BText ((if add then "Registered " else "Unregistered ") +:+ (if l then "" else "URI: ") +:+ eid_string e)),
           set_agents d (if add then register e (d_agents d) else unregister e (d_agents d)))
      end
  end.
(** httpd.rs:610-649, 652-690, application_agent.rs:57-58 *)
Definition do_endpoint (hex : bool) (r : request) (d : daemon) : response * daemon :=
  match rq_query r with
  | None => (Resp 400 (BText "missing query parameter"), d)
  | Some path =>
      match named path with
      | None => (Crash, d)
      | Some None => (Resp 400 (BText "Malformed endpoint path, only alphanumeric strings allowed!"), d)
      | Some (Some (_, e)) =>
          match find_agent e (d_agents d) with
          | None => (Resp 404 (BText "No such endpoint registered!"), d)
          | Some a =>
              match ag_queue a with
              | [] => (Resp 200 (BText "Nothing to receive"), d)
              | b :: _ => (Resp 200 (if hex then BHex b else BBundle b), set_agents d (alter_agent e take_first (d_agents d)))
              end
          end
      end
  end.
(** httpd.rs:418-447.  char::is_alphanumeric on an ASCII query *)
Definition do_insert_get (r : request) (d : daemon) : response * daemon :=
  match rq_query r with
  | None => (Resp 400 BNone, d)
  | Some s =>
      if all_chars (fun c => digit c || alpha c) s then
        match unhex s with
        | None => (Crash, d)
        | Some None => (Resp 400 BNone, d)
        | Some (Some x) =>
            match dec_bundle x with
            | Some b => (Resp 200 (BText ("Sent " +:+ pretty (N.of_nat (length x)) +:+ " bytes")), submit d b)
            | None => (Resp 400 BNone, d)
            end
        end
      else (Resp 400 BNone, d)
  end.
(** httpd.rs:450-466 *)
Definition do_insert_post (r : request) (d : daemon) : response * daemon :=
  if too_large r then (Resp 413 BPage, d)
  else
    match dec_bundle (rq_body r) with
    | Some b => (Resp 200 (BText ("Sent " +:+ pretty (N.of_nat (length (rq_body r))) +:+ " bytes")), submit d b)
    | None => (Resp 400 (BText "Error decoding bundle!"), d)
    end.
(** httpd.rs:525-548 *)
Definition do_push (r : request) (d : daemon) : response * daemon :=
  if too_large r then (Resp 413 BPage, d)
  else
    match dec_bundle (rq_body r) with
    | Some b => (Resp 200 (BText ("Received " +:+ pretty (N.of_nat (length (rq_body r))) +:+ " bytes")), take_in d b)
    | None => (Resp 400 (BText "Error decoding bundle!"), one_broken d)
    end.
(** httpd.rs:319-334; the bundle and the peer are random *)
Definition do_rnd_bundle (ev : env) (d : daemon) : response * daemon :=
  (Resp 200 (BText (bid (ev_bundle ev))), submit d (ev_bundle ev)).
Definition do_rnd_peer (ev : env) (d : daemon) : response * daemon :=
  (Resp 200 BPage, set_peers d (<[node_or_empty (pe_eid (ev_peer ev)) := ev_peer ev]> (d_peers d))).
(** axum WebSocketUpgrade: refused unless GET with a proper handshake *)
Definition do_ws (k : wskind) (r : request) (d : daemon) : response * daemon :=
  match rq_meth r, rq_upgrade r with
  | GET, true => (Resp 101 BNone, upgrade d k)
  | _, _ => (Resp 400 BPage, d)
  end.

(** httpd.rs:259-267 *)
Definition known_bundles (s : mem) : list string :=
  map p_id (filter (fun p => has_constraint p Deleted = false) (mem_packs s)).
(** store/mod.rs:63-73, for the packs in the order the store gives them *)
Definition filter_packs (c : string) (l : list pack) : list string :=
  map p_id (filter (fun p => contains c (eid_string (p_src p)) || contains c (eid_string (p_dst p)) = true)
    (filter (fun p => has_constraint p Deleted = false) l)).
Definition filter_addr (c : string) (s : mem) : list string := filter_packs c (mem_packs s).
(** helpers.rs:178-195; bids.sort() compares bytes *)
Definition str_le (a b : string) : Prop := String.leb a b = true.
Global Instance str_le_dec : RelDecision str_le.
Proof. intros a b. unfold str_le. apply _. Defined.
Definition digest_ids (s : mem) : list string := merge_sort str_le (map p_id (mem_packs s)).

(** store/mod.rs:52-62 *)
Definition src_dst_ts (s : mem) : list (string * string * N) :=
  map (fun p => (eid_string (p_src p), eid_string (p_dst p), p_time p)) (mem_packs s).
(** store/mod.rs:49-51, bundlepack.rs:59-63 *)
Definition bundles_status (s : mem) : list (string * cset) := map (fun p => (p_id p, p_cons p)) (mem_packs s).

(** httpd.rs:143-315, 709-735: handlers that only look.  Pages and statistics are
    not modelled further. *)
Inductive view := VPage | VNodeId | VEids | VBundles | VVerbose | VStore | VFiltered | VFilteredDigest | VDigest | VPeers | VDownload | VDownloadHex.
Definition look (cf : hconf) (v : view) (r : request) (d : daemon) : response :=
  match v with
  | VPage => Resp 200 BPage
  | VNodeId => Resp 200 (BText (eid_string (h_host cf)))
  | VEids => Resp 200 (BList (map (fun a => eid_string (ag_eid a)) (d_agents d)))
  | VBundles => Resp 200 (BList (known_bundles (d_store d)))
  | VVerbose => Resp 200 (BMeta (src_dst_ts (d_store d)))
  | VStore => Resp 200 (BStatus (bundles_status (d_store d)))
  | VFiltered =>
      match query_map r !! "addr" with
      | Some c => Resp 200 (BList (filter_addr c (d_store d)))
      | None => Resp 400 (BText "missing filter criteria")
      end
  | VFilteredDigest =>
      match query_map r !! "addr" with
      | Some c => Resp 200 (BDigest (filter_addr c (d_store d)))
      | None => Resp 400 (BText "missing filter criteria")
      end
  | VDigest => Resp 200 (BDigest (digest_ids (d_store d)))
  | VPeers => Resp 200 (BPeers (map_to_list (d_peers d)))
  | VDownload =>
      match rq_query r with
      | None => Resp 400 (BText "Bundle ID not specified")
      | Some id => match mem_get id (d_store d) with Some b => Resp 200 (BBundle b) | None => Resp 404 (BText "Bundle not found") end
      end
  | VDownloadHex =>
      match rq_query r with
      | None => Resp 400 (BText "Bundle ID not specified")
      | Some id => match mem_get id (d_store d) with Some b => Resp 200 (BHex b) | None => Resp 400 (BText "Bundle not found") end
      end
  end.

(** ** The router *)
Inductive handler := HPeersAdd | HPeersDel | HRoutingCmd | HRoutingData | HSend | HDelete | HRegister | HUnregister | HEndpoint
  | HEndpointHex | HInsertGet | HInsertPost | HRndBundle | HRndPeer | HWs (k : wskind) | HPush | HLook (v : view).
Definition handle (cf : hconf) (ev : env) (h : handler) (r : request) (d : daemon) : response * daemon :=
  match h with
  | HPeersAdd => do_peers_add ev r d
  | HPeersDel => do_peers_del ev r d
  | HRoutingCmd => do_routing_cmd ev r d
  | HRoutingData => do_routing_data ev r d
  | HSend => do_send cf ev r d
  | HDelete => do_delete r d
  | HRegister => do_register true r d
  | HUnregister => do_register false r d
  | HEndpoint => do_endpoint false r d
  | HEndpointHex => do_endpoint true r d
  | HInsertGet => do_insert_get r d
  | HInsertPost => do_insert_post r d
  | HRndBundle => do_rnd_bundle ev d
  | HRndPeer => do_rnd_peer ev d
  | HWs k => do_ws k r d
  | HPush => do_push r d
  | HLook v => (look cf v r d, d)
  end.
(** One route: the handlers for GET (which also serves HEAD), POST and DELETE *)
Record entry := Entry { en_get : option handler; en_post : option handler; en_delete : option handler }.
Definition g (h : handler) : entry := Entry (Some h) None None.
(** httpd.rs:745-765: the routes present when the guard is put around *)
Definition local_routes : list (string * entry) :=
  [("/peers/add", g HPeersAdd); ("/peers/del", g HPeersDel);
   ("/routing/cmd", Entry (Some HRoutingCmd) (Some HRoutingCmd) None);
   ("/routing/getdata", g HRoutingData);
   ("/send", Entry None (Some HSend) None);
   ("/delete", Entry (Some HDelete) None (Some HDelete));
   ("/register", g HRegister); ("/unregister", g HUnregister); ("/endpoint", g HEndpoint);
   ("/insert", Entry (Some HInsertGet) (Some HInsertPost) None);
   ("/endpoint.hex", g HEndpointHex); ("/cts", g (HLook VPage)); ("/ws", g (HWs WsApp));
   ("/debug/rnd_bundle", g HRndBundle); ("/debug/rnd_peer", g HRndPeer)].
(** httpd.rs:767-805: the routes added afterwards *)
Definition open_routes (cf : hconf) : list (string * entry) :=
  (if h_external cf then [("/ws/erouting", g (HWs WsRouting))] else []) ++
  (if h_ecla cf then [("/ws/ecla", g (HWs WsEcla))] else []) ++
  [("/", g (HLook VPage)); ("/peers", g (HLook VPage)); ("/bundles", g (HLook VPage));
   ("/download.hex", g (HLook VDownloadHex)); ("/download", g (HLook VDownload));
   ("/push", Entry None (Some HPush) None);
   ("/status/nodeid", g (HLook VNodeId)); ("/status/eids", g (HLook VEids)); ("/status/bundles", g (HLook VBundles));
   ("/status/bundles/filtered", g (HLook VFiltered)); ("/status/bundles/filtered/digest", g (HLook VFilteredDigest));
   ("/status/bundles/verbose", g (HLook VVerbose)); ("/status/bundles/digest", g (HLook VDigest));
   ("/status/store", g (HLook VStore)); ("/status/peers", g (HLook VPeers)); ("/status/info", g (HLook VPage))].
Fixpoint route (path : string) (l : list (string * entry)) : option entry :=
  match l with
  | [] => None
  | (p, en) :: l => if bool_decide (p = path) then Some en else route path l
  end.
Definition pick (m : meth) (en : entry) : option handler :=
  match m with GET | HEAD => en_get en | POST => en_post en | DELETE => en_delete en | _ => None end.
(** axum: the answer to HEAD has no body *)
Definition strip (m : meth) (x : response) : response :=
  match m, x with HEAD, Resp c _ => Resp c BNone | _, x => x end.
Definition dispatch (cf : hconf) (ev : env) (en : entry) (r : request) (d : daemon) : response * daemon :=
  match pick (rq_meth r) en with
  | None => (Resp 405 BNone, d)
  | Some h => let (x, d') := handle cf ev h r d in (strip (rq_meth r) x, d')
  end.
(** httpd.rs:738-821.  axum 0.5: a layer is put around the routes present and
    around what answers other paths; the outermost CORS layer (allowing any
    origin) answers every OPTIONS request itself. *)
Definition serve (cf : hconf) (ev : env) (r : request) (d : daemon) : response * daemon :=
  match rq_meth r with
  | OPTIONS => (Resp 200 BNone, d)
  | _ =>
      match route (rq_path r) local_routes with
      | Some en => if allowed cf (rq_from r) then dispatch cf ev en r d else (Resp 403 BNone, d)
      | None =>
          match route (rq_path r) (open_routes cf) with
          | Some en => dispatch cf ev en r d
          | None => (NoRoute, d)
          end
      end
  end.
End http.

(** ** The HTTP convergence layer (cla/http.rs:20-65).  What the request to the
    neighbour came to; [http_send]: [None]: the address is not ip:port, the
    parse().unwrap() panics and the caller sees a failure. *)
Inductive outcome := Answer (x : response) | NoAnswer.
Definition http_send (parses : bool) (ready : list N) (o : outcome) : option bool :=
  match ready with
  | [] => Some true
  | _ => if parses then match o with Answer _ => Some true | NoAnswer => Some false end else None
  end.
