# Formal model of dtn7-rs: design and trusted base

Subject: `/repo` (dtn7-rs, crate `core/dtn7`) at the pinned commit, read as text.
Tool: Rocq/Coq 8.16.1, std++ (finite maps, lists).  All paths below are relative to
`core/dtn7/src/` unless stated otherwise.

## Method

* Every Rust function that matters for a property is transcribed to a total Gallina
  function; `&mut self` becomes "returns the new state", `Result`/`Option` stay data, a
  path that would panic is an explicit outcome (`Panic`), integer overflow is explicit.
* Concurrency.  The bundle pipeline (`core/processing.rs`) is written once as a *program*:
  a tree of atomic actions (one per lock acquisition / channel operation) with
  continuations.  A machine interleaves any number of such programs with an environment
  (arrivals, clock, janitor, discovery, transfer outcomes).  Theorems quantify over all
  schedules.  The TCPCL session is a state machine; two of them are connected by FIFO
  queues and every interleaving is considered.
* Crashes.  The sled store is modelled at the granularity of single durable writes; a
  crash may happen between any two.
* Each property has a specification that does not mention the model's helper functions
  beyond the observable operations, collected at the top of the file that states it.
  Files `Props_*.v` contain the vocabulary, the theorems, `Print Assumptions` and examples (and small lemmas).
* If the English property is false of the code, the file contains a `..._refuted` theorem
  (a concrete reachable counterexample of the faithful model) next to a `..._partial`
  theorem that says what does hold.

## Plan per property

| id | modelled | how |
|----|----------|-----|
| C01, C02 | `cla/mtcp.rs` codec, byte level | induction on the stream; prefix-monotonicity of decode |
| C03 | `cla/tcp/net.rs` read/write, byte level | round trip per message type with suffix |
| C04 | `send_bundle` chunking + `receive` | induction on the chunk list |
| C05, C06 | two sessions + FIFO queues, all interleavings | inductive invariant |
| C07 | one session against an arbitrary message list | invariant over the message list with history |
| C08 | `negotiate_session` | computation over all parameters |
| C09, C10, C11 | `core/store/mem.rs` as two finite maps | refinement to an abstract map over op lists |
| C12, C13, C11 (sled) | `core/store/sled.rs` as a list of durable writes | invariant over prefixes of the write sequence |
| C14 | bit-set conversions of `core/store/sneakers.rs` | bitwise extensionality |
| C15, C16 | `has_expired`, `store_delete_expired`, `process_bundles` | induction over the listing; sortedness + permutation |
| C17-C21 | `lib.rs` peers_*, `core/peer.rs`, discovery receiver | invariants over op lists |
| C22-C25 | `routing/epidemic.rs` | trace invariant over command lists |
| C26 | `routing/flooding.rs`, `routing/sink.rs` | computation |
| C27, C28 | `routing/sprayandwait.rs` | budget invariant over command lists; refutation for failures |
| C29, C30 | `routing/static_routing.rs` (glob matcher is a parameter) | first-match specification |
| C60 | `routing/sprayandwait.rs` own-bundle test | text prefix lemma; refutation for ipn |
| C61 | panics of all routing agents | refutation by computation; survival by induction |
| C31, C62 | `routing/external.rs`, `routing/erouting/processing.rs` as a state machine of calls and channels | history invariant; refutation of C62 by overlapping calls and by hash-set print order |
| C32-C42, C63-C65 | `core/processing.rs` as programs on the interleaving machine | "every reachable action" predicates + machine invariants |
| C43-C45, C69-C73 | `core/application_agent.rs`, `core/mod.rs` endpoint table, `dtnd/ws.rs` sessions as one transition system, one step per access to shared state (`Apps.v`) | history invariants over all interleavings; conservation of bundles; the order invariant of a subscription (`AppsOrder.v`); refutations |
| C46, C47 | CBOR encoding/decoding of beacons, service validation | round trip with arbitrary suffix |
| C48, C49, C66-C68 | announcer/receiver loops (`Beacon.v`), CBOR as in `Cbor.v` | invariant over all interleavings of announcers / induction over datagrams / composition with the round trip |
| C50, C74–C80 | `Httpd.v`: guard, router and all handlers of `dtnd/httpd.rs`, `parse_peer_url`, name checks, sender side of `cla/http.rs` | case analysis over addresses, routes and handlers; C74, C76, C77, C80 are false in full (refutations) and proved with the exceptions spelled out |
| C51, C52, C81 | `Pull.v`: `get_complete_digest`, `get_digest_of_bids`, `http_pull_from_node` against any neighbour and against one running `Httpd.v` | sorting yields one list per set; concatenations of ids told apart by their colons; induction over the downloads; refutations of C51 (converse) and C81 |
| C54-C56 | extension list reader, cancellation of the read future, keepalive timer | refutation by computation + partial theorem |
| C57 | bp7 bundle id text | injectivity by parsing from the right; refutation whole/fragment |
| C58 | `core/store/sneakers.rs` metadata row | computation; refutation for the admin marker |
| C59 | `core/peer.rs` still_valid with the period truncated to seconds by the beacon | arithmetic; refutation for sub-second and 1-2 s intervals |
| C53, C82, C83 | `Ecla.v`: `handle_packet`, `handle_connect`, `handle_disconnect`, `announcer`, `scheduled_submission`, both connectors with one task per connection; every interleaving of their critical sections, panics poison the mutexes | invariants over all runs (`EclaInv.v`, `EclaLive.v`); refutations by poisoning, by address reuse and by a full channel |
| C84 | `Locks.v`: which mutexes each operation of the node takes, nested how; threads run any lists of operations in any schedule; branches and sizes are parameters. Startup and waiting on channels are left out | lock ranks and a progress argument (`LocksProofs.v`); refutations by two schedules that get stuck |
| C85 | `Transfers.v`: `SocketAddr::from_str` on IPv4 text (bracketed IPv6 is a parameter), the command loops of the layers, with the tasks that a failed unwrap ends | IPv4 texts are parsed back; texts with two colons and no bracket never parse (`TransfersProofs.v`); refutation for every IPv6 peer |
| C86 | `Transfers.v`: sending and receiving datagrams; the outcome of socket calls is a parameter | induction over the datagrams |
| C87 | `MtcpSend.v`: concurrent calls of `mtcp_send_bundles` as a transition system over the table of connections and the bytes on each; partial writes and failures anywhere | invariant relating the bytes on a connection to the transfers reported as sent on it, with the framing proofs of C01 (`MtcpSendProofs.v`); refutation by two concurrent transfers |
| C88 | the same | invariant: a connection that was removed is in no table entry and is never stored again |
| C89 | command line, configuration file and their order: dtnd.rs main, DtnConfig::from | case analysis of configure; refuted with a configuration file |
| C90 | the same, with the text of each option taken apart as by str::split and str::parse | induction over the options; lemmas on splitting and decimal text; refuted for unknown names and payloads with colons |
| C91 | add_destination, check_destinations with the address parser of Transfers.v | induction over the destinations; refuted for configuration files without destinations |
| C92 | C90 with still_valid of Peers.v | arithmetic; refuted for peers with announced period |
| C93 | DtnConfig::from on the values the config crate returns | case analysis; refuted for invalid values |
| C94 | start_dtnd: endpoints, peers, layers, activities | induction over endpoints and static peers |
| C95 | session table of the TCPCL layer as a transition system (look up under the lock, open, enqueue, negotiate, take, verdict, end) | refuted by a run; invariant: the live session of an address is the one in the table, for addresses without accepted connection |
| C96 | same, with the log of bundles taken and verdicts given | invariant on queues and transfers; log without repetition by monotonicity of "may still be taken" |
| C97 | same; steps that need the peer separated from the node's own | refuted by an invariant of the silent session; weight decreasing on every step and every stuck state has only answered transfers |
| C98 | janitor waiting for its groups of transfers on top of the session table | same, lifted |
| C99 | network of pipelines: what a node transmitted may arrive anywhere, any number of times, or never; downloads read the store of another node | every copy anywhere is related to an original (invariant `net_copies` over runs of the network, projecting to runs of single nodes); refuted by a two-node run |
| C100 | same, with the path of transmissions and downloads of a copy | same invariant counts transmissions; three refutations (download, dropped hop block, wrapping count) |
| C101 | same | same invariant; refuted for downloads |
| C102 | single node | judgement `ends` with outcome predicate over all interactions of the reception and submission tasks; states in between by `passes`; refuted by a run |
| C103 | both stores under the same history | simulation: equal maps after every history without re-push; refuted by a three-operation history |
| C104 | HTTP /delete on the store model | case analysis of the handler on stores reached by any history, later requests through the whole server |
| C105 | HTTP /register, /unregister on the agents | handler against a specification of what a name denotes |
| C106 | HTTP /insert, /push | handler against what a request carries; frame of the state |
| C107 | dtnrecv against the HTTP server model | composition with the handlers; refuted by a 34-byte bundle |
| C108 | dtnsend against the HTTP server model | composition with /insert; refuted by a body over the limit |
| C109 | dtntrigger on a websocket session | invariant over all executions of the session protocol (TriggerProofs.v) |
| C110 | dtntrigger and the bundles of its endpoint | C45 plus the invariant of C109; refuted for names |
| C111 | connection opening byte by byte (TcpclLink.v), one hostile peer and two nodes | invariant over all streams and schedules (TcpclLinkProofs.v, TcpclLinkSim.v) |
| C112 | two nodes joined by byte pipes | simulation by the message-level pair of C05; refuted by an abandoned read |
| C113 | as C112, pipes of bounded capacity | measure that every reading decreases, quiescence invariant (TcpclLinkLive.v); refuted by two blocked writers |
| C114 | as C112 | invariant of fault-free transfers in both directions (TcpclClean.v) lifted through the simulation; refuted by an abandoned read |
| C115 | framing of `cla/ecla/tcp.rs`, writes taken in part (EclaWire.v) | induction over the packets against a relation of what a reader of frames sees; refuted by a partial write |
| C116 | the reading side: length-delimited codec, JSON as parameter | the decoder as a relation, independence of the pieces; refuted by a long packet |
| C117 | dtnquery on top of the routes of Httpd.v, verbose and store listings added | routing to views, invariants of the store; refuted by --verbose and by the order of enumeration |
| C118 | examples/dtnecho2.rs as a client of Apps.v (EchoPing.v) | the texts and bundles written to the client as a function of the history, invariants of the session |
| C119 | Apps.v | number of copies inside the node never grows but by a delivery (AppsCount.v) |
| C120 | as C118 | from C118 and C119; refuted by a run with a forged source |
| C121 | examples/dtnping.rs (EchoPing.v) | counting over the turns of the loop; refuted by a bundle of somebody else |
| C122 | examples/dtnerouting.rs (Erouter.v): packets in, answers out | marks of the history tied to the packets, step by step |
| C123 | as C122 | a mark means named or received from there, without direct deliveries; refuted by a failed direct delivery |
| C124 | as C122; key order of the peer map is modelled | the answer splits at the destination; refuted by a peer after it |
| C125 | as C122 | no panic for proper endpoints; refuted by dtn:none |
| C126 | as C122 | the peer map holds exactly what was told |
| C127 | Ecla.v | step by step: once registered, forwarded data is taken in; nothing before (C53) |
| C128 | examples/dtnecla_mtcp.rs with cla/ecla/ws_client.rs (EclaMtcp.v), composed with Ecla.v | order of the channels, first packet is the registration, then C127; refuted by an early bundle |
| C129 | EclaMtcp.v, MTCP codec (Mtcp.v) | bytes of each connection are the frames of its bundles, C01, C02 |
| C130 | EclaMtcp.v | the channel is filled only by relayed packets; refuted by a hundred |
| C131 | bytes of a TCPCL connection (TcpclLink.v) | the flag is set only when the last message heard was a keepalive; refuted by one keepalive |
| C132 | heartbeat of a session with times (WsBeat.v) | induction over the ticks; refuted by a client that sends only text |
| C133 | the same | invariant: the last tick that passed was at most 30 s after the last sign |
| C134 | the pipeline with the routing agent answering its queries (NodeRouting.v) | each transfer is paid for by an answer of the agent (potential over all tasks, PipelineCount.v); the agent's answers minus refunds are at most one for each neighbour |
| C135 | the same with spray and wait | the same accounting with the copies of the agent; refuted by a run |
| C136 | the same with epidemic routing | the bundle is announced before the first query about it (LocalProofs.v), the stored copy is the received one; refuted by a run |
| C137 | the pipeline with the agent for static routes (NodeRouting.v) | each transfer follows a query of the same task that named its next hop, and each hop named is tried or a reason is on record when the task is over (NodeHops.v); with C29 |
| C138 | the same with the sink agent | the same, with C26 |
| C139 | the same with the flooding agent | the same, with C26 |
| C140 | the same with the epidemic agent | the same, with C24 |
| C141 | the pipeline, with restarts (Restart.v) | postcondition of the janitor's program over its history (JanitorProofs.v), joined with the states of an execution that starts with a filled store |
| C142 | the same | the same; the DTN clock does not go back within a life |
| C143 | the same; the store after a crash holds all completed operations and perhaps half of one | C141 with the invariant that a marked bundle stays marked until somebody removes it or changes the mark; refuted by a run that stops right after the bundle was saved |
| C144 | the pipeline | postconditions of reception and submission over their histories (DispatchProofs.v), with C141 for the started task |
| C145 | the connecting program (ConnectN.v): clients, their two channels of 100, the main loop; what happens is a list of events | invariant: what was written, what is in the channels and what waits for the main loop make up what is due |
| C146 | the same, with the destination strings of Peers.v | the same with sublists where a full channel drops a beacon |
| C147 | the same | a measure falls with each own step; refuted by a run of 500 events, and the state reached is shown to be final |
| C148 | the same | invariant on registrations in the channels; refuted by a run |
| C149 | the pipeline with its endpoints (Pipeline.v) | invariant over runs: queued since registration = fetched since then ++ the queue of the first agent with this endpoint |
| C150 | the tasks of the pipeline (Pipeline.v) | every task: a query of the routing agent comes right after the successful update of the metadata |
| C151 | the tasks of the pipeline on the operations of sled.rs (NodeDisk.v) | simulation: the files and the node are mapped to a node in memory; half-done operations map to those of Restart.v |
| C152 | the same, with restarts | metadata is never removed; a bundle is accepted only if it has none |
| C153 | the task of the janitor on both stores (PanicProofs.v) | every program it can become asks only for metadata that is there and does not panic; refuted by two runs |
| C154 | examples/dtnecla_json_mtcp.rs with cla/ecla/ws_client.rs (JsonMtcp.v), two instances | unique decoding of length-prefixed frames; invariant of the programs; refuted by 101 packets |
| C155 | the same, one connection | invariant: frames cut so far, packets taken so far |
| C156 | the same composed with Ecla.v | packets passed on are those taken, then C127; refuted by a relayed beacon |
| C157 | the way out of JsonMtcp.v | invariant over connections and a log of writes |
| C158 | the channels of examples/dtnerouting.rs and routing/erouting/ws_client.rs (ErLink.v) around Erouter.v | invariant: sent, queued and outstanding answers; a measure of what waits |
| C159 | `new` of both websocket clients (ErLink.v) | splitting and parsing characterised |
| C160 | Network.v over Pipeline.v and Routing.v; `on_route`, `leads`, `mishap`, `delivered_at` in Props_Route.v | induction over the route: a node that took the bundle in asks its agent (C144), tries the neighbour named (C139), what arrives is stored or was before, the last node hands it over (C102); copies by C99 |
| C161 | Httpd.v do_routing_cmd, do_routing_data, do_rnd_bundle, do_rnd_peer; `apart_same`, `kept_as` in Props_Httpd3.v | the route found in the table, then by cases of the handler |
| C162 | Network.v, Pipeline.v and Routing.v (epidemic) together; `meets`, `contacts` in Props_RouteEpi.v | the agent's entry for the next node is followed back to the query that named it (`marked_named`, `joint_at`), that query forward to the transmission or the failure notice (`named_told`), or to the node the copy came from, which then had the bundle (`was_there`) |
| C163 | Network.v, Pipeline.v and Routing.v (spray and wait) together; `waits`, `sprays`, `chain` in Props_RouteSaw.v | the bundle is announced before the agent is asked (`route_after`, `saw_known`); who is in the agent's list was named (`nodes_named`), copies left and transmissions named add up to the budget (`copies_left`), so the query at the meeting names the next node or an earlier one did; then as C162 (`named_arrives`) |
| C164 | MtcpSend.v, phase `Gone` | refuted by a schedule; invariant that a connection once found stays in the table unless a transfer to the address has failed (`found`), and that a connection reported on is marked as failed (`broken`) |
| C165 | Network.v, Pipeline.v and Routing.v (spray and wait) together; `sent_once`, `got`, `uses_saw`, `to_the_right_node` in Props_SawNet.v | without failed transmissions the agent is told of none (`spent` and `joint_books`), so a relay's counter never exceeds one (`relay_left`) and it names the destination only; so nothing comes back to the source, C135 counts what it gives away, and the names of the other nodes are among the names it gave the bundle to |
| C166 | NodeExternal.v: Pipeline.v and External.v together, a query of a task being a call of sender_for_bundle; `names`, `named_in` in Props_NodeExternal.v | an answer of the router is held by one call (`hold_run`), and a call answers one query (`xjoint_grants`), so what the tasks may spend (`spent`) is at most what the answers name; the rest from `tried_named` and the theorems of Props_External.v |
| C167 | NodeApps.v: Apps.v and Pipeline.v (in the network of Network.v) together, a delivery of a task being one of the application side; `copy_of`, `shows`, `given`, `wanted` in Props_NodeApps.v | invariant of the application side: everything in a queue, channel or socket was delivered, and is for an endpoint the client asked for (`side_run`); with C99 (content), C119 and C63 (counts) |
| C168 | Apps.v: `on_text`, `on_binary`, the accesses of the handler; `latest`, `word`, `names`, `registered` in Props_WsReply.v | invariant: a pending reply belongs to the client's last message, and the accesses made since are those before the reply (`Inv_step`); refutation by an unregistration in between |
| C169 | SneakersEid.v: `eid_from_strings` with the reader of addresses as a parameter; `columns`, `uri_reader` in Props_SneakersEid.v | computation; refutations for every reader; `e_query` of Routing.v for the consequence |
| C170 | Network.v, NodeRouting.v; `sending` in Props_EpiTraffic.v | counting: for each pair the count is that of one node, at most one by the books of C134 (`epidemic_won`); duplicate-free list of pairs |
| C171 | Pipeline.v; `comes_again`, `stored_in`, `rewritten` in Props_Removed.v | false in full: two interleavings found by the interpreter; partial: invariant of the store along the rest of the run, and for the transfers the read of the same task (C34) |
| C172 | PeerFeed.v (table, notifications, agent, packets), Peers.v, Erouter.v; `settled`, `same_nodes`, `orderly`, `unhurried` in Props_PeerFeed.v | false in full: four short runs; partial: invariant: the last pending notification about a node agrees with the table, and without one the program's table after the packets on the way does |
| C173 | SvcList.v (service list, messages of the routing program, rounds), Beacon.v, Config.v; `added`, `wanted`, `hearers_list` in Props_SvcList.v | false in full: two runs; partial: invariant: the list holds what was added last under each tag; composition with C66, C67 |
| C174 | Ecla.v with `own_services` for a given list of services; `announced` in Props_Discovery.v, `open_for`, `polite` in Props_Ecla.v | false in full: one run; partial: the block of services can be written exactly if all keep their limits, then C82 |
| C175 | TcpPeers.v (start and end of accepted sessions) with the histories of Peers.v; `to_others` in Props_TcpPeers.v | false in full: two events; partial: induction over the events after the start of the session |
| C176 | PyRouters.v (both programs, packets as in Erouter.v); `placed`, `told`, `first_of`, `neighbours` in Props_PyRouters.v | false in full: three runs; partial: invariants: the table is the one last reported, the dict of delivered bundles holds the placed ones |

## Trusted base

* Coq's kernel (and `vm_compute` where examples use it).
* Axioms: none.  `Print Assumptions` under every theorem named in MANIFEST.json prints
  "Closed under the global context".  (A listing of the axioms in the environment also shows
  the parameters of the module type `Under_rel` of Coq's own ssreflect library, which std++
  loads; no theorem uses them.)
* Section parameters (`Context`) stand for functions outside of the code modelled; every
  theorem is stated for all of them, with hypotheses where something has to be assumed
  about them.  They are listed below under "External".
* The transcription from Rust to Gallina, as cited function by function in the files.

### External: behaviour written down from documentation or left as a parameter

The sources of the libraries are not in the sandbox.

| library | what is assumed |
|---------|-----------------|
| bp7 0.10.6 | accessors of endpoint ids, bundle id, hop count / age / previous node blocks, `add_canonical_block`, `new_std_payload_bundle` (payload and a hop count block of 32), the order of blocks; encoding and decoding of bundles and parsing of endpoint ids are parameters |
| serde_cbor 0.11 | for beacons and MTCP headers modelled (minimal definite lengths, Cbor.v), without the nesting limit and tags; for all other types a parameter |
| serde_json, tokio-serde | parameters; LengthDelimitedCodec: 4 byte big endian length, limit of 8 MiB |
| sha1, base64, humantime | parameters |
| tokio, std channels | first-in first-out, nothing lost; `select!` takes any ready branch and drops the others |
| parking_lot, tokio mutexes | not reentrant, a waiting operation waits until the holder releases (Locks.v); elsewhere what happens under one lock is one atomic step |
| sled | single inserts and removes are atomic and ordered by `flush`; a crash may come between any two |
| d7sneakers (SQLite) | distinct bits for the constraints, one row for each bundle, the node and the service of an address in two columns (C169); the SQL itself is not modelled |
| axum 0.5, tower-http | routing by exact path and method, HEAD served by GET routes, body limit of 2 MiB for extracted bodies, CORS layer, `ConnectInfo` gives the address of the client; percent-decoding of query strings is a parameter |
| tungstenite, attohttpc, hyper, dtn7-plus client | a message or response arrives whole or not at all; URL encoding of arguments is not modelled |
| std::net | `SocketAddr::from_str` modelled for IPv4, a parameter for IPv6; a failed write means a failed connection |
| clap, config | options and values have the kinds expected |
| HashMap | a finite map; the order of enumeration is any order where a result depends on it |

### What is modelled, file by file

| source (core/dtn7/src unless stated) | model | not modelled |
|--------|-------|--------------|
| cla/mtcp.rs | Mtcp.v (codec), MtcpSend.v (connections and concurrent transfers), Transfers.v (command loop) | shutdown |
| cla/tcp/net.rs, proto.rs | TcpclWire.v | TLS (the code has none) |
| cla/tcp/mod.rs | TcpclSession.v, TcpclPair.v, TcpclCancel.v, TcpclLink.v (one connection, bytes and pipes), TcpclConn.v (table of sessions, listener, janitor waiting), TcpPeers.v (neighbours learnt from sessions) | statistics and logging |
| cla/udp.rs, http.rs, dummy.rs, httppull.rs | Transfers.v, Pull.v | errors of the receiving UDP socket |
| cla/external.rs, cla/ecla/{mod,processing,ws,tcp}.rs | Ecla.v, EclaWire.v | TLS, ping/pong of websockets |
| cla/ecla/ws_client.rs | EclaMtcp.v | Close command, end of the websocket |
| routing/erouting/ws_client.rs | ErLink.v | Close command |
| cla/mod.rs, ../codegen/src/cla.rs | names of layers in Config.v (parameter `cla_id`), senders in Peers.v | the macro itself |
| core/application_agent.rs, dtnd/ws.rs | Apps.v, AppsCount.v, WsBeat.v, NodeApps.v | the heartbeats are a layer over Apps.v; without its pings every execution of the layer is one of Apps.v (`bruns_quiet`) |
| core/bundlepack.rs | Core.v | |
| core/helpers.rs | Httpd.v (is_valid_service_name, parse_peer_url, hex), Pull.v (digests), Config.v (node names) | rnd_peer, rnd_node_name |
| core/mod.rs, core/processing.rs | Pipeline.v; with the routing agent NodeRouting.v | reassembly of fragments (the code has none), statistics |
| core/peer.rs, lib.rs | Peers.v, Pipeline.v, Ecla.v | |
| core/store/mod.rs, mem.rs | StoreMem.v, Httpd.v (listings) | |
| core/store/sled.rs | StoreSled.v, NodeDisk.v | |
| core/store/sneakers.rs | Sneakers.v (constraints and metadata), SneakersEid.v (addresses) | SQL, files |
| dtnconfig.rs, bin/dtnd.rs, dtnd/daemon.rs | Config.v (configuration, start), Restart.v (crashes and restarts) | logging, signals |
| dtnd/cron.rs, janitor.rs | Pipeline.v (janitor runs at any time), TcpclConn.v (its waiting) | the timer |
| dtnd/httpd.rs | Httpd.v (routes, guards, views, uploads, downloads, endpoints) | HTML pages, /test, statistics |
| ipnd/*.rs | Beacon.v, Cbor.v, Utf8.v, Peers.v | sockets: which datagram arrives is arbitrary |
| routing/{mod,epidemic,flooding,sink,sprayandwait,static_routing}.rs | Routing.v | persistence (none) |
| routing/external.rs, erouting/*.rs | External.v, NodeExternal.v (with the pipeline), PeerFeed.v (what the program learns about neighbours), SvcList.v (services it adds) | JSON of packets |
| bin/dtnsend.rs, dtnrecv.rs, dtntrigger.rs, dtnquery.rs | Tools.v | texts of remarks, statistics; read_text of the client crate is taken to pass over pings |
| ../../examples/dtnecho2.rs, dtnping.rs | EchoPing.v | |
| ../../examples/dtnerouting.rs | Erouter.v, ErLink.v | command line; what is still queued when the websocket ends |
| ../../examples/python/dtnerouting_direct.py, dtnerouting_firstcontact.py | PyRouters.v | printing, command line; websocket-client (one message after the other, exceptions are logged); the other Python, Go and Scala examples are not modelled |
| ../../examples/dtnecla_mtcp.rs | EclaMtcp.v | command line; send_bundle is one step |
| ../../examples/dtnecla_connect_n.rs | ConnectN.v | logging, command line |
| ../../examples/dtnecla_json_mtcp.rs | JsonMtcp.v | command line; the JSON of a packet (two functions) |

### Simplifications that matter for reading the theorems

* Pipeline.v: tasks interleave at lock acquisitions and channel operations; between two of
  them a task is not interrupted.  Waiting for a full channel is not modelled; Locks.v
  treats mutual waiting for locks separately, without the start of the node.
* NodeRouting.v: a task's query or notification reaches the agent when it is put into the
  agent's channel, and its peers and layers are any; so the outcome of a transfer reaches the
  agent before any later query.
* Network.v: bundles arrive unaltered and only if some node transmitted or served them;
  links may lose, delay, duplicate and reorder them.
* MtcpSend.v: bytes taken by the operating system on a connection that has not failed
  arrive in order.
* TcpclConn.v: the verdict on a refused connection and the loss of its queue are one step;
  its janitor theorems are about transfers over TCPCL.
* TcpclLink.v: pipes have a capacity; a task that writes waits while the pipe is full.
* Times are numbers; clocks may be set back where a theorem says so.
