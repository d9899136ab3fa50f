{"id": "C01", "title": "MTCP: framed bundles survive any fragmentation of the byte stream", "statement": "If a sender writes the MTCP frames of any sequence of bundle encodings (each non-empty, ending in the CBOR break byte, and at least ten bytes once framed) onto one connection, then a receiver reading that connection obtains exactly those encodings, in order, with nothing left over, however TCP cuts the stream into reads.", "quantifier": "for every finite sequence of frames and every way of splitting the concatenated bytes into chunks", "why_tests_cant": "The number of chunkings of a stream is exponential in its length and payload lengths cross the five CBOR header sizes; a test tries a handful of cuts.", "anchors": ["core/dtn7/src/cla/mtcp.rs: MPDUCodec Encoder::encode / Decoder::decode, cbor_parse_byte_string_len_first, cbor_parse_byte_string_len, cbor_hdr_len, handle_connection"]}
{"id": "C02", "title": "MTCP: reading a hostile stream is deterministic in the bytes and never panics", "statement": "For any bytes whatsoever, the frames a receiver extracts before it gives up do not depend on how the stream was cut into reads; every extracted frame is a contiguous piece of the stream that was preceded by a header announcing exactly its length; and no input makes the decoder index out of bounds or overflow.", "quantifier": "for every byte string and every two chunkings of it", "why_tests_cant": "Hostile inputs and cut points are unbounded; fuzzing only samples them.", "anchors": ["core/dtn7/src/cla/mtcp.rs: Decoder::decode"]}
{"id": "C03", "title": "TCPCL: messages survive the wire", "statement": "Every well-formed TCPCLv4 message that one node writes is read back by the other node as the same message, and reading stops exactly at the message boundary, whatever follows.", "quantifier": "for every message of every type with fields in range and every trailing byte string", "why_tests_cant": "All field values, data lengths and extension lists must be covered.", "anchors": ["core/dtn7/src/cla/tcp/net.rs: TcpClPacket write/read", "core/dtn7/src/cla/tcp/proto.rs"]}
{"id": "C04", "title": "TCPCL: segmentation and reassembly are inverse", "statement": "Whatever non-empty bundle encoding is sent and whatever positive segment size the peer announced, the segments put on the wire are each no longer than that size, exactly the first is marked START and exactly the last END, and a receiving session that is idle hands exactly the original bytes to bundle processing after the last segment and not before, having acknowledged the cumulative length of every segment.", "quantifier": "for every non-empty byte string and every segment size > 0", "why_tests_cant": "Lengths around multiples of the segment size and arbitrary sizes; unit tests check a few.", "anchors": ["core/dtn7/src/cla/tcp/mod.rs: TcpConnection::send_bundle, receive, process_bundle"]}
{"id": "C05", "title": "TCPCL: success is only reported after the peer has the whole bundle", "statement": "When two nodes run TCPCL sessions against each other, a transfer is reported as successful to the forwarding layer only if the peer has already received the complete bundle bytes (or, when refusing known bundles is enabled, already held that bundle).", "quantifier": "for every interleaving of submissions, message deliveries and both directions of traffic, for every sequence of bundles and segment sizes", "why_tests_cant": "Schedules of two concurrent endpoints with in-flight messages cannot be enumerated by tests.", "anchors": ["core/dtn7/src/cla/tcp/mod.rs: TcpConnection::run/send/receive/send_bundle"]}
{"id": "C06", "title": "TCPCL: one transfer at a time, one verdict per transfer, fresh transfer ids", "statement": "On one session at most one outgoing transfer is in flight; every transfer handed to the session is answered at most once, answers come in submission order, and the transfer ids put on the wire are strictly increasing.", "quantifier": "for every sequence of submissions and of received messages, including hostile ones", "why_tests_cant": "Arbitrary peer behaviour and interleavings.", "anchors": ["core/dtn7/src/cla/tcp/mod.rs: SendState, TcpConnection::run/send/receive"]}
{"id": "C07", "title": "TCPCL: a hostile peer cannot splice transfers", "statement": "Whatever messages a peer sends, each byte string handed to bundle processing is the concatenation of the data of a consecutive run of segments received on this session that starts with START, ends with END, has one transfer id throughout and has no START inside.", "quantifier": "for every sequence of received messages", "why_tests_cant": "Arbitrary adversarial message sequences.", "anchors": ["core/dtn7/src/cla/tcp/mod.rs: TcpConnection::receive, ReceiveState"]}
{"id": "C08", "title": "TCPCL: negotiated keepalive is the minimum of both sides and symmetric", "statement": "After session establishment both nodes use the same keepalive interval, the smaller of the two announced, and each side uses segments no larger than what the other announced.", "quantifier": "for every pair of announced parameters", "why_tests_cant": "Arbitrary peer parameters.", "anchors": ["core/dtn7/src/cla/tcp/mod.rs: negotiate_session"]}
{"id": "C09", "title": "In-memory store behaves as a map from ids to bundles with permanent metadata", "statement": "After any history of store operations a bundle is reported as present exactly if it has been pushed and not been successfully removed since; fetching it yields the content of the latest push; the count and the id listing agree with presence; and every id that was ever pushed still has metadata.", "quantifier": "for every finite history of push / update-metadata / remove operations", "why_tests_cant": "Histories are unbounded.", "anchors": ["core/dtn7/src/core/store/mem.rs: InMemoryBundleStore"]}
{"id": "C10", "title": "A removed bundle is never offered for forwarding again", "statement": "Once a bundle has been removed from the store, the listings used by the janitor to pick bundles for forwarding do not contain it, unless it is pushed anew or its metadata is explicitly overwritten afterwards.", "quantifier": "for every history before and after the removal", "why_tests_cant": "Histories are unbounded.", "anchors": ["core/dtn7/src/core/store/mem.rs: remove, filter", "core/dtn7/src/core/store/mod.rs: forwarding", "core/dtn7/src/core/mod.rs: process_bundles"]}
{"id": "C11", "title": "Tombstones prevent resubmission", "statement": "A bundle that was received and later deleted is not accepted again when a copy of it arrives (the documented purpose of keeping its metadata).", "quantifier": "for every history ending in a deletion followed by a re-reception, for each store backend", "why_tests_cant": "Needs all histories; a test would check one.", "anchors": ["core/dtn7/src/core/bundlepack.rs: Constraint::Deleted", "core/dtn7/src/core/store/mem.rs: push/has_item", "core/dtn7/src/core/store/sled.rs: push", "core/dtn7/src/lib.rs: store_add_bundle_if_unknown"]}
{"id": "C12", "title": "On-disk store: a crash at any write leaves every listed bundle usable", "statement": "If the node dies between any two of the durable writes performed by the sled-backed store, then after reopening every bundle that is listed also has metadata, bundles not being written at the time are untouched, and a bundle whose push had been acknowledged is still there.", "quantifier": "for every history of operations and every crash point inside the last operation", "why_tests_cant": "Crash points cannot be exercised by unit tests.", "anchors": ["core/dtn7/src/core/store/sled.rs: push, update_metadata, remove"]}
{"id": "C13", "title": "On-disk store: an interrupted reception can be retried", "statement": "If the node dies while a bundle is being stored, the same bundle can be received again after restart.", "quantifier": "for every crash point inside the push", "why_tests_cant": "Crash points cannot be exercised by unit tests.", "anchors": ["core/dtn7/src/core/store/sled.rs: push"]}
{"id": "C14", "title": "Constraint sets survive the database representation", "statement": "The set of retention constraints of a bundle read back from the sneakers store is the set last written, and filtering by a constraint set matches exactly the bundles having all of them; the bundles listed as pending are those waiting for dispatch.", "quantifier": "for every set of constraints and every bit pattern", "why_tests_cant": "All subsets and all bit patterns (including unknown bits).", "anchors": ["core/dtn7/src/core/store/sneakers.rs: convert_constraints_to_hashset, convert_hashset_to_constraints"]}
{"id": "C15", "title": "Expired bundles, and only expired bundles, are purged by the janitor", "statement": "A janitor run removes every stored, non-deleted bundle whose lifetime is non-zero and whose creation time plus lifetime lies in the past, and removes no other bundle; bundles with lifetime zero are never purged; once purgeable a bundle stays purgeable.", "quantifier": "for every store content and every clock value (creation time + lifetime below 2^64)", "why_tests_cant": "All contents and clock values.", "anchors": ["core/dtn7/src/core/bundlepack.rs: has_expired", "core/dtn7/src/lib.rs: store_delete_expired"]}
{"id": "C16", "title": "The janitor retries every pending bundle, oldest first", "statement": "When at least one convergence layer can send, a janitor run attempts to forward every bundle that is marked forward-pending and not deleted exactly once, in order of creation time, and no other bundle; when none can send it attempts nothing.", "quantifier": "for every store content", "why_tests_cant": "All contents; ordering over all permutations.", "anchors": ["core/dtn7/src/core/mod.rs: process_bundles"]}
{"id": "C17", "title": "Peer table has one entry per node and reports news correctly", "statement": "After any history of peer additions and removals there is exactly one entry per known node name, carrying the data of its latest addition; adding reports 'new' exactly if the node was not in the table.", "quantifier": "for every history", "why_tests_cant": "Histories are unbounded.", "anchors": ["core/dtn7/src/lib.rs: peers_add, peers_remove, peers_known, peers_count, peers_get_for_node"]}
{"id": "C18", "title": "Static peers are never dropped; silent dynamic peers are", "statement": "The janitor never removes a statically configured peer; it removes a dynamic peer exactly when the time since its last contact reaches the configured timeout, or twice its announced beacon period when it announced one and no custom timeout applies; routing is told about exactly the dropped peers.", "quantifier": "for every peer table and clock value not before the last contacts", "why_tests_cant": "All tables and clock values.", "anchors": ["core/dtn7/src/core/mod.rs: process_peers", "core/dtn7/src/core/peer.rs: still_valid"]}
{"id": "C19", "title": "A dynamic peer is given up at the fourth failed transfer and a static one never", "statement": "Failed transfers to a dynamic peer remove it from the peer table at the fourth failure since the entry was (re)created, not earlier; no number of failures below 2^16 removes a static peer; other peers are unaffected.", "quantifier": "for every sequence of failures to any peers", "why_tests_cant": "Sequences are unbounded.", "anchors": ["core/dtn7/src/core/processing.rs: forward (failure branch)", "core/dtn7/src/core/peer.rs: report_fail, failed_too_much"]}
{"id": "C20", "title": "A statically configured peer stays static", "statement": "A peer configured as static is still treated as static after its discovery beacons have been received.", "quantifier": "for every beacon", "why_tests_cant": "Any beacon content.", "anchors": ["core/dtn7/src/ipnd/neighbour_discovery.rs: receiver", "core/dtn7/src/lib.rs: peers_add"]}
{"id": "C21", "title": "Convergence layer selection follows the peer's preference", "statement": "The convergence layer chosen for a peer is the first in the peer's own list for which this node runs a sending-capable layer of that name; the resulting sender addresses exactly that peer, with the peer's announced port or else the layer's own; none is chosen only if no listed layer is usable.", "quantifier": "for every peer and every set of running layers", "why_tests_cant": "All lists.", "anchors": ["core/dtn7/src/core/peer.rs: first_cla"]}
{"id": "C22", "title": "Epidemic: no node is handed the same bundle twice unless a failure was reported", "statement": "With epidemic routing, between two occasions on which the same bundle is handed out for transmission to the same node there is a failure report for that bundle and node.", "quantifier": "for every history of queries, notifications and peer-table changes", "why_tests_cant": "Histories are unbounded.", "anchors": ["core/dtn7/src/routing/epidemic.rs: handle_routing_cmd, EpidemicRoutingAgentCore"]}
{"id": "C23", "title": "Epidemic: a bundle is never sent back to the node it came from", "statement": "With epidemic routing, after a bundle has been received whose previous-node block names a node, that bundle is never handed out for transmission to that node (absent a failure report for that pair).", "quantifier": "for every history after the reception", "why_tests_cant": "Histories are unbounded.", "anchors": ["core/dtn7/src/routing/epidemic.rs: incoming_bundle, SenderForBundle"]}
{"id": "C24", "title": "Epidemic: every reachable node gets its copy", "statement": "With epidemic routing, each query hands the bundle to every reachable peer not yet served; if the destination node itself is among them the bundle is handed only to it and is removed afterwards. A peer for which the transfer failed is offered again at the next query.", "quantifier": "for every history and every peer table", "why_tests_cant": "Histories and tables are unbounded.", "anchors": ["core/dtn7/src/routing/epidemic.rs: SenderForBundle, sending_failed"]}
{"id": "C25", "title": "Epidemic: a peer counts as served only if the bundle was handed out to it", "statement": "With epidemic routing, a reachable peer that has not been handed a bundle (and did not send it to us) is handed it at a later query at which the destination is not reachable.", "quantifier": "for every history", "why_tests_cant": "Requires a particular interleaving of peer order and direct delivery.", "anchors": ["core/dtn7/src/routing/epidemic.rs: SenderForBundle"]}
{"id": "C26", "title": "Flooding sends to all reachable peers and never deletes; sink sends nothing", "statement": "With flooding, every query hands the bundle to every reachable peer exactly once and never asks for deletion; with the sink agent no bundle is ever handed out or deleted.", "quantifier": "for every peer table", "why_tests_cant": "All tables.", "anchors": ["core/dtn7/src/routing/flooding.rs", "core/dtn7/src/routing/sink.rs"]}
{"id": "C27", "title": "Spray-and-wait: the copy budget is respected", "statement": "With spray-and-wait and L initial copies, a locally created bundle is relayed to at most L-1 nodes other than in direct delivery, a foreign one to none, no relay gets it twice, and it is never handed to the node itself, as long as no transfer failure is reported and the bundle is announced once.", "quantifier": "for every history of queries and peer tables after the announcement", "why_tests_cant": "Histories are unbounded.", "anchors": ["core/dtn7/src/routing/sprayandwait.rs: handle_new_bundle, handle_sender_for_bundle"]}
{"id": "C28", "title": "Spray-and-wait: a failed transfer returns exactly one copy for exactly that node", "statement": "With spray-and-wait, after a reported failure the failed node (and only it) becomes eligible again and the copy budget is what it was before that hand-out; in particular the total number of successfully relayed copies never exceeds L-1.", "quantifier": "for every history with failures", "why_tests_cant": "Needs arbitrary failure patterns.", "anchors": ["core/dtn7/src/routing/sprayandwait.rs: handle_notification SendingFailed"]}
{"id": "C29", "title": "Static routing: first matching usable route wins", "statement": "With static routing a bundle is handed to at most one node: the next hop of the first route in file order whose source and destination patterns match and whose next hop is a currently reachable peer; if there is none nothing is sent and nothing deleted; it is deleted after sending exactly if its destination is a singleton endpoint.", "quantifier": "for every routing table, peer table and bundle", "why_tests_cant": "All tables.", "anchors": ["core/dtn7/src/routing/static_routing.rs: handle_routing_cmd SenderForBundle"]}
{"id": "C30", "title": "Static routing tables: comments are ignored, order is kept, reload replaces", "statement": "Loading a routing table yields exactly its well-formed non-comment lines, in file order; a reload makes the table equal to a fresh load of the current file, independent of what was loaded before.", "quantifier": "for every list of well-formed, blank or comment lines", "why_tests_cant": "All files.", "anchors": ["core/dtn7/src/routing/static_routing.rs: parse_route_from_str, reload"]}
{"id": "C31", "title": "External routing: only the matching answer is used", "statement": "With an external router, a bundle is only sent as instructed by a response carrying the same bundle description as the request; without a connected router or in the absence of an answer nothing is sent and nothing deleted; instructions naming convergence layers this node does not run are ignored.", "quantifier": "for every router behaviour", "why_tests_cant": "Arbitrary behaviour of the external program.", "anchors": ["core/dtn7/src/routing/erouting/processing.rs: sender_for_bundle, unpack_sender_for_bundle"]}
{"id": "C32", "title": "A bundle is accepted at most once while it is stored, even under concurrency", "statement": "However many copies of a bundle arrive concurrently on however many convergence layers, between two removals of it from the store exactly one copy is processed (counted as incoming); all the others are counted as duplicates and have no other effect.", "quantifier": "for every interleaving of concurrently running receptions, transmissions, deliveries and janitor runs", "why_tests_cant": "Interleavings of concurrent tasks at every lock release.", "anchors": ["core/dtn7/src/core/processing.rs: receive", "core/dtn7/src/lib.rs: store_add_bundle_if_unknown"]}
{"id": "C33", "title": "Nothing above its hop limit leaves the node", "statement": "Every bundle handed to a convergence layer that carries a hop count block carries a count one higher than in the stored copy and not above its limit; a bundle that would exceed its limit is not transmitted.", "quantifier": "for every bundle (hop count below 255) and every interleaving", "why_tests_cant": "All bundles, all interleavings.", "anchors": ["core/dtn7/src/core/processing.rs: handle_hop_count_block, forward"]}
{"id": "C34", "title": "Every transmitted bundle names this node as previous node and is otherwise unchanged", "statement": "A bundle handed to a convergence layer has a previous node block naming this node; its primary block, payload and all blocks other than previous node, hop count and bundle age are exactly those of the stored bundle.", "quantifier": "for every bundle and every interleaving", "why_tests_cant": "All bundles, all interleavings.", "anchors": ["core/dtn7/src/core/processing.rs: handle_previous_node_block, forward"]}
{"id": "C35", "title": "Expired bundles are not transmitted and age only grows", "statement": "No bundle whose primary lifetime is exceeded at the time of the check is handed to a convergence layer; the age in the age block of a transmitted bundle is the stored age plus the time since reception, and a bundle whose age has reached its lifetime is not transmitted.", "quantifier": "for every bundle, clock value and interleaving", "why_tests_cant": "All clock values.", "anchors": ["core/dtn7/src/core/processing.rs: handle_primary_lifetime, update_bundle_age, handle_bundle_age_block"]}
{"id": "C36", "title": "No status report storms", "statement": "Status reports are generated only if enabled in the configuration, never about administrative records (provided bundles that share an id agree in being administrative), never about anonymous bundles and never addressed to an endpoint an application is registered for at that moment.", "quantifier": "for every bundle, configuration and interleaving", "why_tests_cant": "All paths of the pipeline that may emit reports.", "anchors": ["core/dtn7/src/core/processing.rs: send_status_report and its callers"]}
{"id": "C37", "title": "Only local applications can originate bundles", "statement": "A bundle submitted for transmission whose source is neither anonymous nor a registered endpoint is never delivered to an endpoint nor handed to a convergence layer by that submission, and is removed from the store.", "quantifier": "for every bundle and endpoint table", "why_tests_cant": "All bundles and interleavings.", "anchors": ["core/dtn7/src/core/processing.rs: transmit"]}
{"id": "C38", "title": "Bundles for this node stay on this node", "statement": "A bundle addressed to an endpoint of this node is never handed to a convergence layer by its reception or submission.", "quantifier": "for every bundle and interleaving", "why_tests_cant": "All bundles, interleavings.", "anchors": ["core/dtn7/src/core/processing.rs: dispatch"]}
{"id": "C39", "title": "A failed forwarding attempt loses nothing", "statement": "If no transfer of a forwarding attempt succeeds, the attempt neither removes the bundle from the store nor clears its forward-pending mark, so that the next janitor run tries again; a forwarding attempt removes a bundle only when the routing decision asked for it and some transfer succeeded, or when a lifetime, age or hop limit is exceeded.", "quantifier": "for every routing decision, every combination of transfer outcomes and every interleaving of the transfers", "why_tests_cant": "All outcome combinations.", "anchors": ["core/dtn7/src/core/processing.rs: forward"]}
{"id": "C40", "title": "Unknown extension blocks: exactly the flagged ones are dropped", "statement": "On reception, an unknown block flagged for removal is dropped and every other block is kept; a bundle with an unknown block flagged for bundle deletion is not processed further.", "quantifier": "for every list of extension blocks", "why_tests_cant": "Position-dependent behaviour over arbitrary block lists.", "anchors": ["core/dtn7/src/core/processing.rs: receive"]}
{"id": "C41", "title": "Only an asserted delivery report frees a bundle", "statement": "A status report causes this node to drop its copy of the reported bundle only if the report asserts delivery.", "quantifier": "for every status report", "why_tests_cant": "All reports.", "anchors": ["core/dtn7/src/core/processing.rs: inspect_status_report"]}
{"id": "C42", "title": "Statistics add up", "statement": "The number of bundles counted as incoming plus the number counted as duplicates never exceeds the number of receptions, and equals it when no reception failed in the store; delivered counts exactly the hand-overs to application agents.", "quantifier": "for every history and interleaving", "why_tests_cant": "Histories are unbounded.", "anchors": ["core/dtn7/src/core/processing.rs: receive, local_delivery", "core/dtn7/src/core/mod.rs: DtnStatistics"]}
{"id": "C43", "title": "Application endpoints are FIFO and lose nothing", "statement": "For an endpoint, the bundles handed out by polling, in order, followed by those still queued, are exactly the bundles delivered to the endpoint that were not passed directly to a live subscriber, in order; each delivered bundle is either queued or passed to the subscriber, exactly once.", "quantifier": "for every history of deliveries, polls, (un)subscriptions and subscriber queue states", "why_tests_cant": "Histories are unbounded.", "anchors": ["core/dtn7/src/core/application_agent.rs: SimpleApplicationAgent push/pop"]}
{"id": "C44", "title": "Endpoint registration is idempotent and exact", "statement": "Registered endpoints are pairwise distinct; registering a known one changes nothing (in particular keeps its queue); after unregistering an endpoint it is no longer found and all the others are unaffected.", "quantifier": "for every history of registrations", "why_tests_cant": "Histories are unbounded.", "anchors": ["core/dtn7/src/core/mod.rs: register_application_agent, unregister_application_agent, is_in_endpoints, get_endpoint"]}
{"id": "C45", "title": "A subscriber receives bundles in the order they were delivered to its endpoint", "statement": "A client subscribing to an endpoint over the websocket receives the bundles queued for the endpoint first, oldest first, then later ones as they arrive.", "quantifier": "for every queue content and arrival sequence", "why_tests_cant": "All queue lengths.", "anchors": ["core/dtn7/src/dtnd/ws.rs: handle_message /subscribe, fetch_new_bundles", "core/dtn7/src/core/application_agent.rs"]}
{"id": "C46", "title": "Discovery beacons survive the wire", "statement": "A beacon with any endpoint id, sequence number, list of convergence layers, services and whole-second period is received as exactly that beacon.", "quantifier": "for every beacon with fields in range", "why_tests_cant": "All field values, list lengths and CBOR header sizes.", "anchors": ["core/dtn7/src/ipnd/beacon.rs: Serialize/Deserialize for Beacon", "core/dtn7/src/ipnd/services.rs: Serialize/Deserialize for ServiceBlock"]}
{"id": "C47", "title": "Custom services are validated and survive announcement", "statement": "A service accepted for announcement (text, battery, address) is shown by the receiving node with exactly the announced value; values violating the documented limits are rejected.", "quantifier": "for every tag and text", "why_tests_cant": "All texts.", "anchors": ["core/dtn7/src/ipnd/services.rs: build_custom_service, convert_services"]}
{"id": "C48", "title": "Beacon sequence numbers count per destination", "statement": "The k-th beacon sent to a discovery destination carries sequence number (k-1) modulo 2^32, independently of traffic to the other destinations.", "quantifier": "for every number of rounds and set of destinations", "why_tests_cant": "2^32 rounds cannot be run.", "anchors": ["core/dtn7/src/ipnd/neighbour_discovery.rs: announcer", "core/dtn7/src/dtnconfig.rs: update_beacon_sequence_number"]}
{"id": "C49", "title": "A node never lists itself as a peer through discovery", "statement": "However many beacons arrive, no beacon carrying this node's own endpoint id creates or changes a peer entry; every other valid beacon leaves a fresh entry for its sender.", "quantifier": "for every sequence of beacons", "why_tests_cant": "All sequences.", "anchors": ["core/dtn7/src/ipnd/neighbour_discovery.rs: receiver"]}
{"id": "C50", "title": "Management interface is restricted to localhost", "statement": "Unless explicitly switched off, every state-changing management request (send, insert, register, unregister, endpoint polling, bundle deletion, peer changes, routing commands) from an address that is not a loopback address (127.0.0.0/8, also written as an IPv6 address, or ::1) is rejected without effect.", "quantifier": "for every client address and every management route", "why_tests_cant": "All addresses and routes.", "anchors": ["core/dtn7/src/dtnd/httpd.rs: RequireLocalhost, spawn_httpd"]}
{"id": "C51", "title": "Store digests identify the set of known bundles", "statement": "Two nodes that know the same set of bundle ids publish the same digest, in whatever order they learned them; and (up to SHA-1 collisions) different sets have different digests.", "quantifier": "for every pair of stores", "why_tests_cant": "All sets and orders.", "anchors": ["core/dtn7/src/core/helpers.rs: get_complete_digest, get_digest_of_bids"]}
{"id": "C52", "title": "Pulling fetches exactly what is missing", "statement": "A pull round against a neighbour requests exactly the bundles the neighbour lists and this node does not hold, each once; if the digests agree nothing is requested; what was downloaded and is no bundle is counted as broken.", "quantifier": "for every pair of stores", "why_tests_cant": "All stores.", "anchors": ["core/dtn7/src/cla/httppull.rs: http_pull_from_node"]}
{"id": "C53", "title": "External convergence layers: names are unique and data only flows after registration", "statement": "No two connected external convergence layer modules ever own the same layer name; a module that has not registered cannot inject bundles or peers; after a module disconnects its layer is no longer used, and no other layer is affected.", "quantifier": "for every interleaving of connects, packets and disconnects of any number of modules", "why_tests_cant": "All interleavings.", "anchors": ["core/dtn7/src/cla/ecla/processing.rs: handle_packet, handle_connect, handle_disconnect"]}
{"id": "C54", "title": "TCPCL: the extension list of a segment takes exactly the bytes it announces", "statement": "When a START segment announces an extension list of n bytes, reading the segment takes exactly those n bytes as the list (or reports an error); the bytes that follow are interpreted as the rest of the segment and the next messages.", "quantifier": "for every announced length and every list content, including hostile ones", "why_tests_cant": "Only hand-picked item lists are tested; item lengths that disagree with the announced total are not.", "anchors": ["core/dtn7/src/cla/tcp/net.rs: TcpClPacket::read"]}
{"id": "C55", "title": "TCPCL: local events do not make a session lose messages of the peer", "statement": "Every message the peer wrote is received, regardless of when bundles are submitted locally and when the keepalive timer fires relative to the arrival of the bytes of the message.", "quantifier": "for every message sequence, every chunking by TCP and every interleaving with local events", "why_tests_cant": "The loss needs a message split over two TCP reads and a local event in between.", "anchors": ["core/dtn7/src/cla/tcp/mod.rs: TcpSession::run", "core/dtn7/src/cla/tcp/net.rs: TcpClPacket::read"]}
{"id": "C56", "title": "TCPCL: a session is ended for idleness only after an unanswered keepalive", "statement": "A session is terminated for idleness only if a keepalive had been sent and a whole keepalive interval passed without an answer.", "quantifier": "for every history of messages, submissions and timer expirations", "why_tests_cant": "Needs histories with timers; tests do not wait for keepalive intervals.", "anchors": ["core/dtn7/src/cla/tcp/mod.rs: TcpSession::run"]}
{"id": "C57", "title": "Different bundles have different ids", "statement": "Two bundles have the same id exactly if they have the same source, creation time and sequence number and, for fragments, the same fragment offset; a whole bundle and a fragment never share an id.", "quantifier": "for every pair of bundles with any sources, timestamps and offsets", "why_tests_cant": "Collisions need specific endpoint names containing the separator.", "anchors": ["bp7 Bundle::id as used by core/dtn7/src/core/bundlepack.rs: From<Bundle>, core/dtn7/src/core/store/*.rs"]}
{"id": "C58", "title": "Metadata read back from the sneakers store describes the bundle that was stored", "statement": "After a successful metadata update, reading the metadata of that bundle yields the same id, times, constraints and the same administrative-record marker, the source and destination are as before, and other bundles' metadata is unchanged.", "quantifier": "for every metadata record and every store content", "why_tests_cant": "All metadata values.", "anchors": ["core/dtn7/src/core/store/sneakers.rs: update_metadata, get_metadata"]}
{"id": "C59", "title": "A neighbour that announces itself on time is not dropped", "statement": "Between a beacon of a neighbour and the moment its next beacon is due according to the interval it announces, the periodic clean-up does not drop the neighbour (unless the operator configured an own timeout).", "quantifier": "for every announcement interval, every arrival time and every time of the clean-up in between", "why_tests_cant": "Needs all intervals and all phase shifts against the second boundary.", "anchors": ["core/dtn7/src/core/peer.rs: DtnPeer::still_valid", "core/dtn7/src/ipnd/beacon.rs: serialize, deserialize", "core/dtn7/src/ipnd/neighbour_discovery.rs: receiver"]}
{"id": "C60", "title": "Spray-and-wait: an own bundle is sprayed to all reachable peers while the budget lasts", "statement": "With spray-and-wait and L initial copies, a bundle created by an endpoint of this node is handed at its first query to every reachable peer, provided there are at most L-1 of them.", "quantifier": "for every node id, every local endpoint, every peer table", "why_tests_cant": "Whether a bundle counts as own is decided by comparing texts; tests use one naming scheme.", "anchors": ["core/dtn7/src/routing/sprayandwait.rs: handle_new_bundle, handle_sender_for_bundle"]}
{"id": "C61", "title": "No bundle and no command stops the routing agent", "statement": "Whatever bundles are received or sent, whatever is reported and whatever commands arrive, the routing agent keeps answering queries.", "quantifier": "for every history of queries, notifications and commands, for every routing strategy", "why_tests_cant": "Needs all bundles (any destination) and all table files.", "anchors": ["core/dtn7/src/routing/epidemic.rs: handle_routing_cmd", "core/dtn7/src/routing/sprayandwait.rs: handle_sender_for_bundle", "core/dtn7/src/routing/static_routing.rs: parse_route_from_str, handle_routing_cmd"]}
{"id": "C62", "title": "External routing: a timely matching answer is used", "statement": "If the external router answers a query while it is waiting, with the same bundle and the same constraints, then the query returns what the answer says.", "quantifier": "for every history of queries, answers, connections and every order in which constraints are printed", "why_tests_cant": "Needs overlapping queries, or the random iteration order of a hash set.", "anchors": ["core/dtn7/src/routing/erouting/processing.rs: sender_for_bundle, handle_connection", "core/dtn7/src/core/bundlepack.rs: Display for BundlePack"]}
{"id": "C63", "title": "An application gets a bundle at most once per acceptance", "statement": "In any history a bundle is handed over to application agents at most as often as it was accepted by a reception or submitted; a bundle that only arrives from the network is handed over at most once more than it was removed from the store. It is handed over only at the endpoint it is addressed to, by the task that accepted it, and with the id it was accepted under.", "quantifier": "for every history and every interleaving of receptions, submissions, deliveries, deletions and janitor runs", "why_tests_cant": "Needs the count of hand-overs over all interleavings of an unbounded number of concurrent receptions of the same bundle; tests run one schedule.", "anchors": ["core/dtn7/src/core/processing.rs: receive, dispatch, local_delivery", "core/dtn7/src/core/application_agent.rs: push"]}
{"id": "C64", "title": "Every removal has a reason", "statement": "A bundle leaves the store only for one of these reasons: the user deletes it, an application fetched it or got it pushed, its expiry time is over, its lifetime, age or hop limit is exceeded, it carries an unknown block that demands deletion, it was submitted with a source nobody is registered for, it is an unreadable administrative record, a status report about it arrived or was sent, or the routing decision asked for it.", "quantifier": "for every history and every interleaving of any number of receptions, submissions, forwarding attempts, fetches, deletions and janitor runs", "why_tests_cant": "Needs all code paths that can remove something in all interleavings.", "anchors": ["core/dtn7/src/core/processing.rs: receive, dispatch, forward, local_delivery, delete, inspect_status_report", "core/dtn7/src/dtnd/janitor.rs", "core/dtn7/src/dtnd/httpd.rs: delete, endpoint"]}
{"id": "C65", "title": "Bundles for this node are never transmitted", "statement": "A bundle that is addressed to an endpoint of this node is never handed to a convergence layer, neither by the task that accepted it nor by a later janitor run.", "quantifier": "for every history and every interleaving", "why_tests_cant": "Needs all later janitor runs and all interleavings with the accepting task.", "anchors": ["core/dtn7/src/core/processing.rs: dispatch, forward, process_bundles", "core/dtn7/src/dtnd/janitor.rs"]}
{"id": "C66", "title": "Neighbours list exactly what a node announces", "statement": "When a node whose services respect the documented limits announces itself, any other node that receives the datagram lists it under its endpoint id with the sender's address, exactly the announced convergence layers and ports in order, exactly the announced services with their values, and the announced period in whole seconds (none if it is not configured).", "quantifier": "for every configuration, sequence number, receiver, table of known peers, and order in which the map of services is written", "why_tests_cant": "All texts, lists, tags and all iteration orders of a hash map.", "anchors": ["core/dtn7/src/ipnd/neighbour_discovery.rs: announcer, receiver", "core/dtn7/src/ipnd/beacon.rs", "core/dtn7/src/ipnd/services.rs"]}
{"id": "C67", "title": "No service stops the announcements", "statement": "Whatever services the node has been given, it goes on announcing itself.", "quantifier": "for every list of services", "why_tests_cant": "All tags and texts, including those entered while the daemon runs.", "anchors": ["core/dtn7/src/ipnd/beacon.rs: add_custom_service", "core/dtn7/src/ipnd/services.rs: build_custom_service", "core/dtn7/src/lib.rs: service_add"]}
{"id": "C68", "title": "No datagram stops neighbour discovery", "statement": "Whatever bytes arrive at the discovery port, the node goes on receiving beacons.", "quantifier": "for every datagram and every table of peers", "why_tests_cant": "All byte strings.", "anchors": ["core/dtn7/src/ipnd/neighbour_discovery.rs: receiver", "core/dtn7/src/ipnd/beacon.rs: Deserialize for Beacon", "core/dtn7/src/ipnd/services.rs: convert_services, Deserialize for ServiceBlock"]}
{"id": "C69", "title": "A bundle given to a websocket client's session is not lost", "statement": "A bundle that was passed to the session of a subscribed websocket client, or fetched from a queue for it, is written to the client, waits for it, or can still be polled.", "quantifier": "for every history and interleaving of deliveries, commands, disconnections", "why_tests_cant": "Needs a disconnection between any two accesses of the session's tasks.", "anchors": ["core/dtn7/src/dtnd/ws.rs: handle_socket, handle_bundle_delivery, fetch_new_bundles", "core/dtn7/src/core/application_agent.rs: push"]}
{"id": "C70", "title": "Other clients do not end a subscription", "statement": "While a client stays connected and does not unsubscribe, and no other client subscribes to its endpoint, each bundle for the endpoint goes to this client.", "quantifier": "for every history and interleaving of the other clients' commands and disconnections", "why_tests_cant": "Needs all interleavings of several clients' lives.", "anchors": ["core/dtn7/src/dtnd/ws.rs: handle_socket, handle_message", "core/dtn7/src/core/application_agent.rs: set_delivery_addr, clear_delivery_addr"]}
{"id": "C71", "title": "Sending over the websocket submits what was asked for", "statement": "A binary message in bundle mode submits exactly the bundle it encodes; in data mode exactly one bundle with the given source, destination, lifetime, payload and delivery-report flag, reporting to the source; a message that cannot be read or has an invalid address submits nothing, and nothing else submits.", "quantifier": "for every session state and message", "why_tests_cant": "All requests in all modes.", "anchors": ["core/dtn7/src/dtnd/ws.rs: handle_message"]}
{"id": "C72", "title": "A websocket client is shown the bundles it gets, in its mode", "statement": "Each bundle handed to a client appears as exactly one message, in bundle mode the bundle and in data mode its id, source, destination, creation time, lifetime and payload in the chosen format; apart from these only replies and answers to pings are written, and never out of turn.", "quantifier": "for every history, every interleaving and every change of mode", "why_tests_cant": "Needs all interleavings of mode changes with deliveries and fetches.", "anchors": ["core/dtn7/src/dtnd/ws.rs: handle_message, handle_bundle_delivery, fetch_new_bundles"]}
{"id": "C73", "title": "Each websocket request is answered", "statement": "For every command and every binary message a client sends, a reply is written to it unless it disconnects first.", "quantifier": "for every session state and message", "why_tests_cant": "All commands and all data.", "anchors": ["core/dtn7/src/dtnd/ws.rs: handle_message"]}
{"id": "C74", "title": "Remote clients can only read and push", "statement": "Unless explicitly switched off, a request from an address that is not a loopback address can at most make the node receive the bundle in the body of a push (or count it as broken): it changes no endpoint, peer, stored bundle, submits nothing, sends no routing command and opens no control session.", "quantifier": "for every request, client address, state and configuration", "why_tests_cant": "All paths, methods and bodies; which routes a guard covers depends on the order in which the router is put together.", "anchors": ["core/dtn7/src/dtnd/httpd.rs: RequireLocalhost, spawn_httpd, push_post"]}
{"id": "C75", "title": "Looking changes nothing and shows the state", "statement": "Status pages, listings and downloads leave the node as it is; the listings of endpoints, peers and bundles (also filtered by address) contain exactly what is there, each once, and a download is exactly the stored bundle.", "quantifier": "for every state, request and history of the store", "why_tests_cant": "All states and queries.", "anchors": ["core/dtn7/src/dtnd/httpd.rs: status_eids, status_bundles, status_bundles_filtered, status_peers, download, download_hex", "core/dtn7/src/core/store/mod.rs: filter_addr"]}
{"id": "C76", "title": "Polling over HTTP hands out each bundle once, oldest first", "statement": "A poll of a registered endpoint answers with the oldest waiting bundle, which then no longer waits; a bundle leaves the queue of an endpoint only in the answer to a request or with its endpoint.", "quantifier": "for every state and request", "why_tests_cant": "All methods, paths, names and queues.", "anchors": ["core/dtn7/src/dtnd/httpd.rs: endpoint, endpoint_hex"]}
{"id": "C77", "title": "Every HTTP request is answered", "statement": "Whatever a client sends, it gets an HTTP response.", "quantifier": "for every request and state", "why_tests_cant": "All queries and bodies.", "anchors": ["core/dtn7/src/dtnd/httpd.rs: send_post, http_peers_add, register, endpoint, insert_get"]}
{"id": "C78", "title": "Sending over HTTP submits what was asked for", "statement": "A local client's request to send a payload of at most 2 MiB to a valid destination submits exactly one bundle with that payload and destination, from this node, reporting to it, with the requested lifetime (one hour if none is given or it cannot be read), a requested delivery report and a hop limit of 32, and is confirmed; any other request to send is not confirmed and has no effect.", "quantifier": "for every request and state", "why_tests_cant": "All queries and bodies.", "anchors": ["core/dtn7/src/dtnd/httpd.rs: send_post"]}
{"id": "C79", "title": "Peers added and removed by hand", "statement": "A local client's request to add a peer makes the node its URL names a peer with the address and convergence layer of the URL, of the requested kind, and says whether it was new; a request to remove one removes exactly that node; a URL that names no node changes nothing and is not confirmed.", "quantifier": "for every URL, table of peers and state", "why_tests_cant": "All URLs.", "anchors": ["core/dtn7/src/dtnd/httpd.rs: http_peers_add, http_peers_delete", "core/dtn7/src/core/helpers.rs: parse_peer_url", "core/dtn7/src/lib.rs: peers_add, peers_remove"]}
{"id": "C80", "title": "HTTP convergence layer: success is only reported if the neighbour received the bundle", "statement": "When the HTTP convergence layer reports a transfer as successful, the neighbour's node has received the bundle.", "quantifier": "for every bundle, neighbour state and loss of request or answer", "why_tests_cant": "All bundle sizes and failures.", "anchors": ["core/dtn7/src/cla/http.rs: http_send_bundles", "core/dtn7/src/dtnd/httpd.rs: push_post"]}
{"id": "C81", "title": "Pulling does not fetch again what was removed", "statement": "A bundle that was once known here, and has been delivered or removed since, is not fetched again from a neighbour (as the digest, which counts removed bundles as known, intends).", "quantifier": "for every pair of histories of the two stores", "why_tests_cant": "All histories.", "anchors": ["core/dtn7/src/cla/httppull.rs: http_pull_from_node", "core/dtn7/src/core/helpers.rs: get_complete_digest"]}
{"id": "C82", "title": "No packet from a module disables external convergence layers", "statement": "Whatever the connected modules sent before, a new module that asks for a free, valid name gets it and is told so.", "quantifier": "for every history of connections, packets, disconnects, beacons and transfers", "why_tests_cant": "All packets and histories, including malformed ones.", "anchors": ["core/dtn7/src/cla/ecla/processing.rs: handle_packet", "core/dtn7/src/cla/ecla/ws.rs: handle_connection, close", "core/dtn7/src/cla/ecla/tcp.rs: close"]}
{"id": "C83", "title": "Transfers over external convergence layers", "statement": "A transfer over an external layer is handed to the module that registered the layer's name, with exactly the bundle and destination, and is reported as successful only if it was.", "quantifier": "for every history and every transfer", "why_tests_cant": "All histories, including slow and disconnecting modules.", "anchors": ["core/dtn7/src/cla/ecla/processing.rs: scheduled_submission", "core/dtn7/src/cla/external.rs: new", "core/dtn7/src/cla/ecla/ws.rs: send_packet", "core/dtn7/src/cla/ecla/tcp.rs: send_packet"]}
{"id": "C84", "title": "The node's operations never block each other for ever", "statement": "Whatever operations run at the same time and however they are scheduled, all of them can be completed.", "quantifier": "for every number of concurrent operations of any kind and every schedule", "why_tests_cant": "Deadlocks need rare schedules of several threads.", "anchors": ["core/dtn7/src/lib.rs: CONFIG, DTNCORE, PEERS, STATS, SENDERTASK, STORE, CLAS", "core/dtn7/src/dtnd/httpd.rs: index", "core/dtn7/src/core/mod.rs: process_peers", "core/dtn7/src/core/peer.rs: still_valid", "core/dtn7/src/cla/ecla/processing.rs: scheduled_submission, announcer, handle_packet"]}
{"id": "C85", "title": "Transfers over IP are tried at the peer's address", "statement": "A transfer to a discovered peer over MTCP, UDP, HTTP or TCPCL is tried at the address the peer was discovered at and the port of the layer, whatever was transferred before.", "quantifier": "for every peer with an IP address, every layer and every history of transfers", "why_tests_cant": "All addresses, and the effect of every earlier transfer.", "anchors": ["core/dtn7/src/core/peer.rs: first_cla", "core/dtn7/src/cla/mtcp.rs: new", "core/dtn7/src/cla/udp.rs: new", "core/dtn7/src/cla/http.rs: http_send_bundles", "core/dtn7/src/cla/tcp/mod.rs: tcp_send_bundles"]}
{"id": "C86", "title": "UDP: whole bundles, and no datagram stops reception", "statement": "A transfer over UDP reported as successful was sent as one datagram with exactly the bundle, otherwise nothing was sent; a node takes in exactly the bundles among the datagrams it gets, in order, and counts the others as broken.", "quantifier": "for every bundle and every sequence of datagrams", "why_tests_cant": "Any datagrams can arrive in any order.", "anchors": ["core/dtn7/src/cla/udp.rs: udp_send_bundles, udp_listener"]}
{"id": "C87", "title": "MTCP: what is reported as transferred arrives", "statement": "A transfer over MTCP that is reported as successful was written on a connection to the peer's address, and unless that connection fails the peer gets exactly that bundle, once.", "quantifier": "for every number of concurrent transfers and every schedule, partial writes included", "why_tests_cant": "Interleavings of concurrent partial writes cannot be enumerated by tests.", "anchors": ["core/dtn7/src/cla/mtcp.rs: mtcp_send_bundles, MTCP_CONNECTIONS, new"]}
{"id": "C88", "title": "MTCP: a failed connection is not used again", "statement": "Once a transfer was reported as failed on a connection, no transfer that takes a connection later uses that connection.", "quantifier": "for every number of concurrent transfers and every schedule", "why_tests_cant": "Races between failing and starting transfers.", "anchors": ["core/dtn7/src/cla/mtcp.rs: mtcp_send_bundles, MTCP_CONNECTIONS"]}
{"id": "C89", "title": "Switches on the command line are in force", "statement": "If the daemon starts, every switch given on its command line (IP versions, status reports, external convergence layers and their port, parallel processing, beacon periods, open HTTP interface, no discovery) is in force; the HTTP interface is open to other hosts only if that was asked for.", "quantifier": "for every command line and configuration file", "why_tests_cant": "There are too many combinations of options and files to try; the order in which they are applied matters.", "anchors": ["core/dtn7/src/bin/dtnd.rs: main", "core/dtn7/src/dtnconfig.rs: DtnConfig::from, DtnConfig::new"]}
{"id": "C90", "title": "Values on the command line are in force", "statement": "If the daemon starts, the node id, times, ports, directories, routing algorithm and its options, store, convergence layers and their settings, services, static peers and endpoints given on the command line are in force as given.", "quantifier": "for every command line and configuration file", "why_tests_cant": "The values are free text taken apart at separators; tests try a few.", "anchors": ["core/dtn7/src/bin/dtnd.rs: main", "core/dtn7/src/core/helpers.rs: is_valid_node_name"]}
{"id": "C91", "title": "Beacons go to the destinations asked for", "statement": "Discovery beacons go exactly to the destinations asked for whose IP version is in use, with port 3003 if none is given, and to the default multicast groups only if no destination was asked for.", "quantifier": "for every command line and configuration file", "why_tests_cant": "Destinations come from two places and defaults are filled in twice.", "anchors": ["core/dtn7/src/dtnconfig.rs: add_destination, check_destinations", "core/dtn7/src/bin/dtnd.rs: main"]}
{"id": "C92", "title": "The peer timeout option decides when a silent peer is dropped", "statement": "With a peer timeout given on the command line, a discovered peer is dropped exactly when nothing was heard of it for that long.", "quantifier": "for every command line, peer and time", "why_tests_cant": "The option, the announced period and the default interact.", "anchors": ["core/dtn7/src/bin/dtnd.rs: main", "core/dtn7/src/core/peer.rs: still_valid", "core/dtn7/src/dtnconfig.rs: custom_timeout"]}
{"id": "C93", "title": "The configuration file is in force", "statement": "If the daemon starts, every value in its configuration file is in force as given unless the command line says otherwise.", "quantifier": "for every configuration file and command line", "why_tests_cant": "Invalid values are replaced silently, which tests with valid files do not show.", "anchors": ["core/dtn7/src/dtnconfig.rs: DtnConfig::from", "core/dtn7/src/bin/dtnd.rs: main"]}
{"id": "C94", "title": "The node starts with what was configured", "statement": "After the start the node has exactly its own id and the configured endpoints as endpoints, each once and empty; exactly the configured static peers, the last for each node; the configured convergence layers; and the janitor, discovery and external layers run exactly if configured.", "quantifier": "for every configuration", "why_tests_cant": "Repeated endpoints and peers, and ids in both notations, make too many cases.", "anchors": ["core/dtn7/src/dtnd/daemon.rs: start_dtnd", "core/dtn7/src/core/mod.rs: register_application_agent", "core/dtn7/src/lib.rs: peers_add"]}
{"id": "C95", "title": "One connection for an address", "statement": "At any time the node has at most one TCPCL connection that it opened itself to an address, connections still being opened included, however many transfers to that address run at the same time.", "quantifier": "every run of the session table: any interleaving of transfers, accepted connections, failures and session ends", "why_tests_cant": "two connections need two transfers that look for a session between the same two steps of a third task; a test runs a few schedules of the tokio scheduler", "anchors": ["core/dtn7/src/cla/tcp/mod.rs: tcp_send_bundles, Listener"]}
{"id": "C96", "title": "A TCPCL transfer is sent once and to its address", "statement": "A bundle given to the TCPCL layer for an address is taken from the queue of at most one session, at most once, by a session to that address; at most one verdict is given on it, a reported verdict never changes, and success is reported only if such a session took the bundle and gave that verdict.", "quantifier": "every run of the session table with any number of transfers, sessions and failures", "why_tests_cant": "double sending or a verdict for the wrong transfer shows only for certain interleavings of queue, session end and new session", "anchors": ["core/dtn7/src/cla/tcp/mod.rs: tcp_send_bundles, TcpConnection, TcpSession", "core/dtn7/src/cla/mod.rs: ClaSenderTask::transfer"]}
{"id": "C97", "title": "Every TCPCL transfer gets an answer", "statement": "A transfer over TCPCL that was started gets an answer, success or failure, whatever the peer does or leaves undone.", "quantifier": "every reachable state of the session table, every waiting transfer, every behaviour of peers", "why_tests_cant": "a test cannot wait forever; that no continuation at all leads to an answer is a statement about all continuations", "anchors": ["core/dtn7/src/cla/tcp/mod.rs: tcp_send_bundles, TcpConnection::connect, exchange_contact_header, negotiate_session"]}
{"id": "C98", "title": "The janitor goes on", "statement": "The janitor, which retries bundles and removes peers and expired bundles, gets to its next round from any state, whatever the peers it sends to do or leave undone.", "quantifier": "every run of the janitor with any groups of transfers and any behaviour of peers", "why_tests_cant": "a round that never ends is a statement about all continuations of a schedule", "anchors": ["core/dtn7/src/dtnd/cron.rs: spawn_timer", "core/dtn7/src/dtnd/janitor.rs: janitor", "core/dtn7/src/core/mod.rs: process_bundles", "core/dtn7/src/core/processing.rs: forward", "core/dtn7/src/cla/tcp/mod.rs: tcp_send_bundles"]}
{"id": "C99", "title": "Content arrives as it was sent", "statement": "Whatever a daemon of a network hands to an application comes from a bundle submitted (or a status report made) at some daemon of the network: same source, destination, timestamps and lifetime, same payload and same extension blocks except previous node, age and hop count, and the application is the one the bundle is addressed to - whatever the network loses, repeats, delays or misdirects.", "quantifier": "every network of daemons with any settings, every schedule of their tasks, every loss, repetition, reordering and misdirection of what they send, downloads included", "why_tests_cant": "a test network has a few nodes and a few schedules; the claim is about every number of hops and every interleaving", "anchors": ["core/dtn7/src/core/processing.rs: receive, dispatch, local_delivery, forward, send_bundle", "core/dtn7/src/cla/httppull.rs: http_pull_from_node", "core/dtn7/src/dtnd/httpd.rs: download_by_bid"]}
{"id": "C100", "title": "Hop limits hold across the network", "statement": "A bundle made with a hop limit arrives only after at most as many hops as the limit still allows, and its hop count tells the number of transmissions since it was made; with links only between neighbours it never gets further away than that.", "quantifier": "every network of daemons, every bundle with hop count, every schedule and every misbehaviour of the links", "why_tests_cant": "distance travelled is a property of runs of all nodes together, of any length", "anchors": ["core/dtn7/src/core/processing.rs: forward, update_hop_count (bundle.update_extensions), receive", "core/dtn7/src/cla/httppull.rs: http_pull_from_node"]}
{"id": "C101", "title": "The previous node is the one it came from", "statement": "A bundle that arrives over a link names as its previous node the daemon that transmitted it.", "quantifier": "every network of daemons, every arriving bundle, every schedule", "why_tests_cant": "needs all paths a copy can take through reception, store and retransmission on several nodes", "anchors": ["core/dtn7/src/core/processing.rs: update_previous_node (bundle.set_previous_node_block), forward", "core/dtn7/src/cla/httppull.rs: http_pull_from_node"]}
{"id": "C102", "title": "A bundle for a registered application gets to it", "statement": "When the processing of a bundle that was received (new, nothing in it to be dropped or deleted) or submitted is over, and its destination was registered all the time, the bundle has been handed to the application or put into its queue, unless somebody removed the bundle, the store failed or (submitted) the source was not registered.", "quantifier": "every run of the daemon with any number of concurrent tasks, every received or submitted bundle, every registration history", "why_tests_cant": "depends on what other tasks, the janitor and users do between any two steps of the processing", "anchors": ["core/dtn7/src/core/processing.rs: receive, transmit, dispatch, local_delivery", "core/dtn7/src/core/application_agent.rs: deliver"]}
{"id": "C103", "title": "The two built-in stores are interchangeable", "statement": "Whether the daemon keeps its bundles in memory or on disk, after the same history of storing, updating and removing every query (presence, content, metadata, listings) has the same answer, as long as no bundle is stored again after its removal; then both accept the same.", "quantifier": "every history of store operations without a crash", "why_tests_cant": "histories are unbounded; agreement is a relation between all states of two implementations", "anchors": ["core/dtn7/src/core/store/mem.rs: InMemoryBundleStore", "core/dtn7/src/core/store/sled.rs: SledBundleStore"]}
{"id": "C104", "title": "Deleting over HTTP deletes", "statement": "A permitted delete request says whether the daemon has the bundle; afterwards the bundle can neither be downloaded nor is it listed nor forwarded again, and every other bundle is as before.", "quantifier": "every state of the daemon, every bundle id, every permitted client", "why_tests_cant": "a claim about all later requests and all other bundles of every state", "anchors": ["core/dtn7/src/dtnd/httpd.rs: delete", "core/dtn7/src/core/store/mem.rs: InMemoryBundleStore::remove", "core/dtn7/src/core/mod.rs: process_bundles"]}
{"id": "C105", "title": "Registering over HTTP", "statement": "Registering the endpoint a request names makes it registered and keeps what waits for it if it was registered before; unregistering removes it; all other endpoints and everything else stay; a name that denotes no endpoint is refused without effect.", "quantifier": "every state of the daemon, every request of a permitted client", "why_tests_cant": "quantifies over all endpoint tables and all names", "anchors": ["core/dtn7/src/dtnd/httpd.rs: register, unregister", "core/dtn7/src/core/application_agent.rs: SimpleApplicationAgent"]}
{"id": "C106", "title": "Inserting and pushing over HTTP", "statement": "The bundle a request to insert or push carries is given to the node once and unaltered, as one of its own or as a received one; a request that carries none is refused without effect, except that broken pushes are counted.", "quantifier": "every state of the daemon, every request", "why_tests_cant": "the content of requests is arbitrary; no sample shows that nothing else changes", "anchors": ["core/dtn7/src/dtnd/httpd.rs: insert_get, insert_post, push_post", "core/dtn7/src/core/processing.rs: send_bundle, receive"]}
{"id": "C107", "title": "The receive tool writes what it takes", "statement": "Fetching from an endpoint with the command line tool takes its oldest bundle and writes that bundle, or its content, to the output; downloading writes the bundle asked for and changes nothing; deleting, registering and unregistering are reported as done exactly if the daemon did them.", "quantifier": "every state of the daemon, every set of arguments", "why_tests_cant": "depends on every size and content of bundles and every daemon state", "anchors": ["core/dtn7/src/bin/dtnrecv.rs: main, write_bundle_payload", "core/dtn7/src/dtnd/httpd.rs: endpoint, download, delete, register, unregister"]}
{"id": "C108", "title": "The send tool sends what it says", "statement": "If the command line tool for sending ends with success, the daemon has been given one bundle from the sender to the receiver named, with the lifetime and the content given; a dry run has no effect.", "quantifier": "every state of the daemon, every set of arguments, every content", "why_tests_cant": "the size of the content is unbounded; the refutation needs more than 2 MiB", "anchors": ["core/dtn7/src/bin/dtnsend.rs: main", "core/dtn7/src/dtnd/httpd.rs: insert_post, http_main"]}
{"id": "C109", "title": "The trigger tool runs the command per bundle", "statement": "The tool that runs a command for each arriving bundle runs it for every bundle the daemon writes to it, once and in order, with the source and the content of the bundle, and not for administrative records.", "quantifier": "every execution of the daemon, every set of clients, every moment", "why_tests_cant": "interleavings of deliveries, subscriptions and other clients are unbounded", "anchors": ["core/dtn7/src/bin/dtntrigger.rs: main, write_temp_file, execute_cmd", "core/dtn7/src/dtnd/ws.rs: handle_connection"]}
{"id": "C110", "title": "The trigger tool misses no bundle of its endpoint", "statement": "When the tool that runs a command for each bundle has subscribed and nobody else uses the endpoint, the command is run for every bundle that was waiting for the endpoint and every one delivered since, in order.", "quantifier": "every execution before and after the subscription", "why_tests_cant": "the state found by the subscription depends on an arbitrary history", "anchors": ["core/dtn7/src/bin/dtntrigger.rs: main", "core/dtn7/src/dtnd/ws.rs: handle_connection, WsAASession"]}
{"id": "C111", "title": "What it takes to start a TCPCL session", "statement": "A TCPCL session starts, acts or adds a peer only after the other side has sent a valid contact header and session parameters naming an endpoint; such a greeting is also enough, in whatever pieces it arrives; the session uses the sizes announced and the smaller timer; a node becomes a peer only if it opened the connection and was not known; two nodes running this code agree on the parameters, and without failures both get into the session.", "quantifier": "all byte streams of the other side, all ways they are cut into pieces, all interleavings with submissions and timers", "why_tests_cant": "the other side may send anything in any pieces; agreement is about every schedule of two nodes", "anchors": ["core/dtn7/src/cla/tcp/mod.rs: TcpConnection::connect, exchange_contact_header, send_contact_header, receive_contact_header, negotiate_session", "core/dtn7/src/cla/tcp/net.rs", "core/dtn7/src/cla/tcp/proto.rs"]}
{"id": "C112", "title": "Success means received, on real byte streams", "statement": "When a node reports the transfer of a bundle over TCPCL as successful, the other node has received exactly that bundle or had it already, for two nodes that exchange bytes in arbitrary pieces.", "quantifier": "all schedules of two nodes, all cuttings of the byte streams, all loads", "why_tests_cant": "the refutation needs a submission at one point within a message whose payload looks like another message", "anchors": ["core/dtn7/src/cla/tcp/mod.rs: TcpSession::run, handle_packet", "core/dtn7/src/cla/tcp/net.rs: TcpPacketReader"]}
{"id": "C113", "title": "TCPCL transfers come to an end", "statement": "On a connection that does not fail every bundle taken from the queue is reported on in the end, or a session ends.", "quantifier": "all runs of two nodes without failures, all sizes of the buffers between them, all fair continuations", "why_tests_cant": "a liveness claim about infinite schedules; the deadlock needs two transfers larger than any buffer at once", "anchors": ["core/dtn7/src/cla/tcp/mod.rs: TcpSession::run, send", "core/dtn7/src/cla/tcp/net.rs: write"]}
{"id": "C114", "title": "An undisturbed TCPCL connection delivers everything", "statement": "On a connection without failures, timeouts and closings every valid bundle taken from the queue arrives and is reported as transferred, and no session ends.", "quantifier": "all schedules of two nodes that only read and hand over valid bundles", "why_tests_cant": "quantifies over all interleavings of two directions of transfers and all cuttings of the streams", "anchors": ["core/dtn7/src/cla/tcp/mod.rs: TcpSession::run, handle_packet, send", "core/dtn7/src/cla/tcp/net.rs"]}
{"id": "C115", "title": "Packets reach a TCP module whole and in order", "statement": "What an external convergence layer reads from its TCP connection to the node are the packets meant for it, whole and in order.", "quantifier": "all sequences of packets, all sizes, all amounts the socket takes of each write", "why_tests_cant": "whether the socket takes a write only in part depends on the load of the connection; a test on an idle connection never sees it", "anchors": ["core/dtn7/src/cla/ecla/tcp.rs: handle_connection, TCPConnector::send_packet"]}
{"id": "C116", "title": "What the node makes of the bytes of a TCP module", "statement": "Whatever bytes an external convergence layer sends, in whatever pieces: the packets it framed properly are handled one after the other up to the first improper one, which ends only this connection.", "quantifier": "all byte streams, all ways of cutting them into pieces", "why_tests_cant": "the module may send anything, in any pieces", "anchors": ["core/dtn7/src/cla/ecla/tcp.rs: handle_connection"]}
{"id": "C117", "title": "The query tool shows what is there", "statement": "dtnquery changes nothing, ends with success, and lists the bundles in the store that match the address given, in the form chosen.", "quantifier": "all stores reachable by any history, all combinations of options, all addresses", "why_tests_cant": "needs all histories of the store and all combinations of options; the order of a hash map differs between runs", "anchors": ["core/dtn7/src/bin/dtnquery.rs", "core/dtn7/src/dtnd/httpd.rs: status_bundles, status_bundles_filtered, status_bundles_filtered_digest, status_bundles_verbose, status_bundles_digest, status_store", "core/dtn7/src/core/store/mod.rs: filter_addr, src_dst_ts, bundles_status", "core/dtn7/src/core/helpers.rs: get_complete_digest, get_digest_of_bids"]}
{"id": "C118", "title": "The echo service answers each bundle once", "statement": "The echo service sends to the node one answer for each bundle with a payload written to it, in order and none twice: back to its source, from where it was sent to, with the same content.", "quantifier": "all histories of the node, all clients, all interleavings of deliveries and answers", "why_tests_cant": "needs all interleavings of deliveries, replies of the node and messages of the service", "anchors": ["examples/dtnecho2.rs: main", "core/dtn7/src/dtnd/ws.rs: WsAASession"]}
{"id": "C119", "title": "Applications get a bundle at most as often as it was delivered", "statement": "However applications register, subscribe, poll, connect and leave: no bundle is given to them (by polls and over websockets together) more often than it was accepted for them.", "quantifier": "all histories and interleavings of deliveries, polls, clients and endpoints", "why_tests_cant": "the same bundle can sit in a queue, a channel and a handler; a test sees one schedule", "anchors": ["core/dtn7/src/core/application_agent.rs: SimpleApplicationAgent", "core/dtn7/src/dtnd/ws.rs: WsAASession", "core/dtn7/src/dtnd/httpd.rs: endpoint, endpoint_hex"]}
{"id": "C120", "title": "The echo service does not multiply traffic", "statement": "When what is delivered at the node are bundles from elsewhere and those submitted here, each at most once, the echo service sends at most one message for each bundle from elsewhere.", "quantifier": "all histories, all bundles (including forged sources)", "why_tests_cant": "depends on the addresses in bundles of others and on unbounded histories", "anchors": ["examples/dtnecho2.rs: main", "core/dtn7/src/core/application_agent.rs: SimpleApplicationAgent::deliver"]}
{"id": "C121", "title": "The exit code of the ping tool", "statement": "dtnping --count n ends after n pings and its exit code is 0 exactly if each was answered.", "quantifier": "all counts, all sequences of messages and timeouts", "why_tests_cant": "any message can come at any time, also late answers and bundles of others", "anchors": ["examples/dtnping.rs: main, send_ping"]}
{"id": "C122", "title": "External router: nobody is served twice", "statement": "The external routing program with the epidemic strategy names a node for a bundle only if it did not name it before and the bundle did not come from there, unless the daemon reported a failed transfer to it or a timeout for the bundle since; no answer names a node twice; whatever is named is a known peer on a layer both sides have.", "quantifier": "all sequences of packets from the daemon", "why_tests_cant": "needs all histories of packets, failures and timeouts", "anchors": ["examples/dtnerouting.rs: EpidemicStrategy, serve"]}
{"id": "C123", "title": "External router: whoever lacks the bundle is named", "statement": "Asked about a bundle, the external routing program names every reachable known peer that does not have it, unless it names the destination.", "quantifier": "all sequences of packets from the daemon", "why_tests_cant": "depends on the order of peers and earlier answers for the same bundle", "anchors": ["examples/dtnerouting.rs: EpidemicStrategy::sender_for_bundle"]}
{"id": "C124", "title": "External router: direct delivery goes to the destination only", "statement": "When the external routing program asks to remove a bundle after sending, it names the destination and nobody else; it does so whenever the destination is reachable and lacks the bundle, and never else.", "quantifier": "all sequences of packets from the daemon, all peer tables", "why_tests_cant": "depends on where the destination is in the order of the peers", "anchors": ["examples/dtnerouting.rs: EpidemicStrategy::sender_for_bundle"]}
{"id": "C125", "title": "External router: every request is answered", "statement": "The external routing program answers every request, and nothing else, with the bundle pack asked about.", "quantifier": "all sequences of packets from the daemon, both strategies", "why_tests_cant": "any endpoint can be the destination of a bundle; a panic ends the program", "anchors": ["examples/dtnerouting.rs: serve"]}
{"id": "C126", "title": "External router: flooding names everybody", "statement": "With the flooding strategy each answer names exactly the layers of all known peers that the daemon runs and never asks to remove the bundle.", "quantifier": "all sequences of packets from the daemon", "why_tests_cant": "needs all histories of encountered and dropped peers", "anchors": ["examples/dtnerouting.rs: flooding_strategy, serve"]}
{"id": "C127", "title": "The node takes in what a registered module forwards", "statement": "From a connected external convergence layer the node takes in exactly the bundles forwarded after its registration that can be read, in order, and nothing before it.", "quantifier": "all histories of all modules without a panic and with fresh client addresses", "why_tests_cant": "needs all interleavings of several modules", "anchors": ["core/dtn7/src/cla/ecla/processing.rs: handle_packet"]}
{"id": "C128", "title": "MTCP module: what arrives at its port gets into the node", "statement": "The MTCP module program reads from every accepted connection the bundles up to the first frame that is none, in order; whatever it read and does not hold in a channel any more was taken in by the node.", "quantifier": "all interleavings of connections, chunks, tasks, websocket and node", "why_tests_cant": "bundles can arrive before the module is registered; all schedules of the tasks", "anchors": ["examples/dtnecla_mtcp.rs: handle_connection, main", "core/dtn7/src/cla/ecla/ws_client.rs: Client::serve", "core/dtn7/src/cla/ecla/processing.rs: handle_packet"]}
{"id": "C129", "title": "MTCP module: what the node hands over goes out once and in order", "statement": "A bundle handed to the MTCP module reaches the peer at most once, in the order of the node; on a connection that has not failed the peer gets exactly what was written there; if nothing fails, every bundle is written or still queued.", "quantifier": "all interleavings, all failures of connections at any byte, all ways TCP cuts the stream", "why_tests_cant": "failure points and schedules are unbounded", "anchors": ["examples/dtnecla_mtcp.rs: send_bundle, main", "core/dtn7/src/cla/ecla/ws_client.rs: Client::serve"]}
{"id": "C130", "title": "MTCP module: it can register at any time", "statement": "Whatever happens before the websocket to the node is open, the MTCP module can still register afterwards.", "quantifier": "all histories before the websocket is open", "why_tests_cant": "needs histories that fill a channel", "anchors": ["examples/dtnecla_mtcp.rs: main", "core/dtn7/src/cla/ecla/ws_client.rs: Client::serve"]}
{"id": "C131", "title": "TCPCL: a silent peer is noticed", "statement": "A session whose peer stays silent is ended after a bounded number of keepalive intervals and the peer is told so.", "quantifier": "all bytes the peer sends before it falls silent, in all pieces, and all other events", "why_tests_cant": "depends on the last message heard, over histories of any length", "anchors": ["core/dtn7/src/cla/tcp/mod.rs: TcpSession::run, terminate_session"]}
{"id": "C132", "title": "websocket: a client that is there keeps its session", "statement": "The daemon does not disconnect a websocket client that sends something at least every 10 seconds, or that answers the daemon's pings within 25 seconds (less the lateness of the daemon's own timer).", "quantifier": "all sessions, messages, other clients, and all times of all events", "why_tests_cant": "depends on the times of all earlier messages and pings; tests do not run for that long", "anchors": ["core/dtn7/src/dtnd/ws.rs: ws_handler, WsAASession::handle_message, CLIENT_TIMEOUT, HEARTBEAT_INTERVAL"]}
{"id": "C133", "title": "websocket: a client that is gone loses its session", "statement": "A websocket session is open only if it was opened or the client gave a sign of life (ping or pong) no longer than 35 seconds ago, plus the lateness of the daemon's own timer.", "quantifier": "all sessions, messages, other clients, and all times of all events", "why_tests_cant": "depends on the times of all earlier messages; needs half a minute of silence", "anchors": ["core/dtn7/src/dtnd/ws.rs: ws_handler, CLIENT_TIMEOUT, HEARTBEAT_INTERVAL"]}
{"id": "C134", "title": "epidemic routing: a neighbour gets a bundle once", "statement": "While a node with epidemic routing runs, it successfully transmits a bundle to each neighbour at most once, however often the transmission is attempted or fails and however many tasks forward at the same time.", "quantifier": "all executions of the node: inputs, neighbours, failures, interleavings of all tasks and of the routing agent", "why_tests_cant": "concerns races between forwarding tasks, outcome notifications and queries of the agent", "anchors": ["core/dtn7/src/core/processing.rs: forward", "core/dtn7/src/routing/epidemic.rs: EpidemicRoutingAgentCore", "core/dtn7/src/lib.rs: routing_notify, routing_sender_for_bundle"]}
{"id": "C135", "title": "spray and wait: number of copies a node hands out", "statement": "While a node with spray and wait routing runs, it successfully transmits at most L-1 copies of a bundle of its own to nodes other than the destination, and none of a bundle of another node.", "quantifier": "all executions of the node, all L, all bundles that came into being once", "why_tests_cant": "concerns the sum over all forwarding attempts, failures and interleavings", "anchors": ["core/dtn7/src/core/processing.rs: forward", "core/dtn7/src/routing/sprayandwait.rs: SprayAndWaitRoutingAgentCore"]}
{"id": "C136", "title": "epidemic routing: a bundle does not go back", "statement": "A node with epidemic routing does not transmit a bundle to a node that it got this bundle from.", "quantifier": "all executions of the node, all copies received", "why_tests_cant": "concerns the order of the agent's notifications and queries over all interleavings", "anchors": ["core/dtn7/src/core/processing.rs: receive, dispatch, forward", "core/dtn7/src/routing/epidemic.rs: incoming_bundle"]}
{"id": "C137", "title": "static routes decide what leaves the node", "statement": "While a node with static routing runs, every transmission of a bundle goes to the next hop of the first rule, in the table in force when the agent was asked, that matches the bundle's source and destination and whose next hop could be reached; and when a forwarding attempt is over for which such a rule exists, the bundle was tried there unless it was gone from the store, had exceeded a limit or had a garbled previous node block.", "quantifier": "all executions of the node, routing tables, reloads, peers, interleavings", "why_tests_cant": "concerns every attempt under every interleaving of tasks, reloads and peer changes", "anchors": ["core/dtn7/src/core/processing.rs: forward", "core/dtn7/src/routing/static_routing.rs: StaticRoutingAgent", "core/dtn7/src/lib.rs: routing_sender_for_bundle"]}
{"id": "C138", "title": "a sink node transmits nothing", "statement": "A node with sink routing never gives a bundle to a convergence layer, whatever it receives and whoever is around.", "quantifier": "all executions of the node", "why_tests_cant": "a statement about all executions", "anchors": ["core/dtn7/src/core/processing.rs: forward", "core/dtn7/src/routing/sink.rs: SinkRoutingAgent"]}
{"id": "C139", "title": "flooding: each attempt tries all neighbours", "statement": "When a forwarding attempt of a node with flooding is over, every neighbour that could be reached when the agent was asked was tried, unless the bundle was gone from the store, had exceeded a limit or had a garbled previous node block; nobody else was tried.", "quantifier": "all executions of the node, all peers and convergence layers, interleavings", "why_tests_cant": "concerns the parallel transfer tasks of an attempt, in every order and with every outcome", "anchors": ["core/dtn7/src/core/processing.rs: forward", "core/dtn7/src/routing/flooding.rs: FloodingRoutingAgent"]}
{"id": "C140", "title": "epidemic routing: each attempt tries whoever lacks the bundle", "statement": "When a forwarding attempt of a node with epidemic routing is over, every neighbour that could be reached when the agent was asked, and neither sent the bundle nor could be reached at an earlier attempt that was not followed by a failure, was tried, or the destination was, unless the bundle was gone, over a limit or garbled; a destination that is such a neighbour was tried itself.", "quantifier": "all executions of the node, all peers and convergence layers, interleavings", "why_tests_cant": "concerns the agent's memory over all attempts and failures", "anchors": ["core/dtn7/src/core/processing.rs: forward", "core/dtn7/src/routing/epidemic.rs: EpidemicRoutingAgentCore"]}
{"id": "C141", "title": "the janitor tries every bundle that waits, oldest first", "statement": "When a round of the janitor is over, every bundle that was marked to be passed on throughout the round was tried (the routing agent was asked for its next hops, or a task was started that asks), unless no convergence layer was accepting or the store failed; the tries are made in the order of the creation times. This holds also after restarts.", "quantifier": "all executions of the node including crashes and restarts at any point, both processing modes, interleavings with other tasks", "why_tests_cant": "concerns every stored bundle under every interleaving with tasks that change the store during the round", "anchors": ["core/dtn7/src/core/mod.rs: process_bundles", "core/dtn7/src/core/store/mod.rs: forwarding", "core/dtn7/src/dtnd/janitor.rs: janitor"]}
{"id": "C142", "title": "the janitor removes what is overdue", "statement": "When a round of the janitor is over, every bundle that was stored and whose lifetime was over throughout the round was removed by it: if the store reports success, the bundle is gone and waits no more.", "quantifier": "all executions of the node including crashes and restarts, interleavings with other tasks", "why_tests_cant": "concerns every stored bundle, every clock and every interleaving", "anchors": ["core/dtn7/src/lib.rs: store_delete_expired", "core/dtn7/src/core/bundlepack.rs: has_expired", "core/dtn7/src/dtnd/janitor.rs: janitor"]}
{"id": "C143", "title": "a restart loses no bundle", "statement": "A node with a persistent store that is stopped at any point and started again still has every bundle it had stored, and the next complete round of the janitor tries each one for another node.", "quantifier": "all crash points of all executions, any number of restarts", "why_tests_cant": "crash points lie between any two steps of any task", "anchors": ["core/dtn7/src/dtnd/daemon.rs: start_dtnd", "core/dtn7/src/core/store/sled.rs: SledBundleStore", "core/dtn7/src/core/mod.rs: process_bundles", "core/dtn7/src/core/processing.rs: transmit, receive, dispatch"]}
{"id": "C144", "title": "a bundle for another node is given to the routing agent", "statement": "When the processing of a submitted or newly received bundle for another node is over, a forwarding task was started for it, which asks the routing agent for next hops, unless the bundle was removed meanwhile or the store failed.", "quantifier": "all executions of the node, all bundles and block flags, interleavings", "why_tests_cant": "concerns all paths through reception and submission under every interleaving", "anchors": ["core/dtn7/src/core/processing.rs: receive, transmit, dispatch, forward"]}
{"id": "C145", "title": "the connecting program passes each bundle to the daemon it is for", "statement": "The program that connects several daemons writes to a daemon exactly the bundles the daemons handed over for it, unaltered, in the order they came in and each once; while the connection to the daemon stands or is being made, what is not written yet is on its way. A destination is for daemon k when it is the number k in decimal, alone or before a colon.", "quantifier": "all histories of the program, any number of daemons, any packets and any schedule of its tasks", "why_tests_cant": "concerns every schedule of the tasks and channels and every history of packets", "anchors": ["examples/dtnecla_connect_n.rs: main", "core/dtn7/src/cla/ecla/ws_client.rs: Client::serve"]}
{"id": "C146", "title": "the connecting program gives each daemon the beacons of the others", "statement": "A daemon is given beacons of the other daemons only, never its own, in the order they came in; all of them unless its channel is full. Their address leads back: a bundle sent to a peer with that address, whatever the port, is for the daemon the beacon came from.", "quantifier": "all histories of the program, any number of daemons below 2^64", "why_tests_cant": "concerns every schedule, every number of daemons and every port", "anchors": ["examples/dtnecla_connect_n.rs: main", "core/dtn7/src/cla/ecla/ws_client.rs: Client::serve", "core/dtn7/src/core/peer.rs: DtnPeer::first_cla"]}
{"id": "C147", "title": "one daemon does not hold up the others", "statement": "While the connection of the connecting program to a daemon stands, what was handed over for this daemon can be written to it, whatever the other daemons do.", "quantifier": "all histories of the program, any number of daemons", "why_tests_cant": "a deadlock needs full channels and a particular order of connecting", "anchors": ["examples/dtnecla_connect_n.rs: main", "core/dtn7/src/cla/ecla/ws_client.rs: Client::serve"]}
{"id": "C148", "title": "the connecting program registers before it passes bundles on", "statement": "The program that connects daemons registers with each daemon once, and each bundle it writes to a daemon is written after the registration (a daemon ignores what comes before).", "quantifier": "all histories of the program, any number of daemons", "why_tests_cant": "depends on the order in which connections open and packets arrive", "anchors": ["examples/dtnecla_connect_n.rs: main", "core/dtn7/src/cla/ecla/ws_client.rs: Client::serve", "core/dtn7/src/cla/ecla/processing.rs: handle_packet"]}
{"id": "C149", "title": "an application fetches each bundle once and in order", "statement": "What an application fetches from its endpoint is what was put into its queue since it registered, in that order and each bundle once; the rest still waits. It is told that there is nothing only when nothing waits. Each fetched bundle came from a received or submitted bundle for this endpoint.", "quantifier": "all histories of the node, any interleaving of deliveries, fetches, registrations and subscriptions", "why_tests_cant": "concerns every interleaving of tasks that deliver and requests that fetch", "anchors": ["core/dtn7/src/core/application_agent.rs: SimpleApplicationAgent::push, pop", "core/dtn7/src/core/mod.rs: DtnCore::register_application_agent, unregister_application_agent, get_endpoint_mut", "core/dtn7/src/core/processing.rs: local_delivery", "core/dtn7/src/dtnd/httpd.rs: endpoint"]}
{"id": "C150", "title": "a bundle is passed on only after the store recorded that it waits", "statement": "Before the routing agent is asked about a bundle, and so before any copy of it leaves the node, the same task recorded in the store that the bundle waits to be passed on and no longer has to be dispatched; the agent is asked only if the store succeeded. After a crash at any later point the mark is there.", "quantifier": "all executions of the node, any interleaving", "why_tests_cant": "concerns every path to the routing agent and every crash point after it", "anchors": ["core/dtn7/src/core/processing.rs: forward", "core/dtn7/src/core/bundlepack.rs: BundlePack::sync, add_constraint, remove_constraint"]}
{"id": "C151", "title": "a node on the store on disk does what it may do on the store in memory", "statement": "Whatever a node does on the on-disk store, event for event, is something the same node could do on the in-memory store, in one life and after any number of crashes and restarts, with the same contents of the store, endpoints, neighbours and counters; only tasks may have died. So every guarantee about what a node does on the store in memory holds on disk.", "quantifier": "all executions, all interleavings, all crash points", "why_tests_cant": "compares two implementations over all histories of all tasks", "anchors": ["core/dtn7/src/core/store/sled.rs: SledBundleStore", "core/dtn7/src/core/store/mem.rs: InMemoryBundleStore", "core/dtn7/src/core/processing.rs"]}
{"id": "C152", "title": "on disk a bundle is taken in once", "statement": "With the on-disk store a bundle that was received or submitted once is never accepted from a neighbour again: not after it was delivered, transmitted, expired or deleted, and not after a crash and restart. Of several receptions only one is counted and processed.", "quantifier": "all executions in all lives of the node", "why_tests_cant": "duplicates can come after any time and any number of restarts", "anchors": ["core/dtn7/src/core/store/sled.rs: push, remove", "core/dtn7/src/lib.rs: store_add_bundle_if_unknown"]}
{"id": "C153", "title": "the periodic reprocessing does not die", "statement": "No bundle and no timing makes the task that periodically expires and forwards stored bundles end: every round can be completed.", "quantifier": "all executions with either store, all contents of the store", "why_tests_cant": "a panic needs a certain bundle or a certain interleaving", "anchors": ["core/dtn7/src/dtnd/janitor.rs: janitor, spawn_janitor", "core/dtn7/src/dtnd/cron.rs: spawn_timer", "core/dtn7/src/core/mod.rs: process_bundles", "core/dtn7/src/core/processing.rs: forward, send_status_report", "core/dtn7/src/core/store/sled.rs: get_bundle"]}
{"id": "C154", "title": "packets carried as JSON arrive whole, once and in order", "statement": "When two instances of the program that carries packets as JSON over TCP are connected, every packet that one writes on the connection is taken by the other whole, exactly once and in order, however the stream is cut into pieces.", "quantifier": "all packets, all segmentations of the stream, all interleavings of both programs", "why_tests_cant": "the number of packets waiting depends on the schedule; segmentation is unbounded", "anchors": ["examples/dtnecla_json_mtcp.rs: handle_connection, send_bundles"]}
{"id": "C155", "title": "what a connection to the JSON program can bring about", "statement": "Whatever bytes arrive over a connection of the program: it takes from it only packets that stand in the frames at the start of the stream, in order; frames that are no packet are skipped, and a frame that is too long ends the connection. The daemon gets one registration first and then only packets taken from connections.", "quantifier": "all byte strings in all pieces, all connections, all interleavings", "why_tests_cant": "peers send anything", "anchors": ["examples/dtnecla_json_mtcp.rs: handle_connection", "core/dtn7/src/cla/ecla/ws_client.rs: serve"]}
{"id": "C156", "title": "strangers reaching the JSON program do not stop the external layers", "statement": "Whoever reaches the TCP port of the program and whatever is sent there, the daemon keeps accepting external layers.", "quantifier": "all byte strings, all interleavings", "why_tests_cant": "needs a crafted packet relayed by another program", "anchors": ["examples/dtnecla_json_mtcp.rs: handle_connection", "core/dtn7/src/cla/ecla/processing.rs: handle_packet"]}
{"id": "C157", "title": "bundles going out through the JSON program", "statement": "A bundle the daemon hands to the program for an address is written at most once, on one connection to that address, in the order of the daemon; a connection carries the beginning of the frames written to it. If nothing fails every bundle is written.", "quantifier": "all packets, all failures of connecting and writing, all interleavings", "why_tests_cant": "failures can come at every byte", "anchors": ["examples/dtnecla_json_mtcp.rs: send_bundles, main"]}
{"id": "C158", "title": "the routing program answers every request of the daemon once and in order", "statement": "Behind its websocket client the routing program sends back, in order and each once, the answers of its strategy to the packets that came; without gaps unless a write fails. While the websocket is open no fill level of its channels stops it: every request that came can be answered, with the bundle it asked about.", "quantifier": "all sequences of messages, all interleavings of its tasks, all fill levels of its channels", "why_tests_cant": "needs full channels and certain interleavings", "anchors": ["examples/dtnerouting.rs: serve", "core/dtn7/src/routing/erouting/ws_client.rs: Client::serve"]}
{"id": "C159", "title": "addresses given to the websocket clients", "statement": "The clients for external layers and for external routing take exactly addresses of the form host:port with a port below 65536 and refuse every other text with an error.", "quantifier": "all texts", "why_tests_cant": "unbounded inputs", "anchors": ["core/dtn7/src/routing/erouting/ws_client.rs: new", "core/dtn7/src/cla/ecla/ws_client.rs: new"]}
{"id": "C160", "title": "A bundle gets to its destination along a route of working nodes", "statement": "Take a row of nodes: an application submits a bundle at the first one, each node's routing agent, whenever it is asked for that bundle, names a neighbour whose transmissions arrive at the next node of the row, none of the nodes but the last is the destination, and nobody else makes a bundle with the same id. When all work at those nodes is done, the application the bundle is addressed to was given it at the last node, with the primary block, the payload and the other blocks that were submitted (hop count, age and previous node excepted); or a reason can be found: at one of these nodes the store failed or no longer held the bundle, the bundle exceeded a limit, its previous node block was damaged or a status report could not be made; or the source was not registered at the first node, or the destination was not at the last. With flooding a node leads to the next if that one can be reached whenever the agent is asked; with static routes it does if the first usable rule for the bundle has it as its next hop.", "quantifier": "For every network of nodes, every schedule of their tasks, all other traffic, every row of nodes however long, and every bundle that has no unknown block that asks for the bundle to be deleted or to be removed itself and is not an administrative record.", "why_tests_cant": "End to end delivery is a statement about networks of any length and all interleavings of tasks on all nodes; integration tests run a few nodes for one schedule.", "anchors": ["core/dtn7/src/core/processing.rs: send_bundle, receive, dispatch, local_delivery, forward", "core/dtn7/src/routing/flooding.rs: FloodingRoutingAgent", "core/dtn7/src/routing/static_routing.rs: StaticRoutingAgent", "core/dtn7/src/core/application_agent.rs: deliver"]}
{"id": "C161", "title": "Routing commands, queries and test requests over HTTP do what they say", "statement": "A command in a request to /routing/cmd of a client allowed to manage the node is given to the routing agent once and unchanged and answered with 200 when the agent takes commands; without a command, or when the agent is gone, nothing is given to it and the answer is not 200. /routing/getdata answers with what the agent says and changes nothing. /debug/rnd_bundle submits one bundle and answers with its id; /debug/rnd_peer adds that one peer under the name of its node. Nothing else of the node is changed by any of these.", "quantifier": "For every state of the node, every configuration and every request of a managing client.", "why_tests_cant": "The handlers run on a global node state that only shows changes to what a test looks at; that nothing else changes, for all states and queries, needs a proof.", "anchors": ["core/dtn7/src/dtnd/httpd.rs: http_routing_cmd, http_routing_getdata, debug_rnd_bundle, debug_rnd_peer", "core/dtn7/src/lib.rs: routing_cmd, routing_get_data"]}
{"id": "C162", "title": "Epidemic routing brings a bundle to its destination along contacts", "statement": "A bundle an application submits at the first node of a route is handed to the application it is for at the last node, unchanged but for hop count, age and previous node, when every node of the route but the last uses epidemic routing and meets the next: its agent is asked for the bundle at some time when the next node can be reached, no transmission of the bundle to it fails from then on, and what is transmitted without failure arrives. Failed transmissions before that, other neighbours and copies coming back do no harm. Otherwise, at a node of the route the store fails, the bundle is removed, too old or over its hop limit, or its previous node block is unreadable, or an application is not registered.", "quantifier": "For every network of nodes, every run of it with any interleaving of tasks, losses and duplicates, every route of any length and every bundle.", "why_tests_cant": "Delivery depends on all contacts, failures and repeated attempts at all nodes and on the memory of each agent; a test runs a few of them.", "anchors": ["core/dtn7/src/routing/epidemic.rs: sending_failed, add, contains, handle_routing_cmd", "core/dtn7/src/core/processing.rs: receive, dispatch, forward, send_through_clas", "core/dtn7/src/cla/mod.rs: ClaSenderTask, transfer"]}
{"id": "C163", "title": "Spray and wait brings a bundle to its destination", "statement": "A bundle an application submits at a node that uses spray and wait is handed to the application it is for, unchanged but for hop count, age and previous node, when that node meets a relay while it still has copies for all its neighbours and one to keep, and the relay, using spray and wait as well, meets the destination: the agent is asked for the bundle while the other node can be reached, no transmission to that node fails, and what is transmitted arrives. Failed transmissions to other nodes do no harm. Otherwise, at a node of the way the store fails, the bundle is removed, too old or over its hop limit, or its previous node block is unreadable, or an application is not registered. Hops with other routing algorithms may come before, between and after.", "quantifier": "For every network of nodes, every run of it with any interleaving of tasks, losses and duplicates, every chain of hops of any length and every bundle.", "why_tests_cant": "Delivery depends on all contacts and repeated attempts at all nodes and on the copies counted by each agent; a test runs a few of them.", "anchors": ["core/dtn7/src/routing/sprayandwait.rs: handle_new_bundle, handle_notification, handle_sender_for_bundle", "core/dtn7/src/core/processing.rs: receive, dispatch, forward, send_through_clas", "core/dtn7/src/cla/mod.rs: ClaSenderTask, transfer"]}
{"id": "C164", "title": "MTCP: transfers end with an answer, and failures have a cause", "statement": "A transfer over MTCP ends with a report. It is reported as failed only if the peer could not be connected to or a connection to its address has failed.", "quantifier": "for every number of concurrent transfers and every schedule", "why_tests_cant": "The connection a transfer has found can be removed by another before it is taken; that needs a particular interleaving.", "anchors": ["core/dtn7/src/cla/mtcp.rs: mtcp_send_bundles, MTCP_CONNECTIONS"]}
{"id": "C165", "title": "Spray and wait spreads a bundle to few nodes", "statement": "In a network whose nodes use spray and wait, have different names, and where no transmission of the bundle fails and what is transmitted arrives, if at all, at the node it was meant for, a node that did not make the bundle gives it to nobody but the destination, and the number of nodes that ever have the bundle is at most the number of copies its source starts with, plus one for the destination.", "quantifier": "For every network of any size, every run of it with any interleaving of tasks, losses and duplicates, and every bundle submitted once.", "why_tests_cant": "The number of nodes depends on all contacts of all nodes over the whole run; a test runs a few of them.", "anchors": ["core/dtn7/src/routing/sprayandwait.rs: handle_new_bundle, handle_notification, handle_sender_for_bundle", "core/dtn7/src/core/processing.rs: receive, dispatch, forward, send_through_clas"]}
{"id": "C166", "title": "With external routing the node transmits what the routing program names", "statement": "On a node with external routing, every transmission that is tried uses a neighbour, a convergence layer and an address that the routing program named earlier, in an answer to a query for that bundle; a neighbour is successfully given a bundle at most as often as the answers for that bundle name it, even when several tasks query for the same bundle at the same time; and nothing is transmitted to anybody as long as no routing program has connected.", "quantifier": "For every run of the node with any interleaving of tasks, and every behaviour of the routing program: answers that are late, missing, repeated or for other bundles, and any number of connections and disconnections.", "why_tests_cant": "How queries, answers and tasks interleave is up to the scheduler and to another program; a test fixes one order.", "anchors": ["core/dtn7/src/routing/external.rs: ExternalRoutingAgent", "core/dtn7/src/routing/erouting/processing.rs: sender_for_bundle, handle_connection", "core/dtn7/src/core/processing.rs: forward", "core/dtn7/src/lib.rs: routing_sender_for_bundle"]}
{"id": "C167", "title": "What an application gets was sent by somebody, to it, and is unchanged", "statement": "Whatever a poll of an endpoint returns, and whatever is written to a websocket client, is a copy of a bundle that was submitted at some node of the network (or is a status report a node made): same source, destination, creation time and lifetime, and, unless it carries blocks that ask to be dropped, the same payload and other blocks. A poll only returns bundles for the endpoint polled, and a websocket client is only shown bundles for endpoints it asked for with /subscribe. A bundle is given to the applications of a node at most as often as the node accepted it or was given it.", "quantifier": "For every network and every interleaving of its nodes, tasks, connections and applications that register, subscribe, poll, connect and disconnect.", "why_tests_cant": "It relates what an application sees to what another application did on another machine, over all behaviours of both and everything between them.", "anchors": ["core/dtn7/src/core/application_agent.rs: push, pop", "core/dtn7/src/core/processing.rs: local_delivery", "core/dtn7/src/dtnd/ws.rs: handle_message, fetch_new_bundles", "core/dtn7/src/dtnd/httpd.rs: endpoint", "core/dtn7/src/cla/mod.rs"]}
{"id": "C168", "title": "What a websocket client is told about its commands is true", "statement": "A command or message answered with 200 has been carried out: the mode is the one asked for, the node's name is the one given, the bundle has been submitted, the client has been put down for the registered endpoint it named and gets its bundles, or is no longer put down for it. One answered with anything else changed nothing, neither for this client nor any other, and nothing was submitted; 400 is for what cannot be read, 404 for an endpoint nobody registered (or a client without subscriptions), 501 for other commands.", "quantifier": "For every history and interleaving of clients, deliveries and registrations, every command and every binary message.", "why_tests_cant": "The answer is written some steps after the command was read, with other clients in between; all commands, texts and states.", "anchors": ["core/dtn7/src/dtnd/ws.rs: handle_message", "core/dtn7/src/core/mod.rs: is_in_endpoints, get_endpoint_mut"]}
{"id": "C169", "title": "sneakers store: the metadata of a bundle have its addresses", "statement": "With the sneakers store, the source and destination in the metadata of a stored bundle (by which it is listed, routed and delivered when it is tried again) are those of the bundle.", "quantifier": "For every address and every way in which the texts of addresses are read.", "why_tests_cant": "All addresses; and a counterexample is needed for every reader, as the one used is in another crate.", "anchors": ["core/dtn7/src/core/store/sneakers.rs: eid_from_strings, get_metadata", "core/dtn7/src/routing/epidemic.rs: handle_routing_cmd"]}
{"id": "C170", "title": "Epidemic routing: the traffic for a bundle is bounded", "statement": "In a network of nodes with epidemic routing a node successfully transmits a bundle at most once to each other one; all together they transmit it successfully at most as often as there are pairs of a node that transmits it and a node it is transmitted to, however often transmissions fail, bundles arrive again and attempts are repeated.", "quantifier": "For every network, every interleaving and every pattern of failures, duplicates and delays.", "why_tests_cant": "The number of attempts is unbounded; the bound is about all nodes together.", "anchors": ["core/dtn7/src/routing/epidemic.rs: handle_routing_cmd", "core/dtn7/src/core/processing.rs: forward"]}
{"id": "C171", "title": "A removed bundle stays removed while several tasks work", "statement": "After a bundle was removed, and unless it is received, submitted or made again, it cannot be read from the store, it is not listed among the bundles to be passed on, and it is only sent by a task that had read it before.", "quantifier": "For every interleaving of receptions, submissions, forwarding tasks, janitor rounds and user commands.", "why_tests_cant": "It depends on which tasks hold an older copy of the metadata or the content at the moment of the removal.", "anchors": ["core/dtn7/src/core/processing.rs: forward, receive", "core/dtn7/src/core/bundlepack.rs: sync", "core/dtn7/src/core/store/mem.rs: push, remove, update_metadata"]}
{"id": "C172", "title": "An external routing program knows the neighbours of the node", "statement": "Once nothing is on its way, a connected external routing program lists exactly the neighbours the node has, whatever became of them; and no change of the neighbours stops the agent that talks to the program.", "quantifier": "For every history of beacons, timeouts, failed transfers, peers added and removed by hand and connections of the program, and every order in which notifications and packets are handled.", "why_tests_cant": "It depends on the order in which tasks announce their changes and on changes that happen between an announcement and its handling.", "anchors": ["core/dtn7/src/routing/erouting/mod.rs: From<RoutingNotifcation> for Packet", "core/dtn7/src/routing/erouting/processing.rs: handle_connection, send_packet, notify", "core/dtn7/src/routing/external.rs: new", "core/dtn7/src/core/mod.rs: process_peers", "core/dtn7/src/core/processing.rs: forward", "core/dtn7/src/ipnd/neighbour_discovery.rs: receiver", "examples/dtnerouting.rs: main"]}
{"id": "C173", "title": "The services of a node are announced", "statement": "Neighbours that hear a beacon list exactly the services of the node: the configured ones and those a routing program has added, for each tag the latest; and no service a routing program adds silences the node.", "quantifier": "For every configuration, every history of messages of the routing program and rounds of the announcer, every iteration order of the map of services and every receiver.", "why_tests_cant": "It depends on everything that was configured and said before the round, and on what nobody ever reads.", "anchors": ["core/dtn7/src/ipnd/neighbour_discovery.rs: announcer", "core/dtn7/src/lib.rs: service_add", "core/dtn7/src/core/mod.rs: DtnCore::new", "core/dtn7/src/dtnd/daemon.rs: start_dtnd", "core/dtn7/src/dtnconfig.rs: services", "core/dtn7/src/routing/erouting/processing.rs: handle_connection"]}
{"id": "C174", "title": "No service shuts out the modules of external convergence layers", "statement": "Whatever services the node has been given, a new module of an external convergence layer can connect, register a free name and is told so, after every history of modules that send only readable text and beacons, ask once for a name and do not reuse addresses.", "quantifier": "For every list of services, every set of configured layers and every history of modules.", "why_tests_cant": "It depends on the texts of the services, on locks that earlier panics poisoned and on all earlier connections.", "anchors": ["core/dtn7/src/cla/ecla/processing.rs: generate_beacon, handle_packet, announcer", "core/dtn7/src/ipnd/services.rs: build_custom_service", "core/dtn7/src/lib.rs: service_add"]}
{"id": "C175", "title": "A node with an open TCPCL session is a neighbour", "statement": "A node that connects over TCPCL is listed as a neighbour at the address and port it connects from, for as long as the session is open; its connecting changes nothing about the neighbours the node already has.", "quantifier": "For every history of sessions, beacons, clean-ups and other changes of the neighbours, and all times.", "why_tests_cant": "It depends on the times of the start of the session and of all later clean-ups.", "anchors": ["core/dtn7/src/cla/tcp/mod.rs: connect", "core/dtn7/src/core/mod.rs: process_peers", "core/dtn7/src/core/peer.rs: still_valid", "core/dtn7/src/lib.rs: peers_add, peers_known, peers_touch"]}
{"id": "C176", "title": "The routing programs in Python name neighbours", "statement": "A bundle the first contact program has not placed yet is given to a neighbour that shares a layer with the node, if there is one; nobody is named again for a bundle until the node reports a failed transfer or a timeout for it. The direct program gives a bundle for a neighbour to this neighbour.", "quantifier": "For every history of packets from the daemon.", "why_tests_cant": "It depends on all packets since the program connected; only some of them lead into the faulty lines.", "anchors": ["examples/python/dtnerouting_firstcontact.py: on_message, on_sender_for_bundle", "examples/python/dtnerouting_direct.py: on_message, on_sender_for_bundle", "core/dtn7/src/routing/erouting/mod.rs: Packet"]}
