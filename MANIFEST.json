{
 "claims": [
  {
   "property": "C01",
   "status": "proved",
   "theorems": [
    "C01_mtcp_roundtrip"
   ],
   "note": "Byte-level model of the MTCP codec, all chunkings."
  },
  {
   "property": "C02",
   "status": "proved",
   "theorems": [
    "C02_mtcp_chunking_irrelevant",
    "C02_mtcp_hostile",
    "C02_mtcp_good_frames_kept"
   ],
   "note": "All byte streams; 64-bit usize."
  },
  {
   "property": "C03",
   "status": "proved",
   "theorems": [
    "C03_tcpcl_message_roundtrip",
    "C03_tcpcl_incomplete_waits",
    "C03_tcpcl_contact_header",
    "C03_tcpcl_contact_header_only"
   ],
   "note": "Byte-level model of the TCPCL message reader and writer."
  },
  {
   "property": "C04",
   "status": "proved",
   "theorems": [
    "C04_tcpcl_segmentation",
    "C04_tcpcl_segmentation_after_request",
    "C04_tcpcl_reassembly",
    "C04_tcpcl_reassembly_after_request"
   ],
   "note": "Both with and without the refusal of known bundles."
  },
  {
   "property": "C05",
   "status": "proved",
   "theorems": [
    "C05_tcpcl_success_means_received"
   ],
   "note": "Two sessions over FIFO message streams, all interleavings, invariant per direction."
  },
  {
   "property": "C06",
   "status": "proved",
   "theorems": [
    "C06_tcpcl_orderly",
    "C06_tcpcl_no_verdict_lost"
   ],
   "note": "All event sequences including hostile messages."
  },
  {
   "property": "C07",
   "status": "proved",
   "theorems": [
    "C07_tcpcl_no_splicing",
    "C07_tcpcl_spliced_unfold"
   ],
   "note": "All event sequences."
  },
  {
   "property": "C08",
   "status": "proved",
   "theorems": [
    "C08_tcpcl_keepalive",
    "C08_tcpcl_segment_size"
   ],
   "note": "All announced parameters and all histories."
  },
  {
   "property": "C09",
   "status": "proved",
   "theorems": [
    "C09_mem_store_is_a_map",
    "C09_metadata"
   ],
   "note": "All operation histories."
  },
  {
   "property": "C10",
   "status": "proved",
   "theorems": [
    "C10_removed_not_forwarded_mem",
    "C10_removed_not_forwarded_sled",
    "C10_listings_exact_mem",
    "C10_listings_exact_sled"
   ],
   "note": "In-memory and sled store, crashes included for the latter."
  },
  {
   "property": "C11",
   "status": "partial",
   "theorems": [
    "C11_mem_tombstone_refuted",
    "C11_mem_tombstone_partial",
    "C11_sled_tombstone"
   ],
   "note": "False for the in-memory store (re-reception of a deleted bundle is accepted); proved for the sled store. The sneakers store keeps its rows in another crate and is not covered."
  },
  {
   "property": "C12",
   "status": "proved",
   "theorems": [
    "C12_sled_crash_consistent",
    "C12_sled_acknowledged_stays"
   ],
   "note": "Crash after any prefix of the durable writes of any operation, any number of crashes."
  },
  {
   "property": "C13",
   "status": "partial",
   "theorems": [
    "C13_interrupted_reception_refuted",
    "C13_interrupted_reception_stuck",
    "C13_interrupted_reception_partial"
   ],
   "note": "False at one crash point: between the metadata and the bundle write the id is blocked for good. Proved for all others."
  },
  {
   "property": "C14",
   "status": "proved",
   "theorems": [
    "C14_constraints_roundtrip"
   ],
   "note": "For every injective assignment of bits; the SQL filter is taken to be 'contains all bits'."
  },
  {
   "property": "C15",
   "status": "proved",
   "theorems": [
    "C15_purge_exactly_expired",
    "C15_purgeable_monotone",
    "C15_lifetime_zero_kept"
   ],
   "note": "All store contents and clock values."
  },
  {
   "property": "C16",
   "status": "proved",
   "theorems": [
    "C16_janitor_retries_all"
   ],
   "note": "All store contents; in-memory store."
  },
  {
   "property": "C17",
   "status": "proved",
   "theorems": [
    "C17_peer_table",
    "C17_peer_removal"
   ],
   "note": "All histories of table operations."
  },
  {
   "property": "C18",
   "status": "proved",
   "theorems": [
    "C18_janitor_drops_silent"
   ],
   "note": "All tables, clocks and settings; clock not set back behind the last contact."
  },
  {
   "property": "C19",
   "status": "proved",
   "theorems": [
    "C19_dynamic_fourth_failure",
    "C19_static_never",
    "C19_others_unaffected"
   ],
   "note": "All histories."
  },
  {
   "property": "C20",
   "status": "partial",
   "theorems": [
    "C20_static_stays_static_refuted",
    "C20_static_stays_static_partial"
   ],
   "note": "False: a beacon from the node overwrites the static entry with a dynamic one. Proved for all other operations."
  },
  {
   "property": "C21",
   "status": "proved",
   "theorems": [
    "C21_cla_selection",
    "C21_cla_for_node"
   ],
   "note": "All lists of layers and peers."
  },
  {
   "property": "C22",
   "status": "proved",
   "theorems": [
    "C22_epidemic_no_double",
    "C22_epidemic_once_per_answer"
   ],
   "note": "All histories."
  },
  {
   "property": "C23",
   "status": "proved",
   "theorems": [
    "C23_epidemic_not_back"
   ],
   "note": "All histories."
  },
  {
   "property": "C24",
   "status": "proved",
   "theorems": [
    "C24_epidemic_coverage",
    "C24_epidemic_retry"
   ],
   "note": "All histories and peer tables."
  },
  {
   "property": "C25",
   "status": "partial",
   "theorems": [
    "C25_served_only_if_handed_refuted",
    "C25_served_only_if_handed_partial"
   ],
   "note": "False: relays seen before the destination in the same query are marked as served though only the destination is handed the bundle. Proved for histories without direct delivery."
  },
  {
   "property": "C26",
   "status": "proved",
   "theorems": [
    "C26_flooding",
    "C26_sink"
   ],
   "note": "All histories."
  },
  {
   "property": "C27",
   "status": "proved",
   "theorems": [
    "C27_copy_budget",
    "C27_answers"
   ],
   "note": "All histories with one announcement and no failure of that bundle; node and source names well-formed."
  },
  {
   "property": "C28",
   "status": "partial",
   "theorems": [
    "C28_failed_node_retried_refuted",
    "C28_other_nodes_unaffected_refuted",
    "C28_budget_refuted",
    "C28_failures_partial"
   ],
   "note": "False in all three parts (the retain condition is inverted: the failed node is kept and all others are dropped; direct deliveries are refunded too). Proved: each failure report allows at most one more copy."
  },
  {
   "property": "C29",
   "status": "proved",
   "theorems": [
    "C29_first_matching_route"
   ],
   "note": "All tables, peers, histories; the glob matcher is a parameter."
  },
  {
   "property": "C30",
   "status": "proved",
   "theorems": [
    "C30_load",
    "C30_reload",
    "C30_table_stable"
   ],
   "note": "All files made of well-formed, blank and comment lines (ASCII white space)."
  },
  {
   "property": "C31",
   "status": "proved",
   "theorems": [
    "C31_only_matching_answers",
    "C31_response_used_once",
    "C31_no_router"
   ],
   "note": "All router behaviours and interleavings of calls."
  },
  {
   "property": "C32",
   "status": "proved",
   "theorems": [
    "C32_processed_once",
    "C32_duplicates_have_no_effect",
    "C32_lookup_exact",
    "C32_accepted_removed"
   ],
   "note": "Any number of tasks in any interleaving of their accesses to shared state. Two receptions of one id both counted as incoming have a successful removal between their store look-ups; a duplicate does nothing but count; the look-up answers by the store's contents."
  },
  {
   "property": "C33",
   "status": "proved",
   "theorems": [
    "C33_hop_limit"
   ],
   "note": "All runs of the node machine (any number of tasks in any interleaving, all contents, answers and clock readings)."
  },
  {
   "property": "C34",
   "status": "proved",
   "theorems": [
    "C34_previous_node_and_rest"
   ],
   "note": "All runs of the node machine."
  },
  {
   "property": "C35",
   "status": "partial",
   "theorems": [
    "C35_lifetime_checked",
    "C35_age_grows",
    "C35_full_refuted",
    "C35_age_limit_partial"
   ],
   "note": "The age limit as stated is false (the age, in milliseconds, is compared as if it were microseconds, so a bundle up to a thousand times too old is still sent); lifetime checks and the growth of the age are proved for all runs."
  },
  {
   "property": "C36",
   "status": "proved",
   "theorems": [
    "C36_status_reports"
   ],
   "note": "All runs of the node machine. Proviso: bundles with the same id agree in the administrative flag."
  },
  {
   "property": "C37",
   "status": "partial",
   "theorems": [
    "C37_not_processed",
    "C37_removed_partial",
    "C37_full_refuted"
   ],
   "note": "Never processed: proved. The removal is false as stated: with status reports enabled, a deletion report wanted and report-to dtn:none the task panics before removing the bundle. Proved with this and failing store calls excepted."
  },
  {
   "property": "C38",
   "status": "proved",
   "theorems": [
    "C38_local_stays"
   ],
   "note": "All runs of the node machine."
  },
  {
   "property": "C39",
   "status": "partial",
   "theorems": [
    "C39_mark_kept",
    "C39_removals_partial",
    "C39_failed_attempt_partial",
    "C39_agents_name_a_hop",
    "C39_full_refuted"
   ],
   "note": "The mark is kept: proved. False as stated if a routing agent asks for removal without naming a next hop (only an external router can; proved for the built-in ones); a transmitted status report also frees the bundle it is about."
  },
  {
   "property": "C40",
   "status": "partial",
   "theorems": [
    "C40_blocks_partial",
    "C40_not_processed",
    "C40_removed_partial",
    "C40_full_refuted"
   ],
   "note": "False as stated: the index used for removal counts unknown blocks only, so a known block in front of the flagged one is dropped instead. Proved: right number dropped, order kept, exact when only unknown blocks precede a single flagged one; no processing with a deletion block."
  },
  {
   "property": "C41",
   "status": "partial",
   "theorems": [
    "C41_reports_partial",
    "C41_full_refuted"
   ],
   "note": "False: any status report of four items frees the bundle, whatever it asserts. Proved: nothing but such a report does."
  },
  {
   "property": "C42",
   "status": "proved",
   "theorems": [
    "C42_incoming_and_duplicates",
    "C42_delivered",
    "C42_counters_exact"
   ],
   "note": "Bounds in every reachable state; equality once the receptions (for delivered: all tasks) have ended."
  },
  {
   "property": "C43",
   "status": "proved",
   "theorems": [
    "C43_endpoints_fifo",
    "C43_each_delivery"
   ],
   "note": "Any interleaving of deliveries, polls, subscriptions and session tasks."
  },
  {
   "property": "C44",
   "status": "proved",
   "theorems": [
    "C44_registration"
   ],
   "note": ""
  },
  {
   "property": "C45",
   "status": "partial",
   "theorems": [
    "C45_subscriber_order_partial",
    "C45_subscriber_order_refuted"
   ],
   "note": "False: subscribing fetches only the oldest stored bundle (and none when subscribing by name). Proved for at most one stored bundle."
  },
  {
   "property": "C46",
   "status": "proved",
   "theorems": [
    "C46_beacon_wire",
    "C46_texts"
   ],
   "note": "serde_cbor reading and writing modelled at byte level; every iteration order of the service map; trailing bytes refused."
  },
  {
   "property": "C47",
   "status": "proved",
   "theorems": [
    "C47_services",
    "C47_any_received"
   ],
   "note": "Also geographic positions; f32 parsing and printing are parameters. Acceptance characterised exactly; what is shown of any service received, from this program or another, as well."
  },
  {
   "property": "C48",
   "status": "partial",
   "theorems": [
    "C48_sequence_numbers_partial",
    "C48_full_refuted",
    "C48_full_canonical_refuted"
   ],
   "note": "False: the default IPv6 destination is not spelled as printed and its counter never moves; with IPv4 and IPv6 on, two announcers share the counters. Proved for one announcer and destinations spelled as printed."
  },
  {
   "property": "C49",
   "status": "proved",
   "theorems": [
    "C49_never_self"
   ],
   "note": "Every datagram, decoded or not; histories while the receiver runs (see C68)."
  },
  {
   "property": "C50",
   "status": "proved",
   "theorems": [
    "C50_localhost_only",
    "C50_local_served"
   ],
   "note": "127.0.0.0/8 embedded in IPv6 counts as loopback. axum's layering rules are in the trusted base."
  },
  {
   "property": "C51",
   "status": "partial",
   "theorems": [
    "C51_same_set_same_digest",
    "C51_digest_partial",
    "C51_digest_refuted"
   ],
   "note": "Equal sets give equal digests. The converse is false: ids are hashed without separators. Proved for sources without a colon in name or path, up to a SHA-1 collision of the two texts."
  },
  {
   "property": "C52",
   "status": "proved",
   "theorems": [
    "C52_pull",
    "C52_pull_dtnd"
   ],
   "note": "Each bundle once if the neighbour lists it once, as this software does. In-memory store."
  },
  {
   "property": "C53",
   "status": "partial",
   "theorems": [
    "C53_modules_partial",
    "C53_modules_refuted",
    "C53_reused_address_refuted",
    "C53_configured_layers"
   ],
   "note": "False after a panic (a lock stays poisoned) and when a TCP client is back on the same port before the end of its old connection was handled. Proved otherwise; configured layers are never affected."
  },
  {
   "property": "C54",
   "status": "partial",
   "theorems": [
    "C54_tcpcl_extension_list_refuted",
    "C54_tcpcl_extension_list_partial"
   ],
   "note": "The full statement is false of the code: the remaining length is a u32 that wraps around. Proved for item lists that fit."
  },
  {
   "property": "C55",
   "status": "partial",
   "theorems": [
    "C55_tcpcl_cancelled_read_refuted",
    "C55_tcpcl_cancelled_read_partial"
   ],
   "note": "The full statement is false of the code: select! drops the read future with the bytes it took. Proved when other branches win only between messages."
  },
  {
   "property": "C56",
   "status": "partial",
   "theorems": [
    "C56_tcpcl_idle_refuted",
    "C56_tcpcl_idle_partial",
    "C56_tcpcl_keepalive_answered"
   ],
   "note": "The full statement is false of the code: the first timeout sends a keepalive and terminates at once."
  },
  {
   "property": "C57",
   "status": "partial",
   "theorems": [
    "C57_ids_distinct_refuted",
    "C57_ids_distinct_partial"
   ],
   "note": "False: a whole bundle can share its id with a fragment of another source. Proved among whole bundles and among fragments."
  },
  {
   "property": "C58",
   "status": "partial",
   "theorems": [
    "C58_sneakers_metadata_refuted",
    "C58_sneakers_metadata_partial"
   ],
   "note": "False: the administrative marker is always read back as false. The other fields and the frame are proved."
  },
  {
   "property": "C59",
   "status": "partial",
   "theorems": [
    "C59_on_time_peer_kept_refuted",
    "C59_on_time_peer_kept_partial"
   ],
   "note": "False for intervals below one second and between one and two seconds (truncated to whole seconds). Proved for all others."
  },
  {
   "property": "C60",
   "status": "partial",
   "theorems": [
    "C60_own_bundles_sprayed_refuted",
    "C60_own_bundles_sprayed_partial"
   ],
   "note": "False for ipn nodes (own bundles of services other than 0 count as foreign). Proved for dtn nodes."
  },
  {
   "property": "C61",
   "status": "partial",
   "theorems": [
    "C61_agent_never_stops_refuted",
    "C61_agent_never_stops_partial",
    "C61_flooding_sink_partial"
   ],
   "note": "False: a bundle for dtn:none stops the epidemic and spray-and-wait agents, a malformed table line the static agent. Proved without these."
  },
  {
   "property": "C62",
   "status": "partial",
   "theorems": [
    "C62_overlapping_queries_refuted",
    "C62_constraint_order_refuted",
    "C62_timely_answer_partial"
   ],
   "note": "False: overlapping queries for the same bundle both fail, and answers with two constraints may print them in another order and be discarded. Proved without these."
  },
  {
   "property": "C63",
   "status": "proved",
   "theorems": [
    "C63_delivered_once",
    "C63_delivered_removed",
    "C63_delivered_where"
   ],
   "note": ""
  },
  {
   "property": "C64",
   "status": "proved",
   "theorems": [
    "C64_every_removal_has_a_reason",
    "C64_only_removals_remove"
   ],
   "note": ""
  },
  {
   "property": "C65",
   "status": "partial",
   "theorems": [
    "C65_not_transmitted",
    "C65_full_refuted"
   ],
   "note": "False for status reports this node generates for one of its own endpoints nobody is registered for. Proved for all bundles received or submitted."
  },
  {
   "property": "C66",
   "status": "proved",
   "theorems": [
    "C66_listed_as_announced"
   ],
   "note": "From the configuration through the bytes of the datagram to the peer table of the receiver."
  },
  {
   "property": "C67",
   "status": "partial",
   "theorems": [
    "C67_announcing_partial",
    "C67_full_refuted"
   ],
   "note": "False: a service that breaks a limit ends the announcer. Proved: announcing goes on exactly if all services are accepted."
  },
  {
   "property": "C68",
   "status": "partial",
   "theorems": [
    "C68_receiver_partial",
    "C68_full_refuted"
   ],
   "note": "False: indefinite-length arrays, the null endpoint and ill-formed services panic. Proved: nothing else does."
  },
  {
   "property": "C69",
   "status": "partial",
   "theorems": [
    "C69_given_bundles_kept_partial",
    "C69_given_bundles_kept_refuted"
   ],
   "note": "False: what is in the channel when the client disconnects is dropped. Proved while it is connected."
  },
  {
   "property": "C70",
   "status": "partial",
   "theorems": [
    "C70_subscription_stays_partial",
    "C70_subscription_stays_refuted"
   ],
   "note": "False: an earlier subscriber that disconnects or unsubscribes clears the subscription. Proved if no other client ever names the endpoint."
  },
  {
   "property": "C71",
   "status": "proved",
   "theorems": [
    "C71_websocket_send"
   ],
   "note": ""
  },
  {
   "property": "C72",
   "status": "proved",
   "theorems": [
    "C72_websocket_shows",
    "C72_mode_chosen"
   ],
   "note": "Decoding and encoding of messages to CBOR/JSON are abstract."
  },
  {
   "property": "C73",
   "status": "partial",
   "theorems": [
    "C73_requests_answered_partial",
    "C73_requests_answered_refuted"
   ],
   "note": "False: invalid addresses and an incomplete unsubscribe get no reply. Proved for everything else."
  },
  {
   "property": "C74",
   "status": "partial",
   "theorems": [
    "C74_remote_clients_partial",
    "C74_remote_clients_refuted"
   ],
   "note": "False: /ws/erouting and /ws/ecla are added after the guard. Proved for everything else."
  },
  {
   "property": "C75",
   "status": "proved",
   "theorems": [
    "C75_looking_changes_nothing",
    "C75_shows"
   ],
   "note": ""
  },
  {
   "property": "C76",
   "status": "partial",
   "theorems": [
    "C76_polling_partial",
    "C76_polling_refuted",
    "C76_poll"
   ],
   "note": "False: a HEAD request takes the bundle and drops it. Proved for all other methods."
  },
  {
   "property": "C77",
   "status": "partial",
   "theorems": [
    "C77_answered_partial",
    "C77_answered_refuted"
   ],
   "note": "False: e.g. an invalid destination makes /send panic. Proved for all requests outside an explicit list."
  },
  {
   "property": "C78",
   "status": "proved",
   "theorems": [
    "C78_send"
   ],
   "note": ""
  },
  {
   "property": "C79",
   "status": "proved",
   "theorems": [
    "C79_peer_added",
    "C79_peer_removed",
    "C79_peer_malformed"
   ],
   "note": "URL parsing is abstract."
  },
  {
   "property": "C80",
   "status": "partial",
   "theorems": [
    "C80_http_transfer_partial",
    "C80_http_transfer_refuted"
   ],
   "note": "False: any answer counts as success, also the refusal (413) of a body above 2 MiB. Proved up to that size."
  },
  {
   "property": "C81",
   "status": "partial",
   "theorems": [
    "C81_no_second_fetch_partial",
    "C81_no_second_fetch_refuted"
   ],
   "note": "False: only the digest counts removed bundles as known. Proved for bundles still held, and when both nodes know the same bundles."
  },
  {
   "property": "C82",
   "status": "partial",
   "theorems": [
    "C82_open_partial",
    "C82_open_refuted"
   ],
   "note": "False: a binary websocket message, an unreadable beacon, a beacon of dtn:none or a second refused registration poisons the shared locks. Proved for modules that send none of these."
  },
  {
   "property": "C83",
   "status": "partial",
   "theorems": [
    "C83_transfer_partial",
    "C83_transfer_refuted"
   ],
   "note": "False: a packet dropped because the channel of the module is full or gone is reported as sent. Everything else is proved."
  },
  {
   "property": "C84",
   "status": "partial",
   "theorems": [
    "C84_no_deadlock_partial",
    "C84_refuted",
    "C84_modules_refuted",
    "C84_full_refuted"
   ],
   "note": "False: the start page of the web interface against the janitor, and transfers over external layers against packets of their modules, take two locks in opposite orders. Proved for all other combinations. Mutexes only; waiting for channels is not modelled."
  },
  {
   "property": "C85",
   "status": "partial",
   "theorems": [
    "C85_ipv4_partial",
    "C85_ipv6_refuted",
    "C85_full_refuted",
    "C85_no_false_success"
   ],
   "note": "False for every peer with an IPv6 address: the destination is formatted without brackets and cannot be parsed; over MTCP and UDP this also ends the layer for all later transfers. Proved for IPv4 peers."
  },
  {
   "property": "C86",
   "status": "proved",
   "theorems": [
    "C86_sent_whole",
    "C86_received",
    "C86_arrives"
   ],
   "note": "Errors of the receiving socket, which end the listener, are not modelled."
  },
  {
   "property": "C87",
   "status": "partial",
   "theorems": [
    "C87_arrives_partial",
    "C87_refuted"
   ],
   "note": "False: transfers to one peer share the socket without a lock, so the bytes of two concurrent transfers can be interleaved when a write takes only a part, and both are reported as successful. Proved for runs in which no two transfers write on one connection at the same time."
  },
  {
   "property": "C88",
   "status": "proved",
   "theorems": [
    "C88_failed_not_reused"
   ],
   "note": ""
  },
  {
   "property": "C89",
   "status": "partial",
   "theorems": [
    "C89_partial",
    "C89_refuted",
    "C89_opened_only_if_asked"
   ],
   "note": "Holds without a configuration file; with one, the switches read before it is loaded are lost. The HTTP interface is never opened unasked (proved in full)."
  },
  {
   "property": "C90",
   "status": "partial",
   "theorems": [
    "C90_partial",
    "C90_services",
    "C90_refuted",
    "C90_full_refuted",
    "C90_layer_wide",
    "C90_routing_option"
   ],
   "note": "Holds for names the node knows and for payloads and settings without separators; unknown routing algorithms, stores and layers are ignored silently and service payloads are cut at the first colon."
  },
  {
   "property": "C91",
   "status": "partial",
   "theorems": [
    "C91_partial",
    "C91_ipv4",
    "C91_refuted",
    "C91_full_refuted"
   ],
   "note": "All asked for are used and nothing but these and the defaults; the defaults are used besides those asked for if the configuration file names none, and instead of them if none has an IP version in use."
  },
  {
   "property": "C92",
   "status": "partial",
   "theorems": [
    "C92_partial",
    "C92_refuted"
   ],
   "note": "Holds for peers that announce no beacon period; for the others the option has no effect because custom_timeout is never set."
  },
  {
   "property": "C93",
   "status": "partial",
   "theorems": [
    "C93_partial",
    "C93_refuted",
    "C93_full_refuted"
   ],
   "note": "Holds for valid durations, ports below 65536 and known layers; an invalid duration counts as 0, a port is taken modulo 65536 and an unknown layer is ignored."
  },
  {
   "property": "C94",
   "status": "proved",
   "theorems": [
    "C94_started",
    "C94_listens"
   ],
   "note": ""
  },
  {
   "property": "C95",
   "status": "partial",
   "theorems": [
    "C95_refuted",
    "C95_partial"
   ],
   "note": "refuted: a connection accepted from the very address replaces the entry of the one in use, and after its end another one is opened (needs a peer that connects from its listening port); proved for addresses from which no connection was accepted"
  },
  {
   "property": "C96",
   "status": "proved",
   "theorems": [
    "C96_sent_once",
    "C96_to_its_address",
    "C96_success",
    "C96_final"
   ],
   "note": "for every run of the session table"
  },
  {
   "property": "C97",
   "status": "partial",
   "theorems": [
    "C97_silent_peer",
    "C97_refuted",
    "C97_partial"
   ],
   "note": "refuted: contact header and session parameters are read without timeout, so a peer that accepts and stays silent leaves the transfer without answer forever; proved: all steps but new transfers and connections are bounded, and when none is left every transfer is answered"
  },
  {
   "property": "C98",
   "status": "partial",
   "theorems": [
    "C98_silent_peer",
    "C98_refuted",
    "C98_partial"
   ],
   "note": "refuted by the same silent peer: the round waits for the transfer, so no further round ever starts; proved: steps of a round are bounded and when none is left the next round starts"
  },
  {
   "property": "C99",
   "status": "partial",
   "theorems": [
    "C99_content_partial",
    "C99_full_refuted"
   ],
   "note": "refuted: a receiver that drops several flagged unknown blocks drops wrong ones, the payload included; proved for bundles without such blocks (primary block in all cases)"
  },
  {
   "property": "C100",
   "status": "partial",
   "theorems": [
    "C100_hops_partial",
    "C100_reach_partial",
    "C100_full_refuted",
    "C100_sent_full_refuted",
    "C100_clean_full_refuted"
   ],
   "note": "refuted: downloads are not counted; a receiver may drop the hop count block instead of a flagged one; with limit 255 the count wraps. Proved for transmissions of bundles without flagged unknown blocks and limit and count below 255"
  },
  {
   "property": "C101",
   "status": "partial",
   "theorems": [
    "C101_previous_node_partial",
    "C101_full_refuted"
   ],
   "note": "proved for transmissions; refuted for downloads, which name the node before"
  },
  {
   "property": "C102",
   "status": "partial",
   "theorems": [
    "C102_handed_over_partial",
    "C102_full_refuted"
   ],
   "note": "refuted: dropping several flagged blocks can panic and ends the reception task; proved for bundles with nothing to drop; with status reports on, a wanted report without report-to ends the task as well"
  },
  {
   "property": "C103",
   "status": "partial",
   "theorems": [
    "C103_stores_agree_partial",
    "C103_stores_agree_refuted"
   ],
   "note": "refuted for a bundle pushed again after its removal, which only the in-memory store accepts; proved for all other histories"
  },
  {
   "property": "C104",
   "status": "proved",
   "theorems": [
    "C104_delete"
   ],
   "note": "also for a store reached by any history"
  },
  {
   "property": "C105",
   "status": "proved",
   "theorems": [
    "C105_register"
   ],
   "note": ""
  },
  {
   "property": "C106",
   "status": "proved",
   "theorems": [
    "C106_insert",
    "C106_push"
   ],
   "note": ""
  },
  {
   "property": "C107",
   "status": "partial",
   "theorems": [
    "C107_fetch_partial",
    "C107_download_partial",
    "C107_manage",
    "C107_fetch_refuted"
   ],
   "note": "refuted: a bundle of at most 50 bytes is taken and not written; proved for longer ones"
  },
  {
   "property": "C108",
   "status": "partial",
   "theorems": [
    "C108_send_partial",
    "C108_dryrun",
    "C108_send_refuted"
   ],
   "note": "refuted: a bundle of more than 2 MiB is refused by the daemon and the tool still ends with success; proved for all others"
  },
  {
   "property": "C109",
   "status": "partial",
   "theorems": [
    "C109_trigger_partial",
    "C109_trigger_refuted",
    "C109_heartbeat_partial"
   ],
   "note": "Also with the heartbeats of the session between the messages. Refuted: with verbose output a bundle without payload ends the tool; proved without that option or if all bundles have a payload"
  },
  {
   "property": "C110",
   "status": "partial",
   "theorems": [
    "C110_waiting_partial",
    "C110_waiting_refuted"
   ],
   "note": "refuted: for an endpoint given by its service name no waiting bundle is fetched; proved for addresses with at most one bundle waiting"
  },
  {
   "property": "C111",
   "status": "proved",
   "theorems": [
    "C111_only_after_greeting",
    "C111_greeting_suffices",
    "C111_agreement",
    "C111_both_start"
   ],
   "note": "Byte-level model of a connection (TcpclLink.v). String::from_utf8_lossy and EndpointID::try_from are parameters."
  },
  {
   "property": "C112",
   "status": "partial",
   "theorems": [
    "C112_full_refuted",
    "C112_byte_level_partial"
   ],
   "note": "Refuted: a submission (or the timer, or the closing of the queue) drops what the pending read has taken of a message; the payload of a bundle is then read as an acknowledgement. Proved when no read is abandoned, by simulation of the byte-level connection by the message-level sessions of C05."
  },
  {
   "property": "C113",
   "status": "partial",
   "theorems": [
    "C113_full_refuted",
    "C113_reading_on_partial",
    "C113_nothing_pending_partial"
   ],
   "note": "Refuted for pipes of any size: both sides write a bundle larger than the pipe and neither reads. Proved when the writes fit into the pipes and no read is abandoned: fair reading leads to a result for every bundle or the end of a session."
  },
  {
   "property": "C114",
   "status": "partial",
   "theorems": [
    "C114_full_refuted",
    "C114_no_failure_partial",
    "C114_all_arrive_partial"
   ],
   "note": "Refuted by an abandoned read that ends the session. Proved when no read is abandoned; for arrival also that the writes fit into the pipes and reading is fair."
  },
  {
   "property": "C115",
   "status": "partial",
   "theorems": [
    "C115_full_refuted",
    "C115_whole_in_order_partial"
   ],
   "note": "Refuted: try_write may take only a part of a frame, the rest is lost and the module reads the next frame as the rest. Proved up to the first such write. JSON is a parameter."
  },
  {
   "property": "C116",
   "status": "partial",
   "theorems": [
    "C116_full_refuted",
    "C116_any_bytes_partial",
    "C116_pieces",
    "C116_all_handled_partial"
   ],
   "note": "Refuted: a packet longer than 8 MiB as JSON closes the connection. Proved for all byte streams (which packets are handled, when the connection ends) and that all packets up to that size are handled. JSON is a parameter."
  },
  {
   "property": "C117",
   "status": "partial",
   "theorems": [
    "C117_full_refuted",
    "C117_only_looks",
    "C117_listing_partial",
    "C117_rest",
    "C117_filtered_digest_refuted",
    "C117_same_filtered_ids_partial"
   ],
   "note": "Refuted: with --verbose bundles already removed are listed and the address is ignored; the digest of all bundles includes removed ones; the filtered digest depends on the order of a hash map. Proved what each form of listing shows. The size in the verbose listing and the statistics are not modelled."
  },
  {
   "property": "C118",
   "status": "proved",
   "theorems": [
    "C118_one_for_each",
    "C118_endpoint",
    "C118_answer"
   ],
   "note": "For the endpoints echo and 7; CBOR and EndpointID parsing are parameters, assumed to read back the messages and addresses in question."
  },
  {
   "property": "C119",
   "status": "proved",
   "theorems": [
    "C119_no_duplicates"
   ],
   "note": ""
  },
  {
   "property": "C120",
   "status": "partial",
   "theorems": [
    "C120_full_refuted",
    "C120_echo_partial"
   ],
   "note": "Refuted: a bundle that claims the echo endpoint as its source is answered to the echo endpoint for ever. Proved when no bundle written to the service was submitted at this node."
  },
  {
   "property": "C121",
   "status": "partial",
   "theorems": [
    "C121_full_refuted",
    "C121_exit",
    "C121_answered_partial"
   ],
   "note": "Refuted: any bundle that comes counts as the answer. Proved: number of pings, exit code 0 exactly without a timeout, and that exit code 0 means all were answered when the bundles that come are answers, each to another ping."
  },
  {
   "property": "C122",
   "status": "proved",
   "theorems": [
    "C122_no_repeat",
    "C122_once_per_answer",
    "C122_real"
   ],
   "note": ""
  },
  {
   "property": "C123",
   "status": "partial",
   "theorems": [
    "C123_full_refuted",
    "C123_coverage_partial"
   ],
   "note": "Refuted: peers visited before the destination are taken out of the answer but stay marked as served. Proved for bundles without an earlier direct delivery."
  },
  {
   "property": "C124",
   "status": "partial",
   "theorems": [
    "C124_full_refuted",
    "C124_direct_partial"
   ],
   "note": "Refuted: peers visited after the destination are added to the answer. Proved: the destination is named first, removal is asked for exactly when it is named, and it is named when reachable and unserved."
  },
  {
   "property": "C125",
   "status": "partial",
   "theorems": [
    "C125_full_refuted",
    "C125_answer_partial",
    "C125_only_requests"
   ],
   "note": "Refuted: a request for a bundle to dtn:none ends the program. Proved when all endpoints are those of nodes."
  },
  {
   "property": "C126",
   "status": "proved",
   "theorems": [
    "C126_flooding"
   ],
   "note": ""
  },
  {
   "property": "C127",
   "status": "proved",
   "theorems": [
    "C127_taken_in"
   ],
   "note": "Histories with a panic and reused client addresses are C53 and C82."
  },
  {
   "property": "C128",
   "status": "partial",
   "theorems": [
    "C128_read",
    "C128_full_refuted",
    "C128_taken_in_partial"
   ],
   "note": "Refuted: a bundle that arrives before the websocket is open is written before the registration and dropped by the node. Proved when nothing was relayed before the websocket was open."
  },
  {
   "property": "C129",
   "status": "proved",
   "theorems": [
    "C129_out"
   ],
   "note": ""
  },
  {
   "property": "C130",
   "status": "partial",
   "theorems": [
    "C130_full_refuted",
    "C130_registers_partial"
   ],
   "note": "Refuted: a hundred bundles that arrive before the websocket is open fill the channel that nobody reads yet, and the registration waits for room for ever. Proved for fewer."
  },
  {
   "property": "C131",
   "status": "partial",
   "theorems": [
    "C131_full_refuted",
    "C131_noticed_partial",
    "C131_kept"
   ],
   "note": "Refuted: after a keepalive from the peer the flag that one was heard is never taken back, so the session stays for ever. Proved: ended within one interval when the last message was another one or none."
  },
  {
   "property": "C132",
   "status": "partial",
   "theorems": [
    "C132_full_refuted",
    "C132_answering_partial"
   ],
   "note": "Refuted: only pings and pongs are signs of life; a client that sends text every 10 s and no pong is disconnected after 35 s. Proved for clients that answer the pings."
  },
  {
   "property": "C133",
   "status": "proved",
   "theorems": [
    "C133_silent"
   ],
   "note": "Timed layer over the sessions of Apps.v (WsBeat.v)."
  },
  {
   "property": "C134",
   "status": "proved",
   "theorems": [
    "C134_once_per_neighbour"
   ],
   "note": "Between two starts of the node: the agent's history is in memory only."
  },
  {
   "property": "C135",
   "status": "partial",
   "theorems": [
    "C135_copies_partial",
    "C135_full_refuted"
   ],
   "note": "Refuted: a failed delivery to the destination, which takes nothing from the budget, adds a copy. Proved: at most L-1 (foreign bundles: 0) plus the number of failed deliveries."
  },
  {
   "property": "C136",
   "status": "partial",
   "theorems": [
    "C136_not_back_partial",
    "C136_full_refuted"
   ],
   "note": "Refuted: a second copy from another neighbour counts as a duplicate, the agent does not hear of it and that neighbour is sent the bundle. Proved when all copies came from the same node and no block was dropped."
  },
  {
   "property": "C137",
   "status": "proved",
   "theorems": [
    "C137_only_by_rule",
    "C137_rule_is_used"
   ],
   "note": "For bundle ids that stand for one source and destination."
  },
  {
   "property": "C138",
   "status": "proved",
   "theorems": [
    "C138_sink_transmits_nothing"
   ],
   "note": ""
  },
  {
   "property": "C139",
   "status": "proved",
   "theorems": [
    "C139_flooding_tries_all",
    "C139_flooding_tries_only"
   ],
   "note": ""
  },
  {
   "property": "C140",
   "status": "proved",
   "theorems": [
    "C140_epidemic_tries_all"
   ],
   "note": ""
  },
  {
   "property": "C141",
   "status": "proved",
   "theorems": [
    "C141_round_tries_all",
    "C141_oldest_first",
    "C141_started_task_asks"
   ],
   "note": "The store operations are atomic; a crash may leave the first half of one."
  },
  {
   "property": "C142",
   "status": "proved",
   "theorems": [
    "C142_round_removes_overdue"
   ],
   "note": ""
  },
  {
   "property": "C143",
   "status": "partial",
   "theorems": [
    "C143_full_refuted",
    "C143_tried_again_partial",
    "C143_nothing_lost"
   ],
   "note": "Refuted: a node that stops after saving a bundle and before the first forwarding attempt has saved its mark never tries the bundle again; it stays in the store until it expires. Proved: stored bundles stay stored, and those marked to be passed on are tried."
  },
  {
   "property": "C144",
   "status": "partial",
   "theorems": [
    "C144_full_refuted",
    "C144_set_out_partial"
   ],
   "note": "Refuted: a bundle with several unknown blocks to be dropped makes the task panic. Proved for bundles without such blocks, with the remaining exceptions listed: a report that cannot be addressed, an administrative record for an endpoint registered here, an unregistered source."
  },
  {
   "property": "C145",
   "status": "proved",
   "theorems": [
    "C145_names",
    "C145_forwards"
   ],
   "note": ""
  },
  {
   "property": "C146",
   "status": "proved",
   "theorems": [
    "C146_beacons",
    "C146_way_back"
   ],
   "note": ""
  },
  {
   "property": "C147",
   "status": "partial",
   "theorems": [
    "C147_full_refuted",
    "C147_blocked_for_good",
    "C147_written_partial"
   ],
   "note": "Refuted: registration is queued in a channel of 100 that is not read before; when 100 packets for a daemon came in before its websocket is open, registration waits for ever, and after 100 more so does the main loop for all daemons. Proved when no connection is being made."
  },
  {
   "property": "C148",
   "status": "partial",
   "theorems": [
    "C148_full_refuted",
    "C148_registers_partial"
   ],
   "note": "Refuted: what came in for a daemon before its websocket was open is written before the registration and ignored by the daemon. Proved: one registration only, and it is the first packet when nothing was queued."
  },
  {
   "property": "C149",
   "status": "proved",
   "theorems": [
    "C149_in_order",
    "C149_none_left",
    "C149_addressed"
   ],
   "note": ""
  },
  {
   "property": "C150",
   "status": "proved",
   "theorems": [
    "C150_recorded_before_asking",
    "C150_recorded_before_sending"
   ],
   "note": ""
  },
  {
   "property": "C151",
   "status": "proved",
   "theorems": [
    "C151_one_life",
    "C151_after_restarts",
    "C151_same_guarantees"
   ],
   "note": ""
  },
  {
   "property": "C152",
   "status": "proved",
   "theorems": [
    "C152_never_again",
    "C152_processed_once"
   ],
   "note": ""
  },
  {
   "property": "C153",
   "status": "partial",
   "theorems": [
    "C153_full_refuted",
    "C153_disk_full_refuted",
    "C153_janitor_survives_partial",
    "C153_janitor_survives_disk_partial"
   ],
   "note": "false: with status reports switched on, sending a bundle that asks for a forwarding report and has dtn:none as report-to endpoint panics and ends the periodic task; on disk, deleting a bundle between the reading of its metadata and of the bundle does. Proved: the task survives if bundles are processed in parallel, or if the bundles it forwards have a report-to endpoint (or reports are off) and, on disk, none of them vanishes meanwhile"
  },
  {
   "property": "C154",
   "status": "partial",
   "theorems": [
    "C154_full_refuted",
    "C154_once_in_order_partial",
    "C154_all_arrive_partial"
   ],
   "note": "false: a packet that is read while a hundred wait for the daemon is dropped (try_send). Proved: at most once and in order always; all of them if there is room and none is longer than 8 MiB as JSON"
  },
  {
   "property": "C155",
   "status": "proved",
   "theorems": [
    "C155_any_bytes",
    "C155_to_node"
   ],
   "note": ""
  },
  {
   "property": "C156",
   "status": "partial",
   "theorems": [
    "C156_full_refuted",
    "C156_open_partial"
   ],
   "note": "false: the program relays every packet, also a beacon whose service block cannot be read; the daemon panics holding a lock and takes no external layer any more. Proved if only bundles arrive"
  },
  {
   "property": "C157",
   "status": "proved",
   "theorems": [
    "C157_out"
   ],
   "note": ""
  },
  {
   "property": "C158",
   "status": "proved",
   "theorems": [
    "C158_answers",
    "C158_every_request"
   ],
   "note": "C158_every_request for packets whose endpoints are nodes, see C125"
  },
  {
   "property": "C159",
   "status": "partial",
   "theorems": [
    "C159_full_refuted",
    "C159_ecla_partial",
    "C159_erouting_partial"
   ],
   "note": "false: the client for routing programs panics on a port that is no number below 65536. Proved: for the client of external layers; the other one takes the same addresses and panics exactly then"
  },
  {
   "property": "C160",
   "status": "proved",
   "theorems": [
    "C160_route_delivers",
    "C160_flooding_leads",
    "C160_static_leads"
   ],
   "note": "Network.v: what is sent arrives when the world says so; the mishaps are listed in the conclusion, one constructor each"
  },
  {
   "property": "C161",
   "status": "proved",
   "theorems": [
    "C161_command",
    "C161_data",
    "C161_test_requests"
   ],
   "note": "whether the agent takes commands and what it answers come from the environment (Httpd.v, [env])"
  },
  {
   "property": "C162",
   "status": "proved",
   "theorems": [
    "C162_contacts_deliver"
   ],
   "note": "a hop may also be one that leads on as in C160; the agent is alive when asked for the bundle, does not reach the destination past the next node, and the bundle is submitted without a previous node block"
  },
  {
   "property": "C163",
   "status": "proved",
   "theorems": [
    "C163_spray_and_wait_delivers"
   ],
   "note": "a hop may also be one of C160 or C162; for a hop by spraying the node has a dtn name and made the bundle, and does not reach the destination itself; the agent is alive when asked for the bundle, and no status report gets the id of the bundle"
  },
  {
   "property": "C164",
   "status": "partial",
   "theorems": [
    "C164_refuted",
    "C164_no_answer_partial"
   ],
   "note": "Refuted: a transfer that has found a connection panics if another one fails on it and removes it before the first has taken it. Proved: that is the only way, so a transfer without an answer shares its address with one reported as failed; and every reported failure has a cause"
  },
  {
   "property": "C165",
   "status": "proved",
   "theorems": [
    "C165_few_nodes"
   ],
   "note": "the agents have the id of their node in their settings; nobody downloads the bundle over httppull; host and source names contain no slash"
  },
  {
   "property": "C166",
   "status": "proved",
   "theorems": [
    "C166_only_named",
    "C166_as_often_as_named",
    "C166_nothing_without_router"
   ],
   "note": "httppull and httppoll transfers in the other direction are not transmissions of this node"
  },
  {
   "property": "C167",
   "status": "proved",
   "theorems": [
    "C167_polled",
    "C167_shown",
    "C167_given"
   ],
   "note": "blocks that ask to be dropped: see C99; as in Apps.v the endpoint a bundle is put into is that of its destination"
  },
  {
   "property": "C168",
   "status": "partial",
   "theorems": [
    "C168_subscribed_refuted",
    "C168_confirmed_partial",
    "C168_refused_untouched"
   ],
   "note": "false for the last part of /subscribe: an endpoint unregistered between its look-up and the subscription is reported as subscribed to; all else is proved"
  },
  {
   "property": "C169",
   "status": "partial",
   "theorems": [
    "C169_refuted",
    "C169_some_address_refuted",
    "C169_no_dtn_address_refuted",
    "C169_retry_refuted",
    "C169_ipn_partial"
   ],
   "note": "false for dtn addresses: two different ones are read back from the same text, and with a reader that expects dtn:// none comes back, which stops the epidemic routing agent at the next attempt; ipn addresses do come back. That the columns hold node and service is taken from d7sneakers (not available), see the trusted base"
  },
  {
   "property": "C170",
   "status": "proved",
   "theorems": [
    "C170_traffic"
   ],
   "note": ""
  },
  {
   "property": "C171",
   "status": "partial",
   "theorems": [
    "C171_gone_refuted",
    "C171_gone_partial",
    "C171_not_offered_refuted",
    "C171_not_offered_partial",
    "C171_sent_partial"
   ],
   "note": "false in full: a forwarding task that starts after the removal writes the metadata it got before, and the bundle is listed for forwarding again though its content is gone; a reception stores the content a second time after looking at the blocks and brings back a bundle removed in between. Proved: unless the content is stored again the bundle cannot be read and is only sent by tasks that had read it before; unless the metadata are written either it is not listed"
  },
  {
   "property": "C172",
   "status": "partial",
   "theorems": [
    "C172_failed_refuted",
    "C172_by_hand_refuted",
    "C172_order_refuted",
    "C172_agent_refuted",
    "C172_table_partial",
    "C172_agent_partial"
   ],
   "note": "false in full: neighbours given up after failed transfers and peers added by hand are not announced; the announcements of two tasks can be handed over in the wrong order; a neighbour that is dropped before the agent has handled that it was met makes the agent panic. Proved: if announced changes happen one at a time, the others while no program is connected, and no packet is lost, the program ends up with the table of the node; if each change waits until the agent has dealt with the earlier ones, the agent goes on"
  },
  {
   "property": "C173",
   "status": "partial",
   "theorems": [
    "C173_configured_refuted",
    "C173_goes_on_refuted",
    "C173_listed_partial",
    "C173_goes_on_partial"
   ],
   "note": "false in full: the configured services (--service, services.service) are stored and never announced; a service added by a routing program that breaks the limits of its kind ends the announcer. Proved: neighbours list exactly the services last added by the program if these keep their limits; announcing has gone on exactly if at every round the latest services kept them"
  },
  {
   "property": "C174",
   "status": "partial",
   "theorems": [
    "C174_open_partial",
    "C174_open_refuted"
   ],
   "note": "false in full: with a service that breaks the limits of its kind the first module that registers makes the node panic while it holds the table of modules, and no other can register. Proved: if all services keep their limits the door stays open (this discharges the assumption of C82 about the services of the node)"
  },
  {
   "property": "C175",
   "status": "partial",
   "theorems": [
    "C175_stays_refuted",
    "C175_listed_partial",
    "C175_nobody_displaced"
   ],
   "note": "false in full: only beacons count as signs of life, so a node without beacons is dropped after the timeout although its session is open. Proved: a new node is listed exactly until the first clean-up that runs the timeout or later after the start of the session; other neighbours are left alone"
  },
  {
   "property": "C176",
   "status": "partial",
   "theorems": [
    "C176_first_refuted",
    "C176_lacking_refuted",
    "C176_direct_refuted",
    "C176_first_partial",
    "C176_once",
    "C176_direct_silent"
   ],
   "note": "false in full: the programs wait for packets PeerEncountered and PeerDropped while the daemon sends EncounteredPeer and DroppedPeer, so they know only the neighbours of the moment they connected; the first contact program does not answer if the first neighbour has a layer the daemon lacks; the direct program stumbles over every known destination and never answers. Proved: when the first contact program answers and what, that it names nobody for a placed bundle, and that the direct program is silent"
  }
 ]
}