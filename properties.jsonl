{"id": "C01", "title": "Subscriber identities stay unique", "statement": "At every moment, including after storage errors and crashes in the middle of an operation, no two subscriber records share a database id, an IMSI or an MSISDN, and every stored IMSI and MSISDN assigned through the API is a well-formed digit string.", "quantifier": "every sequence of database API calls with arbitrary arguments, every pattern of storage failures, every crash point between two SQL statements", "why_tests_cant": "Uniqueness has to survive every interleaving of create, rename, delete, fault and crash; tests replay a few fixed scripts without faults.", "anchors": ["src/db_hlr.c: db_subscr_create, db_subscr_delete_by_id, db_subscr_update_msisdn_by_imsi", "sql/hlr.sql: subscriber"]}
{"id": "C02", "title": "Creating a subscriber is exact", "statement": "Creating a subscriber succeeds exactly when the IMSI is a valid 6 to 15 digit string that is not yet present (and storage works); afterwards looking the IMSI up yields a record with the requested CS and PS permission bits and default values everywhere else, and no other record changed. On failure nothing changed and the error code tells an invalid IMSI from a duplicate.", "quantifier": "every database content, IMSI string and flag combination, with and without storage failure", "why_tests_cant": "The frame condition (nothing else changed) and the full if-and-only-if range over all databases and strings.", "anchors": ["src/db_hlr.c: db_subscr_create, db_subscr_get_by_imsi"]}
{"id": "C03", "title": "Deleting a subscriber removes its keys", "statement": "When deletion of a subscriber is reported as done, neither the subscriber record nor any 2G or 3G authentication data of that id remains, and all other subscribers and their keys are untouched. Therefore a subscriber created later never starts with the authentication keys of an earlier one, even though ids are reused.", "quantifier": "every database content and id, every storage-failure pattern and crash point", "why_tests_cant": "The dangerous case (crash between two deletes, then id reuse by another subscriber) needs a crash at one particular statement.", "anchors": ["src/db_hlr.c: db_subscr_delete_by_id, db_subscr_create, db_subscr_update_aud_by_id", "sql/hlr.sql: auc_2g, auc_3g"]}
{"id": "C04", "title": "MSISDN assignment is exact", "statement": "Setting an MSISDN succeeds exactly when the number is valid, the subscriber exists and no other subscriber holds the number; then lookups by the new number give that subscriber and lookups by its previous number give nobody. Removing the MSISDN clears only that field. Failed calls change nothing.", "quantifier": "every database content, IMSI, and MSISDN string or removal request", "why_tests_cant": "Quantifies over all database contents; the old-number lookup claim is a global statement about all records.", "anchors": ["src/db_hlr.c: db_subscr_update_msisdn_by_imsi, db_subscr_get_by_msisdn"]}
{"id": "C05", "title": "CS and PS attributes are independent", "statement": "Enabling or disabling network access, purging, or registering a location for one domain (circuit or packet switched) of one subscriber never changes the permission flag, the purge flag, the serving node, the serving proxy or the last-seen time of the other domain, nor anything of another subscriber.", "quantifier": "every database content, subscriber, domain and value; every storage failure pattern and crash point", "why_tests_cant": "A swapped column in one of many SQL statements only shows up for the untested domain/field pair.", "anchors": ["src/db_hlr.c: db_subscr_nam, db_subscr_purge, db_subscr_lu"]}
{"id": "C06", "title": "Stored authentication data reads back exactly", "statement": "If setting 2G or 3G authentication data is accepted, then reading it back for authentication yields exactly the algorithm and the key bytes given (any hex spelling), the OP versus OPc choice and the IND bit length, with the sequence number starting at 0; malformed keys or parameters are refused before any change is made to the database.", "quantifier": "every key string, algorithm number, parameter and database content", "why_tests_cant": "Parsing and range checks of arbitrary strings combined with two different read-back parsers.", "anchors": ["src/db_hlr.c: db_subscr_update_aud_by_id", "src/db_auc.c: hexparse_stmt, db_get_auth_data"]}
{"id": "C07", "title": "Changing authentication keys is all-or-nothing", "statement": "If the process crashes or the storage fails while keys of a subscriber are being replaced, the subscriber has either the complete old or the complete new key set afterwards.", "quantifier": "every storage failure pattern and crash point in the key update", "why_tests_cant": "Requires a crash at a particular statement boundary.", "anchors": ["src/db_hlr.c: db_subscr_update_aud_by_id"]}
{"id": "C08", "title": "Serving node names survive the database round trip", "statement": "After a successful location update by a node, the subscriber record read back names exactly that node (and the proxy it came through), so that later messages towards the subscriber are addressed to the node that registered.", "quantifier": "every peer name the protocol can carry (up to 128 bytes, any content) and every database content", "why_tests_cant": "Depends on buffer sizes and string termination at lengths and byte contents nobody tests.", "anchors": ["src/db_hlr.c: db_subscr_lu, db_sel, copy_sqlite3_text_to_ipa_name", "include/osmocom/hlr/db.h: struct hlr_subscriber", "src/gsupclient/cni_peer_id.c: osmo_ipa_name_set, osmo_ipa_name_set_str"]}
{"id": "C09", "title": "Every VLR gets its own stable IND", "statement": "Each peer name that asks for authentication vectors is given an index; two different peer names never have the same index at the same time, the same peer always gets the same index again, and allocating for one peer never changes that of another.", "quantifier": "every sequence of index requests and releases by any peers, with storage failures and crashes", "why_tests_cant": "Needs an unbounded history of allocations and releases.", "anchors": ["src/db_hlr.c: db_ind, _db_ind, db_ind_del", "sql/hlr.sql: ind"]}
{"id": "C10", "title": "Failed single-record operations leave the database untouched", "statement": "Whenever a subscriber create, MSISDN, IMEI, network-access, purge or sequence-number update reports an error, the database content is unchanged.", "quantifier": "every operation, argument, database content and storage failure", "why_tests_cant": "Every error path of every operation.", "anchors": ["src/db_hlr.c", "src/db_auc.c: db_update_sqn"]}
{"id": "C11", "title": "Authentication sequence numbers never repeat", "statement": "For a subscriber with 3G keys, over any history of vector requests by any VLRs without SIM resynchronisation, all sequence numbers placed in handed-out vectors are pairwise distinct and strictly increase in the order of generation, also across restarts, crashes and storage failures, as long as the keys are not re-provisioned.", "quantifier": "every history of requests (any VLR, any number of vectors), storage failures, crashes, random-source and crypto failures", "why_tests_cant": "Replay protection is a statement about unbounded histories with faults at arbitrary points.", "anchors": ["src/auc.c: auc_compute_vectors", "src/db_auc.c: db_get_auc, db_update_sqn"]}
{"id": "C12", "title": "Vectors are only handed out after the sequence number is stored", "statement": "Authentication vectors are returned to a VLR only if the sequence number of the last returned 3G vector has been durably stored; if storing fails the request fails and no vector leaves the HLR.", "quantifier": "every subscriber, request, failure of the random source, crypto or storage", "why_tests_cant": "Requires a storage failure exactly at the SQN update.", "anchors": ["src/db_auc.c: db_get_auc", "src/hlr.c: rx_send_auth_info"]}
{"id": "C13", "title": "Number of vectors handed out", "statement": "A request for authentication data is answered with at least one and at most five vectors, never more than requested, and the vectors are a prefix of what was asked: none of them is missing or empty.", "quantifier": "every requested number and every failure pattern of random source and crypto", "why_tests_cant": "Partial failure in the middle of vector generation.", "anchors": ["src/hlr.c: rx_send_auth_info", "src/auc.c: auc_compute_vectors"]}
{"id": "C14", "title": "IND part of the sequence number identifies the VLR", "statement": "Each 3G vector handed to a VLR carries in the low IND bits of its sequence number that VLR's index modulo 2^bits, so VLRs with different indices modulo 2^bits never receive vectors from the same SIM array slot.", "quantifier": "every stored sequence number, IND length 0 to 28, VLR index and number of vectors", "why_tests_cant": "Bit-level arithmetic over all 48-bit values and IND lengths.", "anchors": ["src/auc.c: auc_compute_vectors", "src/db_auc.c: db_get_auc", "src/hlr.c: rx_send_auth_info"]}
{"id": "C15", "title": "Resynchronisation takes effect exactly once", "statement": "On a valid resync request the first vector and all following ones use sequence numbers above the SIM's, the new number is stored, and a resync request that is incomplete, or for a subscriber without 3G keys, is refused without touching the stored sequence number.", "quantifier": "every SIM sequence number, stored number, IND and request shape", "why_tests_cant": "All combinations of 48-bit values and partial inputs.", "anchors": ["src/auc.c: auc_compute_vectors", "src/db_auc.c: db_get_auc"]}
{"id": "C16", "title": "2G and 3G key material is combined as documented", "statement": "A vector carries UMTS data iff the subscriber has a 3G algorithm, and GSM data taken from the dedicated 2G key when the subscriber has one, else derived from the 3G key; unusable key records are never used.", "quantifier": "every combination of 2G and 3G data, present, absent or malformed", "why_tests_cant": "Combinatorial; includes malformed database content.", "anchors": ["src/auc.c: auc_compute_vectors", "src/db_auc.c: db_get_auth_data"]}
{"id": "C17", "title": "Authentication request errors map to the right cause", "statement": "A vector request for an unknown subscriber, a subscriber without keys, or one that hits an internal error is answered with an error and the documented cause, never with vectors; each request gets exactly one response.", "quantifier": "every IMSI, database content and failure", "why_tests_cant": "Every error branch.", "anchors": ["src/hlr.c: rx_send_auth_info", "src/db_auc.c: db_get_auc"]}
{"id": "C18", "title": "Location update is decided by subscription", "statement": "A location update is accepted only for a known subscriber whose network access for the requested domain is enabled; otherwise it is rejected with the configured or documented cause and the registered serving node stays as it was.", "quantifier": "every database content, IMSI, domain, peer and configuration", "why_tests_cant": "Decision over all database contents and the order of checks.", "anchors": ["src/lu_fsm.c: lu_start", "src/hlr.c: rx_upd_loc_req"]}
{"id": "C19", "title": "Exactly one final answer per location update", "statement": "Each location update request is answered by exactly one final result or error, whatever the order of Insert Data results, errors, unrelated messages, timeouts and parallel updates; success is only reported after an Insert Data Result arrived, and only once the serving node is stored.", "quantifier": "every schedule of incoming messages and timer expiries over any number of concurrent location updates", "why_tests_cant": "All interleavings of concurrent updates and timeouts.", "anchors": ["src/lu_fsm.c: lu_start, lu_rx_gsup, lu_fsm_wait_insert_data_result, lu_fsm_timer_cb"]}
{"id": "C20", "title": "Concurrent location updates do not complete each other", "statement": "An Insert Data Result completes the location update of the peer that sent it and of no other peer.", "quantifier": "every pair of concurrent location updates for the same subscriber and every message order", "why_tests_cant": "Needs a race of two peers for one subscriber.", "anchors": ["src/lu_fsm.c: lu_rx_gsup"]}
{"id": "C21", "title": "Purge is recorded and lifted", "statement": "A purge request marks exactly the given domain as purged and is acknowledged iff the subscriber exists; a later successful location update makes the subscriber reachable (not purged) again; a purge from a node that is no longer serving the subscriber is ignored.", "quantifier": "every history of location updates and purges by any peers", "why_tests_cant": "History property over several messages from different peers.", "anchors": ["src/hlr.c: rx_purge_ms_req", "src/db_hlr.c: db_subscr_purge, db_subscr_lu", "src/lu_fsm.c: lu_start"]}
{"id": "C22", "title": "Create-on-demand", "statement": "With create-on-demand enabled an unknown IMSI that asks for service is created once with the configured access flags and, if so configured, a fresh random MSISDN of the configured length that no other subscriber has; with it disabled requests never create subscribers; known subscribers are never altered.", "quantifier": "every configuration, database content, IMSI and random sequence", "why_tests_cant": "Random MSISDN collisions and retry loop.", "anchors": ["src/hlr.c: subscr_create_on_demand, generate_new_msisdn"]}
{"id": "C23", "title": "IMEI check", "statement": "A device check stores the reported IMEI only if so configured and only if it is well formed, is answered with result ACK for a known (or on-demand created) subscriber and an error otherwise, and changes no other attribute.", "quantifier": "every IMEI octet string, configuration and database content", "why_tests_cant": "Binary decoding of arbitrary octets.", "anchors": ["src/hlr.c: rx_check_imei_req", "src/db_hlr.c: db_subscr_update_imei_by_imsi"]}
{"id": "C24", "title": "Responses echo the request's addressing", "statement": "Each response sent for a GSUP request repeats the IMSI, message class, session id, and is addressed back to the requesting peer; a non-final response leaves the request open, a final one closes it, and a closed request is never answered again. Errors are only sent for messages that are requests.", "quantifier": "every request content, response and sequence of respond calls", "why_tests_cant": "All combinations of optional fields and all call sequences.", "anchors": ["src/gsupclient/gsup_req.c: osmo_gsup_req_new, _osmo_gsup_req_respond, _osmo_gsup_req_respond_err, osmo_gsup_make_response"]}
{"id": "C25", "title": "Routing table integrity", "statement": "At any time each peer name has at most one route, every route leads to a connection that is still open, a peer that identified itself under a free name is reachable under it until it disconnects, and disconnecting a peer leaves routes of others alone.", "quantifier": "every history of connects, identifications, proxied sources and disconnects", "why_tests_cant": "Unbounded histories of connection events.", "anchors": ["src/gsup_router.c: gsup_route_add_ipa_name, gsup_route_del_conn, gsup_route_find_by_ipa_name", "src/gsup_server.c: osmo_gsup_server_ccm_cb, osmo_gsup_server_conn_rx, osmo_gsup_server_closed_cb"]}
{"id": "C26", "title": "Responses reach the connection that asked", "statement": "A response or error for a request received on a connection is transmitted on that same connection and on no other.", "quantifier": "every history of connections and requests, including reused and proxied names", "why_tests_cant": "Requires name collisions between peers or unusual names.", "anchors": ["src/gsup_server.c: osmo_gsup_server_send_req_response, osmo_gsup_server_conn_rx"]}
{"id": "C27", "title": "Peer name comparison is an order", "statement": "Peer name comparison is a total order whose zero is equality of the name bytes, so lookups by name never confuse two peers and never miss one.", "quantifier": "all names of up to 128 bytes including stale buffer content and empty names", "why_tests_cant": "Algebraic law over all pairs and triples.", "anchors": ["src/gsupclient/cni_peer_id.c: osmo_ipa_name_cmp, osmo_cni_peer_id_cmp, osmo_ipa_name_set"]}
{"id": "C28", "title": "Subscription changes are pushed to the right nodes", "statement": "When access for one domain is switched off, exactly the node serving that domain is told to delete the subscriber; when access or MSISDN changes, connected serving nodes are told the new data.", "quantifier": "every subscriber state, change and set of connected peers", "why_tests_cant": "All combinations of serving nodes, shared names and changes.", "anchors": ["src/hlr.c: hlr_subscr_nam, osmo_hlr_subscriber_update_notify", "src/hlr_vty_subscr.c: subscriber_msisdn, subscriber_nam", "src/ctrl.c: set_subscr_msisdn, set_subscr_cs_ps_enabled"]}
{"id": "C29", "title": "USSD requests go to the first configured matching service", "statement": "A mobile originated USSD code is handled by the first configured route whose prefix matches, else by the default entity, else it is refused with an error; adding, removing and re-adding routes keeps prefixes unique and the order of first insertion.", "quantifier": "every route table history and every USSD string", "why_tests_cant": "All prefix relations and table histories.", "anchors": ["src/hlr_ussd.c: ussd_route_lookup_for_req, ussd_route_prefix_alloc_int, ussd_route_prefix_alloc_ext, ussd_route_del, handle_ussd"]}
{"id": "C30", "title": "USSD sessions keep to their parties", "statement": "At any time there is at most one session per IMSI and session id; messages of a session are delivered only to the mobile's node or to the one service entity that the session was opened with; and no message order makes the HLR call a handler of the wrong kind.", "quantifier": "every sequence of session messages from mobiles and external entities, and timeouts", "why_tests_cant": "All interleavings of MO/MT begin, continue, end and timeouts.", "anchors": ["src/hlr_ussd.c: rx_proc_ss_req, handle_ss, handle_ussd, ss_session_find, ss_session_alloc"]}
{"id": "C31", "title": "Short messages are routed by service centre address", "statement": "A mobile originated short message is forwarded to the service centre configured for exactly its SMSC address, else to the default, else refused; mobile terminated messages go to the serving MSC of the subscriber; each request yields one forward or one error.", "quantifier": "every route table, SMSC address and subscriber state", "why_tests_cant": "All table contents and address encodings.", "anchors": ["src/hlr_sms.c: find_smsc_route, forward_mo_sms, forward_mt_sms, rx_ready_for_sm_req"]}
{"id": "C32", "title": "Lookup queries survive the domain name encoding", "statement": "Encoding a subscriber lookup query as a domain name and decoding it gives the same service, id type and id; decoding accepts only well-formed names and never yields an invalid id or over-long service.", "quantifier": "every query and every string", "why_tests_cant": "Round trip over all strings including services containing dots.", "anchors": ["src/mslookup/mslookup.c: osmo_mslookup_query_init_from_domain_str", "src/mslookup/mdns.c: domain_from_query, query_from_domain"]}
{"id": "C33", "title": "mDNS packets round trip", "statement": "Encoding any lookup query or any lookup result (IPv4, IPv6 or both) as an mDNS packet and decoding the packet yields the same packet id, query and result.", "quantifier": "every valid query, packet id, address, port, age and domain suffix", "why_tests_cant": "Binary codec over all values.", "anchors": ["src/mslookup/mdns.c: osmo_mdns_query_encode, osmo_mdns_query_decode, osmo_mdns_result_encode, osmo_mdns_result_decode", "src/mslookup/mdns_msg.c", "src/mslookup/mdns_rfc.c"]}
{"id": "C34", "title": "mDNS decoding is memory safe", "statement": "No received UDP packet, whatever its bytes and length, makes the decoder read or write outside its buffers or crash.", "quantifier": "all byte strings", "why_tests_cant": "All packets; fuzzing only samples.", "anchors": ["src/mslookup/mdns_rfc.c: osmo_mdns_rfc_question_decode, osmo_mdns_rfc_record_decode", "src/mslookup/mdns_msg.c: osmo_mdns_msg_request_decode, osmo_mdns_msg_answer_decode"]}
{"id": "C35", "title": "Lookup results are delivered in order with one end", "statement": "For each lookup request the callback is called at least once and with exactly one final call, nothing follows the final call, ages of delivered results strictly decrease, a result of age 0 ends the request immediately, no result is delivered before the minimum delay unless of age 0, and without any result the final call says not found after the timeout.", "quantifier": "every sequence of results of all lookup methods, timer expiries and parallel requests", "why_tests_cant": "All interleavings of results and timers.", "anchors": ["src/mslookup/mslookup_client.c: osmo_mslookup_client_request, osmo_mslookup_client_rx_result, timeout_cb, osmo_mslookup_client_request_cancel"]}
{"id": "C36", "title": "Cancelling a lookup from its callback is safe", "statement": "A result callback may cancel its own request at any time without the client using the request afterwards.", "quantifier": "every callback behaviour and schedule", "why_tests_cant": "Use after free only on one path of the timer.", "anchors": ["src/mslookup/mslookup_client.c: timeout_cb, osmo_mslookup_client_request_cancel"]}
{"id": "C37", "title": "Lookup server answers only for its own subscribers", "statement": "A lookup for the home HLR is answered exactly when the subscriber is in the local database and the local address is configured; any other service is answered only if the subscriber did a location update here, not through a proxy, recently enough, with the age of that update, choosing the more recent of home and roaming registrations, and with the address configured for the serving MSC or else the wildcard.", "quantifier": "every database content, proxy cache content, configuration, query and clock value", "why_tests_cant": "Combination of two registries, ages and configuration.", "anchors": ["src/mslookup_server.c: osmo_mslookup_server_rx, mslookup_server_rx_hlr_gsup, subscriber_has_done_lu_here"]}
{"id": "C38", "title": "Local subscribers are never proxied", "statement": "A GSUP message for a subscriber in the local database is always handled locally; for others there is at most one cache entry per IMSI.", "quantifier": "every message, database content, cache content and lookup outcome", "why_tests_cant": "All combinations of state.", "anchors": ["src/dgsm.c: dgsm_check_forward_gsup_msg", "src/proxy.c: proxy_subscr_create_or_update"]}
{"id": "C39", "title": "Deferred proxy requests are answered or forwarded once", "statement": "While the home HLR of a roaming subscriber is being looked up, its requests wait and are then forwarded in arrival order, each exactly once, or each answered with an error exactly once if the lookup or the connection fails.", "quantifier": "every schedule of requests, lookup results, connection events and cache expiry", "why_tests_cant": "All schedules including connection loss.", "anchors": ["src/proxy.c: proxy_subscr_forward_to_remote_hlr, proxy_deferred_gsup_req_add, proxy_deferred_gsup_req_pop, proxy_subscr_remote_hlr_resolved, proxy_cleanup", "src/remote_hlr.c: remote_hlr_get_or_connect, remote_hlr_up_down"]}
{"id": "C40", "title": "Roaming registration is confirmed by the home HLR", "statement": "The proxy registers a VLR or SGSN as serving a roaming subscriber only when the home HLR confirmed the location update of that same node, per domain, and passes the confirmation on to that node only.", "quantifier": "every message sequence between serving nodes and home HLRs", "why_tests_cant": "All interleavings of CS and PS updates of several nodes.", "anchors": ["src/proxy.c: proxy_acknowledge_gsup_to_remote_hlr, proxy_acknowledge_gsup_from_remote_hlr"]}
{"id": "C41", "title": "Database upgrades survive crashes", "statement": "If an upgrade or the initial creation of the database is interrupted at any point, the next start completes it and no subscriber is lost.", "quantifier": "every start version, database content and crash point", "why_tests_cant": "All crash points between statements.", "anchors": ["src/db.c: db_bootstrap, db_upgrade_v1..v7, db_open"]}
{"id": "C42", "title": "Database upgrades preserve data", "statement": "An uninterrupted upgrade from any older version to the current one succeeds, keeps the identity, keys, sequence numbers, permissions and serving nodes of every subscriber, and results in the same schema as a fresh database.", "quantifier": "every old version and database content", "why_tests_cant": "All contents and versions.", "anchors": ["src/db.c: db_upgrade_v1..v7"]}
{"id": "C43", "title": "Only a matching database version is opened", "statement": "The HLR runs only on a database of exactly the supported version; it never modifies a database of a different version unless upgrading was allowed, and never one that is newer.", "quantifier": "every stored version and content", "why_tests_cant": "All version values including negative and newer.", "anchors": ["src/db.c: db_open"]}
{"id": "C44", "title": "Ages of stored times are computed safely", "statement": "The age of a stored time is the exact difference to now if it lies between 0 and 2^32-1 seconds, else it is reported as unknown.", "quantifier": "all pairs of times", "why_tests_cant": "Integer range boundaries.", "anchors": ["src/timestamp.c: timestamp_age"]}
{"id": "C45", "title": "Legacy database import decodes keys exactly", "statement": "Decoding of the binary encoding used by the old database inverts its encoding for every byte string that fits, and never writes more bytes than the input length.", "quantifier": "all byte strings", "why_tests_cant": "All byte strings.", "anchors": ["src/dbd_decode_binary.c: _dbd_decode_binary", "src/hlr_db_tool.c: import_nitb_subscr_aud"]}
{"id": "C46", "title": "Control interface selectors address exactly one subscriber", "statement": "A control command selects the subscriber by IMSI, MSISDN or id exactly as written in the selector and can not affect any other subscriber.", "quantifier": "every selector string and database content", "why_tests_cant": "All strings.", "anchors": ["src/ctrl.c: get_subscriber, hlr_ctrl_node_lookup"]}
{"id": "C47", "title": "Client side message classification", "statement": "Each GSUP message received by a multiplexing client goes to the receiver registered for its class (explicit, or implied by message type), and a request without receiver is answered with an error towards its sender, while results and errors are never answered.", "quantifier": "every message type and class", "why_tests_cant": "All 256 message types and classes.", "anchors": ["src/gsupclient/gsup_client_mux.c: gsup_client_mux_classify, gsup_client_mux_rx, osmo_gsup_client_mux_tx_error_reply"]}
{"id": "C48", "title": "Service address configuration is a map", "statement": "Configuring lookup service addresses behaves as a map from (MSC, service, address family) to address and port: a set is visible to lookups of exactly that key until deleted, others are unaffected, invalid entries are refused.", "quantifier": "every history of set and delete commands", "why_tests_cant": "Unbounded histories.", "anchors": ["src/mslookup_server.c: mslookup_server_msc_service_set, mslookup_server_msc_service_del, mslookup_server_msc_service_get"]}
{"id": "C49", "title": "Forwarding between peers keeps to the destination", "statement": "A message that names another peer as destination is delivered to that peer only, with the sender's name as source, never handled locally, and if the peer is not connected the sender gets a routing error.", "quantifier": "every destination name, source and routing table", "why_tests_cant": "All routing tables and names.", "anchors": ["src/hlr.c: read_cb, read_cb_forward", "src/gsup_server.c: osmo_gsup_forward_to_local_peer"]}
{"id": "C50", "title": "GSUP client reconnects forever without flooding", "statement": "A GSUP client whose link is lost or whose peer stops answering keep-alives drops the link and retries until connected or destroyed, with at most one pending attempt at any time, and never sends data on a link that is down.", "quantifier": "every schedule of link events, keep-alive answers and timers", "why_tests_cant": "All schedules.", "anchors": ["src/gsupclient/gsup_client.c: gsup_client_connect, connect_timer_cb, gsup_client_updown_cb, gsup_client_read_cb, ping_timer_cb, start_test_procedure, osmo_gsup_client_send, osmo_gsup_client_destroy"]}
{"id": "C51", "title": "Link notifications of the GSUP client are faithful", "statement": "The up/down callback of a GSUP client is told up exactly when the link has been established, down exactly when an established link is gone, in alternation.", "quantifier": "every schedule of link events, keep-alive answers and timers", "why_tests_cant": "All schedules.", "anchors": ["src/gsupclient/gsup_client.c: gsup_client_updown_cb, connect_timer_cb, ping_timer_cb, gsup_client_connect"]}
{"id": "C52", "title": "Keys set over the control interface are the keys stored", "statement": "A key written to aud2g or aud3g of a subscriber is stored as written and read back as written; a value that is not of the documented form is refused and changes nothing; what is read can be written again.", "quantifier": "every value string, subscriber and database content", "why_tests_cant": "All strings.", "anchors": ["src/ctrl.c: get_subscr_aud2g, set_subscr_aud2g, get_subscr_aud3g, set_subscr_aud3g", "src/hlr_vty_subscr.c: auth_algo_parse"]}
{"id": "C53", "title": "VTY commands act on the subscriber named, and say what they did", "statement": "Every VTY command on a subscriber acts on the one subscriber that its words name, changes exactly what it asks for, changes nothing when it warns, and has done its work when it reports success.", "quantifier": "every command line of hlr_vty_subscr.c on one subscriber, every database, every schedule of storage faults", "why_tests_cant": "All words, databases and faults.", "anchors": ["src/hlr_vty_subscr.c: get_subscr_by_argv, subscr_dump_full_vty, subscriber_show, subscriber_create, subscriber_delete, subscriber_msisdn, subscriber_aud2g, subscriber_aud3g, subscriber_aud3g_xor, subscriber_imei, subscriber_nam"]}
{"id": "C54", "title": "VTY lists show exactly the subscribers asked for", "statement": "Every \"show subscribers\" command prints exactly the subscribers that its words ask for, each once, in its order, with what the database has about them and their number; a list cut short by a fault of the database is followed by a warning.", "quantifier": "every filter, database, time and point of failure", "why_tests_cant": "All search texts, databases and faults.", "anchors": ["src/db_hlr.c: db_subscrs_get", "src/hlr_vty_subscr.c: get_subscrs, dump_summary_cb, subscr_dump_summary_vty, dump_last_lu_seen, show_subscriber_all, show_subscriber_filtered, show_subscriber_order_last_seen"]}
{"id": "C55", "title": "The import from OsmoNITB takes over every subscriber as it is", "statement": "osmo-hlr-db-tool import-nitb-db adds every subscriber of the OsmoNITB database with its IMSI, extension, IMEI, authorization, time of the last location update and authentication key, leaves the other subscribers of the HLR as they are, keeps the database consistent whatever fails, runs into nothing undefined and reports failure.", "quantifier": "every list of rows, HLR database and sequence of database faults", "why_tests_cant": "All rows, databases and faults.", "anchors": ["src/hlr_db_tool.c: import_nitb_db, import_nitb_subscr, import_nitb_subscr_aud, db_subscr_update_lu_by_imsi"]}
{"id": "C56", "title": "A saved configuration is read back as it was", "statement": "After any commands, writing the configuration runs into nothing undefined and produces a file that is accepted at the next start and gives a configuration with the same meaning: the same causes, database, subscriber creation, GSUP server, USSD and SMSC entities and routes, PDP profiles and Distributed GSM settings.", "quantifier": "every sequence of configuration commands, in files and typed", "why_tests_cant": "All sequences of commands.", "anchors": ["src/hlr_vty.c: config_write_hlr, config_write_hlr_gsup, config_write_euse, config_write_smsc, config_write_hlr_ps and the commands of the configuration nodes", "src/dgsm_vty.c: config_write_mslookup and the commands of its nodes"]}
{"id": "C57", "title": "The PDP profiles sent are those configured", "statement": "If PDP profiles are enabled, an Insert Subscriber Data message for PS carries exactly the configured profiles, each number once; and a profile can always be created.", "quantifier": "every sequence of configuration commands", "why_tests_cant": "All sequences of commands.", "anchors": ["src/hlr_vty.c: get_pdp_profile, create_pdp_profile, destroy_pdp_profile, cfg_ps_pdp_profiles_profile, cfg_no_ps_pdp_profiles_profile", "src/gsup_server.c: osmo_gsup_create_insert_subscriber_data_msg"]}
{"id": "C58", "title": "The lookup daemon answers each program on its own", "statement": "A program that sends a query to the socket of osmo-mslookup-client gets exactly the results of its own request, each as it arrives, then its socket is closed; a query that is refused is answered with an error. What other programs do has no effect on it. Nothing is sent to it that it did not ask for, nothing after the end, and the end comes by timeout at the latest.", "quantifier": "every sequence of connections, packets, answers and timers, any number of programs", "why_tests_cant": "All interleavings of programs, answers and timers.", "anchors": ["src/mslookup/osmo-mslookup-client.c: socket_read_cb, socket_accept, respond_result, respond_err, mslookup_result_cb, start_query_str"]}
{"id": "C59", "title": "The lines of the lookup tool can be read", "statement": "Every line in CSV has the columns of the header with the values in their places; every line in JSON is an object that says query, result, whether it is the last, age and addresses.", "quantifier": "every query text, result and error", "why_tests_cant": "All query texts and results.", "anchors": ["src/mslookup/osmo-mslookup-client.c: formatter_csv, formatter_json, CSV_HEADERS"]}
{"id": "C60", "title": "The lookup tool keeps the timeouts it is given and ends", "statement": "A request waits for the delay and the timeout that are written before '@' in the query, or else for those of the command line. Without -d the program ends as soon as all queries of the command line are answered, and that happens by timeout at the latest.", "quantifier": "every text before '@', every set of queries", "why_tests_cant": "All texts and all sequences of events.", "anchors": ["src/mslookup/osmo-mslookup-client.c: start_query_str, parse_int, main"]}
{"id": "C61", "title": "Lookups over the network find what the HLRs know", "statement": "A lookup client is told a result only if an HLR of its network had this answer for what was asked, or a user announced it with --send. A client that waits for something an HLR has an answer to is told this answer once the packets are delivered. Packets may be lost, doubled, reordered and heard by everybody including the sender; they do no harm. Networks with different domain suffixes do not understand each other.", "quantifier": "every sequence of requests, deliveries, answers of HLRs with any state, announcements and timers", "why_tests_cant": "All interleavings of client, network and HLRs; all services and identities.", "anchors": ["src/mslookup/mslookup_client_mdns.c: mdns_method_recv, mdns_method_request", "src/mslookup/mslookup_client.c", "src/mslookup/mdns.c", "src/mslookup_server_mdns.c: osmo_mslookup_server_mdns_rx, osmo_mslookup_server_mdns_handle_request", "src/mslookup_server.c: mslookup_server_rx"]}
{"id": "C62", "title": "An announced result is what the arguments say", "statement": "osmo-mslookup-client --send with a query, an age and addresses sends one packet that the lookup clients read as exactly this query and result, and reports success; for other arguments nothing is sent and failure is reported.", "quantifier": "every list of arguments", "why_tests_cant": "All argument lists.", "anchors": ["src/mslookup/osmo-mslookup-client.c: do_send, parse_int"]}
{"id": "C63", "title": "The mDNS server and client run as configured", "statement": "Once the program has started, at any time the mDNS lookup server and client run if and only if they are configured to, with the configured address and domain suffix; before and after that nothing runs. Commands that do not change what is configured for them neither stop nor restart them. Nothing undefined happens.", "quantifier": "every sequence of configuration commands in the file and on the VTY, start and stop, with any outcome of the system calls", "why_tests_cant": "All orders of commands and failures of system calls; use of freed memory may go unnoticed.", "anchors": ["src/dgsm.c: dgsm_start, dgsm_stop, dgsm_mdns_client_config_apply", "src/mslookup_server_mdns.c: mslookup_server_mdns_config_apply", "src/mslookup/mslookup_client_mdns.c: osmo_mslookup_client_add_mdns", "src/mslookup/mdns_sock.c: osmo_mdns_sock_init", "src/dgsm_vty.c"]}
{"id": "C64", "title": "Messages carry nothing but what their kind is for", "statement": "Every message the HLR sends is either the message just received, passed on with the same kind, subscriber and contents, or carries only the contents that its kind is for. Authentication vectors are sent only in the answer to the request for them just received, for the subscriber named in it; MSISDNs only to a node while its location update of this subscriber is handled, or when the MSISDN is changed on the VTY; USSD texts only while a USSD message of this subscriber is handled. With D-GSM the proxy adds nothing: messages to remote HLRs are those of requests taken over, messages from them go on as they came.", "quantifier": "every state, event, fault of the database", "why_tests_cant": "A leak may need any combination of state and message.", "anchors": ["src/hlr.c", "src/lu_fsm.c", "src/hlr_ussd.c", "src/hlr_sms.c", "src/gsup_server.c: osmo_gsup_create_insert_subscriber_data_msg", "src/gsupclient/gsup_req.c: osmo_gsup_make_response", "src/remote_hlr.c", "src/proxy.c"]}
{"id": "C65", "title": "In a network of HLRs, clients are told what the home HLR decided", "statement": "In a network of HLRs that reach each other through D-GSM, whatever messages are lost, repeated or reordered on the way and whatever clients send: if an HLR tells a client that a location update has succeeded, then some HLR that has the subscriber with access in this domain has taken up this update for this node, now or before. Authentication vectors that a client gets come from an HLR that has the subscriber with a key in use and was asked for them; the number comes from an HLR that has the subscriber with this number.", "quantifier": "every number of HLRs, configurations, databases, histories of events, messages of clients, faults of the databases, crashes", "why_tests_cant": "Needs every interleaving of several HLRs.", "anchors": ["src/hlr.c: read_cb", "src/lu_fsm.c", "src/dgsm.c", "src/proxy.c", "src/remote_hlr.c"]}
{"id": "C66", "title": "Octets on GSUP connections", "statement": "Whatever octets a client sends on its GSUP connection, the HLR handles the messages in them that can be decoded and does nothing about the others; it passes on messages for other nodes octet for octet, so that they read them as they were sent; it goes on running and keeps no buffer.", "quantifier": "every state, message on a connection, decoder, faults of the database", "why_tests_cant": "Needs every length and content of messages.", "anchors": ["src/gsup_server.c: osmo_gsup_server_read_cb", "src/gsup_server.c: osmo_gsup_conn_send", "src/hlr.c: read_cb_forward"]}
{"id": "C67", "title": "Messages fit into their buffers", "statement": "Every message that the HLR makes fits into the buffer of 1024 octets it is encoded into (libosmocore ends the process otherwise), whatever is configured and whatever is asked.", "quantifier": "every configuration, state, event, faults of the database", "why_tests_cant": "Depends on the sizes of everything that is configured and received together.", "anchors": ["src/gsup_server.c: osmo_gsup_msgb_alloc", "src/gsup_server.c: osmo_gsup_create_insert_subscriber_data_msg", "src/hlr_vty.c: cfg_ps_pdp_profile_apn"]}
{"id": "C68", "title": "The demonstration external USSD entity", "statement": "osmo-euse-demo answers every request of a USSD session with exactly one message that ends the session, and frees every message it gets; together with the HLR a request routed to it is answered to the node that asked, with the text of the request, and the HLR forgets the session; the two never keep each other busy with messages that nobody else caused, and nothing is sent for a session that is over.", "quantifier": "every message; every history of the HLR with the entity and any other peers, faults of the database", "why_tests_cant": "Needs every interleaving of the two programs with other peers.", "anchors": ["src/osmo-euse-demo.c: gsupc_read_cb", "src/osmo-euse-demo.c: euse_rx_proc_ss_req", "src/hlr_ussd.c: rx_proc_ss_req"]}
{"id": "C69", "title": "Where a subscriber is registered, and since when", "statement": "The serving node, the node in between and the time of the last location update of a subscriber in a domain change only when a location update request for that subscriber and domain comes in, and then to the name the sender is known under, the connection that passed the message on (if it says that it comes from another node) and the present time; the other domain and other subscribers keep what they have. Every time and every node found in the database was there at the start or such a request came at that time or from that node. When subscriber data are sent to the node, all three are stored.", "quantifier": "every history of messages, commands, timers, calls and faults of the database", "why_tests_cant": "Needs every history with every fault.", "anchors": ["src/hlr.c: rx_upd_loc_req", "src/lu_fsm.c: lu_start", "src/db_hlr.c: db_subscr_lu", "src/gsup_req.c: osmo_gsup_req_new"]}
{"id": "C70", "title": "Command lines and start-up", "statement": "Both osmo-hlr and osmo-hlr-db-tool understand exactly the command lines that spell their options (in any order, long names cut short, arguments in the same or the next word) and understand them as what their help texts say; all documented options work. With help, version or a mistake nothing is read, opened or changed. osmo-hlr reads the configuration, then opens the database of -l, of the configuration or hlr.db, once; it serves only with a database that could be opened in the current version and after its sockets are open; with --db-check it opens and closes the database, never serves, and reports success exactly if it could be opened. No other file is changed, and that one only if it is older and upgrading was asked for, or empty. osmo-hlr-db-tool works only for create and import-nitb-db with a file and reports success exactly if it worked.", "quantifier": "every list of arguments, every environment (configuration, sockets, faults of the database, files)", "why_tests_cant": "There are infinitely many command lines and environments; tests start the programs in a few ways.", "anchors": ["src/hlr.c: handle_options, main", "src/hlr_db_tool.c: handle_options, main", "src/db.c: db_open"]}
{"id": "C71", "title": "Command lines of the lookup tool and of the demonstration entity", "statement": "osmo-mslookup-client takes exactly the command lines that spell its options with arguments that can be used, and does what they ask for as its help and the manual say: help, version and mistakes end it with nothing done; --send sends exactly the result that the words say, and not together with options for listening; otherwise it looks up the words with the times, format and addresses given, exactly if there is something to do and the sockets can be opened; it ends with success without -d, and never with -d. With -q nothing is written to stderr. osmo-euse-demo connects to the host and port of its arguments or to the HLR on this machine, and refuses ports that are none.", "quantifier": "every list of arguments, every environment (texts of addresses, sockets), every course of events", "why_tests_cant": "There are infinitely many command lines and courses of events; the programs have no tests of their own.", "anchors": ["src/mslookup/osmo-mslookup-client.c: main, print_help", "src/osmo-euse-demo.c: main", "doc/manuals/chapters/dgsm.adoc"]}
{"id": "C72", "title": "Upgrade of the database after an upgrade of the package", "statement": "Whatever fails and wherever it is interrupted, osmo-hlr-post-upgrade.sh loses nothing of the subscribers, changes no other file, and changes the database only once a whole copy of it exists and while the service is not active. On success the database can be opened by osmo-hlr and the service is active if and only if it was before. An older database is upgraded if nothing fails. Without a database, or if no upgrade is needed or possible, the service and the files are left alone.", "quantifier": "every file system, database file and state of the service, every outcome of every command, every fate of every database operation, every moment of interruption", "why_tests_cant": "The script has no tests; its failures depend on when and where the commands fail.", "anchors": ["contrib/osmo-hlr-post-upgrade.sh", "src/hlr_db_tool.c: main", "src/db.c: db_open"]}
{"id": "C73", "title": "Texts about a subscriber", "statement": "What the VTY and the control interface print about a subscriber is what is stored: each stored fact is printed once in its words and nothing else is; dates are those of the calendar in UTC and fit their buffer; subscribers of whom different facts are stored are shown differently; an info text of the control interface has one line of name and value for each thing known; the columns of the lists stand below their titles.", "quantifier": "every row of the database and every set of keys, every time and time zone", "why_tests_cant": "Tests compare a few texts without dates, IMEIs or names of peers.", "anchors": ["src/hlr_vty_subscr.c: get_datestr", "src/hlr_vty_subscr.c: dump_last_lu_seen", "src/hlr_vty_subscr.c: subscr_dump_full_vty", "src/hlr_vty_subscr.c: subscr_dump_summary_vty", "src/hlr_vty_subscr.c: dump_summary_table_vty", "src/ctrl.c: print_subscr_info", "src/ctrl.c: print_subscr_info_aud2g", "src/ctrl.c: print_subscr_info_aud3g"]}
{"id": "C74", "title": "Scripts that forward calls and messages", "statement": "The scripts that forward by mslookup send a call or a message to the IPv4 address and port of the best answer for the called number that came within the time, or at once to that of a perfect one; otherwise the call is hung up and the SMSC told of an error; they end for every number; what is called has no influence on where it is sent other than by the answers for it; the SMSC is told of success only if the message was sent on; the scripts for the pipe and the socket give back the youngest answer or that there was none.", "quantifier": "every called number, every sequence of answers, packets, timers and partitions of them", "why_tests_cant": "There are no tests of these scripts, and the order of answers and timers is that of the network.", "anchors": ["contrib/dgsm/freeswitch_dialplan_dgsm.py: handler", "contrib/dgsm/freeswitch_dialplan_dgsm.py: query_mslookup", "contrib/dgsm/esme_dgsm.py: rx_deliver_sm", "contrib/dgsm/esme_dgsm.py: can_handle_pdu", "contrib/dgsm/osmo-mslookup-pipe.py: query_mslookup", "contrib/dgsm/osmo-mslookup-socket.py: query_mslookup_socket"]}
{"id": "C75", "title": "The load test client", "statement": "Whatever the server sends, the load test client reads no null pointer and no freed memory. It asks for authentication info once for each of its IMSIs in turn, for a location update once for an IMSI after its authentication info came, and answers every Insert Data. Every operation ends with its answer or with a timeout, every buffer received is freed, and the counters are those of the operations begun, answered and ended.", "quantifier": "every sequence of rounds of its loop, messages received and events of the link", "why_tests_cant": "It is itself the test; it is not run by the test suite, and a server that answers out of turn is not at hand.", "anchors": ["src/gsupclient/gsup_test_client.c: imsi_op_alloc", "src/gsupclient/gsup_test_client.c: imsi_op_release", "src/gsupclient/gsup_test_client.c: req_loc_upd", "src/gsupclient/gsup_test_client.c: resp_isd", "src/gsupclient/gsup_test_client.c: imsi_op_rx_gsup", "src/gsupclient/gsup_test_client.c: gsupc_read_cb", "src/gsupclient/gsup_test_client.c: main"]}
{"id": "C76", "title": "The fake lookup method", "statement": "Each prepared response of the fake lookup method is given at most once, to a request for the same service and subscriber, not before its time; when the timer fires no request that a response is due for is left out. A request may be ended at any time, also while results are given, and the method can be removed, without freed memory being used.", "quantifier": "every table of responses, every sequence of requests, cancellations and timer events, every reading of the clock, every behaviour of the client while it is given a result", "why_tests_cant": "The method is part of the tests of the lookup client; its own behaviour is only seen with the few callbacks of that test.", "anchors": ["src/mslookup/mslookup_client_fake.c: fake_lookup_request", "src/mslookup/mslookup_client_fake.c: fake_lookup_request_cleanup", "src/mslookup/mslookup_client_fake.c: fake_lookup_async_response", "src/mslookup/mslookup_client_fake.c: osmo_mslookup_client_add_fake"]}
{"id": "C77", "title": "Filling a database for tests", "statement": "The script populate_hlr_db.pl and the file hlr_data.sql only add rows to a database, keep its constraints and give no key to a subscriber who was there before. Each subscriber they announce can then be found by the HLR by the IMSI and the MSISDN, with the keys they state, and no key is added that belongs to nobody.", "quantifier": "every database, every outcome of each INSERT, every point at which the script is ended", "why_tests_cant": "They are used by hand on an empty database; a million rows and databases that are in use are not tried.", "anchors": ["src/populate_hlr_db.pl: create_subscr_base", "src/populate_hlr_db.pl: create_auc_2g", "src/populate_hlr_db.pl: create_auc_3g", "src/populate_hlr_db.pl: create_subscr", "sql/hlr_data.sql"]}
