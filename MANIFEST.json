{
 "claims": [
  {
   "property": "C01",
   "status": "proved",
   "theorems": [
    "C01_identities_unique",
    "C01_identities_unique_from"
   ],
   "note": "Every history of API calls with arbitrary faults and crashes."
  },
  {
   "property": "C02",
   "status": "proved",
   "theorems": [
    "C02_create_success_exact",
    "C02_create_effect",
    "C02_create_readback"
   ],
   "note": ""
  },
  {
   "property": "C03",
   "status": "partial",
   "theorems": [
    "C03_any_faults",
    "C03_delete_partial",
    "C03_fresh_subscriber_has_no_keys_partial",
    "C03_delete_reports_done_with_keys_left_refuted",
    "C03_new_subscriber_inherits_keys_refuted"
   ],
   "note": "Proved when storage works during deletions; refuted under a storage failure (delete reports success with keys left) and under a crash (a later subscriber inherits the keys)."
  },
  {
   "property": "C04",
   "status": "proved",
   "theorems": [
    "C04_set_success_exact",
    "C04_effect",
    "C04_lookup"
   ],
   "note": ""
  },
  {
   "property": "C05",
   "status": "proved",
   "theorems": [
    "C05_nam_one_domain",
    "C05_purge_one_domain",
    "C05_lu_one_domain",
    "C05_nam_takes_effect",
    "C05_purge_takes_effect",
    "C05_lu_takes_effect",
    "C05_lu_any_faults"
   ],
   "note": "Database level, all faults and crash points."
  },
  {
   "property": "C09",
   "status": "partial",
   "theorems": [
    "C09_exact",
    "C09_who_is_given_one",
    "C09_index_distinct_and_stable",
    "C09_index_given",
    "C09_embedded_nul_refuted"
   ],
   "note": "Exact for every name: two peers share an index if and only if their names agree up to the first NUL (C09_exact), and exactly the names of at least two bytes that end in NUL are given one. So names without an embedded NUL are told apart, as claimed; names with one share an index (refuted)."
  },
  {
   "property": "C10",
   "status": "proved",
   "theorems": [
    "C10_failed_call_changes_nothing",
    "C10_location_update_not_atomic_refuted"
   ],
   "note": "The refutation is about location update, which the property does not list."
  },
  {
   "property": "C06",
   "status": "proved",
   "theorems": [
    "C06_stored_keys_wellformed",
    "C06_readback_2g",
    "C06_readback_3g",
    "C06_spelling_unique",
    "C06_malformed_refused",
    "C06_acceptable_accepted",
    "C06_removal"
   ],
   "note": ""
  },
  {
   "property": "C07",
   "status": "partial",
   "theorems": [
    "C07_key_states_partial",
    "C07_first_keys_atomic_partial",
    "C07_replacement_loses_key_refuted",
    "C07_storage_error_loses_key_refuted"
   ],
   "note": "The code deletes and inserts without a transaction: a crash or error in between loses the old key (refuted). Proved: old, none or new keys, never a mixture; success means new; all-or-nothing when there was no key."
  },
  {
   "property": "C11",
   "status": "partial",
   "theorems": [
    "C11_sequence_numbers_increase_partial",
    "C11_increasing_means_distinct",
    "C11_lower_bits",
    "C11_never_repeat_partial",
    "C11_wraps_at_2_48_refuted"
   ],
   "note": "Proved as long as the 48 bit number range is not used up, over all histories with faults and crashes; at the end of the range the numbers start again (refuted), but wherever in the range they begin none comes twice until so many were asked for that they may fill it."
  },
  {
   "property": "C12",
   "status": "proved",
   "theorems": [
    "C12_vectors_only_after_store",
    "C12_store_failure_gives_no_vector"
   ],
   "note": ""
  },
  {
   "property": "C14",
   "status": "proved",
   "theorems": [
    "C14_ind_in_sqn"
   ],
   "note": ""
  },
  {
   "property": "C15",
   "status": "proved",
   "theorems": [
    "C15_resync_takes_effect",
    "C15_incomplete_refused",
    "C15_bad_token_refused",
    "C15_no_3g_refused"
   ],
   "note": ""
  },
  {
   "property": "C16",
   "status": "proved",
   "theorems": [
    "C16_vector_content",
    "C16_umts_iff_3g_key",
    "C16_malformed_3g_unused"
   ],
   "note": ""
  },
  {
   "property": "C08",
   "status": "partial",
   "theorems": [
    "C08_round_trip_partial",
    "C08_undefined",
    "C08_exact",
    "C08_confused",
    "C08_long_names_collide_refuted",
    "C08_unterminated_name_refuted",
    "C08_full_length_name_overread_refuted",
    "C08_percent_in_proxy_name_refuted"
   ],
   "note": "Proved for names of up to 31 characters ended by their only NUL and proxy names without percent sign; the other names are refuted. For every name it is stated exactly what is read back, which names are confused and when a call is undefined."
  },
  {
   "property": "C27",
   "status": "proved",
   "theorems": [
    "C27_cmp_is_byte_order",
    "C27_total_order",
    "C27_peer_ids",
    "C27_unnamed_first",
    "C27_set_gives_bytes",
    "C27_set_text",
    "C27_empty_peer_ids_refuted"
   ],
   "note": "All names incl. stale buffer content. Two peer ids of type EMPTY (no name at all) compare as an error; that is recorded as refuted."
  },
  {
   "property": "C24",
   "status": "partial",
   "theorems": [
    "C24_repeats_partial",
    "C24_session",
    "C24_numbers_fresh",
    "C24_closed",
    "C24_open",
    "C24_pending_not_ended",
    "C24_destination_refuted"
   ],
   "note": "All histories with faults and crashes. Missing: for supplementary service messages the destination may be the one an external USSD entity wrote; that case is refuted."
  },
  {
   "property": "C25",
   "status": "partial",
   "theorems": [
    "C25_integrity",
    "C25_reachable_partial",
    "C25_disconnect",
    "C25_long_name_refuted",
    "C25_no_long_name",
    "C25_long_name_kept"
   ],
   "note": "Integrity and removal hold without restriction; reachability under the own name is proved for names of up to 128 bytes and refuted for longer ones: no peer is ever reachable under those, it is entered under its former name, at first the empty one."
  },
  {
   "property": "C26",
   "status": "partial",
   "theorems": [
    "C26_same_connection_partial",
    "C26_by_name",
    "C26_same_name_refuted",
    "C26_elsewhere_refuted",
    "C26_nowhere_refuted",
    "C26_unidentified_refuted",
    "C26_invalid_imsi_refuted",
    "C26_invalid_elsewhere_refuted",
    "C26_name_reused_refuted"
   ],
   "note": "Proved for a peer that is reachable under its own name and stays connected; the four other situations are refuted. Always: the connection is the one that the source name of the request, or the name its connection had, leads to at the time of the response. For every state: all answers to a peer whose name leads to another connection go to that one, and nobody is sent them if it leads nowhere."
  },
  {
   "property": "C49",
   "status": "partial",
   "theorems": [
    "C49_forwarding_partial",
    "C49_long_destination_refuted",
    "C49_source_refuted"
   ],
   "note": "Proved for identified peers and destination names of up to 128 bytes; refuted outside."
  },
  {
   "property": "C13",
   "status": "proved",
   "theorems": [
    "C13_vector_count",
    "C13_vectors_filled"
   ],
   "note": "Every reachable state, request, fault schedule short of a crash, and failure pattern of crypto and random source. That single vectors are complete rests on the stated contract of the libosmocore vector functions."
  },
  {
   "property": "C17",
   "status": "proved",
   "theorems": [
    "C17_answer",
    "C17_always_handled"
   ],
   "note": "Every reachable state and fault; one response with the cause of the case."
  },
  {
   "property": "C18",
   "status": "partial",
   "theorems": [
    "C18_decision",
    "C18_rejected_unchanged_partial",
    "C18_internal_error_refuted"
   ],
   "note": "The decision is proved for all reachable states. A rejection by subscription, for an unknown subscriber or on a read error leaves all serving nodes as they were; a rejection because of an internal error after the first UPDATE does not (refuted)."
  },
  {
   "property": "C19",
   "status": "proved",
   "theorems": [
    "C19_one_final_answer",
    "C19_timer_ends"
   ],
   "note": "All interleavings of messages, timers, VTY and API calls with faults, any number of updates."
  },
  {
   "property": "C20",
   "status": "partial",
   "theorems": [
    "C20_newest_is_ended",
    "C20_at_most_one_partial",
    "C20_sole_update_partial",
    "C20_other_peer_completed_refuted"
   ],
   "note": "Updates are matched by IMSI only: with two peers updating one subscriber the result of one completes the other (refuted). Proved: a result or error ends at most one update, one of its subscriber, always the newest one (C20_newest_is_ended, exact), and so the right one if only one is waiting."
  },
  {
   "property": "C21",
   "status": "partial",
   "theorems": [
    "C21_purge_partial",
    "C21_not_lifted_refuted",
    "C21_foreign_purge_refuted",
    "C21_never_lifted_refuted"
   ],
   "note": "Effect and answer of a purge are proved for all reachable states; the mark is never lifted, whatever happens, and the sender is not checked (both refuted)."
  },
  {
   "property": "C22",
   "status": "proved",
   "theorems": [
    "C22_at_most_one_made",
    "C22_disabled",
    "C22_made"
   ],
   "note": "Every message in every state, with faults and crashes; creation itself with working storage when a free number is drawn."
  },
  {
   "property": "C23",
   "status": "proved",
   "theorems": [
    "C23_device_check",
    "C23_imei_unique"
   ],
   "note": "Every octet string, configuration, reachable state and fault."
  },
  {
   "property": "C28",
   "status": "partial",
   "theorems": [
    "C28_delete_partial",
    "C28_msisdn_partial",
    "C28_other_domain_refuted",
    "C28_enabling_refuted",
    "C28_no_number_refuted",
    "C28_both_domains_refuted",
    "C28_control_refuted",
    "C28_delete_any_faults",
    "C28_domains",
    "C28_history"
   ],
   "note": "Proved whatever statements fail: a node is told to delete only when the database has lost the access. A peer is known to serve in a domain by its own location updates only. Proved for VTY changes with working storage: access switched off tells exactly the connected serving nodes of both domains; a new number is told to the connected peers named as serving node in the domain the peer serves, and to nobody else. Refuted: only the domain concerned; switching on; removal of the number; peers serving both domains; control interface."
  },
  {
   "property": "C29",
   "status": "partial",
   "theorems": [
    "C29_first_match_partial",
    "C29_choice_unique",
    "C29_other_services",
    "C29_table",
    "C29_table_complete",
    "C29_default_exists",
    "C29_entities_partial",
    "C29_removed_entity_refuted"
   ],
   "note": "The choice is proved for every reachable state and configuration, the route table for every history of configuration commands; after removal of an entity that a route names the route points to freed memory (refuted)."
  },
  {
   "property": "C30",
   "status": "partial",
   "theorems": [
    "C30_one_session",
    "C30_parties",
    "C30_delivery",
    "C30_timer",
    "C30_defined_partial",
    "C30_wrong_handler_refuted",
    "C30_unterminated_entity_refuted",
    "C30_foreign_sender_refuted"
   ],
   "note": "Uniqueness, constant parties and delivery only to parties are proved for every reachable state and event; the wrong kind of handler is used when the mobile answers in a session opened by an entity (refuted), otherwise handling is defined. Messages in a session are accepted from anybody (refuted)."
  },
  {
   "property": "C31",
   "status": "partial",
   "theorems": [
    "C31_mo_partial",
    "C31_mt",
    "C31_ready",
    "C31_address_unique",
    "C31_choice_unique",
    "C31_table",
    "C31_table_complete",
    "C31_entities_partial",
    "C31_removed_centre_refuted",
    "C31_defined_partial",
    "C31_long_name_refuted"
   ],
   "note": "Choice, forwarding, the single outcome and the route table are proved for every reachable state, address, subscriber and history of commands. Refuted: a route to a removed service centre points to freed memory; a service centre name of more than 127 characters leaves the destination uninitialised."
  },
  {
   "property": "C32",
   "status": "proved",
   "theorems": [
    "C32_round_trip",
    "C32_decode",
    "C32_decode_plain",
    "C32_one_query",
    "C32_no_other"
   ],
   "note": "Service, kind and id survive the way through the domain string for every valid query and suffix; every string decodes to at most one query, exactly when it names one."
  },
  {
   "property": "C33",
   "status": "partial",
   "theorems": [
    "C33_query_partial",
    "C33_result_partial",
    "C33_header",
    "C33_query_exact",
    "C33_abort_refuted",
    "C33_dot_refuted",
    "C33_dots_refuted",
    "C33_empty_label_refuted",
    "C33_long_suffix_refuted"
   ],
   "note": "Round trip proved for every query and result whose names have no empty label and whose suffix has at most 918 (query) or 91 (result) characters. Exactly which queries are read back and which packets abort the process is proved, too. Refuted: empty labels are lost, a longer suffix aborts the process, with a suffix that ends with a dot no result is understood, results for services that start with two dots lead out of buffers."
  },
  {
   "property": "C34",
   "status": "partial",
   "theorems": [
    "C34_request",
    "C34_answer_partial",
    "C34_no_answer_partial",
    "C34_exact",
    "C34_any_refuted",
    "C34_no_record_refuted",
    "C34_empty_name_refuted",
    "C34_short_refuted",
    "C34_unterminated_refuted",
    "C34_empty_txt_refuted"
   ],
   "note": "Requests: proved for every packet. Answers: proved for packets whose records can be told apart; refuted for five kinds of other packets. C34_exact says exactly which packets lead out of the buffers."
  },
  {
   "property": "C35",
   "status": "partial",
   "theorems": [
    "C35_runs",
    "C35_started_partial",
    "C35_one_end_partial",
    "C35_cancel_partial",
    "C35_ended_partial",
    "C35_ends_partial",
    "C35_ages_partial",
    "C35_age0_partial",
    "C35_min_partial",
    "C35_final_partial",
    "C35_result_partial",
    "C35_best_partial",
    "C35_own_partial",
    "C35_taken_partial",
    "C35_wrap_refuted"
   ],
   "note": "All parts proved for every run in which no request handle comes up again while in use, in particular all runs with less than 2^32 requests. Refuted beyond: a request still open after 2^32 others is ended early without saying not found."
  },
  {
   "property": "C36",
   "status": "partial",
   "theorems": [
    "C36_refuted",
    "C36_only_partial",
    "C36_safe_partial",
    "C36_hlr_partial"
   ],
   "note": "Refuted: the callback at the end of the minimum delay cancels its request, whose timer is then set although it is freed. Proved that this is the only case, and that it can not happen with the requests the HLR makes."
  },
  {
   "property": "C37",
   "status": "partial",
   "theorems": [
    "C37_home_partial",
    "C37_other_partial",
    "C37_fault_partial",
    "C37_packet_partial",
    "C37_bind_refuted",
    "C37_long_refuted",
    "C37_percent_refuted",
    "C37_epoch_refuted"
   ],
   "note": "Proved for every database, cache, configuration, query and clock apart from: a bind address that changed from IPv6 to IPv4, VLR names with a percent sign or more than 31 characters, and a clock near 1970, all of which are refuted."
  },
  {
   "property": "C44",
   "status": "partial",
   "theorems": [
    "C44_partial",
    "C44_overflow_refuted",
    "C44_refuted"
   ],
   "note": "Proved for all pairs of times whose difference has 64 bits; else the subtraction overflows (refuted)."
  },
  {
   "property": "C48",
   "status": "partial",
   "theorems": [
    "C48_map_partial",
    "C48_set_partial",
    "C48_no_partial",
    "C48_no_at_partial",
    "C48_percent_refuted",
    "C48_long_refuted",
    "C48_report_refuted"
   ],
   "note": "Proved for every history whose MSC names have at most 127 characters and no percent sign; both exceptions are refuted, and so is the failure reported by a deletion of one of two addresses."
  },
  {
   "property": "C38",
   "status": "partial",
   "theorems": [
    "C38_local_partial",
    "C38_one_entry",
    "C38_foreign",
    "C38_refuted"
   ],
   "note": "Proved for every message, database, cache and configuration, unless the statement that looks for the subscriber fails: then a local subscriber is proxied (refuted). At most one cache entry per IMSI: proved for every history."
  },
  {
   "property": "C39",
   "status": "partial",
   "theorems": [
    "C39_order",
    "C39_how",
    "C39_found",
    "C39_not_found",
    "C39_up",
    "C39_awaited_partial",
    "C39_down_refuted",
    "C39_expiry_refuted"
   ],
   "note": "Order of arrival, at most one end, and the kind of end are proved for every history; so is that the end of a lookup and a link coming up end the requests waiting for it. Refuted: if the link goes down first, or the cache entry expires, the requests wait for nothing; proved that they do not otherwise."
  },
  {
   "property": "C40",
   "status": "partial",
   "theorems": [
    "C40_asked_partial",
    "C40_serving_partial",
    "C40_passed_partial",
    "C40_told",
    "C40_home_refuted",
    "C40_both_refuted",
    "C40_unnamed_refuted"
   ],
   "note": "Proved for every history: per domain, the registered node is the last one that asked and was sent a confirmation, on its own connection. Refuted: that the home HLR confirmed (any remote HLR can), one confirmation per domain, and results without destination name."
  },
  {
   "property": "C41",
   "status": "partial",
   "theorems": [
    "C41_nothing_lost",
    "C41_upgrade_partial",
    "C41_upgrade_v7",
    "C41_create_partial",
    "C41_upgrade_refuted",
    "C41_create_refuted"
   ],
   "note": "Nothing lost: proved for every file, any number of starts and every failure or death. Completion: proved for version 6 and for all interruptions that do not fall between a step and its version number; refuted for each of the versions 0 to 5 and for the creation, where no later start opens the database again."
  },
  {
   "property": "C42",
   "status": "partial",
   "theorems": [
    "C42_succeeds",
    "C42_kept",
    "C42_subscriber",
    "C42_keys",
    "C42_schema_partial",
    "C42_index_refuted"
   ],
   "note": "Success and data: proved for every valid database of every version, any rows, any column order. Schema: the tables are proved equal to those of a fresh database; the index on the IMSI is missing after an upgrade from version 2 or older (refuted)."
  },
  {
   "property": "C43",
   "status": "partial",
   "theorems": [
    "C43_version",
    "C43_newer",
    "C43_older_partial",
    "C43_same",
    "C43_columns",
    "C43_other_refuted",
    "C43_journal_refuted"
   ],
   "note": "Proved for every file, version number and failure: what is opened has version 7; contents of newer and, without permission, older databases are not changed. Refuted: a version 0 file without a subscriber table gets the tables, and the journal mode of any file is changed."
  },
  {
   "property": "C45",
   "status": "partial",
   "theorems": [
    "C45_inverts",
    "C45_encoder",
    "C45_bound_partial",
    "C45_read_more",
    "C45_exact",
    "C45_goes_on_refuted",
    "C45_bound_refuted"
   ],
   "note": "The decoder inverts every encoding of every octet string. The bound is proved for every value that does not break off within an escape; one that does is read past its end (refuted)."
  },
  {
   "property": "C47",
   "status": "partial",
   "theorems": [
    "C47_delivery_partial",
    "C47_explicit",
    "C47_answers",
    "C47_no_imsi",
    "C47_error_reply",
    "C47_send",
    "C47_no_receiver_refuted",
    "C47_class_refuted"
   ],
   "note": "Proved for every type, class and set of receivers: at most one delivery, to the class of the message; results and errors are never answered. Refuted: requests without receiver are dropped unanswered, and four short message types without explicit class go to subscriber management."
  },
  {
   "property": "C50",
   "status": "partial",
   "theorems": [
    "C50_one_attempt",
    "C50_no_flood",
    "C50_retry_partial",
    "C50_attempt_ends",
    "C50_keep_alive",
    "C50_no_data_down",
    "C50_retry_refuted",
    "C50_ping_refuted"
   ],
   "note": "Every schedule: at most one attempt, attempts a second apart, nothing is sent on a link that is down. Retries are proved unless an attempt fails with one of four error codes, after which the client gives up (refuted)."
  },
  {
   "property": "C51",
   "status": "partial",
   "theorems": [
    "C51_reports_partial",
    "C51_reports_refuted"
   ],
   "note": "Up is reported exactly when the link is established, down never while it is up. Refuted: a link dropped for a missing keep-alive answer is not reported, one loss is reported again for each attempt."
  },
  {
   "property": "C46",
   "status": "proved",
   "theorems": [
    "C46_unique",
    "C46_read",
    "C46_info",
    "C46_info_keys",
    "C46_write",
    "C46_requests",
    "C46_syntax",
    "C46_unknown",
    "C46_error_unchanged",
    "C46_refused",
    "C46_other",
    "C46_nobody",
    "C46_keys_fail",
    "C46_access_refuted",
    "C46_info_aud_refuted"
   ],
   "note": "For every request string and every fault schedule. Reading and writing by a selector hit exactly the row it names. Beside the property: info-aud of an IMSI that nobody has is answered without an error (C46_info_aud_refuted); it selects nobody and changes nothing; access set for such an IMSI is refused without a reason (C46_access_refuted)."
  },
  {
   "property": "C52",
   "status": "partial",
   "theorems": [
    "C52_set_2g",
    "C52_set_3g",
    "C52_replay_2g",
    "C52_replay_3g_partial",
    "C52_accepted_2g",
    "C52_accepted_3g_partial",
    "C52_remove_partial",
    "C46_error_unchanged",
    "C52_bitlen_refuted",
    "C52_none_refuted",
    "C52_xor_refuted"
   ],
   "note": "2G and MILENAGE keys proved for all values. Refuted: a malformed bit length is taken for 0, \"none\" without keys is an error, XOR-3G keys can be shown but not set."
  },
  {
   "property": "C53",
   "status": "partial",
   "theorems": [
    "C53_imeis",
    "C53_unique_partial",
    "C53_imei_refuted",
    "C53_id_refuted",
    "C53_write",
    "C53_messages",
    "C53_messages_refuted",
    "C53_show",
    "C53_create",
    "C53_create_invalid",
    "C53_create_refuted",
    "C53_delete",
    "C53_key_2g",
    "C53_key_milenage",
    "C53_key_xor",
    "C53_key_none",
    "C53_tuak_refuted",
    "C53_xor_short_refuted",
    "C53_commands",
    "C53_unknown",
    "C53_warning",
    "C53_success_partial",
    "C53_deleted",
    "C53_nam_success_refuted",
    "C53_delete_success_refuted"
   ],
   "note": "All eleven commands, every word, database and schedule of faults. Refuted: an IMEI can name two subscribers, an id that is no number names some subscriber, the access mode and the deletion report success when the writes failed, a created subscriber that cannot be read back prints unset memory, TUAK and short XOR keys are offered and never stored."
  },
  {
   "property": "C54",
   "status": "partial",
   "theorems": [
    "C54_list_partial",
    "C54_fault",
    "C54_overflow_refuted",
    "C54_wildcard_refuted",
    "C54_on_refuted",
    "C54_seen_ps_refuted"
   ],
   "note": "Proved for every database, time, fault and every plain search text. Refuted: search texts of 254 and more characters overflow a buffer on the stack, SQL wildcards are not quoted, the words on and off are searched as 1 and 0, the list of those last seen leaves out subscribers seen by an SGSN only."
  },
  {
   "property": "C55",
   "status": "partial",
   "theorems": [
    "C55_import_partial",
    "C55_others",
    "C55_consistent",
    "C55_defined_partial",
    "C55_zero_refuted",
    "C55_existing_refuted",
    "C55_never_refuted",
    "C55_time_refuted",
    "C55_empty_key_refuted",
    "C55_extension_refuted",
    "C55_status_refuted"
   ],
   "note": "Proved: clean rows of new subscribers are taken over exactly; other subscribers and consistency under any rows and faults; nothing undefined for harmless rows. Refuted: leading zeros of IMSIs are lost, existing subscribers are overwritten, subscribers never seen get a time before 1970, times from 2038 on wrap or overflow, an empty key is read from NULL, long extensions are cut, failure is not reported."
  },
  {
   "property": "C56",
   "status": "partial",
   "theorems": [
    "C56_hlr_partial",
    "C56_no_gap",
    "C56_lines",
    "C56_others",
    "C56_services",
    "C56_comments",
    "C56_first",
    "C56_entities",
    "C56_mslookup_refuted",
    "C56_gap_refuted",
    "C56_dangling_refuted",
    "C56_disabled_refuted",
    "C56_name_refuted",
    "C56_path_refuted"
   ],
   "note": "Proved for every history without Distributed GSM, gaps between PDP profiles and dangling routes; and for every history if the node ps were written before mslookup. Refuted: a file written with Distributed GSM configured is never accepted, profiles after a gap are lost, dangling routes are followed, settings that are switched off are lost, names of MSCs with backslash or quote change, a database path with a blank is not accepted."
  },
  {
   "property": "C57",
   "status": "partial",
   "theorems": [
    "C57_sent_partial",
    "C57_count",
    "C57_create",
    "C57_gap_refuted"
   ],
   "note": "Proved for every history without a gap (C56_no_gap: if no profile was removed); numbers are unique, ten fit. Refuted: after a profile was removed an empty one is sent and the last one is missing."
  },
  {
   "property": "C58",
   "status": "partial",
   "theorems": [
    "C58_safe",
    "C58_names",
    "C58_end",
    "C58_own_partial",
    "C58_ends",
    "C58_shared_refuted",
    "C58_error_refuted",
    "C58_empty_refuted",
    "C58_spelling_refuted"
   ],
   "note": "Proved: nothing undefined, only lines about own queries (or an empty query), nothing after the end, an end by timeout; and exactly the own results while nobody else asks for the same text. Refuted: programs that ask for the same text end each other, errors of others and empty queries close sockets, another spelling takes the answer away."
  },
  {
   "property": "C59",
   "status": "partial",
   "theorems": [
    "C59_header",
    "C59_hosts",
    "C59_fits",
    "C59_csv_partial",
    "C59_columns_refuted",
    "C59_json_partial",
    "C59_quote_refuted",
    "C59_cut_refuted"
   ],
   "note": "Proved for CSV lines about results and errors, for queries without tab up to 700 characters; for all JSON lines about queries of literal characters up to 700. Refuted: lines about the end without a result have nine columns; quotes are not escaped; long lines are cut."
  },
  {
   "property": "C60",
   "status": "partial",
   "theorems": [
    "C60_line",
    "C60_times_partial",
    "C60_too_large",
    "C60_long_refuted",
    "C60_done",
    "C60_ends_partial",
    "C60_refused_refuted"
   ],
   "note": "Proved for delay and timeout that are written in at most 15 characters, that larger numbers are refused, and that the program is done exactly when no query is open, which timers bring about. Refuted: longer pairs of valid numbers are refused; the program does not end if all queries are refused at once."
  },
  {
   "property": "C61",
   "status": "partial",
   "theorems": [
    "C61_true_partial",
    "C61_safe_partial",
    "C61_found_partial",
    "C61_home_partial",
    "C61_there_partial",
    "C61_other_partial",
    "C61_empty_refuted",
    "C61_suffix_refuted"
   ],
   "note": "Proved for service names and suffixes that have the form of domain names (suffix up to 91 characters), up to 2^32 - 1 requests, packets sent by these programs only; networks apart for suffixes without a label imsi or msisdn. Refuted: requests for services with an empty label never reach an HLR that has the answer; with a label imsi or msisdn in the suffix an HLR of another network answers for someone else and the client believes it."
  },
  {
   "property": "C62",
   "status": "partial",
   "theorems": [
    "C62_sent_partial",
    "C62_only",
    "C62_unique",
    "C62_bare_refuted",
    "C62_two_refuted",
    "C62_dots_refuted"
   ],
   "note": "Proved: a packet is sent exactly if success is reported, only for valid arguments, and is read back as what is given if there is an address. Refuted: without an address success is reported for a packet that no client understands; of two addresses of one family the first is lost silently; a service that starts with two dots is announced by a packet that leads listeners out of a buffer."
  },
  {
   "property": "C63",
   "status": "partial",
   "theorems": [
    "C63_only",
    "C63_up_partial",
    "C63_quiet",
    "C63_safe_partial",
    "C63_text_refuted",
    "C63_fail_refuted",
    "C63_ip6_refuted",
    "C63_gateway_refuted"
   ],
   "note": "Proved: what runs is what is configured; what is configured runs if its sockets can be opened when commands are given; what is to run on is left alone. Refuted: setting the domain suffix while the client runs compares freed memory (every time); a command that moves the server to an address without a socket succeeds and leaves nothing running; IPv6 addresses never work (group membership is asked for with struct ip_mreq and octets of the flow label); no client leaves the gateway proxy in use."
  },
  {
   "property": "C64",
   "status": "proved",
   "theorems": [
    "C64_contents",
    "C64_vectors",
    "C64_number",
    "C64_ussd",
    "C64_dgsm",
    "C64_forwarded"
   ],
   "note": "From any state, not only reachable ones. To whom the answers go is C26."
  },
  {
   "property": "C65",
   "status": "partial",
   "theorems": [
    "C65_confirmed_partial",
    "C65_vectors_partial",
    "C65_number_partial",
    "C65_forged_refuted"
   ],
   "note": "Unless a client of one of the HLRs has sent the same message itself: such a message is passed on to the node it names (refuted by a client of the home HLR that confirms an update for somebody nobody knows). After \"msisdn none\" the number told is the one that was removed."
  },
  {
   "property": "C66",
   "status": "partial",
   "theorems": [
    "C66_as_modelled_partial",
    "C66_verbatim",
    "C66_room",
    "C66_freed_partial",
    "C66_long_forward_refuted",
    "C66_oap_refuted"
   ],
   "note": "Proved but for messages of more than 1024 octets to another name (any client that has told its name can end the process with one) and OAP messages (their buffers are never freed)."
  },
  {
   "property": "C67",
   "status": "partial",
   "theorems": [
    "C67_fits_partial",
    "C67_pdp_partial",
    "C67_pdp_refuted"
   ],
   "note": "Proved for messages that are not copies if the PDP profiles take at most 676 octets, as they do with names of at most 59 characters; ten profiles with names of 99 characters are accepted and take more than the whole buffer."
  },
  {
   "property": "C68",
   "status": "partial",
   "theorems": [
    "C68_answers",
    "C68_silent",
    "C68_quiet",
    "C68_comes_to_rest",
    "C68_answered",
    "C68_buffer_refuted",
    "C68_after_end_refuted"
   ],
   "note": "Proved but for two things: a message that cannot be decoded is never freed, and a message that ends a session is answered, too. The parts about both programs suppose that no other node calls itself an external entity."
  },
  {
   "property": "C69",
   "status": "proved",
   "theorems": [
    "C69_place",
    "C69_since",
    "C69_node",
    "C69_stored"
   ],
   "note": "db_subscr_lu() called by anybody but the location update is left out; nobody in the program does. The time may still be the old one when a fault of the database comes after the node was stored (C18_internal_error_refuted); then the update is rejected."
  },
  {
   "property": "C70",
   "status": "partial",
   "theorems": [
    "C70_spelling",
    "C70_unambiguous",
    "C70_documented",
    "C70_tool_documented",
    "C70_short_check_refuted",
    "C70_accepted",
    "C70_settings",
    "C70_ends",
    "C70_mistake",
    "C70_order",
    "C70_serves",
    "C70_check",
    "C70_files",
    "C70_tool",
    "C70_tool_accepted"
   ],
   "note": "Violated by the code: -C, which the help of osmo-hlr gives for --db-check, is not in the option string of getopt_long(), so osmo-hlr exits with 255. A file of version 0 without a subscriber table counts as empty even if it holds other tables (C43_other_refuted). What import_nitb_db() reports is a parameter here; C55 is about that."
  },
  {
   "property": "C71",
   "status": "partial",
   "theorems": [
    "C71_documented",
    "C71_manual_refuted",
    "C71_accepted",
    "C71_settings",
    "C71_ends",
    "C71_mistake",
    "C71_starts",
    "C71_refuses",
    "C71_safe",
    "C71_daemon",
    "C71_oneshot_partial",
    "C71_send",
    "C71_send_refuted",
    "C71_quiet_partial",
    "C71_quiet_refuted",
    "C71_demo_partial",
    "C71_demo_refuted"
   ],
   "note": "Violated by the code: the manual uses an option --csv-headers that does not exist; with --send, options for listening are complained about but do not stop it; with -q getopt_long() still complains about unknown options; osmo-euse-demo takes any text for a port. That a one-shot lookup ends is proved for queries of which one timer at least runs (C71_oneshot_partial); C60_refused_refuted shows the other case. Undefined behaviour of --send is in C62."
  },
  {
   "property": "C72",
   "status": "partial",
   "theorems": [
    "C72_kept",
    "C72_files",
    "C72_backup_partial",
    "C72_offline",
    "C72_success",
    "C72_upgrades",
    "C72_absent",
    "C72_current_partial",
    "C72_newer_refuted",
    "C72_stuck_refuted",
    "C72_interrupted_refuted",
    "C72_current_refuted",
    "C72_backup_refuted"
   ],
   "note": "Violated by the code: every failure to open the database is taken for the need to upgrade it, so that the service is stopped for a newer, stuck or momentarily unreadable database, and after a failure of the upgrade it is not started again; a file of version 0 without a table of subscribers is changed without a copy."
  },
  {
   "property": "C73",
   "status": "partial",
   "theorems": [
    "C73_full_partial",
    "C73_apart_partial",
    "C73_date",
    "C73_date_inj",
    "C73_date_refuted",
    "C73_ago_refuted",
    "C73_newline_refuted",
    "C73_info_partial",
    "C73_info_none",
    "C73_words",
    "C73_columns_partial",
    "C73_titles",
    "C73_columns_refuted",
    "C73_imei",
    "C73_imei_cell"
   ],
   "note": "Violated by the code: dates are off by the offset of the time zone though marked +00:00; an age of less than a second is shown without a number; names of peers are printed with their line feeds, so that a peer can add lines; MSISDN of 13 to 15 digits and identifiers of more than five shift the columns."
  },
  {
   "property": "C74",
   "status": "partial",
   "theorems": [
    "C74_bridge_partial",
    "C74_hangup_partial",
    "C74_waits_partial",
    "C74_settled_once",
    "C74_settled_soon",
    "C74_settled_best",
    "C74_forward_partial",
    "C74_success",
    "C74_ignored",
    "C74_raise_refuted",
    "C74_refused_refuted",
    "C74_injection_refuted",
    "C74_pipe_partial",
    "C74_socket_partial",
    "C74_headers_refuted",
    "C74_lines_refuted"
   ],
   "note": "Violated by the code: for a called number that is not 1 to 15 digits the scripts wait until a packet for anybody comes, and a number with quotes in it decides where the call is sent; a failure to look up or to send a message ends the script without an answer to the SMSC; with a daemon that writes JSON or no headers the socket script waits for ever; with timeouts in the service the dialplan script fails on several lines. The theorems about what is sent hold for valid numbers, and for queries without characters that JSON or CSV would need to quote."
  },
  {
   "property": "C75",
   "status": "partial",
   "theorems": [
    "C75_safe",
    "C75_exact",
    "C75_asks",
    "C75_updates_partial",
    "C75_inserts_partial",
    "C75_counters",
    "C75_open",
    "C75_first_refuted",
    "C75_forever_refuted",
    "C75_error_refuted",
    "C75_buffers_refuted",
    "C75_no_client_refuted"
   ],
   "note": "Safety, the order of requests and the counters hold for every history. Violated by the code: the first request is always refused because the connection cannot be up yet; an operation without answer never ends, as no timer is started; a location update is asked for after an error, too; messages that belong to no operation, or cannot be decoded, are not freed; without a client the program goes on. The answer to Insert Data is sent if it can be encoded."
  },
  {
   "property": "C76",
   "status": "partial",
   "theorems": [
    "C76_right_response",
    "C76_once",
    "C76_tick",
    "C76_safe",
    "C76_ends",
    "C76_cancel_next_refuted",
    "C76_freed_refuted",
    "C76_still_there_refuted"
   ],
   "note": "Who is given what, when and how often holds for every history; freed memory is not used as long as a callback ends no request but its own. Violated by the code: a callback that cancels the next request makes the loop continue with freed memory, and the timer is not stopped when the method or the client is freed."
  },
  {
   "property": "C77",
   "status": "partial",
   "theorems": [
    "C77_only_added",
    "C77_not_others",
    "C77_filled_partial",
    "C77_nobody_refuted",
    "C77_old_key_refuted",
    "C77_data_only_added",
    "C77_data_partial",
    "C77_data_given_refuted"
   ],
   "note": "That rows are only added holds for both and for every failure; that the script gives no key to an earlier subscriber holds as well. That all subscribers can be found with their keys is proved for databases in which the numbers are free and no keys without subscriber exist. Violated by the code: if the first INSERT is refused the script adds keys of subscriber number 0, who is nobody; keys left behind by removed subscribers become those of new ones; hlr_data.sql gives its well-known key to whoever has the number 1 and none yet."
  }
 ]
}