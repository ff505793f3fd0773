# Formal model of osmo-hlr: design

Tool: Coq 8.16.1, standard library. Sources of the model: `rocq/theories/`.
`properties.jsonl` holds the English properties, `MANIFEST.json` maps them to theorems,
`seeded/LOG.jsonl` records mutation tests of the theorems.

## Method

* Model files contain definitions only; each cites file and lines of /repo. Proofs are in `*Proofs.v`,
  the property theorems in `*Properties.v` (statement, `exact`, `Print Assumptions`, examples).
* SQL: a database is four row lists (subscriber, auc_2g, auc_3g, ind). Each API function is a program
  `prog` over SQL statements. `run` executes a program under a schedule that says for each statement
  whether it succeeds, fails with an SQL error (no effect) or the process crashes before it.
  Theorems quantify over all schedules; that covers all crash points and storage failures.
* Undefined behaviour (out-of-bounds, use after free, bad format string) is a distinct outcome.
* Crypto, random source, clock, libosmocore primitives not in /repo are parameters or small models whose
  assumed behaviour is listed in the trusted base.
* If the code violates a property, the witness is a theorem `..._refuted`, and the part that does hold is
  proved next to it. The findings are listed at the end.

## Plan per property

* **C01 Subscriber identities stay unique** - modelled: Db.v: tables as row lists, every API call as a program of SQL statements run under an arbitrary fault/crash schedule. Proof: invariant over all statements, lifted to programs, crash prefixes and histories.
* **C02 Creating a subscriber is exact** - modelled: Db.v db_subscr_create / db_subscr_get_by_imsi. Proof: direct case analysis against a declarative specification of the new table content.
* **C03 Deleting a subscriber removes its keys** - modelled: Db.v db_subscr_delete_by_id with faults. Proof: proof for fault-free runs; refutation (witness) with a crash or a fault followed by id reuse.
* **C04 MSISDN assignment is exact** - modelled: Db.v db_subscr_update_msisdn_by_imsi. Proof: iff theorem using the uniqueness invariant.
* **C05 CS and PS attributes are independent** - modelled: Db.v db_subscr_nam/purge/lu. Proof: frame theorem per operation and field, for all fault schedules.
* **C06 Stored authentication data reads back exactly** - modelled: Db.v db_subscr_update_aud_by_id; Auth.v hexparse, db_get_auth_data. Proof: round trip theorem over all hex strings.
* **C07 Changing authentication keys is all-or-nothing** - modelled: same as C06 with crash schedule. Proof: refutation with witness; proved part: failure before the first statement changes nothing, delete-only is atomic.
* **C08 Serving node names survive the database round trip** - modelled: PeerId.v buffers, Db.v db_sel truncation and printf-style copy. Proof: proved for names of at most 31 characters (no percent sign in proxy names); refutations beyond. For every name C08_exact, C08_undefined and C08_confused state what is read back (the text up to the first NUL in the buffer, cut at 31 characters), when a call is undefined and which names are confused (PeerThms2.v).
* **C09 Every VLR gets its own stable IND** - modelled: Db.v ind table and db_ind programs. Proof: invariant + stability over histories.
* **C10 Failed single-record operations leave the database untouched** - modelled: Db.v all single statement updates. Proof: case analysis for all fault schedules; refutation for the two-statement location update.
* **C11 Authentication sequence numbers never repeat** - modelled: Auth.v auc_compute_vectors, db_get_auc over the faulty DB, history machine. Proof: invariant: every SQN handed out so far <= stored SQN; strict monotonicity by induction over histories.
* **C12 Vectors are only handed out after the sequence number is stored** - modelled: Auth.v db_get_auc. Proof: case analysis for all fault schedules.
* **C13 Number of vectors handed out** - modelled: Auth.v + Hlr.v rx_send_auth_info. Proof: induction over the vector loop.
* **C14 IND part of the sequence number identifies the VLR** - modelled: Auth.v next_sqn arithmetic. Proof: N arithmetic lemmas (div/mod powers of two).
* **C15 Resynchronisation takes effect exactly once** - modelled: Auth.v AUTS handling. Proof: case analysis and loop induction.
* **C16 2G and 3G key material is combined as documented** - modelled: Auth.v auc_compute_vectors with crypto oracle. Proof: characterisation of each produced vector.
* **C17 Authentication request errors map to the right cause** - modelled: Hlr.v rx_send_auth_info. Proof: case analysis.
* **C18 Location update is decided by subscription** - modelled: Hlr.v lu_start on the DB model. Proof: decision table theorem + DB frame on reject.
* **C19 Exactly one final answer per location update** - modelled: Hlr.v LU machine: events request/reply/timeout. Proof: invariant over event sequences: each request answered at most once, open iff in LU list.
* **C20 Concurrent location updates do not complete each other** - modelled: Hlr.v lu_rx_gsup. Proof: refutation with witness trace; proved for at most one LU per IMSI.
* **C21 Purge is recorded and lifted** - modelled: Hlr.v purge + LU. Proof: proved part: flag set iff exists; refutations: flag not cleared, sender not checked.
* **C22 Create-on-demand** - modelled: Hlr.v subscr_create_on_demand, generate_new_msisdn with random oracle. Proof: case analysis, loop induction.
* **C23 IMEI check** - modelled: Hlr.v rx_check_imei_req. Proof: case analysis; frame.
* **C24 Responses echo the request's addressing** - modelled: Gsup.v make_response, req respond machine. Proof: record equations; state machine induction.
* **C25 Routing table integrity** - modelled: Router.v, connection machine. Proof: invariant over histories. RouterThms2.v: what becomes of names that are too long.
* **C26 Responses reach the connection that asked** - modelled: Server machine. Proof: proved under unique-name condition; refutation with name collision, and for every state: where all answers go if the name leads to another connection or nowhere (C26_elsewhere_refuted, C26_nowhere_refuted). For every history: a response goes where the source name of the request, or the name of its connection, leads at that time (C26_by_name).
* **C27 Peer name comparison is an order** - modelled: PeerId.v memcmp based comparison. Proof: order laws.
* **C28 Subscription changes are pushed to the right nodes** - modelled: Hlr.v hlr_subscr_nam, update_notify. Proof: refutations and proved parts.
* **C29 USSD requests go to the first configured matching service** - modelled: Ussd.v route table. Proof: list induction.
* **C30 USSD sessions keep to their parties** - modelled: Ussd.v session machine. Proof: invariant; refutation for external originated sessions (wrong handler kind = UB).
* **C31 Short messages are routed by service centre address** - modelled: Hlr.v forward_mo_sms, forward_mt_sms, rx_ready_for_sm_req; SmsCfg.v. Proof: case analysis/list lemmas.
* **C32 Lookup queries survive the domain name encoding** - modelled: MsLookup.v string codec. Proof: round trip proof.
* **C33 mDNS packets round trip** - modelled: Mdns.v byte codec. Proof: round trip proof; exact sizes; exactly which queries are read back; refutations.
* **C34 mDNS decoding is memory safe** - modelled: Mdns.v with out-of-bounds reads as a distinct outcome. Proof: proved for the request path; for answers exactly which packets lead out of the buffers (C34_exact), by induction over the records.
* **C35 Lookup results are delivered in order with one end** - modelled: MsClient.v event machine. Proof: trace invariant.
* **C36 Cancelling a lookup from its callback is safe** - modelled: MsClient.v with freed-request outcome. Proof: refutation; proved for the other callbacks.
* **C37 Lookup server answers only for its own subscribers** - modelled: MsServer.v. Proof: declarative specification and iff theorem.
* **C38 Local subscribers are never proxied** - modelled: Proxy.v dgsm decision. Proof: case analysis, invariant on cache.
* **C39 Deferred proxy requests are answered or forwarded once** - modelled: Proxy.v deferred list machine. Proof: proved: order and at most once; refutation: connection failure drops requests.
* **C40 Roaming registration is confirmed by the home HLR** - modelled: Proxy.v acknowledgement functions. Proof: invariant per domain.
* **C41 Database upgrades survive crashes** - modelled: Upgrade.v statement programs with crash points. Proof: v7 proved; others refuted.
* **C42 Database upgrades preserve data** - modelled: Upgrade.v. Proof: preservation theorem.
* **C43 Only a matching database version is opened** - modelled: Upgrade.v db_open. Proof: case analysis; what is opened has every column that is used.
* **C44 Ages of stored times are computed safely** - modelled: Misc.v. Proof: lia.
* **C45 Legacy database import decodes keys exactly** - modelled: Dbd.v. Proof: list induction.
* **C46 Control interface selectors address exactly one subscriber** - modelled: Ctrl.v. Proof: string lemmas; which requests are refused and with what text.
* **C47 Client side message classification** - modelled: ClientMux.v. Proof: case analysis over all types.
* **C48 Service address configuration is a map** - modelled: MsServer.v service table. Proof: refinement to a map.
* **C49 Forwarding between peers keeps to the destination** - modelled: Hlr.v read_cb_forward / Server. Proof: case analysis.
* **C50 GSUP client reconnects forever without flooding** - modelled: Client.v. Proof: invariant over events.
* **C51 Link notifications of the GSUP client are faithful** (added) - modelled: Client.v. Proof: invariant; refutation.
* **C52 Keys set over the control interface are the keys stored** (added) - modelled: Ctrl.v, Db.v. Proof: parser lemmas both ways; refutations.
* **C53 VTY commands act on the subscriber named, and say what they did** (added) - modelled: VtySubscr.v, Hlr.v, Db.v. Proof: frame lemmas per command; traversal of all fault points; refutations.
* **C54 VTY lists show exactly the subscribers asked for** (added) - modelled: VtyList.v, Db.v. Proof: LIKE against "is part of", sorting, text of durations; refutations.
* **C55 The import from OsmoNITB takes over every subscriber as it is** (added) - modelled: Nitb.v, Dbd.v, Db.v. Proof: run of one row, induction over the rows; invariants over all statements and faults; refutations.
* **C56 A saved configuration is read back as it was** (added) - modelled: Config.v, UssdCfg.v, SmsCfg.v, MsServer.v. Proof: invariant over all commands; every block of lines written is read back from the state before it (blocks compose by indentation); the services found are those that the last lines about them say; refutations.
* **C57 The PDP profiles sent are those configured** (added) - modelled: Config.v. Proof: invariant on the slots; refutation.
* **C58 The lookup daemon answers each program on its own** (added) - modelled: MsTool.v on MsClient.v. Proof: invariant over all events (requests of the lookup client and queries of the tool correspond); frame for one query that nobody else asks; refutations.
* **C59 The lines of the lookup tool can be read** (added) - modelled: MsTool.v. Proof: independent readers of CSV and JSON applied to the lines; refutations.
* **C60 The lookup tool keeps the timeouts it is given and ends** (added) - modelled: MsTool.v. Proof: grammar of timeouts against the parser; queries answered plus queries open never decrease; refutations.
* **C61 Lookups over the network find what the HLRs know** (added) - modelled: MsNet.v, which composes MsClient.v, Mdns.v and MsServer.v with a network. Proof: invariant that every packet on the air decodes to a query that was asked or a result that was said; round trips of C34; refutations.
* **C62 An announced result is what the arguments say** (added) - modelled: MsNet.v (do_send). Proof: grammar of the arguments against the parser, then the round trip of C34; refutations.
* **C63 The mDNS server and client run as configured** (added) - modelled: DgsmRun.v on top of Config.v. Proof: invariant "what runs is what should run, or nothing"; case analysis of the commands for the calls they make; refutations.
* **C64 Messages carry nothing but what their kind is for** (added) - specification in ContentSpec.v over the events of Hlr.v and Dgsm.v, with the message types as numbers. Proof: one case of what can be sent per handler, by traversal of the handlers.
* **C65 In a network of HLRs, clients are told what the home HLR decided** (added) - NetSpec.v: a network is any number of the processes of Dgsm.v; an event that a message comes from a remote HLR is only possible if the HLR with this address has said it before, on any of its connections (so messages may be lost, repeated, reordered and misdelivered). Proof: a step with D-GSM is a step without or leaves the updates in progress alone; an update in progress stands for an accepted request; induction over the run.
* **C66 Octets on GSUP connections** (added) - FrameSpec.v: what the octets of a message look like and which event of Hlr.v a message means. Proof: equality of the program on octets (Frame.v) with that of Hlr.v as long as the copy fits; inspection of the only place that writes octets received.
* **C67 Messages fit into their buffers** (added) - SizeSpec.v: number of octets of an encoded message, element by element. Proof: one predicate for all messages of a step (no source name unless there is nothing else in it, at most five vectors, no vectors with an MSISDN or USSD text, PDP contexts as configured), then sums.
* **C68 The demonstration external USSD entity** (added) - EuseSpec.v: what an answer that ends a session is, the text written back, what other peers may do. Proof: inspection of the entity; an invariant of the HLR with one external entity (every session holds the request of a node that is no entity, only the entity's name leads to its connection), under which messages of the entity never make the HLR send something to it; for the round trip, the two steps of the HLR in turn.
* **C69 Where a subscriber is registered, and since when** (added) - LocSpec.v: registration of a row in a domain, what one event may do to it. Proof: only four statements touch the six columns, and only db_subscr_lu() runs them; one step by the statements an event can run, then induction over histories.
* **C70 Command lines and start-up** (added) - MainSpec.v: a grammar of command lines (`spells`, `spelled`) for any table of options, the option tables of the help texts, what the options ask for (`asked`). Proof: getopt() against the grammar both ways; every run of main() is one of eight kinds (`run_of`); the files by C42/C43.
* **C71 Command lines of the lookup tool and of the demonstration entity** (added) - CmdSpec.v: the grammar of C70 with the option table of the help; which arguments can be used, what the options ask for, when a lookup can start. Proof: each option keeps the relation between options seen and settings; safety and end of the run from C58 and C60, --send from C62.
* **C72 Upgrade of the database after an upgrade of the package** (added) - PostSpec.v: the moments between commands, usable files, environments in which all but the database works. `kept`, `same_contents`, `database` and `stuck` are those of C41-C43. Proof: rules for pieces of the script that speak of all commands run (PostThms.v); an invariant for all of it, and one for each phase.
* **C73 Texts about a subscriber** (added) - VtyTextSpec.v: the calendar as a succession of days, facts about a subscriber and the lines that tell them, columns and words. Proof: the arithmetic of gmtime() meets the calendar day by day over 400 years, by structure and not by enumeration of days (VtyTextThms.v); each fact has one place in the text (VtyTextThms4.v); lines and what they tell determine each other (VtyTextThms5.v).
* **C74 Scripts that forward calls and messages** (added) - ScriptsSpec.v: `settled`, an inductive account of which answer counts after which events, written without the client of mslookup; where a number is dialled; the row of a CSV answer. Proof: the tool run by the script is MsTool.v, of which each step is matched with a rule of `settled` (ScriptsThms.v); pipe and socket scripts rest on the lines proved for C58 (ScriptsThms2.v, ScriptsThms3.v).
* **C75 The load test client** (added) - TestSpec.v: histories of events with what was made of each, which requests wait for an answer, `made`, an inductive account of what must come of an event. Proof: an invariant that ties the list of operations and the counters to the history (TestThms2.v, TestThms3.v), on top of the connection of Client.v.
* **C76 The fake lookup method** (added) - FakeSpec.v: a log of requests and responses and what makes an entry right (`note_ok`), times in microseconds, what a client may do while it is given a result (`own_only`). Proof: requests are in the order of their identities, so the cursor of the loop is a number (FakeThms.v); induction over the loop (FakeThms2.v, FakeThms3.v).
* **C77 Filling a database for tests** (added) - PopulateSpec.v: the IMSI and MSISDN of the n-th subscriber by the value of their digits, rows only added, keys that belong to somebody, numbers not in use. Proof: induction over the loop for any count, which is put to a million only at the end; the result is read through the statements of the HLR.

## Trusted base

* The Coq 8.16.1 kernel (including `vm_compute`, used for examples and witnesses).
* `Print Assumptions` after every property theorem: all are "Closed under the global context"; no axiom,
  not even of the standard library, is used.
* That the definitions in the model files say what the cited C lines do. The code is not run or linked to
  the model.
* SQLite, as modelled in Db.v: statements are atomic, a failing statement has no effect, constraints
  are enforced, ids are assigned as max+1, no other writer.
* libosmogsm's vector generation, as the contract `sqn_contract` / `types_contract` in AuthSpec.v and
  AuthThms4.v: the next SQN is the smallest number above the current one with the IND of the caller,
  the vector carries it modulo 2^48, failures leave the SQN alone (or at the SIM's, after AUTS). The
  theorems hold for every crypto that keeps it; `toy_contract` shows that there is one.

* That a successful call of the vector functions fills in RAND and at least one kind of vector (`fill_contract`,
  used by C13_vectors_filled only).
* libosmocore / libosmo-abis, where the HLR uses them: GSUP encoding and decoding are the identity on the
  fields of `gsup` (encoding failures are an oracle `k_enc` of the configuration), MSISDN encoding, USSD
  facility parsing and 7 bit coding are functions of the configuration (`k_msisdn_enc`, `k_facility`,
  `k_7bit`), a connection is closed by libosmo-abis when the identification callback fails, the FSM
  timer of a location update fires at most once and only while the FSM exists.
* `vcheck` lists parameters of `Coq.ssr.ssrunder` (module `Under_rel`); they belong to a file that the standard
  library loads with `lia`. No theorem uses them, as `Print Assumptions` shows.

### What is modelled

| model file | code |
|---|---|
| PeerId.v | src/gsupclient/cni_peer_id.c |
| Db.v | src/db_hlr.c (all functions used by the HLR), db_auc.c:37-74 (SQN update), db_hlr.c IND table |
| Auth.v | src/db_auc.c:78-262, src/auc.c |
| Gsup.v | src/gsupclient/gsup_req.c |
| Router.v | src/gsup_router.c, src/gsup_server.c (connections, names, sending) |
| Hlr.v | src/hlr.c (dispatch, all request handlers, notifications), src/lu_fsm.c, src/hlr_ussd.c, src/hlr_sms.c, the msisdn and network-access-mode commands of src/hlr_vty_subscr.c |
| Frame.v | src/gsup_server.c:42-67, 154-222 (IPA messages received and sent), src/hlr.c:461-535 and src/gsupclient/gsup_req.c:104-140 as far as octets are concerned. Of libosmocore and libosmo-abis: message buffers that abort, IPA headers, the limit of 1200 octets for messages received. osmo_gsup_decode() is an oracle; what the IPA identity exchange makes of its messages is one, too |
| Euse.v | src/osmo-euse-demo.c:60-190, 231; what libosmocore makes of facility elements is an oracle. The network of Hlr.v and this program: messages on the entity's connection are read in order, at any time |
| Main.v | getopt_long() as both programs use it (glibc, permuting, POSIXLY_CORRECT not set), handle_options() and main() of hlr.c and of hlr_db_tool.c, with Upgrade.v for db_open(); reading the configuration, sockets, osmo_daemonize() and the import are parameters; the log is left out but for its settings |
| Cmd.v | main() of osmo-mslookup-client.c and of osmo-euse-demo.c up to the loops in MsTool.v, MsNet.v and Euse.v: options, what is written to stderr by the program itself and by getopt_long(), exit status. Opening sockets and reading addresses are parameters. The header line on stdout that comes before a failure to open sockets is left out |
| Post.v | contrib/osmo-hlr-post-upgrade.sh on tool_main of Main.v; the outcome of cp, systemctl, date and of each database operation are parameters. What it prints is left out; the write-ahead log counts as part of the database file, also for cp |
| VtyText.v | hlr_vty_subscr.c: get_datestr, dump_last_lu_seen, subscr_dump_full_vty, subscr_dump_summary_vty, dump_summary_table_vty; ctrl.c: print_subscr_info, _aud2g, _aud3g. gmtime_r() and strftime() of the C library are modelled for times from 1970 on; the columns that the program never writes are NULL; what libosmocore answers if nothing was appended to a reply is not modelled |
| Scripts.v | contrib/dgsm: freeswitch_dialplan_dgsm.py (query_mslookup, handler), esme_dgsm.py (query_mslookup, can_handle_pdu, rx_deliver_sm), osmo-mslookup-pipe.py, osmo-mslookup-socket.py (query functions). json.loads() is modelled for the one-level objects that the tool writes; sending with smpplib and bridging in FreeSWITCH are outside, as is the rest of their loops |
| TestClient.v | src/gsupclient/gsup_test_client.c but for its output to the terminal (printf(), print_report(), the SIGINT handler). Whether osmo_gsup_encode() succeeds is an oracle of type and IMSI; osmo_gsup_decode() yields any type and any IMSI of up to 16 characters. The link is that of Client.v; osmo_select_main() may find any events |
| FakeMethod.v | src/mslookup/mslookup_client_fake.c. The client is seen from the method: any calls of it while it is given a result; gettimeofday() yields anything with 0 to 999999 microseconds (the waiting times of the table, too); allocations succeed; the strings of the table are C strings |
| Populate.v | src/populate_hlr_db.pl and sql/hlr_data.sql. Each INSERT may also fail for reasons of its own (disk, lock); the script goes on, since RaiseError is off. The rows are those of one transaction: there after the commit, gone if the script is ended before or the commit fails. DBI->connect() and prepare() succeed. What is printed is left out. |
| UssdCfg.v | src/hlr_ussd.c:40-122, src/hlr_vty.c:454-586 (USSD routes and entities set by VTY commands) |
| SmsCfg.v | src/hlr_sms.c:43-101, src/hlr_vty.c:639-755 (SMSC routes and entities set by VTY commands) |
| MsLookup.v | src/mslookup/mslookup.c:90-151, 241-319, src/mslookup/mdns.c:35-82 |
| Mdns.v | src/mslookup/mdns_rfc.c, mdns_msg.c, mdns.c:84-425 |
| MsClient.v | src/mslookup/mslookup_client.c, mslookup_client_mdns.c:45-140 (bookkeeping of requests) |
| Proxy.v | src/timestamp.c, src/proxy.c:134-238 (cache of roaming subscribers) |
| MsServer.v | src/mslookup_server.c, src/mslookup_server_mdns.c:30-89, src/dgsm_vty.c:197-324 (service addresses) |
| Dgsm.v (several of them: NetSpec.v) | src/dgsm.c:40-164, src/proxy.c, src/remote_hlr.c, src/hlr.c:508-587 (read_cb with D-GSM); the GSUP client towards a remote HLR only as events (up, down, lost, message) |
| Upgrade.v | src/db.c:31-99 (which tables and columns the prepared statements name), 236-728 (db_run_statements to db_open), sql/hlr.sql; SQLite as a small relational machine: tables, column constraints, one transaction, temporary tables, user_version, journal mode |
| Dbd.v | src/dbd_decode_binary.c |
| Client.v | src/gsupclient/gsup_client.c; of libosmo-abis the client connection as a link that is closed, connecting or up, with a write queue that is emptied when it is opened or closed |
| ClientMux.v | src/gsupclient/gsup_client_mux.c |
| Ctrl.v | src/ctrl.c; auth_algo_parse of src/hlr_vty_subscr.c; of libosmocore how ctrl_cmd_handle splits a variable and finds the command; glibc strtoll, atoi, strtok_r, strcasecmp in the C locale |
| VtySubscr.v | src/hlr_vty_subscr.c, the commands on one subscriber: get_subscr_by_argv, subscr_dump_full_vty (as the record and the keys printed), show, create, delete, update msisdn, aud2g, aud3g, imei, network-access-mode; of libosmocore osmo_imei_str_valid and osmo_luhn; glibc atoll, strstr. The layout of what is printed is not modelled, nor is the line parser of libosmovty (the words are arguments) |
| VtyList.v | src/db_hlr.c db_subscrs_get; src/hlr_vty_subscr.c the "show subscribers" commands (as the columns of the lines printed); of SQLite the operator LIKE, the comparison of a BOOLEAN column with a text, ORDER BY. The column widths and the date (get_datestr) are not modelled |
| Nitb.v | src/hlr_db_tool.c import_nitb_db, import_nitb_subscr, import_nitb_subscr_aud, db_subscr_update_lu_by_imsi; of SQLite the conversion of columns to integers. What the SELECT statements on the OsmoNITB database give is the input; opening that database and preparing statements is one flag. Out-of-memory is not modelled |
| Config.v | src/hlr_vty.c:49-956 and src/dgsm_vty.c:29-584: the configuration commands of all nodes and the functions that write the configuration; src/gsup_server.c:479-490; defaults of src/hlr.c:771-784 and src/dgsm.c:166-183. Of libosmocore: matching of a line with the words of a command (keywords not abbreviated, numbers as digits), reading a file by indentation, writing the nodes in the order of their numbers, osmo_escape_str. Its conversions of addresses and APNs are an oracle; that their texts stand for the same address or APN again is a hypothesis of the theorems. Commands of libosmocore nodes, comments, help texts and `show` are not modelled. A warning while a file is read counts as refusing the file |
| MsTool.v | src/mslookup/osmo-mslookup-client.c:42, 188-234, 336-721 and main from the headers on (842-874): text of results, socket clients, queries, main loop, on the lookup client of MsClient.v with its mDNS method. inet_ntop() is an oracle (hypothesis plain_ntop where used: characters and length of its texts). Setting up and removing the socket file are not modelled; options are in Cmd.v, --send (do_send) is in MsNet.v; write() to a socket has no effect on the program |
| MsNet.v | src/mslookup/osmo-mslookup-client.c:246-334 (do_send); src/mslookup/mslookup_client_mdns.c:49-186 and src/mslookup_server_mdns.c:30-103 put together over a network: what is sent is on the air for ever, the client reads any packet at any time, and an HLR in any state (configuration, database, proxy cache, time) handles any packet at any time; so loss, copies, delays and several HLRs are covered, forged packets are not. Sending never fails. inet_pton() by osmo_sockaddr_str_from_str() is an oracle (hypothesis reads_addrs: the number of octets fits the family) |
| DgsmRun.v | src/dgsm.c:166-247; src/mslookup_server_mdns.c:91-157; src/mslookup/mslookup_client_mdns.c:170-236 (adding and removing the method); src/mslookup/mdns_sock.c:49-126 (whether there is a socket); the calls of these in src/dgsm_vty.c. System calls are an oracle per event (record os); hypothesis joins_multicast of C63_ip6_refuted: the kernel lets a socket join only groups in 224.0.0.0/4. A command in the file and a typed one are the same but for what Config.v says of them |

Not modelled: logging, talloc failures (malloc returning NULL), the VTY parser, sockets, the crypto
algorithms themselves, SQLite internals.

## Findings (places where the code violates a property)

* C03: `db_subscr_delete_by_id` reports success with keys left behind when the key deletion fails; after a
  crash a later subscriber with the same id inherits the keys.
* C05/C10: the location update writes the number and the timestamp in two statements, no transaction.
* C07: replacing keys deletes and inserts without a transaction. A crash or an SQL error loses the key.
* C09: VLR names with an embedded NUL share an IND: exactly the names that agree up to the first NUL do (C09_exact). Names shorter than two bytes or not ending in NUL are given none.
* C11: the stored SQN is not limited to 48 bits; at the end of the range the numbers sent start again. None of them comes twice before the whole range has been gone through (C11_never_repeat_partial).
* C08: the node name column is cut to 31 characters, unterminated names read the buffer's stale tail, a name
  of 128 bytes is read past its end, a percent sign in the proxy name is a printf directive.
* C18: an internal error after the first UPDATE of a location update (clock, second statement, encoding of the
  MSISDN) rejects the update but leaves the new serving node registered.
* C20: an Insert Data Result is matched to an update by IMSI only and completes the newest one, whoever sent it (for every state: C20_newest_is_ended).
* C21: no location update clears the purged flag; the sender of a purge is not compared with the serving node.
* C24: an answer of an external USSD entity that names the HLR as destination is passed on with that
  destination. C25: names over 128 bytes are not routed; such a peer is entered under
  the empty name instead and is sent the answers to all peers that have not said their name (C25_long_name_case). C26: answers go to another connection when two peers
  have the same name, when an unidentified connection names another peer as source, when a message with an
  invalid IMSI names another source, and when a name is taken over after a disconnect.
* C27: two peer ids of type EMPTY do not compare equal.
* C28: switching one domain off tells the nodes of both domains; switching access on tells nobody; removing
  the MSISDN pushes the old number; a peer that sent location updates for both domains is compared with the SGSN
  number only; changes over the control interface are not pushed.
* C29: "no euse NAME" frees an entity that routes and running sessions still point to.
* C30: in a session opened by an external entity a message of the mobile's node makes the HLR use the entity record
  as an internal service; an entity name of 128 octets without NUL is read past its end; messages in a session are
  accepted from any entity or node.
* C31: "no smsc entity NAME" frees a service centre that routes still point to; a service centre name of more than 127
  characters leaves the destination of the forwarded message uninitialised; a read error of the database is answered as IMSI unknown.
* C33: a service or suffix with an empty label does not survive encoding as a name; with a domain suffix of 92 or more
  characters (any length can be configured) a valid result does not fit into the 1024 octets of the message and aborts the process.
  With a suffix that ends with a dot HLRs understand the queries, but nobody understands their answers. A result for a service whose name starts with
  two dots (osmo-mslookup-client --send accepts one, C62_dots_refuted) makes every program that receives it leave a buffer.
* C34: an answer without records makes the decoder follow NULL; a record with an empty name writes one octet behind its buffer; a
  record of fewer than ten octets, a name that does not end and an empty TXT record make it read behind the packet. These are all cases
  (C34_exact), and most need no knowledge of names or suffix (C34_any_refuted).
* C35: handles of lookup requests have 32 bits. A request that is still open when its handle is given out again is ended at once by a final
  call that says neither result nor not found. Also, of several open mDNS queries that are equal only the newest gets the answers.
* C36: at the end of the minimum delay timeout_cb() tells the best result and then sets the timer of the request. If the callback cancelled
  the request, the timer is in freed memory. The HLR itself never asks for a timeout beyond the minimum delay, so it is not concerned.
* C37: the IPv6 address of an earlier "bind ip" is still announced after it was changed to an IPv4 address; a VLR name of 32 or more
  characters does not lead to the addresses configured for that MSC; a VLR name with a percent sign is used as a printf format; a row without
  a time of location update counts as updated in 1970.
* C38: a database error while looking for the subscriber counts as "not here", so the message of a local subscriber goes to the proxy.
* C39: if the link to the home HLR goes down before it was ever up, or the cache entry expires, the requests waiting for it are neither
  forwarded nor answered, unless a further message for the same subscriber comes.
* C40: the sender of a location update result is not compared with the home HLR of the subscriber, so every remote HLR with a link can
  confirm; one result confirms both domains if the same node asked in both; a result without destination name reaches a peer whose name was too
  long to be kept and takes away the registration. Also, a location update without CN domain is forwarded, but its result is
  dropped (the HLR itself takes it for PS), and remote_hlr_rx() does not free the message.
* C41: the upgrades to versions 1, 2, 4, 5 and 6, and the creation of the tables, are several transactions with the version number last, and the upgrade
  to version 3 sets it after its COMMIT. If the process dies in between, every later start fails on "duplicate column" or "no such column".
  No data is lost. Only the upgrade to version 7 is atomic.
* C42: the upgrade to version 3 drops the index idx_subscr_imsi with the old table and does not create it again (the UNIQUE constraint remains).
* C43: a file of version 0 without a table "subscriber", such as a database of another program, gets the HLR's tables without --db-upgrade; the
  journal mode in the header of every file is changed before its version is read. Also, "PRAGMA synchonous" is a typing error without effect.
* C44: the difference of two times overflows if they are 2^63 seconds apart.
* C48: a percent sign in "msc ipa-name NAME" is a printf directive; names that agree in 127 characters are one MSC; "no service NAME at
  IP PORT" reports a failure when it deletes one of two addresses.
* C49: a destination over 128 bytes is treated as "no destination"; an unidentified connection can send under
  any source name.
* C45: a legacy value that ends with the escape octet (unless escaped itself; no other, C45_exact) is read past its terminating zero; an empty BLOB gives a NULL pointer that is followed.
* C47: a request for a class without receiver, or of an unknown class, is dropped without an answer (only a request without IMSI is answered); the
  MO-forwardSM request, the MT-forwardSM error and result and the READY-FOR-SM request (which an MSC sends rather than receives) are taken for
  subscriber management unless the class is explicit.
* C50: a reconnect attempt that fails with EINVAL, EBADF, ENOTSOCK or EAFNOSUPPORT (for instance because the name does not resolve at the moment) is
  the last one; after an invalid control message on an established link a keep-alive is queued at the closed link and the retry is 20 seconds late.
* C51: the up/down callback is not told when a link is dropped because the keep-alive was not answered, and is told down again for each attempt.
* C46: GET info-aud by an IMSI does not look the IMSI up, and is answered with success for subscribers that do not exist; "by-id-" with nothing behind it
  means id 0.
* C52: the bit length of aud3g is read by atoi, so that "five", "7x" and an empty field count as 0, 7 and 0; XOR-3G keys that VTY or SQL stored are shown
  by GET but refused by SET in every form (OP/OPC has to be empty, but an empty field is an invalid format); TUAK is known to the parser and refused by
  the database; "none" is answered with an error if there are no keys; setting a 3G key resets SQN to 0.
* C53: IMEIs are not unique in the database; a VTY command by IMEI acts on the first row that has it (also "delete"). Ids are read by atoll: "id 2x" is
  subscriber 2, and words that are no number are id 0. "create" ignores the result of reading the new subscriber back and prints a structure on the stack
  that has not been set. "network-access-mode" ignores the results of both writes. "delete" reports success although the keys remain (their deletion
  failed), and the next subscriber created gets the same id and so the old keys. A changed MSISDN is not told to the serving nodes if the second read
  fails. The help offers TUAK, and XOR keys of 12 to 15 octets for 3G, which db_subscr_update_aud_by_id() always refuses.
* C54: db_subscrs_get() prints the search text into search[256] with sprintf: a filter of 254 characters or more typed on the VTY overflows the stack. The
  wildcards % and _ of LIKE are not quoted. "on" and "off" are replaced by 1 and 0 for every type of filter, so "msisdn on" lists MSISDN 1. The list
  "last-seen" looks at last_lu_seen only, not at last_lu_seen_ps. If the first sqlite3_step() fails the positive SQLite code is returned, not -EIO as
  documented (the VTY tests for non-zero only); an unknown filter type leaves *err unset (not reachable from the VTY). An age of 0 s is shown as "( ago)".
  A last location update at the very second that the offset of the time zone makes 0 is shown as never.
* C55: the import reads IMSIs as integers and so loses leading zeros (IMSIs of MCC 0xx, as of test networks 001, become other IMSIs). A subscriber that exists
  is overwritten (number, IMEI, time, NAM, 2G key): the error of db_subscr_create() is only logged. A NULL expire_lu gives last_lu_seen = -3660. expire_lu
  beyond 2038 wraps to a negative time; within an hour after that second the subtraction overflows. An empty a3a8_ki gives a NULL pointer that
  is followed, and a key is decoded up to a zero octet that SQLite happens to put behind it. Only the first row of keys is used; if it is too large the
  statement is reset, and so also unbound. Extensions over 15 digits are cut. import_nitb_db() returns 0 when reading the subscribers fails, and whatever happens
  to single rows. The algorithm id is taken over unchanged; whether OsmoNITB's numbers are those of libosmocore cannot be seen in /repo. The comment at the
  IMEI says that one is invented, but none is; the statement for the keys is not finalized, so that sqlite3_close() fails and leaks.
* Simplification: parse_last_lu_seen() (db_hlr.c) also gives 0 when mktime() returns -1, the second before the epoch; the model gives that second.
* Also seen, outside of the properties: get_datestr() shows last_lu_seen off by the offset of the time zone (the ages are right); a USSD session is not freed when
  an error END is sent to it; a reply of an external USSD entity of another message class is dropped silently; forward_to_local_peer has a
  use after free in a branch that cannot be reached.
* C56: the nodes are written in the order of their numbers (hlr_vty.h:30-42), in which MSLOOKUP_NODE is before PS_NODE. So " ps", which belongs to "hlr", is written
  within "mslookup" whenever Distributed GSM is configured, where there is no such command: the saved file is not accepted at the next start. Only the
  first num_pdp_infos slots are written, so after a gap profiles are lost. config_write_euse() and config_write_smsc() follow routes to
  freed entities. PDP profiles and client settings are not written while they are disabled. Names of MSCs are written escaped, but
  not unescaped when read. A database path with a blank (possible with -l) is written as two words.
* C57: after a PDP profile was removed that is not the last one, the first num_pdp_infos slots are sent: a zeroed profile (context id 0, have_info 0) and not
  the last one.
* C58: results are given to all socket clients with the same text of the query, by comparing texts (respond_result, osmo-mslookup-client.c:583-597). So of two programs that ask
  for the same text the shorter timeout counts for both; an error in the packet of one (for example a timeout that is no number) closes the socket of the other; "1@", whose query is
  empty, closes the sockets of all programs that have not asked anything yet. If the texts differ but mean the same query ("imsi", "IMSI"), an answer is given to
  the newest request only (mslookup_client_mdns.c), and the other program is told that there is nothing.
* C59: formatter_csv() writes five tabs where four columns are left (osmo-mslookup-client.c:372), so lines about "not-found" and "none" have nine columns. formatter_json() does
  not escape: a query with a quote, which is accepted, gives lines that are no JSON. Lines are cut at 1023 characters.
* C60: timeouts[16] holds 15 characters, so pairs of numbers with more digits are refused. If all queries of the command line are refused, osmo_select_main_ctx() is called
  before the program looks whether it is done, with no timer set: it does not end.
* C61: services with an empty label ("sip..voice") are accepted by the vty and by requests, but osmo_apn_from_str() writes a zero octet for the empty label, which ends the
  name; no HLR understands the question. A suffix with a label "imsi" or "msisdn" (option -D, vty "mdns domain-suffix") makes the question ambiguous: with "262420.imsi.lab" the
  query "sip.voice.1002.msisdn" is read by HLRs of the network "lab" as one for the service "sip.voice.1002.msisdn" of IMSI 262420, and what they answer is taken for the answer.
* C62: do_send() without an address reports success, but osmo_mdns_result_from_answer() refuses an answer without an address. Two addresses of the same family are accepted; the
  second overwrites the first, and success is reported.
* C63: osmo_mslookup_client_add_mdns() keeps the pointer to the domain suffix in the configuration (mslookup_client_mdns.c:197). "mdns domain-suffix" frees this text
  (osmo_talloc_replace_string(), dgsm_vty.c:108-118, 379-389) and then calls dgsm_mdns_client_config_apply(), which compares the freed text with the new one (dgsm.c:214-216).
  Every such command while the client runs is undefined; in between, requests of the client use it also. mslookup_server_mdns_config_apply() and its client counterpart stop before they
  start and return nothing: a failed "mdns bind" reports success, and the server or client is gone until another such command. mdns_sock.c:89-99 joins the group with a struct
  ip_mreq and the octets of sin_addr also for AF_INET6, so that no socket is opened for IPv6, which the vty accepts. read_cb() (hlr.c:528-529) and dgsm.c:117 look at the gateway
  address but not at client.enable; "no client" does not disable it, although the log says so only when enabled (dgsm.c:242).
* C65: read_cb() passes any message with a destination to that destination (hlr.c:508-587), also answers such as Update Location Result, from any client; the proxy of the visited HLR
  passes on what the home HLR sends without regard to whether it asked (see also C40). A client of the home HLR can so confirm updates at nodes of other sites.
* C66: read_cb_forward() copies the message into a buffer of osmo_gsup_msgb_alloc() with room for 1024 octets (hlr.c:481-485), but a message received may have up to 1196; msgb_put() of
  libosmocore aborts. This happens before the route is looked up, so the destination need not exist. Unknown elements in a GSUP message are skipped by osmo_gsup_decode(), so any client can fill
  one up. osmo_gsup_conn_oap_handle() (gsup_server.c:154-168) has its body disabled and does not free the message.
* C67: cfg_ps_pdp_profile_apn accepts names of up to 99 characters and there can be ten profiles (hlr_vty.c:239-268), 1070 octets with their headers; the first Insert Subscriber Data for
  packet service then aborts the HLR in osmo_gsup_encode(). The oracle `k_enc` of Hlr.v stands for errors of osmo_gsup_encode(), not for this. In the same way a message that is passed on by
  encoding it again (D-GSM, SMS; gsup_server.c:495-521) can be longer than the buffer; this is not part of the theorems.
* C68: gsupc_read_cb() of osmo-euse-demo.c:167-171 returns without msgb_free() when a message cannot be decoded. euse_rx_proc_ss_req() does not look for OSMO_GSUP_SESSION_STATE_END, so
  the end of a session is answered with a reject; the HLR drops it because it knows no such session and only requests get errors.
* C70: the option string of getopt_long() in hlr.c:674 is "hc:l:d:Dse:TUV"; the C of the help text (hlr.c:605) and of the long option is missing, so `osmo-hlr -C` exits with 255. With
  --db-check a configuration is still needed, and --daemonize is ignored. osmo-hlr-db-tool accepts -U but its configuration has no path for the database.
* C71: the manual (dgsm.adoc:401) calls osmo-mslookup-client with --csv-headers, which does not exist (there is only --no-csv-headers), so that the call fails. With --send and -d, -f or -s an
  error is printed (osmo-mslookup-client.c:828-830), without a newline, and the result is sent all the same. opterr is left alone, so that -q does not silence getopt_long(). `-f ""` means json,
  without -f the format is csv. osmo-euse-demo takes (uint16_t) atoi() of its second argument for the port: 70000 is 4464.
* C72: osmo-hlr-post-upgrade.sh:31 takes every failure of osmo-hlr-db-tool for the need to upgrade. With a newer database (after a downgrade of the package), one left half upgraded by an
  interruption (C41), or one that cannot be read at the moment, the service is stopped and a copy made; if the upgrade then fails, `sh -e` ends the script and the service stays stopped. So it
  does if the copy cannot be made (osmo-hlr-post-upgrade.sh:60-68), though nothing was changed. The copy is good in all cases, except that a file of version 0 without a table of subscribers is
  filled by the very attempt to open it, before any copy.
* C73: get_datestr (hlr_vty_subscr.c:39-45) prints with gmtime_r() a time that db_hlr.c made with mktime() from UTC, so the date is early by the offset of the time zone, marked "+00:00" all
  the same; the age beside it is right. UNIT_AGO (hlr_vty_subscr.c:60-68) leaves out all units that are 0, so that an age of 0 seconds is " ( ago)". The name of a VLR or SGSN is printed as
  it is; with a line feed in it, it can feign another line, e.g. "CS purged". "%-12s" of hlr_vty_subscr.c:171 is narrower than a valid MSISDN, "%-5" narrower than an identifier may be.
* (C46) A request to set the access of a subscriber that does not exist is answered with "An error has occured.", unlike every other variable, which says that there is no such subscriber (C46_access_refuted).
* C74: the scripts pass the called number as it is to osmo-mslookup-client, which answers a query that it refuses with an error line but then goes on to wait (C58); for "*100#", or an unset
  variable, tool and script wait until some mDNS packet arrives, whoever it is for. The error line has the query unescaped in its JSON, so a number with quotes in it brings its own "v4" and with
  it chooses where freeswitch_dialplan_dgsm.py bridges the call. esme_dgsm.py catches neither a failed lookup nor a failed forwarding: the script ends and the SMSC gets no answer.
  osmo-mslookup-socket.py reads the headers first, which a daemon with -f json or -H never writes. A service with timeouts ("-s 0-5000@sip.voice") gives more than one line, on which
  json.loads() in the dialplan script fails.
* C75: main() of gsup_test_client.c makes its first request before osmo_select_main() could establish the link, so 901790000000000 is always refused with -ENOTCONN; a refused or unanswered
  operation stays for ever, because osmo_timer_schedule() is called nowhere and "tout" in the report is always 0. imsi_op_rx_gsup() asks for a location update after an error as well. gsupc_read_cb() returns in
  four places without msgb_free(). If osmo_gsup_client_create() fails, main() goes on with a null pointer, which osmo_gsup_client_send() refuses. req_auth_info() and req_loc_upd() use
  the result of imsi_op_alloc() unchecked, and imsi_op_rx_gsup() prints io->imsi after resp_isd() freed it if sending fails; C75_safe shows that neither can happen with this program and Client.v.
* C76: fake_lookup_async_response() uses llist_for_each_entry_safe(), which only allows for the removal of the current request; a result callback that cancels the request after it makes the loop go on with
  freed memory. osmo_mslookup_client_add_fake() sets no destruct function, so the timer stays scheduled when the client or the method is freed and fires on freed memory. The comment at line 119 (the request
  has been cleaned up) holds only for results with age 0; a response whose result the client ignores is used up all the same.
* C77: populate_hlr_db.pl ignores the result of the first INSERT and takes sqlite_last_insert_rowid() for the number of the new subscriber. If the INSERT is refused, that is the number of a row inserted earlier,
  or 0 if there was none: the keys are refused, made for an earlier subscriber of the same run, or belong to nobody. Keys left behind in a database become those of new subscribers, since the INSERT of the keys
  is refused. hlr_data.sql states the numbers 1 to 3; in a database that is in use these may be other subscribers, who are given the keys of the file if they had none.
