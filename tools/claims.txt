claim("C01","partial","C01_refuted C01_lossless_iff_partial C01_all_but_last_partial C01_split_total", R+"ToTPUDHISlices fills the last part from the beginning of the content; C01_lossless_iff_partial gives exactly the contents that survive.")
claim("C02","proved","C02_parts_well_formed C02_least_parts")
claim("C03","partial","C03_refuted C03_below_partial", R+"A content of exactly the package size is split (C03_refuted, every such content); below the size it is sent unmodified.")
claim("C04","proved","C04_format")
claim("C05","proved","C05_lossless C05_rejects_invalid C05_any_octets", "C05_any_octets: decoding octets that are no UCS-2 text never fails either; they are read as exactly one sequence of characters, with U+FFFD for what is broken.")
claim("C06","proved","C06_width C06_round_trip C06_trim C06_overlong")
claim("C07","proved","C07_round_trip C07_only_decimal C07_unpack C07_odd", "Beyond the statement: unpacking arbitrary bytes (C07_unpack) and odd lengths, where a last digit 0 is lost (C07_odd).")
claim("C08","proved","C08_decimal C08_timestamp C08_hex64 C08_hex32 C08_injective")
claim("C09","proved","C09_unique_in_period C09_period_exact C09_total")
claim("C10","partial","C10_refuted C10_collide_iff_partial", R+"Datacenter numbers that differ by 2 give identical streams; C10_collide_iff_partial gives exactly the colliding node pairs.")
claim("C11","proved","C11_increasing C11_increasing_any_state C11_returns C11_ids C11_every_call")
claim("C12","proved","C12_parse C12_nodes_distinct")
claim("C13","partial","C13_refuted C13_monotone_clock_partial", R+"Setting the clock back one millisecond repeats an id; unique for clocks that never go back.")
claim("C14","proved","C14_increasing_in_day C14_parse C14_every_call")
claim("C15","partial","C15_refuted C15_reachable C15_returns_iff_partial", R+"The 513th call in second 86399 of a day never returns; C15_returns_iff_partial: that is the only such state.")
claim("C16","proved","C16_format C16_unique C16_worker")
claim("C17","proved","C17_unique C17_node_and_time C17_total")
claim("C18","proved","C18_round_trip C18_read_prefix C18_one")
claim("C19","partial","C19_refuted C19_reported_iff_partial C19_one", R+"Cuts right after the type or right after the header of a record are silently taken as the end; all other cuts are reported. Reading a single record reports every cut (C19_one).")
claim("C20","proved","C20_add C20_get C20_get_all C20_remove C20_remove_object")
claim("C21","proved","C21_registry C21_spec_deterministic")
claim("C22","proved","C22_keys_unique C22_prefix_call C22_own_keys")
claim("C23","partial","C23_refuted C23_some_winner_partial C23_sequential_partial", R+"Two interleaved registrations both succeed and one set of handlers is lost; proved that the handlers in force always belong to a caller that was told it succeeded.")
claim("C24","partial","C24_refuted C24_signal_after_hooks C24_taken C24_blocks_iff_partial", R+"The channel has room for one signal, so a second shutdown blocks until the first is read; hooks-in-order-then-signal is proved.")
claim("C25","proved","C25_last_wins")
claim("C27","partial","C27_refuted C27_only_default_partial", R+"The prepared structure is assigned to a local pointer and dropped.")
claim("C29","proved","C29_connect_wire")
claim("C30","proved","C30_check C30_client_accepted")
claim("C31","proved","C31_connect_resp_wire C32_major_version")
claim("C32","proved","C32_submit_layout C32_too_many_numbers C32_major_version")
claim("C33","partial","C33_refuted_tiny C33_refuted_empty C33_refuted_long_ascii C33_fields_partial C33_one_part_partial C32_major_version", R+"Contents that are empty or break off inside a part header 5 0 3 panic on decode, exactly these; long ASCII texts arrive garbled; all other fields survive, and one-part texts arrive unchanged.")
claim("C34","partial","C34_refuted C34_numbers_partial C34_decodes_partial C32_major_version", R+"2.x submits to 13..255 numbers never decode to the numbers sent; 3.x up to 255 and 2.x up to 12 do.")
claim("C35","proved","C35_responses C35_made C35_bare C32_major_version")
claim("C36","partial","C36_refuted C36_refuted_long C36_refuted_ucs2 C36_rest_partial C32_major_version", R+"The service id is decoded as destination, the service id is lost, long and most UCS-2 texts are lost; the other fields and short ASCII texts survive.")
claim("C37","proved","C37_report C37_same_id")
claim("C38","partial","C38_bind C38_bind_response C38_responses C38_unbind C38_accept_partial C38_refuted", R+"Layouts and round trips hold for every packet. Login: accepted exactly when the name sent (the client account's ClientId) is the server account's LoginName and the passwords agree; but the client never sends its own LoginName, so the same account on both sides is refused whenever LoginName differs from ClientId or the password exceeds 16 bytes.")
claim("C39","partial","C39_layout C39_round_trip_partial C39_part_partial C39_refuted C39_built", R+"Layout and announced length hold for every fitting submit; every field comes back for 1..255 numbers and content that is not empty and does not begin with 05 00 03. Empty (or cut-off header) content makes the decoder panic, and long-message parts come back with their content transcoded.")
claim("C40","partial","C40_deliver C40_deliver_built C40_report_partial C40_refuted", R+"Delivers and reports decode to what was encoded, but every report made by the builder is sent under the deliver command.")
claim("C28","proved","C28_cmpp C28_smgp C28_sgip C28_decode_total")
claim("C42","partial","C42_login_wire_partial C42_check C42_accept_partial C42_refuted C42_response", R+"The login and its response have the documented layout and the authentication check is exact; but client ids shorter than 8 bytes reach the account lookup with padding and never log in.")
claim("C43","partial","C43_layout C43_round_trip_partial C43_built C43_refuted C43_refuted_empty C43_response", R+"Layout, optional parameters and round trip hold for every fitting submit with non-empty content; built long messages carry zero-based part numbers in the optional parameters, and an empty text makes the decoder panic.")
claim("C44","partial","C44_deliver C44_built_partial C44_refuted C44_report C44_report_deliver C44_refuted_report", R+"Delivers up to 255 bytes and reports survive the wire; the report's announced length (115) differs from its 122 bytes, and texts of 256 bytes or more wrap the length byte.")
claim("C26","partial","C26_cmpp C26_sgip_partial C26_smgp_partial C26_refuted", R+"CMPP obeys for every parameter; SGIP for need-report, priority, service id, times and sub-number (fee type and value are always 0/empty); SMGP sends the marker 15 for need-report and priority when not asked, treats an asked 0 as unasked, and ignores the fee type, fee code and valid-time options.")
claim("C41","partial","C41_cmpp_connect C41_cmpp_submit C41_cmpp_numbers C41_cmpp_delivery C41_smgp_login C41_smgp_submit C41_smgp_deliver C41_sgip_bind C41_sgip_deliver C41_sgip_report C41_refuted C41_refuted_deliver", R+"SGIP submits: an over-long service number spills into the charge number; SGIP delivers: an over-long sender's number shows behind the service number. CMPP, SMGP and the SGIP login are isolated for all values; an over-long service number of an SGIP deliver and an over-long number of an SGIP report change nothing the receiver reads.")
claim("C45","partial","C45_cmpp_connect C45_cmpp_submit C45_cmpp_deliver C45_cmpp_bare C45_smgp_login C45_smgp_submit C45_smgp_deliver_partial C45_refuted C45_smgp_bare C45_sgip_bind C45_sgip_submit C45_sgip_deliver C45_sgip_report C45_sgip_unbind", R+"SMGP deliver acknowledgements carry a freshly drawn message id; everything else holds for all requests.")
claim("C46","partial","C46_cmpp_connect C46_cmpp_connect_resp C46_cmpp_resp C46_cmpp_report C46_smgp_login C46_smgp_login_resp C46_smgp_resp C46_smgp_report C46_sgip_bind C46_sgip_resp C46_sgip_unbind C46_sgip_report C46_cmpp_submit C46_cmpp_delivery C46_sgip_submit C46_sgip_deliver C46_smgp_submit C46_smgp_deliver C46_refuted", R+"Every decoder of a packet with fields crashes on some bodies; for each decoder the exact set of crashing bodies is given (an iff), and all other bodies give a value, or an error for SMGP texts that are not GB18030. The fieldless packets' decoders read nothing.")
claim("C47","partial","C47_partial C47_any_stream C47_refuted", R+"With the network library's 'n <= 0 means everything' a packet without body swallows the packets buffered behind it (C47_refuted); with 'nothing' instead, or when no packet of the stream is bodyless, the statement holds for all streams and segmentations (C47_partial, C47_any_stream).")
claim("C48","partial","C48_exact_partial C48_partial C48_refuted", R+"Exactly one packet is handled per received segment; the exact law is C48_exact_partial; of two packets in one segment the second waits for more input (C48_refuted).")
claim("C49","proved","C49_illegal C49_dispatch C49_incomplete", "")
claim("C50","proved","C50_served C50_refused C50_silent", "Stated over the per-connection machine of ServerModel (event loop, worker goroutines, ticker, close in every interleaving).")
claim("C52","proved","C52_bound C52_slots", "For connections that logged in at most once, as the property says; C53_partial extends it to calm re-logins.")
claim("C53","partial","C53_refuted_close C53_refuted_relogin C53_partial", R+"After close every worker that holds a packet blocks forever (C53_refuted_close, for all runs); a re-login during processing lets the window be exceeded and then loses a worker (C53_refuted_relogin). The window is kept over any number of re-logins that take effect while nothing is waiting or in processing (C53_partial).")
claim("C51","partial","C51_answers C51_partial C51_finishes C51_received C51_refuted", R+"A re-login while a submit waits for the window loses that submit for good (C51_refuted). In every run each response answers a served submit at most once, with its sequence number and the right result, and the counter is exact (C51_answers); in calm runs no submit is forgotten (C51_partial) and all can be answered (C51_finishes).")
claim("C56","partial","C56_terminated_partial C56_spared C56_heartbeat C56_refuted_pool", R+"\"At the next tick\" fails when the ticker's non-blocking pool is full: such a tick changes nothing (C56_refuted_pool, for every overdue connection). Proved for every timeline: a connection that is overdue (idle longer than the force-close time, or three heartbeats unanswered) at a tick whose pool accepts gets the protocol's terminate request, and is being closed once it is written; a connection not overdue at any tick never gets one; logged-in peers idle for a minute get heartbeats. Use is what the code counts: logins, accepted submits, reports, active tests answered, delivery and heartbeat answers handled; refused submits do not count. The counter of unanswered heartbeats is a byte, so the theorem asks for fewer than 256 of them")
claim("C54","partial","C54_refuted_crash C54_refuted_limit C54_refuted_count C54_refuted_unbounded C54_partial C54_one_loop C54_openings_partial C54_sessions", R+"For every limit: the connection that arrives at a full server ends the process (OnClose of a refused connection dereferences its nil session; relies on gnet calling OnClose after OnOpen returned Close), two event loops can exceed the limit, and an opening overlapping a closing loses the decrement, until a server with one connection counts as full; an opening that falls into a closing is overwritten, so that two loops can gather any number of sessions while the counter says 0. Proved: exact count and limit when handlers do not overlap (C54_partial), which a single loop guarantees (C54_one_loop); exact count and limit + loops - 1 for overlapping openings; which connections have sessions (C54_sessions).")
claim("C55","partial","C55_refuted C55_partial C55_refusal C55_refusal_written", R+"The limit is checked when a login is handled but the client is counted only when the answer is written: for every n there is a run with n logged-in connections of a client allowed one (C55_refuted). Proved for all runs in which no login of the client is checked while another granted one waits for its answer to be written (C55_partial); a genuine login over the limit is answered with the protocol's code, in the right bytes, and the connection is then being closed (C55_refusal, C55_refusal_written).")
claim("C57","partial","C57_sgip_partial C57_nothing_else C57_refuted_cmpp_smgp C57_refuted C57_refuted_race", R+"For CMPP and SMGP no answer ever reaches a query result: results are stored under a uint64 key and looked up under a uint32 key (C57_refuted_cmpp_smgp, for all runs; C57_refuted, the concrete run). For SGIP an answer that arrives between the write and the recording of the result is lost (C57_refuted_race). Proved for SGIP, all runs: when packets have distinct keys and no answer overtakes its record, every queried result belongs to a recorded packet and shows exactly the last answer for that packet (C57_sgip_partial). In every run, no step changes a recorded result's number, sequence id, send time or report, and its code, message id and answer time change only by an SGIP answer to that packet (C57_nothing_else).")
claim("C58","partial","C58_refuted_always C58_nothing_else_partial C58_refuted", R+"In no run of any of the three protocols does a delivery report change a query result: the report fields stay empty (C58_refuted_always). What is left of the claim: a report changes nothing else either (C58_nothing_else_partial).")
claim("C59","partial","C59_results_partial C59_refuted_empty C59_unknown C59_id_nonzero C59_returns", R+"Querying a send of which nothing was sent panics (C59_refuted_empty, for all runs). Proved for all runs: a finished send with an own id that has not been swept shows exactly its recorded packets (C59_results_partial); unknown ids give an empty answer (C59_unknown); the returned id is 0 exactly for an empty list of numbers (C59_returns, C59_id_nonzero within the sequence's time range).")
claim("C60","proved","C60_sweep C60_reachable", "For every cache content with distinct ids (every reachable one, C60_reachable), every time and every order of visiting: exactly the expired sends go (age of the first result of the list; sends without results count as expired), with a handler every one of their results is handed over exactly once in non-empty batches of at least 64 except the last, without a handler they are dropped; the other caches stay. The handler is called as a function of the batch: what the handler does with it (a full pool) is outside.")
claim("C61","partial","C61_uncut_partial C61_refuted C61_bad_length", R+"The client reads a header and a body each with a single Read: for every message sequence and every split into reads that cuts a header or a body, the session closes after a strict prefix of the messages (C61_refuted). Proved: if no header and no body is cut, exactly the sent messages are delivered, in order (C61_uncut_partial); a length field below the header length or over the limit ends the session (C61_bad_length).")
claim("C62","partial","C62_once C62_progress C62_partial C62_refuted_overlap C62_refuted", R+"Two closes of the same session that overlap can crash the process: the second uses the connection the first has set to nil (C62_refuted_overlap; for any number of closers at least 2, C62_refuted). Proved for all interleavings: the connection is closed at most once and a session never becomes healthy again (C62_once), closing cannot deadlock (C62_progress); closes that do not overlap never crash and close exactly once (C62_partial).")
claim("C63","partial","C63_round_partial C63_no_panic C63_rank_partial C63_refuted_wrap C63_refuted_equal C63_refuted_limit C63_refuted_unhealthy C63_refuted_stuck", R+"From 10^10 uses on the unsigned difference wraps and the most used session comes first (C63_refuted_wrap); at exactly 10^10 a healthy session does not rank above an unhealthy one (C63_refuted_equal); a lowered connection limit leaves the excess in place (C63_refuted_limit); a session from a short login answer is added although not usable (C63_refuted_unhealthy); while connects fail the round never ends (C63_refuted_stuck). Proved: a round that ends keeps exactly the healthy sessions and fills up to the limit (C63_round_partial), does not panic (C63_no_panic); below 10^10 uses healthy sessions rank above unhealthy ones and by use (C63_rank_partial).")
claim("C64","partial","C64_shipped_exact C64_shipped_one C64_first_partial C64_answers_partial C64_refuted_expression C64_peek", R+"A configured expression that does not compile panics at the first number that gets as far as that carrier (C64_refuted_expression); what this does to the other sends is C85. Proved for all numbers: the shipped expressions match exactly the listed number ranges and at most one of them matches (C64_shipped_exact, C64_shipped_one); for all well-formed configurations the first matching entry is used (C64_first_partial, C64_answers_partial); a session picked is a healthy one (C64_peek).")
claim("C65","partial","C65_usable_partial C65_success C65_rejected C65_refuted C65_short C65_no_panic", R+"For CMPP 3 only the low byte of the four-byte status is looked at: every status that is a multiple of 256 counts as a success (C65_refuted). Proved: a session is usable only after a complete answer with status 0 (CMPP 3: low byte 0) (C65_usable_partial), and then it is (C65_success); a rejected login gives no session (C65_rejected); a short answer gives a session that is not usable (C65_short); no answer of any length panics (C65_no_panic).")
claim("C66","partial","C66_yaml_partial C66_found_partial C66_refuted_upper C66_load_ends C66_refuted_short C66_mongo_partial C66_refuted_mongo_case C66_refuted_mongo_decode", R+"In the file store keys are lower-cased at loading but the client id is not at lookup: an id with an upper-case letter is never found, whatever the files (C66_refuted_upper); a readable file with a name of under four characters crashes the load (C66_refuted_short, exactly then: C66_load_ends). In the database store a protocol written in upper case is never found (C66_refuted_mongo_case) and everything after a document that does not decode is left out (C66_refuted_mongo_decode). Proved for all file sets: a lookup gives exactly the last readable file of that name and nothing otherwise (C66_yaml_partial), hence every client with a lower-case id is found (C66_found_partial); the same for the decodable documents of the database (C66_mongo_partial). ToLower is modelled for ASCII.")
claim("C67","partial","C67_refuted_yaml C67_refuted_mongo C67_partial C67_life_latest C67_life_current_partial C67_refuted_life C67_refuted_life_mongo", R+"Loading never removes: whoever could be looked up before a load can be looked up after it, for every history and both stores (C67_refuted_yaml, C67_refuted_mongo). Proved: a reload shows the new entry of every client still configured and leaves the others as they were (C67_partial). Over a server's whole life: an account is what the latest load that saw a file for it made of it (C67_life_latest), so a removed one stays valid over any number of reloads (C67_refuted_life, C67_refuted_life_mongo).")
claim("C68","proved","C68_copy C68_handed_out C68_independent", "Reflection is modelled by field tables (name, type) of the two structs, objects at addresses; all fields are plain values. Copying between any two struct types (C68_copy); the handed-out object is new and agrees in every field by name (C68_handed_out); no sequence of writes to one changes the other (C68_independent).")
claim("C69","partial","C69_agree_partial C69_refuted_split C32_major_version", R+"If the gateway's answer arrives in more than one piece the server is logged in and the client has no usable session, for every split (C69_refuted_split). Proved for all accounts and credentials and every segmentation of the login packet, the answer arriving whole: exactly one packet is written back and the client's session is usable exactly when the server's session is logged in, which is exactly when the client is entitled; otherwise the server is closing (C69_agree_partial).")
claim("C71","partial","C71_bucket C71_throughput_partial C71_default C71_served C71_refuted_rate C71_unlimited C71_no_window C71_connection_partial C71_refuted_relogin", R+"The period is an integer division: a throughput that does not divide 1000000 admits more than configured (C71_refuted_rate), above 1000000 or below 0 everything is admitted (C71_unlimited); a login on the same connection gives a fresh bucket, so any number of submits is accepted in one instant with a window of 1 (C71_refuted_relogin). Proved: the bound for every bucket and all call times (C71_bucket), for throughputs dividing 1000000 (C71_throughput_partial), for the default (C71_default), for the submits of a server connection between two logins (C71_connection_partial); who keeps to the period is always served (C71_served); without a window nothing passes (C71_no_window). Exact arithmetic instead of float64.")
claim("C76","partial","C76_configured_partial C76_refuted C76_refuted_ignored", R+"The default of the window size depends on max-conns: with max-conns set and mt-window-size missing nothing is ever sent (C76_refuted), without max-conns the configured window is ignored (C76_refuted_ignored). Proved when both are set (C76_configured_partial).")
claim("C72","partial","C72_seq C72_empty C72_msg_partial C72_leak C72_refuted_msg", R+"The entries by message id are deleted under the result's present message id: after a second answer with another id the older entry is never removed, however often the sweepers run (C72_refuted_msg, in general C72_leak). Proved for every run: the cache by sequence id loses exactly the expired entries (C72_seq) and becomes empty when all are expired (C72_empty); the same for the cache by message id if the gateway uses one id per packet (C72_msg_partial).")
claim("C73","partial","C73_exact C73_closed C73_client_partial C73_refuted", R+"On every connected session of every protocol an empty login answer, an empty submit answer and every login answer with a non-zero status crash the process (C73_refuted). The exact set of harmless packets is given for connected sessions (C73_exact), for closed ones (C73_closed) and for every state of a client (C73_client_partial).")
claim("C74","partial","C74_starts C74_again C74_b64 C74_bcd C74_sgip_node C74_b32_partial C74_sgip_worker_partial C74_refuted_b32 C74_refuted_sgip C74_refuted_sgip_all", R+"True for 64-bit ids, BCD ids and SGIP node numbers. The block for the 32-bit numbers is never read (SeqInit reads the B64 keys twice), so processes that differ only there hand out identical packet numbers; C74_b32_partial gives the exact collision condition in terms of the B64 block (four bits, one of them shared). The SGIP start value 8*dc+worker folds different nodes together (C74_refuted_sgip) and, the step being odd, any two processes of one SGIP node meet (C74_refuted_sgip_all, exact condition C74_sgip_worker_partial).")
claim("C75","partial","C75_exact C75_never_more C75_refills C75_after_tick_partial C75_refuted_busy C75_refuted_stopped C75_refuted_empty", R+"Only the head of the list is ever handed out, and it is re-sorted only between connect loops. When the head fails while the connect loop runs and the gateway does not grant the missing connections, every sender waits for ever although healthy sessions stand behind it (C75_refuted_busy); likewise after shutdown (C75_refuted_stopped) and with no session at all (C75_refuted_empty). Proved: the exact condition under which the wait ends, and that a maintenance round, when it runs, puts the least used healthy session in front.")
claim("C77","partial","C77_when C77_smgp_partial C77_cmpp_partial C77_refuted_cmpp C77_refuted_cut", R+"When a packet is written is exact and no draw crashes (C77_when). SMGP messages arrive as configured if the text has no separator and fits (C77_smgp_partial). CMPP sender and ASCII text arrive, but the number it was sent to never does: the client finds the service id in its place (C77_refuted_cmpp). A text containing the separator is cut there in every protocol (C77_refuted_cut).")
claim("C78","partial","C78_threshold C78_rate_partial C78_refuted C78_one", R+"For every rate k/10000 below 1 exactly 9999-k draws fail, one too few (C78_refuted); at rate 1 none fails (C78_one). The exact set of failing draws is k < r (C78_rate_partial), and for every double the failing draws are those above a threshold (C78_threshold).")
claim("C70","partial","C70_sgip_partial C70_shown_partial C57_refuted_cmpp_smgp C57_refuted C57_refuted_race", R+"Over CMPP and SMGP no answer is ever shown (C57_refuted_cmpp_smgp), over SGIP an answer that arrives before the result is recorded is lost (C57_refuted_race). Proved for SGIP over every run of both programs joined by byte streams: a result shows nothing or exactly the one code the server at the other end of that session wrote for that packet (C70_sgip_partial), and it shows it if the answer came after the record (C70_shown_partial). Assumed: different packet keys, the result not expired, simulated deliveries are not submit answers.")
claim("C79","proved","C79_counters C79_final", "For every run of a connection; the numbers are 64-bit (mod 2^64).")
claim("C80","proved","C80_cmpp C80_cmpp_rate C80_cmpp_delivered C80_smgp C80_smgp_rate")
claim("C81","partial","C81_listed C81_each_partial C81_last_partial C81_refuted C81_prompt_partial", R+"The jobs share the loop variable of the range statement (go 1.18): if the pool starts a job after the loop has moved on, the number is skipped and a later one gets its message; for any list there is a run in which every message goes to the last number (C81_refuted). Proved for every run in which the pool takes all jobs: the number of messages is exact and the message for position k goes to position k or later (C81_each_partial), the last number gets at least its share (C81_last_partial), and all is right if every job starts before the loop's next round (C81_prompt_partial).")
claim("C82","partial","C82_up_iff_partial C82_refuted_type C82_refuted_uri C82_refuted_reload C82_mongo_stays", R+"An unknown store type or the database store without an address crash the program (C82_refuted_type, C82_refuted_uri); with the file store a running server ends at the first reload that cannot read the directory or a file (C82_refuted_reload). Proved: exactly when the server is up after the first load and any reloads (C82_up_iff_partial); with the database store no reload ends it (C82_mongo_stays).")
claim("C83","partial","C83_exact C83_refuted", R+"The file is not truncated: started after a process whose pid has more digits, it keeps the old digits behind the new ones (C83_refuted). Proved: the content reads as the running pid exactly if nothing longer was in the file (C83_exact).")
claim("C84","partial","C84_exit_orderly C84_one_partial C84_during_hooks C84_refuted_lost C84_refuted_early C84_refuted_second", R+"A signal between registration and the first receive is lost (C84_refuted_lost), one before the registration ends the process without hooks (C84_refuted_early), a second one after the hooks and before the exit breaks the process off with a panic (C84_refuted_second). Proved for every order of events: the hooks run at most once and an exit always comes after them (C84_exit_orderly); one signal while the handler waits ends the process in order (C84_one_partial); signals during the hooks change nothing (C84_during_hooks).")
claim("C85","partial","C85_exclusive C85_first C85_numbers C85_kept C85_refuted_dead C85_refuted_silent C85_dead_iff C85_progress_partial", R+"The lock is released without defer and held over dialling and login: after a panic while choosing (an expression that does not compile, a negative window size; exactly when: C85_dead_iff) no other send ever gets through (C85_refuted_dead), and while one gateway does not answer no send to any carrier does (C85_refuted_silent). Proved for all interleavings: one call at a time, each carrier set up at most once and kept (C85_exclusive, C85_kept), the first carrier that takes the number (C85_first, C85_numbers), and without panics and silent gateways every call can finish (C85_progress_partial).")
claim("C86","partial","C86_once C86_one_place C86_document C86_kept C86_saved_partial C86_refuted_lost C86_refuted_insert C86_refuted_refused C86_refuted_shutdown", R+"A batch the pool refuses or the database fails on is never written later (C86_refuted_refused, C86_refuted_insert, C86_refuted_lost); at shutdown what is still in the query cache is not written (C86_refuted_shutdown); documents are not updated by later answers (C86_kept). Proved for all runs: nothing is stored twice (C86_once), every result is in exactly one of cache, queue, database, lost (C86_one_place), a document shows the result as it stood at the write with its send's query id, number and key (C86_document), and with a pool and database that take everything an expired send is stored completely (C86_saved_partial).")
claim("C87","partial","C87_refuted_debug C87_refuted_pool C87_refuted_replay_cmpp C87_refuted_replay_smgp C87_password_partial C87_secret C87_secret_sgip C87_client", R+"At debug level every packet is dumped, an SGIP password with it (C87_refuted_debug); the same at error level when the worker pool refuses the login (C87_refuted_pool); and the info line of a CMPP or SMGP login holds all that is needed to log in again (C87_refuted_replay_cmpp, C87_refuted_replay_smgp). Proved: above debug level, with the pool accepting, the lines are the same for any two passwords with the same verdict (C87_password_partial); the stored secret reaches the log at every level only as a digest (C87_secret, C87_secret_sgip), also on the client (C87_client).")
claim("C88","partial","C88_shown_partial C88_rest_hidden_partial C88_parts C88_refuted_debug C88_refuted_pool", R+"At debug level every packet is dumped whole before it is decoded (C88_refuted_debug), at error level when the worker pool refuses it (C88_refuted_pool). Proved for the Log methods of all six message types: exactly the first six octets are shown and nothing else of the line depends on the text; of a part of a long message they are the concatenation header (C88_parts).")
claim("C89","partial","C89_submits C89_handled C89_deliveries C89_built C89_report_partial C89_refuted_report C89_recipients C89_recipients_received_partial", R+"The line of an SGIP report built from fewer than three sequence numbers panics (C89_refuted_report). Proved: all submits, all deliveries received or built, all reports received can be logged; the recipients are listed as given (C89_recipients), at the receiver within the limits of C34.")
claim("C90","partial","C90_all_closed_partial C90_refuted C90_refuted_connecting C90_refuted_sorting C90_unsorted_partial", R+"Whichever hook comes first, and whatever number is configured, the client can connect anew, up to that number, after the hooks have returned: the cancel signal is taken once, a tick still waiting starts another round (C90_refuted); a connection being made meanwhile is kept (C90_refuted_connecting); the closing loop passes over a session while the list is being sorted (C90_refuted_sorting). Proved: if the ticker's hook comes first and its signal finds the maintenance goroutine neither connecting nor sorting nor with a tick waiting, nothing is opened any more and at the end only what refused logins left behind is open (C90_all_closed_partial); in every run in which the list is not being sorted meanwhile the closing hook closes every session that was in the list when it began, even if the list is pruned or replaced under it (C90_unsorted_partial).")
claim("C91","partial","C91_bound_partial C91_refuted C91_half_dropped", R+"A connection whose login is refused is not closed: a gateway that refuses logins leaves the client with any number of open connections (C91_refuted; the runtime's finalizer may close them some time later). Proved for all runs: never more sessions than configured, every open connection belongs to a session of the list or to a refused login, so without refused logins never more connections than configured (C91_bound_partial); a session whose login got no full answer is closed and dropped at the next pruning (C91_half_dropped).")
claim("C92","partial","C92_shown_partial C92_no_more C92_refuted_lost C92_refuted_crash C92_write_partial", R+"When a write fails the parts of that number already on the wire are missing from the query, which crashes if nothing else was sent (C92_refuted_lost, for every such state); a session closed between choosing and writing crashes the process (C92_refuted_crash, for every send and session). Proved for all runs: a finished send without a failing write shows exactly the packets it put on the wire, in order (C92_shown_partial); a query never shows more than that (C92_no_more); a write crashes exactly if the session is closed (C92_write_partial).")
claim("C93","partial","C93_kept_partial C93_answer C93_refuted_sgip C93_refuted_short", R+"SGIP has no heartbeat, an idle SGIP client is always sent the terminate request (C93_refuted_sgip); with a force-close time shorter than one minute and one tick every logged-in connection can be terminated without having been sent a heartbeat (C93_refuted_short). Proved for CMPP and SMGP, all runs in which the server keeps up with its ticks and the client answers before the next tick: no terminate request, ever (C93_kept_partial); the client's reply is the packet the server counts as the answer and as use (C93_answer). The comment in on_tick.go says heartbeats must not prolong the session; the answer to one does.")
claim("C94","partial","C94_message_partial C94_answers C94_refuted_long C32_major_version", R+"With CMPP and SGIP a text of 160 or more ASCII characters reaches the server garbled (C94_refuted_long). Proved for all protocols and all schedules of both programs, when configured and given texts fit their fields and no packet without a body precedes others on the wire (or the network library does not swallow input on one): what the server handles is a subsequence of what the client wrote; every submit it works on belongs to one number of one send, is addressed to exactly this number, and carries exactly the text if it goes into one packet (C94_message_partial); a packet is answered at most as often as it was written (C94_answers).")
claim("C95","partial","C95_refuted C95_digest_partial", R+"Every login packet accepted once is accepted again at any later time on any further connection, as long as the account has connections left (C95_refuted, all protocols). Proved: an accepted digest is good for the time it was made for only, unless md5 gives the two texts that differ in the time only one digest (C95_digest_partial, CMPP and SMGP).")
claim("C96","partial","C96_refuted C96_refuted_stale C96_proof_partial C32_major_version", R+"The client does not look at the digest of the answer: any sixteen octets give a usable session, with every secret (C96_refuted); and the digest is made from status, client id and secret only, so one recorded answer fits every later login (C96_refuted_stale). Proved: the server's answer to an accepted login carries that digest, a client could check it (C96_proof_partial).")
claim("C97","partial","C97_login_partial C97_traffic C97_refuted", R+"SGIP's login packet contains the secret (C97_refuted). Proved: CMPP's and SMGP's login packets are equal for all secrets of the same digest (C97_login_partial), and after the login two clients whose accounts differ in the secret only do the same in every run: packets, results, query answers, panics (C97_traffic, all protocols).")
claim("C98","partial","C98_latest_partial C98_old_refused C98_refuted", R+"A connection that is logged in goes on exactly as if the account had not been changed (C98_refuted: from any state without a login under way, and while none arrives, the run is the same for every later content of the store). Proved: every login that takes effect after a moment at which none was under way carried the credentials of an account as stored at some moment from then on (C98_latest_partial), and a login made with another secret than the stored one is refused (C98_old_refused; for CMPP and SMGP unless md5 gives the two texts that differ in the secret the same digest).")
claim("C99","partial","C99_server C99_client_partial C99_refuted_client C99_refuted_custom C99_custom_partial", R+"The level set for the client's error log has no influence (C99_refuted_client, line 107 reads the default log's level), nor has the level set for any custom log (C99_refuted_custom, the key is built without its dots). Proved: the server's two log files follow their own sections (C99_server); the client's follow theirs but for that level, which is right exactly if both levels are the same (C99_client_partial); every other setting of a custom log is its section's or the documented default (C99_custom_partial).")
claim("C100","partial","C100_normal C100_test_partial C100_refuted C100_refuted_root", R+"As a test, in a path in which the project's name occurs earlier (also as a part of another directory's name) the base path ends there (C100_refuted), and in a path without the name it is the root directory (C100_refuted_root). Proved: started normally it is the working directory (C100_normal); as a test it is the project's directory if its place is the first occurrence of the name (C100_test_partial).")
claim("C101","partial","C101_why C101_once C101_one_verdict C101_refuted_low", R+"CMPP and SMGP logins whose major version is below the account's are told that their version is too high (C101_refuted_low: in every run). Proved of every run: each answer echoes the login's sequence number and its status is that of the first thing wrong, in the order name, major version, secret, number of connections, by the accounts and counts of one moment, 0 exactly if nothing is (C101_why, the verdict is unique: C101_one_verdict; SGIP has one status for an unknown name and a wrong secret); no login is answered twice, and while the connection is open every login received is answered, or its answer is queued, or it waits to be checked (C101_once).")
claim("C102","partial","C102_set_up_partial C102_once C102_no_account C102_own_section C102_unknown C102_choice C102_refuted C102_refuted_window", R+"Unusable settings are not refused: a carrier whose segment is no expression is dialled and set up, and every send that comes to it breaks off from then on (C102_refuted: all such settings); with a negative window size it connects and logs in before it breaks off (C102_refuted_window). Proved: with usable numbers it is set up exactly as its section says and nothing else changes (C102_set_up_partial); once only (C102_once); not without account (C102_no_account); no other section matters, whatever happens (C102_own_section); other names stop the program with nothing done (C102_unknown); choosing a carrier sets up the carriers on the way like this and agrees with the choice of C64 (C102_choice).")
claim("C103","partial","C103_own_events C103_refuted C103_refuted_listener C103_closed_partial", R+"The server registers no shutdown hook: from every state in which the process waits for a signal, the stop in good order ends it with every connection as it was, the open ones open and their statistics not saved, queued answers not written (C103_refuted). The end of one listener ends all services (C103_refuted_listener). Proved: what the connections of a service went through is exactly what their own events did up to the end (C103_own_events); the statistics of each connection closed before the end are saved exactly once (C103_closed_partial).")
claim("C104","partial","C104_number C104_words C104_login_partial C104_submit C104_refuted_state C104_refuted_low", R+"The state of an SGIP report is explained with the results of commands: a message that waits is shown as an illegal login, one that failed as a login twice in one connection (C104_refuted_state: every such report that is decoded). A CMPP or SMGP login whose version is below its account's is shown as refused for too high a version (C104_refuted_low). Proved: the number and the words can be read back and no two codes are shown alike (C104_number); exactly the codes the protocol lists have words, all different (C104_words); the line of a login's answer shows the words for the first thing wrong with it (C104_login_partial) and that of each submit answered in a run of the server the words for its result (C104_submit).")
claim("C105","partial","C105_partial C105_refuted", R+"Whoever can connect to any service ends the whole process, without logging in, with the twelve octets of a login packet without body: from every reachable running state, and nothing is served, closed or shut down in order afterwards (C105_refuted). Proved: in every run the process goes down exactly by an event of this list (C105_partial): on an open connection, a complete packet is handled that is a login or comes from a logged-in client and whose body is not long enough or not consistent for its command (the explicit sets of C46); or the answer is written that grants a login to an account with a negative window. No other octets, order or interleaving end it.")
claim("C106","partial","C106_partial C106_step_partial C106_refuted_sgip C106_refuted_smgp", R+"SGIP delivers and reports are read and dropped without an acknowledgement, in every state of the client (C106_refuted_sgip). An SMGP deliver is acknowledged under a message id the client draws itself, so the acknowledgement is right exactly if that happens to be the id delivered (C106_refuted_smgp). Proved: in every run the log splits into entries that concern no received packet and received packets each directly followed by exactly the octets of the acknowledgement that is due, with these two exceptions, or by none if the session is closed at the end (C106_partial); for one packet, the session is closed exactly after a request or a response to end it, a failed write, or an SMGP text that cannot be decoded, and nothing but its activity time changes otherwise, other sessions and tasks untouched (C106_step_partial). Packets that crash the client are the subject of C73.")
claim("C107","partial","C107_answers C107_partial C107_finishes C107_received C107_refuted", R+"A client that logs in again on the same connection while a request waits for a slot of the window loses the answer: the goroutine dies on the closed channel, the connection stays open, and no continuation answers the request (C107_refuted). Proved, for every run: every answer is exactly the due octets for a request that was taken in, each request is answered at most once, and after the answer to a request to end the server has asked for the connection to be closed (C107_answers). When no login takes effect while a packet waits or is processed (at most one login suffices), on an open connection taken in = answered + queued + in hand (C107_partial), the goroutines and the event loop can always finish so that each is answered exactly once (C107_finishes), and a request that arrives on a logged-in session is taken in without the rate limiter (C107_received).")
claim("C108","proved","C108_alike C108_ends_alike", "For every pair of servers that differ in the secrets and the digest function only and whose login digests agree (the client's proof for every time, the server's proof for the status 0), every run of the one is matched by the run of the other over the same events: same octets written, same buffers, sessions, windows, goroutines, queued packets and closing, and logs that differ in the secrets of the accounts logged in only; for SGIP as long as no bind packet received has a password that starts with one of the secrets (C108_alike). A CMPP or SMGP server survives the events with the one store exactly if it does with the other (C108_ends_alike). What goes to the log files is C87. Timing is not modelled.")
claim("C109","partial","C109_each C109_bound C109_only_partial C109_refuted_held C109_refuted C109_refuted_forever C109_resumes_partial", R+"The session's pool makes the caller of Submit wait, and the caller is the event loop: for every window size w a client that sends 2w+1 packets while the first 2w are being worked on stops the loop for all its connections; until a goroutine of that client is done nothing is read, written, accepted or closed, whatever the others do (C109_refuted, C109_refuted_held). After two re-logins with packets under way all goroutines of the pool can wait for slots nobody gives back: then nothing happens on any connection of the loop in any continuation (C109_refuted_forever, window 1). Proved: each connection of a loop does what it could do alone, so all connection theorems hold (C109_each); a client has at most twice its window of goroutines at work per login (C109_bound); the loop begins to wait only for a logged-in client with that many (C109_only_partial); if that client logged in once, its own goroutines can always get the loop going again, the packet is handled and the other connections are as they were (C109_resumes_partial). Time is not modelled.")
claim("C110","partial","C110_counted C110_belongs_partial C110_refuted_sent C110_refuted C110_refuted_sgip", R+"Whether a submit asks for a report is not looked at, nor how many recipients it has: in every reachable open, logged-in state with room in the window and nothing queued, every CMPP or SMGP submit that is let through and taken is followed by its answer and exactly one report, about the first recipient (C110_refuted_sent, and a finished run in C110_refuted); SGIP has reports and none is ever sent (C110_refuted_sgip). Proved of every run: at any moment, for any set of message ids, there are no more reports about such ids than positive answers that gave such ids, and no more for one submit packet than times it was taken (C110_counted); each report follows the answer to a submit of this connection with status 0, carries the id of that answer, the first recipient's number (also in its content) and goes to the number the submit came from (C110_belongs_partial; for CMPP 2 submits of up to 12 recipients, see C34). Simulated incoming messages are taken not to look like reports (C77).")
claim("C111","partial","C111_idle_partial C111_tested_partial C111_answered_partial C111_refuted_silent C111_refuted_unnoticed C111_refuted_flood C111_apart", R+"ActiveTest never returns an error and nobody counts its answers. For every state and every continuation without a packet received on the session, a Close of it or a message that cannot be written, the session stays usable and every check says so (C111_refuted_silent); two runs that differ only in which heartbeats could be written have the same sessions, results and verdicts (C111_refuted_unnoticed); in every reachable state in which a session is idle, n checks at one moment send n heartbeats, for every n (C111_refuted_flood). What holds: in every run under a clock that does not go back a heartbeat goes only to a usable session of CMPP or SMGP for which every earlier packet, send and the login lie more than a minute back (C111_idle_partial), and there a check does write it (C111_tested_partial); the server's framing takes it as a heartbeat, and the answer C107 asks for counts as use and changes nothing else (C111_answered_partial); the client's own run is not touched by the checks (C111_apart).")
claim("C112","partial","C112_partial C112_refuted_exact C112_refuted C112_refuted_reset C112_quiet_partial C112_once C112_handlers C112_sending", R+"Close clears the connection and the account while others may be between looking at the session and using it; a method of a nil connection or a field of a nil account then panics, in a goroutine nobody recovers. For every set of goroutines with one that uses the session (a sender, the receiver, a check of an idle CMPP or SMGP session) and one that closes it, an interleaving crashes the client (C112_refuted); a sender and the receiver are enough when the peer goes away (C112_refuted_reset). Proved, the exact condition: a run in which the connection field is cleared only while no other goroutine is exposed never crashes (C112_partial), and whenever it is cleared with one exposed, some continuation crashes (C112_refuted_exact). Closing while all others rest (before their next look, or blocked in Read) is safe for ever after and ends the blocked receiver (C112_quiet_partial). In every run the connection is closed at most once, before the fields are cleared, which stay cleared (C112_once). The accesses of the handlers agree with ClientModel (C112_handlers). A sender alone with the session closes it, once, and writes no further part if a part cannot be written; a failed heartbeat changes nothing (C112_sending).")
claim("C113","partial","C113_partial C113_refuted C113_refuted_lost C113_refuted_many C113_refuted_long", R+"The reference of a long message is the low byte of the nanosecond clock and nothing sees to it that two messages differ. For every two long messages with as many parts and the same low byte there is an order of arrival in which both shown texts are mixed from the two (C113_refuted), and when their parts arrive in turns only one is shown (C113_refuted_lost); of any 257 long messages with as many parts two are in that position (C113_refuted_many). A text of more than 255 parts is cut with numbers that wrap; whatever of it arrives, no shown text is as long as it (C113_refuted_long). Proved: any number of long messages that differ in the low byte or in the number of parts (at most 255 each) are, in every order of arrival, each shown exactly once, as their parts make them up, and nothing stays waiting (C113_partial; what the parts make up is C01). All messages are between the same two parties.")
claim("C114","partial","C114_got C114_partial C114_refuted_exact C114_refuted C114_one_left", R+"PeekSession reads the length of the list and then its first element without the lock; if the maintenance drops the last session in between, the read of the first element panics. From every reachable state with sessions whose list is being maintained a continuation crashes a new sender (C114_refuted). The exact condition: only the step that drops unusable sessions can empty the list, a sender between the two reads then crashes with its next statement (C114_refuted_exact), and a run in which this never happens with a sender between the reads does not crash (C114_partial); one session of the list that stays usable and no stop of the client are enough (C114_one_left). In every run a session given to a sender can be used at that moment and is in the list (C114_got). At source level each read of the field is a step; a compiler may merge some.")
claim("C115","partial","C115_partial C115_few C115_refuted C115_refuted_silent C32_too_many_numbers", R+"The server closes a connection on any packet above 5120 octets, and the library builds longer ones without a word: from 155 numbers on (CMPP 3.x) or 238 (CMPP 2.x, SGIP, SMGP) every packet of every text closes the connection, although the protocols allow 255 numbers (C115_refuted). Above 255 numbers CMPP panics (C32_too_many_numbers) and SMGP builds messages whose encoding is empty (C115_refuted_silent). Proved: the exact length of every frame and that it is handed on whole up to 5120 octets and shuts the connection above (C115_partial); up to 149 numbers (CMPP 3.x), 229 (CMPP 2.x, SGIP) or 230 (SMGP) every packet of every text is handed on (C115_few), in particular those of the client, which submits to one number at a time. What the decoders make of the packet is C34, C39 and C43.")
claim("C116","partial","C116_partial C116_read C116_refuted C116_refuted_over C116_refuted_smgp", R+"Both FormatTime and MtAtTime write the local clock reading and then the fixed suffix 032+ (eight hours ahead of UTC): on every clock that is not at +8 h, both times denote another instant (C116_refuted; the exact shift in C116_read); west of China a validity not longer than the difference of the clocks, e.g. up to eight hours on UTC, is over when the message is sent (C116_refuted_over). SMGP drops the result of Add and overwrites the option: the validity is the second the packet is built in, whatever was configured (C116_refuted_smgp). Exact part: on clocks at +8 h CMPP and SGIP name exactly the second asked for, in the 21st century (C116_partial).")
claim("C117","partial","C117_stamp C117_accepted C117_partial C117_refuted C117_refuted_back", R+"The stamp has no year and is the local clock reading: it comes again a year later for every instant not on a 29th of February (C117_refuted), and after clocks are put back (C117_refuted_back). Exact part: form and value of the stamp at every instant (C117_stamp), acceptance at every instant (C117_accepted), different stamps in different seconds less than 365 days apart while the offset stays the same (C117_partial).")
claim("C118","partial","C118_made C118_partial C118_refuted_exact C118_refuted C118_refuted_restart", R+"The counter starts at 0 in every minute that differs from the one before, so the ids of a minute come again whenever clocks show that minute again (C118_refuted_exact): after clocks are put back and a year later (C118_refuted), and when the process is started again within the minute (C118_refuted_restart). Exact part: the minute in every id (C118_made); on clocks that are not changed and less than a year apart, two equal ids are of the same minute and at least a million ids apart, also over New Year (C118_partial).")
claim("C119","partial","C119_exact C119_partial C119_refuted C119_refuted_back", R+"The 513th call in a second waits for a later second of the day as the local clock shows it, holding the lock all other calls need: in the second before clocks are put back it is not answered within the time they are put back by, e.g. an hour (C119_refuted_back); in the last second of a day never (C119_refuted, all zones). Exact condition in C119_exact; on clocks that are not changed and before the last second of the day it returns with the next second (C119_partial).")
claim("C120","proved","C120_kinds C120_counted C120_distinct", "By the octets written, for every run in which the identifiers have their fixed widths and the simulated incoming messages are delivers (C77).")
claim("C121","partial","C121_check C121_partial C121_refuted_sent C121_refuted", R+"The packet checks compute the right condition (C121_check, on the octets) and drop it: the result is 0 in any case. So every well-formed submit that is let through is taken, whatever its number and priority (C121_refuted_sent, every reachable state with room; C121_refuted, a case for each protocol). What holds: the status of an answer is 0 or one of those for too much load, never one for the number (C121_partial).")
claim("C122","partial","C122_kept_partial C122_partial C122_refuted C122_refuted_interval", R+"The sweeper looks at the first packet of a send only: a round that comes when its time has passed takes the results of all packets, also of one sent later whose own time has not passed, in every run and for every cache time (C122_refuted). A negative check interval ends the client when the sweeper starts; every other interval is taken (C122_refuted_interval). Proved for all runs: the id goes on finding the same packets (number, key, time of sending) exactly as long as no round has read a clock beyond the cache time after the first packet (C122_kept_partial); with the sweeper on its ticker it finds them up to that time and nothing from one check interval later on (C122_partial). Assumed: the query id is used once (C13), rounds take no time. What the results say by then is C57, C58 and C70.")
claim("C123","partial","C123_cmpp_partial C123_smgp_partial C123_order_partial C123_refuted", R+"The done time is a time still to come in every SMGP report, and in a CMPP report exactly when it is made in the last ten seconds of a minute (C123_refuted). Proved for every report after the wire: its times read back as the minute it was made and the minute ten seconds (CMPP) or one minute (SMGP) later, the SMGP deliver's time to the second (C123_cmpp_partial, C123_smgp_partial); the done time is never before the submit time on clocks that are not changed (C123_order_partial).")
claim("C124","partial","C124_bound C124_round C124_partial C124_resumes_partial C124_refuted C124_refuted_reached", R+"Sends and the journal share one pool whose Submit waits: while all workers are busy with sends that do not end, the sweeper stays in the handler, whatever else happens: no batch is taken, no round is finished, the results it has not yet deleted can still be asked for and the other two caches are not cleaned (C124_refuted; the state is reached with every pool size, C124_refuted_reached). Proved: never more jobs at once than configured, at least ten (C124_bound); a round that is over, however it was held up, has freed and handed over exactly what the sweeper of ClientModel does in one step, so that C60, C72, C86 and C122 carry over (C124_round); while a worker is free whenever the sweeper moves, a round is over after a number of its statements that depends on the number of results only (C124_partial); as soon as one job ends the pool takes the batch the sweeper is held with, or the next waiting send, and nothing else changes (C124_resumes_partial).")
claim("C125","partial","C125_uri_partial C125_refuted C125_refuted_places C125_refuted_name C125_partial", R+"Every connection made with a setting that has a place for the password, like the shipped one, logs the address with the password in it (C125_refuted, C125_refuted_places with the exact line). The places are filled one after the other, so a user name that contains the password's place is changed (C125_refuted_name). Proved: with user names without a less-than sign the driver is given the setting with each place filled, for every password; with a credential missing nothing is tried (C125_uri_partial); without a place for the password, or when the connection fails with any given words, the log does not depend on the password (C125_partial).")
claim("C126","proved","C126_one_by_one C126_cycle C126_long C126_short C126_sgip C126_bcd", "For every interleaving of any number of goroutines the values are those of one call after the other (C126_one_by_one, the assumption behind C09-C17), so packet numbers (C126_cycle), 64-bit and 32-bit ids (C126_long, C126_short), BCD ids (C126_bcd) and SGIP counts (C126_sgip) keep their uniqueness and order.")
claim("C127","partial","C127_partial C127_refuted", R+"The value is read without the lock: whenever two calls fall in different seconds, a read during the second shows the new count with the old time, which neither call hands out (C127_refuted, for every generator). Proved for every run: while nobody holds the lock the current value is the last one handed out (C127_partial).")
claim("C128","partial","C128_files_partial C128_db_partial C128_never_lost C128_free_partial C128_refuted C128_refuted_twice", R+"The database store reads its documents while it holds the lock: until a document or the end of the cursor comes no lookup of anybody is answered (C128_refuted, every run). With two readable files for a client a lookup between them finds the first one's entry although the second one's is there before and after (C128_refuted_twice). Proved for every interleaving: a client with one readable file is found as before and then as after, one without a file as before (C128_files_partial); in the database store all lookups up to one moment see the store before and all later ones the store after (C128_db_partial); who was once found is found at every later moment over any number of reloads (C128_never_lost); a lookup at the file store is answered after at most two statements of the lock's holder and three of its own, no file being read meanwhile (C128_free_partial).")
claim("C129","partial","C129_off C129_partial C129_refuted_anywhere C129_refuted_reached C129_refuted_ends C129_refuted_same", R+"It listens on every address of the machine: while it is open everybody is answered (C129_refuted_anywhere, every run; C129_refuted_reached). If it cannot be opened, because of another process or of one of the services, the process ends with all its services at whatever moment that is (C129_refuted_ends); set to the port of a service, the process has ended in every run in which both have been at the port (C129_refuted_same). Proved: switched off it is not there and its port setting changes nothing (C129_off); with free and different ports, and while no listener fails by itself, the process goes on and everyone who has been at its port serves there (C129_partial).")
claim("C130","partial","C130_partial C130_still_partial C130_refuted_changes C130_refuted_journal C130_refuted_ends", R+"A query returns the stored list itself, with pointers to the results: every answer to one of its packets changes what the application already holds (C130_refuted_changes); what the application writes into a result is what later queries show and what the journal is given (C130_refuted_journal); another value in the first place makes the send unknown and the next round of the sweeper end the client (C130_refuted_ends), all three in every run. Proved: an application that only looks changes nothing, the run is that without its queries (C130_partial); what it holds stays as it is while nobody writes into it and nothing is booked on its results, also over the round that takes it out of the cache (C130_still_partial). Not in the model: two goroutines reading and writing one result in the same moment.")
claim("C131","partial","C131_snowflake_partial C131_seconds C131_cycle C131_cycle_same C131_sgip C131_refuted_fresh C131_refuted_late C131_refuted_torn", R+"A 64-bit generator that was not called yet shows a text with a minus sign (C131_refuted_fresh); past its 41 bits of time it returns 0 and shows an identifier of the last millisecond that fitted (C131_refuted_late, every such call). The texts take no lock: read while the SGIP generator assigns its fields the text is neither that of the value before nor of the value after, and after the month is stored it is that of no value any SGIP generator hands out (C131_refuted_torn, every call). Proved for every state, between calls: the text is the hexadecimal form of the identifier returned last while the clock is within the 41 bits (C131_snowflake_partial), the same without condition for the 32-bit generator (C131_seconds); the cyclic generator shows its node numbers and the counter part, and its texts agree exactly when its numbers do (C131_cycle, C131_cycle_same); the SGIP text is that under which a packet with the value is recorded, and different values have different texts (C131_sgip).")
claim("C132","proved","C132_text C132_logged C132_told_apart")
claim("C133","partial","C133_exact_partial C133_created C133_otherwise C133_refuted_panics C133_refuted_whole", R+"The text of a submit decides by the length field and cuts the decoded content: for every last part of a long message with one to five octets it panics when the slice has no room behind its content (C133_refuted_panics); with such room it shows octets that are not of the message, and a length of at most six with a longer decoded content is shown in full (C133_otherwise). The text of a delivery shows the whole message (C133_refuted_whole, every delivery that is no report); it never panics. Proved: a submit shows exactly the first six octets, or all of a shorter content, if and only if the length field and the decoded content are on the same side of six (C133_exact_partial); every packet NewSubmit makes does (C133_created).")
claim("C134","partial","C134_report C134_cmpp_partial C134_smgp C134_sgip C134_numbers C134_refuted_found C134_refuted_number", R+"CMPP shows the id in the answer's line with sixteen digits and in the report's line without leading zeros: for every id the server's own generator hands out until 2^38 ms after 2020 the two texts differ (C134_refuted_found). The line of a CMPP delivery shows, as the number it was sent to, the service id of the packet (C134_refuted_number, every delivery). Proved: CMPP texts agree up to leading zeros exactly for the same message, and are the same text exactly from 2^60 on (C134_cmpp_partial); the six words of a report's text (C134_report); SMGP and SGIP texts are the same exactly for the same message (C134_smgp, C134_sgip: the SGIP number without the node part says only the two other parts); the other numbers of a delivery stand in its line as in the packet (C134_numbers).")
claim("C135","partial","C135_cmpp C135_sgip C135_smgp C135_cmpp_deliver C135_sgip_deliver C135_smgp_deliver C135_length_partial C135_refuted_length C135_refuted_service", R+"In CMPP 2.x the octets of the recipients are counted modulo 256: from thirteen recipients on the line shows an octet of a recipient's number as the length of the text (C135_refuted_length, every such submit that is read at all). The line of a CMPP delivery never shows its service (C135_refuted_service; for the number it was sent to see C134). Proved for every packet received: all other fields of the CMPP line of both versions, with the length and the link of version 3 (C135_cmpp), the length in version 2 for up to twelve recipients (C135_length_partial), all fields of the SGIP and SMGP lines (C135_sgip, C135_smgp), the other fields of deliveries and reports (C135_cmpp_deliver, C135_sgip_deliver, C135_smgp_deliver). The recipients are in C89, the text in C88, the optional parameters in C132, the SGIP number in C134.")
