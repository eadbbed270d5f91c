{"id": "C01", "title": "Splitting a long message loses and alters nothing", "statement": "Splitting any content into short-message parts and concatenating the parts' bodies (the part minus its 6-byte concatenation header) in order gives back exactly the original bytes.", "quantifier": "every byte content of every length, every package size > 6", "why_tests_cant": "The failure depends on the remainder of the content length by the part size and on the actual bytes of the first and last part; tests only print a few slices.", "anchors": ["utils/utils.go:ToTPUDHISlices", "utils/utils.go:MsgSlices"]}
{"id": "C02", "title": "Every part of a split message is well formed", "statement": "When a message is split, every part starts with 05 00 03, carries the same group reference, the true total number of parts and its own 1-based number, and is no longer than the package size; the number of parts is the least that can hold the content.", "quantifier": "every content and package size; up to 255 parts", "why_tests_cant": "The claim is over all lengths; the 256-part wrap-around and exact multiples are rare inputs.", "anchors": ["utils/utils.go:ToTPUDHISlices"]}
{"id": "C03", "title": "A message that fits into one package is sent as one package, unmodified", "statement": "If the encoded content is not longer than the package size, splitting returns the content itself as its only part with no concatenation header.", "quantifier": "every content of length 0..package size, boundary included", "why_tests_cant": "Only the exact boundary length distinguishes the right and wrong programs.", "anchors": ["utils/utils.go:ToTPUDHISlices"]}
{"id": "C04", "title": "Message format selection", "statement": "The automatic format of a text is 8 (UCS-2) if it contains a character that needs more than one UTF-8 byte, and 0 (ASCII) otherwise, so no text whose characters need UCS-2 is sent as ASCII.", "quantifier": "every valid UTF-8 string", "why_tests_cant": "Quantifies over all Unicode strings.", "anchors": ["utils/utils.go:MsgFmt"]}
{"id": "C05", "title": "UTF-8 to UCS-2 conversion is lossless and rejects bad input", "statement": "Converting any valid UTF-8 text to UCS-2 (UTF-16BE) and back yields the same text; text that is not valid UTF-8 is rejected with an error.", "quantifier": "every byte string", "why_tests_cant": "Over a million code points and all their combinations.", "anchors": ["utils/utils.go:Utf8ToUcs2", "utils/utils.go:Ucs2ToUtf8"]}
{"id": "C06", "title": "Fixed-width string fields", "statement": "Padding a text to a fixed width always yields exactly that many bytes; trimming a padded text at its first NUL gives the text back when it fits and has no NUL; trimming never invents bytes and is idempotent.", "quantifier": "every string and width", "why_tests_cant": "Quantifies over all strings and widths, including longer than the width.", "anchors": ["utils/utils.go:OctetString", "utils/utils.go:TrimStr"]}
{"id": "C07", "title": "BCD conversion", "statement": "Packing an even-length string of decimal digits to BCD and unpacking it gives the string back; packing never yields a nibble above 9, whatever the input.", "quantifier": "every string of any length", "why_tests_cant": "Quantifies over all strings; odd lengths and non-digits behave differently.", "anchors": ["utils/bcd_sequence.go:StoBcd", "utils/bcd_sequence.go:BcdToString"]}
{"id": "C08", "title": "Numeric rendering is exact, fixed width and injective", "statement": "Fixed-width decimal and 8/16-digit hexadecimal renderings have exactly the stated width, denote the number, and two different numbers in range never render alike.", "quantifier": "every uint32/uint64 value; every width", "why_tests_cant": "2^64 values; message correlation relies on injectivity.", "anchors": ["utils/utils.go:Uint64HexString", "utils/utils.go:Uint32HexString", "utils/utils.go:TimeStamp2Str", "utils/bcd_sequence.go:IntToFixStr"]}
{"id": "C09", "title": "Packet sequence numbers do not repeat within the period", "statement": "Any 2^26 consecutive values handed out by one cyclic sequence generator are pairwise different, whichever the starting point, for any number of concurrent callers.", "quantifier": "every initial state, datacenter and worker, every window of 2^26 calls", "why_tests_cant": "A window of 67 million calls from any state, over any history.", "anchors": ["utils/cycle_sequence.go:NextVal"]}
{"id": "C10", "title": "Two nodes never hand out the same packet sequence number", "statement": "Cyclic sequence generators configured with different (datacenter, worker) pairs within the documented ranges (4 datacenters x 8 workers) never produce the same value.", "quantifier": "every two distinct node configurations and every two histories", "why_tests_cant": "Depends on 32-bit overflow of the shifted node id for configurations no test uses.", "anchors": ["utils/cycle_sequence.go:NewCycleSequence", "utils/cycle_sequence.go:NextVal"]}
{"id": "C11", "title": "64-bit message ids strictly increase", "statement": "While the clock does not go backwards and stays in range, each 64-bit id is strictly greater than every id the generator returned before, even across more than 4096 ids in one millisecond.", "quantifier": "every sequence of clock readings that never decreases, any number of calls", "why_tests_cant": "All clock traces; unit tests cannot control the clock nor exhaust the per-millisecond sequence.", "anchors": ["utils/snowflake/snowflake.go:NextVal"]}
{"id": "C12", "title": "64-bit message ids identify their origin", "statement": "Parsing an id gives back the datacenter, worker, timestamp and sequence it was made from; ids from generators with different node numbers never coincide.", "quantifier": "every in-range datacenter, worker, time and sequence", "why_tests_cant": "2^63 ids.", "anchors": ["utils/snowflake/snowflake.go:NextVal", "utils/snowflake/snowflake.go:Parse"]}
{"id": "C13", "title": "64-bit message ids are unique under any clock", "statement": "A generator never returns the same id twice, even when the system clock is set back.", "quantifier": "every sequence of clock readings", "why_tests_cant": "Needs a clock that steps backwards, which tests cannot arrange.", "anchors": ["utils/snowflake/snowflake.go:NextVal"]}
{"id": "C14", "title": "32-bit ids are unique within a day and identify their origin", "statement": "Within one day (clock not going backwards) a 32-bit generator never repeats an id, ids strictly increase, and parsing an id returns its second of day, datacenter, worker and sequence.", "quantifier": "every non-decreasing trace of seconds of one day", "why_tests_cant": "All clock traces and more than 512 ids per second.", "anchors": ["utils/snowflake32/snowflake32.go:NextVal", "utils/snowflake32/snowflake32.go:Parse"]}
{"id": "C15", "title": "The 32-bit generator always answers", "statement": "A call for the next 32-bit id eventually returns as long as the clock keeps running.", "quantifier": "every state and every running clock", "why_tests_cant": "The failing state exists only in the last second of a day after 512 calls.", "anchors": ["utils/snowflake32/snowflake32.go:NextVal"]}
{"id": "C16", "title": "BCD message ids", "statement": "Every BCD message id is exactly 10 bytes of decimal nibbles made of the worker number, the month/day/hour/minute and a 6-digit counter; ids made by one generator are different for up to one million ids per minute while the clock does not go back within a year.", "quantifier": "every worker string, every clock trace", "why_tests_cant": "All histories of up to a million ids per minute.", "anchors": ["utils/bcd_sequence.go:NewBcdSequence", "utils/bcd_sequence.go:NextVal"]}
{"id": "C17", "title": "SGIP sequence numbers", "statement": "One SGIP node hands out 2^32 consecutive different counters, each carrying the node number, so no two of those sequence numbers are equal; node number and timestamp are passed through unchanged.", "quantifier": "every node, start state and clock trace", "why_tests_cant": "2^32 consecutive calls with modular wrap-around.", "anchors": ["codec/sgip/sequence.go:NextVal"]}
{"id": "C18", "title": "TLV lists survive the wire", "statement": "Writing a list of optional (type, value) parameters and reading the bytes back yields the same list in the same order.", "quantifier": "every list of TLVs, any number, any values up to 65535 bytes, zero-length values included", "why_tests_cant": "All lists of all byte strings.", "anchors": ["utils/tlv.go:Write", "utils/tlv.go:Read", "utils/tlv.go:WriteObject", "utils/tlv.go:ReadObject"]}
{"id": "C19", "title": "Truncated TLV data is reported", "statement": "Reading a TLV byte stream that was cut in the middle of a record returns an error instead of silently returning the complete records only.", "quantifier": "every TLV list and every cut position that is not a record boundary", "why_tests_cant": "All cut points of all encodings; only certain cut positions fail.", "anchors": ["utils/tlv.go:Read", "utils/tlv.go:ReadObject"]}
{"id": "C20", "title": "TLV list editing", "statement": "Adding appends; looking up returns the first record of the type or not-found; looking up all returns exactly those in order; removing a type (or a record) deletes exactly the matching records, keeps all others in order and returns how many were deleted.", "quantifier": "every list, type and record, every sequence of edits", "why_tests_cant": "All lists with any pattern of repeated types.", "anchors": ["utils/tlv.go:Get", "utils/tlv.go:GetAll", "utils/tlv.go:Remove", "utils/tlv.go:RemoveObject", "utils/tlv.go:AddObject"]}
{"id": "C21", "title": "Event registry semantics", "statement": "Within one goroutine the registry behaves as a map: the first registration of a key with at least one handler succeeds and later ones are refused without effect until the key is deleted; calling a key runs all handlers of its successful registration, in order, exactly once; calling an absent key runs nothing.", "quantifier": "every sequence of register/get/call/delete operations", "why_tests_cant": "All operation histories.", "anchors": ["event_manager/event_manage.go:Register", "event_manager/event_manage.go:Call", "event_manager/event_manage.go:Delete", "event_manager/event_manage.go:Get"]}
{"id": "C22", "title": "Prefix calls hit exactly the registry's own keys", "statement": "Calling all events of one registry runs every event registered through a registry with that prefix exactly once and no event whose key does not start with the prefix.", "quantifier": "every registry content and prefix", "why_tests_cant": "All contents of the process-wide table shared by registries.", "anchors": ["event_manager/event_manage.go:FuzzyCall"]}
{"id": "C23", "title": "Concurrent registration of one key has one winner", "statement": "If several goroutines register the same key at once, exactly one call reports success and its handlers are the ones that run.", "quantifier": "every interleaving of concurrent registrations", "why_tests_cant": "Depends on a schedule between a lookup and a store.", "anchors": ["event_manager/event_manage.go:Register"]}
{"id": "C24", "title": "Shutdown hook signals once after the hooks", "statement": "A shutdown hook with a cancel channel runs the registered hooks in order and then makes the channel readable; shutting down again does not block.", "quantifier": "every hook list and every number of shutdowns", "why_tests_cant": "Depends on the channel's history.", "anchors": ["event_manager/event_manage.go:RegisterShutdownHookerAddChan"]}
{"id": "C25", "title": "Submit options: last valid setting wins", "statement": "For every list of submit options each parameter ends up with the value of the last option that set it; out-of-range values of range-checked options leave the parameter unspecified; parameters not mentioned stay unspecified.", "quantifier": "every list of options in every order", "why_tests_cant": "All sequences of options.", "anchors": ["codec/options_mt.go:LoadMtOptions", "codec/options_mt.go:MtFeeUsertype", "codec/options_mt.go:MtNeedReport"]}
{"id": "C26", "title": "Submit options override the account configuration, otherwise the account configuration applies", "statement": "For each parameter (need-report, priority, fee user type, fee type, fee code, link id, service id, schedule times, sub-number) a submit built with an explicit option carries the option's value and one built without it carries the account's configured value.", "quantifier": "every account configuration and option list, three protocols", "why_tests_cant": "All combinations of options and configuration; the default sentinel must never leak on the wire.", "anchors": ["codec/cmpp/submit.go:setOptions", "codec/sgip/submit.go:SetOptions", "codec/smgp/submit.go:SetOptions"]}
{"id": "C27", "title": "A prepared option set can be passed as an option", "statement": "Passing a prepared option structure as a submit option makes the submit use its values.", "quantifier": "every prepared option structure", "why_tests_cant": "No test reads back the loaded options.", "anchors": ["codec/options_mt.go:WithMtOptions"]}
{"id": "C28", "title": "Packet headers survive the wire", "statement": "For each protocol, encoding a header with any length, command and sequence and decoding it (both with the protocol's decoder and the generic head reader) returns the same values; the encoded length is never below the header size.", "quantifier": "all 32-bit field values, three protocols", "why_tests_cant": "2^96 headers.", "anchors": ["codec/packer.go:UnpackHead", "codec/cmpp/header.go:Encode", "codec/sgip/header.go:Encode", "codec/smgp/header.go:Encode"]}
{"id": "C29", "title": "CMPP login request on the wire", "statement": "Every CMPP connect request built for an account encodes to the 39-byte layout of the protocol and decodes to the same client id, authenticator, version and timestamp.", "quantifier": "every account, time", "why_tests_cant": "All ids, digests and timestamps.", "anchors": ["codec/cmpp/connect.go:NewConnect", "codec/cmpp/connect.go:Encode", "codec/cmpp/connect.go:Decode"]}
{"id": "C30", "title": "CMPP login authentication", "statement": "The server accepts a CMPP connect request exactly when the account exists, the major version matches and the authenticator is the MD5 of id, 9 zero bytes, secret and the 10-digit timestamp; a request built by the client from the same account data is always accepted; with a wrong version/digest/account the specified error code is returned.", "quantifier": "every account, request, digest function", "why_tests_cant": "All requests and secrets; tests use one account.", "anchors": ["codec/cmpp/connect.go:Check", "codec/cmpp/connect.go:NewConnect"]}
{"id": "C31", "title": "CMPP login response on the wire", "statement": "A CMPP connect response round-trips status, authenticator and version for both 2.x and 3.x, has the 30 or 33 byte layout, and carries the server digest only if the login succeeded.", "quantifier": "every status code below 256, every version and request", "why_tests_cant": "All statuses, versions and digests.", "anchors": ["codec/cmpp/connect.go:ToResponse", "codec/cmpp/connect.go:ConnectResp.Encode", "codec/cmpp/connect.go:ConnectResp.Decode"]}
{"id": "C32", "title": "CMPP submit wire layout", "statement": "Every CMPP submit of at most 255 numbers encodes without panic into exactly TotalLength bytes following the protocol's field table for 2.x and 3.x; over-long text fields are cut at the field width and never spill into other fields.", "quantifier": "every submit content, number list (0..255), text field of any length, both versions", "why_tests_cant": "All field contents and lengths; layouts depend on the number count.", "anchors": ["codec/cmpp/submit.go:Encode", "codec/cmpp/submit.go:NewSubmit"]}
{"id": "C33", "title": "CMPP submit survives the wire", "statement": "Decoding an encoded CMPP submit returns the packet numbering, flags, fee fields, source, times, content length, format and the text that was submitted.", "quantifier": "every well-formed submit with 1..255 numbers and every content, both versions", "why_tests_cant": "All field values; several fields fail only for particular sizes.", "anchors": ["codec/cmpp/submit.go:Encode", "codec/cmpp/submit.go:Decode"]}
{"id": "C34", "title": "CMPP submit to many numbers", "statement": "A CMPP submit to n numbers (n up to 100, as the protocol allows) decodes on the receiving side whatever n is, for both protocol versions.", "quantifier": "every n from 1 to 100, both versions", "why_tests_cant": "Fails only from 13 numbers in 2.x; needs a sweep of sizes for arbitrary contents.", "anchors": ["codec/cmpp/submit.go:Decode"]}
{"id": "C35", "title": "CMPP submit/deliver responses, heartbeat and terminate on the wire", "statement": "Submit and delivery responses (both versions), active test and terminate packets decode to the values they were encoded from and have the protocol's length.", "quantifier": "all message ids and result codes, both versions", "why_tests_cant": "All 64-bit ids and 32-bit results.", "anchors": ["codec/cmpp/submit.go:SubmitRsp", "codec/cmpp/delivery.go:DeliveryRsp", "codec/cmpp/active.go", "codec/cmpp/terminate.go"]}
{"id": "C36", "title": "CMPP delivery (MO) survives the wire", "statement": "Decoding an encoded CMPP delivery returns the message id, destination number, service id, source number, format, length, content and link id it was built from.", "quantifier": "every delivery, both versions, every text", "why_tests_cant": "All field values; tests do not compare decoded fields.", "anchors": ["codec/cmpp/delivery.go:NewDelivery", "codec/cmpp/delivery.go:Encode", "codec/cmpp/delivery.go:Decode"]}
{"id": "C37", "title": "CMPP delivery report survives the wire", "statement": "A status report embedded in a CMPP delivery decodes to the same message id, status text, times, destination and SMSC sequence, and its id is the id given to the submit's response.", "quantifier": "every submit and every result value, both versions", "why_tests_cant": "All ids and values.", "anchors": ["codec/cmpp/report.go", "codec/cmpp/submit.go:ToDeliveryReport"]}
{"id": "C38", "title": "SGIP session packets on the wire", "statement": "SGIP bind, bind response, unbind and generic responses follow the protocol layout and decode to the values they were encoded from; a bind built by the client is accepted by the server exactly when the account's login name and password match.", "quantifier": "every account and request", "why_tests_cant": "All names and passwords.", "anchors": ["codec/sgip/bind.go", "codec/sgip/unbind.go"]}
{"id": "C39", "title": "SGIP submit wire layout and round trip", "statement": "Every SGIP submit whose fields fit encodes to its announced length following the field table and decodes to the same values.", "quantifier": "every well-formed submit with 1..255 numbers and any content", "why_tests_cant": "All field values and number counts.", "anchors": ["codec/sgip/submit.go:Encode", "codec/sgip/submit.go:Decode"]}
{"id": "C40", "title": "SGIP deliver and report survive the wire", "statement": "SGIP deliver and report packets decode to the values they were encoded from, and a report packet carries the report command.", "quantifier": "every deliver and report", "why_tests_cant": "All field values.", "anchors": ["codec/sgip/deliver.go", "codec/sgip/report.go"]}
{"id": "C41", "title": "An over-long text field cannot corrupt neighbouring fields", "statement": "In every protocol, encoding a packet with a text field longer than its width changes no other field on the wire.", "quantifier": "every packet and every over-long field", "why_tests_cant": "Corruption shows only if the following fields are shorter than the overflow.", "anchors": ["codec/sgip/submit.go:Encode", "codec/cmpp/submit.go:Encode", "codec/smgp/submit.go:Encode"]}
{"id": "C42", "title": "SMGP login", "statement": "An SMGP login built for an account follows the protocol layout, decodes to the same client id (of any length up to 8), digest, mode, timestamp and version, and the server accepts it exactly when account, version and digest match.", "quantifier": "every account id of 1..8 characters, secret, time", "why_tests_cant": "All ids; shorter ids behave differently from 8-character ids.", "anchors": ["codec/smgp/login.go:Encode", "codec/smgp/login.go:Decode", "codec/smgp/login.go:Check"]}
{"id": "C43", "title": "SMGP submit wire layout and round trip", "statement": "Every SMGP submit of at most 255 numbers encodes to its announced length following the field table with its optional parameters, decodes to the same values, and the parts of a long message are numbered 1..n.", "quantifier": "every well-formed submit, any number of numbers up to 255, any text", "why_tests_cant": "All field values, TLV combinations and part counts.", "anchors": ["codec/smgp/submit.go:Encode", "codec/smgp/submit.go:Decode", "codec/smgp/submit.go:NewSubmit"]}
{"id": "C44", "title": "SMGP deliver and report survive the wire", "statement": "An SMGP deliver decodes to the values it was encoded from; its length byte is the number of content bytes; an embedded status report decodes to the same fields.", "quantifier": "every deliver text up to 70 characters and every report", "why_tests_cant": "Texts of 4-byte characters and reports use different lengths.", "anchors": ["codec/smgp/deliver.go", "codec/smgp/report.go"]}
{"id": "C45", "title": "Responses answer their request", "statement": "Every response built from a request carries the request's sequence number and the request's command with the response bit set, and, for deliver and report acknowledgements, the request's message id.", "quantifier": "every request of every protocol and every result code", "why_tests_cant": "All requests; a wrong id is syntactically valid.", "anchors": ["codec/cmpp/active.go:ToResponse", "codec/cmpp/connect.go:ToResponse", "codec/cmpp/delivery.go:ToResponse", "codec/cmpp/submit.go:ToResponse", "codec/cmpp/terminate.go:ToResponse", "codec/sgip/bind.go:ToResponse", "codec/sgip/deliver.go:ToResponse", "codec/sgip/report.go:ToResponse", "codec/sgip/submit.go:ToResponse", "codec/sgip/unbind.go:ToResponse", "codec/smgp/active.go:ToResponse", "codec/smgp/deliver.go:ToResponse", "codec/smgp/exit.go:ToResponse", "codec/smgp/login.go:ToResponse", "codec/smgp/submit.go:ToResponse"]}
{"id": "C46", "title": "No packet body can crash the decoder", "statement": "Decoding any byte string as any packet type returns an error or a value, never a panic.", "quantifier": "every byte string and every packet type", "why_tests_cant": "All malformed inputs; the exact set of crashing inputs is a length condition on data-dependent lengths.", "anchors": ["codec/cmpp/active.go:Decode", "codec/cmpp/connect.go:Decode", "codec/cmpp/delivery.go:Decode", "codec/cmpp/header.go:Decode", "codec/cmpp/report.go:Decode", "codec/cmpp/submit.go:Decode", "codec/cmpp/terminate.go:Decode", "codec/sgip/bind.go:Decode", "codec/sgip/deliver.go:Decode", "codec/sgip/header.go:Decode", "codec/sgip/report.go:Decode", "codec/sgip/submit.go:Decode", "codec/sgip/unbind.go:Decode", "codec/smgp/active.go:Decode", "codec/smgp/deliver.go:Decode", "codec/smgp/exit.go:Decode", "codec/smgp/header.go:Decode", "codec/smgp/login.go:Decode", "codec/smgp/report.go:Decode", "codec/smgp/submit.go:Decode", "msc_server/server/cmpp_connect.go", "msc_server/server/sgip_bind.go", "msc_server/server/smgp_login.go"]}
{"id": "C47", "title": "Server framing is independent of TCP segmentation", "statement": "However the byte stream is cut into reads, the packets the server hands to its handlers are, in order, a prefix of the packets that were sent, each exactly once and unmodified.", "quantifier": "every packet sequence and every segmentation", "why_tests_cant": "All cut points of all streams.", "anchors": ["msc_server/server/on_traffic.go:DecodeAndCheckHeader", "msc_server/server/on_traffic.go:OnTraffic"]}
{"id": "C48", "title": "A completely received packet is handled without further input", "statement": "Once all bytes of a packet have been received, the server handles it without waiting for more bytes from the peer.", "quantifier": "every segmentation, including several packets in one segment", "why_tests_cant": "Depends on how packets coalesce in the network.", "anchors": ["msc_server/server/on_traffic.go:DecodeAndCheckHeader", "msc_server/server/on_traffic.go:OnTraffic", "msc_server/server/on_traffic.go:ExecuteChain"]}
{"id": "C49", "title": "Illegal packets close the connection and are never handled", "statement": "A header announcing a length below 12 or above 5120, or an unknown command, closes the connection and no handler sees the packet; a legal packet is dispatched to exactly the handler of its command.", "quantifier": "every header and every protocol", "why_tests_cant": "2^64 header combinations.", "anchors": ["msc_server/server/on_traffic.go:DecodeAndCheckHeader", "msc_server/server/on_traffic.go:ExecuteChain"]}
{"id": "C50", "title": "Only authenticated sessions are served", "statement": "Over any history of packets on a connection, a submit (or any request other than login) is processed only if an earlier login on that connection passed the credential check; otherwise the connection is closed and nothing is answered.", "quantifier": "every sequence of packets and server events", "why_tests_cant": "All histories.", "anchors": ["msc_server/server/on_traffic.go:sessionCheck", "msc_server/server/cmpp_connect.go", "msc_server/server/sgip_bind.go", "msc_server/server/smgp_login.go", "msc_server/server/cmpp_submit.go"]}
{"id": "C51", "title": "Each submit of a logged-in client gets exactly one answer", "statement": "For every submit received on a logged-in session the server writes exactly one submit response with the same sequence number - the flow-control error when the rate limit refuses it - and counts it only when accepted.", "quantifier": "every sequence of submits and every rate limiter behaviour", "why_tests_cant": "All histories and limiter answers.", "anchors": ["msc_server/server/on_traffic.go:submitFlowControl", "msc_server/server/on_traffic.go:sendSubmitResponse", "msc_server/server/cmpp_submit.go"]}
{"id": "C52", "title": "The processing window is never exceeded", "statement": "At no time are more submits of one session being processed than its configured window size, and every finished submit frees its slot.", "quantifier": "every interleaving of handler steps within one login", "why_tests_cant": "All schedules.", "anchors": ["msc_server/server/session.go:completeLogin", "msc_server/server/cmpp_submit.go:handleCmppSubmit"]}
{"id": "C53", "title": "The processing window survives re-login and close", "statement": "Logging in again or closing the connection while submits are being processed neither blocks a worker forever nor lets the window be exceeded.", "quantifier": "every interleaving of handlers with re-login and close", "why_tests_cant": "Needs a precise schedule around replacing the window.", "anchors": ["msc_server/server/session.go:completeLogin", "msc_server/server/session.go:closeResource"]}
{"id": "C54", "title": "The connection limit holds and the session count is exact", "statement": "At any time the session counter equals the number of open accepted connections and never exceeds the configured maximum; a refused connection changes neither and does not disturb the server.", "quantifier": "every sequence (and interleaving) of opens and closes", "why_tests_cant": "All histories, and schedules of several event loops.", "anchors": ["msc_server/server/on_open.go", "msc_server/server/on_close.go", "msc_server/server/server.go:CreateSession"]}
{"id": "C55", "title": "Per-client connection limit", "statement": "A client never has more logged-in connections than its configured maximum; a login above the limit is refused with the protocol's code.", "quantifier": "every sequence (and interleaving) of logins and closes", "why_tests_cant": "The limit is checked before the session is marked logged in; only certain schedules break it.", "anchors": ["msc_server/server/cmpp_connect.go", "msc_server/server/sgip_bind.go", "msc_server/server/smgp_login.go", "msc_server/server/server.go:CountSessionByClientId"]}
{"id": "C56", "title": "Dead peers are detected", "statement": "A connection idle for longer than the force-close time is terminated at the next tick; a peer that leaves three heartbeats unanswered is terminated; a peer that answers heartbeats and is active is never terminated by the ticker.", "quantifier": "every timeline of ticks, traffic and heartbeat answers", "why_tests_cant": "All timelines.", "anchors": ["msc_server/server/on_tick.go"]}
{"id": "C57", "title": "Submit responses reach the query result", "statement": "When the gateway answers a submit, querying the send's query id shows the answer's result code and message id for exactly that packet, in all three protocols.", "quantifier": "every send and every order of answers", "why_tests_cant": "All interleavings of answers; depends on the dynamic type of cache keys.", "anchors": ["msc_client/session/send_sms.go", "msc_client/session/on_traffic_cmpp.go", "msc_client/session/on_traffic_sgip.go", "msc_client/session/on_traffic_smgp.go"]}
{"id": "C58", "title": "Delivery reports reach the query result", "statement": "A status report with a message id that a submit was answered with updates exactly that packet's result.", "quantifier": "every history of submits, answers and reports", "why_tests_cant": "All histories.", "anchors": ["msc_client/session/on_traffic_cmpp.go", "msc_client/session/on_traffic_sgip.go", "msc_client/session/on_traffic_smgp.go"]}
{"id": "C59", "title": "Send and query", "statement": "Sending returns a non-zero query id exactly when there is a number to send to; querying an id returns the results of that send and never crashes; unknown ids give an empty answer.", "quantifier": "every list of numbers, availability of sessions and query id", "why_tests_cant": "All combinations of unavailable sessions.", "anchors": ["msc_client/api.go:SendN", "msc_client/api.go:Query"]}
{"id": "C60", "title": "The result sweeper hands over every expired result exactly once", "statement": "Each sweep removes exactly the sends whose newest-first result is older than the cache time and hands each of their results to the store handler exactly once, in batches; unexpired sends stay untouched.", "quantifier": "every cache content and time, any number of results", "why_tests_cant": "Batch boundaries and all contents.", "anchors": ["msc_client/session_factory.go:cleanQueryCacheMap"]}
{"id": "C61", "title": "Client framing is independent of TCP segmentation", "statement": "The client hands complete packets to its handlers however the gateway's stream is cut into reads.", "quantifier": "every packet sequence and read segmentation", "why_tests_cant": "All read sizes.", "anchors": ["msc_client/session/session.go:startReceiver"]}
{"id": "C62", "title": "Closing a client session", "statement": "Closing a session any number of times, also concurrently, closes the connection exactly once and never crashes; a closed session never reports healthy.", "quantifier": "every sequence and interleaving of closes", "why_tests_cant": "Schedules of concurrent closes.", "anchors": ["msc_client/session/session.go:Close"]}
{"id": "C63", "title": "Session selection prefers healthy, least used sessions and respects the connection limit", "statement": "After a maintenance round the session list holds only healthy sessions ordered by use, at most the configured number, keeping the healthy ones it had, and unhealthy sessions rank below healthy ones.", "quantifier": "every session population and counter values", "why_tests_cant": "All populations.", "anchors": ["msc_client/session_factory.go:lruSort", "msc_client/session_factory.go:Less", "msc_client/session/session.go:LruPriority"]}
{"id": "C64", "title": "Numbers are routed to the carrier owning their segment", "statement": "A number is sent through the first configured carrier whose segment expression matches it; with the shipped expressions every mobile number matches at most one carrier.", "quantifier": "every phone number string and configuration", "why_tests_cant": "All 11-digit numbers.", "anchors": ["msc_client/session_factory.go:SelectSession", "msc_client/config/config.yaml"]}
{"id": "C65", "title": "A session is only handed out after a successful login", "statement": "Creating a client session yields a usable session only if the gateway answered the login with a success status.", "quantifier": "every gateway answer, including short and malformed ones", "why_tests_cant": "All answers and partial reads.", "anchors": ["msc_client/session/session.go:NewSession", "msc_client/session/session.go:login"]}
{"id": "C66", "title": "Credential lookup", "statement": "After loading, looking up (protocol, client id) returns the configured entry of that client and no other, for every configured client; unknown clients are not found.", "quantifier": "every set of credential files and client ids", "why_tests_cant": "All id spellings, including upper case.", "anchors": ["auth/yaml_store.go:Load", "auth/yaml_store.go:FindByCid", "auth/mongo_store.go"]}
{"id": "C67", "title": "Revoked clients disappear at reload", "statement": "After a reload a client whose entry was removed from the credential source can no longer be looked up.", "quantifier": "every pair of successive credential sets", "why_tests_cant": "All histories of reloads.", "anchors": ["auth/yaml_store.go:Load", "auth/mongo_store.go:Load"]}
{"id": "C68", "title": "Handed-out account data is a faithful, independent copy", "statement": "The account data given to a session equals the stored entry field by field, and changing it does not change the stored entry.", "quantifier": "every stored entry and every modification", "why_tests_cant": "All entries; aliasing is not visible in equality tests.", "anchors": ["msc_server/utils.go:FindAuthConf", "utils/utils.go:StructCopy"]}
{"id": "C69", "title": "Login end to end: client and server agree", "statement": "When a client logs in over a connection to this server, the client ends up with a usable session exactly when the server regards it as logged in, and that is exactly when the account exists, the secret matches, the address and the connection number are admitted; otherwise the server is closing the connection and the client has no usable session.", "quantifier": "every account configuration, client id, secret, time stamp and every segmentation of the bytes in both directions, all three protocols", "why_tests_cant": "All credentials and all TCP segmentations; the end-to-end tests use loopback, where an answer comes in one piece.", "anchors": ["msc_client/session/session.go:login", "msc_client/session_factory.go", "msc_server/server/on_traffic.go", "msc_server/server/cmpp_connect.go", "msc_server/server/sgip_bind.go", "msc_server/server/smgp_login.go"]}
{"id": "C71", "title": "The submit rate of a client is limited as configured", "statement": "In any interval of length T at most window + T * throughput submits of a connection are accepted, and a client that keeps to the rate is never refused.", "quantifier": "every account configuration, every sequence of submit times, every event history of a connection", "why_tests_cant": "All call times and configurations; rate tests sample a few seconds with one setting.", "anchors": ["msc_server/server/session.go:setupLimiter", "msc_server/server/on_traffic.go:submitFlowControl"]}
{"id": "C76", "title": "The client's sending limits follow its settings", "statement": "The client hands out at most window + T / period sessions in any interval of length T, where the window is the configured one or 16 if none is configured, and the first request is always served.", "quantifier": "every max-conns, mt-window-size and throughput setting and every sequence of request times", "why_tests_cant": "All settings, including missing ones; the shipped configuration sets all of them.", "anchors": ["msc_client/session_factory.go:CreateSessionFactory"]}
{"id": "C72", "title": "The sweepers free exactly the expired cache entries", "statement": "One round of the client's cache sweeper removes from the caches by sequence id and by message id exactly the entries of results older than the cache time, and changes nothing else; so the caches become empty once everything in them has expired.", "quantifier": "every run of the client with any number of sends, answers and sweeps, every cache time and clock", "why_tests_cant": "All histories; a leak shows only after weeks of operation.", "anchors": ["msc_client/session_factory.go:cleanRequestIdCacheMap", "msc_client/session_factory.go:cleanMsgIdCacheMap"]}
{"id": "C73", "title": "No packet of a gateway can crash the client", "statement": "Whatever packet a gateway sends on a session, in whatever state the session is, the client process goes on.", "quantifier": "every packet (command, sequence, body) of the three protocols, every state of the client", "why_tests_cant": "All bodies and all interleavings with closing.", "anchors": ["msc_client/session/on_traffic_cmpp.go", "msc_client/session/on_traffic_sgip.go", "msc_client/session/on_traffic_smgp.go"]}
{"id": "C74", "title": "Processes configured apart never produce the same identifier", "statement": "When two processes are started with generator settings that differ in the block that configures a kind of identifier (64-bit message ids, 32-bit packet numbers, BCD message ids, SGIP sequence numbers), no identifier of that kind handed out by one is ever handed out by the other.", "quantifier": "for all pairs of in-range settings, all numbers of calls and all clock traces of both processes", "why_tests_cant": "A test starts one process with one configuration; that a setting is ignored or folded into fewer bits shows only when all pairs of configurations and both complete output sequences are compared.", "anchors": ["msc_server/bootstrap.go:SeqInit", "msc_client/bootstrap.go:SeqInit", "utils/cycle_sequence.go:NextVal", "codec/sgip/sequence.go:NewSequencer", "utils/bcd_sequence.go:NewBcdSequence"]}
{"id": "C75", "title": "A sender gets a session while a usable one exists", "statement": "A send for which the rate limiter grants a token is given a session of the carrier after a bounded wait whenever that carrier has a healthy session; when it has none the send ends without a session instead of waiting for ever.", "quantifier": "every list of sessions, every interleaving of maintenance rounds, failed and successful connects, session failures, shutdown and polling by the sender", "why_tests_cant": "The hang needs a failure of the session at the front during the window in which the maintenance goroutine is busy connecting; tests with a reachable local gateway never open that window.", "anchors": ["msc_client/session_factory.go:PeekSession", "msc_client/session_factory.go:lruSort", "msc_client/session_factory.go:newConnect", "msc_client/session_factory.go:startLruSortTicker"]}
{"id": "C77", "title": "Simulated incoming messages arrive as configured", "statement": "When simulation of incoming messages is enabled and an entry 'suffix_,_text' is chosen, the client receives a message from the simulated sender to its display number followed by the suffix, with exactly that text. Nothing is sent when simulation is off, the dice forbid it, the account is unknown or the entry has no separator, and the simulation never crashes the server.", "quantifier": "all configured entries, all draws, all accounts, all protocols", "why_tests_cant": "The entry and the outcome are drawn at random per tick; only a proof covers every entry, every draw and every account, in particular texts that contain the separator.", "anchors": ["msc_server/server/on_tick.go:mockDelivery", "codec/cmpp/delivery.go:NewDelivery", "codec/smgp/deliver.go:NewDeliver", "utils/utils.go:DiceCheck"]}
{"id": "C78", "title": "The simulated success rate is the configured one", "statement": "With a success rate of k/10000 exactly 10000-k of the 10000 equally likely draws make the simulated operation fail.", "quantifier": "all k from 0 to 10000 and all draws", "why_tests_cant": "The deviation is one draw in ten thousand and depends on float64 rounding of the quotient; sampling tests cannot see it.", "anchors": ["utils/utils.go:DiceCheck", "utils/utils.go:RandNum"]}
{"id": "C70", "title": "A query shows the server's answer to that very message", "statement": "When client and server of this project talk to each other, the result a query returns for a submitted message is the result code the server wrote in answer to that very message: never the code of another message or another connection, and never a code the server did not write; and once the answer has reached the client it is shown.", "quantifier": "all interleavings of senders, receivers and sweeps on the client, all schedules and segmentations on the server, any number of sessions and messages", "why_tests_cant": "The result depends on the interleaving of four goroutines on two machines and on how TCP splits the stream; tests see one schedule each.", "anchors": ["msc_client/api.go:Query", "msc_client/session/on_traffic_sgip.go:onTrafficSgip", "msc_server/server/sgip_submit.go:handleSgipSubmit", "msc_server/server/on_traffic.go:OnTraffic"]}
{"id": "C79", "title": "The statistics saved for a connection are exact", "statement": "The three numbers the server logs for a connection (and saves when it closes) are the numbers of submits it answered with success, of simulated incoming messages and of status reports it wrote to that connection, over its whole life, whatever logins, errors and refusals happened in between; after the close they no longer change.", "quantifier": "all runs of a connection, all protocols", "why_tests_cant": "The counters are changed in callbacks of asynchronous writes interleaved with logins, ticks and closes; a test checks a few orders only.", "anchors": ["msc_server/server/session.go:CounterAddMt", "msc_server/server/session.go:LogCounter", "msc_server/server/on_close.go:OnClose"]}
{"id": "C80", "title": "A simulated delivery report carries a documented final state", "statement": "Every delivery report the simulating server writes and the client decodes carries one of the final states of its protocol, in exactly seven characters. CMPP: the state belongs to the last two digits of the report's own number; each of the ten failures occurs at exactly one of any hundred consecutive numbers and the other ninety are DELIVRD. SMGP: error code and state agree and belong to the last three digits of the second; each of the ten failures occurs in exactly one of any thousand consecutive seconds.", "quantifier": "all submits, numbers, seconds, message ids and times the packets can carry; any hundred consecutive 32-bit numbers, any thousand consecutive seconds", "why_tests_cant": "The rule depends on a running number and on the wall clock; a test sees a few values and almost always DELIVRD.", "anchors": ["codec/cmpp/report.go:NewReport", "codec/smgp/report.go:NewReport", "codec/smgp/report.go:reportStatMap", "codec/cmpp/submit.go:ToDeliveryReport"]}
{"id": "C81", "title": "The command line client sends to every listed number", "statement": "Started with a comma separated list of numbers and a repeat count, the command line client sends the message to every number of the list exactly that many times, and to nobody else.", "quantifier": "all lists, all repeat counts, all schedules of the worker pool", "why_tests_cant": "Which number a worker sends to depends on when it starts relative to the loop; a test sees one schedule.", "anchors": ["msc_client/cmd/client.go:main"]}
{"id": "C82", "title": "The account store comes up with every configuration and stays up over reloads", "statement": "With any configured store type and reload interval the program starts with the accounts loaded or ends with a message saying what is wrong; once it is up, no reload ends it.", "quantifier": "all settings, all directory contents and query results at the start and at each of any number of reloads", "why_tests_cant": "Depends on what the directory or database looks like at every later tick.", "anchors": ["auth/client_store.go:New", "auth/client_store.go:startTicker", "auth/yaml_store.go:Load", "database/mongodb/mongo.go:InitDB"]}
{"id": "C83", "title": "The pid file names the running process", "statement": "After a start the pid file contains the decimal process id of the running server and nothing else, whatever it contained before.", "quantifier": "all process ids, all earlier contents and sequences of starts", "why_tests_cant": "Needs a history of starts with ids of different lengths.", "anchors": ["msc_server/cmd/gosmc.go:savePid"]}
{"id": "C84", "title": "A stop signal ends the process in order", "statement": "Whenever a stop signal arrives, also repeatedly, the process runs its shutdown hooks exactly once and then exits by itself.", "quantifier": "all orders of signals, handler steps and main's steps", "why_tests_cant": "The windows (before registration, before the first receive, after closing the channel) are a few instructions wide.", "anchors": ["msc_server/destory.go:init", "msc_client/destory.go:init", "msc_server/cmd/gosmc.go:main"]}
{"id": "C85", "title": "Sends do not hold up one another while choosing their carrier", "statement": "Any number of sends run at the same time: each gets the first carrier whose expression takes its number, a carrier is set up at most once, and a send that fails or waits for its gateway does not keep the others from going through.", "quantifier": "all interleavings of any number of sends, all outcomes of setting up carriers", "why_tests_cant": "Needs concurrent sends meeting a failing or silent gateway at the first use of a carrier.", "anchors": ["msc_client/session_factory.go:SelectSession", "msc_client/session_factory.go:CreateSessionFactory"]}
{"id": "C86", "title": "Every result of a send ends up in the journal once", "statement": "After its time in the query cache every result of a finished send is stored in the database exactly once, as it finally stood, also if the database is away for a while or the program is stopped.", "quantifier": "all runs of the client with any sends, answers, sweeps, refused jobs, failing writes and shutdown", "why_tests_cant": "Needs database failures and stops at all points between expiry and the write.", "anchors": ["msc_client/api.go:PersistenceSmsJournal", "msc_client/session_factory.go:cleanQueryCacheMap"]}
{"id": "C87", "title": "The log does not give a password away", "statement": "Whatever a client sends to log in and whatever the program writes to its log about it, at any level: the password or shared secret cannot be read from the log, and what is logged about one login is not enough to log in.", "quantifier": "all login packets, accounts, verdicts, pool answers and log levels, for the three protocols", "why_tests_cant": "Needs two runs compared for every pair of passwords, and every path that logs a packet.", "anchors": ["codec/sgip/bind.go:Log", "codec/cmpp/connect.go:Log", "codec/smgp/login.go:Log", "msc_server/server/on_traffic.go:DecodeAndCheckHeader", "msc_server/server/sgip_bind.go:sgipBind"]}
{"id": "C88", "title": "The log shows at most the first six octets of a text", "statement": "A log line about a submit or a delivery shows the first six octets of the text and three dots; the rest of the text is not in the log.", "quantifier": "all submits and deliveries of the three protocols, all texts", "why_tests_cant": "Quantifies over all pairs of texts with the same beginning.", "anchors": ["codec/cmpp/submit.go:Log", "codec/cmpp/delivery.go:Log", "codec/sgip/submit.go:Log", "codec/sgip/deliver.go:Log", "codec/smgp/submit.go:Log", "codec/smgp/deliver.go:Log", "msc_server/server/on_traffic.go:DecodeAndCheckHeader"]}
{"id": "C89", "title": "Making a log line never fails and lists the recipients", "statement": "For every packet decoded or built, the fields of its log line can be made without a panic, and the line of a submit lists its recipients in order.", "quantifier": "all packets of the three protocols that can be received or built", "why_tests_cant": "All lengths of the recipient block and all packets.", "anchors": ["codec/cmpp/submit.go:Log", "utils/utils.go:Bytes2StringSlice", "codec/sgip/report.go:Log", "codec/cmpp/delivery.go:Log", "codec/smgp/deliver.go:Log"]}
{"id": "C90", "title": "Stopping the client closes its connections", "statement": "Once the shutdown hooks of the client have returned, no connection of a session to a gateway is open and none is opened any more.", "quantifier": "every order of the hooks and every interleaving of hooks, ticker, maintenance goroutine, connection attempts and lost sessions", "why_tests_cant": "The hooks have to fall into a maintenance round, a connection attempt or a sort; the order of the hooks is that of a map.", "anchors": ["msc_client/session_factory.go:RegCloseSessionsHooker", "msc_client/session_factory.go:startLruSortTicker", "msc_client/session_factory.go:lruSort", "msc_client/session_factory.go:newConnect", "event_manager/event_manage.go:RegisterShutdownHookerAddChan"]}
{"id": "C91", "title": "The client holds no more connections than configured", "statement": "For each carrier the client never has more open connections to the gateway than configured; connections that are not used by a session are closed.", "quantifier": "every sequence of connection attempts and their outcomes, lost sessions and maintenance rounds", "why_tests_cant": "Connections accumulate only while a gateway keeps refusing logins; the number has no bound.", "anchors": ["msc_client/session_factory.go:newConnect", "msc_client/session_factory.go:CreateSessionFactory", "msc_client/session_factory.go:lruSort", "msc_client/session/session.go:NewSession"]}
{"id": "C92", "title": "A query shows every packet the send put on the wire", "statement": "Querying a finished send lists exactly the packets it wrote to gateways, in order, also when a write failed in between; a session that is closed while a send uses it does not crash the process.", "quantifier": "every interleaving of senders, receivers, closes, sweeps and failing writes, every protocol, text and list of numbers", "why_tests_cant": "A write has to fail between two parts of one message, a close has to fall between choosing the session and writing.", "anchors": ["msc_client/session/on_traffic_cmpp.go:sendByCmpp", "msc_client/session/on_traffic_sgip.go:sendBySgip", "msc_client/session/on_traffic_smgp.go:sendBySmgp", "msc_client/api.go:SendN", "msc_client/api.go:Query"]}
{"id": "C93", "title": "A client that answers heartbeats stays connected", "statement": "A logged-in client that answers the server's heartbeats in time is not disconnected for being idle, however long it sends nothing else.", "quantifier": "every protocol, every idle time, every tick interval, every force-close time, every interleaving of ticks, pool goroutines, writes and answers", "why_tests_cant": "It is about unbounded idle times and the relation of three configured or fixed durations (tick interval, one minute, force-close time).", "anchors": ["msc_server/server/on_tick.go:OnTick", "msc_server/server/on_tick.go:activeTest", "msc_server/server/on_tick.go:closeCheck", "msc_server/server/on_tick.go:activeTestNoneResponseCheck", "msc_server/server/cmpp_active_resp.go:handleCmppActiveResp", "msc_server/server/smgp_active_resp.go:handleSmgpActiveResp", "msc_client/session/on_traffic_cmpp.go:onTrafficCmpp", "msc_client/session/on_traffic_smgp.go:onTrafficSmgp"]}
{"id": "C94", "title": "The server works on what the application asked to send", "statement": "Every submit a server works on is a packet the client at the other end wrote for one number of one send of the application: addressed to exactly that number and carrying that text, in the order written and never more often.", "quantifier": "every protocol, text, option list, number list, account, schedule of senders on the client, segmentation of the stream and schedule on the server", "why_tests_cant": "It composes option handling, packet building, concurrent senders, stream reassembly, decoding and login version over all interleavings of two programs.", "anchors": ["msc_client/session/send_sms.go:Send", "msc_client/session/session.go:login", "codec/cmpp/submit.go:NewSubmit", "codec/sgip/submit.go:NewSubmit", "codec/smgp/submit.go:NewSubmit", "msc_server/server/on_traffic.go:OnTraffic", "codec/cmpp/submit.go:Decode"]}
{"id": "C95", "title": "An overheard login cannot be used again", "statement": "A login packet that was accepted once is not accepted again on another connection.", "quantifier": "every protocol, account, login packet of the client, later time, segmentation and number of connections left", "why_tests_cant": "It speaks about every accepted packet and every later time; a test with a real clock only sees logins it makes itself.", "anchors": ["codec/cmpp/connect.go:Check", "codec/smgp/login.go:Check", "codec/sgip/bind.go:Check", "msc_server/server/cmpp_connect.go:handleCmppConnect", "msc_server/server/sgip_bind.go:handleSgipBind", "msc_server/server/smgp_login.go:handleSmgpLogin"]}
{"id": "C96", "title": "The client only accepts a gateway that knows the shared secret", "statement": "The client has a usable session only if the gateway proved in its answer, for this very login, that it knows the shared secret.", "quantifier": "every account, secret, answer of the gateway and login (CMPP and SMGP; SGIP's answer has no such field)", "why_tests_cant": "It quantifies over all answers an impostor may send and over pairs of logins.", "anchors": ["msc_client/session/session.go:login", "codec/cmpp/connect.go:ToResponse", "codec/smgp/login.go:ToResponse"]}
{"id": "C97", "title": "The shared secret does not leave the client in clear", "statement": "What the client writes, at login and afterwards, and what it tells its application depends on the shared secret through the login digest only.", "quantifier": "every protocol, account, pair of secrets with the same digest, schedule of senders, received packet and timer", "why_tests_cant": "It is a statement about pairs of executions (no information flow), for all schedules.", "anchors": ["msc_client/session/session.go:login", "codec/cmpp/connect.go:NewConnect", "codec/smgp/login.go:NewLogin", "codec/sgip/bind.go:NewBind", "msc_client/session/send_sms.go:Send", "msc_client/session/session.go:onTraffic"]}
{"id": "C98", "title": "Changed account settings count from the reload on", "statement": "After the account store has been reloaded, a login is judged by the account as it is stored then, so that a login made with the earlier secret is refused; and connections that logged in under the earlier settings do not go on being served under them.", "quantifier": "every protocol, sequence of store contents, packet sequence and schedule of the server, moment of the reload", "why_tests_cant": "The reload may fall between any two steps of any schedule, and what a connection does afterwards has to be compared with what it would have done without the change.", "anchors": ["auth/yaml_store.go:Load", "auth/yaml_store.go:FindByCid", "auth/mongo_store.go:Load", "msc_server/server/cmpp_connect.go:handleCmppConnect", "msc_server/server/sgip_bind.go:handleSgipBind", "msc_server/server/smgp_login.go:handleSmgpLogin", "msc_server/server/session.go:completeLogin"]}
{"id": "C99", "title": "Each log file follows its own settings", "statement": "The name, format, time precision, rotation settings and level of each log file of the server and the client, and of each custom log, are those of its own section of the configuration; a custom log uses the documented defaults where its section sets nothing.", "quantifier": "every configuration, base path and custom log name", "why_tests_cant": "The failure is that a setting has no influence at all, for every value, which no finite number of configurations shows.", "anchors": ["msc_server/bootstrap.go:logInit", "msc_client/bootstrap.go:logInit", "msc_server/custom_log.go:New"]}
{"id": "C100", "title": "A process looks for its files in its own directory", "statement": "The base path of a process is the directory it is started in; when run as a test, it is the project's directory above the directory the test runs in.", "quantifier": "every project name, argument list and working directory", "why_tests_cant": "It depends on where the repository has been checked out, which a test run in one place cannot vary.", "anchors": ["msc_server/bootstrap.go:setBasePath", "msc_client/bootstrap.go:setBasePath"]}
{"id": "C101", "title": "Each login is answered once, and the answer says why it is refused", "statement": "Every login packet a server receives on a connection that stays open is answered exactly once. The status of the answer is 0 if the login is granted and otherwise names what is wrong with it: the name is unknown, the protocol version is too high for the account, the secret is wrong, or the client has too many connections.", "quantifier": "all protocols, accounts, packets, chunkings of the stream, interleavings of handlers and writes, and changes of the accounts between steps", "why_tests_cant": "Several logins can be on one connection at once and be checked in any order while accounts and connection counts change; tests see a single login at rest.", "anchors": ["msc_server/server/cmpp_connect.go:handleCmppConnect", "msc_server/server/sgip_bind.go:handleSgipBind", "msc_server/server/smgp_login.go:handleSmgpLogin", "codec/cmpp/connect.go:Check", "codec/smgp/login.go:Check", "codec/sgip/bind.go:Check"]}
{"id": "C102", "title": "A carrier is set up from its own section of the settings", "statement": "Setting up a carrier by its name, in upper or lower case, looks for the account under the client id of that carrier's own section, dials the address of that section, logs in with that account, takes the numbers of its segment, and limits sending by its sizes; other sections do not matter and other carriers stay as they are. Done again, it gives out the carrier that exists and does nothing. Without the account nothing is set up. A name that is no carrier's stops the program at once. A carrier whose settings cannot be used (a segment that is no expression, a negative window size) is refused without connecting.", "quantifier": "every name, every content of the settings, every account store, every outcome of dialling and logging in, every set of carriers already set up", "why_tests_cant": "The tests set up the three carriers once from one settings file; they cannot run over all settings, names and outcomes, nor show that no other section matters.", "anchors": ["msc_client/session_factory.go:CreateSessionFactory", "msc_client/session_factory.go:SelectSession", "msc_client/session_factory.go:ISP.Int", "msc_client/session_factory.go:FindAuthConf"]}
{"id": "C103", "title": "Stopping the server ends its connections in order", "statement": "When a stop signal ends the server, every open connection of every service has been closed with its statistics saved, and what was taken from the clients has been answered. A service that cannot listen, or whose listener ends, does not take the other services down.", "quantifier": "every run of the process: any number of connections of each service in any state, signals at any time, every order of the steps of the services, the signal handler and main", "why_tests_cant": "A test stops one process in one state; it cannot show what happens to connections in every state and for every interleaving.", "anchors": ["msc_server/cmd/gosmc.go:main", "msc_server/server/server.go:Start", "msc_server/destory.go:init", "event_manager/event_manage.go:GracefullyShutdown", "msc_server/server/on_close.go:OnClose"]}
{"id": "C104", "title": "The log says what a result code means", "statement": "Wherever the log shows the status of an answer or the state of a report it shows the number and, in words of the protocol, what that number means there: for a login why it was refused (unknown name, other version, wrong secret, too many connections) or that it was accepted, for a submit whether it was taken or why not, for a report whether the message was sent, waits or failed. The number can be read back, different codes never look alike, and a code the protocol does not define is shown without words.", "quantifier": "every status value, every login packet, set of accounts and count of connections, every submit answered in any run of the server, every report", "why_tests_cant": "The words depend on the table, on the reason and on the protocol; a test looks at a few codes, not at every reason and every value.", "anchors": ["codec/cmpp/connect.go:ConnectStatusMap", "codec/cmpp/submit.go:SubmitResultMap", "codec/cmpp/delivery.go:DeliveryResultMap", "codec/sgip/variables.go:ResultMap", "codec/smgp/variables.go:StatMap", "codec/sgip/report.go:Log", "msc_server/server/cmpp_connect.go:handleCmppConnect"]}
{"id": "C105", "title": "No client can end the server", "statement": "Whatever octets the clients of the server's services send, in whatever order and interleaving, logged in or not, the process goes on: what a client sends can at most end its own connection, and the other connections and the other services are served as before.", "quantifier": "every set of services, every sequence of connections, received octets, writes, ticks, closes and signals in any interleaving, every account data", "why_tests_cant": "A crash needs a particular packet in a particular state of the session; a test sends a few malformed packets, not every packet to every state of every connection of every service.", "anchors": ["msc_server/server/on_traffic.go:OnTraffic", "msc_server/server/cmpp_connect.go:cmppConnect", "msc_server/server/session.go:completeLogin", "codec/cmpp/connect.go:Decode", "codec/sgip/bind.go:Decode", "codec/smgp/login.go:Decode", "msc_server/cmd/gosmc.go:main"]}
{"id": "C106", "title": "The client acknowledges what the gateway sends", "statement": "Every deliver, report, heartbeat and request to end the session that the client receives on a session is answered on that session with exactly one acknowledgement, the one the protocol asks for: the response command, the same sequence number, the message id of the deliver, result 0. Nothing else is answered. Only a failed write excuses a missing acknowledgement, and then the session is closed.", "quantifier": "every set of logged-in sessions of the three protocols, every interleaving of sends, received packets, closes and sweeps, every packet, every outcome of a write", "why_tests_cant": "A test acknowledges one packet of each kind; the message id, the sequence number and the version of the session vary, and an unanswered or wrongly answered deliver shows only as a repetition by the gateway much later.", "anchors": ["msc_client/session/on_traffic_cmpp.go:onTrafficCmpp", "msc_client/session/on_traffic_sgip.go:onTrafficSgip", "msc_client/session/on_traffic_smgp.go:onTrafficSmgp", "codec/cmpp/delivery.go:ToResponse", "codec/smgp/deliver.go:ToResponse", "codec/sgip/unbind.go:ToResponse"]}
{"id": "C107", "title": "The server answers each heartbeat and each request to end", "statement": "Every heartbeat and every request to end the session that a logged-in client sends is answered on the same connection with exactly one packet, whose octets are the answer the protocol asks for under the sequence number of the request, whatever load the session is under; nothing else is answered so. After the answer to a request to end the server closes the connection.", "quantifier": "every protocol, every account store, every way the input is cut into segments, every interleaving of goroutines, writes, ticks and closes on a connection, every request", "why_tests_cant": "A test answers one heartbeat on an idle session; whether a request is lost while goroutines wait for a slot of the window, or answered twice, depends on the interleaving.", "anchors": ["msc_server/server/cmpp_active.go:handleCmppActive", "msc_server/server/smgp_active.go:handleSmgpActive", "msc_server/server/cmpp_terminate.go:handleCmppTerminate", "msc_server/server/sgip_unbind.go:handleSgipUnbind", "msc_server/server/smgp_exit.go:handleSmgpExit", "codec/cmpp/active.go:ToResponse", "codec/sgip/unbind.go:ToResponse"]}
{"id": "C108", "title": "The server does not give the clients' secrets away", "statement": "What a server writes to a connection, and everything it does there, depends on the clients' shared secrets only through the two digests of a login (CMPP, SMGP) or through whether a password that was sent to it is the right one (SGIP): two servers whose accounts differ in the secrets only, but give the same digests, and to which the same happens, write the same octets, keep the same sessions and end alike.", "quantifier": "every protocol, every pair of account stores over any number of reloads, every input and way it is cut, every interleaving of goroutines, writes, ticks and closes, every environment", "why_tests_cant": "That nothing depends on a secret is a statement about pairs of runs; a test looks for one secret in one output and misses one that shows in a code, a delay or the order of packets.", "anchors": ["msc_server/server/cmpp_connect.go:handleCmppConnect", "msc_server/server/sgip_bind.go:handleSgipBind", "msc_server/server/smgp_login.go:handleSmgpLogin", "codec/cmpp/connect.go:Check", "codec/cmpp/connect.go:ToResponse", "codec/sgip/bind.go:Check", "codec/smgp/login.go:Check", "codec/smgp/login.go:ToResponse"]}
{"id": "C109", "title": "One client's load does not hold up the others", "statement": "While the packets of one client are being worked on, however many it sends and however long they take, the server goes on reading from, writing to, accepting and closing the other connections; each connection behaves as it would alone, and a client has at most twice its window of goroutines at work.", "quantifier": "every protocol and account store, any number of connections on an event loop, every order of reads, writes, ticks, closes and steps of the goroutines, every environment; refutations for every window size and, for the endless one, over every continuation", "why_tests_cant": "The loop stops only when more packets of one client arrive than its pool has room for while others wait, and for ever only after two re-logins in one particular interleaving; load tests use one client, or short delays, and see a pause at most.", "anchors": ["msc_server/server/session.go:createSessionSidePool", "msc_server/server/session.go:completeLogin", "msc_server/server/server.go:New", "msc_server/server/on_traffic.go:submitFlowControl", "msc_server/server/cmpp_submit.go:cmppSubmit", "msc_server/server/on_traffic.go:OnTraffic"]}
{"id": "C110", "title": "Delivery reports belong to messages that were taken", "statement": "Every delivery report a server sends belongs to a submit of the same connection that it answered with status 0: it is written after that answer, carries the message id given there and the recipient's number, and goes to the number the submit came from; there are never more reports than messages taken, and none for a refused submit. A submit that asks for reports gets one for each of its recipients unless the simulated loss strikes; a submit that asks for none gets none.", "quantifier": "every protocol and account store, every order of reads, goroutine steps, writes, ticks and closes, every environment whose identifiers have their fixed width; the counting for every set of message ids and every moment; the refutation for every submit in every reachable logged-in state with room", "why_tests_cant": "The reports are queued by concurrent goroutines behind the answers, so that a report belongs to its answer and never overtakes it depends on every interleaving; and example submits ask for a report and name one recipient, which hides that neither is looked at.", "anchors": ["msc_server/server/cmpp_submit.go:handleCmppSubmit", "msc_server/server/cmpp_submit.go:mockSendCmppReport", "msc_server/server/smgp_submit.go:handleSmgpSubmit", "msc_server/server/smgp_submit.go:mockSendSmgpReport", "msc_server/server/sgip_submit.go:handleSgipSubmit", "codec/cmpp/submit.go:ToDeliveryReport", "codec/smgp/deliver.go:NewDeliveryReport"]}
{"id": "C111", "title": "A client session is tested when it is idle, and given up when the gateway is silent", "statement": "Checking whether a client session is usable sends a heartbeat (CMPP and SMGP active test) if and only if the session is usable and for more than a minute no packet came in on it, no message was sent through it and it was not just logged in. The gateway understands the heartbeat, and its answer counts as use. At most one heartbeat is sent per minute of idleness. A session whose heartbeat cannot be written or stays unanswered is no longer reported usable and is closed.", "quantifier": "all clients with any sessions, all interleavings of sends, received packets, closes, sweeps and checks, all clocks that do not go back, all outcomes of writes", "why_tests_cant": "The behaviour shows only after minutes of silence and depends on who checks when; a test with a fake gateway sees a few checks, not every interleaving of senders, maintenance and receiver.", "anchors": ["msc_client/session/session.go:HealthCheck", "msc_client/session/session.go:ActiveTest", "msc_client/session/session.go:AddCounterN", "msc_client/session_factory.go:PeekSession", "msc_client/session_factory.go:lruSort"]}
{"id": "C112", "title": "Using a client session while another goroutine closes it does not crash the client", "statement": "Sending through a client session, receiving on it, checking it and closing it can happen in different goroutines at the same time. Whatever their order, the process does not crash: a goroutine that comes too late gets an error or finds the session unusable. The connection is closed once; a receiver waiting for a packet ends when the session is closed.", "quantifier": "any number of goroutines sending any number of messages of any length, any packets received, any checks and closes, all interleavings of single reads and writes of the session's fields, all outcomes of reads and writes on the connection, the three protocols", "why_tests_cant": "The window between looking at the session and using it is a few instructions wide; a test hits it by luck only, and no test can show that a given interleaving is safe for every mix of goroutines.", "anchors": ["msc_client/session/session.go:Close", "msc_client/session/session.go:startReceiver", "msc_client/session/session.go:HealthCheck", "msc_client/session/session.go:ActiveTest", "msc_client/session/on_traffic_cmpp.go:sendByCmpp", "msc_client/session/on_traffic_cmpp.go:onTrafficCmpp", "msc_client/session/on_traffic_sgip.go:onTrafficSgip", "msc_client/session/on_traffic_smgp.go:onTrafficSmgp", "msc_client/api.go:SendN", "msc_client/session_factory.go:PeekSession", "msc_client/session_factory.go:RegCloseSessionsHooker"]}
{"id": "C113", "title": "The parts of different long messages find together at the recipient", "statement": "When several long messages go to one recipient and all their parts arrive, in whatever order, the recipient's phone, which puts together parts with the same reference and total, shows every message once, made of its own parts, and nothing else. A text of any length can be sent this way.", "quantifier": "all numbers of long messages, all texts and package sizes, all times of sending, all orders of arrival", "why_tests_cant": "The reference is the low byte of the clock: whether two messages collide depends on the nanosecond they are sent, so a test collides once in 256 runs, and the phone that mixes them up is not part of the test.", "anchors": ["utils/utils.go:ToTPUDHISlices", "utils/utils.go:MsgSlices", "codec/cmpp/submit.go:NewSubmit", "codec/smgp/submit.go:NewSubmit", "codec/sgip/submit.go:NewSubmit"]}
{"id": "C114", "title": "Choosing a session while the list of sessions is rebuilt", "statement": "A sender may look for a session of a carrier while the maintenance sorts, shortens, replaces and extends the list of its sessions and while connections are lost. Whatever the order, the sender does not crash, and the session it is given can be used at that moment and is one of the carrier's current sessions.", "quantifier": "any number of senders, every interleaving of their single reads of the list with maintenance, connection attempts with any outcome, lost connections and the hooks of a stop, every configured number of connections", "why_tests_cant": "The list has to be emptied between two neighbouring reads of one statement; no test hits that on purpose, and no test shows that everything else is safe.", "anchors": ["msc_client/session_factory.go:PeekSession", "msc_client/session_factory.go:lruSort", "msc_client/session_factory.go:newConnect", "msc_client/session_factory.go:RegCloseSessionsHooker"]}
{"id": "C115", "title": "A submit to many numbers at the server's framing", "statement": "Every packet the library builds and encodes for a submit to a list of numbers is handed on by a server of the same protocol: as one packet with exactly its octets, whatever follows on the connection, and the connection stays open.", "quantifier": "the three protocols, all lists of numbers, texts, options, account settings and sequence numbers, every part of a long text, all octets that follow", "why_tests_cant": "The tests submit to a handful of numbers and never send the encoded frame through the server's header check; the limit depends on protocol, version, number of numbers and length of the part together.", "anchors": ["codec/cmpp/submit.go:NewSubmit", "codec/cmpp/submit.go:Encode", "codec/sgip/submit.go:NewSubmit", "codec/sgip/submit.go:Encode", "codec/smgp/submit.go:NewSubmit", "codec/smgp/submit.go:Encode", "msc_server/server/on_traffic.go:DecodeAndCheckHeader", "codec/packer.go:PacketMax"]}
{"id": "C116", "title": "Times on the wire denote the instants asked for", "statement": "The end of validity in every submit packet the library builds denotes, read by the protocols' time format, the second at which the account's validity ends, counted from the moment the packet is built; the scheduled time denotes the second of the time.Time given with the option MtAtTime.", "quantifier": "the three protocols, all instants of the 21st century, all time zones of the process and of the time given (with any changes of the clock), all validities, texts, numbers and options, every part of a long text", "why_tests_cant": "The tests run on clocks of one zone and check that the field is there, not which instant it denotes; the calendar rules are only met at month ends, leap days and century years.", "anchors": ["utils/utils.go:FormatTime", "codec/options_mt.go:MtAtTime", "codec/cmpp/submit.go:SetOptions", "codec/sgip/submit.go:SetOptions", "codec/smgp/submit.go:SetOptions"]}
{"id": "C117", "title": "The time stamp of a login tells its second", "statement": "The stamp of a CMPP or SMGP login is the ten digits of month, day, hour, minute and second the clock shows, its number is exactly the value of these digits, a server that holds the account accepts the login whenever it is made, and logins made in different seconds carry different stamps.", "quantifier": "all instants (any year), all time zones with any changes of the clock, all accounts and sequence numbers", "why_tests_cant": "A test sees one instant on one clock; stamps with leading zeros, the largest stamp, leap years and the hour repeated when clocks are put back need the calendar as a whole.", "anchors": ["utils/utils.go:Now", "utils/utils.go:TimeStamp2Str", "codec/cmpp/connect.go:NewConnect", "codec/smgp/login.go:NewLogin"]}
{"id": "C118", "title": "BCD message ids in real time", "statement": "Every message id an SMGP server makes carries the month, day, hour and minute its clock shows, and no id is given out twice as long as fewer than a million are made in a minute, also over the turn of the year, when clocks are changed and when the process is started again.", "quantifier": "all worker codes, all time zones with any changes of the clock, all sequences of calls at instants in any year", "why_tests_cant": "A test runs for seconds on one clock; an id only comes again when a minute does, after a year, a change of the clock or a restart within the minute.", "anchors": ["utils/bcd_sequence.go:NewBcdSequence", "utils/bcd_sequence.go:NextVal"]}
{"id": "C119", "title": "A packet number is given out within a second", "statement": "However many packet numbers are asked for in a second, every call for one returns at the latest with the first reading of the clock in the next second.", "quantifier": "all generators and their states, all time zones with any changes of the clock, all instants at which the clock is read", "why_tests_cant": "It takes 513 numbers in one second of the day, in the second before midnight or before clocks are put back.", "anchors": ["utils/snowflake32/snowflake32.go:NextVal", "utils/snowflake32/snowflake32.go:passedSeconds"]}
{"id": "C120", "title": "No answer that was not asked for", "statement": "Every packet a server writes whose command marks it as an answer answers a packet received before on the same connection: its command is that packet's with the top bit set and it carries that packet's sequence number (in SGIP all twelve octets). At no moment have more answers been written with a command and number than requests for them have been received, so a client that does not use a sequence number twice with one command gets no two answers alike. Everything else the server writes is a heartbeat, a request to end, or a message for the client.", "quantifier": "every protocol and account store, every order of reads, goroutine steps, writes, ticks and closes on a connection, every cutting of the input into segments, every moment, every choice of commands and sequence numbers", "why_tests_cant": "Answers are built by concurrent goroutines and written from a queue; that none is written twice, under another's number or before its request in any interleaving and for any input is not seen from example sessions.", "anchors": ["msc_server/server/on_traffic.go:sendSubmitResponse", "msc_server/server/cmpp_connect.go:handleCmppConnect", "msc_server/server/sgip_bind.go:handleSgipBind", "msc_server/server/smgp_login.go:handleSmgpLogin", "msc_server/server/cmpp_active.go:handleCmppActive", "msc_server/server/cmpp_terminate.go:handleCmppTerminate", "msc_server/server/on_tick.go:OnTick"]}
{"id": "C121", "title": "A client sends only under its own number", "statement": "A submit is taken (status 0) only if the number it is sent from starts with the display number of the account the client is logged in as and its priority exists in the protocol; otherwise it is refused.", "quantifier": "every protocol and account, every submit packet, every reachable logged-in state with a free place in the window, every interleaving", "why_tests_cant": "The test clients send under their own numbers with priorities that exist, so a check whose outcome is thrown away looks the same as one that counts.", "anchors": ["msc_server/server/cmpp_submit.go:cmppSubmitPacketCheck", "msc_server/server/sgip_submit.go:sgipSubmitPacketCheck", "msc_server/server/smgp_submit.go:smgpSubmitPacketCheck", "msc_server/server/cmpp_submit.go:handleCmppSubmit"]}
{"id": "C122", "title": "A result can be asked for as long as the settings say", "statement": "Once a send has returned its query id, the id finds the result of each of its packets until the configured cache time has passed since that packet was sent, whatever else the client does, and finds nothing any more one check interval later, so that finished sends do not pile up. Every setting of the cache time and of the check interval is taken; a missing one stands for a minute and a second.", "quantifier": "every run of the client before and after the send, every interleaving with other sends, answers and sweeps, every setting and clock", "why_tests_cant": "the time window holds over all interleavings of sends, answers and sweeps and all settings; a test waits for one of them", "anchors": ["msc_client/session_factory.go:StartCacheExpireTicker", "msc_client/session_factory.go:cleanQueryCacheMap", "msc_client/api.go:Query"]}
{"id": "C123", "title": "The times in a delivery report", "statement": "The delivery report the server simulates tells, in the local time of the server and to the minute, when it was made and when its message was done: after the report has gone over the wire both times read back as minutes of the clock, and the time at which an SMGP report is handed on reads back to the second. The done time is never before the submit time and never later than the moment the report is made.", "quantifier": "for all messages, message numbers, instants of this century, time zones (constant offset for the order of the two times) and sequence values", "why_tests_cant": "the times come from the clock at the moment of the call, so a test sees one instant; whether the done time lies in the future depends on the second of the minute and on the zone", "anchors": ["codec/cmpp/submit.go:ToDeliveryReport", "codec/cmpp/report.go:NewReport", "codec/smgp/deliver.go:NewDeliveryReport", "codec/smgp/report.go:NewReport"]}
{"id": "C124", "title": "Sends do not hold up the freeing of old results", "statement": "The client never runs more background jobs at once than configured (ten if less is configured), and however many sends are under way, a round of the sweeper frees the old results, hands them to the journal and goes on to the other caches.", "quantifier": "for all pool sizes, numbers of sends and results, and all interleavings of sends, ends of jobs, sweeper statements and shutdown", "why_tests_cant": "it needs a full worker pool at the moment a sweep round begins, with sends that wait for a slow gateway", "anchors": ["msc_client/bootstrap.go:poolInit", "msc_client/session_factory.go:StartCacheExpireTicker", "msc_client/session_factory.go:cleanQueryCacheMap", "msc_client/api.go:PersistenceSmsJournal", "msc_client/cmd/client.go:main"]}
{"id": "C125", "title": "The credentials of the database", "statement": "The database is connected to under the configured address with the user name and the password of the environment in their places, whatever characters they contain; without one of them nothing is connected to. The password does not get into the log.", "quantifier": "for all addresses with any number of places, all user names and passwords, all outcomes of the connection", "why_tests_cant": "a test needs a database and looks at one address and one pair of credentials; what is logged depends on where the places are", "anchors": ["database/mongodb/mongo.go:setConnect", "database/mongodb/mongo.go:InitDB"]}
{"id": "C126", "title": "Identifier generators used by many goroutines at once", "statement": "However many goroutines ask one generator for values at the same time, the values handed out are those of one call after the other, in the order the calls end: packet numbers do not repeat within 2^26, the 64-bit and 32-bit ids increase while the clock does not go back, BCD ids of a minute repeat only a million ids apart, SGIP counts do not repeat within 2^32.", "quantifier": "for all numbers of goroutines, all interleavings of their statements, all clock readings, all states of the generator at the start", "why_tests_cant": "the race detector and stress tests see a few schedules; a value lost between two goroutines needs one of them", "anchors": ["codec/sgip/sequence.go:NextVal", "utils/cycle_sequence.go:NextVal", "utils/snowflake/snowflake.go:NextVal", "utils/snowflake32/snowflake32.go:NextVal", "utils/bcd_sequence.go:NextVal"]}
{"id": "C127", "title": "The current value of an SGIP generator", "statement": "Asking an SGIP generator for its current value at any moment, while any number of goroutines ask it for new ones, gives the value handed out last (before the first: the one it was made with), or the one the running call is about to hand out.", "quantifier": "for all generators, numbers of goroutines, interleavings of their statements and clock readings, all moments of asking", "why_tests_cant": "a value torn between two calls needs a read within a few instructions and two calls in different seconds", "anchors": ["codec/sgip/sequence.go:CurVal", "codec/sgip/sequence.go:NextVal"]}
{"id": "C128", "title": "Looking up accounts while the store is reloaded", "statement": "A lookup made while the store is being reloaded finds each account as it was before the reload or as it is after, never nothing for an account that was there, and never the earlier one again once the later has been found; and it is answered without waiting for the storage the accounts come from.", "quantifier": "for all contents of the store before, all directories and collections reloaded, any number of goroutines looking up, all interleavings of their statements with those of the reload", "why_tests_cant": "reloads are minutes apart and take milliseconds; the lookups that matter fall between two statements of one", "anchors": ["auth/yaml_store.go:Load", "auth/yaml_store.go:FindByCid", "auth/mongo_store.go:Load", "auth/mongo_store.go:FindByCid"]}
{"id": "C129", "title": "The profiling interface beside the services", "statement": "The profiling interface is there only when it is switched on, and then answers only requests made on the machine itself, as the log says; whether it can be opened or not, the services go on.", "quantifier": "for all ports configured, all ports other processes hold, all orders in which main and the goroutines it starts run", "why_tests_cant": "tests run with the shipped ports on a machine where they are free, and ask from that machine", "anchors": ["msc_server/cmd/gosmc.go:pprofDebug", "msc_server/cmd/gosmc.go:main", "msc_server/server/server.go:Start"]}
{"id": "C130", "title": "What a query hands out belongs to the caller", "statement": "What a query has returned stays as it is, and what the application does with it changes neither what later queries show nor what is written to the journal, and cannot end the client.", "quantifier": "for all runs of sends, queries, answers, reports and sweeper rounds, and everything the application does with the returned list and the results in it", "why_tests_cant": "a test looks at a result once, right after the query; the sharing shows when somebody keeps or changes it", "anchors": ["msc_client/api.go:Query", "msc_client/api.go:saveQueryCache", "msc_client/session_factory.go:cleanQueryCacheMap", "msc_client/session/send_sms.go:Result"]}
{"id": "C131", "title": "The text of a generator shows its last value", "statement": "At every moment the text of an identifier generator is the text of the value it handed out last: fixed width, readable back to that value, and different for different values.", "quantifier": "for all generators, node numbers, states, clock readings and moments, also while another goroutine draws a value", "why_tests_cant": "the wrong texts need a generator before its first call, a clock beyond the representable time, or a read between two assignments of a running call", "anchors": ["utils/snowflake/snowflake.go:String", "utils/snowflake32/snowflake32.go:String", "utils/cycle_sequence.go:String", "codec/sgip/sequence.go:String", "codec/sgip/sequence.go:CurVal"]}
{"id": "C132", "title": "The log shows the optional parameters of a submit completely", "statement": "The log line of an SMGP submit shows its optional parameters, all of them, in their order, with tag, length and value; from the text exactly these parameters can be read back, so two submits show the same text exactly when they carry the same parameters.", "quantifier": "for all octets received as a submit and all lists of parameters, of any length and with any values", "why_tests_cant": "that no other list has the same text quantifies over all pairs of lists", "anchors": ["utils/tlv.go:String", "codec/smgp/submit.go:Log", "codec/smgp/submit.go:Decode", "utils/tlv.go:Read"]}
{"id": "C133", "title": "SMGP packets as texts show the beginning of the message", "statement": "The text form of an SMGP submit or delivery exists for every packet that was received, and of the message it shows the first six octets (or all of a shorter one) and nothing else.", "quantifier": "for all octets received as submit or delivery, all character decoders and every room behind the content in memory", "why_tests_cant": "the text form is right for every message of more than six octets; it fails for the short last part of a long message and depends on the memory behind the content", "anchors": ["codec/smgp/submit.go:String", "codec/smgp/deliver.go:String", "codec/smgp/submit.go:Decode", "codec/smgp/deliver.go:Decode"]}
{"id": "C134", "title": "A delivery report in the log leads to its message", "statement": "The log line of a delivery report names the message it belongs to in the text in which the log shows that message elsewhere - CMPP and SMGP: the message id in the line of the answer to the submit, SGIP: the sequence in the line of the submit - so that the two texts are the same exactly when the message is; the line of any delivery shows the number it came from and the number it was sent to.", "quantifier": "the three protocols, all reports, answers, submits and deliveries received or made, all identifiers", "why_tests_cant": "whether the two texts agree depends on the size of the identifier: the standard's identifiers, whose first digit is the month, agree, those of the library's own server do not until 2028", "anchors": ["codec/cmpp/report.go:String", "codec/cmpp/submit.go:Log", "codec/cmpp/delivery.go:Log", "codec/cmpp/delivery.go:Decode", "codec/smgp/report.go:String", "codec/smgp/submit.go:Log", "codec/smgp/deliver.go:Log", "codec/sgip/header.go:Log", "codec/sgip/report.go:Log", "utils/utils.go:Uint64HexString"]}
{"id": "C135", "title": "The log line of a submit or delivery shows what stands in the packet", "statement": "The log line written about a received submit, delivery or report shows each field of the packet under its own name: service, sender, client, times, fees, flags, formats, numbers of parts, the number of recipients and the length of the text are those that stand at the protocol's places in the packet.", "quantifier": "all octets received as a submit, delivery or report in the three protocols and all versions, every number of recipients", "why_tests_cant": "some forty fields whose places depend on the version and on the number of recipients; one length is wrong only from thirteen recipients on", "anchors": ["codec/cmpp/submit.go:Log", "codec/cmpp/submit.go:Decode", "codec/sgip/submit.go:Log", "codec/sgip/submit.go:Decode", "codec/smgp/submit.go:Log", "codec/smgp/submit.go:Decode", "codec/cmpp/delivery.go:Log", "codec/cmpp/delivery.go:Decode", "codec/sgip/deliver.go:Log", "codec/sgip/report.go:Log", "codec/smgp/deliver.go:Log"]}
