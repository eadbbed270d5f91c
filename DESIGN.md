# Verification design for hrygo/gosms

Status: every property of `properties.jsonl` has a model, theorems and a claim in `MANIFEST.json`.
The list and the model still grow; the sections below are kept current.

## Approach

- Rocq (Coq 8.16.1) model of the Go code, function by function, in `rocq/theories`.
- Bytes are `Z` values with a range predicate; byte strings are `list Z`; Go strings are byte strings.
- Fixed-width arithmetic is written with explicit `mod 2^k` (`u8`, `u16`, `u32`, `u64`, `i32`, `i64` in `Base.v`).
- Slicing, indexing and `copy` are explicit functions that return `Panic` when Go would; a returned Go error is `Err`.
- Whatever the environment decides is a parameter or comes with an event and is universally quantified in the theorems.
- Concurrency is modelled by small-step interleavings of the code's atomic steps; theorems are about all event lists.
- Specifications live apart from the model (`Spec*.v`, or a marked block at the head of a `Prop*.v` file). Property theorems
  are in `Prop*.v`; each is followed by `Print Assumptions` and a concrete case (`Example`) meeting its hypotheses.
- A property that is false of the code is refuted by a theorem (`Cxx_refuted…`), as general as the failure is; what does
  hold is proved as `Cxx_…_partial`, wherever possible with the exact condition (an "if and only if"). Its claim has status
  `partial` and its note starts "REFUTED as stated."
- Theorems are tested against wrong programs: `seeded/LOG.jsonl` lists, for each edit of a definition of the model, which
  theorems no longer prove. Where the claim was broken and nothing failed, a theorem was tightened.

## Trusted base

1. Coq's kernel (8.16.1), including `vm_compute` conversion (used for finite sweeps and for the Examples).
2. Assumptions of the theorems: `Print Assumptions` answers "Closed under the global context" for every theorem of
   `MANIFEST.json`. No axiom is declared in the development; there is no `Admitted`, no `Variable` or `Hypothesis` outside
   a section, no functor or module type, no kernel check is switched off. `coqchk -o` and `vcheck` also list the seven
   library axioms of `Coq.ssr.ssrunder.Under_rel` (`Under_rel`, `Under_relE`, …, loaded with the standard library's
   tactics) and none else; no theorem depends on them.
3. That the model says what the code does. Every definition cites the file and lines it models; simplifications are in the
   comment at the definition, the important ones below.
4. That the statements in `Prop*.v` and `Spec*.v` say what the English of `properties.jsonl` says.

## Assumptions about what is not in the repository

| Library or facility | How it enters |
|---|---|
| Go `int` lengths and indices | unbounded `Z` (slice lengths stay far below 2^63) |
| `append`, slices sharing memory | values, except where aliasing matters (StructCopy, results: an explicit memory) |
| MD5 (`crypto/md5`) | any function `md5 : bytes -> bytes` (16 byte results where a length matters, stated as a hypothesis) |
| GB18030 (`x/text`) | any partial functions `gbe`, `gbd`; round-trip hypotheses stated where used |
| UTF-8 decoding, UTF-16 (`x/text/encoding/unicode`, `range` over a string) | modelled (UtilsModel, UtfProofs) |
| clock, random numbers, dice | values coming with the call or the event, any values |
| `time.Format` for the layouts of submits, logins and BCD message ids | modelled (TimeModel: Go's calendar arithmetic, any time zone as a function from instants to offsets); reports: PropDone; the formatted times of other deliveries are any texts |
| `rate.Limiter` | a boolean per call in the connection model; in `RateModel` a token bucket in exact arithmetic (the library uses float64) |
| gnet v2.1.0 | `OnTraffic` once per read event with the unread bytes kept; `Peek`/`Discard` of n <= 0 as the parameter `drain`, both values; `AsyncWrite` queues and the event loop runs writes and callbacks in order; what is queued at the close is dropped; `OnClose` runs once; after a refusing `OnOpen` it runs or not: parameter `po_calls`; a panic on an event loop ends the process |
| ants v2 pools | `Submit` accepts or refuses (with the event); a panic of a task is caught by the PanicHandler. The session pool makes its caller wait when it is full: left out in `ServerModel` (the event simply happens later), explicit in `LoopModel`, where one event loop has many connections; a pool of size <= 0 has no bound |
| Go channels, `sync.Mutex`, `sync.Map` | modelled explicitly where behaviour depends on them (window channels, cancel channel, event registry, session counter), else one atomic step per operation; data races on plain fields are atomic reads and writes |
| `regexp` | a parser and matcher for the part of the syntax the shipped segments use (FactoryModel) |
| `sort.Sort` | any permutation sorted by the comparator |
| YAML and BSON decoding | any function from file content or document to a client record, or an error |
| `net.Conn.Read`, `net.Dial` | any division of the stream into reads; success or failure with the event |
| Go 1.18 `range` | one variable per statement, captured by reference by closures (MainModel's sender) |
| `os/signal` | a non-blocking send to the registered channel; without registration the signal's default action ends the process; a send on the closed channel panics |
| file system | a pid file without O_TRUNC keeps what lies behind the bytes written; reading a directory or file succeeds or fails with the event |
| viper configuration | the values of the keys, as parameters; a success rate written with four decimals is the double nearest to it |
| float64 | `Coq.Floats.SpecFloat` (IEEE 754 division and comparison as Gallina functions, no axioms) |

## What is modelled

| Code | Model file |
|---|---|
| utils/utils.go | UtilsModel, TimeModel (Now, FormatTime; elsewhere their results are parameters), AuthModel (StructCopy), MockModel (RandNum, DiceCheck; elsewhere their results are parameters) |
| utils/bcd_sequence.go, cycle_sequence.go, snowflake/, snowflake32/, codec/sgip/sequence.go | UtilsModel, SeqModel, ShareModel (statement by statement, many goroutines) (TimeModel drives bcd_sequence and snowflake32 by instants); String and CurVal: PropGen |
| utils/tlv.go | TlvModel, LogModel (String methods) |
| event_manager/event_manage.go | EventModel |
| codec/options_mt.go, auth_conf.go, packer.go | OptionsModel, CmppModel, FrameModel |
| codec/cmpp: header, connect, submit, delivery, report, active, terminate, variables | CmppModel |
| codec/sgip: header, bind, submit, deliver, report, unbind, variables | SgipModel |
| codec/smgp: header, login, submit, deliver, report, active, exit, variables | SmgpModel |
| msc_server/server/on_traffic.go, chain_*.go | FrameModel |
| msc_server/server: session.go, all handler files, on_tick.go, on_close.go, sendTerminate, activeTest; the account store may hold other contents at every step (o_gen) | ServerModel (the packet checks of the submit handlers with the value they drop: SubmitPacketCheck in PropSource) |
| msc_server/server: server.go, on_open.go, on_close.go counters and limits | PoolModel |
| codec/smgp/submit.go, deliver.go: String (the part that shows the message) | PropForm |
| msc_client/api.go, session/send_sms.go, session/on_traffic_*.go, sweepers of session_factory.go | ClientModel, PropHand (the memory shared with the application) (StartCacheExpireTicker: PropKeep; cleanQueryCacheMap statement by statement with the worker pool of poolInit: PropJobs) |
| msc_client/session/session.go: receiver, NewSession, login; Close statement by statement | RecvModel, CloseModel |
| msc_client/session/session.go: HealthCheck with its heartbeat, ActiveTest | BeatModel (over ClientModel, where HealthCheck is its verdict only) |
| msc_client/session/session.go Close, HealthCheck, ActiveTest, AddCounterN, startReceiver; on_traffic_*.go; send path of api.go; lruSort and the shutdown hook of session_factory.go: their accesses to the session's fields, statement by statement | UseModel (sequentially consistent; contents left to ClientModel) |
| msc_client/session_factory.go PeekSession read by read beside lruSort, newConnect and the hooks | RaceModel (on StopModel) |
| msc_client/session_factory.go: SelectSession, PeekSession, lruSort, newConnect | FactoryModel |
| auth/*.go, msc_server/utils.go, FindAuthConf | AuthModel, PropDesk (the lock of the stores, reload and lookups interleaved) |
| submit and send limits built from the account and session settings (limiter construction, setting defaults) | RateModel |
| msc_server/bootstrap.go, msc_client/bootstrap.go: SeqInit | BootModel |
| msc_server/bootstrap.go, msc_client/bootstrap.go: setBasePath, logInit; msc_server/custom_log.go | StartModel |
| msc_client/session_factory.go: CreateSessionFactory, SelectSession up to the unlocking, ISP.Int | CreateModel (the choice alone: FactoryModel, RouteModel) |
| msc_server/cmd/gosmc.go: main (from the start of the services), msc_server/server/server.go: Start, the process as a whole | WholeModel; PropDebug (pprofDebug, the ports being opened) (gnet is taken not to react to signals itself) |
| msc_server/server/session.go: createSessionSidePool, the pool of completeLogin, one gnet event loop with all its connections | LoopModel (over ServerModel; what a handler does before Submit is done when Submit returns, LoopProofs.recv_like) |
| msc_client/session_factory.go: PeekSession's wait and the maintenance loop over time | PickModel |
| msc_client/session_factory.go: shutdown hooks against maintenance, open connections (also of refused logins) | StopModel |
| msc_server/server/on_tick.go: mockDelivery | MockModel |
| msc_client/session_factory.go: the lock in SelectSession around choosing and setting up | RouteModel |
| msc_client/api.go PersistenceSmsJournal: batches, worker pool, InsertMany | JournalModel |
| The `Log` methods of codec/cmpp, codec/sgip, codec/smgp, the `String` methods they use, msc_server/server/log_utils.go FlatMapLog and Packet2HexLogStr, the lines written while a login or a submit is handled, the client's login line | LogModel |
| The tables of result codes and their texts: codec/cmpp ConnectStatusMap, SubmitResultMap, DeliveryResultMap, codec/sgip ResultMap, codec/smgp StatMap, and the `String` methods that use them | StatusModel |
| msc_client/cmd/client.go (sending goroutine), auth/client_store.go (New, startTicker), database/mongodb InitDB, msc_server/cmd/gosmc.go savePid, destory.go of both | MainModel |

## What is not modelled

- Logging beyond LogModel: `LogSession`'s own fields (given as a list), how the log library renders and
  writes a line. `LogCounter` of a nil session panics, and that is in PoolModel.
- `main` functions beyond the parts in MainModel, configuration files and their reloading, what the profiling interface answers.
- `database/mongodb`: connecting beyond its address, its success or failure and the line logged (PropMongo); how the driver turns a result into a document.
- Memory limits, timing (sleeps take no model time), the Go scheduler's fairness. Liveness is stated as "reachable when the
  goroutine is scheduled", or refuted by a state no step leaves.
- AsyncWrite's own error return (a failed poll trigger).
- In the server machine the mock delivery's packet is any bytes with the tick event; the packet itself is in MockModel.

## Plan per property

- **C01 Splitting a long message loses and alters nothing** - Utils model of the split loop over byte lists with explicit slice bounds; separate GSM reassembly spec (drop 6, concat). Expected to be refuted; the exact reassembly result is proved for all inputs.
- **C02 Every part of a split message is well formed** - Same model; header/number/size facts by induction on the part index.
- **C03 A message that fits into one package is sent as one package, unmodified** - Same model; boundary length expected to refute; guarded version proved.
- **C04 Message format selection** - UTF-8 decoder model (Go rune loop) and a separate relational spec of valid UTF-8 as the concatenation of encoded scalar values; induction on the scalar list.
- **C05 UTF-8 to UCS-2 conversion is lossless and rejects bad input** - UTF-16BE encoder/decoder model of x/text; round trip by induction on scalar values.
- **C06 Fixed-width string fields** - Direct list model; algebra of firstn/repeat.
- **C07 BCD conversion** - Loop model with the Go accumulator state; two-step induction; nibble facts by arithmetic.
- **C08 Numeric rendering is exact, fixed width and injective** - Digit-by-digit models; positional value spec; injectivity from value.
- **C09 Packet sequence numbers do not repeat within the period** - State machine with 32-bit wrap-around; closed form seq_k = (seq_0+k) mod 2^26.
- **C10 Two nodes never hand out the same packet sequence number** - Int32 shifts written with explicit wrap; expected to be refuted (datacenter 0 and 2); exact collision condition proved.
- **C11 64-bit message ids strictly increase** - NextVal over an oracle clock stream; invariant over call lists; strict monotonicity.
- **C12 64-bit message ids identify their origin** - Bit-field arithmetic; parse(gen)=fields; injectivity.
- **C13 64-bit message ids are unique under any clock** - Expected to be refuted with a clock stepping back.
- **C14 32-bit ids are unique within a day and identify their origin** - As C11/C12 for the 32-bit generator.
- **C15 The 32-bit generator always answers** - Spin loop as a relation / fuel; expected to be refuted: at second 86399 no fuel suffices for any clock; guarded liveness proved elsewhere.
- **C16 BCD message ids** - Generator over clock trace of minute stamps; decimal digit algebra.
- **C17 SGIP sequence numbers** - seq_k = s0+31k mod 2^32, 31 invertible.
- **C18 TLV lists survive the wire** - Writer/reader over byte lists with Go EOF semantics; induction on the list.
- **C19 Truncated TLV data is reported** - Expected to be refuted for cuts after the type or after the header; exact classification of all cuts.
- **C20 TLV list editing** - Model the remove-first loop with fuel, prove equal to filter spec.
- **C21 Event registry semantics** - Association-list table; refinement to an abstract map over operation lists; trace of handler invocations.
- **C22 Prefix calls hit exactly the registry's own keys** - Prefix filter spec over the table, for any iteration order.
- **C23 Concurrent registration of one key has one winner** - Small-step interleaving of lookup and store; expected to be refuted.
- **C24 Shutdown hook signals once after the hooks** - Channel of capacity 1 as a counter; second shutdown expected to block: refuted/guarded.
- **C25 Submit options: last valid setting wins** - Options as functions over a record; fold; last-writer spec.
- **C26 Submit options override the account configuration, otherwise the account configuration applies** - Resolution functions per protocol; SMGP expected to be refuted.
- **C27 A prepared option set can be passed as an option** - Expected to be refuted (the option is a no-op).
- **C28 Packet headers survive the wire** - Big-endian put/get lemmas.
- **C29 CMPP login request on the wire** - Frame writer model = rendered field table; decoder inverts it.
- **C30 CMPP login authentication** - MD5 as a universally quantified function; decision procedure iff spec.
- **C31 CMPP login response on the wire** - As C29.
- **C32 CMPP submit wire layout** - Sequential frame writes = rendered field table for any phone count; over-long fields cut.
- **C33 CMPP submit survives the wire** - Decoder model over slices with panics; round trip. Text transcoding part expected to be refuted for long ASCII.
- **C34 CMPP submit to many numbers** - uint8 product in the 2.x decoder; expected to be refuted for n>=13; proved below.
- **C35 CMPP submit/deliver responses, heartbeat and terminate on the wire** - As C29.
- **C36 CMPP delivery (MO) survives the wire** - As C33; destination/service id expected to be refuted; the rest proved.
- **C37 CMPP delivery report survives the wire** - As C29.
- **C38 SGIP session packets on the wire** - As C29.
- **C39 SGIP submit wire layout and round trip** - As C32/C33.
- **C40 SGIP deliver and report survive the wire** - As C33; report command expected to be refuted.
- **C41 An over-long text field cannot corrupt neighbouring fields** - Non-interference of layouts; SGIP expected to be refuted.
- **C42 SMGP login** - As C29/C30; ids shorter than 8 expected to be refuted.
- **C43 SMGP submit wire layout and round trip** - As C32/C33 with TLVs; part numbers expected to be refuted.
- **C44 SMGP deliver and report survive the wire** - As C33; lengths expected to be refuted for reports and 4-byte characters.
- **C45 Responses answer their request** - Case analysis on ToResponse models; SMGP deliver expected to be refuted.
- **C46 No packet body can crash the decoder** - Every decoder model is total with an explicit Panic result; exact panic conditions; refuted with witnesses.
- **C47 Server framing is independent of TCP segmentation** - Inbound buffer state machine; invariant over all read lists.
- **C48 A completely received packet is handled without further input** - Expected to be refuted: one packet per read event.
- **C49 Illegal packets close the connection and are never handled** - Case analysis of header checks and handler chain.
- **C50 Only authenticated sessions are served** - Session state machine over event lists; invariant.
- **C51 Each submit of a logged-in client gets exactly one answer** - Same machine with limiter oracle; count of responses.
- **C52 The processing window is never exceeded** - Semaphore transition system with any number of workers; invariant.
- **C53 The processing window survives re-login and close** - Same system with replace/close; expected to be refuted.
- **C54 The connection limit holds and the session count is exact** - Open/close machine; sequential invariant; refused connections and interleaving expected to be refuted.
- **C55 Per-client connection limit** - Login machine with deferred completion; sequential invariant; concurrent refuted.
- **C56 Dead peers are detected** - Tick machine over timed event lists.
- **C57 Submit responses reach the query result** - Cache keyed by dynamically typed keys; SGIP refinement; CMPP/SMGP refuted.
- **C58 Delivery reports reach the query result** - Same caches.
- **C59 Send and query** - Send loop over optional sessions; query; empty result crash refuted.
- **C60 The result sweeper hands over every expired result exactly once** - Fold with batch accumulator; concat of batches = expired results.
- **C61 Client framing is independent of TCP segmentation** - Reader with per-call read sizes; whole reads proved, fragmentation refuted.
- **C62 Closing a client session** - Close steps interleaved; sequential idempotence proved, concurrent refuted.
- **C63 Session selection prefers healthy, least used sessions and respects the connection limit** - Sort with the Go comparator as any sorted permutation; filtering and refill.
- **C64 Numbers are routed to the carrier owning their segment** - Regex as matcher functions for the shipped alternatives; disjointness.
- **C65 A session is only handed out after a successful login** - Login function over gateway answers; short-read case refuted.
- **C66 Credential lookup** - Store model over file names; lower-casing; refuted for upper case ids.
- **C67 Revoked clients disappear at reload** - Reload model; refuted.
- **C68 Handed-out account data is a faithful, independent copy** - Field-wise copy model over named fields.
- **C69 Login end to end: client and server agree** - Composition of the client's login packet, the server machine (C47, C50) and the client's reader; a fragmented answer expected to be refuted.
- **C71 The submit rate of a client is limited as configured** - Token bucket in exact arithmetic with potential argument; lifted to the server machine; truncated period and re-login expected to be refuted.
- **C76 The client's sending limits follow its settings** - Same bucket; the wrong variable in the test of the window size expected to be refuted.
- **C72 The sweepers free exactly the expired cache entries** - Invariants on the keys of the two maps over the client machine; entries under outdated message ids expected to be refuted.
- **C73 No packet of a gateway can crash the client** - Handler model with explicit panics composed with the decoders' exact crash conditions (C46); expected to be refuted; exact condition for open and closed sessions.
- **C74 Processes configured apart never produce the same identifier** - BootModel/PropBoot. 64-bit, BCD and SGIP node: proved. 32-bit: the B32 block is never read; exact collision condition on the B64 block. SGIP worker: start value 8*dc+worker, exact collision condition; any two processes of one node meet.
- **C75 A sender gets a session while a usable one exists** - PickModel/PropPick. Exact condition for the wait to end; a maintenance round puts the least used healthy session in front; refuted by three universal hangs (head fails during the connect loop, head closed after shutdown, no session and gateway unreachable).
- **C77 Simulated incoming messages arrive as configured** - MockModel/PropMock. strings.Split modelled and specified by first occurrences; composed with the delivery round trips C36 and C44. CMPP destination and texts with a separator expected to be refuted.
- **C78 The simulated success rate is the configured one** - MockModel/PropMock. float64 division and comparison as SpecFloat; threshold lemma by monotonicity, all 10001 rates swept by the kernel; the comparison is strict, so one draw too few fails.
- **C70 A query shows the server's answer to that very message** - Composition: an invariant of the client's log (what is written, recorded, received; SubmitEndProofs.v) with the server's framing and answer theorems (C47, C51) over two byte streams; CMPP and SMGP expected to be refuted (C57).
- **C79 The statistics saved for a connection are exact** - PropCounters. Invariant: every queued write carries the callback of its kind; the counters equal counts over the log of written packets.
- **C80 A simulated delivery report carries a documented final state** - proved; PropReportState.v over SpecReport.v (tables of the states).
- **C81 The command line client sends to every listed number** - MainModel/PropSender. The loop variable shared by the jobs (go 1.18) as a cell per range statement; any order of loop rounds and job starts. Expected to be refuted; positions only move forward.
- **C82 The account store comes up with every configuration and stays up over reloads** - MainModel/PropStore. Exact condition for the server being up after any number of ticks; refuted for unknown types, missing address, unreadable files at a reload.
- **C83 The pid file names the running process** - MainModel/PropSignals. Decimal rendering and overwrite without truncation; exact condition; refuted for every pair with a longer earlier pid.
- **C84 A stop signal ends the process in order** - MainModel/PropSignals. Handler, main and signals as an interleaving machine; invariant; three windows refuted.
- **C85 Sends do not hold up one another while choosing their carrier** - state machine of the lock and the loop (RouteModel), invariant over all interleavings; refuted for a panic under the lock and for a gateway that does not answer.
- **C86 Every result of a send ends up in the journal once** - the client of ClientModel with a queue of batches and the database (JournalModel); every result in exactly one of four places by invariant; losses refuted for all continuations.
- **C87 The log does not give a password away** - log lines as lists of fields (LogModel); noninterference over two passwords or secrets, readers of the line refute it at debug level, on pool refusal and by replay.
- **C88 The log shows at most the first six octets of a text** - reading the field back with an independent hexadecimal reader; noninterference in the rest of the text; the packet dump refutes it.
- **C89 Making a log line never fails and lists the recipients** - totality of every Log function, exact condition where it can panic; the recipients read back by cutting at commas.
- **C90 Stopping the client closes its connections** - small-step model of hooks and maintenance goroutine with the shared slice (StopModel); invariants over all interleavings, runs with any configured number refute it.
- **C91 The client holds no more connections than configured** - same model (StopModel); counting invariant over all runs, any number of refused logins refutes it.
- **C92 A query shows every packet the send put on the wire** - client machine (ClientModel); invariant joining wire, records and collected results over all runs; failing writes and closes refute it.
- **C93 A client that answers heartbeats stays connected** - PropIdle.v: by an invariant over runs of ServerModel, a CMPP or SMGP connection whose heartbeats are answered before the next tick is never overdue if the force-close time is at least one minute and one tick; the client's answer is the one the server counts; refuted for SGIP (no heartbeat) and for shorter force-close times.
- **C94 The server works on what the application asked to send** - TextEndProofs.v/PropTextEnd.v: composition of ClientModel and ServerModel over one byte stream; invariants for where a client's packets come from and for what a server's tasks were decoded from; texts in one packet are carried exactly (C94_message_partial), responses are never more than packets (C94_answers); a long ASCII text is refuted (C94_refuted_long).
- **C95 An overheard login cannot be used again** - Corollary of the end-to-end login theorem for two runs with the same bytes: refuted for every accepted login. The digest is tied to the time in the packet (otherwise md5 has a collision).
- **C96 The client only accepts a gateway that knows the shared secret** - Forged answers with any 16 octets give a usable session, for every secret; the server's digest is computed through the whole server run and shown not to depend on the login.
- **C97 The shared secret does not leave the client in clear** - Two-run (noninterference) proof: erasing the secret commutes with every step of the client machine; the login packets are compared by their layout. Refuted for SGIP, whose login carries the secret.
- **C98 Changed account settings count from the reload on** - Server model with a store that changes between steps; invariant since a moment without a login under way; noninterference for connections that are logged in; refuted.
- **C99 Each log file follows its own settings** - StartModel.v/PropStart.v: configuration as functions of the key; per-section specification; refuted for the client's error log and for custom logs (their level setting has no influence).
- **C100 A process looks for its files in its own directory** - StartModel.v/PropStart.v: strings.Index as the first occurrence; refuted for paths in which the name occurs earlier or not at all.
- **C101 Each login is answered once, and the answer says why it is refused** - PropWhy.v: inductive specification of the verdict by the bytes of the packet; invariant of the connection machine over all runs; counting of packets received, answers written, queued and pending; refuted for versions below the account's.
- **C102 A carrier is set up from its own section of the settings** - CreateModel: CreateSessionFactory and SelectSession up to the unlocking, with the account store, regexp compiler, dialling and login as arguments; spec by keys of the section; non-interference; refinement of FactoryModel.select.
- **C103 Stopping the server ends its connections in order** - WholeModel: services (PoolModel/ServerModel) and the signal machine (MainModel) as one process; the registry of hooks of the server's process is empty; projection of every run to each service's own events; refuted.
- **C104 The log says what a result code means** - StatusModel (the tables' texts); a reader of 'number: words'; reasons of a login by C101's verdict, results of submits by C51; the tables are injective and cover exactly the listed codes; refuted for the state of SGIP reports and for low versions.
- **C105 No client can end the server** - WholeModel with the exact crash conditions of the decoders (C46) and of framing (PropFrame); invariant of every connection: a logged-in open session has its limiter and pool, a granted login has its account; refuted by twelve octets of a stranger, exact condition for every event of every reachable state.
- **C106 The client acknowledges what the gateway sends** - ClientModel with an independent table of acknowledgements as octets (PropAck); per packet by cases of the three handlers, per run by an invariant that splits the log into blocks.
- **C107 The server answers each heartbeat and each request to end** - ServerModel with an independent table of the answers as octets (PropPong); an invariant for the octets and the wish to close, and books over whole runs (taken in = answered + queued + in hand) as for C51.
- **C108 The server does not give the clients' secrets away** - ServerModel (PropVeil); a simulation between the runs of two servers, through a map that leaves the secrets out of a connection's state and commutes with every step, and a comparison of the login goroutines of both.
- **C109 One client's load does not hold up the others** - LoopModel: the connections of an event loop with the pools their goroutines run in, where Submit to a full session pool makes the loop wait (LoopProofs, PropLoop); a projection of every loop run onto a run of ServerModel for each connection, counting invariants over the pools, a flood by induction on the window size, and an invariant of a loop that waits for ever.
- **C110 Delivery reports belong to messages that were taken** - ServerModel's goroutines and write queue with the codecs of CmppModel and SmgpModel (PropFate): reports and positive answers told apart by their octets; an invariant over the log and the queue that weighs reports and pending reports against positive answers for an arbitrary predicate on submit and id; order in the log; C110_counted, C110_belongs_partial; refuted: the flag and the further recipients are not looked at (C110_refuted_sent for every submit, C110_refuted), SGIP never reports (C110_refuted_sgip).
- **C111 A client session is tested when it is idle, and given up when the gateway is silent** - BeatModel (HealthCheck with its heartbeat as an event between the steps of ClientModel) and PropBeat: per step, what becomes of a session and its time of last use; the time of last use is the last use in the log; under a clock that does not go back every use is older than a minute; refuted: silence never ends a session, the outcome of the heartbeats changes nothing, no bound per minute.
- **C112 Using a client session while another goroutine closes it does not crash the client** - UseModel (each goroutine as the tree of its reads and writes of the session's fields) and PropUse: invariant over all interleavings (lock, marks, connection closed before cleared); exact condition at the moment the connection field is cleared, in both directions; refuted for every goroutine that uses the session against every closer, and for a receiver and a sender alone; agreement of the handlers' accesses with ClientModel.
- **C113 The parts of different long messages find together at the recipient** - PropParts: a phone by 3GPP 23.040 as specification; what it does with one key does not depend on parts with another (projection); messages with different keys for every order of arrival; two messages with equal keys mixed up and lost for every pair; two of any 257 collide; more than 255 parts are never shown in full.
- **C114 Choosing a session while the list of sessions is rebuilt** - RaceModel (PeekSession read by read beside StopModel) and PropRace: invariant that every session a sender holds was made for the list; exact condition for a crash; a crash from every state with sessions; safety while one session stays.
- **C115 A submit to many numbers at the server's framing** - PropMany: builders and encoders composed with the header check; exact length of every frame (for SGIP without assuming that texts fit), handed on whole up to 5120 octets, connection closed above; the numbers of recipients for which every text passes and for which none does.
- **C116 Times on the wire denote the instants asked for** - TimeModel (Go's calendar arithmetic for time.Format over any zone), SpecTime (Gregorian calendar and time format as a specification), PropTime: what every built packet's times are read as, exactly; equal to the instants asked for on clocks of China, wrong on every other clock, over at sending for short validities, SMGP's validity over at once.
- **C117 The time stamp of a login tells its second** - PropTime over TimeModel: exact form and value of the stamp at every instant, which discharges the assumption on the stamp in C30, C42, C69; injective on less than 365 days with a constant offset, repeated after a year and after clocks are put back.
- **C118 BCD message ids in real time** - PropMinute: the generator driven by instants instead of minute numbers (TimeModel); unique for less than a year on clocks that are not changed, also over New Year (C16 needs increasing minute numbers); exactly when the first id of a minute comes again; instances after clocks are put back, a year later, and after a restart.
- **C119 A packet number is given out within a second** - PropWait: the 32-bit generator driven by instants (TimeModel): exactly when a call does not return; at once or with the next second on clocks that are not changed and before the last second of the day; not within the time clocks are put back by; never in the last second of a day.
- **C120 No answer that was not asked for** - invariant over log, queue and goroutines counting, for any set of packets, answers against requests; the kinds of the model are tied to the octets, so the statement is on octets only (PropUnasked.v)
- **C121 A client sends only under its own number** - model of the packet checks with the value they drop, tied to the handler's goroutine; universal refutation over states and submits, and the statuses an answer can have by its octets (PropSource.v)
- **C122 A result can be asked for as long as the settings say** - step invariant over the client model from the first successful query on; ticker as arithmetic progression
- **C123 The times in a delivery report** - PropDone: time.Format for the two layouts of reports over TimeModel, read back by SpecTime after the wire (C37, C80); order of the two times by minute arithmetic; refuted for the done time.
- **C124 Sends do not hold up the freeing of old results** - PropJobs: worker pool with its two users, the sweeper statement by statement; refinement of the atomic sweeper of ClientModel; progress while a worker is free; refuted by a state no event but the end of a job leaves.
- **C125 The credentials of the database** - PropMongo: strings.ReplaceAll and setConnect with its log lines; filled addresses by induction over the pieces of the setting; refuted for every setting with a place for the password.
- **C126 Identifier generators used by many goroutines at once** - ShareModel, PropShare: each NextVal statement by statement under its lock, any number of goroutines; invariant that the lock holder has made a prefix of a call by itself, so every run is a sequence of whole calls (the assumption of SeqModel); then C09-C17 apply.
- **C127 The current value of an SGIP generator** - Same model; CurVal reads without the lock: refuted for every generator, with what holds while the lock is free.
- **C128 Looking up accounts while the store is reloaded** - PropDesk: both Loads and FindByCid statement by statement under the store's lock; invariant that one is at the map at a time, that the cache is the load of a prefix of the files, and that the database's documents go in under one hold of the lock
- **C129 The profiling interface beside the services** - PropDebug: main and the goroutines it starts, each opening its port; invariant that each of the plan is at one place and each port has one listener
- **C130 What a query hands out belongs to the caller** - PropHand: slices and results as shared memory; the application as one more writer
- **C131 The text of a generator shows its last value** - PropGen: fmt's padded signed hexadecimal; the SGIP call one state per assignment
- **C132 The log shows the optional parameters of a submit completely** - PropTlvText: the text as a relation of its own that determines the list; every received list is shown by its text
- **C133 SMGP packets as texts show the beginning of the message** - PropForm: the content with the room behind it; exactly when the first six octets are shown and what happens otherwise
- **C134 A delivery report in the log leads to its message** - PropTrace: the words of a report's text; the identifier with and without leading zeros; the fields of the two lines compared in both directions
- **C135 The log line of a submit or delivery shows what stands in the packet** - PropLine: a table of names and places per protocol as the specification; every entry of the line is at its place; the length behind the recipients in version 2
