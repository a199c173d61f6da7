# Formal model of hopdb/hop

## Scope

`/verif/rocq/theories` holds a model of the Rust code in `/repo`, written
function by function in Gallina, and theorems about it. Every model definition
cites the file and lines it models.

The model is a hand translation. Nothing mechanical ties it to the Rust source.

## Modelling decisions

* Bytes are Coq's 256-constructor `byte`; `Vec<u8>`, `&[u8]`, `String` are
  `list byte` (for `String`, UTF-8 validity is a proved invariant).
* `usize` indices are unbounded `N` (a 64-bit target, and buffers far below
  2^64 bytes, are assumed); every narrowing cast (`as u8`, `as u16`, `as u32`) and every
  `u8/u16/u32/u64/i64` arithmetic step that can overflow is explicit.
* An `env` record carries the build profile (debug: overflow checks and
  `debug_assert!` on; release: wrapping) and the iteration order of hash maps
  and sets (any permutation of the entries). Theorems quantify over it, one per
  command, so orders may differ between commands.
* Panics are an explicit outcome, together with the state left behind.
* Each command is a program over atomic DashMap operations. Running the program
  alone gives the sequential semantics; interleaving programs gives the
  concurrent one. Both kinds of theorem are about the same definitions.
* `f64` is a 64-bit pattern; addition is `SpecFloat.SFadd` from Coq's standard
  library (NaN results are the canonical NaN).
* Rust library functions the code calls (UTF-8 validation, `str::parse`,
  `split`, `trim`, `to_string`, slices) are modelled by functions of our own;
  for UTF-8 and decimal integers there is a separate specification and a proof
  that the function meets it.

## Trusted base

* Coq 8.16.1's kernel, including its virtual machine (`vm_compute` is used for
  concrete witnesses and examples).
* Axioms: none. `Print Assumptions` follows every property theorem in the
  `P_*.v` files and prints "Closed under the global context" for each of them.
  No axiom, parameter, functor or module type is declared. A scan of the loaded
  libraries lists the axioms of `Coq.ssr.ssrunder`, because std++ loads
  ssreflect's tactic files; no theorem depends on them.
* Libraries: Coq's standard library and std++ (`gmap`, `gset`, list lemmas).
* The hand translation from Rust to Gallina, with the citations as the trail.
  `RepoTests.v` carries out the repository's own unit tests and documentation
  examples on the model (about 140 of them; all come out as asserted). These are
  tests of the translation, not proofs. Left out are the tests that only say
  which traits a type has, and those that look at the clock.
* The statements: `*Spec.v` and the statements in `P_*.v`.
* Assumptions about dependencies, not proved: a DashMap operation is atomic and
  behaves as a finite map operation; atomics are sequentially consistent;
  `arrayvec` panics when pushed beyond its capacity; a hash container iterates over each entry
  once, in any order; the operating system delivers bytes of a connection in
  order, in chunks of any size; `Arc` and `Weak` count their users, and a channel of
  futures-intrusive closes on `close`, with its last sender or with its last receiver.

## Files

| Files | Content |
|---|---|
| `Bytes`, `Utf8`, `Float64` | Rust primitives |
| `Value`, `CommandId`, `Request`, `ReqContext`, `Response`, `RespContext` | the protocol |
| `Metrics`, `Session`, `PubSub`, `SubHandles`, `ConcPubSub`, `Timer`, `Hop` | the small libraries; the engine as one object |
| `Prog`, `Commands`, `Concurrent`, `Scripts`, `Locks`, `LockScripts` | engine state, commands as programs, interleaving, shard locks |
| `Server`, `ServerWrites`, `Process`, `Client`, `MemTasks`, `Wire`, `System`, `Futures`, `Fluent`, `AnyBackend`, `Cli`, `FloatText`, `Texts` | server task, the same with gradual writes, server process, clients, tasks sharing a memory client, calls sharing a connection, clients and a server together, requests as futures and their methods, on any backend, command line |
| `IdSpec`, `WireSpec`, `RequestSpec`, `ParserSpec`, `Utf8Spec`, `EngineSpec`, `HistorySpec`, `LibSpec`, `RespReadSpec`, `RespAskSpec`, `AddsSpec`, `FloatTextSpec`, `TextSpec`, `MemAppendSpec`, `MemLinSpec`, `ConcSpec`, `ServerSpec`, `WritesSpec`, `ClientSpec`, `DocSpec`, `HandleSpec`, `CostSpec`, `TooManySpec`, `NotationSpec`, `SystemSpec`, `MomentSpec`, `OriginSpec`, `SetRaceSpec`, `TakeRaceSpec`, `MemRaceSpec`, `ForwardSpec`, `MemForwardSpec`, `StatsRaceSpec`, `MemStatsSpec`, `StartRaceSpec`, `MemStartSpec`, `ClientRealSpec`, `CliSpec`, `LossySpec`, `FloatSpec`, `LinSpec`, `KeyLinSpec`, `LockScriptSpec`, `FairSpec`, `WaitFreeSpec`, `IsoSpec`, `MemTaskSpec`, `FutureSpec`, `FluentSpec`, `AnySpec`, `BuilderSpec`, `ConcPubSubSpec`, `HopSpec`, `ProcessSpec`, `ShareSpec`, `ReservedSpec`, `LockSpec`, `OnceSpec`, `MemOnceSpec`, `MemOriginSpec`, `SeenSpec`, `WroteSpec`, `LedgerSpec`, `TypeKeptSpec`, `SpareSpec`, `LastingSpec` | vocabulary and specifications used in the statements |
| `*Facts`, `*Props` | lemmas and proofs |
| `P_*` | one theorem per statement, with non-vacuity examples and `Print Assumptions` |
| `RepoTests` | the repository's unit tests and documentation examples, carried out on the model |

## What is modelled

| File in `/repo` | Modelled | Not modelled |
|---|---|---|
| `engine/src/command/command_id.rs` | ids, names, argument and key notation, `FromStr`, `TryFrom` | derived traits |
| `engine/src/command/error.rs`, `mod.rs` | error codes, `TryFrom<u8>`, `Display` | |
| `engine/src/command/impl/*.rs` | all sixteen commands, step by step | tests |
| `engine/src/command/request/builder.rs` | every builder method, error `Display` | |
| `engine/src/command/request/mod.rs` | arguments, iterator, key types, typed argument conversion, `into_bytes` | |
| `engine/src/command/request/context.rs` | the whole parser | |
| `engine/src/command/response/mod.rs`, `context.rs` | the whole encoder and parser | |
| `engine/src/hop.rs` | `dispatch` and the command table, metrics updates, shared clones, configuration, builder, accessors | `Debug` |
| `engine/src/metrics.rs`, `lib/metrics/src/lib.rs` | counters, gauges, snapshots, writer and reader | hashing |
| `engine/src/pubsub/manager.rs`, `mod.rs` | subscribe, unsubscribe, removal, closing, alone and from many threads with the shard locks; `Weak` handles, receivers and senders with their drops | messages in the channel, `key_update.rs` |
| `engine/src/session/*.rs` | adding and removing sessions, alone and from clones in parallel | |
| `engine/src/state/*.rs` | all operations on the store, `Value`, `KeyType`; the shard locks (C84) | `Debug`; the inside of DashMap |
| `lib/timer/src/lib.rs` | start, stop, elapsed | reading the clock: any value |
| `client/src/backend/memory.rs` | every call, error `Display` | `Debug` of a value |
| `client/src/backend/server.rs` | every call: what is written and how the answer is read; calls at the same time, dropped calls; error `Display` | the text of input and output errors, address resolution |
| `client/src/backend/mod.rs`, `client/src/lib.rs` | through the calls above; connecting to a server, and clients together with it | the trait, the memory constructor |
| `client/src/model.rs` | accessors | |
| `client/src/request/**` | every method of every request, and polling, with the memory backend and with any | polling with the server backend in particular (C103 has polling with any backend) |
| `cli/lib/src/*.rs`, `cli/bin/src/main.rs` | reading, running and printing lines; the session loop; error `Display` | float text is a parameter of `Cli`, given in `FloatText` by the documented results of the library |
| `server/src/main.rs` | the connection task: buffer, line reading, parsing, dispatching, writing; any number of connections and any schedule; configuration, binding, accepting, the end of the process | what text is an IP address; logging |
| benches, examples, tests, `Cargo.toml`, CI | | all |

## Plan and result per property

Each line gives the plan, made before the proofs, then the status and a remark
from `MANIFEST.json`. Where the code does not have a property a user would
expect, the property keeps its full statement, a theorem `..._refuted` shows the
failure on the model, and `..._partial` is the strongest part that holds.

* **C01** Built requests give back exactly the arguments that were put in. RequestBuilder and Request modelled as buffer + positions. Invariant: buffer = header ++ encoded arguments, positions = cumulative ends; slices recovered by list lemmas; induction on the argument list. *Proved.* All commands, key types and argument lists of up to 255 non-empty arguments.
* **C02** The request wire format is the documented one and is unambiguous. Spec encoder (header ++ length-prefixed arguments) compared with the builder buffer; injectivity by a spec decoder that is a left inverse. *Proved.* Format and unambiguity (self-delimiting).
* **C03** Typed values survive the request encoding. builder value + typed accessors, per kind; maps and sets through an arbitrary iteration-order oracle (any permutation of the entries). *Proved.* For every value the builder accepts, any iteration order; acceptance shown separately.
* **C04** The builder rejects argument lists that do not fit instead of corrupting them. Expected false: witness builder sequence (256 pushes). Positive part: exact accept/reject conditions up to 255 arguments, as _partial. *Partial.* False of the code: the 256th argument panics (debug) or is sent with count byte 0 (release), a refused list leaves items behind, maps are checked by entry count, list lengths are truncated to 8 bits. C04_exact_partial: the outcome of every chain of builder calls (panic, refusal, arguments left in the request, bytes) in terms of a list that grows; also everything that fits is accepted in full.
* **C05** Turning a request back into a builder loses nothing. Expected false: the count restarts at 0. Witness, plus the true part (arguments still readable) as _partial. *Partial.* False of the code: the count byte restarts from 0. Proved: all arguments stay readable, and exactly what is sent (C05_sent_partial).
* **C06** A request sent over the wire is parsed to what was sent. Expected false: witness request; the true part (command of an untyped, argument-carrying request is recognised once fed) as _partial. *Partial.* False of the code: positions are cleared before the request is returned and the key type is read from the wrong byte, so no argument or key type survives. Proved: exactly what comes back for every request, and that the command is recognised.
* **C07** Parsed requests never carry arguments or a key type (as implemented). Parser modelled as a state machine with explicit index, positions and stage; invariant over all feeds. *Proved.* For every sequence of buffers.
* **C08** How the input is chunked does not change what is parsed. Monotonicity of slice reads in the buffer prefix; simulation between resumed and fresh parses. *Proved.* For every growing sequence of prefixes; answers compared up to the borrowed buffer.
* **C09** The request parser is total. Expected false for the panic (257 positions with argument count 0): witness. Termination and no-panic for count >= 1: _partial. *Partial.* False of the code: count byte 0 followed by 257 arguments overflows the fixed-capacity position vector. Proved: termination, exactly what every input is read as (C09_every_input_partial), and so exactly which inputs panic.
* **C10** Responses decode to what was encoded. Encoder and decoder modelled function by function, decoder as fuelled loop with fuel exhaustion a distinct outcome; round trip by induction on list / permutation of map entries. *Proved.* Every response within the limits, any iteration order, any combination of sender and receiver build. The empty values the parser cannot decode are the subject of C14.
* **C11** Every response frame carries its exact length. Structure lemma for each writer. *Proved.* Frame length, untouched prefix, and cutting of whole streams.
* **C12** The response parser asks only for bytes that are missing. From C10 with the header stage: strict prefixes never pass the length check. *Proved.* Any sequence of strict prefixes, then the whole message; and for arbitrary bytes, asking for more forgets nothing.
* **C13** Bytes after a response do not affect it, and the parser can be reused. As C10 with an arbitrary suffix. *Proved.* Any trailing bytes; parser reuse over whole streams; for arbitrary bytes, no answer or error depends on later bytes.
* **C14** Empty collections survive the response encoding. Expected false for list, set (never concludes) and bytes (debug assertion): witnesses for every suffix; true for map and string. *Partial.* False of the code for empty lists and sets (both builds) and empty bytes (debug). Proved for the others, and exactly what goes wrong.
* **C15** Values at or beyond the format's field widths are not silently corrupted. Expected false: witnesses for an over-long map key and set item. *Partial.* False of the code: a 256-byte map key is silently corrupted. Proved for both builds: exactly what is refused and what is written (C15_written_partial), and that exactly the values whose parts fit their fields come back (C15_exactly_partial); C15_partial restates this for debug builds.
* **C16** The response parser never crashes on bad input. Expected false: witnesses; true part: exact characterisation or sufficient condition. *Partial.* False of the code: unknown error codes panic, short messages underflow. Proved: termination; exactly which inputs crash (both builds) and exactly which are answered by a request for no bytes; incomplete messages only ask for bytes.
* **C17** Set then get returns what was set. Corollary of the refinement lemmas for Set and Get. *Proved.* Every state, ordinary key, value kind, iteration order and build; a debug build may crash on an answer that does not fit the format.
* **C18** Commands affect only the keys they name. Every command is a program over atomic DashMap operations; frame by structural induction over the program of each command. *Proved.* Every request, also malformed, and every outcome including panics.
* **C19** Read-only commands do not change the store. As C18: programs of these commands contain no write operation. *Proved.* Every request and outcome.
* **C20** A command that reports an error changes nothing. Expected false: witness; the exact exception is characterised in a _partial theorem. *Partial.* False of the code: a float increment of a missing key creates an integer key and errors. Proved for every other case.
* **C21** Integer increments and decrements add exactly. Command lemma for increment_int_by with explicit overflow behaviour per build profile. *Proved.* Exact sums, wrapping, debug panics, refusals and the inverse law.
* **C22** Float increments work on float keys and on missing keys. Expected false on missing keys. True part with IEEE addition defined by Coq SpecFloat. *Partial.* False of the code on missing keys (an integer key is created). Proved on float keys and on keys of other kinds. NaN payloads are canonicalised in the model.
* **C23** Increment-by with a float amount adds that float. Expected false: the float branch is unreachable. Witness and general theorem that the bits are taken as an integer. *Partial.* False of the code: float amounts are never used. Proved: the refusal leaves everything unchanged.
* **C24** Append concatenates. Command lemma and fusion law. *Proved.* Bytes, lists and strings, stored or missing keys, and the splitting law.
* **C25** Append to a string stores all of the data or reports an error. Expected false: witness; true part: exactly the invalid arguments are skipped. *Partial.* False of the code: invalid arguments are dropped silently. Proved: exactly the valid ones are stored, in order.
* **C26** Delete removes exactly the key. Command lemma. *Proved.* Present, absent and repeated deletes.
* **C27** Rename moves the value and never overwrites. Command lemma. *Proved.* Moves, refusals and the inverse.
* **C28** Exists and Is answer for all keys. Command lemma by induction on the key list. *Proved.* Every list of keys.
* **C29** Length counts what the user sees. Command lemma; character count proved equal to the number of scalar values of the UTF-8 decoding. *Proved.* Sizes, with Unicode characters specified by their encodings, and errors.
* **C30** Keys lists every key of a map once. Command lemma with iteration oracle. *Proved.* Any iteration order, and the errors.
* **C31** Echo returns its arguments. Command lemma. *Proved.* Every argument list.
* **C32** The engine refines a simple key-value specification. Spec: a step function over gmap written without buffers, positions, guards or loops; refinement per command, then induction over the history. *Proved.* Every history shorter than 2^63 requests of mixed builds and iteration orders; calls to a debug build must have answers that fit the format.
* **C33** Stored data stays well typed. Invariant over histories. *Proved.* Stored data: arbitrary requests. Answers: requests with a list of arguments; a Length of 2^63 or more is excepted.
* **C34** Dispatch panics only in the named cases. Case analysis over all programs. *Proved.* Release: every request. Debug: every request whose accessors give a list of arguments (all built and parsed ones do).
* **C35** Internal keys are out of reach of clients. Expected false: witnesses (rename, delete); true part: guarded commands never read or write a reserved key without panicking. *Partial.* False of the code: Exists, Is, Type, Delete and Rename do not check the prefix, and Append, Keys and Length without a type show the type stored at a reserved key. Proved: only Delete, Rename and Set can change a reserved key; Set never stores there; and the outcome of Get, Increment(By), Decrement(By), Echo, Stats, and of Append, Keys, Length and Set with a type, does not depend on what reserved keys hold.
* **C36** Statistics count commands exactly. Counters modelled; induction over histories; Stats answer decoded. *Proved.* Every history of requests and session operations shorter than 2^63.
* **C37** Identifiers round-trip and are distinct. Finite case analysis lifted to all bytes; strings by decision on the match. *Proved.* Every identifier table, every byte, every string.
* **C38** Value accessors agree with the value's kind. Expected false for is_string. *Partial.* False of the code for is_string, which matches booleans. Proved for all other accessors.
* **C39** The server answers every complete request, in order. Expected false: witness stream. *Partial.* False of the code: C39_refuted (a request without a newline after it is never answered, for all runs), C39_one_answer_a_line (everything behind the first request of a line is ignored). Strongest true part: C39_partial says for every run, number of connections and schedule exactly which messages the stream is cut into and that they are answered in order; C39_lines_partial that accepted requests each followed by a newline get one response each; C39_comes_to_rest that a scheduled task gets there.
* **C40** No network client can change the stored data (as implemented). C07 + interleaving of connections. *Proved.* For every set of connections, byte stream, failure and schedule. The counters must not be about to overflow for C40_answers (room_during); C40_data_unchanged needs nothing.
* **C41** Network segmentation does not matter to the server. read_until modelled over segments; proof that the result depends only on the concatenation. *Proved.* C41_any_segmentation: any other segmentation can have the same behaviour on all connections. C41_same_answers: and whatever happens elsewhere, the responses are the same except for the numbers in Stats answers, which count the commands of all connections. C41_alone: exactly the same bytes when there is no other connection; they are the sequential dispatch of the messages (C41_alone_sequential).
* **C42** The in-memory client behaves like a typed map. Client calls composed from builder, dispatch and decoder; refinement to a typed map spec. *Partial.* False of the code: float amounts are added as the integers with their bits (C42_refuted, C42_float_amounts, C42_float_amounts_fail). C42_partial: for every history of the other calls within the stated limits the memory client answers and stores what the map does, composed through builder, dispatch, encoder and decoder. C42_every_history_partial: for every history of all calls whose arguments and values fit the formats, exactly what is answered and stored: the map with five departures, panics included.
* **C43** Memory client calls return instead of panicking. Expected false: append of an empty list. True part as side conditions of C42. *Partial.* False of the code: listed calls panic (C43_refuted), every typed read of another type does (C43_get_other_kind). C43_partial: with valid arguments every call returns, unless an integer overflows in a debug build or a typed call meets another type. C43_exactly_partial: after every history whose arguments and values fit, a call panics exactly when it is given an internal key, an integer overflows in a debug build, or a typed call is answered with another type.
* **C44** The server-backed client delivers the server's answer. Expected false: always ConnectionClosed. *Partial.* False of the code: no call on a server client ever returns a value (C44_refuted), because it reads into an empty vector. C44_partial: what is written is exactly the request. Also: increment loses its key type, and the written request is not answered by the server.
* **C45** Subscriptions reflect subscribe and unsubscribe. Expected false: second subscriber gets None. True part as _partial. *Partial.* False as stated (C45_refuted): subscribe to a key any session ever subscribed to reports failure although it takes effect, and unsubscribe by a removed first subscriber reports success. Proved: the live subscriptions are exactly the specified ones, and exactly when subscribe and unsubscribe report success.
* **C46** The pubsub indexes agree. Expected false: witness. True inclusion as _partial. *Partial.* False as stated (C46_refuted): only the first subscriber of a key is ever recorded under it and removing the session does not remove it there. Proved: the recorded sessions are exactly the first subscriber unless it unsubscribed.
* **C47** Session ids are unique among live sessions. Invariant over histories. *Proved.* For histories mixing commands, additions and removals; what every addition and removal returns also beyond 2^32 additions.
* **C48** Adding sessions from clones in parallel never crashes or loses a session. Expected false: interleaving witness. *Partial.* False as stated: an addition can panic and a session can be stored under an id that is not its own (C48_refuted, C48_refuted_own_id). Proved for every number of additions below 2^32 and every interleaving: additions that return give distinct ids whose entry holds the token; the ids returned are exactly 0..n-1 with n at least one, and the next id, the counter and the locks are left right; no run is stuck; an addition panics only if it overlapped another between its insertion and its store.
* **C49** The timer measures the time between its first start and its first stop. State machine with clock; invariant over histories. *Proved.* Clock readings quantified over all monotonic sequences.
* **C50** Metrics counters and gauges are exact and snapshots are frozen. Histories of metric operations. *Proved.* For any key type; fewer than 2^64 operations.
* **C51** Concurrent increments of an existing integer are never lost. Interleaving semantics of command programs; invariant value = initial + sum of finished amounts. *Proved.* Any number of clients, any schedule, next to any commands that do not write the key. C51_exact: unless a selection of the amounts overflows (or an amount itself is outside 64 bits, which is possible for the negation in DecrementBy), all succeed and the final value is exact. C51_succeeded and C51_release: what happens with overflow.
* **C52** Concurrent increments of a missing key are never lost. Expected false: schedule witness. *Partial.* False of the code (C52_refuted): the missing-key path inserts the default over a concurrent result. Proved instead, exactly: the final value is the sum of the amounts of some non-empty set of the successful clients (C52_partial), and every such sum is the outcome of some schedule in which all succeed (C52_any_partial); for increments by one: exactly the counts from 1 to their number.
* **C53** Rename is atomic. Expected false: schedule witnesses. *Partial.* False of the code, in both clauses (C53_refuted_invisible, C53_refuted_overwrites), and two renames to the same free name may both succeed and destroy one of the values (C53_refuted_lost). Proved for renames whose keys no other client writes: the value is under exactly one name except between the removal and the next step of the renaming client, which puts it at the destination. Renames and deletes that race for one key: C115.
* **C54** Overwriting a key with Set is atomic. Expected false: schedule witness. *Partial.* False of the code (C54_refuted_missing, C54_refuted_default). Proved: while one client sets a key nobody else writes, the key holds the old value, nothing, the empty value of the type or the new value, and a concurrent Get answers one of these.
* **C55** Commands never block each other forever. Bound on solo steps from every program state. *Proved.* One step is one access to the store; that accesses under the shard locks may be taken for single steps is C84.
* **C56** Single-step commands are linearizable. Each such program has one effective step; commutation with run. *Proved.* Linearization point inside the call: at its beginning or while it has not returned. For Append, Increment etc. on a key that exists throughout.
* **C57** Command counters are exact under concurrency. Invariant over schedules. *Proved.* Also at every intermediate moment.
* **C58** The command line is parsed to the request it spells. Parser modelled over byte strings. *Partial.* Holds for any function that reads floats; the one of the library is in C113. C58_reads_partial and C58_reads_only characterise the lines read; false for arguments of Stats (C58_stats_refuted) and for more than 256 arguments (C58_too_many_refuted, a panic).
* **C59** The command line rejects an incomplete map. Expected false: witness and general statement. *Partial.* False of the code: C59_refuted, an odd list of map arguments is accepted and its last key dropped. C59_partial: a request holds whole pairs only.
* **C60** The argument iterator's reported length is the number of items left. Expected false: witness and general statement. *Partial.* False of the code: the length is the range end, not the number of items left. Proved: it exceeds the number left by exactly the position.
* **C61** Model the subscriptions with their open/closed channel; invariant over all histories of subscribe, unsubscribe and removal: a held subscription is open, and no two entries share one. *Proved.* Closed means Subscription::close was called.
* **C62** The value returned by removal as a function of the history since the last removal; refute the equivalence with being subscribed. *Partial.* False as stated (C62_refuted): true also when the session unsubscribed from everything. Proved: true iff it subscribed since its last removal.
* **C63** Frame lemma on the interleaving: a command whose keys nobody else may write takes the same steps as when run alone; induction on the schedule. *Proved.*
* **C64** Invariant of the interleaving: every atomic step of every command preserves well-typedness of the whole store. *Proved.* For arbitrary requests, including malformed ones.
* **C65** From the characterisation of parser panics (C09) and the invariant of the server that the state of a task depends on its own stream only. *Proved.* For every run of the server.
* **C66** Compose metrics, the Stats response and the client model's accessors. *Proved.* The accessors of the statistics on the client side, also through a call. Stats leaves out counters from 2^63 on and the ended sessions: these read as zero.
* **C67** Case analysis on the number of keys; the configured request holds the given list. *Proved.* The key count check of the multi-key requests.
* **C68** Specify a line as a command with words; show by cases over the commands that running the line equals the client call, and list the commands for which it does not. *Partial.* False of the code: C68_refuted, five commands always panic; C68_step_type_refuted, the key type of increment and decrement is ignored; lines of more than 255 arguments panic, except for 256 in release builds (C68_many_words_partial). C68_partial: the other commands do what the client call does.
* **C69** Model the printer on any list and show what is missing from its output. *Partial.* False of the code: the last character is dropped (C69_refuted), or printing panics (C69_last_character, C69_nothing).
* **C70** Printer and reader for decimal integers with an independent place-value specification; lossy UTF-8 printing against `Utf8Spec`. *Proved.* Integers and lossy UTF-8.
* **C71** Induction over the lines of the input; refute survival of a line that cannot be read. *Partial.* False of the code: C71_refuted, a line that cannot be read ends the program. C71_partial: lines that are answered are answered in order. C71_every_session_partial: exactly what every session prints and how it ends: the lines before the first that cannot be read (or is not UTF-8, or crashes) are answered one by one, and the program ends there or at the end of the input.
* **C72** For each command, the store left by a panic is the one before or the one after; Set is the exception, characterised exactly. *Partial.* False of Set: C72_refuted (a value at a reserved key is lost) and C72_refuted_half (an empty map or set is left). C72_partial: all other commands; C72_set_partial: exactly what Set leaves.
* **C73** Specify the number meant by a bit pattern and "nearest, ties to even" with integers (units of 2^-1074); prove the rounding of SpecFloat meets it by an invariant of the shift loop (quotient, round bit, sticky bit), then lift to the commands. *Proved.* Rounding is proved from the bit fields, without real numbers: [FloatSpec] measures floats in units of 2^-1074. That f64 addition of the machine is IEEE addition (SpecFloat of the standard library) is part of the trusted base, and NaN payloads are not modelled.
* **C74** Clients with scripts of calls over the same atomic steps; forward simulation that appends a call to the sequential history at its one step on the store. *Proved.* Whole histories, with the real-time order. For multi-step commands (Set, Rename, updates of missing keys, untyped Length, Keys and Append) it is false, see C52 - C54.
* **C75** A request as a small state machine (arguments, boxed future); invariant over all histories of making, polling and dropping requests: the state of a request is determined by whether it was polled or dropped before. *Proved.* For the memory backend, whose futures never suspend. That a finished async block panics when polled again is how the compiler builds it.
* **C76** Model the shard locks a thread holds and waits for; the wait-for relation has no cycle because keys are only locked after sessions; a potential bounds the steps. *Proved.* Lock level: reader-writer locks of the shards of both maps, held across steps as the guards in the code are.
* **C77** Expected false for the results, which combine two maps updated one after the other; true part by forward simulation, each call taking effect at its step on the map of sessions. *Partial.* False of the code: C77_refuted, a subscribe racing an unsubscribe lets two unsubscribes both report success, which no order explains. C77_partial: the subscriptions themselves, get and remove_session are linearizable; C77_closed_partial, C77_open: the closed channels are those of that order. C77_results_partial: without unsubscribe all results are linearizable too, the names of the subscriptions aside.
* **C78** Model the decimal reading of a 16-bit number as the library does it; show it agrees with the place-value specification of decimal numbers. *Proved.* What is an IP address is an arbitrary function.
* **C79** The process as a state machine around the server model; expected false when an accept fails, so characterise exactly when connections are accepted, and reduce everything else to the server model. *Partial.* False of the code: the first accept that fails ends the loop and with it the process and its data. Proved: connections are accepted exactly when the socket was bound and no accept has failed; until the end the connections are a run of the server model.
* **C80** The engine as one object with all it hands out; induction over histories of calls. Expected false: nothing reads the configuration. *Partial.* False of the code: no call but config() depends on the settings (for every two settings and every history). Proved: config() always reports the last value set or the default.
* **C81** Non-interference by induction over histories: the subscription part of the engine is the same whatever else is called. *Partial.* False of the code: for all histories, what subscription calls return does not depend on commands or on sessions being dropped. Proved: nor do commands depend on subscriptions.
* **C82** Induction over histories of all engine calls, with the counting lemma of C36 for dispatch. *Partial.* False of the code for ended sessions, which are never counted. Proved for the other three counters.
* **C83** Model the calls as a transition system around the lock of the writing half; invariant: what is sent is a sequence of pieces, one per call that got the lock, whole unless the call was cut off. *Partial.* False when a call is dropped while it writes: the part it wrote stays in the stream and the next request follows it (C83_refuted, C83_dropped_partial for any two requests and any cut). C83_whole_partial: whole requests in lock order when no call was dropped or failed to write. C83_finishes, C83_results hold for every run.
* **C84** A finer model of the store: threads take reader or writer locks of shards, updates pass through arbitrary intermediate values before the lock is released. Simulation by the step model of `Prog`, the invariant being that the two stores agree outside shards being written; deadlock freedom from the fact that at most one lock is held at a time; a bound from C55. *Proved.* Locks are those of DashMap (a reader-writer lock per shard), whose own code is not modelled; that a command holds at most one of them at any time is read off the code.
* **C85** Model: Scripts (clients with sequences of calls), the accesses of Prog. Spec: KeyLinSpec.linearizable_at. Proof: invariant over the schedule (KeyLin), the key-local form of that of C74; commands about other keys keep the key by the footprint lemma (command_within). *Proved.* For keys that are missing and updated, or updated and deleted, it is false: C52, C87_missing_key_refuted.
* **C86** Model: Scripts, Prog. Spec: KeyLinSpec (before, returned), ConcSpec.adds_int. Proof: C85 gives the order; induction along it with what one increment does (C21). *Proved.* The key must be there at the start: for a missing key two clients can get the same number (C52_refuted).
* **C87** Model: Scripts, Prog. Spec: HistorySpec.append_to, KeyLinSpec. Proof: C85 gives the order; induction along it with what one append does (C24). *Proved.* C87_missing_key_refuted: appends to a missing key can be lost although they succeed.
* **C88** Model: Scripts, Prog. Spec: KeyLinSpec.deletes. Proof: C85 gives the order; the first in it finds the key, all others do not (C26). *Proved.*
* **C89** Model: LockScripts (clients with sequences of calls over the threads of Locks). Proof: the simulation of C84 lifted to sequences, instant by instant, which transfers C74 and C85-C88. *Proved.* As for C84, that a command holds at most one lock at any time is read off the code.
* **C90** Model: LockScripts. Spec: FairSpec (fair, tries). Proof: the measure of C55 for sequences (a removal pays for the retries of others), lifted through the simulation of C89; a lexicographic measure (atomic steps left, phases, intermediate values left) makes the step relation well founded, and no deadlock plus fairness does the rest. *Proved.* Finitely many clients with finite sequences. Locks are granted to whoever asks when they are free. C90_tasks: every call of tasks that share a memory client returns.
* **C91** Model: Concurrent, Prog. Spec: WaitFreeSpec (moves). Proof: own steps decrease the measure of C55, and steps of others do not increase it unless they remove a key; starvation by induction on the number of deletes. *Partial.* False of the code (C91_refuted): an increment of a missing key can be starved by deletes. C91_partial: at most 7 steps plus one per argument for every other command, and for all commands if no other command takes a key away.
* **C92** Model: Prog, Commands. Spec: IsoSpec (apart), ConcSpec (uses, may_write). Proof: a command answers and changes by the keys it uses only (footprints), counter increments commute. *Proved.* Counters must not overflow.
* **C93** Model: Scripts, LockScripts. Spec: IsoSpec (alone_with_its_keys). Proof: an invariant rule for sequences of calls (ScriptInv); footprints; transfer through the simulation of C89. *Proved.* The client must not ask for statistics; counters must not overflow.
* **C94** Model: Scripts, LockScripts. Spec: IsoSpec. Proof: C93 for each client, and induction over the clients run one after the other. *Proved.* As C93.
* **C95** Model a task as a client of the store with its locks whose dispatches are the requests its methods build and whose results are made from the outcomes; show that alone this is the client of C42; combine with C93 (with locks) and the map simulation of C42. *Proved.* Hypotheses: requests within 255 arguments, values within the limits of C42, counters below 2^63; the task does not ask for statistics, which other tasks change.
* **C96** Map the calls of the tasks to dispatches and back (refused calls make none) and apply C86 with locks; decode the responses. *Proved.* The key is there at the start (C91 says what happens otherwise); the count stays within 64 bits.
* **C97** As C96, from C88 with locks. *Proved.*
* **C98** Model every method of the client and of its requests as a function on requests (Fluent) around the polling of C75; specify the call of a chain by the list of methods; invariant over histories of method calls, polls and drops. *Proved.* For the memory backend. What does not compile (an unknown method, a moved request) is excluded by hypothesis.
* **C99** RespReadSpec gives, for each kind, the bytes that spell a response, without any of the parser's states. RespRead proves soundness by induction over the parser's loop and completeness by induction over the items. *Proved.* For every input and both builds: the responses returned, the errors given, and the inputs for which more is asked are characterised exactly.
* **C100** Lift C87 with its locks to the client: every task is its list of dispatches and what the client makes of their outcomes. *Proved.* The value is returned as it is when it fits the response format.
* **C101** Model every Display; show the texts injective by their fixed first and last parts and, for numbers, by reading them back; show that the errors of all calls are among those with a text. *Proved.* The derived Debug of a value is left open.
* **C102** the calls are mapped to the dispatches of C85's clients with the locks of the store; the order of C85 is mapped back to calls; running the dispatches alone is making the calls (C95) *Proved.* Sets are not among the calls: a set removes the key and inserts it again in two steps, so readers see the gap (C54).
* **C103** AnyBackend.v: a backend is a record of three arbitrary functions (begin, poll, drop) over arbitrary types; poll/drop of requests with the four states of an async block. AnySpec.v: the expected behaviour from the history alone. Proof by induction over the history, with an invariant relating each request to its chain of methods and its future in flight. *Proved.* Scheduling of polls by an executor (wakers) is not modelled: polls may come at any time. In the text, 'kind of value' only matters for typed requests; a backend that returns another kind makes them panic (unreachable!).
* **C104** Model in ServerWrites: each connection additionally has what is left of the answer in write_all and what the socket has taken; events for partial writes and failures. A run of it is a run of the server of Server with the writes left out; frames delimit themselves, so the missing piece belongs to the last answer. Statements over runs, by induction on the events. *Proved.* ServerWrites is the server with write_all spread over time; the messages are cut as in C39.
* **C105** Spec: DocSpec, sentence by sentence with the lines. Expected false for append to a missing key, steps without a type on float keys, and length of maps and sets without a type: theorem with what happens instead, for every history; the rest from the map of C42 as _partial. *Partial.* The documentation is wrong on three points (C105_refuted, and C105_misdescribed for every history). Proved: all other documented calls, after every history within the limits of C42.
* **C106** The manager of PubSub with a count of the Arcs, receivers and senders users hold (SubHandles); an invariant over histories relates the counts and the closed channels to the history. *Proved.* The library's part is assumed: Arc and Weak count, and a futures-intrusive channel closes on close, on its last sender's drop and on its last receiver's drop. Updates sent through the channel are not modelled: the engine sends none (C81).
* **C107** The sending half follows from the order of answers (C39) and the size of each answer to a request without arguments; the memory half is refuted by a peer that never sends a newline, and what is kept is characterised from the server invariant. *Partial.* At most 97 bytes are sent per line, and that is reached (statistics with three counters). The memory bound is false of the code: read_until appends to `input` without limit until a newline arrives, so a peer that sends none makes the server keep any amount. Proved instead: what a reading task keeps is exactly the unfinished message, and in every state that is not closed it is a suffix of what was received.
* **C108** The builder's exact outcome (C04) is carried through both backends' methods; the cases where the claim is false are stated in general. *Partial.* False of the code: more than 256 arguments panic instead of being reported (set reports it only when the number of items is 255 modulo 256), and in a release build exactly 256 arguments go through: in memory the call works, to a server a request with argument count 0 is written. Proved: the exact outcome of every call with more than 255 arguments, none of them empty; apart from that one size nothing is changed or sent.
* **C109** `NotationSpec.v` states `declares` from the two tables and `matters` as the existence of two requests that differ at one position only and of a state in which their dispatches differ. One direction: the program of a command is the same term for two requests that agree on the positions it reads. The other: a witness for every position, for the commands with any number of them by a list of keys of which only the last differs. *Partial.* False of append and set, which declare one argument and read them all, and of delete and length, which declare an argument and read none (C109_more_refuted, C109_fewer_refuted). C109_partial is the equivalence for the twelve others. Leaving something out fails except for append, delete, length and echo (C109_left_out_partial).
* **C110** `System.v` joins the clients of `Wire.v`, a network that carries what they wrote in order and in pieces of any size, and the server of `Server.v`; one event is a step of any of them. Invariant: a run of the system is a run of every client and a run of the server on the bytes that were carried, so that C83, C40 and C107 apply to it. *Partial.* False of the code: whatever is called, every call that returns reports an error and nothing is ever stored (C110_refuted, C110_stored_refuted), because the server waits for a newline that clients do not send and the client reads into an empty buffer; Client::connect panics when the connection cannot be made (C110_connect_refuted). What holds: the server gets a beginning of what the client wrote, in order (C110_carried_partial), answers at most once for each newline in it (C110_bounded_partial), and every call can end whatever the server and the network do (C110_finishes_partial).
* **C111** A lemma for any command of any client (`MomentFacts.client_steps`) lists the stores in which it made its steps, in order, with the program it went through. The claims follow from it by going through the program of each command. Three schedules show that the claim as it stands is false. *Partial.* False of the code: exists answers true for two keys that were never there together, stats shows numbers that were never true together, length reports a different type, which it does in no state (C111_exists_refuted, C111_stats_refuted, C111_length_refuted). What holds: true means that each key was there at some moment of the call; every other answer of exists and is, and every answer when keys stay, is the one of a single moment; so are length and keys unless they report a different type, and append on a key that keeps its type; each number of stats is the one of some moment.
* **C112** A predicate on programs (each insertion fits what the predicate allows at that key, given that what was read fits), shown for each command, preserved by each atomic step; the locked model by the simulation of C89. Tasks that share a memory client: each request is traced back to the call it was built from; what is read back is the value answered when it is within the limits of C15. *Proved.* Numbers are not traced: a stored integer or float is the result of arithmetic (C21-C23, C73, C86). Stats answers are about the server itself. C112_tasks: a value that does not fit the response format (C14, C15) can be read back as another one, so what a call returns is the value answered only when that is sound.
* **C113** Model Rust's parse::<f64> and f64::to_string, which the command line calls, as functions on bytes: exact fractions rounded to nearest even, and a search for the largest power of ten with a multiple that reads back. Prove against a grammar and a specification of the closest float over integers, and carry the result through the model of the command line. *Proved.* The library functions are modelled by their documented results, not their algorithms; words of more than 65,000 bytes with exponents of six digits, where the library stops counting, are left out. NaN is printed as NaN whatever its payload.
* **C114** An invariant of all interleavings of the scripts: every Set is somewhere between its removal and its update, and the key holds what the last step left; the map's locks by the refinement of C89. *Proved.* Panics while a value is written to the answer are excluded by hypothesis in C114_winner. C114_between also says what overwriting leaves visible in between, see C54.
* **C115** A rule for invariants of all interleavings of scripts in which every call has an order in time (RaceRule), with an invariant that names the call that removed the key and where its value is; the map's locks by the refinement of C89. *Proved.* With locks, what a key holds is claimed while nobody has its shard locked for writing.
* **C116** From C114 with the map's locks, by the correspondence of client calls and dispatches of C95. *Proved.* Values are such that the client can decode them (C42).
* **C117** From C115 with the map's locks, by the correspondence of client calls and dispatches of C95. *Proved.*
* **C118** From the linearization of one key (C85): in the order in which the calls take effect the value only grows; locks by C89's correspondence, tasks by C95's. *Proved.* Counters are integers; amounts are such that the sum fits 64 bits. Values returned by tasks are such that the client can decode them (C42).
* **C119** Invariant over schedules: each counter equals its initial value plus the calls that have passed the step that counts them, and a Stats call in flight carries numbers between those at its beginning and now; locks by C89's correspondence, tasks by C95's. *Proved.* No command changes the number of sessions; sessions added meanwhile are the subject of C82.
* **C120** Invariant over schedules: a call in flight either has yet to look, has found nothing and will put the initial value there, or will update what is there; a call can only have found nothing if it began before any adding call was over; whatever is thrown away is charged to the call that puts the initial value there. Locks by C89's correspondence, tasks by C95's. *Proved.* That a returned call can be lost at all is what C52 refutes; C85 to C88 and C118 are about keys that are there.
* **C121** Invariant over schedules: what is at the key is a base and a list of calls; each call in flight is at a stage (yet to look, has found nothing, will update, has removed and will put), and each stage says which calls can have come before; whatever is dropped is charged to the call that drops it. Locks by C89's correspondence, tasks by C95's. *Proved.* That a returned call can be lost at all is what C52 refutes; C120 is the case in which nothing is there at the beginning and nothing takes the key away. Tasks are told the value if it can be sent (sound, see ClientSpec); the empty list, say, cannot.
* **C122** Induction over the items, members and entries that are complete gives the exact amount for every kind and every place where a message can end; the fairness statement follows where that amount is what is missing. False where the header announces less than the value takes: within members of a set and entries of a map an offset is added, and before a length the header is forgotten. *Partial.* False of the code (C122_set_refuted, C122_map_refuted, C122_length_refuted, C122_nothing_refuted) for a message whose header announces less than its value takes. C122_within_partial and C122_before_partial have the exact amount for every sequence of bytes; C122_fair_partial and C122_fair_before_partial the claim wherever the amount is what is missing, in particular always while the message is incomplete by its header; C122_something_partial that only a message ending before a length gets 0.
* **C123** For a program that only reads: whatever it is told that is so at some such moment, its answer has the property. Induction over the schedule of the system with locks: a look is made under the lock for reading, so the key is not locked for writing then. Tasks through the correspondence of calls and dispatches. *Proved.* C123_one and C123_question with the locks of the map; C123_tasks, C123_tasks_question and C123_get for tasks that share a memory client.
* **C124** For a program that looks and writes: whatever it finds, one after the other, its answer has the property. Induction over the schedule of the system with locks: an operation that writes holds the lock of the shard from before it reads to after it wrote, so what the key held is known until then and nobody else writes to it. Tasks through the correspondence of calls and dispatches. *Proved.* C124_one, C124_rename and C124_apart with the locks of the map; C124_tasks, C124_add, C124_tasks_rename and C124_tasks_apart for tasks that share a memory client. A set removes the old value first and writes the new one after that, so what it came upon is what was there when it wrote, which is its own default unless another call came between. Ordinary keys are not empty and do not begin with the reserved prefix.
* **C125** For the program of each command: whatever it finds, each change it makes is one of those listed. Invariant of the system with locks, by induction over the schedule: either nobody has the lock of the shard of the key, and there is a list of changes up to what the key holds, or one call has it, and there is such a list up to what the key held when it took the lock, and what it has done since is the change that will be added when it lets go. Properties of all values by induction over time and the list. *Proved.* C125_ledger with the locks of the map, C125_untouched and C125_all from it, C125_each for each change by itself; C125_tasks, C125_tasks_each and C125_sets for tasks that share a memory client. The blank value can take the place of a value that another call created in between, since looking whether a key is there and creating it are two steps (C52).
* **C126** A prefix that ends before a byte that begins a character is text; the lossy conversion yields text; numbers are ASCII; strings in responses were checked by the parser. Cases of the commands, induction over the lines. *Proved.* With the printing of floats of C113. That texts of collections lose their end is C69.
* **C127** False of the code: an increment that found no value puts its own in the place of the list that another call has set since. Witness by computation. The part that is true, from the list of changes of C125: a call puts a blank value only after a moment at which it found none. Induction over time: from a moment on at which the key is there and no running call has missed it before, each change in the list is an addition to the value that is there, which keeps its type. *Partial.* False of the code: C127_refuted has a key that holds a list, every call that sets, deletes or renames it having returned, and that holds an integer later, because an increment that had found no value put its own there. C127_partial: a key that is there at the start and that no call sets, deletes or renames is always there with its type. C127_settled_partial: the same from any moment on at which the key is there and no running call has found it missing before. C127_tasks_partial and C127_tasks_settled_partial: for tasks that share a memory client. Missing: keys that are created while an addition to them runs.
* **C128** From the changes that each call can make (C125_each), which also say what the call had found before. For tasks by carrying each moment of a task over to the call of the clients that it becomes. *Proved.* C128_adds, C128_renames and C128_own_keys with the locks of the map; C128_tasks_adds, C128_tasks_renames and C128_tasks_own_keys for tasks that share a memory client. That a key missing at some moment makes a difference is C127_refuted.
* **C129** The call came upon something and left something, and changes the key no more after that (C124). From then on the value changes only by changes of other calls (C125), each of a call that may change the key and that runs at that moment. What a get returns was there while it ran (C123). *Proved.* C129_left for every call that changes a key, C129_read for a get; C129_returned and C129_returned_get for every set, append, increment and decrement; C129_set, C129_set_get, C129_add, C129_add_get, C129_delete, C129_delete_get and C129_rename.
* **C130** Each call is followed step by step with all the changes it has made so far: none is made outside its intervals with the lock. As long as the call can still report an error, the changes so far are none, the removal by a set, or a blank value put where the call found nothing. A key that only failing calls work on is followed through its changes (C125). *Partial.* False of the code: a set removes the value before it puts the new one, and reports an error if another client sets a value of another type in between (C130_refuted); and a call that adds to a missing key leaves the blank value if it then fails, as an increment of a float does (C130_blank_refuted). C130_error_partial says that these are the only changes. For all other commands, deletes and renames among them, C130_nothing proves it in full, and C130_unharmed and C130_read for any mix of failing calls that are no sets on a key that is there.
* **C131** Each call is followed step by step with the changes it has made so far and the number it can still make: one for each command, and one of each of its keys for a rename, not counting those of C130. Each change uses one up, and no change is made outside the intervals with the lock. *Partial.* False of the code for sets: a set of a key that is there takes the value away, puts the blank value there and then the new one, three changes that others can see (C131_refuted); and an addition to a missing key puts the blank value there first. C131_once_partial says that apart from those there is at most one, and C131_last that it is the last; C131_did, that a call that succeeds does make it. C131_adds proves it in full for all commands that neither set nor rename and do not find missing the key that they add to, and C131_rename for renames.

## Differences between the code and its documentation found on the way

Each is a theorem about the model; the first name is the witness.

* The request parser clears the argument positions before it returns a request and reads the key type from the wrong byte, so no argument and no key type sent to the server arrives (`C06_refuted`, `C07_*`). Hence no network client can change data (`C40_*`).
* Count byte 0 followed by 257 arguments panics the parser (`C09_refuted`); such bytes end only the task of their own connection (`C65_*`).
* The 256th builder argument panics in debug builds and wraps the count in release builds (`C04_refuted`). A request turned back into a builder counts arguments from 0 (`C05_refuted`).
* Empty lists and sets in responses never finish decoding (`C14_refuted`); map keys of 256 bytes are corrupted (`C15_refuted`); unknown error codes panic the decoder (`C16_refuted`). A response cut off within a set or a map makes the decoder ask for more bytes than are missing, one cut off before a length for none or nearly 2^64 (`C122_*_refuted`).
* A float increment of a missing key creates an integer and reports an error (`C20_refuted`, `C22_refuted`); increment-by a float is always refused (`C23_refuted`).
* Append drops strings that are not UTF-8 and reports success (`C25_refuted`).
* Exists, Is, Type, Delete and Rename reach reserved keys (`C35_refuted`); Set on a reserved key removes it, then panics (`C72_refuted`).
* `is_string` matches booleans (`C38_refuted`); the argument iterator's length ignores what was consumed (`C60_refuted`).
* The server answers at most one request a line and none without a newline (`C39_refuted`). The server client reads into an empty buffer, so no call returns a value (`C44_refuted`). A call dropped while it writes corrupts the stream for the calls after it (`C83_refuted`).
* The documentation of the client says that append fails on missing keys, that a step without a type works on float keys, and that length needs a type for maps and sets; none of it is so (`C105_refuted`).
* The memory client sends float amounts as integers (`C42_refuted`) and panics on reads of another type (`C43_refuted`).
* Subscribe reports failure although it takes effect for every subscriber but the first, and only the first is indexed (`C45_refuted`, `C46_refuted`). Two parallel additions of sessions can panic, or store a session under an id that is not its own (`C48_refuted`, `C48_refuted_own_id`).
* Concurrent increments of a missing key can be lost (`C52_refuted`); Rename and Set are not atomic (`C53_*`, `C54_*`).
* A failed accept ends the server (`C79_refuted`). The engine's configuration is stored and read by nothing (`C80_refuted`); no command notifies subscribers, and dropping a session keeps its subscriptions (`C81_refuted`); ended sessions are never counted (`C82_refuted`).
* The command line panics on five commands (`C68_refuted`), drops the last key of an odd map (`C59_refuted`), drops the last character of a printed collection (`C69_refuted`), and ends at a line it cannot read (`C71_refuted`).

## Testing the theorems

`seeded/LOG.jsonl` lists wrong versions of the model that were built in a copy,
one per line, with the theorems that stopped proving. When a wrong version broke
no theorem although a claim had become false, the statement was tightened.
