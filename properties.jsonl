{"id": "C01", "title": "Built requests give back exactly the arguments that were put in", "statement": "Building a request for any non-simple command, with or without a key type, by pushing a list of at most 255 non-empty byte arguments succeeds, and the finished request reports that command and key type, the argument count, and for every index exactly the argument pushed at that position (nothing past the end); iterating over all arguments, or all but the first, yields the list or its tail in order, and the key of a keyed command is the first argument.", "quantifier": "every command, key type option, and argument list (any lengths below 2^32 bytes)", "why_tests_cant": "Arguments are recovered by offset arithmetic over a shared buffer; correctness has to hold for every combination of argument lengths, the empty prefix and the key-type byte shift.", "anchors": ["engine/src/command/request/builder.rs RequestBuilder::new, new_with_key_type, _bytes, push_argument, into_request", "engine/src/command/request/mod.rs Request::arg, args, arg_count, key, Arguments::next"]}
{"id": "C02", "title": "The request wire format is the documented one and is unambiguous", "statement": "The bytes of a built request are: command id (top bit set iff a key type is given), the key type byte if any, the argument count, then for each argument its 4-byte big-endian length and its bytes. Two built requests with the same bytes have the same command, key type and arguments.", "quantifier": "every pair of built requests with at most 255 arguments each shorter than 2^32 bytes", "why_tests_cant": "Injectivity is a statement about all pairs of requests.", "anchors": ["engine/src/command/request/builder.rs RequestBuilder", "engine/src/command/request/context.rs test_increment_foo (format description)"]}
{"id": "C03", "title": "Typed values survive the request encoding", "statement": "For every value that the builder accepts, pushing it after a key and reading it back with the typed accessor for its kind (bool, i64, f64, str, bytes, list, map, set) gives the same value, whatever order the hash map or set is iterated in.", "quantifier": "every value of every kind within the builder's limits, every iteration order", "why_tests_cant": "Ranges over all 64-bit integers, all float bit patterns, all UTF-8 strings and all finite maps and sets with every iteration order.", "anchors": ["engine/src/command/request/builder.rs _value", "engine/src/command/request/mod.rs Argument, MultiArgument, typed_arg, typed_args"]}
{"id": "C04", "title": "The builder rejects argument lists that do not fit instead of corrupting them", "statement": "A builder call either adds its arguments completely, or returns an error; it never panics, and it returns TooManyArguments exactly when the total would exceed 255 arguments.", "quantifier": "every sequence of builder calls", "why_tests_cant": "The failing cases need 256 or more arguments reached through particular call sequences; the count is a wrapping 8-bit counter.", "anchors": ["engine/src/command/request/builder.rs push_argument, arguments_would_overfill, _value"]}
{"id": "C05", "title": "Turning a request back into a builder loses nothing", "statement": "Converting a built request into a builder and pushing further arguments gives the same request as pushing all the arguments to one builder.", "quantifier": "every built request and every continuation", "why_tests_cant": "Equality over all split points of all argument lists.", "anchors": ["engine/src/command/request/builder.rs From<Request> for RequestBuilder"]}
{"id": "C06", "title": "A request sent over the wire is parsed to what was sent", "statement": "Feeding the bytes of any built request to a fresh request parser yields a request with the same command, key type and arguments.", "quantifier": "every built request", "why_tests_cant": "Every request, so every argument count and length.", "anchors": ["engine/src/command/request/context.rs Context::feed, stage_init, stage_kind, stage_argument_parsing"]}
{"id": "C07", "title": "Parsed requests never carry arguments or a key type (as implemented)", "statement": "Whatever bytes are fed, in whatever sequence of calls on one parser, every request the parser returns has zero arguments, no key and no key type; every first byte of 128 or more is rejected as KeyTypeInvalid.", "quantifier": "every sequence of feeds of arbitrary buffers", "why_tests_cant": "An invariant over all byte inputs and all parser states.", "anchors": ["engine/src/command/request/context.rs feed (reset before the borrow of positions), stage_init (byte >> 1)"]}
{"id": "C08", "title": "How the input is chunked does not change what is parsed", "statement": "Feeding a byte string to the parser in any sequence of growing prefixes gives the same first conclusive outcome (request, error or crash) as the outcome of feeding the first conclusive prefix to a fresh parser, and an inconclusive feed followed by a feed of a longer buffer behaves as if only the longer buffer had been fed.", "quantifier": "every byte string and every way of splitting it into growing prefixes", "why_tests_cant": "All splits of all inputs; the parser keeps an index and stage between calls.", "anchors": ["engine/src/command/request/context.rs Context::feed"]}
{"id": "C09", "title": "The request parser is total", "statement": "On every input the parser terminates with a request, an error or a request for more data; it never panics.", "quantifier": "every byte string and every parser state reachable by feeding", "why_tests_cant": "The panic needs 257 argument positions; termination is a statement about all inputs.", "anchors": ["engine/src/command/request/context.rs stage_argument_parsing (positions.push)"]}
{"id": "C10", "title": "Responses decode to what was encoded", "statement": "Encoding any response (value, dispatch error or parse error) that fits the format and feeding the bytes to a fresh response parser concludes with exactly that response, whatever order maps and sets were iterated in, in debug and in release builds.", "quantifier": "every response within the format's size limits, every iteration order, both build profiles (apart from the empty values that are the subject of C14)", "why_tests_cant": "All values of all kinds including all finite maps and sets and all iteration orders.", "anchors": ["engine/src/command/response/mod.rs write_*", "engine/src/command/response/context.rs Context::feed, stage_*"]}
{"id": "C11", "title": "Every response frame carries its exact length", "statement": "Writing a response appends to the buffer a 4-byte big-endian length followed by exactly that many bytes, leaves the bytes already in the buffer untouched, and so a stream of responses can be cut into frames.", "quantifier": "every response within the size limits and every prior buffer content", "why_tests_cant": "All values and all prior buffers; write_list patches the header in place after writing.", "anchors": ["engine/src/command/response/mod.rs write_list, write_map, write_set, write_str, write_bytes, copy_to"]}
{"id": "C12", "title": "The response parser asks only for bytes that are missing", "statement": "Fed any strict prefix of an encoded response, in any sequence of growing prefixes, the parser asks for at least one and at most the number of missing bytes (exactly the missing number once the 4-byte header is complete), and then concludes with the right response when the full message is fed.", "quantifier": "every encodable response and every sequence of growing prefixes of its encoding (apart from the empty values that are the subject of C14)", "why_tests_cant": "All split points of all encodings.", "anchors": ["engine/src/command/response/context.rs stage_init, feed"]}
{"id": "C13", "title": "Bytes after a response do not affect it, and the parser can be reused", "statement": "Feeding an encoded response followed by arbitrary bytes concludes with that response, and leaves the parser in its initial state, so decoding a second message with the same parser gives the same as with a fresh one.", "quantifier": "every encodable response and every trailing byte string (apart from the empty values that are the subject of C14)", "why_tests_cant": "All trailing data.", "anchors": ["engine/src/command/response/context.rs feed, reset"]}
{"id": "C14", "title": "Empty collections survive the response encoding", "statement": "An empty list, set, map, string or byte string encodes to a message the parser decodes back to the same empty value.", "quantifier": "the empty value of each kind, any iteration order, both build profiles and every trailing byte string", "why_tests_cant": "Whether the decoder ever concludes is a liveness fact about every continuation of the input.", "anchors": ["engine/src/command/response/context.rs stage_list, stage_set, stage_bytes"]}
{"id": "C15", "title": "Values at or beyond the format's field widths are not silently corrupted", "statement": "Any storable map, set or list is either decoded back to itself or rejected when written.", "quantifier": "every map, set and list, however long its keys, items and counts", "why_tests_cant": "The failures begin at 256-byte map keys, 65536-byte set items and 65536 items.", "anchors": ["engine/src/command/response/mod.rs write_map (key.len() as u8), write_set (as u16), write_list (u16 counter)"]}
{"id": "C16", "title": "The response parser never crashes on bad input", "statement": "For every byte string the response parser returns a response, an error or a request for a positive number of bytes; it never panics.", "quantifier": "every byte string, both build profiles", "why_tests_cant": "All inputs.", "anchors": ["engine/src/command/response/context.rs stage_dispatch_error, stage_parse_error (unwrap), stage_type_init (subtraction)"]}
{"id": "C17", "title": "Set then get returns what was set", "statement": "After a successful typed Set of any value to any ordinary key, in any state, Get on that key (untyped or with that key type) answers with that value, Type answers its key type and Exists answers true; the Set itself answers with the value.", "quantifier": "every state, key, value of every kind, iteration order, both build profiles", "why_tests_cant": "All states, keys and values.", "anchors": ["engine/src/command/impl/set.rs", "engine/src/command/impl/get.rs", "engine/src/command/impl/type.rs", "engine/src/command/impl/exists.rs"]}
{"id": "C18", "title": "Commands affect only the keys they name", "statement": "Dispatching any request leaves every key other than the request's first argument (and, for Rename, its second) exactly as it was, whether the command succeeds, errors or panics.", "quantifier": "every request (well formed or not), every state, both build profiles", "why_tests_cant": "A frame condition over all other keys and all requests.", "anchors": ["engine/src/command/impl/*.rs", "engine/src/hop.rs Hop::dispatch"]}
{"id": "C19", "title": "Read-only commands do not change the store", "statement": "Get, Exists, Is, Type, Length, Keys, Echo and Stats leave the whole keyspace unchanged, also when they error or panic.", "quantifier": "every request for these commands and every state", "why_tests_cant": "All requests and states.", "anchors": ["engine/src/command/impl/get.rs", "engine/src/command/impl/exists.rs", "engine/src/command/impl/is.rs", "engine/src/command/impl/type.rs", "engine/src/command/impl/length.rs", "engine/src/command/impl/keys.rs", "engine/src/command/impl/echo.rs", "engine/src/command/impl/stats.rs"]}
{"id": "C20", "title": "A command that reports an error changes nothing", "statement": "If dispatch returns an error then the keyspace is unchanged and nothing was appended to the response buffer.", "quantifier": "every request, state and build profile", "why_tests_cant": "All requests and states; the counterexample is a typed increment of a missing key.", "anchors": ["engine/src/command/impl/increment_by.rs increment_float_by", "engine/src/hop.rs Hop::dispatch"]}
{"id": "C21", "title": "Integer increments and decrements add exactly", "statement": "Increment, Decrement, IncrementBy and DecrementBy on an integer key or a missing key (counted from 0) store and answer the exact sum when it fits in 64 bits, otherwise wrap in release builds and panic leaving the key as it was in debug builds (a debug build also panics on a DecrementBy amount that cannot be negated); on any other kind of key they answer KeyTypeDifferent and change nothing. Incrementing then decrementing by the same amount restores the value.", "quantifier": "every state, key, 64-bit value and amount, both build profiles", "why_tests_cant": "All pairs of 64-bit integers.", "anchors": ["engine/src/command/impl/increment.rs", "engine/src/command/impl/decrement.rs", "engine/src/command/impl/increment_by.rs", "engine/src/command/impl/decrement_by.rs"]}
{"id": "C22", "title": "Float increments work on float keys and on missing keys", "statement": "A float-typed Increment or Decrement of a float key stores and answers the IEEE sum with 1 or -1; on a missing key it creates a float key.", "quantifier": "every state, key and float bit pattern", "why_tests_cant": "All 2^64 bit patterns and all states.", "anchors": ["engine/src/command/impl/increment_by.rs increment_float_by", "engine/src/command/impl/increment.rs"]}
{"id": "C23", "title": "Increment-by with a float amount adds that float", "statement": "IncrementBy and DecrementBy with a float amount on a float key store and answer the float sum or difference.", "quantifier": "every state and every pair of floats", "why_tests_cant": "All pairs of bit patterns.", "anchors": ["engine/src/command/impl/increment_by.rs dispatch", "engine/src/command/impl/decrement_by.rs dispatch"]}
{"id": "C24", "title": "Append concatenates", "statement": "Append to a bytes, list or string key (or to a missing key of the requested kind, starting empty) stores and answers the old value followed by the arguments in order; appending in two requests equals appending in one; on a key of another kind it answers KeyTypeDifferent and changes nothing.", "quantifier": "every state, key, existing value and argument list", "why_tests_cant": "All values and all ways of splitting the arguments.", "anchors": ["engine/src/command/impl/append.rs"]}
{"id": "C25", "title": "Append to a string stores all of the data or reports an error", "statement": "A string append whose arguments are not all valid UTF-8 is reported as an error.", "quantifier": "every argument list", "why_tests_cant": "All byte strings, including invalid UTF-8 at any position.", "anchors": ["engine/src/command/impl/append.rs Append::string"]}
{"id": "C26", "title": "Delete removes exactly the key", "statement": "Deleting an existing key answers with the key, after which the key does not exist and a further delete answers PreconditionFailed; deleting a missing key changes nothing.", "quantifier": "every state and key", "why_tests_cant": "All states and keys.", "anchors": ["engine/src/command/impl/delete.rs"]}
{"id": "C27", "title": "Rename moves the value and never overwrites", "statement": "Renaming an existing key to a free name moves the value unchanged and answers the new name; renaming onto an existing key answers PreconditionFailed and changes nothing, a missing source answers KeyNonexistent; renaming back restores the original state.", "quantifier": "every state and pair of keys, including equal keys", "why_tests_cant": "All states and key pairs.", "anchors": ["engine/src/command/impl/rename.rs"]}
{"id": "C28", "title": "Exists and Is answer for all keys", "statement": "Exists answers true iff every listed key exists; Is answers true iff every listed key exists and has the requested type.", "quantifier": "every state and every non-empty list of keys", "why_tests_cant": "All lists of keys.", "anchors": ["engine/src/command/impl/exists.rs", "engine/src/command/impl/is.rs"]}
{"id": "C29", "title": "Length counts what the user sees", "statement": "Length answers the number of bytes, list items, map entries, set items, or (for strings) Unicode characters of the stored value; it answers KeyTypeInvalid for booleans, floats and integers, KeyNonexistent for missing keys and KeyTypeDifferent on a type mismatch.", "quantifier": "every state, key and requested type", "why_tests_cant": "All values, in particular all UTF-8 strings.", "anchors": ["engine/src/command/impl/length.rs"]}
{"id": "C30", "title": "Keys lists every key of a map once", "statement": "Keys on a map answers a list containing exactly the map's keys, each once, whatever the iteration order.", "quantifier": "every map and iteration order", "why_tests_cant": "All maps and orders.", "anchors": ["engine/src/command/impl/keys.rs"]}
{"id": "C31", "title": "Echo returns its arguments", "statement": "Echo answers the list of its arguments in order.", "quantifier": "every argument list", "why_tests_cant": "All argument lists.", "anchors": ["engine/src/command/impl/echo.rs"]}
{"id": "C32", "title": "The engine refines a simple key-value specification", "statement": "For every history of requests on an empty engine, each answer decodes to the answer of a short abstract specification of the sixteen commands over a finite map, and the final keyspace is the specification's.", "quantifier": "every finite history of requests, iteration order per request, release build (debug build up to the panics it names)", "why_tests_cant": "All histories, by induction.", "anchors": ["engine/src/hop.rs Hop::dispatch", "engine/src/command/impl/*.rs"]}
{"id": "C33", "title": "Stored data stays well typed", "statement": "In every state reachable from the empty engine, stored integers and floats are 64-bit values and stored strings are valid UTF-8, and so is every value sent in a response.", "quantifier": "every finite history of arbitrary requests", "why_tests_cant": "An invariant over all histories.", "anchors": ["engine/src/command/impl/*.rs", "engine/src/state/value.rs"]}
{"id": "C34", "title": "Dispatch panics only in the named cases", "statement": "In a release build dispatch panics only when a guarded command is run on a key with the reserved __hop__: prefix, and such a command never succeeds: it panics (Get, Increment and Decrement always) unless it answers an error about its type or arguments first; in a debug build it additionally panics only on an empty key, an integer overflow, or a response too large for its length fields.", "quantifier": "every request, state and build profile", "why_tests_cant": "All requests and states.", "anchors": ["engine/src/state/mod.rs key_ref, key_or_insert_with", "engine/src/command/impl/*.rs", "engine/src/command/response/mod.rs"]}
{"id": "C35", "title": "Internal keys are out of reach of clients", "statement": "No request can read, create or remove a key with the reserved __hop__: prefix.", "quantifier": "every request and state", "why_tests_cant": "All requests and states.", "anchors": ["engine/src/state/mod.rs key_ref, key_mut, key_or_insert_with, remove, insert, contains_key"]}
{"id": "C36", "title": "Statistics count commands exactly", "statement": "After any history of requests, Stats reports as successful and errored exactly the number of requests so far that returned success and error, and as sessions started the number of sessions added.", "quantifier": "every finite history of requests and session operations", "why_tests_cant": "All histories.", "anchors": ["engine/src/hop.rs Hop::dispatch", "engine/src/command/impl/stats.rs", "lib/metrics/src/lib.rs", "client/src/model.rs"]}
{"id": "C37", "title": "Identifiers round-trip and are distinct", "statement": "Every command, key type, response type, dispatch error and parse error converts to a byte and back to itself, bytes outside these sets are rejected, and every command name parses back to its command. The bytes, the command names and the names of the counters are those of the protocol (the tables in IdSpec.v).", "quantifier": "every identifier, every byte, and every string", "why_tests_cant": "The name parser ranges over all strings.", "anchors": ["engine/src/command/command_id.rs", "engine/src/command/error.rs", "engine/src/state/mod.rs KeyType", "engine/src/command/response/mod.rs ResponseType"]}
{"id": "C38", "title": "Value accessors agree with the value's kind", "statement": "For every value exactly the accessors and predicates of its own kind succeed.", "quantifier": "every value", "why_tests_cant": "All values of all kinds.", "anchors": ["engine/src/state/value.rs is_*, as_*"]}
{"id": "C39", "title": "The server answers every complete request, in order", "statement": "For any byte stream made of the encodings of a sequence of requests, the server writes one response per request, in order.", "quantifier": "every sequence of requests and every segmentation of the stream", "why_tests_cant": "All request sequences; framing by newline depends on the request bytes themselves.", "anchors": ["server/src/main.rs handle_socket_inner"]}
{"id": "C40", "title": "No network client can change the stored data (as implemented)", "statement": "Whatever bytes clients send over whatever number of connections, the server's keyspace never changes, and every response it writes is the answer to an argument-less request or an error.", "quantifier": "every set of connections, every byte stream and interleaving", "why_tests_cant": "All byte streams and interleavings.", "anchors": ["server/src/main.rs handle_socket_inner", "engine/src/command/request/context.rs feed"]}
{"id": "C41", "title": "Network segmentation does not matter to the server", "statement": "Which responses a connection can get depends only on the concatenation of the received segments: for every run of the server and every other segmentation of what a connection received there is a run with that segmentation in which every connection is sent the same and the state ends up the same; and two connections that received the same bytes and are done were sent the same responses, except for the counts in answers to Stats.", "quantifier": "every byte stream, every segmentation, every number of connections and every schedule", "why_tests_cant": "All segmentations.", "anchors": ["server/src/main.rs handle_socket_inner"]}
{"id": "C42", "title": "The in-memory client behaves like a typed map", "statement": "For every history of client calls on a memory client within the documented limits, each call returns what a simple map specification returns: set returns and stores the value, get returns it, delete, rename, exists, is, type, length, keys, increment, decrement and append act and answer accordingly.", "quantifier": "every finite history of client calls", "why_tests_cant": "All histories, composed through builder, dispatch, encoder and decoder.", "anchors": ["client/src/backend/memory.rs", "client/src/lib.rs"]}
{"id": "C43", "title": "Memory client calls return instead of panicking", "statement": "Every memory-client call with valid arguments returns a value or an error.", "quantifier": "every call and every reachable state", "why_tests_cant": "All calls and states.", "anchors": ["client/src/backend/memory.rs send (unreachable!)"]}
{"id": "C44", "title": "The server-backed client delivers the server's answer", "statement": "When the server's reply is an encoded response, the call returns that response.", "quantifier": "every reply byte stream and every segmentation", "why_tests_cant": "All replies.", "anchors": ["client/src/backend/server.rs send_and_wait"]}
{"id": "C45", "title": "Subscriptions reflect subscribe and unsubscribe", "statement": "After any history of subscribe, unsubscribe and session removal, a session has a live subscription for a key iff its last operation on that key was a subscribe that has not been undone; subscribe reports success exactly when the session was not subscribed; unsubscribe reports whether it was.", "quantifier": "every finite history of pubsub operations", "why_tests_cant": "All histories.", "anchors": ["engine/src/pubsub/manager.rs"]}
{"id": "C46", "title": "The pubsub indexes agree", "statement": "After any history, the sessions recorded under a key are exactly the sessions that hold a subscription for that key.", "quantifier": "every finite history of pubsub operations", "why_tests_cant": "An invariant over all histories.", "anchors": ["engine/src/pubsub/manager.rs"]}
{"id": "C47", "title": "Session ids are unique among live sessions", "statement": "After any history of fewer than 2^32 session additions, every addition gives an id no live session has, the live sessions are exactly those added and not removed, and each stored session carries its own id and token.", "quantifier": "every finite history of add and remove", "why_tests_cant": "All histories; wrap-around needs 2^32 additions.", "anchors": ["engine/src/session/manager.rs"]}
{"id": "C48", "title": "Adding sessions from clones in parallel never crashes or loses a session", "statement": "When several clones of the session manager add sessions concurrently, each gets its own id.", "quantifier": "every interleaving of any number of adds", "why_tests_cant": "All schedules.", "anchors": ["engine/src/session/manager.rs add"]}
{"id": "C49", "title": "The timer measures the time between its first start and its first stop", "statement": "For every history of start, stop, reset with a monotonic clock, the timer reports a duration iff it was started and then stopped since the last reset, equal to the clock difference between those two calls; start and stop report whether they took effect; it never panics.", "quantifier": "every finite history of calls and every monotonic clock", "why_tests_cant": "All histories and clocks.", "anchors": ["lib/timer/src/lib.rs"]}
{"id": "C50", "title": "Metrics counters and gauges are exact and snapshots are frozen", "statement": "After any history of increments and gauge writes a reader sees, per key, the number of increments and the last gauge value; a snapshot keeps the values from when it was taken; after the metrics are dropped readers see nothing and writers report failure.", "quantifier": "every finite history of operations", "why_tests_cant": "All histories.", "anchors": ["lib/metrics/src/lib.rs"]}
{"id": "C51", "title": "Concurrent increments of an existing integer are never lost", "statement": "If an integer key exists and only integer increments and decrements (by one or by an amount) address it, then under every schedule of any number of concurrent commands the final value is the initial value plus the sum of the amounts, and every one of them succeeds, unless some of the amounts together overflow 64 bits. If they can overflow, the final value is the initial value plus the amounts of those that succeeded, modulo 2^64, and in a release build all succeed.", "quantifier": "every number of threads and every interleaving of their atomic steps", "why_tests_cant": "All schedules.", "anchors": ["engine/src/state/mod.rs key_or_insert_with", "engine/src/command/impl/increment_by.rs"]}
{"id": "C52", "title": "Concurrent increments of a missing key are never lost", "statement": "Two concurrent increments of a key that does not exist leave it at 2.", "quantifier": "every interleaving", "why_tests_cant": "The losing schedule is a race between the missing-key check and the insert.", "anchors": ["engine/src/state/mod.rs key_or_insert_with"]}
{"id": "C53", "title": "Rename is atomic", "statement": "Under concurrency, a key's value is always reachable under the old or the new name while it is renamed, and an existing destination is never overwritten.", "quantifier": "every interleaving of a rename with other commands", "why_tests_cant": "All schedules.", "anchors": ["engine/src/command/impl/rename.rs"]}
{"id": "C54", "title": "Overwriting a key with Set is atomic", "statement": "While one client overwrites an existing key with Set, no concurrent Get answers KeyNonexistent or a value that was never set.", "quantifier": "every interleaving of a Set with Gets", "why_tests_cant": "All schedules.", "anchors": ["engine/src/command/impl/set.rs", "engine/src/state/mod.rs key_or_insert_with"]}
{"id": "C55", "title": "Commands never block each other forever", "statement": "From every reachable state of any number of concurrent commands, any unfinished command finishes when run on its own, within a bounded number of its own steps. However the commands are interleaved, they take a bounded number of steps together, and when none of them can take a step all have returned.", "quantifier": "every reachable concurrent state, every schedule", "why_tests_cant": "All schedules.", "anchors": ["engine/src/state/mod.rs", "engine/src/command/impl/*.rs"]}
{"id": "C56", "title": "Single-step commands are linearizable", "statement": "Under every schedule, each concurrent Get, Delete, Type, Exists/Is of one key, Length/Keys with an explicit key type, and Append/Increment on an existing key of the right kind behaves as if executed alone at one instant between its start and its end.", "quantifier": "every schedule", "why_tests_cant": "All schedules.", "anchors": ["engine/src/state/mod.rs", "engine/src/command/impl/*.rs"]}
{"id": "C57", "title": "Command counters are exact under concurrency", "statement": "When all concurrent commands have finished, the success and error counters have grown by exactly the numbers of commands that succeeded and errored.", "quantifier": "every number of threads and every schedule", "why_tests_cant": "All schedules.", "anchors": ["engine/src/hop.rs Hop::dispatch", "lib/metrics/src/lib.rs"]}
{"id": "C58", "title": "The command line is parsed to the request it spells", "statement": "For every command name with an optional key type suffix and space-separated arguments, the parsed request has that command, that key type (bytes by default) and those arguments encoded for the key type; other first words are rejected.", "quantifier": "every input line", "why_tests_cant": "All strings.", "anchors": ["cli/lib/src/parse.rs parse, command, input_args"]}
{"id": "C59", "title": "The command line rejects an incomplete map", "statement": "A map argument list with a key but no value is rejected.", "quantifier": "every odd-length argument list", "why_tests_cant": "All argument lists.", "anchors": ["cli/lib/src/parse.rs input_args (MapIncomplete)"]}
{"id": "C60", "title": "The argument iterator's reported length is the number of items left", "statement": "For every request and range, the reported exact length equals the number of arguments the iterator yields.", "quantifier": "every request, range and iteration point", "why_tests_cant": "All requests and ranges.", "anchors": ["engine/src/command/request/mod.rs ExactSizeIterator for Arguments"]}
{"id": "C61", "title": "Removing a session closes exactly its subscriptions", "statement": "Removing a session closes every subscription it holds and forgets it; a subscription that is still held by any session has never been closed, and no two sessions or keys share one.", "quantifier": "every finite history of pubsub operations, session and key", "why_tests_cant": "A subscription belonging to the wrong session could be closed only after some particular history; tests check one close.", "anchors": ["engine/src/pubsub/manager.rs: PubSubManager::remove_session, subscribe, get", "engine/src/pubsub/mod.rs: Subscription::close"]}
{"id": "C62", "title": "Removing a session reports whether it was subscribed", "statement": "Removing a session returns true iff the session was subscribed to any key.", "quantifier": "every finite history of pubsub operations and every session", "why_tests_cant": "Depends on every earlier unsubscribe and removal of the session.", "anchors": ["engine/src/pubsub/manager.rs: PubSubManager::remove_session"]}
{"id": "C63", "title": "Commands on private keys behave as if alone", "statement": "If no other concurrent command may write the keys that a command (other than Stats) reads or writes, then under every schedule the command answers what it would answer alone on the initial state, and its keys end up as if it had run alone.", "quantifier": "every number of threads, every interleaving and every mix of commands", "why_tests_cant": "All schedules and all other commands.", "anchors": ["engine/src/hop.rs Hop::dispatch", "engine/src/state/mod.rs State", "engine/src/command/impl/*.rs"]}
{"id": "C64", "title": "Stored data stays well typed under concurrency", "statement": "Under every schedule of any concurrent requests, well formed or not, every stored integer is a 64-bit integer, every stored string is UTF-8 and every float is a 64-bit float, at every moment.", "quantifier": "every number of threads, every interleaving, every request", "why_tests_cant": "All schedules, including those that show intermediate states.", "anchors": ["engine/src/state/mod.rs", "engine/src/command/impl/*.rs"]}
{"id": "C65", "title": "A client's bytes can only crash that client's own connection task", "statement": "Whatever the clients send and however the tasks are interleaved, the task of a connection panics only if its own byte stream contains a message with a zero argument count byte and at least 1030 bytes; no other connection's input matters, and messages answered before are answered normally.", "quantifier": "every number of connections, byte streams, segmentation and schedule", "why_tests_cant": "All byte streams and all interleavings of all connections.", "anchors": ["server/src/main.rs handle_socket_inner", "engine/src/command/request/context.rs feed"]}
{"id": "C66", "title": "Statistics accessors return the engine's counters", "statement": "For every counter value the engine can report, the client's accessor for that counter returns that number.", "quantifier": "every statistics map, counter and 64-bit value", "why_tests_cant": "All 64-bit values and maps.", "anchors": ["client/src/model.rs StatsData::int"]}
{"id": "C67", "title": "Multi-key requests accept exactly 1 to 255 keys", "statement": "Exists and Is with a list of keys are configured successfully exactly when the list has between 1 and 255 keys, and then with that list; otherwise the error says whether there were none or too many.", "quantifier": "every list of keys", "why_tests_cant": "All lists.", "anchors": ["client/src/request/exists.rs keys", "client/src/request/is.rs keys"]}
{"id": "C68", "title": "A command line does what the client call it names does", "statement": "For every store and every line naming a command with its words, running the line changes the store exactly as the client call with that command, key type and arguments does, and prints the answer of that call, or the message for its error; a line with too few words prints a message and changes nothing; no line crashes the program.", "quantifier": "every store, command, key type and list of words", "why_tests_cant": "All stores, values and lines.", "anchors": ["cli/lib/src/process.rs CommandProcessor::process, process_inner", "cli/lib/src/print.rs"]}
{"id": "C69", "title": "A printed collection shows all of it", "statement": "Printing a list, set or map shows every item, or every key and value, in full.", "quantifier": "every list, set and map of byte strings, in every iteration order", "why_tests_cant": "All collections and contents, including empty and non-ASCII ones.", "anchors": ["cli/lib/src/print.rs Printer"]}
{"id": "C70", "title": "Numbers and text are printed exactly", "statement": "An integer is printed as a decimal number that reads back as the same integer; exactly the decimal numbers that fit are read as integers; printed bytes are always valid UTF-8, and valid UTF-8 is printed unchanged.", "quantifier": "every 64-bit integer, every word, every byte string", "why_tests_cant": "All integers and byte strings.", "anchors": ["cli/lib/src/parse.rs input_args", "cli/lib/src/print.rs"]}
{"id": "C71", "title": "A session answers its lines one by one", "statement": "For every input, the program answers each line in order on the state the lines before left, and a line that cannot be read is reported and does not end the session.", "quantifier": "every input, of any number of lines", "why_tests_cant": "All inputs of any length.", "anchors": ["cli/bin/src/main.rs run"]}
{"id": "C72", "title": "A command that crashes has all of its effect or none", "statement": "If executing a request panics, what the other clients then see is the store as it was before the request, or as the complete command leaves it.", "quantifier": "every request, store, iteration order and build profile", "why_tests_cant": "All requests and stores, including values of 2^32 bytes.", "anchors": ["engine/src/command/impl/set.rs", "engine/src/hop.rs Hop::dispatch", "engine/src/state/mod.rs key_or_insert_with"]}
{"id": "C73", "title": "Float steps are correctly rounded", "statement": "A float Increment or Decrement of a float key stores and answers the float nearest to the exact sum with 1 or -1, of two equally near the even one, and infinity exactly when the sum is beyond the largest float by half a step or more; steps between whole numbers up to 2^53 are exact, and 2^53 itself is where an incremented counter first stands still.", "quantifier": "every float bit pattern, state, key, iteration order and build profile", "why_tests_cant": "All 2^64 bit patterns, with ties, carries, subnormals and overflow.", "anchors": ["engine/src/command/impl/increment.rs", "engine/src/command/impl/decrement.rs", "engine/src/command/impl/increment_by.rs increment_float_by"]}
{"id": "C74", "title": "Histories of single-key commands are linearizable", "statement": "When clients issue any number of commands one after another, all of which read, delete or update one key once (updates of keys that are there at the start and that nobody deletes), every command takes effect in one instant between its call and its return: at every moment the data is what running the commands so far in that order gives, and every outcome is the one of that order.", "quantifier": "any number of clients, any sequences of such commands, every schedule, build profile and iteration order", "why_tests_cant": "All interleavings of all histories.", "anchors": ["engine/src/hop.rs Hop::dispatch", "engine/src/state/mod.rs", "server/src/main.rs handle_socket_inner"]}
{"id": "C75", "title": "A request is made once, when first polled", "statement": "Creating a request of the client does nothing; its call is made exactly once, when the request is first polled, and that poll is ready with its result; polling it again panics without touching the data, and dropping it at any time does nothing. So the data is what making the calls in the order of first polls gives.", "quantifier": "every program that makes, polls and drops any number of requests of a memory client in any order", "why_tests_cant": "All interleavings of any number of requests.", "anchors": ["client/src/request/set/set_boolean.rs SetBoolean::poll", "client/src/request/get/mod.rs GetUnconfigured::poll", "client/src/request/mod.rs MaybeInFlightFuture", "client/src/backend/memory.rs MemoryBackend"]}
{"id": "C76", "title": "Concurrent subscription calls always return", "statement": "When any number of threads get, subscribe, unsubscribe and remove sessions on clones of one manager at the same time, no set of threads ever waits for each other for good: some call can go on until all have returned, and every call takes a bounded number of steps.", "quantifier": "any number of threads and calls, every schedule, every distribution of keys and sessions over lock shards", "why_tests_cant": "All schedules; a deadlock needs a rare one.", "anchors": ["engine/src/pubsub/manager.rs PubSubManager"]}
{"id": "C77", "title": "Concurrent subscription calls behave as if made one after another", "statement": "Whatever the schedule, there is an order of the calls, respecting which call returned before which began, in which making them one after another gives the same subscriptions and the same results.", "quantifier": "any number of threads and calls, every schedule, every distribution over lock shards", "why_tests_cant": "All schedules of all sets of calls.", "anchors": ["engine/src/pubsub/manager.rs PubSubManager"]}
{"id": "C78", "title": "The server listens where it was told", "statement": "The port is the number in PORT when PORT is a decimal number below 65536 (perhaps after a plus sign), and 46733 in every other case; the host is the address in HOST when HOST is an address, and 0.0.0.0 in every other case; neither variable affects the other.", "quantifier": "every value of both environment variables, set or not", "why_tests_cant": "All strings.", "anchors": ["server/src/main.rs Config::new"]}
{"id": "C79", "title": "The server keeps accepting connections", "statement": "A server that has started accepts new connections, whatever happened on earlier ones.", "quantifier": "every history of connections, failures and bytes", "why_tests_cant": "All histories.", "anchors": ["server/src/main.rs main, handle_socket"]}
{"id": "C80", "title": "The engine configuration takes effect", "statement": "An engine reports the configuration it was built with; with pubsub disabled no subscription can be made, and never are more sessions active than allowed.", "quantifier": "every sequence of builder settings and every history of engine calls", "why_tests_cant": "All settings and histories.", "anchors": ["engine/src/hop.rs Config, Builder, Hop::config"]}
{"id": "C81", "title": "Subscribers learn of changes", "statement": "While a session is subscribed to a key, changes of the key show in its subscription, and when the session ends so do its subscriptions.", "quantifier": "every history of engine calls", "why_tests_cant": "All histories.", "anchors": ["engine/src/hop.rs Hop::dispatch, Hop::pubsub, Hop::sessions", "engine/src/pubsub/key_update.rs"]}
{"id": "C82", "title": "The engine counts commands and sessions", "statement": "A metrics reader of the engine shows, after any calls on the engine and on what it hands out, exactly how many commands succeeded and failed and how many sessions were started and ended.", "quantifier": "every history of fewer than 2^63 calls", "why_tests_cant": "All histories.", "anchors": ["engine/src/hop.rs Hop::metrics", "engine/src/session/manager.rs SessionManager::remove", "engine/src/metrics.rs"]}
{"id": "C83", "title": "Calls that share a connection", "statement": "Calls made at the same time on clones of one network client are sent one after the other, each whole; the calls all come to an end; none of them changes what another one sends.", "quantifier": "all sets of calls, all interleavings of their steps, all sizes in which the socket accepts bytes, write failures and dropped calls at any point", "why_tests_cant": "The order of the steps and the sizes of writes are up to scheduler and network; tests see a few.", "anchors": ["client/src/backend/server.rs: ServerBackend, send_and_wait"]}
{"id": "C84", "title": "An update in progress is never seen", "statement": "Values are changed in place, over a period of time, while a lock on a part of the store is held. Still, commands that run at the same time give the same answers and leave the same store as if each access to a key had happened at one instant: no command ever observes a half-changed value. The locks never lead to a deadlock, and no schedule keeps the commands busy for ever.", "quantifier": "every set of commands, every division of keys among locks, every schedule, every sequence of intermediate values an update goes through", "why_tests_cant": "Torn reads and deadlocks show up only under particular interleavings and hash collisions; no test enumerates shardings and schedules.", "anchors": ["engine/src/state/mod.rs: State::key, State::key_or_insert_with, State::key_or_insert_with, State::insert, State::remove", "engine/src/command/impl/append.rs", "engine/src/command/impl/increment.rs", "engine/src/command/redefinition.rs"]}
{"id": "C85", "title": "Commands about one key take effect one after the other, whatever else runs", "statement": "Clients issue sequences of commands concurrently. Take one key such that every command that may change it looks at or changes that key once and no other (get, delete, type, exists, is, length, keys, increment, decrement, increment_by, decrement_by, typed append), the updates finding the key present at the start and nobody deleting it. Then, although the other commands are arbitrary (renames, sets, untyped appends of other keys, stats), at every instant there is one order of the commands about the key, containing all that have returned and only such that have begun, so that running just them one after another gives the same outcomes and the same value at the key; and the order only grows, so it respects which returned before which began.", "quantifier": "every number of clients, sequences of commands, starting state, schedule of their store accesses and instant", "why_tests_cant": "only adversarial interleavings of store accesses of several commands would show a violation; a test sees a few schedules", "anchors": ["engine/src/state.rs: key_or_insert_with, typed_key, insert, remove", "engine/src/command/impl/*"]}
{"id": "C86", "title": "Increments of a counter hand out consecutive numbers, each once", "statement": "Clients increment one existing integer key by one (with increment, increment_by 1 or decrement_by -1), concurrently and repeatedly, next to any commands that do not change it. If the start plus the number of commands fits 64 bits, then the increments that have taken effect are in one order, the one at place i gets the start plus i, no two get the same number and no number is skipped; one that begins after another has returned gets a larger number; and the key holds the last number handed out.", "quantifier": "every number of clients, sequences of commands, starting value, environment (build, iteration order) and schedule, at every instant", "why_tests_cant": "a duplicate or skipped number needs a particular interleaving; tests run few", "anchors": ["engine/src/command/impl/increment.rs", "engine/src/command/impl/increment_by.rs", "engine/src/state.rs: key_or_insert_with"]}
{"id": "C87", "title": "Concurrent appends to an existing key are all kept, whole and once", "statement": "Clients append items to one existing list, string or bytes key (naming its type), concurrently and repeatedly, next to any commands that do not change it. Then what is at the key is the initial value followed by the items of the appends that have taken effect, each complete, contiguous and exactly once, in one order that respects which returned before which began; and every append that has returned answered the value up to and including its own items.", "quantifier": "every number of clients, sequences of commands, items, starting value, environment and schedule, at every instant", "why_tests_cant": "a lost or torn append needs a particular interleaving; tests run few", "anchors": ["engine/src/command/impl/append.rs", "engine/src/state.rs: key_or_insert_with"]}
{"id": "C88", "title": "Of concurrent deletes of a key exactly one succeeds", "statement": "Clients delete one existing key, concurrently and repeatedly, next to any commands that do not change it. At every instant either the key still has its value and no delete has returned, or it is gone and exactly one delete is the one that removed it: that one answers the key, every other one that has returned failed with the precondition error; it did not begin after another had returned; and once all commands have returned there is a winner if there was a delete.", "quantifier": "every number of clients, sequences of commands, starting value, environment and schedule, at every instant", "why_tests_cant": "two winners need a particular interleaving; tests run few", "anchors": ["engine/src/command/impl/delete.rs", "engine/src/state.rs: remove"]}
{"id": "C89", "title": "Sequences of commands and the locks of the store", "statement": "Clients issue sequences of commands concurrently on a store whose shards are behind reader-writer locks, and in which values are changed in place through intermediate states. At every instant there is a schedule of atomic store accesses after which the same commands have begun, the same have returned with the same outcomes, and every key that nobody has locked for writing has the same value; so no intermediate state is ever seen, and all theorems about schedules of accesses (C74, C85-C88) hold with the locks. Nobody is ever stuck: a client with a lock can go on, and if nobody has a lock, every client that has not finished can.", "quantifier": "every number of clients, sequences of commands, starting state, spread of keys over shards, schedule, and intermediate states of the values", "why_tests_cant": "deadlocks and torn reads show up only under particular interleavings inside the map library", "anchors": ["engine/src/state/mod.rs: State", "lib/metrics/src/lib.rs", "engine/src/hop.rs: dispatch"]}
{"id": "C90", "title": "All calls return under a fair scheduler", "statement": "Any number of clients each issue a finite sequence of commands on one store whose shards are behind reader-writer locks. However they are scheduled, the number of steps is bounded; when none can move, all calls have returned; and if the scheduler picks every client again and again, all calls return, although picked clients may have to wait for locks and although missing keys are looked up again after others deleted them. So does every call of every task, when tasks share one memory client.", "quantifier": "all sequences of calls of clients or tasks, stores, distributions of keys over shards, fair schedulers and intermediate values", "why_tests_cant": "Termination under every fair infinite schedule is not observable in finite tests.", "anchors": ["engine/src/state/mod.rs key_or_insert_with", "engine/src/hop.rs dispatch", "client/src/backend/memory.rs"]}
{"id": "C91", "title": "A command returns after a bounded number of its own steps, whatever others do", "statement": "The number of steps a client makes for one command is bounded by a number that depends on the command only, not on what other clients do at the same time.", "quantifier": "all commands, all concurrent commands, stores and schedules", "why_tests_cant": "The worst schedule grows with the number of other clients; no finite test exhausts them.", "anchors": ["engine/src/state/mod.rs key_or_insert_with"]}
{"id": "C92", "title": "Independent commands can be swapped", "statement": "If neither of two consecutive commands may change a key the other one looks at or changes, and neither asks for the statistics, then executing them in the other order gives the same answer to each of them and to every other command of the history, and the same state at the end, counters included.", "quantifier": "all histories of commands around the two, all pairs of commands, request lists, stores with counters that do not overflow", "why_tests_cant": "All pairs of commands on all stores, and all continuations of the history.", "anchors": ["engine/src/hop.rs dispatch", "engine/src/command/impl"]}
{"id": "C93", "title": "A client with keys of its own is served as if alone", "statement": "Clients issue sequences of commands concurrently. If no other client may change the keys that a client uses, then every command of this client, including ones made of several accesses like Set, Rename and creating increments, returns exactly what it would return if the client ran alone, and between its commands its keys hold what they would hold then; also on the store with shard locks and in-place updates.", "quantifier": "all sequences of commands of all clients, stores, schedules, spreads of keys over shards and intermediate values", "why_tests_cant": "Every interleaving with arbitrary other clients.", "anchors": ["engine/src/hop.rs dispatch", "engine/src/state/mod.rs"]}
{"id": "C94", "title": "Clients with disjoint keys are served as if one after the other", "statement": "If no client may change a key that another one uses, then once all have finished, all answers and the data are those of running the clients one after the other, whatever the schedule was; also with shard locks and in-place updates.", "quantifier": "all numbers of clients, sequences of commands, stores, schedules, spreads of keys over shards and intermediate values", "why_tests_cant": "Every interleaving.", "anchors": ["engine/src/hop.rs dispatch", "engine/src/state/mod.rs"]}
{"id": "C95", "title": "Tasks that share a memory client and have keys of their own see a map", "statement": "Several tasks use one memory client (or clones of it) at the same time. A task whose keys no other task may change gets from each of its calls, in order, exactly the result the map of C42 gives, whatever the other tasks do with other keys and however the threads interleave; once it has finished, its keys hold what that map holds.", "quantifier": "every number of tasks, every sequence of client calls of each within the limits of C42, every initial store, every assignment of keys to shards and every interleaving of the lock operations and updates in place", "why_tests_cant": "It ranges over all schedules of any number of threads.", "anchors": ["client/src/backend/memory.rs MemoryBackend", "client/src/lib.rs Client", "engine/src/hop.rs Hop::dispatch"]}
{"id": "C96", "title": "Tasks that count through a shared memory client get consecutive numbers", "statement": "Tasks that share a memory client call increment (or increment by one) on one integer key concurrently, among other calls that do not change that key. There is one order of the increments that have taken effect; the one at place i (from zero) that has returned got the start plus i plus one, so no number is given twice or left out; an increment called after another has returned gets a larger number; and the key holds the last number given.", "quantifier": "every number of tasks, sequences of client calls, initial integer, shards and interleavings", "why_tests_cant": "Lost or doubled increments show only under particular schedules.", "anchors": ["client/src/backend/memory.rs MemoryBackend", "client/src/lib.rs Client", "engine/src/hop.rs Hop::dispatch"]}
{"id": "C97", "title": "Only one of the tasks that delete a key through a shared memory client succeeds", "statement": "Tasks that share a memory client delete one existing key concurrently, among other calls that do not change it. Exactly one delete is told that it deleted the key; all others that return get the precondition error; and none of these had returned before the successful one began.", "quantifier": "every number of tasks, sequences of client calls, initial value, shards and interleavings", "why_tests_cant": "It ranges over all schedules.", "anchors": ["client/src/backend/memory.rs MemoryBackend", "client/src/lib.rs Client", "engine/src/hop.rs Hop::dispatch"]}
{"id": "C98", "title": "A chain of methods asks for one call, made when it is first awaited", "statement": "Methods called on a client and on the requests it returns (increment(k).int().by(n), length(k).list(), exists().keys(l), ...) send nothing; the first poll of a request makes exactly the call its chain stands for: the last amount or type set wins, a map keeps the last pair of each key, keys() refuses none or more than 255 keys. Changing a request after its first poll has no effect, and turning an already polled get, increment or decrement into a typed one panics.", "quantifier": "every program: any interleaving of method calls, polls and drops of any number of requests of one memory client", "why_tests_cant": "Chains have no bounded length and can be mixed with polls and other requests in any order.", "anchors": ["client/src/lib.rs Client::append..stats", "client/src/request/get/mod.rs GetUnconfigured", "client/src/request/set/mod.rs SetUnconfigured", "client/src/request/append/mod.rs", "client/src/request/increment/*.rs by, int, float", "client/src/request/decrement/*.rs", "client/src/request/length.rs", "client/src/request/exists.rs", "client/src/request/is.rs"]}
{"id": "C99", "title": "The response parser accepts and refuses exactly what the format says", "statement": "A new response parser given any bytes returns a response exactly when the bytes start with a whole message that spells that response: the length header, the kind, and for each kind its payload (a collection is read until it has as many items, distinct members or distinct keys as announced; an empty list or set is read as having one). It gives an error exactly when they start with a whole message of an unknown kind or with a string that is not UTF-8, and which error says which of the two it was. In all other cases it asks for more bytes, or crashes in the cases of C16. No bytes spell two responses.", "quantifier": "all byte sequences, both build profiles", "why_tests_cant": "tests feed a few frames written by the encoder; which of all byte sequences are accepted, as what, and which are refused cannot be enumerated", "anchors": ["engine/src/command/response/context.rs: Context::feed, stage_determine_type, stage_list, stage_map, stage_set, stage_string, ParseError"]}
{"id": "C100", "title": "Appends by tasks sharing a memory client are all kept, whole, once", "statement": "Let any number of tasks share one in-memory client and append bytes, list items or text of the matching kind to one key that is present, while everything else they do leaves that key alone. Then, whatever the schedule, each append is applied whole and once: the key holds its first value followed by the appended values in some order; each call returns the value made of the first one, the appends before it and its own; a call made after another had returned comes after it; and a refused call (an empty argument) returns the error and appends nothing.", "quantifier": "every list of tasks and calls, every first value that can be appended to, every schedule and every assignment of keys to shards", "why_tests_cant": "Which append is lost or torn depends on the interleaving of the tasks and of the steps inside each append; tests see few of them.", "anchors": ["client/src/backend/memory.rs: MemoryBackend::append", "engine/src/command/impl/append.rs: Append", "engine/src/state/mod.rs: State::key_or_insert_with"]}
{"id": "C101", "title": "An error can be told from its text", "statement": "The text of an error says which error it is: two lines the command line cannot read are reported with the same text only if they fail for the same reason at the same word, and a word the report names stands in the line; the errors of the engine, of building a request, of configuring a request and the messages of the command line have different texts; and so have the errors of the calls of a memory and of a server client, with their numbers (only the value that could not be sent, and the cause of an input or output error, may be lost).", "quantifier": "every line, every error and every argument in it, every call of either client", "why_tests_cant": "The texts contain arbitrary words of the input; tests compare a few.", "anchors": ["cli/lib/src/parse.rs: Display for ParseError", "cli/lib/src/process.rs: Display for ProcessError, process", "engine/src/command/error.rs: Display for Error", "engine/src/command/request/builder.rs: Display for RequestBuilderError", "client/src/request/mod.rs: Display for CommandConfigurationError", "client/src/backend/memory.rs: Display for Error", "client/src/backend/server.rs: Display for Error"]}
{"id": "C102", "title": "One key of a shared memory client behaves as if one task used it", "statement": "Any number of tasks share one memory client. If every call that may change a key k looks at it (get, key type, exists, is, typed length), deletes it, or adds to it (append, increment, decrement; then k is there at the start and no task deletes it), then at every instant the calls about k that have taken effect stand in one order, which only grows over time; each stands in it after it has begun and before it has returned, so a call made after another returned comes later; and one task making these calls alone in this order would have left what is at k and got every result that has been returned. Calls about other keys, of whatever kind, do not matter. Within the limits of C42, the value and the results are those of a plain map.", "quantifier": "all sets of tasks with any calls, all stores, all keys k, all assignments of keys to shards, all interleavings of the tasks' steps including values an update passes through, and every instant of each", "why_tests_cant": "tests run a few interleavings; the claim is about all of them, at every instant, for any mix of calls on other keys", "anchors": ["client/src/backend/memory.rs: Backend for MemoryBackend", "client/src/lib.rs: Client", "engine/src/hop.rs: Hop::dispatch"]}
{"id": "C103", "title": "Requests on any backend: lazy, one call each, answers passed through, futures dropped", "statement": "A client works with any implementation of the public Backend trait, whose futures may be pending for any number of polls, fail or panic. Whatever the backend does: making a request, configuring it and dropping it without polling ask nothing of the backend; the first poll of a request begins exactly one call, the one its chain of methods asks for (an increment or decrement by the amount set before that poll, 1 if none; typed gets, sets and appends as plain ones), and polls it; each later poll polls that same call while it is pending; a poll shows the backend's answer (pending, the value or the error), except that a typed request panics when given another kind of value; once a request is over, polling it panics and asks nothing of the backend; dropping a pending request, or turning it into another type, drops the backend's future. So each call begun comes to exactly one end, and none is left under way when the program holds no requests. With the memory backend this is the behaviour of C98.", "quantifier": "all backends (any state, futures, errors, pending pattern, panics), all programs that compile (any interleaving of making, configuring, polling and dropping any number of requests), all initial backend states", "why_tests_cant": "A test uses one backend with one pattern of pending polls; the claim is about every implementation of the trait and every interleaving of polls and drops of many requests.", "anchors": ["client/src/backend/mod.rs: Backend", "client/src/request/mod.rs: MaybeInFlightFuture", "client/src/request/get/mod.rs: GetUnconfigured::poll", "client/src/request/increment/increment_int.rs: IncrementInteger::poll", "client/src/request/set/set_boolean.rs: SetBoolean::poll", "client/src/request/length.rs: Length::poll"]}
{"id": "C104", "title": "Slow or broken peers: what a peer gets is its answers up to some byte, and nobody else waits", "statement": "Answers are handed to a connection's socket in pieces, as fast as the peer takes them, and the connection may break in between. At every moment what a peer has got is the answers to the first messages it sent, whole and in order, except that a piece at the end of the last one may be missing. The missing piece is still to be written, unless the connection broke; after it broke the peer gets nothing more. When a connection has nothing left to do all its messages are answered. While one connection is stuck in writing, every other connection can go on by itself until it has nothing left to do. The stored data stays what it was.", "quantifier": "every stored data, every number of connections, every sequence of deliveries, closings, steps, partial writes of any sizes and failures", "why_tests_cant": "how much of an answer a socket takes at a time and where it breaks is up to the peer and the network; a test on a local socket sees whole answers", "anchors": ["server/src/main.rs:handle_socket_inner", "server/src/main.rs:main"]}
{"id": "C105", "title": "The client does what its documentation says", "statement": "The documentation of the client's methods says: append fails if the key does not exist and otherwise returns the new value; increment and decrement change a float or integer key by one and return the new value, a missing key counting as the integer 0; delete returns the name of the deleted key; echo returns its input; exists and is return true if all keys exist (and are of the type) and false otherwise; get returns the value; key_type its type; keys the keys of a map; length works by default only with bytes, lists and strings and with a type only for keys of that type; rename fails if the new name exists and otherwise returns it; set overrides any value and returns the new one.", "quantifier": "every history of calls within the limits of C42 on a memory client, and every documented call after it", "why_tests_cant": "the examples in the documentation are run as tests, on one state each; the sentences speak of every state", "anchors": ["client/src/lib.rs:Client", "client/src/backend/memory.rs"]}
{"id": "C106", "title": "Handles, receivers and senders of a subscription end when they should", "statement": "A handle returned by the subscription manager gives its subscription exactly while a session has it on record or somebody still uses an earlier upgrade of it, and never again afterwards. A receiver taken from a subscription is at its end exactly when somebody closed the subscription, or its session was removed while subscribed, or the subscription is gone and no sender taken from it is left; a sender likewise with receivers; once anybody saw the end everybody does.", "quantifier": "every finite history of manager calls, upgrades, drops, closes, receivers and senders, by any number of users", "why_tests_cant": "Depends on every earlier call and on who still holds what; a unit test checks one close.", "anchors": ["engine/src/pubsub/mod.rs: Subscription::close, receiver, sender", "engine/src/pubsub/manager.rs: PubSubManager::get, subscribe, unsubscribe, remove_session"]}
{"id": "C107", "title": "What a peer can make the server send and keep", "statement": "A network peer cannot use the server as an amplifier or exhaust its memory: for every line it sends the server sends back at most a fixed number of bytes, and for every connection the server keeps a bounded number of bytes that were received and not yet answered.", "quantifier": "every history of connections, deliveries in any pieces, closings, failures and scheduling of the server's tasks, any stored data, any map iteration order and build profile", "why_tests_cant": "A test sends a few requests and looks at the answers; the bounds speak of everything a hostile peer may send, in any pieces, interleaved with other peers.", "anchors": ["server/src/main.rs: handle_socket_inner", "engine/src/command/request/context.rs: Context::feed", "engine/src/command/impl/stats.rs", "engine/src/command/response/mod.rs"]}
{"id": "C108", "title": "Client calls with more arguments than a request holds", "statement": "A call on a client whose keys or items are more than a request can hold (255 arguments) is refused with the error for too many arguments; it changes nothing and sends nothing, on either backend.", "quantifier": "every call with more than 255 arguments and no empty one, every stored data and network, both build profiles, any iteration order of maps and sets", "why_tests_cant": "The limit is crossed in different ways by every call, value kind, backend and build profile; a test tries one size.", "anchors": ["client/src/backend/memory.rs", "client/src/backend/server.rs", "engine/src/command/request/builder.rs: RequestBuilder::push_argument, RequestBuilder::value, arguments_would_overfill"]}
{"id": "C109", "title": "What a command declares about its keys and arguments is what it reads", "statement": "`CommandId::key_notation` and `argument_notation` say how many keys and arguments a command takes (none, one, two or any number). What stands at a position of a request can make a difference to the answer or the stored data exactly when the command declares that position, and a request that leaves out a declared key or argument fails and changes nothing.", "quantifier": "every command, every position up to the 255 a request holds, every pair of requests that differ at that position alone, every stored state, both build profiles and every iteration order", "why_tests_cant": "That a position never makes a difference is a statement about all states and all values of all positions; a test can only try some of them.", "anchors": ["engine/src/command/command_id.rs: CommandId::argument_notation, CommandId::key_notation", "engine/src/command/impl/*.rs: Dispatch::dispatch", "engine/src/command/request/mod.rs: Request::key, Request::args"]}
{"id": "C110", "title": "Through the network, a call has the effect and the answer it has in memory", "statement": "A program that connects to a server and calls the client has the same effect and gets the same answer as with an in-memory client; a connection that cannot be made is reported as an error.", "quantifier": "All numbers of clients, all requests they send at the same time, all sizes of writes and of what the network carries, all orders of the steps of clients, network and server, dropped calls, failing and closed connections.", "why_tests_cant": "The outcome depends on how the network cuts the bytes and on the order in which clients and server run; a test runs one of these orders, and the tests of the project never run client and server together.", "anchors": ["client/src/lib.rs: Client::connect", "client/src/backend/server.rs: ServerBackend::connect, send_and_wait", "server/src/main.rs: Connection::run, accept_loop"]}
{"id": "C111", "title": "A command that looks more than once answers for one moment", "statement": "While other clients change the data, exists and is of several keys, length, keys and append without a type, and stats still answer (and act) as if they had looked at everything in one moment between call and return.", "quantifier": "All numbers of clients, all requests, all states at the start, all orders of their steps.", "why_tests_cant": "The answer depends on what other clients do between two accesses; a test sees a few of these orders and would need to know what was true at every moment.", "anchors": ["engine/src/command/impl/exists.rs: dispatch", "engine/src/command/impl/is.rs: dispatch", "engine/src/command/impl/length.rs: dispatch", "engine/src/command/impl/keys.rs: dispatch", "engine/src/command/impl/append.rs: dispatch", "engine/src/command/impl/stats.rs: dispatch"]}
{"id": "C112", "title": "Nothing is made up", "statement": "However many clients use the engine at once and however their steps interleave, every byte that is stored or answered comes from somewhere: what is stored at a key consists of words that were stored there at the beginning, that a client sent to be set at or appended to that key (words sent for a boolean or a number are not among them), or that could in the same way get to a key which a client asked to rename to it (strings and byte values are such words put end to end, the items of lists and sets and the keys and values of maps are such words). A key that is there was there at the beginning or is named by some request that may change it. An answer other than to Stats is one response frame whose words are words of the request itself (Echo, Delete, Rename) or words that may get to the key asked about (Append, Get, Keys, Set), and a call that fails adds nothing to the buffer it was given. So no client can ever get another client's data under a key it was not sent to. The same holds for tasks that share a memory client: what they store, and what their calls return if it fits the response format, is made of words that tasks set or appended there, or at a key renamed to it.", "quantifier": "all numbers of clients, all scripts of requests, all initial states, all schedules of atomic steps, and all schedules with the map's locks and torn values; all tasks that share a memory client", "why_tests_cant": "A test runs a few interleavings; that a word never leaks from one key to another has to hold for every schedule and request.", "anchors": ["engine/src/command/impl/append.rs: dispatch", "engine/src/command/impl/set.rs: dispatch", "engine/src/command/impl/get.rs: dispatch", "engine/src/command/impl/rename.rs: dispatch", "engine/src/command/impl/keys.rs: dispatch", "engine/src/hop.rs: Hop::dispatch", "client/src/backend/memory.rs: MemoryBackend"]}
{"id": "C113", "title": "Floats typed and printed in decimal", "statement": "A float argument typed on the command line, with or without sign, point and exponent or as the name of an infinity, is sent as the float closest to it (of two equally close ones the even one, infinity if it is too large), and a word that is no such text is refused by name before anything is sent. A float in an answer is printed in decimal without an exponent, with as few digits as possible, and the printed text typed again stands for the same float.", "quantifier": "all words, all 2^64 bit patterns of a float, all lines with float arguments, all lines whose answer is a float", "why_tests_cant": "There are 2^64 floats and unboundedly many texts; halfway cases, subnormals, overflow and the choice of the shortest digits differ in single bits that samples miss.", "anchors": ["cli/lib/src/parse.rs: input_args", "cli/lib/src/print.rs: value"]}
{"id": "C114", "title": "Clients that set the same key at the same time", "statement": "When several clients set the same key at once and nothing else changes it, then once all have returned the key holds, whole, the value of one Set that reported success, and no successful Set began after that one had returned; if no Set succeeded the key holds what it held before. A Set that fails reports an argument that is not of its type or a key of another type, so Sets of the same type with valid arguments all succeed. In between, the key holds what it held before, nothing, the value of one of the Sets or the empty value of its type, and a Get answers one of these.", "quantifier": "every number of clients, every script of calls that changes the key only by Set, every initial state with room in the counters, every schedule, with and without the locks of the map", "why_tests_cant": "All interleavings of the removal, the look-up, the insertion and the update of every Set, with any number of clients and calls.", "anchors": ["engine/src/command/impl/set.rs", "engine/src/state/mod.rs key_or_insert_with, remove"]}
{"id": "C115", "title": "Clients that delete and rename the same key at the same time", "statement": "When several clients delete a key or rename it to other names at once and nothing else changes it, at most one of them takes what was there: until then the key is as it was, and afterwards it is gone for good. The one that took it answers the deleted or the new name. Every other call that returns reports that there was nothing to take, which it can only do if it was not over before the successful one began, or, for a rename, that the new name is in use. Once the successful rename has returned, the value is, whole, at its new name, and no other of the new names has changed, unless other calls change those names.", "quantifier": "every number of clients, every script of calls that changes the key only by Delete and by Rename to another name, every initial state that holds the key with room in the counters, every schedule, with and without the locks of the map", "why_tests_cant": "All interleavings of the looks, the removal and the insertion of every Rename and the look and removal of every Delete, with any number of clients and calls.", "anchors": ["engine/src/command/impl/delete.rs", "engine/src/command/impl/rename.rs", "engine/src/state/mod.rs remove, insert, contains_key"]}
{"id": "C116", "title": "Tasks that set the same key through one memory client", "statement": "When tasks that share a memory client set the same key at once and change it in no other way, every set that passes the client's checks returns its value or that the key holds another type; if all set values of one type, all of them return their values. When all tasks have finished, the key holds, whole, the value of one set that returned it, and no successful set began after that one had returned; or no set succeeded and the key holds what it held before.", "quantifier": "every number of tasks, every sequence of client calls that changes the key only by set, every initial state with room in the counters, every assignment of keys to shards, every schedule", "why_tests_cant": "All interleavings of the steps and locks of all calls, of any number of tasks.", "anchors": ["client/src/backend/memory.rs", "client/src/lib.rs", "engine/src/command/impl/set.rs"]}
{"id": "C117", "title": "Tasks that delete and rename the same key through one memory client", "statement": "When tasks that share a memory client delete a key or rename it to other names at once and change it in no other way, at most one of them takes what was there; the key is as it was until then and gone for good after that. That call returns the deleted or the new name. Every other that passes the client's checks returns that there was nothing to take, which it can only do if it was not over before the successful one began, or that its new name is in use; and one that does not pass the checks is never the one that took it. Once the successful rename has returned, the value is, whole, at its new name, and no other of the new names has changed, unless other calls change those names.", "quantifier": "every number of tasks, every sequence of client calls that changes the key only by delete and by rename to another name, every initial state that holds the key with room in the counters, every assignment of keys to shards, every schedule", "why_tests_cant": "All interleavings of the steps and locks of all calls, of any number of tasks.", "anchors": ["client/src/backend/memory.rs", "client/src/lib.rs", "engine/src/command/impl/delete.rs", "engine/src/command/impl/rename.rs"]}
{"id": "C118", "title": "What clients see of a key that only grows never goes back", "statement": "While clients, or tasks that share a memory client, only add non-negative amounts to a counter that is there and read it, every answer lies between the initial value and the current one, counts what the call itself added, and if one call was over before another began, the second is told at least what the first was told plus what the second added. Likewise, while they only append to a bytes, list or string value that is there and read it, every answer begins with the initial value, ends with what the call itself appended and is a beginning of the current value; and a call that began after another was over is told what that one was told, possibly something behind it, and then its own items. So no client ever reads an older value than one it, or anyone before it, has been told, and everyone reads their own writes.", "quantifier": "every number of clients or tasks, every sequence of calls that changes the key only by adding (or only by appending), every initial state that holds such a value with room in the counters and no overflow, every assignment of keys to shards, every schedule of the steps and locks", "why_tests_cant": "All interleavings of the steps of any number of calls; the order of answers across clients cannot be controlled by a test.", "anchors": ["engine/src/command/impl/get.rs", "engine/src/command/impl/increment_by.rs", "engine/src/command/impl/append.rs", "client/src/backend/memory.rs"]}
{"id": "C119", "title": "Statistics count what is over and nothing that has not begun", "statement": "Whatever commands other clients are executing, a call for the statistics always succeeds, and what it reports as successful (and as failed) commands is at least the initial count plus the calls that ended so before it began, and at most the initial count plus the calls that began before it returned and did not end otherwise; it reports the number of sessions as it is. A call for the statistics that begins after another has returned reports at least one successful command more and no fewer failed ones. The two numbers need not belong to one instant: a call may count a success and miss a failure that came before that success. The same holds with the locks of the store and for tasks that share a memory client, where the call returns the numbers themselves.", "quantifier": "every number of clients or tasks, every sequence of calls of any commands, every initial state whose counters have room below 2^63, every assignment of counters to shards, every schedule of the steps and locks", "why_tests_cant": "The numbers are read one after another while other commands change them; a test cannot control where a command falls among the reads.", "anchors": ["engine/src/command/impl/stats.rs", "engine/src/hop.rs", "engine/src/metrics.rs", "client/src/model.rs", "client/src/backend/memory.rs"]}
{"id": "C120", "title": "What is added to a key that is not there yet: only what happens alongside its creation can be lost", "statement": "Let nothing be at a key, and let any clients add integers to it (or append to it bytes, list items or text) at the same time. At any moment the key holds what some of the calls make, one after the other, and calls that came one after another are in that order; such a call, when it has returned, was told what it and those before it make. A call can return its result and still be missing from the key, but only if another call undid it: one that began before any of the adding calls was over, and that was not over before the missing one began. So once every call that began before the first one was over has returned, nothing that is added later can be lost. The same holds with the locks of the map and for tasks that share a memory client.", "quantifier": "every number of clients or tasks, every sequence of calls, every amount up or down whose sums fit in 64 bits and every appended value, every initial state without the key, every assignment of keys to shards, every schedule of the steps and locks", "why_tests_cant": "Creating the key is two steps, and what another client does between them is overwritten; a test cannot enumerate which calls may fall there, or show that no other calls are ever lost.", "anchors": ["engine/src/state/mod.rs", "engine/src/command/impl/increment_by.rs", "engine/src/command/impl/increment.rs", "engine/src/command/impl/append.rs", "client/src/backend/memory.rs"]}
{"id": "C121", "title": "Adding to a key that is also set, deleted and renamed away: nothing is counted twice, and nothing comes back", "statement": "Let any clients add integers to a key (or append to it bytes, list items or text), while others set it to values of the same kind, delete it or rename it away. At any moment the key is missing, or it holds a base and the amounts of some of the adding calls, each counted once and in the order in which they came. The base is a value that some call set, what was there at the beginning, or the empty value if the key may have been missing. Nothing that a delete or a set took away comes back: when such a call has returned, the key holds nothing that was added, set or there before that call began. Every adding call was told such a sum, itself last, and every call that gets the key was told such a sum, or that nothing is there when that can be: the sum holds only calls that began before this one was over, nothing that a call took away which was over before this one began, and everything that had returned before it began unless it was undone. A call that has returned and is not in the sum was undone by a call that was not over before it began: one that takes the key away, or one that adds and may have found nothing at the key. The same holds with the locks of the map and for tasks that share a memory client.", "quantifier": "every number of clients or tasks, every sequence of such calls on the key and any calls on others, every amount up or down whose sums fit in 64 bits and every appended value, every initial state in which the key is missing or of this kind, every assignment of keys to shards, every schedule of the steps and locks", "why_tests_cant": "A call that found nothing puts the initial value there later, and a set removes the old value before it puts the new one; what can happen in between, and to which calls, depends on the schedule, and no test enumerates the schedules of any number of clients.", "anchors": ["engine/src/state/mod.rs", "engine/src/command/impl/increment_by.rs", "engine/src/command/impl/increment.rs", "engine/src/command/impl/append.rs", "engine/src/command/impl/set.rs", "engine/src/command/impl/delete.rs", "engine/src/command/impl/rename.rs", "client/src/backend/memory.rs"]}
{"id": "C122", "title": "Whatever it is given, a response parser never asks for more bytes than it needs", "statement": "A response parser that is not done says how many bytes it needs. Whatever bytes it has been given, not only beginnings of encoded responses (for these see C12), it asks for at least one byte, and never for more than it needs: with fewer further bytes than it asked for it is still not done, whatever they are, so a client that reads exactly that many never waits for bytes that no server will send.", "quantifier": "every sequence of bytes a parser is given, whole messages or not, in both build profiles, and every continuation of it", "why_tests_cant": "The number depends on where in a message the bytes end and, inside a collection, on how far into the message that is; tests feed whole messages, for which nothing is ever asked within a value.", "anchors": ["engine/src/command/response/context.rs"]}
{"id": "C123", "title": "What a call that reads is told was so while it ran", "statement": "Whatever other clients do at the same time, get, key_type, length and keys return what they would return if they were made alone at some moment between their call and their return, at which nobody was writing to the key. Length and keys of a call that names no type may instead report a different type, but then the key really changed its type, or appeared, while they ran. Exists and is return true only if each key was there, with the type, at a moment while they ran, and false only if one was not. So a task that shares a memory client with others never gets a value that the key did not have while it was getting it, and never a half written one.", "quantifier": "every number of clients or tasks with every sequence of calls, every state of the store, every schedule, every assignment of keys to shards, and every sequence of intermediate values that an update passes through", "why_tests_cant": "The answer depends on when each look of a call falls between the steps of other clients; a test sees a few interleavings, and intermediate values only by luck.", "anchors": ["engine/src/command/impl/get.rs", "engine/src/command/impl/type.rs", "engine/src/command/impl/length.rs", "engine/src/command/impl/keys.rs", "engine/src/command/impl/exists.rs", "engine/src/command/impl/is.rs", "engine/src/state/mod.rs (key_ref, key_type, contains)", "client/src/backend/memory.rs"]}
{"id": "C124", "title": "What a call that changes data is told was so when it changed it", "statement": "Whatever other clients do at the same time, increment, decrement, append, delete and set of an ordinary key return what they would return if they were made alone on the value they came upon, and leave what they would leave then. From the moment of that value to the moment of the new one the call has the key to itself, and it changes the key no more afterwards; the intervals of two calls never overlap, so no change made by one call is overwritten by another that did not see it. Adding to an integer returns what it left there, and that is the amount more than what it came upon. A set may instead report another type, and then a value of another type was there while it ran. A rename that succeeds took the value away from the key and put that same value at the destination, which it had seen not to be there; one that fails reports what it saw.", "quantifier": "every number of clients or tasks with every sequence of calls, every state of the store, every schedule, every assignment of keys to shards, and every sequence of intermediate values that an update passes through", "why_tests_cant": "The answer depends on where the looks and updates of a call fall between the steps of other clients; a test sees a few interleavings and cannot rule out a lost update.", "anchors": ["engine/src/command/impl/increment_by.rs", "engine/src/command/impl/append.rs", "engine/src/command/impl/delete.rs", "engine/src/command/impl/set.rs", "engine/src/command/impl/rename.rs", "engine/src/state/mod.rs (key_or_insert_with, remove, insert)", "client/src/backend/memory.rs"]}
{"id": "C125", "title": "Every value a key ever holds is accounted for by the calls that change it", "statement": "Take any two moments at which nobody is writing to the shard of a key. What the key held at the first became what it held at the second by changes that stand in one order. Each was made by one of the calls that were issued, on what the change before had left, with the key to itself. Delete takes the value away. Rename, having found nothing at its destination, takes the value away from its key, and then puts at its destination the value it took away. Increment, decrement, append and set put the blank value of their type there, having found nothing there at a moment before, or what they would leave if they were made alone on the value that was there; set also takes the value away to begin with. So a key that no call names for a change keeps its value; a key that is only set holds what it held first, the whole value of one of the sets, a blank value of the type of one of them, or nothing; and what all values have at first, and each call keeps, all values have that are ever stored.", "quantifier": "every number of clients or tasks with every sequence of calls, every state of the store, every schedule, every pair of moments in it, every assignment of keys to shards, and every sequence of intermediate values that an update passes through", "why_tests_cant": "A test looks at a key a few times in a few schedules; that no value ever comes from nowhere is about all moments of all of them.", "anchors": ["engine/src/state/mod.rs (key_or_insert_with, remove, insert)", "engine/src/command/impl/set.rs", "engine/src/command/impl/rename.rs", "engine/src/command/impl/append.rs", "engine/src/command/impl/increment_by.rs", "client/src/backend/memory.rs"]}
{"id": "C126", "title": "What the command line prints is text", "statement": "Keys and values are arbitrary bytes, but whatever the stored data and whatever line is run, the answer the command line prints is well-formed UTF-8, and so is everything the program writes for any input, valid or not. Bytes that are text are printed as they are; only bytes that are not are printed differently.", "quantifier": "all inputs of the program, all lines, all stores, all values, both build profiles, every iteration order of maps and sets", "why_tests_cant": "The bytes in values and the places where printing cuts off the end of its output are arbitrary; a cut inside a character or a byte passed through raw needs particular data to show.", "anchors": ["cli/lib/src/print.rs (value, list, map)", "cli/lib/src/process.rs (process, process_inner)", "cli/bin/src/main.rs (run)", "engine/src/command/response/context.rs (stage_string)"]}
{"id": "C127", "title": "A key keeps its type until it is set, deleted or renamed", "statement": "Once a key is there, increments, decrements and appends do not give it another type and do not take it away, whatever runs at the same time: until a call that sets it, deletes it, renames it or renames something to it changes it, it is there with the type it has.", "quantifier": "every number of clients or tasks with every sequence of calls, every state of the store, every schedule, every pair of moments in it, every assignment of keys to shards", "why_tests_cant": "A test adds to a key in a few schedules; that none of them lets an addition replace a value of another type is about all of them, and it takes a particular schedule to see that one does.", "anchors": ["engine/src/state/mod.rs (key_or_insert_with)", "engine/src/command/impl/increment_by.rs", "engine/src/command/impl/append.rs", "client/src/backend/memory.rs"]}
{"id": "C128", "title": "Additions and renames destroy nothing that is there while they run", "statement": "An increment, decrement or append that could at no moment have found its key missing puts there only what it makes of the value that was there at that moment, whatever runs at the same time: it never replaces the value of another by one of its own. A rename changes nothing, at either key, unless its destination was free at some moment while it ran. No call changes a key other than those it names.", "quantifier": "every number of clients or tasks with every sequence of calls, every state of the store, every schedule, every moment in it, every assignment of keys to shards", "why_tests_cant": "A test runs a few calls in a few schedules; that none of them loses the value of another call is about all schedules, and it is only true of calls for which the key was never missing.", "anchors": ["engine/src/state/mod.rs (key_or_insert_with)", "engine/src/command/impl/increment_by.rs", "engine/src/command/impl/append.rs", "engine/src/command/impl/rename.rs", "client/src/backend/memory.rs"]}
{"id": "C129", "title": "What a call has left at a key stays there, for everyone, until another call changes it", "statement": "Once a set of an ordinary key has returned successfully, the key holds the value that was set, and every get that begins afterwards, in whatever task, returns it, as long as no other call that may change the key has run since the set began. Calls on other keys may run all the while, even on keys of the same shard. In the same way the key holds what an append, increment or decrement returned, if it is a value that responses can carry, a key that was deleted is not there, and after a rename the key is not there and its destination holds the value that was taken away from it.", "quantifier": "every number of tasks with every sequence of calls, every state of the store, every schedule, every moment after the return, every assignment of keys to shards, and every sequence of intermediate values that an update passes through", "why_tests_cant": "A test sees one get after one set; that no step of the call comes after its return, and that no call on another key disturbs it, is about all schedules.", "anchors": ["engine/src/command/impl/set.rs", "engine/src/command/impl/increment_by.rs", "engine/src/command/impl/delete.rs", "engine/src/command/impl/get.rs", "engine/src/state/mod.rs", "client/src/backend/memory.rs"]}
{"id": "C130", "title": "A call that reports an error has changed nothing", "statement": "When a command reports an error, it has changed nothing at any key, whatever other clients do at the same time. So a key that is there holds the same value after any number of calls on it that fail.", "quantifier": "every number of clients with every sequence of requests, every state of the store, every schedule, every call that reports an error and every change it makes, every assignment of keys to shards, and every sequence of intermediate values that an update passes through", "why_tests_cant": "Which steps a call takes before it fails depends on what others do to the key in between; a test shows one such history, and a call that fails only in a race is hard to bring about.", "anchors": ["engine/src/command/impl/set.rs", "engine/src/command/impl/append.rs", "engine/src/command/impl/increment_by.rs", "engine/src/command/impl/delete.rs", "engine/src/command/impl/rename.rs", "engine/src/state/mod.rs", "client/src/backend/memory.rs"]}
{"id": "C131", "title": "A call takes effect at most once", "statement": "A command changes what is at its key at most once, and no other key, whatever other clients do at the same time and however often it has to look again; a rename changes something twice, once at each of its keys.", "quantifier": "every number of clients with every sequence of requests, every state of the store, every schedule, every call that returns and every two changes it makes, every assignment of keys to shards, and every sequence of intermediate values that an update passes through", "why_tests_cant": "A call that works in several steps may find after each of them that another client has been at the key; a test shows one such history, and that a step is never made a second time is a statement about all of them.", "anchors": ["engine/src/command/impl/set.rs", "engine/src/command/impl/append.rs", "engine/src/command/impl/increment_by.rs", "engine/src/command/impl/delete.rs", "engine/src/command/impl/rename.rs", "engine/src/state/mod.rs", "client/src/backend/memory.rs"]}
