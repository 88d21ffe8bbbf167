# Formal model of rust-websocket: design

Prover: Rocq/Coq 8.16.1, standard library only.  Sources under `rocq/theories`:

* `Model/`  – the code, function by function, as total Gallina functions.  Every
  definition cites the file and lines of /repo it transcribes and says where it
  simplifies.  No proofs.
* `Spec/`   – what the properties are stated against, written without the model's
  helpers (where a definition uses the model's types it says so): RFC 6455 framing
  (`RfcFrame`), fragmentation and messages (`Session`), Unicode and UTF-8 (`Unicode`),
  base64 after RFC 4648 (`Rfc4648`), SHA-1 after FIPS 180-4 (`Fips180`), the accept
  token (`Accept`), header fields and HTTP/1 heads after RFC 7230 (`Fields`, `HttpHead`,
  `Wire`), the handshake's conditions (`Upgrade`, `Builder`, `Target`, `Dialling`),
  transports (`Schedule`), and programs that use the library (`Drive`, `Sink`,
  `Connection`, `Endpoint`, `Polled`, `Sides`).
* `Proofs/` – the proofs: `*Facts.v` are lemmas about the model, `Thm*.v` prove the
  properties (`foo_proof`).
* `Props/`  – the property theorems: statement, `exact ThmX.foo_proof`, `Print
  Assumptions`, and an `Example` with a concrete non-trivial instance.  These are the
  files to read: the statements refer only to `Model/` and `Spec/`.

## Conventions of the model

* `u8` is `Coq.Init.Byte.byte`; strings and buffers are `list byte`; lengths are `N`
  (unbounded; `u64`/`usize` casts are explicit where they matter; `usize` is 64 bits).
* A function returning `Result` returns `Ok a | Err e | Panic | OutOfFuel`; Rust panics
  (`unwrap`, `expect`, `unreachable!`, capacity overflow, slicing) are the value `Panic`.
  `OutOfFuel` is excluded by theorems (the `*_total`, `*_no_panic` and exact theorems).
* `&mut` arguments become extra results.
* Random values (`rand::random`) are parameters, quantified universally in theorems.
* A blocking reader is a *script* of read events (data of some length, Interrupted, an
  error, end of file), a writer a script of write events (accept n bytes, Interrupted,
  error, zero); asynchronous transports have scripts with "not ready".  Theorems quantify
  over all scripts.
* Loops without a syntactic bound take fuel; theorems show the fuel used suffices.
* Dependencies whose behaviour matters are concrete definitions marked `External`.
  httparse's byte classes and buffer growth are not fixed: an `http_lib` record is a
  parameter of every theorem about heads, with the laws it needs as hypotheses in the
  statements (`Spec/HttpHead.v`), and an instance shows the laws can be met.
  Likewise the network (`network`, Model/Dial.v) and the allocator's slack (`extra`).

## What is modelled

| source in /repo | model | left out |
|----|----|----|
| websocket-base/src/header.rs | `WsKey`, `Base64`, `Sha1` (External: base64 0.10, sha-1 0.8) | `Debug` |
| websocket-base/src/ws/util/header.rs, mask.rs, mod.rs | `Header`, `Mask`, `Connect.update_framed_codec` | – |
| websocket-base/src/ws/dataframe.rs, dataframe.rs | `Dataframe` | `Default`, `Clone` |
| websocket-base/src/message.rs, ws/message.rs | `Message` (with `Utf8` for std's `from_utf8`, `from_utf8_lossy`) | borrowing: `Cow` is its contents |
| websocket-base/src/ws/receiver.rs, ws/sender.rs, src/receiver.rs, src/sender.rs | `Receiver`, `Connect` (`Reader`, `Writer`); `shutdown*` in `Shutdown` (External: a Linux TCP socket without resets) | – |
| websocket-base/src/codec/ws.rs | `Codec`, `Framed` (External: tokio-codec 0.1 `Framed`, bytes 0.4 `BytesMut`) | – |
| websocket-base/src/stream.rs | `ReadWritePair`, `split` in `Connect` | forwarding impls |
| websocket-base/src/result.rs, src/result.rs | error types and conversions in `Base`, `Handshake`; `Display`, `source` and all conversions in `Report` | `Debug` |
| src/header/*.rs | `Headers`, `Text` (External: hyper 0.10 header map and parsing helpers, unicase) | `Display` of single items other than as printed in a field |
| src/codec/http.rs | `Http`, `Connect.http_encode`, `HttpStream` (External: httparse, hyper's request/response parsing) | – |
| src/server/upgrade/mod.rs, sync.rs, async.rs | `Handshake` (`validate`, `prepare_headers`), `Connect` | `drop`, address accessors |
| src/server/mod.rs, sync.rs, async.rs | `Connect` (`server_accept`, `incoming`), `Dial` (TLS variants) | `bind`, `local_addr`, `set_nonblocking`, `into_async` |
| src/client/builder.rs | `Handshake` (builder, `build_request`, `validate`, ports), `Connect.connect_on`, `async_connect_on`, `Dial` (everything before the handshake) | `from_url`/`new` parse a URL with url 1.x: a URL is its parts (`url` record), its syntax is not modelled; `get_host_header`-style accessors |
| src/client/sync.rs, async.rs | `Connect`, `Shutdown` | socket options, address accessors |
| std `BufReader` (hyper's copy) | `BufReader`; `Props/Buffered.v` proves the simplification used in `Connect` | – |
| examples/autobahn-server.rs, examples/server.rs, examples/hyper.rs | `Examples` (what becomes of one connection) | printing, threads, binding the listener, the web page of hyper.rs |
| examples/async-autobahn-server.rs, examples/async-server.rs | `AsyncExamples` (External: futures 0.1 `Forward`, `Send`, `take_while`, `filter_map`, `for_each`) | printing, `upgrade.accept` in an executor of its own |
| examples/client.rs | `ChatClient` (three threads, a channel, any schedule; External: std::sync::mpsc) | printing, `str::trim`, a standard input that fails; the other examples |
| src/server/sync.rs as used by several threads | `Accepting` (callers that fall silent, threads accepting on clones) | the listener's backlog limit |
| src/server/sync.rs in non-blocking mode | `Polling` (the loop of the documentation; External: whether a connection is non-blocking like its listener) | bytes that arrive during a call of `accept`; TLS in this mode |
| examples/parallel-server.rs | `Parallel` (its tasks, channels and table, any schedule; External: tokio 0.1 runtime, futures mpsc) | what streams and sinks do by themselves, printing |
| examples/autobahn-client.rs, examples/async-autobahn-client.rs | `Suite` (both whole; External: usize parsing and printing, futures `send`, `into_future`, `loop_fn`) | printing; how a URL is dialled (see `Dial`) |
| examples/async-client.rs, examples/ssl-client.rs | `AsyncChat` (both whole; External: futures `filter_map`, `select`, `forward`, `mpsc`, `block_on`) | how a message is printed; a failing standard input; the real time at which lines are typed (given as a schedule) |
| examples/async-client.rs with examples/async-server.rs | `AsyncTalk` (the two tasks at the ends of a network with bounded room; External: `TcpStream` readiness) | the handshake (see C36, C43); that a waiting task is woken (it may be polled at any time) |
| examples/client.rs with examples/server.rs | `Talk` (both ends and the bytes under way, any interleaving), `Narrow` (the same over a network with little room: writes that block, reads only when needed; External: blocking `TcpStream`) | the handshake (see C36, C43) |
| examples/client.rs with examples/async-server.rs | `Mixture` (the client's threads, its blocked write, the server's task, a network with bounded room) | the handshake (see C36, C43) |
| examples/async-client.rs with examples/server.rs | `Crossed` (the client's task and its user, the server's thread and its blocked write, a network with bounded room) | the handshake (see C36, C43) |
| a program that uses src/client/sync.rs:162-194 without threads, with examples/server.rs | `Errand` (the program with its plan and its blocked write, the server's thread and its blocked write, a network with bounded room) | the handshake (see C36, C43) |
| the same program with examples/async-server.rs | `AsyncErrand` (the program as in `Errand`, the server's task and its sink as in `AsyncTalk`, a network with bounded room) | the handshake; the program keeps its client when it is done |
| two such programs, one with the client of a `ClientBuilder`, one with that of `accept` | `Dialogue` (either program with its plan and its blocked write, a network with bounded room) | the handshake; a program keeps its client when it is done |
| two programs that decide by what has happened to them | `Programs` (a program as a function of its past, with its client and its blocked write; a network with bounded room) | the handshake; which error a call returned; a program keeps its client when it is done |
| the same, beginning with the handshake | `Encounter` (the stages of `connect_on` and of `into_ws` with `accept`, run over what has arrived; then `Programs`) | TCP's and TLS's own handshakes; closing the connection; a server's program that chooses its headers by the request |
| two programs, each with a client of either kind | `Kinds` (`Programs` for the blocking client; `start_send`, `poll_complete` and `poll` of `Framed` for the asynchronous one, poll by poll) | failures of the network (the end of the connection is in `Endings`); the combinators of futures, of which only what `send` and `into_future` call is modelled; waking of tasks (a task may be polled at any time) |
| two programs on a connection that ends | `Endings` (`Kinds`, where a program that is done has shut down its sending side, `shutdown_sender`, and its partner reads what is under way and then finds the end of file) | failures of the network; shutting down or dropping the client while the program has more to say; a delay between being done and shutting down |
| two programs on a connection that breaks | `Breaking` (`Kinds`, where at any moment a direction is cut: what the network holds is truncated, what is written later is lost, and the reader finds the end of file after what is left) | errors that the system reports for reads or writes after the break (other than the end of file); bytes altered or reordered by the network |
| how often the decoders and parsers are called, and on what (websocket-base/src/codec/ws.rs:112-148, :278-326; src/receiver.rs:127-186; src/codec/http.rs:65-112; src/server/upgrade/sync.rs:185-187) | `Work` (the calls made by the loops of `Framed`, `Receiver` and `Http`, and a cost per call) | constant factors; allocation |
| streams whose writer keeps bytes back (websocket-base/src/stream.rs:9-64 over std's `BufWriter` and `LineWriter`; the blocking writes of ws/dataframe.rs:90, builder.rs:509, upgrade/mod.rs:141) | `Unflushed` (the two writers are External) | errors of the writer below; flushing when the stream is dropped |

Not expressible here: entropy of masks and keys (theorems hold for any key), the
cryptography of TLS, real sockets and time, allocation failure other than capacity
overflow, memory shared between threads (the two halves of a split connection own
their states, so a program is an interleaving, see C44; the threads of the chat client share
a channel, C72).

## Trusted base

* Coq's kernel (8.16.1) and `vm_compute`.
* `Print Assumptions` is under every theorem in `Props/`; for every one it says "Closed
  under the global context": no axiom is used.  (Loading `ZifyBool` also loads
  `Coq.ssr.ssrunder`, whose module type parameters a whole-environment listing shows as
  `Coq.ssr.ssrunder.Under_rel.*`; no theorem depends on them.)
* The transcription of the Rust sources into `Model/` (done by reading; the code cannot
  be run in the sandbox).  As a check on it, `Tests/RepoTests.v` runs all of the project's own
  unit tests and its asserting documentation tests on the model, and `Tests/RfcTests.v`
  the examples of RFC 6455, 4648, 3174 and 3629.  These are tests, not proofs.
* The behaviour of dependencies as written in the definitions marked `External` (std io
  loops, bytes 0.4, tokio-codec 0.1, futures 0.1, hyper 0.10, httparse 1, base64 0.10,
  sha-1 0.8, unicase 1, url 1, native-tls 0.2), known from their documentation and
  sources but not available here.

## Properties and theorems

| id | property | how it is proved | theorems |
|----|----|----|----|
| C01 | Frame write/read round trip | reader inverts writer: header lemma by cases on the length class, mask involution, any trailing bytes | `frame_round_trip` |
| C02 | Emitted bytes follow the RFC 6455 frame layout | refinement to an arithmetic RFC 5.2 encoder | `emitted_layout`, `emitted_message_layout` |
| C03 | The frame reader accepts only canonical RFC frames | inversion: success implies input = RFC encoding ++ rest | `reader_sound`, `reader_sound_unlimited`, `decoder_sound` |
| C04 | Masking is a length-preserving involution, byte i using key byte i mod 4 | induction, rotating key | `mask_involution` |
| C05 | Streaming masker equals one-shot masking | induction over write lists | `masker_streaming`, `masker_short_write_refuted` |
| C06 | Predicted frame/message size is the number of bytes written | length of the emitted bytes | `predicted_size`, `library_frames_honest`, `sizes_agree` |
| C07 | Sending is refused exactly for bad opcodes and oversized control frames, and a refused send emits nothing | decision procedure, iff | `send_refused_iff`, `encode_refused`, `refusal_named` |
| C08 | Whatever the socket does, a send emits a prefix of one frame, and all of it iff it reports Ok | induction over write scripts | `client_send_prefix`, `send_prefix`, `sends_in_order` |
| C09 | Clients always mask, servers never, and a frame masked the wrong way is refused | both sides through C02/C03 and the constructors | `wrong_mask_refused_blocking`, `wrong_mask_refused_async`, `client_masks`, `server_does_not_mask` |
| C10 | No received byte stream makes the receiver panic | `Panic` unreachable by induction over all scripts | `into_ws_total`, `async_into_ws_total`, `sync_head_total`, `recv_message_no_panic`, `decode_message_no_panic`, `message_stream_ends`, `recv_frame_no_panic`, `decode_no_panic`, `unlimited_read_panic_refuted` |
| C11 | Frame size limit is enforced exactly, before any payload byte is taken | exact characterisation | `frame_limit_blocking`, `frame_limit_async` |
| C12 | A truncated frame is never delivered | prefix lemma for headers and payloads | `truncated_frame` |
| C13 | Async frame decoding does not depend on how bytes are chunked | stability of decode under appending, induction over chunks | `frame_chunking`, `framed_frames_chunking` |
| C14 | Async decoding makes progress and consumes exactly one frame | consumed prefix is one RFC frame | `decode_progress`, `decode_terminates` |
| C15 | Text is delivered iff it is well-formed UTF-8 | the UTF-8 machine accepts iff a scalar sequence exists | `text_iff_utf8_blocking`, `text_iff_utf8_async`, `delivered_well_formed_blocking`, `delivered_well_formed_async`, `delivered_well_formed_stream` |
| C16 | Message round trip between peers | induction over messages | `message_round_trip_sink`, `message_round_trip_blocking`, `message_round_trip_async` |
| C17 | Fragmentation is transparent and interleaved control frames do not disturb it | session semantics `delivers`, induction over frames | `legal_frames_received_blocking`, `legal_frames_received_async`, `session_received_blocking`, `session_received_async`, `fragments_arrive`, `fragments_arrive_async`, `fragments_sent` |
| C18 | Illegal frame sequences are refused | soundness: whatever is delivered was a legal session | `received_only_legal_blocking`, `received_only_legal_async`, `illegal_frame_refused_blocking`, `illegal_frame_refused_async` |
| C19 | Close frame contents | iff | `close_contents_blocking`, `close_contents_async`, `close_by_hand` |
| C20 | Conversions between OwnedMessage and Message lose nothing | case analysis; lossy decoding is the identity on valid text | `owned_message_owned`, `made_from`, `message_owned_message`, `lossy_conversion`, `ill_formed_repaired` |
| C21 | Delivered messages and buffered memory are bounded by the configured limits | invariant over all histories up to the first error | `memory_bounded_blocking`, `memory_bounded_async`, `default_limits` |
| C22 | Limits after an error (violated) | family of histories with growth past every bound | `memory_bounded_after_error_blocking_refuted`, `memory_bounded_after_error_async_refuted` |
| C23 | Async message decoding does not depend on chunking | conditional simulation | `chunks_do_not_matter`, `chunks_do_not_matter_refuted` |
| C24 | Blocking receive does not depend on how reads are split or interrupted | script flattening; BufReader refinement | `std_loops`, `reads_do_not_matter`, `reads_do_not_matter_frame` |
| C25 | A transient read error does not lose data (violated) | exact loss, witness | `read_error_drops_partial_frame`, `retry_after_read_error_refuted` |
| C26 | Blocking and async receivers agree | both equal the session semantics | `receivers_agree`, `receivers_agree_refuted` |
| C27 | Behaviour after a refused header | decode stability | `refused_header_sticks`, `refused_header_sticks_message`, `refused_header_payload_parsed`, `refused_header_sticks_blocking_refuted` |
| C28 | End of stream in the async client | induction over chunk scripts, converse by soundness | `closed_inside_frame`, `closed_between_frames`, `clean_end_means_whole_frames` |
| C29 | Async sends reach the wire in order and complete under any write schedule | invariant over flush schedules | `sink_order`, `flush_completes`, `flush_terminates` |
| C30 | Encoding into the shared buffer appends exactly and never runs out of room | arithmetic from C06 | `encode_appends` |
| C31 | Accept token is the RFC hash of the key | model of SHA-1 refined to FIPS 180-4, base64 to RFC 4648 | `accept_token_shape`, `hash_is_fips`, `accept_rfc`, `accept_token`, `accept_token_refuted` |
| C32 | Key and accept headers round trip, wrong lengths are refused | round trip and soundness against RFC 4648 | `key_parse_iff`, `key_parse_refuses`, `key_fault_named`, `key_round_trip`, `key_text_injective`, `accept_parse_iff`, `accept_parse_refuses`, `accept_fault_named` |
| C33 | Server accepts exactly the right upgrade requests | iff against an independent contract | `server_validate_iff`, `server_validate_error`, `server_validate_total`, `server_accepts_rfc`, `server_validate_refuted` |
| C34 | A successful upgrade's response carries the right handshake headers | header map laws for all custom headers | `accept_written`, `reject_written`, `async_answer_written`, `head_sent`, `accept_headers`, `reject_adds_nothing`, `print_response_panics_iff`, `accept_panic_refuted` |
| C35 | Client accepts exactly the right handshake responses | iff | `client_checks`, `async_client_checks`, `client_validate_iff`, `client_validate_error`, `client_status`, `client_validate_no_key`, `client_accepts_rfc`, `client_validate_refuted` |
| C36 | Library client and library server complete the handshake | composition over all transports of both ends | `request_good`, `server_takes_client`, `async_server_takes_client`, `client_takes_server`, `async_client_takes_server`, `handshake`, `async_handshake`, `client_to_server`, `server_to_client` |
| C37 | Builder protocol and extension lists | induction over operation histories | `client_sees_chosen`, `builder_protocols`, `builder_extensions`, `builder_never_panics`, `builder_protocols_refuted`, `protocols_round_trip`, `protocols_carried`, `server_sees_protocols`, `client_sees_protocol`, `protocols_stable`, `server_sees_client` |
| C38 | Every request carries the mandatory headers | invariant over operation histories | `request_fixed_fields`, `request_key`, `request_version`, `request_key_refuted`, `request_origin`, `extensions_carried`, `server_sees_extensions` |
| C39 | Configured limits reach the connection | equations | `builder_limits`, `async_client_limits`, `sync_client_limits`, `server_limits`, `async_server_limits`, `sync_client_limits_refuted` |
| C40 | Extension header round trip | conditional round trip | `extensions_reparsed`, `extensions_round_trip`, `extensions_stable`, `extensions_refuted`, `extensions_reread` |
| C41 | Ports and TLS follow the URL | case analysis over URLs | `connect_address`, `connect_secure_iff`, `connect_secure_port_refuted`, `connect_transport` |
| C42 | HTTP head splitting takes exactly the head and is chunk-independent | first-occurrence specification; completeness, soundness and prefix theorems for the head parser | `split_exact`, `split_waits`, `split_extends`, `request_exact`, `response_exact`, `request_prefix`, `response_prefix`, `async_request_read`, `async_response_read`, `async_request_refused`, `async_no_head`, `sync_request_read`, `sync_response_read`, `sync_request_only`, `sync_response_only`, `sync_request_cut`, `sync_response_cut` |
| C43 | No byte after the handshake is lost | byte accounting | `buffered_recv`, `buffered_frames`, `server_connection`, `client_connection`, `server_accepts`, `server_refuses`, `async_server_connection`, `async_client_connection`, `split_same` |
| C44 | Split client behaves like the unsplit one | simulation over all interleavings | `split_same`, `split_independent`, `interleaving` |
| C45 | Ping to pong | case analysis | `into_pong_spec` |
| C46 | Status code is used for close messages only (violated) | exact bytes | `status_only_on_close_refuted`, `status_precedes_payload` |
| C47 | Async server yields one result per connection | permutation over completion schedules | `one_outcome_each`, `handshake_completes`, `all_complete`, `tls_one_outcome_each`, `tls_all_complete` |
| C48 | Every complete head is answered by the asynchronous handshake | exact set of dropped heads | `request_too_many`, `async_too_many_dropped`, `async_answers_refuted`, `async_lf_refuted` |
| C49 | A blocking handshake survives interrupted reads | witness | `sync_interrupted_refuted` |
| C50 | A header value cannot add header fields or end the head | printed fields are read back | `request_as_read`, `response_as_read`, `request_ends`, `response_ends`, `name_break_refuted` |
| C51 | The handshake goes over the right connection | unique transport relation `reaches` | `connect_transport`, `reaches_unique`, `never_in_the_clear`, `connect_errors`, `async_connect_transport`, `async_reaches_same`, `async_first_address_refuted`, `connect_trail`, `async_connect_trail`, `server_inside_tls` |
| C52 | The Host field names the server that was dialled | exact field | `request_host`, `request_host_refuted` |
| C53 | The credentials of the URL are the credentials presented | exact field | `request_authorization`, `credentials_sent`, `credentials_sent_refuted`, `no_user_no_authorization` |
| C54 | A builder can be used for another attempt | reuse of the builder, induction over calls | `connect_again`, `fresh_key_each_time` |
| C55 | Sending again after a failed send | iff over all failure points | `send_again`, `send_again_refuted` |
| C56 | A rejected stream goes on where the request ends | byte accounting | `async_reject_keeps`, `reject_returns`, `reject_keeps_refuted` |
| C57 | A handshake's memory is bounded | consumption bound by induction over reads; family of hoarded inputs | `request_bounded`, `response_bounded`, `async_hoards`, `async_bounded_refuted` |
| C58 | Blocking and asynchronous sides decide alike | both equal the head specification | `servers_refuse_alike`, `clients_refuse_alike`, `servers_alike`, `clients_alike` |
| C59 | After the end | fixed points of receive and poll | `nothing_more_blocking`, `iterator_never_ends`, `end_stays`, `broken_off_stays`, `ended_stays` |
| C60 | Close is an ordinary message | frame conditions; instances of the session theorems | `receiving_writes_nothing`, `sends_after_close`, `receives_after_close`, `nothing_after_close_refuted` |
| C61 | Connecting never panics | totality, iff | `print_request_panics_iff`, `connect_total`, `async_connect_total`, `connect_panic_refuted` |
| C62 | What the client looks at in a response | non-interference | `client_looks`, `unasked_refuted` |
| C63 | What the server sees of the client | composition with C36 | `servers_see_extensions`, `server_sees_key`, `server_sees_version`, `server_sees_origin`, `server_sees_client` |
| C64 | What kind a message is | predicates against the emitted opcode | `kinds` |
| C65 | What NoDataAvailable means | consumption lemmas for every parser step, invariant on the buffered frames | `no_data_blocking`, `no_data_async`, `no_data_is_the_end_refuted` |
| C66 | The echo server echoes | loop invariant by induction over the bytes left; composition with C16, C17, C36 | `echo_server`, `echo_until_end`, `echo_until_close`, `echo_conversation` |
| C67 | What the example server does | loop invariant by induction over the bytes left, witness | `example_answers`, `example_never_panics_refuted` |
| C68 | An asynchronous connection waits only for its transport | induction over polls and transport events with the invariant "what is buffered gives nothing", witness | `stream_waits`, `nothing_held_messages`, `nothing_held_frames`, `nothing_held_handshake_refuted`, `flush_waits`, `sink_waits` |
| C69 | The asynchronous echo server echoes | invariant of the task (written + buffered + still to say is constant) with a decreasing measure on the transport, witness | `async_echo_ends`, `async_echo_breaks`, `async_echo_loses_refuted`, `async_echo_server`, `async_echo_session` |
| C70 | Whom the asynchronous example servers serve | permutation invariant of the handshakes in flight (C47), composition with C69, witness | `good_clients_served`, `autobahn_clients_served`, `async_autobahn_survives_refuted`, `async_example_answers` |
| C71 | Frames and messages can be read from one client | induction over the calls on top of the receiver's machine, witness | `mixed_sound`, `mixed_complete` |
| C72 | The chat client loses nothing between its threads | invariant of the three threads and the channel over all schedules (history = merge of what was put in), decreasing measure, witness for every n | `chat_says`, `chat_answers`, `chat_no_deadlock`, `chat_ends` |
| C73 | The example client and the example server hold a whole conversation | invariant of the closed system (both byte pipes hold whole frames up to a cut), decreasing measure on bytes and messages, fairness argument by rounds | `loop_is_turns`, `talk_sound`, `talk_complete`, `talk_ends`, `talk_live` |
| C74 | The blocking server serves callers whatever others do: not kept; exactly when it holds | reading a head never reports the end of waiting unless the head is incomplete (induction over reads); invariant of the pool (taken = given + held up to order), counting of silent callers, decreasing measure | `silent_waits`, `finished_returns`, `hung_up_returns`, `flood_returns`, `pool_accounts`, `pool_stopped`, `pool_ends`, `pool_serves`, `others_matter_refuted` |
| C75 | An error says what went wrong: kept for causes and refusals, not for protocol reasons and TLS handshakes | case analysis over the error types and conversion routes, arbitrary texts; witnesses for what is lost | `cause_told`, `upgrade_cause_told`, `refusal_told`, `answer_told`, `url_fault_told`, `receive_error_told`, `reason_told_refuted`, `tls_cause_told_refuted` |
| C76 | Shutting down a connection, or one direction of it | simulation between a connection and its shut-down copy, noninterference of the two directions by induction over event sequences, round trip to a library peer | `shut_returns`, `shut_wakes`, `waits_on`, `shut_only_wakes`, `reader_shut_sending`, `writer_shut_receiving`, `shut_sends`, `peer_hears`, `shut_ends_refuted`, `drop_ends_refuted` |
| C77 | The parallel server: whom it hears, whom it greets, and when it stops | invariants over all schedules (each sink in one place, each stream read once), a counting argument for greetings, termination measure for the receive handler | `one_place_each`, `heard_in_turn`, `others_wait`, `all_heard`, `stops_only`, `failing_stream_stops`, `bad_client_alone_refuted`, `stays_up_refuted`, `greetings` |
| C78 | The Autobahn test-suite clients run every case in order, echo it exactly, and report | Induction over the messages received until the first Close or error (which exists because every message uses up bytes), lifting the one-message lemmas of the echo servers to the client side; induction over the cases for the sequence of URLs; for the asynchronous client the specification of a poll of the framed stream and of start_send, with the transport's remaining schedule as the measure. | `suite_urls`, `case_echoed`, `count_heard`, `reports_updated`, `suite_runs`, `suite_stops`, `suite_without_server`, `async_case_echoed`, `async_count_heard`, `async_suite_runs`, `async_count_after_ping_refuted` |
| C79 | The asynchronous chat clients interleave answers and typed lines fairly and end only when both sides have | An invariant (merge of what is done with what is left, carried through select, forward and the sink) over any number of polls, and a measure on schedules for ending. | `achat_says`, `achat_ends`, `achat_over`, `achat_fails`, `achat_fair`, `achat_answers_close_refuted`, `achat_waits_for_user`, `achat_close_last_refuted` |
| C80 | A conversation of the asynchronous client with the asynchronous server shows the user what they are due, and ends unless both sides get stuck writing | One contract per poll of either task (what was written, what remains, work strictly decreases or the state is unchanged), a global invariant over the two byte pipes, and a work measure for liveness. | `async_talk_sound`, `async_talk_ends`, `async_talk_bounded`, `async_talk_live`, `async_talk_live_refuted` |
| C81 | The HTTP codecs, used on their own, carry any series of requests and responses in order | induction over the series and the chunks, with what is buffered plus what is to come as the invariant | `requests_in_order`, `responses_in_order`, `requests_prompt`, `responses_prompt`, `bad_request_reported`, `bad_response_reported`, `requests_genuine`, `responses_genuine`, `http_reading_ends`, `http_sink_order`, `requests_there`, `responses_back`, `http_chunks_refuted`, `large_head_reported_refuted` |
| C82 | A slow peer holds the sender back instead of filling its memory | invariant over the operations; the length of a frame from the arithmetic of RFC 6455 5.2 | `sink_bounded`, `refused_only_when_full`, `taken_when_ready`, `http_sink_bounded`, `http_refused_only_when_full`, `http_taken_when_ready` |
| C83 | From connect to the last message: a client and a server of the library understand each other | composition of the handshake theorems (C36), nothing lost behind the head (C43) and the round trip of messages (C16), plus the existence of complete sends on both kinds of sink | `whole_session` |
| C84 | The example client and the example server never get stuck, however little the network holds | simulation of the narrow conversation by the wide one of C73, with a step count that pays for every byte; case analysis of who could be blocked | `narrow_sound`, `narrow_room`, `narrow_complete`, `narrow_ends`, `narrow_live` |
| C85 | A server in non-blocking mode does not make the program wait: not kept on Linux; elsewhere callers who are a moment late are turned away | induction over the rounds; the head reader's cut and read lemmas with WouldBlock where the bytes end; witnesses for the two promises | `poll_accounts`, `poll_goes_on`, `poll_waits`, `prompt_served`, `late_turned_away`, `other_task_done_refuted`, `callers_handled_refuted` |
| C86 | The threaded chat client and the asynchronous server understand each other and never get stuck | invariant over all schedules (what each side said, what is under way, what was read), a measure that every effective turn decreases, and a proof that a state in which nobody moves is the finished one | `across_sound`, `across_ends`, `across_room`, `across_live` |
| C87 | The asynchronous chat client and the threaded server understand each other, and get stuck only when the client says too much at once | invariant over all schedules (ghost conversation, the server's pending write), a measure that every effective step lowers, and a frozen state for the refutation | `crossed_sound`, `crossed_ends`, `crossed_bounded`, `crossed_live`, `crossed_live_refuted` |
| C88 | A plain blocking client that sends and receives in a fixed order: when it gets through, and when it hangs | an invariant over the interleavings of program, server thread and network; a measure that every step decreases; a state in which nothing can move is either the end or contradicts the plan | `errand_sound`, `errand_complete`, `errand_fails_late`, `errand_live`, `errand_overrun`, `errand_by_turns`, `errand_at_once`, `errand_at_once_refuted`, `errand_too_much` |
| C89 | How much work a peer can cause with what it sends | potential argument over the calls of the decoder (reads, readable flag), invariant on what is kept, explicit worst cases by induction | `calls_deliver`, `stream_work_bound`, `stream_work_piles`, `stream_work_whole`, `stream_work_proportional_refuted`, `receive_work_bound`, `receive_work_proportional_refuted`, `request_work_bound`, `request_work_drip`, `async_request_work_bound`, `async_request_work_drip`, `async_request_work_refuted` |
| C90 | The blocking code never flushes: what reaches the peer over a writer that buffers | the writers' own bookkeeping as an invariant (`took`), composed over the list of messages; frames by the RFC encoder | `sends_kept`, `sends_held_back`, `sent_is_on_its_way_refuted`, `request_held_back`, `response_held_back`, `heads_pass_lines`, `lines_keep_messages`, `async_flushes` |
| C91 | RFC 6455 frame rules: which the library keeps, and which are left to the application | equivalence of the receiver's frame machine with the RFC's rules, in both directions, by induction over frames | `received_conforms_blocking`, `received_conforms_async`, `conforming_received_blocking`, `conforming_received_async`, `sent_conforms_blocking`, `sent_conforms_async`, `sends_only_conforming_refuted`, `refuses_at_once_refuted` |
| C92 | A plain blocking client with the asynchronous server: the server's own buffer makes room, up to a point | An invariant over all schedules joins the program's plan with the state of the server's task and the bytes on the way; a measure decreases with every effective step, and a state in which no step is effective is shown to be the end of the plan if the plan is fair. | `plain_sound`, `plain_complete`, `plain_fails_late`, `plain_live`, `plain_overrun`, `plain_by_turns`, `plain_at_once`, `plain_at_once_refuted`, `plain_greeting_refuted`, `plain_too_much` |
| C93 | What masking hides from an intermediary, and what it does not | The key on the wire is the mask of four zero bytes, so key and payload together are one masked string; four bytes in a row use each key byte once, hence determine it. | `chosen_one_key`, `chosen_one_key_async`, `chosen_few_keys`, `key_count`, `length_in_clear`, `pattern_shows` |
| C94 | Two plain programs that talk to each other get through when what they say has room or is waited for, and hang when both say too much first | Invariant per direction (what is under way is the frames of what was said and not heard), shown for one program and carried to the other by symmetry; fitting together (meets) is preserved by every step whatever the order; a measure decreases with every step; the hang is an invariant of its own. | `dialogue_sound`, `dialogue_complete`, `dialogue_live`, `dialogue_in_turn`, `dialogue_crossing`, `dialogue_hangs` |
| C95 | To the programs at its ends, a connection is two queues of messages, and timing cannot be observed | Simulation of the byte-level system by queues; the steps of the two programs on queues commute (diamond), so runs are confluent and pasts, which only grow, are comparable; the converse by construction of a schedule. | `link_is_queues`, `queues_are_link`, `timing_unseen`, `link_rest`, `one_end` |
| C96 | A handshake that is cut off says so, and loses nothing that had come; the four sides say it differently | From the theorems of C42 on reading a head cut anywhere, and an induction over the asynchronous transport for errors. | `request_cut_off`, `async_request_cut_off`, `response_cut_off`, `async_response_cut_off`, `cut_alike_refuted` |
| C97 | From connect to the last message: the handshake always comes about, and leaves no trace in what the programs see | Invariant with one case for each stage of the handshake: in the first three the bytes that have arrived, are in the network and are still to be written make up the request or the response; in the third, the client still waits while the server already sends, and the link of C95 with a newcomer in the client's place and the bytes behind the response in the network satisfies the invariant of C95, with more room if need be. The calls are decided by C36 (complete heads) and C96 (incomplete ones). | `encounter_is_queues`, `encounter_comes_about`, `handshake_unseen`, `encounter_one_end`, `queues_are_encounter` |
| C98 | The blocking and the asynchronous client cannot be told apart by the programs that use them | simulation with an invariant for the bytes in flight in either direction, for each kind of end; diamond property of the queues | `pairing_is_queues`, `queues_are_pairing`, `kind_unseen`, `pairing_rest`, `pairing_one_end` |
| C99 | A connection that a program ends is heard to its last message and then ends, for every program, kind of client and timing | a client that has met the end is related to one that has not (the flag of the reader cleared), so that the invariant of C98 carries over; the end is delivered only when the queue is empty and its writer done for good, hence the queues are still confluent; what is heard before the end is an invariant of the queues; realisability and the resting states as in C98 | `ending_is_queues`, `queues_are_ending`, `end_after_all`, `ending_unseen`, `ending_rest`, `ending_one_end` |
| C100 | A connection that breaks loses an end, never a middle | Invariant per direction: what the reader will make of what is left, of what was lost and of what the writer still owes, is what was said and not heard; after the end was seen, the reader is in a state in which it can only see the end again. | `break_prefix`, `break_silence`, `break_rest`, `break_exact`, `break_keeps` |
| C101 | To the programs at its ends, a connection that breaks in the middle of any byte is two queues of messages that break between messages | Forward simulation: the queue of a direction is what the reader will make of what is under way; at a break, the messages whose last byte is not lost, counted in bytes; a reader that is told of the end has less than a frame left. Conversely a run is built turn by turn in which whole frames are written and read, so that the bytes under way are the frames of the queue, and a break of the queue is a cut between two frames. | `breaking_is_queues`, `queues_are_breaking`, `breaking_kinds` |
| C102 | A connection that is refused can be used for something else: kept by the blocking server; the asynchronous one loses a head it cannot parse | conservation invariant of the reading loop; the answer of the codec; witness | `refusal_keeps_all`, `refused_as_new`, `async_refusal_keeps_rest`, `async_refusal_drops_head`, `async_refusal_keeps_all_refuted` |
| C103 | A request that another server has read is upgraded as if the library had read it | congruence of everything a client does with respect to how the incoming bytes are divided between buffer and stream | `given_request` |

## Where the code falls short

A theorem whose name ends in `_refuted` exhibits a case in which a promise is not kept.
Beside it there is a theorem saying exactly what the code does, or under which condition
the promise is kept.

* **C05** (`masker_short_write_refuted`): The streaming half is proved; that it fails on short writes is proved as masker_short_write_refuted.
* **C10** (`unlimited_read_panic_refuted`): Proved for every receiver a connection has; the unlimited DataFrame::read_dataframe panics: unlimited_read_panic_refuted.
* **C22** (`memory_bounded_after_error_blocking_refuted`, `memory_bounded_after_error_async_refuted`): REFUTED of the code: both theorems show that retained memory passes every bound if the user goes on after the error. (Up to the error the bounds hold: C21.)
* **C23** (`chunks_do_not_matter_refuted`): The conditional statement is proved; without the condition it is refuted (chunks_do_not_matter_refuted).
* **C25** (`retry_after_read_error_refuted`): REFUTED of the code for the blocking receiver (retry_after_read_error_refuted); read_error_drops_partial_frame says exactly what is lost.
* **C26** (`receivers_agree_refuted`): Proved under the limits; at a limit the two differ (receivers_agree_refuted).
* **C27** (`refused_header_sticks_blocking_refuted`): Asynchronous: proved. Blocking: refuted (refused_header_sticks_blocking_refuted), with the exact behaviour in refused_header_payload_parsed.
* **C31** (`accept_token_refuted`): Proved against FIPS 180-4 and RFC 4648 written independently; for key headers not in canonical form the token is not the hash of the header text (accept_token_refuted).
* **C33** (`server_validate_refuted`): The exact condition is proved; server_validate_refuted shows requests against RFC 6455 4.2.1 that are taken.
* **C34** (`accept_panic_refuted`): accept never panics unless the application put raw bytes that are not UTF-8 in a header (accept_panic_refuted, print_response_panics_iff).
* **C35** (`client_validate_refuted`): The exact condition is proved; client_validate_refuted shows a response without Connection: Upgrade that is taken.
* **C37** (`builder_protocols_refuted`): Proved for histories in which these headers are set by the protocol and extension methods; mixed with custom_headers it fails (builder_protocols_refuted).
* **C38** (`request_key_refuted`): Proved under the condition in the statement; without it request_key_refuted.
* **C39** (`sync_client_limits_refuted`): Proved for the builder, the server and the asynchronous client; REFUTED for the blocking client (sync_client_limits_refuted; sync_client_limits says which limits it gets).
* **C40** (`extensions_refuted`): REFUTED for parameters with values (extensions_refuted); proved for the lists the statement names.
* **C41** (`connect_secure_port_refuted`): Proved as stated; connect_secure_port_refuted shows the port of connect_secure on a ws URL.
* **C46** (`status_only_on_close_refuted`): REFUTED of the code (status_only_on_close_refuted); status_precedes_payload says what is written.
* **C48** (`async_answers_refuted`, `async_lf_refuted`): REFUTED of the code: a head with more than 100 fields is dropped and never answered (async_answers_refuted, async_too_many_dropped), as is one with bare line feeds (async_lf_refuted). For heads of at most 100 fields the claim is C58.
* **C49** (`sync_interrupted_refuted`): REFUTED of the code (sync_interrupted_refuted).
* **C50** (`name_break_refuted`): Proved for values; a name containing a line break (set_raw) does add fields: name_break_refuted.
* **C51** (`async_first_address_refuted`): Proved; that the asynchronous functions try one address only is async_first_address_refuted.
* **C52** (`request_host_refuted`): Proved with the exact condition; for ports 80 and 443 under the other scheme REFUTED (request_host_refuted).
* **C53** (`credentials_sent_refuted`): Proved with the exact condition; with percent-encoding REFUTED (credentials_sent_refuted).
* **C55** (`send_again_refuted`): The exact condition is proved; in general REFUTED (send_again_refuted).
* **C56** (`reject_keeps_refuted`): Asynchronous: proved. Blocking: REFUTED (reject_keeps_refuted), exact behaviour in reject_returns.
* **C57** (`async_bounded_refuted`): Blocking: proved. Asynchronous server: REFUTED (async_bounded_refuted).
* **C60** (`nothing_after_close_refuted`): Proved; that the library does not enforce RFC 6455 5.5.1 is nothing_after_close_refuted.
* **C61** (`connect_panic_refuted`): Proved with the exact condition for the panic (print_request_panics_iff); connect_panic_refuted exhibits it.
* **C62** (`unasked_refuted`): Proved; that RFC 6455 4.1 points 5 and 6 are not enforced is unasked_refuted.
* **C65** (`no_data_is_the_end_refuted`): The exact meaning is proved; that it means the end of the stream is REFUTED (no_data_is_the_end_refuted).
* **C67** (`example_never_panics_refuted`): The exact behaviour is proved; that the example server does not panic is REFUTED (example_never_panics_refuted).
* **C68** (`nothing_held_handshake_refuted`): Messages, frames and sending: proved. Handshake: REFUTED (nothing_held_handshake_refuted).
* **C69** (`async_echo_loses_refuted`): Proved; that all messages received before an error are answered is REFUTED (async_echo_loses_refuted).
* **C70** (`async_autobahn_survives_refuted`): Proved for async-server.rs; for async-autobahn-server.rs under the exact condition, in general REFUTED (async_autobahn_survives_refuted).
* **C74** (`others_matter_refuted`): Exact conditions proved for any number of threads and any order of events; that a caller is served whatever others do is REFUTED (others_matter_refuted).
* **C75** (`reason_told_refuted`, `tls_cause_told_refuted`): Causes and refusals: proved. Reasons of protocol and frame errors and causes of failed TLS handshakes: REFUTED (reason_told_refuted, tls_cause_told_refuted).
* **C76** (`shut_ends_refuted`, `drop_ends_refuted`): Linux socket semantics as stated in Model/Shutdown.v (what has arrived can still be read after SHUT_RD; no resets). REFUTED: that shutting down the receiving half ends receiving, that dropping the sending half ends the connection for the peer.
* **C77** (`bad_client_alone_refuted`, `stays_up_refuted`): Streams and sinks are inputs (their own behaviour: C45, C46, C51); a panic in a spawned task is confined to it, one in the four handlers ends the server (tokio 0.1). REFUTED: that a failing client harms only itself; that well-behaved clients keep the server up.
* **C78** (`async_count_after_ping_refuted`): Both clients whole, with the connections given as a world from URLs to what connecting gives; std's usize parsing and printing and futures' send/into_future are modelled as external functions; printing left out.
* **C79** (`achat_answers_close_refuted`, `achat_close_last_refuted`): achat_says is the invariant at every poll; achat_ends, achat_over, achat_fails and achat_waits_for_user say how and when it ends; achat_fair is the turn-taking of select. All for both programs. The two refuted theorems are concrete: a server's Close is not answered at any number of polls, and a Pong or a second Close follows the client's Close.
* **C80** (`async_talk_live_refuted`): async_talk_sound, async_talk_ends and async_talk_bounded hold for every schedule; async_talk_live gives the bound; async_talk_live_refuted is a concrete deadlock (five lines, 1000 bytes of room) with a proof that no further turn changes anything.
* **C81** (`http_chunks_refuted`, `large_head_reported_refuted`): Requests and responses as parts (Spec/HttpSeries.v over Spec/HttpHead.v); the codecs inside tokio-codec's Framed (External). httparse's character tables are left open.
* **C85** (`other_task_done_refuted`, `callers_handled_refuted`): Violations: other_task_done_refuted (Linux) and callers_handled_refuted (elsewhere); poll_waits and late_turned_away say exactly when each happens. The writing of the answer, and what a non-blocking connection does afterwards, are in C55 and C25.
* **C87** (`crossed_live_refuted`): the asynchronous chat client and the blocking server over a bounded network: soundness, completeness at the end, bounded room, liveness under the stated condition, and a refutation without it
* **C88** (`errand_at_once_refuted`): The hypotheses say that the messages can be sent (typed, within the 100 MB limit, control messages within 125 bytes) and that nothing follows a Close. The bound on rounds is computed from the plan (toil). Handshakes are over (C36, C43).
* **C89** (`stream_work_proportional_refuted`, `receive_work_proportional_refuted`, `async_request_work_refuted`): Proved; the two *_proportional_refuted theorems and async_request_work_refuted state how far the work exceeds any proportion to the input. The unit of work is a kept frame looked at, a byte consumed or a byte handed to the parser; constant factors are not modelled.
* **C90** (`sent_is_on_its_way_refuted`): Theorem sent_is_on_its_way_refuted: over a BufWriter a short message whose send succeeded is not on its way until the program itself flushes the writer. The two buffering writers of std are External definitions.
* **C91** (`sends_only_conforming_refuted`, `refuses_at_once_refuted`): Spec/Conform.v states the RFC's rules on plain octet frames without the model. sends_only_conforming_refuted and refuses_at_once_refuted state what is left to the application.
* **C92** (`plain_at_once_refuted`, `plain_greeting_refuted`): The hang found in C88 for examples/server.rs exists here too, but only once 8192 bytes of answers are buffered in the server (or, in a very small network, before the greeting is out): plain_at_once_refuted, plain_greeting_refuted.
* **C96** (`cut_alike_refuted`): request_cut_off, async_request_cut_off, response_cut_off and async_response_cut_off state the outcome for each side; cut_alike_refuted shows that the four differ.
* **C102** (`async_refusal_keeps_all_refuted`): Proved for the blocking server. For the asynchronous server what is given back is proved, and that nothing is lost is REFUTED (async_refusal_keeps_all_refuted).

## Mutation testing

`seeded/LOG.jsonl` has one line per edit tried: in a scratch copy a definition of `Model/`
is changed as a realistic bug would change the code, everything that depends on it is
rebuilt, and every proof that fails is replaced by an admission, so that one edit shows all
the theorems it breaks (a theorem counts as failed if its proof, or a proof it rests on,
fails).  If no theorem of the affected property failed, the property was tightened or a new
theorem added; this is in the field `theorems_tightened` and in `note`.

In addition small edits (another constant, comparison, constructor or string, two arms
swapped) are generated automatically, and a random sample of them is run: 366 of 2427 at the
last count, from 31 files of `Model/`, those which existed when the list was made.  Of these
167 do not typecheck and so test nothing, 174 make a proof fail, 3 ran out of time and are
undecided, and 22 survived.  A run stops at the first proof that fails, and the scratch copy
skips the proof of a worked case (`Example`) that fails, so only lemmas count as catching an
edit.  The 22 survivors were looked at one by one; they are in the log with identifiers `A…`,
with the theorem added for them or the reason why no claim is broken.  Those said to fail now
were run again on the current sources.
