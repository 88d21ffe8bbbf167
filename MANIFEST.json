{
 "claims": [
  {
   "property": "C01",
   "status": "proved",
   "theorems": [
    "frame_round_trip"
   ],
   "note": ""
  },
  {
   "property": "C02",
   "status": "proved",
   "theorems": [
    "emitted_layout",
    "emitted_message_layout"
   ],
   "note": ""
  },
  {
   "property": "C03",
   "status": "proved",
   "theorems": [
    "reader_sound",
    "reader_sound_unlimited",
    "decoder_sound"
   ],
   "note": ""
  },
  {
   "property": "C04",
   "status": "proved",
   "theorems": [
    "mask_involution"
   ],
   "note": ""
  },
  {
   "property": "C05",
   "status": "proved",
   "theorems": [
    "masker_streaming",
    "masker_short_write_refuted"
   ],
   "note": "The streaming half is proved; that it fails on short writes is proved as masker_short_write_refuted."
  },
  {
   "property": "C06",
   "status": "proved",
   "theorems": [
    "predicted_size",
    "library_frames_honest",
    "sizes_agree"
   ],
   "note": ""
  },
  {
   "property": "C07",
   "status": "proved",
   "theorems": [
    "send_refused_iff",
    "encode_refused",
    "refusal_named"
   ],
   "note": ""
  },
  {
   "property": "C08",
   "status": "proved",
   "theorems": [
    "client_send_prefix",
    "send_prefix",
    "sends_in_order"
   ],
   "note": ""
  },
  {
   "property": "C09",
   "status": "proved",
   "theorems": [
    "wrong_mask_refused_blocking",
    "wrong_mask_refused_async",
    "client_masks",
    "server_does_not_mask"
   ],
   "note": ""
  },
  {
   "property": "C10",
   "status": "proved",
   "theorems": [
    "into_ws_total",
    "async_into_ws_total",
    "sync_head_total",
    "recv_message_no_panic",
    "decode_message_no_panic",
    "message_stream_ends",
    "recv_frame_no_panic",
    "decode_no_panic",
    "unlimited_read_panic_refuted"
   ],
   "note": "Proved for every receiver a connection has; the unlimited DataFrame::read_dataframe panics: unlimited_read_panic_refuted."
  },
  {
   "property": "C11",
   "status": "proved",
   "theorems": [
    "frame_limit_blocking",
    "frame_limit_async"
   ],
   "note": ""
  },
  {
   "property": "C12",
   "status": "proved",
   "theorems": [
    "truncated_frame"
   ],
   "note": ""
  },
  {
   "property": "C13",
   "status": "proved",
   "theorems": [
    "frame_chunking",
    "framed_frames_chunking"
   ],
   "note": ""
  },
  {
   "property": "C14",
   "status": "proved",
   "theorems": [
    "decode_progress",
    "decode_terminates"
   ],
   "note": ""
  },
  {
   "property": "C15",
   "status": "proved",
   "theorems": [
    "text_iff_utf8_blocking",
    "text_iff_utf8_async",
    "delivered_well_formed_blocking",
    "delivered_well_formed_async",
    "delivered_well_formed_stream"
   ],
   "note": ""
  },
  {
   "property": "C16",
   "status": "proved",
   "theorems": [
    "message_round_trip_sink",
    "message_round_trip_blocking",
    "message_round_trip_async"
   ],
   "note": ""
  },
  {
   "property": "C17",
   "status": "proved",
   "theorems": [
    "legal_frames_received_blocking",
    "legal_frames_received_async",
    "session_received_blocking",
    "session_received_async",
    "fragments_arrive",
    "fragments_arrive_async",
    "fragments_sent"
   ],
   "note": ""
  },
  {
   "property": "C18",
   "status": "proved",
   "theorems": [
    "received_only_legal_blocking",
    "received_only_legal_async",
    "illegal_frame_refused_blocking",
    "illegal_frame_refused_async"
   ],
   "note": ""
  },
  {
   "property": "C19",
   "status": "proved",
   "theorems": [
    "close_contents_blocking",
    "close_contents_async",
    "close_by_hand"
   ],
   "note": ""
  },
  {
   "property": "C20",
   "status": "proved",
   "theorems": [
    "owned_message_owned",
    "made_from",
    "message_owned_message",
    "lossy_conversion",
    "ill_formed_repaired"
   ],
   "note": ""
  },
  {
   "property": "C21",
   "status": "proved",
   "theorems": [
    "memory_bounded_blocking",
    "memory_bounded_async",
    "default_limits"
   ],
   "note": ""
  },
  {
   "property": "C22",
   "status": "proved",
   "theorems": [
    "memory_bounded_after_error_blocking_refuted",
    "memory_bounded_after_error_async_refuted"
   ],
   "note": "REFUTED of the code: both theorems show that retained memory passes every bound if the user goes on after the error. (Up to the error the bounds hold: C21.)"
  },
  {
   "property": "C23",
   "status": "proved",
   "theorems": [
    "chunks_do_not_matter",
    "chunks_do_not_matter_refuted"
   ],
   "note": "The conditional statement is proved; without the condition it is refuted (chunks_do_not_matter_refuted)."
  },
  {
   "property": "C24",
   "status": "proved",
   "theorems": [
    "std_loops",
    "reads_do_not_matter",
    "reads_do_not_matter_frame"
   ],
   "note": ""
  },
  {
   "property": "C25",
   "status": "proved",
   "theorems": [
    "read_error_drops_partial_frame",
    "retry_after_read_error_refuted"
   ],
   "note": "REFUTED of the code for the blocking receiver (retry_after_read_error_refuted); read_error_drops_partial_frame says exactly what is lost."
  },
  {
   "property": "C26",
   "status": "proved",
   "theorems": [
    "receivers_agree",
    "receivers_agree_refuted"
   ],
   "note": "Proved under the limits; at a limit the two differ (receivers_agree_refuted)."
  },
  {
   "property": "C27",
   "status": "proved",
   "theorems": [
    "refused_header_sticks",
    "refused_header_sticks_message",
    "refused_header_payload_parsed",
    "refused_header_sticks_blocking_refuted"
   ],
   "note": "Asynchronous: proved. Blocking: refuted (refused_header_sticks_blocking_refuted), with the exact behaviour in refused_header_payload_parsed."
  },
  {
   "property": "C28",
   "status": "proved",
   "theorems": [
    "closed_inside_frame",
    "closed_between_frames",
    "clean_end_means_whole_frames"
   ],
   "note": ""
  },
  {
   "property": "C29",
   "status": "proved",
   "theorems": [
    "sink_order",
    "flush_completes",
    "flush_terminates"
   ],
   "note": ""
  },
  {
   "property": "C30",
   "status": "proved",
   "theorems": [
    "encode_appends"
   ],
   "note": ""
  },
  {
   "property": "C31",
   "status": "proved",
   "theorems": [
    "accept_token_shape",
    "hash_is_fips",
    "accept_rfc",
    "accept_token",
    "accept_token_refuted"
   ],
   "note": "Proved against FIPS 180-4 and RFC 4648 written independently; for key headers not in canonical form the token is not the hash of the header text (accept_token_refuted)."
  },
  {
   "property": "C32",
   "status": "proved",
   "theorems": [
    "key_parse_iff",
    "key_parse_refuses",
    "key_fault_named",
    "key_round_trip",
    "key_text_injective",
    "accept_parse_iff",
    "accept_parse_refuses",
    "accept_fault_named"
   ],
   "note": ""
  },
  {
   "property": "C33",
   "status": "proved",
   "theorems": [
    "server_validate_iff",
    "server_validate_error",
    "server_validate_total",
    "server_accepts_rfc",
    "server_validate_refuted"
   ],
   "note": "The exact condition is proved; server_validate_refuted shows requests against RFC 6455 4.2.1 that are taken."
  },
  {
   "property": "C34",
   "status": "proved",
   "theorems": [
    "accept_written",
    "reject_written",
    "async_answer_written",
    "head_sent",
    "accept_headers",
    "reject_adds_nothing",
    "print_response_panics_iff",
    "accept_panic_refuted"
   ],
   "note": "accept never panics unless the application put raw bytes that are not UTF-8 in a header (accept_panic_refuted, print_response_panics_iff)."
  },
  {
   "property": "C35",
   "status": "proved",
   "theorems": [
    "client_checks",
    "async_client_checks",
    "client_validate_iff",
    "client_validate_error",
    "client_status",
    "client_validate_no_key",
    "client_accepts_rfc",
    "client_validate_refuted"
   ],
   "note": "The exact condition is proved; client_validate_refuted shows a response without Connection: Upgrade that is taken."
  },
  {
   "property": "C36",
   "status": "proved",
   "theorems": [
    "request_good",
    "server_takes_client",
    "async_server_takes_client",
    "client_takes_server",
    "async_client_takes_server",
    "handshake",
    "async_handshake",
    "client_to_server",
    "server_to_client"
   ],
   "note": ""
  },
  {
   "property": "C37",
   "status": "proved",
   "theorems": [
    "client_sees_chosen",
    "builder_protocols",
    "builder_extensions",
    "builder_never_panics",
    "builder_protocols_refuted",
    "protocols_round_trip",
    "protocols_carried",
    "server_sees_protocols",
    "client_sees_protocol",
    "protocols_stable",
    "server_sees_client"
   ],
   "note": "Proved for histories in which these headers are set by the protocol and extension methods; mixed with custom_headers it fails (builder_protocols_refuted)."
  },
  {
   "property": "C38",
   "status": "proved",
   "theorems": [
    "request_fixed_fields",
    "request_key",
    "request_version",
    "request_key_refuted",
    "request_origin",
    "extensions_carried",
    "server_sees_extensions"
   ],
   "note": "Proved under the condition in the statement; without it request_key_refuted."
  },
  {
   "property": "C39",
   "status": "proved",
   "theorems": [
    "builder_limits",
    "async_client_limits",
    "sync_client_limits",
    "server_limits",
    "async_server_limits",
    "sync_client_limits_refuted"
   ],
   "note": "Proved for the builder, the server and the asynchronous client; REFUTED for the blocking client (sync_client_limits_refuted; sync_client_limits says which limits it gets)."
  },
  {
   "property": "C40",
   "status": "proved",
   "theorems": [
    "extensions_reparsed",
    "extensions_round_trip",
    "extensions_stable",
    "extensions_refuted",
    "extensions_reread"
   ],
   "note": "REFUTED for parameters with values (extensions_refuted); proved for the lists the statement names."
  },
  {
   "property": "C41",
   "status": "proved",
   "theorems": [
    "connect_address",
    "connect_secure_iff",
    "connect_secure_port_refuted",
    "connect_transport"
   ],
   "note": "Proved as stated; connect_secure_port_refuted shows the port of connect_secure on a ws URL."
  },
  {
   "property": "C42",
   "status": "proved",
   "theorems": [
    "split_exact",
    "split_waits",
    "split_extends",
    "request_exact",
    "response_exact",
    "request_prefix",
    "response_prefix",
    "async_request_read",
    "async_response_read",
    "async_request_refused",
    "async_no_head",
    "sync_request_read",
    "sync_response_read",
    "sync_request_only",
    "sync_response_only",
    "sync_request_cut",
    "sync_response_cut"
   ],
   "note": ""
  },
  {
   "property": "C43",
   "status": "proved",
   "theorems": [
    "buffered_recv",
    "buffered_frames",
    "server_connection",
    "client_connection",
    "server_accepts",
    "server_refuses",
    "async_server_connection",
    "async_client_connection",
    "split_same"
   ],
   "note": ""
  },
  {
   "property": "C44",
   "status": "proved",
   "theorems": [
    "split_same",
    "split_independent",
    "interleaving"
   ],
   "note": ""
  },
  {
   "property": "C45",
   "status": "proved",
   "theorems": [
    "into_pong_spec"
   ],
   "note": ""
  },
  {
   "property": "C46",
   "status": "proved",
   "theorems": [
    "status_only_on_close_refuted",
    "status_precedes_payload"
   ],
   "note": "REFUTED of the code (status_only_on_close_refuted); status_precedes_payload says what is written."
  },
  {
   "property": "C47",
   "status": "proved",
   "theorems": [
    "one_outcome_each",
    "handshake_completes",
    "all_complete",
    "tls_one_outcome_each",
    "tls_all_complete"
   ],
   "note": ""
  },
  {
   "property": "C48",
   "status": "proved",
   "theorems": [
    "request_too_many",
    "async_too_many_dropped",
    "async_answers_refuted",
    "async_lf_refuted"
   ],
   "note": "REFUTED of the code: a head with more than 100 fields is dropped and never answered (async_answers_refuted, async_too_many_dropped), as is one with bare line feeds (async_lf_refuted). For heads of at most 100 fields the claim is C58."
  },
  {
   "property": "C49",
   "status": "proved",
   "theorems": [
    "sync_interrupted_refuted"
   ],
   "note": "REFUTED of the code (sync_interrupted_refuted)."
  },
  {
   "property": "C50",
   "status": "proved",
   "theorems": [
    "request_as_read",
    "response_as_read",
    "request_ends",
    "response_ends",
    "name_break_refuted"
   ],
   "note": "Proved for values; a name containing a line break (set_raw) does add fields: name_break_refuted."
  },
  {
   "property": "C51",
   "status": "proved",
   "theorems": [
    "connect_transport",
    "reaches_unique",
    "never_in_the_clear",
    "connect_errors",
    "async_connect_transport",
    "async_reaches_same",
    "async_first_address_refuted",
    "connect_trail",
    "async_connect_trail",
    "server_inside_tls"
   ],
   "note": "Proved; that the asynchronous functions try one address only is async_first_address_refuted."
  },
  {
   "property": "C52",
   "status": "proved",
   "theorems": [
    "request_host",
    "request_host_refuted"
   ],
   "note": "Proved with the exact condition; for ports 80 and 443 under the other scheme REFUTED (request_host_refuted)."
  },
  {
   "property": "C53",
   "status": "proved",
   "theorems": [
    "request_authorization",
    "credentials_sent",
    "credentials_sent_refuted",
    "no_user_no_authorization"
   ],
   "note": "Proved with the exact condition; with percent-encoding REFUTED (credentials_sent_refuted)."
  },
  {
   "property": "C54",
   "status": "proved",
   "theorems": [
    "connect_again",
    "fresh_key_each_time"
   ],
   "note": ""
  },
  {
   "property": "C55",
   "status": "proved",
   "theorems": [
    "send_again",
    "send_again_refuted"
   ],
   "note": "The exact condition is proved; in general REFUTED (send_again_refuted)."
  },
  {
   "property": "C56",
   "status": "proved",
   "theorems": [
    "async_reject_keeps",
    "reject_returns",
    "reject_keeps_refuted"
   ],
   "note": "Asynchronous: proved. Blocking: REFUTED (reject_keeps_refuted), exact behaviour in reject_returns."
  },
  {
   "property": "C57",
   "status": "proved",
   "theorems": [
    "request_bounded",
    "response_bounded",
    "async_hoards",
    "async_bounded_refuted"
   ],
   "note": "Blocking: proved. Asynchronous server: REFUTED (async_bounded_refuted)."
  },
  {
   "property": "C58",
   "status": "proved",
   "theorems": [
    "servers_refuse_alike",
    "clients_refuse_alike",
    "servers_alike",
    "clients_alike"
   ],
   "note": ""
  },
  {
   "property": "C59",
   "status": "proved",
   "theorems": [
    "nothing_more_blocking",
    "iterator_never_ends",
    "end_stays",
    "broken_off_stays",
    "ended_stays"
   ],
   "note": ""
  },
  {
   "property": "C60",
   "status": "proved",
   "theorems": [
    "receiving_writes_nothing",
    "sends_after_close",
    "receives_after_close",
    "nothing_after_close_refuted"
   ],
   "note": "Proved; that the library does not enforce RFC 6455 5.5.1 is nothing_after_close_refuted."
  },
  {
   "property": "C61",
   "status": "proved",
   "theorems": [
    "print_request_panics_iff",
    "connect_total",
    "async_connect_total",
    "connect_panic_refuted"
   ],
   "note": "Proved with the exact condition for the panic (print_request_panics_iff); connect_panic_refuted exhibits it."
  },
  {
   "property": "C62",
   "status": "proved",
   "theorems": [
    "client_looks",
    "unasked_refuted"
   ],
   "note": "Proved; that RFC 6455 4.1 points 5 and 6 are not enforced is unasked_refuted."
  },
  {
   "property": "C63",
   "status": "proved",
   "theorems": [
    "servers_see_extensions",
    "server_sees_key",
    "server_sees_version",
    "server_sees_origin",
    "server_sees_client"
   ],
   "note": ""
  },
  {
   "property": "C64",
   "status": "proved",
   "theorems": [
    "kinds"
   ],
   "note": ""
  },
  {
   "property": "C65",
   "status": "proved",
   "theorems": [
    "no_data_blocking",
    "no_data_async",
    "no_data_is_the_end_refuted"
   ],
   "note": "The exact meaning is proved; that it means the end of the stream is REFUTED (no_data_is_the_end_refuted)."
  },
  {
   "property": "C66",
   "status": "proved",
   "theorems": [
    "echo_server",
    "echo_until_end",
    "echo_until_close",
    "echo_conversation"
   ],
   "note": ""
  },
  {
   "property": "C67",
   "status": "proved",
   "theorems": [
    "example_answers",
    "example_never_panics_refuted"
   ],
   "note": "The exact behaviour is proved; that the example server does not panic is REFUTED (example_never_panics_refuted)."
  },
  {
   "property": "C68",
   "status": "proved",
   "theorems": [
    "stream_waits",
    "nothing_held_messages",
    "nothing_held_frames",
    "nothing_held_handshake_refuted",
    "flush_waits",
    "sink_waits"
   ],
   "note": "Messages, frames and sending: proved. Handshake: REFUTED (nothing_held_handshake_refuted)."
  },
  {
   "property": "C69",
   "status": "proved",
   "theorems": [
    "async_echo_ends",
    "async_echo_breaks",
    "async_echo_loses_refuted",
    "async_echo_server",
    "async_echo_session"
   ],
   "note": "Proved; that all messages received before an error are answered is REFUTED (async_echo_loses_refuted)."
  },
  {
   "property": "C70",
   "status": "proved",
   "theorems": [
    "good_clients_served",
    "autobahn_clients_served",
    "async_autobahn_survives_refuted",
    "async_example_answers"
   ],
   "note": "Proved for async-server.rs; for async-autobahn-server.rs under the exact condition, in general REFUTED (async_autobahn_survives_refuted)."
  },
  {
   "property": "C71",
   "status": "proved",
   "theorems": [
    "mixed_sound",
    "mixed_complete"
   ],
   "note": "Proved in both directions; that every message returned was sent is REFUTED (mixed_whole_refuted)."
  },
  {
   "property": "C72",
   "status": "proved",
   "theorems": [
    "chat_says",
    "chat_answers",
    "chat_no_deadlock",
    "chat_ends"
   ],
   "note": "Proved for all schedules; that the client is silent when nothing is typed is REFUTED (chat_silent_refuted)."
  },
  {
   "property": "C73",
   "status": "proved",
   "theorems": [
    "loop_is_turns",
    "talk_sound",
    "talk_complete",
    "talk_ends",
    "talk_live"
   ],
   "note": "Proved: safety for all interleavings, bounded length, and completion under fair turns."
  },
  {
   "property": "C74",
   "status": "proved",
   "theorems": [
    "silent_waits",
    "finished_returns",
    "hung_up_returns",
    "flood_returns",
    "pool_accounts",
    "pool_stopped",
    "pool_ends",
    "pool_serves",
    "others_matter_refuted"
   ],
   "note": "Exact conditions proved for any number of threads and any order of events; that a caller is served whatever others do is REFUTED (others_matter_refuted)."
  },
  {
   "property": "C75",
   "status": "proved",
   "theorems": [
    "cause_told",
    "upgrade_cause_told",
    "refusal_told",
    "answer_told",
    "url_fault_told",
    "receive_error_told",
    "reason_told_refuted",
    "tls_cause_told_refuted"
   ],
   "note": "Causes and refusals: proved. Reasons of protocol and frame errors and causes of failed TLS handshakes: REFUTED (reason_told_refuted, tls_cause_told_refuted)."
  },
  {
   "property": "C76",
   "status": "proved",
   "theorems": [
    "shut_returns",
    "shut_wakes",
    "waits_on",
    "shut_only_wakes",
    "reader_shut_sending",
    "writer_shut_receiving",
    "shut_sends",
    "peer_hears",
    "shut_ends_refuted",
    "drop_ends_refuted"
   ],
   "note": "Linux socket semantics as stated in Model/Shutdown.v (what has arrived can still be read after SHUT_RD; no resets). REFUTED: that shutting down the receiving half ends receiving, that dropping the sending half ends the connection for the peer."
  },
  {
   "property": "C77",
   "status": "proved",
   "theorems": [
    "one_place_each",
    "heard_in_turn",
    "others_wait",
    "all_heard",
    "stops_only",
    "failing_stream_stops",
    "bad_client_alone_refuted",
    "stays_up_refuted",
    "greetings"
   ],
   "note": "Streams and sinks are inputs (their own behaviour: C45, C46, C51); a panic in a spawned task is confined to it, one in the four handlers ends the server (tokio 0.1). REFUTED: that a failing client harms only itself; that well-behaved clients keep the server up."
  },
  {
   "property": "C78",
   "status": "proved",
   "theorems": [
    "suite_urls",
    "case_echoed",
    "count_heard",
    "reports_updated",
    "suite_runs",
    "suite_stops",
    "suite_without_server",
    "async_case_echoed",
    "async_count_heard",
    "async_suite_runs",
    "async_count_after_ping_refuted"
   ],
   "note": "Both clients whole, with the connections given as a world from URLs to what connecting gives; std's usize parsing and printing and futures' send/into_future are modelled as external functions; printing left out."
  },
  {
   "property": "C79",
   "status": "proved",
   "theorems": [
    "achat_says",
    "achat_ends",
    "achat_over",
    "achat_fails",
    "achat_fair",
    "achat_answers_close_refuted",
    "achat_waits_for_user",
    "achat_close_last_refuted"
   ],
   "note": "achat_says is the invariant at every poll; achat_ends, achat_over, achat_fails and achat_waits_for_user say how and when it ends; achat_fair is the turn-taking of select. All for both programs. The two refuted theorems are concrete: a server's Close is not answered at any number of polls, and a Pong or a second Close follows the client's Close."
  },
  {
   "property": "C80",
   "status": "proved",
   "theorems": [
    "async_talk_sound",
    "async_talk_ends",
    "async_talk_bounded",
    "async_talk_live",
    "async_talk_live_refuted"
   ],
   "note": "async_talk_sound, async_talk_ends and async_talk_bounded hold for every schedule; async_talk_live gives the bound; async_talk_live_refuted is a concrete deadlock (five lines, 1000 bytes of room) with a proof that no further turn changes anything."
  },
  {
   "property": "C81",
   "status": "proved",
   "theorems": [
    "requests_in_order",
    "responses_in_order",
    "requests_prompt",
    "responses_prompt",
    "bad_request_reported",
    "bad_response_reported",
    "requests_genuine",
    "responses_genuine",
    "http_reading_ends",
    "http_sink_order",
    "requests_there",
    "responses_back",
    "http_chunks_refuted",
    "large_head_reported_refuted"
   ],
   "note": "Requests and responses as parts (Spec/HttpSeries.v over Spec/HttpHead.v); the codecs inside tokio-codec's Framed (External). httparse's character tables are left open."
  },
  {
   "property": "C82",
   "status": "proved",
   "theorems": [
    "sink_bounded",
    "refused_only_when_full",
    "taken_when_ready",
    "http_sink_bounded",
    "http_refused_only_when_full",
    "http_taken_when_ready"
   ],
   "note": "The mark of 8 KiB is tokio-codec's (External: FramedWrite2, in Model/Framed.v)."
  },
  {
   "property": "C83",
   "status": "proved",
   "theorems": [
    "whole_session"
   ],
   "note": "Heads within hyper's buffer (417792 bytes) and header names and values an HTTP library can read; interruptions of a blocking read inside the head are excluded (C49 shows that they break the handshake)."
  },
  {
   "property": "C84",
   "status": "proved",
   "theorems": [
    "narrow_sound",
    "narrow_room",
    "narrow_complete",
    "narrow_ends",
    "narrow_live"
   ],
   "note": "The asynchronous pair does not have this property (C80: both ends can get stuck writing). With room for no byte at all everyone is stuck (shown beside narrow_complete)."
  },
  {
   "property": "C85",
   "status": "proved",
   "theorems": [
    "poll_accounts",
    "poll_goes_on",
    "poll_waits",
    "prompt_served",
    "late_turned_away",
    "other_task_done_refuted",
    "callers_handled_refuted"
   ],
   "note": "Violations: other_task_done_refuted (Linux) and callers_handled_refuted (elsewhere); poll_waits and late_turned_away say exactly when each happens. The writing of the answer, and what a non-blocking connection does afterwards, are in C55 and C25."
  },
  {
   "property": "C86",
   "status": "proved",
   "theorems": [
    "across_sound",
    "across_ends",
    "across_room",
    "across_live"
   ],
   "note": "Model/Mixture.v joins the client of Model/ChatClient.v to the server's task of Model/AsyncTalk.v over a network with bounded room. across_sound, across_ends, across_room, across_live."
  },
  {
   "property": "C87",
   "status": "proved",
   "theorems": [
    "crossed_sound",
    "crossed_ends",
    "crossed_bounded",
    "crossed_live",
    "crossed_live_refuted"
   ],
   "note": "the asynchronous chat client and the blocking server over a bounded network: soundness, completeness at the end, bounded room, liveness under the stated condition, and a refutation without it"
  },
  {
   "property": "C88",
   "status": "proved",
   "theorems": [
    "errand_sound",
    "errand_complete",
    "errand_fails_late",
    "errand_live",
    "errand_overrun",
    "errand_by_turns",
    "errand_at_once",
    "errand_at_once_refuted",
    "errand_too_much"
   ],
   "note": "The hypotheses say that the messages can be sent (typed, within the 100 MB limit, control messages within 125 bytes) and that nothing follows a Close. The bound on rounds is computed from the plan (toil). Handshakes are over (C36, C43)."
  },
  {
   "property": "C89",
   "status": "proved",
   "theorems": [
    "calls_deliver",
    "stream_work_bound",
    "stream_work_piles",
    "stream_work_whole",
    "stream_work_proportional_refuted",
    "receive_work_bound",
    "receive_work_proportional_refuted",
    "request_work_bound",
    "request_work_drip",
    "async_request_work_bound",
    "async_request_work_drip",
    "async_request_work_refuted"
   ],
   "note": "Proved; the two *_proportional_refuted theorems and async_request_work_refuted state how far the work exceeds any proportion to the input. The unit of work is a kept frame looked at, a byte consumed or a byte handed to the parser; constant factors are not modelled."
  },
  {
   "property": "C90",
   "status": "proved",
   "theorems": [
    "sends_kept",
    "sends_held_back",
    "sent_is_on_its_way_refuted",
    "request_held_back",
    "response_held_back",
    "heads_pass_lines",
    "lines_keep_messages",
    "async_flushes"
   ],
   "note": "Theorem sent_is_on_its_way_refuted: over a BufWriter a short message whose send succeeded is not on its way until the program itself flushes the writer. The two buffering writers of std are External definitions."
  },
  {
   "property": "C91",
   "status": "proved",
   "theorems": [
    "received_conforms_blocking",
    "received_conforms_async",
    "conforming_received_blocking",
    "conforming_received_async",
    "sent_conforms_blocking",
    "sent_conforms_async",
    "sends_only_conforming_refuted",
    "refuses_at_once_refuted"
   ],
   "note": "Spec/Conform.v states the RFC's rules on plain octet frames without the model. sends_only_conforming_refuted and refuses_at_once_refuted state what is left to the application."
  },
  {
   "property": "C92",
   "status": "proved",
   "theorems": [
    "plain_sound",
    "plain_complete",
    "plain_fails_late",
    "plain_live",
    "plain_overrun",
    "plain_by_turns",
    "plain_at_once",
    "plain_at_once_refuted",
    "plain_greeting_refuted",
    "plain_too_much"
   ],
   "note": "The hang found in C88 for examples/server.rs exists here too, but only once 8192 bytes of answers are buffered in the server (or, in a very small network, before the greeting is out): plain_at_once_refuted, plain_greeting_refuted."
  },
  {
   "property": "C93",
   "status": "proved",
   "theorems": [
    "chosen_one_key",
    "chosen_one_key_async",
    "chosen_few_keys",
    "key_count",
    "length_in_clear",
    "pattern_shows"
   ],
   "note": "That keys are drawn independently and uniformly is External (rand::random in gen_mask): the theorems count keys."
  },
  {
   "property": "C94",
   "status": "proved",
   "theorems": [
    "dialogue_sound",
    "dialogue_complete",
    "dialogue_live",
    "dialogue_in_turn",
    "dialogue_crossing",
    "dialogue_hangs"
   ],
   "note": "Soundness, completeness, liveness for all plans that fit together, scripts in turn, and exact condition for programs that both send first."
  },
  {
   "property": "C95",
   "status": "proved",
   "theorems": [
    "link_is_queues",
    "queues_are_link",
    "timing_unseen",
    "link_rest",
    "one_end"
   ],
   "note": "Refinement to message queues in both directions, timing not observable, what rest means."
  },
  {
   "property": "C96",
   "status": "proved",
   "theorems": [
    "request_cut_off",
    "async_request_cut_off",
    "response_cut_off",
    "async_response_cut_off",
    "cut_alike_refuted"
   ],
   "note": "request_cut_off, async_request_cut_off, response_cut_off and async_response_cut_off state the outcome for each side; cut_alike_refuted shows that the four differ."
  },
  {
   "property": "C97",
   "status": "proved",
   "theorems": [
    "encounter_is_queues",
    "encounter_comes_about",
    "handshake_unseen",
    "encounter_one_end",
    "queues_are_encounter"
   ],
   "note": "encounter_is_queues, encounter_comes_about, handshake_unseen, encounter_one_end and queues_are_encounter; the calls of the handshake are connect_on, into_ws and internal_accept of Model/Connect.v, run over what has arrived."
  },
  {
   "property": "C98",
   "status": "proved",
   "theorems": [
    "pairing_is_queues",
    "queues_are_pairing",
    "kind_unseen",
    "pairing_rest",
    "pairing_one_end"
   ],
   "note": "Refinement to Spec/Queues.v in both directions for blocking, asynchronous and mixed pairs (Model/Kinds.v); confluence of the queues gives that neither kind nor timing is observable. Network failures and the end of the connection are not part of this model (see C96 and the properties of errors)."
  },
  {
   "property": "C99",
   "status": "proved",
   "theorems": [
    "ending_is_queues",
    "queues_are_ending",
    "end_after_all",
    "ending_unseen",
    "ending_rest",
    "ending_one_end"
   ],
   "note": "Two programs with clients of either kind, where a program that is done has shut down its sending side; the end of file is delivered in a step of its own (Model/Endings.v). Failures of the network, and shutting down while the program has more to say, are not modelled here; which error the blocking client reports at the end is left out, as in Model/Programs.v."
  },
  {
   "property": "C100",
   "status": "proved",
   "theorems": [
    "break_prefix",
    "break_silence",
    "break_rest",
    "break_exact",
    "break_keeps"
   ],
   "note": "break_prefix, break_silence, break_rest, break_exact, break_keeps. The break is modelled as truncation of what the network holds and loss of what is written later; an error that the system may report for a write after the break is not modelled."
  },
  {
   "property": "C101",
   "status": "proved",
   "theorems": [
    "breaking_is_queues",
    "queues_are_breaking",
    "breaking_kinds"
   ],
   "note": "breaking_is_queues, and the converse queues_are_breaking (for queues that fit the network); together, breaking_kinds. Refinement of Model/Breaking.v by Spec/BrokenQueues.v both ways; the errors that the system may report for writes after a break are not modelled."
  },
  {
   "property": "C102",
   "status": "proved",
   "theorems": [
    "refusal_keeps_all",
    "refused_as_new",
    "async_refusal_keeps_rest",
    "async_refusal_drops_head",
    "async_refusal_keeps_all_refuted"
   ],
   "note": "Proved for the blocking server. For the asynchronous server what is given back is proved, and that nothing is lost is REFUTED (async_refusal_keeps_all_refuted)."
  },
  {
   "property": "C103",
   "status": "proved",
   "theorems": [
    "given_request"
   ],
   "note": "Proved. That the other server's parser gives the same request for the same head is a hypothesis (both use hyper)."
  }
 ]
}