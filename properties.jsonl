{"id": "C01", "title": "Frame write/read round trip", "statement": "For every data frame the library agrees to send (opcode nibble, control frames final and at most 125 bytes), under any masking key, the bytes written by write_to, followed by any other bytes, are read back by read_dataframe / read_dataframe_with_limit / DataFrameCodec::decode in the matching role as exactly the same frame (fin, reserved bits, opcode, payload), and exactly the following bytes remain unread.", "quantifier": "all frames, all 32-bit masking keys, masked or not, all trailing bytes, all payload lengths up to the limit", "why_tests_cant": "payload lengths cross three length encodings and there are 2^32 keys; tests sample a handful of literals", "anchors": ["websocket-base/src/ws/dataframe.rs: DataFrame::write_to", "websocket-base/src/ws/util/header.rs: write_header, read_header", "websocket-base/src/dataframe.rs: DataFrame::read_dataframe, read_dataframe_with_limit, read_dataframe_body", "websocket-base/src/codec/ws.rs: DataFrameCodec::decode"]}
{"id": "C02", "title": "Emitted bytes follow the RFC 6455 frame layout", "statement": "Whatever frame or message is sent, the bytes handed to the transport are exactly the RFC 6455 section 5.2 layout: FIN/RSV1-3/opcode bits in byte 0, MASK bit and the minimal 7/16/64-bit big-endian length, the 4-byte key iff masked, and the payload XORed with key[i mod 4].", "quantifier": "all frames and messages, all keys, all lengths below 2^64", "why_tests_cant": "the boundary between the three length forms and every bit of byte 0 must be right for all values", "anchors": ["websocket-base/src/ws/util/header.rs: write_header", "websocket-base/src/ws/dataframe.rs: DataFrame::write_to", "websocket-base/src/ws/util/mask.rs: Masker"]}
{"id": "C03", "title": "The frame reader accepts only canonical RFC frames", "statement": "If reading a frame from a byte stream succeeds, the bytes consumed are exactly the RFC encoding of the returned frame with some key in the expected masking mode: minimal length form, control frames final and at most 125 bytes. Everything else is an error; in particular non-minimal lengths, long control frames and fragmented control frames are always refused.", "quantifier": "all byte streams, both roles, all limits", "why_tests_cant": "a negative claim over all malformed inputs", "anchors": ["websocket-base/src/ws/util/header.rs: read_header", "websocket-base/src/dataframe.rs: DataFrame::read_dataframe_body"]}
{"id": "C04", "title": "Masking is a length-preserving involution, byte i using key byte i mod 4", "statement": "mask_data(k, d) has the length of d, its byte i is d[i] xor k[i mod 4], and mask_data(k, mask_data(k, d)) = d.", "quantifier": "all keys and payloads", "why_tests_cant": "unbounded payloads and 2^32 keys", "anchors": ["websocket-base/src/ws/util/mask.rs: mask_data"]}
{"id": "C05", "title": "Streaming masker equals one-shot masking", "statement": "Writing a payload through Masker in any sequence of pieces produces on an endpoint that takes every byte exactly mask_data of the concatenation. When the endpoint takes only part of a write the property is false (key position has already advanced past the untaken bytes).", "quantifier": "all keys, all sequences of writes, all endpoint short-write behaviours", "why_tests_cant": "every way of cutting the payload and every short-write schedule", "anchors": ["websocket-base/src/ws/util/mask.rs: Masker::write"]}
{"id": "C06", "title": "Predicted frame/message size is the number of bytes written", "statement": "frame_size(masked) / message_size(masked) equals the length of the byte string that a successful write_to / serialize hands to the writer, for DataFrame, Message, OwnedMessage, and any frame whose size() is honest about write_payload.", "quantifier": "all frames and messages, masked or not", "why_tests_cant": "all lengths including each encoding boundary", "anchors": ["websocket-base/src/ws/dataframe.rs: frame_size, write_to", "websocket-base/src/message.rs: message_size"]}
{"id": "C07", "title": "Sending is refused exactly for bad opcodes and oversized control frames, and a refused send emits nothing", "statement": "write_to / serialize / send_message / Encoder::encode fail before touching the transport or buffer iff the opcode exceeds 0xF or the opcode is a control opcode and the payload is at least 126 bytes; then no byte has been emitted.", "quantifier": "all frames and messages", "why_tests_cant": "an iff over all frames plus a no-effect claim", "anchors": ["websocket-base/src/ws/util/header.rs: write_header", "websocket-base/src/ws/dataframe.rs: write_to", "websocket-base/src/codec/ws.rs: MessageCodec::encode"]}
{"id": "C08", "title": "Whatever the socket does, a send emits a prefix of one frame, and all of it iff it reports Ok", "statement": "For every behaviour of the underlying writer (short writes, Interrupted, errors, zero writes) the bytes emitted by one send_message/send_dataframe are a prefix of that frame's bytes, Ok is returned iff the whole frame was emitted, and sends that all returned Ok emit the concatenation of the frames in call order.", "quantifier": "all writer behaviours (schedules of short writes and errors), all sequences of sends", "why_tests_cant": "schedules of partial writes and fault points", "anchors": ["src/sender.rs: Sender, Writer", "src/client/sync.rs: send_message, send_dataframe", "websocket-base/src/ws/sender.rs: send_message, send_dataframe", "websocket-base/src/ws/dataframe.rs: write_to"]}
{"id": "C09", "title": "Clients always mask, servers never, and a frame masked the wrong way is refused", "statement": "Every frame sent on a connection made by ClientBuilder (sync or async) is masked and every frame sent on a connection accepted by the server is not; a server never delivers an unmasked frame and a client never delivers a masked one, each failing with a DataFrameError.", "quantifier": "all frames, keys and byte streams, both roles, sync and async", "why_tests_cant": "a universally quantified refusal", "anchors": ["src/client/builder.rs: connect_on, async_connect_on", "src/server/upgrade/sync.rs: internal_accept_with_limits", "src/server/upgrade/async.rs: internal_accept_with_limits", "websocket-base/src/dataframe.rs: read_dataframe_body", "websocket-base/src/codec/ws.rs: DataFrameCodec"]}
{"id": "C10", "title": "No received byte stream makes the receiver panic", "statement": "Receiving frames or messages with the limits every connection has (Receiver::recv_*, MessageCodec::decode, DataFrameCodec::decode) never panics, whatever bytes arrive and however reads behave: unreachable!/expect/indexing are never hit. The unlimited DataFrame::read_dataframe does not have this property: a 10-byte header announcing more than isize::MAX bytes makes it panic with a capacity overflow.", "quantifier": "all byte streams, read schedules, roles, limits", "why_tests_cant": "all inputs, adversarial included", "anchors": ["websocket-base/src/ws/util/header.rs: read_header", "websocket-base/src/dataframe.rs: read_dataframe, read_dataframe_body, Opcode::new", "websocket-base/src/message.rs: Message::from_dataframes", "src/receiver.rs: Receiver", "websocket-base/src/codec/ws.rs"]}
{"id": "C11", "title": "Frame size limit is enforced exactly, before any payload byte is taken", "statement": "A frame whose header announces more than max_dataframe_size bytes is never delivered: it is refused as soon as the header is complete, with no payload byte consumed; a frame announcing at most the limit is never refused for size. Limits above u32::MAX act as u32::MAX.", "quantifier": "all byte streams, all limits", "why_tests_cant": "boundary over all limits and lengths", "anchors": ["websocket-base/src/codec/ws.rs: DataFrameCodec::new_with_limits, decode", "websocket-base/src/dataframe.rs: read_dataframe_with_limit", "src/receiver.rs: Receiver::new_with_limits"]}
{"id": "C12", "title": "A truncated frame is never delivered", "statement": "On every proper prefix of a frame's encoding the blocking reader returns NoDataAvailable and the async codec returns None leaving the buffer untouched.", "quantifier": "all frames, keys, cut points", "why_tests_cant": "every cut point of every frame", "anchors": ["websocket-base/src/dataframe.rs: read_dataframe", "websocket-base/src/codec/ws.rs: DataFrameCodec::decode", "websocket-base/src/result.rs: From<io::Error>"]}
{"id": "C13", "title": "Async frame decoding does not depend on how bytes are chunked", "statement": "Feeding a byte stream to DataFrameCodec in any sequence of chunks, draining after each, yields the same frames, the same error if any, and the same leftover bytes as feeding it at once.", "quantifier": "all byte streams and all ways of cutting them", "why_tests_cant": "exponentially many chunkings", "anchors": ["websocket-base/src/codec/ws.rs: DataFrameCodec::decode"]}
{"id": "C14", "title": "Async decoding makes progress and consumes exactly one frame", "statement": "Each successful DataFrameCodec::decode removes exactly one encoded frame (at least two bytes) from the front of the buffer; None removes nothing; so draining any buffer terminates.", "quantifier": "all buffers", "why_tests_cant": "termination over all inputs", "anchors": ["websocket-base/src/codec/ws.rs: DataFrameCodec::decode, MessageCodec::decode"]}
{"id": "C15", "title": "Text is delivered iff it is well-formed UTF-8", "statement": "A complete data message with text opcode is delivered as Text with exactly the concatenated payload bytes iff these bytes are the UTF-8 encoding of a sequence of Unicode scalar values (wherever the fragment boundaries fall, also inside a character); otherwise a Utf8Error is reported and nothing is delivered. No delivered Text or close reason is ever ill-formed.", "quantifier": "all payloads and fragmentations", "why_tests_cant": "all byte strings: overlongs, surrogates, cut sequences", "anchors": ["websocket-base/src/message.rs: Message::from_dataframes", "websocket-base/src/ws/util/mod.rs: bytes_to_string"]}
{"id": "C16", "title": "Message round trip between peers", "statement": "Any sequence of messages (text, binary, ping, pong, close; control payloads at most 125 bytes) sent by one side is received by the other side (blocking or async, either direction, any masking keys) as the same messages in the same order, with nothing left over.", "quantifier": "all message sequences within the limits, all keys, both directions", "why_tests_cant": "unbounded sequences and sizes", "anchors": ["websocket-base/src/message.rs: OwnedMessage", "src/receiver.rs: recv_message_dataframes", "websocket-base/src/codec/ws.rs: MessageCodec", "websocket-base/src/ws/receiver.rs: recv_message"]}
{"id": "C17", "title": "Fragmentation is transparent and interleaved control frames do not disturb it", "statement": "However a peer cuts data messages into fragments, and whatever control frames it puts between the fragments, the receiver delivers each control message at its arrival position and each data message once, at its final fragment, with the concatenation of the fragments. An application that fragments its messages itself and sends the fragments with send_dataframe, with send_message for control messages in between, is understood so by a peer of either kind.", "quantifier": "all fragmentations, all interleavings of control frames, all sequences of messages, within limits", "why_tests_cant": "all interleavings", "anchors": ["src/receiver.rs: recv_message_dataframes", "websocket-base/src/codec/ws.rs: MessageCodec::decode", "src/sender.rs:28-42", "websocket-base/src/ws/sender.rs:17-35"]}
{"id": "C18", "title": "Illegal frame sequences are refused", "statement": "A continuation frame with no message in progress, a new data frame while one is in progress, a frame with a reserved bit set and a frame with a reserved opcode each produce a ProtocolError and no message.", "quantifier": "all receiver states and frames, sync and async", "why_tests_cant": "all states of the reassembly machine", "anchors": ["src/receiver.rs: recv_message_dataframes", "websocket-base/src/codec/ws.rs: MessageCodec::decode", "websocket-base/src/message.rs: from_dataframes"]}
{"id": "C19", "title": "Close frame contents", "statement": "A close frame is delivered as Close(None) iff its payload is empty, as Close(code, reason) iff the payload is the big-endian code followed by the UTF-8 reason; a one-byte payload or an ill-formed reason is an error (the one-byte case is reported as NoDataAvailable, the same value as a disconnected peer).", "quantifier": "all close payloads", "why_tests_cant": "all payloads", "anchors": ["websocket-base/src/message.rs: from_dataframes, OwnedMessage"]}
{"id": "C20", "title": "Conversions between OwnedMessage and Message lose nothing", "statement": "OwnedMessage -> Message -> OwnedMessage is the identity; Message -> OwnedMessage keeps the bytes of every message whose text/reason is valid UTF-8 and otherwise replaces only ill-formed parts, and both forms serialize to the same bytes.", "quantifier": "all messages", "why_tests_cant": "all payloads", "anchors": ["websocket-base/src/message.rs: From<Message> for OwnedMessage, From<OwnedMessage> for Message"]}
{"id": "C21", "title": "Delivered messages and buffered memory are bounded by the configured limits", "statement": "Up to and including the first error, the payload bytes retained for an unfinished message never exceed max_message_size + max_dataframe_size (async) or max(max_message_size, max_dataframe_size) + max_dataframe_size (sync) and the number of retained frames never exceeds 2^20; every delivered data message obeys the same byte bound.", "quantifier": "all byte streams, limits and receive histories", "why_tests_cant": "all histories of an adversarial peer", "anchors": ["src/receiver.rs: recv_message_dataframes", "websocket-base/src/codec/ws.rs: MessageCodec::decode"]}
{"id": "C22", "title": "Limits after an error (violated)", "statement": "A user who keeps receiving after an 'Exceeded ...' error still has bounded memory. The code violates this: the offending frame stays in the buffer and every further call appends another, so retained memory is unbounded.", "quantifier": "all receive histories including errors", "why_tests_cant": "histories of unbounded length", "anchors": ["src/receiver.rs: recv_message_dataframes", "websocket-base/src/codec/ws.rs: MessageCodec::decode"]}
{"id": "C23", "title": "Async message decoding does not depend on chunking", "statement": "If decoding a byte stream at once never hits the message-size limit, then every chunking delivers the same messages and errors. (Unconditionally this is false: the 64-byte per-frame overhead is forgotten whenever decode returns, so a stream refused in one piece can be accepted in several.)", "quantifier": "all byte streams, chunkings, limits", "why_tests_cant": "exponentially many chunkings", "anchors": ["websocket-base/src/codec/ws.rs: MessageCodec::decode"]}
{"id": "C24", "title": "Blocking receive does not depend on how reads are split or interrupted", "statement": "recv_message / recv_dataframe results depend only on the bytes of the stream, not on how many bytes each read returns nor on Interrupted errors.", "quantifier": "all read schedules without hard errors", "why_tests_cant": "all schedules", "anchors": ["src/receiver.rs: Receiver", "websocket-base/src/dataframe.rs: read_dataframe_with_limit", "websocket-base/src/ws/util/header.rs: read_header"]}
{"id": "C25", "title": "A transient read error does not lose data (violated)", "statement": "After a WouldBlock in the middle of a frame, retrying recv_message yields the frame. The code violates this for the blocking receiver: bytes already read are dropped and the retry parses from the middle of the frame.", "quantifier": "all read schedules with WouldBlock", "why_tests_cant": "all fault points", "anchors": ["websocket-base/src/dataframe.rs: read_dataframe_with_limit", "src/client/sync.rs: set_nonblocking"]}
{"id": "C26", "title": "Blocking and async receivers agree", "statement": "On any stream of frames whose messages stay under the size and count limits the blocking receiver and the async codec deliver the same messages in the same order.", "quantifier": "all frame streams within limits", "why_tests_cant": "all streams", "anchors": ["src/receiver.rs", "websocket-base/src/codec/ws.rs"]}
{"id": "C27", "title": "Behaviour after a refused header", "statement": "After the async codec refuses a header (bad length, long or fragmented control frame, frame over the limit) every later decode returns the same error: nothing is ever delivered from the bytes after it. The blocking receiver does not have this property: the refused frame's payload bytes are parsed as frames and can be delivered as messages.", "quantifier": "all streams, all later calls", "why_tests_cant": "all continuations", "anchors": ["websocket-base/src/codec/ws.rs: DataFrameCodec::decode", "websocket-base/src/dataframe.rs: read_dataframe_with_limit", "websocket-base/src/ws/receiver.rs: MessageIterator"]}
{"id": "C28", "title": "End of stream in the async client", "statement": "When the peer closes inside a frame the stream ends with an error, never with a message; at a frame boundary it ends cleanly. A peer closing between the fragments of a message also ends the stream cleanly, silently dropping the partial message.", "quantifier": "all streams and chunkings", "why_tests_cant": "all cut points", "anchors": ["websocket-base/src/codec/ws.rs: MessageCodec::decode", "src/client/async.rs: Client"]}
{"id": "C29", "title": "Async sends reach the wire in order and complete under any write schedule", "statement": "Bytes written to the transport plus bytes still buffered are always the concatenation of the encodings of the accepted messages, in order, whatever partial writes happen; after a completed flush nothing remains buffered.", "quantifier": "all message sequences and write schedules", "why_tests_cant": "all schedules", "anchors": ["websocket-base/src/codec/ws.rs: MessageCodec::encode", "src/client/async.rs: Client"]}
{"id": "C30", "title": "Encoding into the shared buffer appends exactly and never runs out of room", "statement": "MessageCodec::encode / DataFrameCodec::encode on a buffer of any content and any spare capacity appends exactly the serialized frame and leaves earlier content untouched; it never fails for lack of room.", "quantifier": "all buffers, capacities, messages", "why_tests_cant": "all capacities versus all sizes", "anchors": ["websocket-base/src/codec/ws.rs: encode"]}
{"id": "C31", "title": "Accept token is the RFC hash of the key", "statement": "The Sec-WebSocket-Accept value is base64(SHA-1(base64(key) ++ GUID)); for a key header in canonical form this is the hash of the header text; it is always 28 characters and parses back to itself.", "quantifier": "all 16-byte keys", "why_tests_cant": "2^128 keys", "anchors": ["websocket-base/src/header.rs: WebSocketAccept::new, serialize"]}
{"id": "C32", "title": "Key and accept headers round trip, wrong lengths are refused", "statement": "Parsing the serialization of a key/accept gives it back; text that does not decode to exactly 16 (key) or 20 (accept) bytes is refused; every accepted text decodes to the returned bytes.", "quantifier": "all keys, accepts and texts", "why_tests_cant": "all texts", "anchors": ["websocket-base/src/header.rs: WebSocketKey::from_str, WebSocketAccept::from_str", "src/header/key.rs", "src/header/accept.rs"]}
{"id": "C33", "title": "Server accepts exactly the right upgrade requests", "statement": "validate succeeds iff the method is GET, the HTTP version is not 0.9/1.0, the Sec-WebSocket-Version header is absent, unreadable or 13, the key header decodes to 16 bytes, the Upgrade header lists websocket and the Connection header lists upgrade (any case); otherwise the first failing check determines the error. (Absent/duplicated version and HTTP/2.0 being accepted contradicts the documented contract.)", "quantifier": "all requests", "why_tests_cant": "all header combinations", "anchors": ["src/server/upgrade/mod.rs: validate"]}
{"id": "C34", "title": "A successful upgrade's response carries the right handshake headers", "statement": "For every validated request, whatever protocols, extensions and custom headers are selected, accept never panics and sends status 101 with exactly one Sec-WebSocket-Accept computed from the request key, Connection: Upgrade and Upgrade: websocket, with the request's HTTP version; reject sends 400 and none of these are added.", "quantifier": "all validated requests, all custom headers", "why_tests_cant": "all header maps", "anchors": ["src/server/upgrade/mod.rs: prepare_headers, send", "src/server/upgrade/sync.rs: internal_accept_with_limits, internal_reject", "src/server/upgrade/async.rs"]}
{"id": "C35", "title": "Client accepts exactly the right handshake responses", "statement": "The client accepts a response iff its status is 101, its Sec-WebSocket-Accept is the token of the key it sent and its Upgrade header is exactly websocket; a redirect with Location is reported as such, any other status as a status error. (The response's Connection header is never looked at, contrary to RFC 6455 4.1.)", "quantifier": "all responses, all builder states, both kinds of client, however the bytes of the response arrive", "why_tests_cant": "all header combinations", "anchors": ["src/client/builder.rs: ClientBuilder::validate", "src/client/builder.rs: connect_on, async_connect_on"]}
{"id": "C36", "title": "Library client and library server complete the handshake", "statement": "For every builder that keeps the default version, and every set of custom headers, protocols and extensions on both sides, the server validates the client's request and the client validates the server's response; with the same key seen on both sides.", "quantifier": "all builders, keys, custom headers, server choices", "why_tests_cant": "all configurations", "anchors": ["src/client/builder.rs: build_request, validate", "src/server/upgrade/mod.rs: validate, prepare_headers"]}
{"id": "C37", "title": "Builder protocol and extension lists", "statement": "After any sequence of builder calls the requested protocols (extensions) are exactly those added since the last clear, in order; other builder calls do not change them. The server sees exactly these in the request, and the client sees exactly the protocol and the extensions the server chose with use_protocol, use_extension and use_extensions, in order (values of extension parameters excepted, see C40).", "quantifier": "all sequences of builder calls, all choices of the server", "why_tests_cant": "all call histories", "anchors": ["src/client/builder.rs: add_protocol, add_protocols, clear_protocols, add_extension, add_extensions, clear_extensions", "src/lib.rs: upsert_header", "src/server/upgrade/mod.rs:60-91"]}
{"id": "C38", "title": "Every request carries the mandatory headers", "statement": "After any sequence of builder calls without clear_header on Sec-WebSocket headers, the request has Connection: Upgrade, Upgrade: websocket, a version and a key, and Host when the URL has a host. (clear_header after key()/version() breaks it: the request is sent without the header.)", "quantifier": "all builder histories", "why_tests_cant": "all call histories", "anchors": ["src/client/builder.rs: build_request, key, clear_key, version, clear_version, clear_header"]}
{"id": "C39", "title": "Configured limits reach the connection", "statement": "Connections made by ClientBuilder and by the server enforce the max_dataframe_size and max_message_size they were configured with. The blocking client violates it: connect_on passes max_dataframe_size for both limits.", "quantifier": "all limit values, sync and async, client and server", "why_tests_cant": "all values", "anchors": ["src/client/builder.rs: connect_on, async_connect_on", "src/server/upgrade/sync.rs: accept_with_limits", "src/server/upgrade/async.rs: accept_with_limits"]}
{"id": "C40", "title": "Extension header round trip", "statement": "Parsing the printed form of an extension list gives it back. The code violates it for parameters with a value (splitn(1, '=') never splits): 'qux=quux' parses as the name 'qux=quux' with no value; it holds for value-less parameters with plain names, and printing a parsed list and parsing again is stable.", "quantifier": "all extension lists", "why_tests_cant": "all strings", "anchors": ["src/header/extensions.rs: Extension::from_str, Display"]}
{"id": "C41", "title": "Ports and TLS follow the URL", "statement": "Without an explicit port, ws URLs connect to 80 and wss URLs to 443, an explicit port always wins, a URL without host is refused, and connect() uses TLS iff the scheme is wss or https. (connect_secure on a ws URL uses port 80 and connect_insecure on wss uses 443: the secure flag matters only for unknown schemes.)", "quantifier": "all URLs and flags", "why_tests_cant": "all URLs", "anchors": ["src/client/builder.rs: extract_host_port, is_secure_url"]}
{"id": "C42", "title": "HTTP head splitting takes exactly the head and is chunk-independent", "statement": "The HTTP codec takes from the buffer exactly the bytes up to and including the first CRLFCRLF, waits if there is none, and gives the same split however the bytes arrive.", "quantifier": "all byte streams and chunkings", "why_tests_cant": "all chunkings", "anchors": ["src/codec/http.rs: split_off_http, HttpServerCodec::decode, HttpClientCodec::decode"]}
{"id": "C43", "title": "No byte after the handshake is lost", "statement": "WebSocket bytes that arrive together with the HTTP head (pipelined frames) are delivered to the WebSocket layer first, in order, on client and server, sync and async, and split()/into_stream() hand over the same unread bytes.", "quantifier": "all streams, all positions of the chunk boundary", "why_tests_cant": "all chunkings", "anchors": ["src/server/upgrade/sync.rs: into_ws, internal_accept_with_limits", "src/server/upgrade/async.rs: into_ws, internal_accept_with_limits", "src/client/builder.rs: connect_on, async_connect_on", "websocket-base/src/ws/util/mod.rs: update_framed_codec", "src/client/sync.rs: split, into_stream"]}
{"id": "C44", "title": "Split client behaves like the unsplit one", "statement": "After split(), any interleaving of reads on the Reader and sends on the Writer gives the reads the same results and the wire the same bytes as performing them on the unsplit client.", "quantifier": "all interleavings of operations", "why_tests_cant": "all interleavings", "anchors": ["src/client/sync.rs: split", "src/receiver.rs: Reader", "src/sender.rs: Writer"]}
{"id": "C45", "title": "Ping to pong", "statement": "into_pong succeeds exactly on pings, keeps payload and makes the message serialize as a pong with the same payload; on any other message it fails and changes nothing.", "quantifier": "all messages", "why_tests_cant": "all payloads", "anchors": ["websocket-base/src/message.rs: into_pong"]}
{"id": "C46", "title": "Status code is used for close messages only (violated)", "statement": "cd_status_code is documented as used only for Close; the code writes it in front of the payload of a message of any type.", "quantifier": "all messages", "why_tests_cant": "public fields admit all combinations", "anchors": ["websocket-base/src/message.rs: write_payload, size"]}
{"id": "C47", "title": "Async server yields one result per connection", "statement": "Every accepted connection yields exactly one item (an upgrade or an InvalidConnection carrying its stream), whatever the order in which handshakes finish; a stalled or failing handshake neither blocks nor duplicates others.", "quantifier": "all connection sequences and completion schedules", "why_tests_cant": "all schedules", "anchors": ["src/server/async.rs: incoming", "src/server/sync.rs: accept"]}
{"id": "C48", "title": "Every complete head is answered by the asynchronous handshake", "statement": "Once a complete HTTP head has arrived, the asynchronous handshake yields a request, a response or an error, the same one as the blocking handshake, however the bytes arrived.", "quantifier": "all heads the blocking handshake answers, all chunkings", "why_tests_cant": "all heads and chunkings; a test only covers well-behaved peers", "anchors": ["src/codec/http.rs: split_off_http, HttpServerCodec::decode, HttpClientCodec::decode", "src/server/upgrade/async.rs: into_ws"]}
{"id": "C49", "title": "A blocking handshake survives interrupted reads", "statement": "A read interrupted by a signal during the handshake is retried, as it is when receiving frames.", "quantifier": "all streams and positions of the interruption", "why_tests_cant": "needs a signal between two reads of a head", "anchors": ["src/server/upgrade/sync.rs: into_ws", "src/client/builder.rs: connect_on"]}
{"id": "C50", "title": "A header value cannot add header fields or end the head", "statement": "Whatever bytes an application puts into the value of a header (origin, protocol, extension, custom header; e.g. copied from user input), the request or response head that is sent contains exactly the fields that were set, in order: line breaks in a value neither start another field nor end the head early, so the peer reads the same list of fields and starts reading frames where the head really ends.", "quantifier": "for all builder/upgrade headers and all byte strings as values (names and target without line breaks), and any HTTP parser satisfying the grammar", "why_tests_cant": "Tests use a few ordinary values; absence of injection is a statement about all byte strings in all positions and about what the peer's parser makes of the bytes.", "anchors": ["src/client/builder.rs:502-519", "src/server/upgrade/mod.rs:127-143", "src/codec/http.rs:76-87", "src/codec/http.rs:173-181"]}
{"id": "C51", "title": "The handshake goes over the right connection", "statement": "connect, connect_secure, connect_insecure and their asynchronous forms carry out the handshake on one connection only, namely to the URL's host and port (default by scheme), encrypted exactly when the scheme is wss/https (connect), always (connect_secure) or never (connect_insecure), with the caller's TLS connector (or the default one) and the URL's host as the certificate name; if no such connection can be made nothing is said and an error is returned. Blocking: the resolved addresses are tried in order until one answers. (The asynchronous functions violate that: only the first address is tried.) A TLS server takes requests only from inside TLS.", "quantifier": "all URLs with a port or a known scheme, all builders, all networks (resolver, dialling and TLS outcomes), all TLS configurations", "why_tests_cant": "needs every combination of address lists, refusals and TLS outcomes; a test sees one network", "anchors": ["src/client/builder.rs: connect, connect_insecure, connect_secure, async_connect, async_connect_secure, async_connect_insecure, async_tcpstream, establish_tcp, extract_host_ssl_conn, wrap_ssl", "src/server/sync.rs: accept", "src/server/async.rs: incoming"]}
{"id": "C52", "title": "The Host field names the server that was dialled", "statement": "Whatever calls were made on a ClientBuilder, the request it sends has exactly one Host field, and that field is the URL's host, followed by ':' and the URL's port in decimal when the URL has a port other than its scheme's default. (The code violates this for the ports 80 and 443 under the other scheme: ws://h:443 is requested with Host: h, and the request is byte for byte the one for ws://h.)", "quantifier": "for every URL, every history of builder calls (including custom Host headers), every port below 65536 other than 80 and 443; refutation for ws with 443", "why_tests_cant": "A test tries a few ports; the claim is about every port, every host and every interference by custom headers, and the exception is exactly the two values that tests avoid because they look like the default.", "anchors": ["src/client/builder.rs:844-851 (build_request)", "src/client/builder.rs:952-972 (extract_host_port)"]}
{"id": "C53", "title": "The credentials of the URL are the credentials presented", "statement": "If the URL names a user, the request carries exactly one Authorization field, whatever custom headers were set: 'Basic ' and the base64 of user ':' password. If the URL names no user, the field is what custom headers say. The credentials are those the URL stands for provided neither part contains a percent sign; otherwise the percent-encoding is sent undecoded (violated by the code).", "quantifier": "for every URL, every history of builder calls, every key", "why_tests_cant": "Ranges over all user names and passwords and all interleavings with custom headers; the failing case needs a password whose URL form differs from its value.", "anchors": ["src/client/builder.rs:853-862 (build_request)"]}
{"id": "C54", "title": "A builder can be used for another attempt", "statement": "After any connection attempt made with a ClientBuilder, successful or failed at any point, connecting again with it writes, reads and returns exactly what a builder that was never used would, given the same random key; in particular each attempt sends its own fresh key unless the caller fixed one.", "quantifier": "for every history of calls, all server behaviour in both attempts, all I/O faults, every pair of random keys", "why_tests_cant": "The first attempt can fail in unboundedly many ways, and leftovers (a duplicated or reordered header, a stale key) would show only in combination with particular custom headers.", "anchors": ["src/client/builder.rs:502-545 (connect_on)", "src/client/builder.rs:844-884 (build_request)"]}
{"id": "C55", "title": "Sending again after a failed send", "statement": "When a blocking send fails and the same message is sent again successfully, the peer gets that message once. This holds exactly when the failed attempt had put nothing on the wire; otherwise the wire has a proper part of the frame followed by the whole frame, and (violated by the code, for instance on a non-blocking socket that reports WouldBlock) the peer can receive a different message without any error while both ends report success.", "quantifier": "for every frame of a truthful Dataframe implementation, every masking key in each attempt, every behaviour of the transport; refutation by a concrete run", "why_tests_cant": "Where in the frame the transport stops is up to the kernel; a test sees one point of failure, usually before the first byte, where retrying is safe.", "anchors": ["websocket-base/src/ws/sender.rs:14-40", "websocket-base/src/ws/dataframe.rs:40-75", "src/client/sync.rs:154-167"]}
{"id": "C56", "title": "A rejected stream goes on where the request ends", "statement": "After an upgrade request is rejected, the stream that is handed back goes on with the byte after the request head. The asynchronous reject keeps that promise for any codec used afterwards; the blocking reject returns the bare stream, so exactly the bytes that were read ahead into the upgrade's buffer are missing from it (violated by the code).", "quantifier": "for every request, every way its bytes and what follows are cut into reads, every custom header set; refutation by a concrete run", "why_tests_cant": "Depends on how many bytes one read returned; a test client that waits for the answer before sending more never shows it.", "anchors": ["src/server/upgrade/sync.rs:100-118", "src/server/upgrade/async.rs:136-163"]}
{"id": "C57", "title": "A handshake's memory is bounded", "statement": "Before its handshake has an outcome a blocking server (and a blocking client) reads at most 417792 bytes from its peer and buffers no more than that, whatever the peer sends. (The asynchronous server violates this: a peer that never sends an empty line has everything it sends kept, without any bound.)", "quantifier": "for every byte stream and every way of cutting it into reads, every HTTP library whose buffer keeps hyper's cap; refutation: for every bound", "why_tests_cant": "The bound is about all peers, including ones that never finish; a test stops after a finite amount and cannot show that nothing ever goes beyond it.", "anchors": ["src/server/upgrade/sync.rs:178-207", "src/server/upgrade/async.rs:235-265", "src/codec/http.rs:65-112"]}
{"id": "C58", "title": "Blocking and asynchronous sides decide alike", "statement": "Given the same request text, the blocking and the asynchronous server both offer the upgrade with the same request, or both refuse with the same error and request. Given the same response text, the blocking and the asynchronous client of one builder both connect with the same headers or both fail with the same error.", "quantifier": "for every request or response head of at most 100 fields and 417792 bytes ending in its first empty line, and every block of at most 417792 bytes ending so that the parser refuses other than as too large, every way its bytes arrive on either side, every builder", "why_tests_cant": "Two implementations over all heads and all arrival patterns; a differential test samples.", "anchors": ["src/server/upgrade/sync.rs:178-207", "src/server/upgrade/async.rs:235-265", "src/client/builder.rs:502-519", "src/client/builder.rs:767-812"]}
{"id": "C59", "title": "After the end", "statement": "Once its stream is at an end, every further receive of a blocking connection reports that no data is available, so the iterator of incoming messages never ends by itself; an asynchronous connection whose stream has ended stays ended however often it is polled, and one that ended inside a frame reports the same error at every poll.", "quantifier": "for every number of further calls, every state of the receiver", "why_tests_cant": "Unbounded number of further calls.", "anchors": ["websocket-base/src/ws/receiver.rs:56-124", "websocket-base/src/codec/ws.rs:55-80"]}
{"id": "C60", "title": "Close is an ordinary message", "statement": "Receiving writes nothing to the wire, whatever is received: a Close is not answered and a Ping is not answered by the library. After a Close was received (or sent), messages are still delivered (and written) as before; so RFC 6455 5.5.1, no data after Close, is the application's duty (violated if taken as a promise of the library).", "quantifier": "for every program of receives, every stream; every message stream containing Close messages anywhere", "why_tests_cant": "A claim about what never happens on any stream.", "anchors": ["src/client/sync.rs:154-195", "websocket-base/src/ws/receiver.rs:56-124"]}
{"id": "C61", "title": "Connecting never panics", "statement": "Connecting on a stream ends with a connection or an error, whatever the server sends and whatever the stream does, unless the caller set a raw header line that is not UTF-8 (then it panics, exactly then).", "quantifier": "for every builder without such a header, every response stream, every transport behaviour, both clients", "why_tests_cant": "The space of responses and faults is unbounded; the claim is absence of a panic.", "anchors": ["src/client/builder.rs:502-519", "src/client/builder.rs:767-812", "src/client/builder.rs:887-940"]}
{"id": "C62", "title": "What the client looks at in a response", "statement": "Whether a client connects depends on nothing in the response but its status and its Sec-WebSocket-Accept, Upgrade and Location fields. In particular the client connects to a server that chose a protocol or an extension it was not asked for (RFC 6455 4.1 points 5 and 6 are violated).", "quantifier": "for every pair of responses agreeing in those fields, every builder; refutation for every URL", "why_tests_cant": "Non-interference over all pairs of responses.", "anchors": ["src/client/builder.rs:887-940"]}
{"id": "C63", "title": "What the server sees of the client", "statement": "The uri(), key(), version(), origin() and protocols() of the upgrade a server offers are those the client was configured with, and so are its extensions(), if their parameters have no values (with values: C40).", "quantifier": "for every URL, every history of builder calls leaving these fields to their methods, every way the request arrives, both servers", "why_tests_cant": "Ranges over all configurations and arrival patterns, end to end through printing and parsing.", "anchors": ["src/server/upgrade/mod.rs:99-134", "src/client/builder.rs:844-884"]}
{"id": "C64", "title": "What kind a message is", "statement": "is_control, is_data, is_close, is_ping and is_pong of a message agree with the opcode the message is sent with: control means the opcode's highest bit is set (RFC 6455 5.5), data is its opposite, and each of the others names one opcode.", "quantifier": "for every message, either role, every masking key, every transport behaviour on which the send succeeds", "why_tests_cant": "It ties five predicates to the wire format for every message; a test that forgets one kind (a Pong, a Close without a reason) does not notice.", "anchors": ["websocket-base/src/message.rs:280-345", "websocket-base/src/message.rs:367-437"]}
{"id": "C65", "title": "What NoDataAvailable means", "statement": "A receiver that reports NoDataAvailable on a stream without I/O errors has either reached the end of the stream or has just consumed a whole Close frame whose payload is one single byte; the asynchronous codec reports it in the second case only. So the error does not mean that the peer is gone: a malformed Close, which RFC 6455 5.5.1 forbids, is reported under the same name as the end of the stream, and the messages behind it are still delivered by the next calls.", "quantifier": "for all limits, streams, ways the stream is split into reads, and numbers of calls before", "why_tests_cant": "It says what every possible history ending in this error looked like; a test sees the error for the streams it tries, not that no other stream gives it.", "anchors": ["websocket-base/src/message.rs:189-244", "websocket-base/src/result.rs:38-80", "src/receiver.rs:119-186", "websocket-base/src/codec/ws.rs:278-326"]}
{"id": "C66", "title": "The echo server echoes", "statement": "The server of examples/autobahn-server.rs, on a transport that accepts its writes: if the handshake is refused it writes nothing. Otherwise it accepts, receives messages up to the first Close or error, and writes, after the response, exactly the RFC 6455 encodings (unmasked) of the answers - the same message for Text and Binary, a Pong with the same data for a Ping, nothing for a Pong - in order, and then one Close; it always returns and never panics. For a legal session of frames this is the answer to every message of the session, whatever comes after its Close; and a client of this library (blocking or asynchronous) gets back what it sent.", "quantifier": "for every input stream, cut in any way and failing anywhere, every request, every legal session within the limits, every list of messages a client sends, every way the writes are accepted", "why_tests_cant": "It is a whole-program claim over all conversations and all transports: the Autobahn suite tries several hundred conversations over one transport.", "anchors": ["examples/autobahn-server.rs:8-43", "src/server/upgrade/sync.rs:49-118", "src/receiver.rs:75-186", "src/sender.rs:36-89"]}
{"id": "C67", "title": "What the example server does", "statement": "The server of examples/server.rs and examples/hyper.rs, on a transport that accepts its writes: if the handshake is refused nothing is written; if the client does not offer the protocol \"rust-websocket\" exactly a 400 response is written; otherwise the acceptance, a text message \"Hello\", and the answer to every message (the message itself, a Pong for a Ping) up to the first Close, which is answered with a Close. The thread of a connection panics if and only if the stream ends or becomes illegal before a Close - which any client can bring about by leaving.", "quantifier": "for every input stream, cut in any way and failing anywhere, every request, every way the writes are accepted", "why_tests_cant": "It is a whole-program claim over all conversations; there are no tests of the examples.", "anchors": ["examples/server.rs:7-48", "examples/hyper.rs:31-74", "src/server/upgrade/mod.rs:60-114"]}
{"id": "C68", "title": "An asynchronous connection waits only for its transport", "statement": "If polling an asynchronous stream (of messages, frames, requests or responses) gives NotReady, then during that very poll the transport was asked for more and was last not ready, so the task is woken when there is more; and nothing complete is left inside: no message (no frame) could be produced from what is buffered. If flushing gives NotReady then the transport refused a write, or everything was written and its flush is pending; if sending gives NotReady the transport refused a write and the item was not taken. Of the handshake the second half is false: after two empty lines a whole request can sit in the buffer of the asynchronous server while it waits.", "quantifier": "for every codec state, every buffer, every history of polls, every behaviour of the transport", "why_tests_cant": "A lost wake-up shows only for particular cuts of the input at particular polls; all of them are covered here.", "anchors": ["websocket-base/src/codec/ws.rs:113-270", "src/codec/http.rs:57-167"]}
{"id": "C69", "title": "The asynchronous echo server echoes", "statement": "The task that examples/async-autobahn-server.rs (and async-server.rs) runs for a connection, on a transport whose writes do not fail but may be cut and delayed in any way: it always ends. If a Close arrives or the stream ends, it has written and flushed exactly the answers to the messages before the Close (the message itself for Text and Binary, a Pong for a Ping, nothing for a Pong), in order, and one Close. If reading fails first it ends with that error and no Close; what is written is then only a beginning of the answers (the rest stays in the buffer and is lost), unlike the blocking example, which answers every message received.", "quantifier": "for every request, every input cut in any way and failing anywhere, every schedule of reads, writes and flushes that are not ready, every size of the transport's writes, every legal session of frames", "why_tests_cant": "The order of wake-ups, back-pressure and partial writes is unbounded; a test sees one schedule.", "anchors": ["examples/async-autobahn-server.rs:25-47", "examples/async-server.rs:38-72", "websocket-base/src/codec/ws.rs:188-270"]}
{"id": "C70", "title": "Whom the asynchronous example servers serve", "statement": "The server of examples/async-server.rs serves exactly the clients whose handshake succeeds, each once, whatever other clients and the listener do; a client that does not offer the protocol \"rust-websocket\" gets exactly a 400 response, any other the acceptance, the text \"Hello World!\" and the answers of C69. The server of examples/async-autobahn-server.rs does the same only as long as nothing fails: one client with a bad request ends it for everyone.", "quantifier": "for every sequence of connections, listener errors and polls, every request and input, every behaviour of the transport", "why_tests_cant": "It is about all interleavings of many clients, of which tests try none.", "anchors": ["examples/async-server.rs:24-74", "examples/async-autobahn-server.rs:21-49", "src/server/async.rs:64-89"]}
{"id": "C71", "title": "Frames and messages can be read from one client", "statement": "A program may call recv_dataframe and recv_message of one blocking client in any order. As long as no call fails, the bytes read are legal frames and every frame is used by exactly one call, in order: handed out, or part of the first message completed. Conversely every such use of the frames on the wire can be asked for and is got. What one would also like, that every message returned is one the peer sent, holds only while no frame is asked for in the middle of a message.", "quantifier": "for every sequence of the two calls, every byte sequence and transport, both maskings, all limits", "why_tests_cant": "Tests use one of the two calls per connection; the fault needs a control message inside a fragmented one and a change of call just then.", "anchors": ["src/receiver.rs:119-186", "src/client/sync.rs:170-195", "websocket-base/src/ws/receiver.rs:23-47"]}
{"id": "C72", "title": "The chat client loses nothing between its threads", "statement": "In examples/client.rs, however its three threads are scheduled and whatever the server sends: as long as writing does not fail, the bytes written are the messages typed and the answers to the messages received, each in its order, one masked frame each; nothing follows a close message and nothing is dropped but what comes after it; if the user does not close, every ping received before the end is answered. The threads cannot deadlock, and if the user closes and the stream ends, the program does. It is not true that it is silent when nothing is typed: at the end of standard input it sends empty messages for ever.", "quantifier": "for every schedule of the three threads, every list of lines typed, every input from the server, all keys drawn", "why_tests_cant": "The order in which threads reach the channel cannot be enumerated by running the program.", "anchors": ["examples/client.rs:12-128", "src/client/sync.rs:386-404", "src/receiver.rs:47-49", "src/sender.rs:37-42"]}
{"id": "C73", "title": "The example client and the example server hold a whole conversation", "statement": "Let the chat client of examples/client.rs talk to the server of examples/server.rs over a connection that carries bytes in order. Whatever the order of turns among the client's threads, the server and the network, and however the bytes are cut: the client never gets an error, the server never panics, and what the client has heard is always the beginning of greeting, echo of each line, pong for each \"/ping\", and - only after the user typed \"/close\" - a close message. Once the user has typed \"/close\" the number of things that can happen is bounded; when everyone keeps getting turns the conversation is completed: everything typed has been answered, the server has returned and all threads of the client are over.", "quantifier": "for every list of lines (UTF-8, at most 100 MiB each), every interleaving of threads, server and network, every cutting of the byte streams, all masking keys, every way the streams accept writes in pieces", "why_tests_cant": "It is about all interleavings of six parties; a test sees one, and a hang or a lost close message in another would not show.", "anchors": ["examples/client.rs:12-128", "examples/server.rs:21-45", "src/sender.rs:37-42", "src/receiver.rs:47-49", "src/client/sync.rs:386-404"]}
{"id": "C74", "title": "The blocking server serves callers whatever others do: not kept; exactly when it holds", "statement": "The blocking server's accept (and its iterator) reads the whole request head before it returns: it returns once the head is complete, once the caller hangs up or the connection fails, or after 417792 bytes; for a caller that has sent less than a head and stays on the line it never returns. With n threads accepting on clones of the server, callers are taken in the order they came, none is lost or served twice, each result is what accept makes of that caller. If fewer than n callers fall silent, then when nothing more can happen every other caller has been served exactly once, after at most two steps per caller. If n callers have fallen silent, nobody who comes later is ever taken. In particular with one thread, as in the examples, a single mute caller shuts everyone else out (the promise that a caller is served whatever others do is refuted).", "quantifier": "for every HTTP library with sound byte classes, every list of callers (any bytes in any chunks, errors, hanging up or silence), every number of threads, every order of events", "why_tests_cant": "Waiting for ever is not observable in a finite test, and the order in which threads take and finish callers is open.", "anchors": ["src/server/sync.rs:230-252", "src/server/sync.rs:255-261", "src/server/sync.rs:264-270", "src/server/upgrade/sync.rs:178-207", "examples/server.rs:10-12"]}
{"id": "C75", "title": "An error says what went wrong: kept for causes and refusals, not for protocol reasons and TLS handshakes", "statement": "Printing an error of the library and its chain of sources shows everything the original error of a failed dependency (I/O, UTF-8, HTTP, URL, TLS) had to say, whichever conversions it went through, and its first line names the sort of failure (I/O, UTF-8, HTTP, URL, SSL); the only exception is the end of the stream, which says \"No data available\". A refused upgrade names the unmet condition, before and after conversion, and distinct conditions print distinctly; redirects show status and location. Not kept: the reason of a ProtocolError or DataFrameError is printed neither by the error nor by its sources, so different violations by the peer cannot be told apart in what is printed; and the cause of a failed TLS handshake is dropped.", "quantifier": "for all causes with any texts and chains of sources, all conversion routes in the library, all reasons", "why_tests_cant": "That information is never lost on any route for any cause is a statement about all of them; the losses show only when two errors are compared.", "anchors": ["websocket-base/src/result.rs:42-80", "src/result.rs:67-218", "src/server/upgrade/mod.rs:192-249", "src/codec/http.rs:213-249"]}
{"id": "C76", "title": "Shutting down a connection, or one direction of it", "statement": "On a blocking client, split or not: once reading was shut down (Client::shutdown_receiver, Reader::shutdown, or shutdown/shutdown_all from either half) no receive waits any more; one that is waiting at that moment returns NoDataAvailable, and until then it goes on waiting whatever else is done with the connection. Shutting down the receiving half changes nothing else: what had arrived is still received, receives that would have waited give NoDataAvailable, and sending and what the peer reads are as they would have been. Once writing was shut down nothing more goes out and no send reports success (a sendable message: broken pipe), while receiving goes on as it would have. The peer receives exactly the messages whose sends reported success, in order, then NoDataAvailable if writing was shut down or both halves are gone, and otherwise waits; no Close message is made up. Refuted: that shutting the receiving half down ends receiving (messages that are there or arrive later are still received), and that dropping the sending half ends the connection for the peer.", "quantifier": "for every connection state, every sequence of receives, sends, shutdowns by either half, drops and arrivals, every limit and mask setting, every message that can be sent", "why_tests_cant": "It is about calls that never return and about every order of shutdowns, drops, sends, receives and arrivals in two threads.", "anchors": ["src/client/sync.rs:65-87", "src/receiver.rs:62-75", "src/sender.rs:46-60", "websocket-base/src/stream.rs:149-164"]}
{"id": "C77", "title": "The parallel server: whom it hears, whom it greets, and when it stops", "statement": "The server of examples/parallel-server.rs, whatever the order in which its tasks run: every client has an identifier and a sink of its own, the sink always in exactly one place; what is printed is one whole client after another, in each client's order, and as long as the stream being read does not end nobody else is heard; if all streams end, polling is enough to print every text of every client. Every client in the table gets one greeting per update, unless a send to it fails. The server stops only when a handshake or the listener fails, when the stream it reads fails, or when an update runs while greetings of an earlier one still wait. Refuted: that a client whose stream fails harms only itself (the server stops for everyone), and that well-behaved clients on working connections keep it up (two updates before the send handler runs make it panic).", "quantifier": "for every interleaving of the tasks, any number of clients (up to 2^32 - 1 identifiers and beyond), any messages, ends, failures and delays", "why_tests_cant": "The outcome depends on how a thread pool schedules the tasks; the panic needs two updates before one poll of the send handler, the rest quantifies over all schedules.", "anchors": ["examples/parallel-server.rs:28-121", "examples/parallel-server.rs:135-183"]}
{"id": "C78", "title": "The Autobahn test-suite clients run every case in order, echo it exactly, and report", "statement": "The test-suite clients (examples/autobahn-client.rs and examples/async-autobahn-client.rs): the URL of test case n ends in the decimal numeral of n without leading zeros, so different cases have different URLs, none of them that of the count or of the reports. When the fuzzing server announces n cases and can be reached, the blocking client makes exactly the connections count, case 1, ..., case n, reports, in that order and each to its end. In each case the messages up to the first Close or error are answered in order (text and binary echoed, pings answered, pongs ignored), each answer in a correctly masked RFC 6455 frame, then exactly one Close is written, whatever the server sends and however the stream ends. The count is the last number received as text (0 if none, panic on a text that is not a number); pings are answered meanwhile and the connection is closed, with status 1002 after an error. An unreachable case makes the blocking client panic without updating the reports; an unreachable server makes it end as if there were no cases. The asynchronous client flushes every answer before asking for the next message, so no answer is lost when reading fails; it writes a Close after a Close or an error but not when the stream just ends; it takes the count from the first message only and panics on anything else (so a ping before the number stops it, where the blocking client goes on); and it skips cases that fail or cannot be reached, still updating the reports.", "quantifier": "for all worlds of connections (every URL reachable or not), all bytes received on each connection and all ways they are cut, all numbers of cases, all ways writes are cut or delayed", "why_tests_cant": "Running the suite against one fuzzing server shows one sequence of connections; that every answer is written, in order and once, for all message sequences, cuts, endings and numbers of cases, and what happens with unreachable cases, cannot be enumerated.", "anchors": ["examples/autobahn-client.rs:7-145", "examples/async-autobahn-client.rs:13-113"]}
{"id": "C79", "title": "The asynchronous chat clients interleave answers and typed lines fairly and end only when both sides have", "statement": "The asynchronous chat clients (examples/async-client.rs, which answers pings, and examples/ssl-client.rs, which answers pings and closes): at every moment such a program has printed the first of the messages received, in their order, and what it has written or buffered is, one correctly masked RFC 6455 frame each, an interleaving of its answers to the messages printed, in their order, and the first messages typed, in theirs; nothing is left out, doubled or reordered within either, and at most one further message is taken and waits for the sink. It is over exactly when the server's stream has ended cleanly and the user has typed \"/close\", and has then printed everything received, and written and flushed everything; a failure in receiving always ends it with that error, whatever the user does, with everything received before it printed; otherwise it waits, also after the connection has ended. A typed line is the next message taken or the one after it, however much is received. Two expectations fail: async-client.rs never answers a Close from the server although its comment says so, and a program's own Close need not be the last frame it sends (pongs follow it, and with ssl-client.rs a second Close).", "quantifier": "for all server byte streams, read, write and flush readiness schedules, typed lines and their times, mask keys and numbers of polls", "why_tests_cant": "the result depends on the interleaving of two streams, of partial writes and of wake-ups over unbounded runs", "anchors": ["examples/async-client.rs:16-79", "examples/ssl-client.rs:16-65"]}
{"id": "C80", "title": "A conversation of the asynchronous client with the asynchronous server shows the user what they are due, and ends unless both sides get stuck writing", "statement": "examples/async-client.rs and examples/async-server.rs, connected by a network that delivers bytes in order, in any pieces and after any delays, and has bounded room in each direction: whatever the schedule of the two tasks, of the network and of the user, the messages shown to the user are at every moment an initial part of: the greeting, an echo of each line typed before \"/close\" (a Pong for each \"/ping\"), and, after \"/close\", the server's Close; neither task ever fails. When the client ends, all of it has been shown, the server's task has ended too and nothing is left unread or under way. If what the user says, framed, is less than the network's room and the 8 KiB the client buffers, and \"/close\" is said, the client does end once everyone has had a number of turns linear in what is said. Without that condition it need not: each side stops reading while it cannot write, so both can wait for the other for ever.", "quantifier": "for all lists of lines (UTF-8, each at most 100 MiB), room of the network, mask keys, buffer capacities, and schedules of polls, deliveries and keystrokes", "why_tests_cant": "the outcome depends on the interleaving of two pollers, back-pressure on both sinks and arbitrary fragmentation; the deadlock needs a particular schedule with both buffers full", "anchors": ["examples/async-client.rs:17-80", "examples/async-server.rs:38-70", "websocket-base/src/codec/ws.rs:200-350"]}
{"id": "C81", "title": "The HTTP codecs, used on their own, carry any series of requests and responses in order", "statement": "A Framed transport with HttpServerCodec yields exactly the requests that were sent on the connection, and one with HttpClientCodec exactly the responses, in order and each as soon as its last byte is there, however the bytes are cut into chunks (several heads in one, or one head in several). A connection closed inside a head is an I/O error, a transport error is passed on with its kind, a head that does not parse is reported as an HTTP error after everything before it has been delivered, and whatever the bytes, nothing is delivered that is not in them; reading never panics or loops. What is sent through the sinks goes out as the texts of the items accepted, in order, and the other side reads back the same methods, targets, versions, statuses, reasons and fields. (Not so for other bytes: superfluous empty lines can lose a request depending on the chunks, and a head with more than 100 fields is dropped in silence, holding back the request that came with it.)", "quantifier": "for all series of requests and responses, chunkings, pauses and errors of the transport, sequences of sink operations and behaviours of the writing side", "why_tests_cant": "the number of heads, their sizes and the positions of the chunk boundaries are unbounded; boundaries inside CR LF CR LF and pipelined heads are exactly the cases an example misses", "anchors": ["src/codec/http.rs:62-115", "src/codec/http.rs:163-209", "src/codec/http.rs:211-222"]}
{"id": "C82", "title": "A slow peer holds the sender back instead of filling its memory", "statement": "On an asynchronous connection, and on a Framed transport with one of the HTTP codecs, less than 8 KiB plus one frame (or head), the largest offered, ever wait in the sender, however slow the transport is and whatever the task does. A frame is handed back as not ready only while at least 8 KiB still wait after an attempt to write them, and then nothing of it has been taken; on a transport that takes what it is given every frame that can be sent at all is taken at once.", "quantifier": "for all sequences of sink operations, frame sizes, behaviours of the transport and buffer capacities", "why_tests_cant": "the bound has to hold for every interleaving of sends and partial writes of a transport of any slowness; a test sees a few", "anchors": ["websocket-base/src/codec/ws.rs:151-172", "websocket-base/src/codec/ws.rs:329-346", "src/codec/http.rs:76-87", "src/codec/http.rs:173-181", "src/client/async.rs:65"]}
{"id": "C83", "title": "From connect to the last message: a client and a server of the library understand each other", "statement": "Take a client of the library, configured in any way that leaves the handshake's own fields alone, and a server of the library that picks any headers, adds any and sets any limits; either may be blocking or asynchronous. If each side's reads give what the other side writes, in any pieces, with any pauses, then connecting and accepting both succeed, the client has written exactly its request and the server exactly its response, every message either wants to send within the other's frame limit is reported as sent, and each receives exactly the messages the other sent, in order, none lost to the switch from HTTP to frames.", "quantifier": "for all four pairings of blocking and asynchronous ends, builder calls, keys, header choices, limits, lists of messages both ways, masking keys and transport schedules", "why_tests_cant": "a test fixes one configuration, one pairing, one way the bytes are cut; the statement is about all of them at once, including cuts where frames arrive together with the end of the head", "anchors": ["src/client/builder.rs:470-560", "src/client/builder.rs:767-812", "src/server/upgrade/sync.rs:60-100", "src/server/upgrade/async.rs:60-135", "src/client/sync.rs:200-330", "websocket-base/src/codec/ws.rs:205-346", "websocket-base/src/stream.rs:1-186"]}
{"id": "C84", "title": "The example client and the example server never get stuck, however little the network holds", "statement": "Between examples/client.rs (three threads) and examples/server.rs the network may hold as little as one byte in each direction, so that a write blocks until the other side has read. Still the client never gets an error, hears only the beginning of the conversation due, the server does not panic, client and server never wait for each other for ever: when nothing can happen any more the whole conversation has taken place and every thread is over; and this is reached within a bounded number of steps whenever everyone gets a turn again and again. The network never holds more than its room.", "quantifier": "for all lines typed (up to the message limit), masking keys, capacities of at least one byte, ways the bytes are cut on either end, and schedules of the threads, the server and the network", "why_tests_cant": "a deadlock of two blocked writers depends on buffer sizes and timing; tests run with kernel buffers far larger than their messages and see one schedule", "anchors": ["examples/client.rs:29-57", "examples/client.rs:59-90", "examples/client.rs:92-125", "examples/server.rs:21-45", "websocket-base/src/ws/sender.rs:14-35", "websocket-base/src/ws/receiver.rs:40-46"]}
{"id": "C85", "title": "A server in non-blocking mode does not make the program wait: not kept on Linux; elsewhere callers who are a moment late are turned away", "statement": "With set_nonblocking(true) the server is asked in a loop that does something else in between. Callers are met in the order in which they came, one in each round, nobody twice, nobody left out; with nobody there accept returns the listener's WouldBlock and no stream. Where accepted connections are non-blocking too (BSD, macOS, Windows) every round returns, a caller whose whole request is there is served as by a blocking server, and any other is turned away with what they had sent handed back and nothing of the rest lost. Where they are not (Linux) the other task goes on exactly as long as nobody is met who has not sent a whole request and stays on the line; then it is never done again. Both promises of the documentation are refuted: the other task can be stopped by a silent caller, and callers with a valid request can be turned away.", "quantifier": "for all sequences of rounds and callers, requests, chunkings, and ways the rest of a request arrives", "why_tests_cant": "the repository's test calls accept once with nobody there; what happens depends on when each caller's bytes arrive relative to the call, and on the platform", "anchors": ["src/server/sync.rs:41-81", "src/server/sync.rs:229-252", "src/server/sync.rs:273-300", "src/server/upgrade/sync.rs:178-207", "src/server/mod.rs:37-49"]}
{"id": "C86", "title": "The threaded chat client and the asynchronous server understand each other and never get stuck", "statement": "Between examples/client.rs (three threads, blocking) and examples/async-server.rs (one task that greets, echoes and closes) the network may hold as little as one byte in each direction. The client never gets an error, hears only the beginning of the conversation due (the greeting, an echo of each line, a pong for each \"/ping\", last a close), hears a close only if the user typed \"/close\", and the server's task fails in no way. Once the client's receive loop is over, the whole conversation has taken place and the server is over too. If the user types \"/close\" and everyone gets a turn again and again, both sides are over within a bounded number of rounds: unlike with examples/async-client.rs nobody gets stuck, since this client reads while it writes. The network never holds more than its room.", "quantifier": "for all lines typed (up to the message limit), masking keys, capacities of at least one byte, ways the bytes are cut on either end, spare capacities of the server's buffer, and schedules of the threads, the server's task and the network", "why_tests_cant": "each example is only ever run by hand against its own counterpart; whether a blocking and an event-driven side can end up waiting for each other depends on buffer sizes and timing", "anchors": ["examples/client.rs:29-57", "examples/client.rs:59-90", "examples/client.rs:92-125", "examples/async-server.rs:48-71", "websocket-base/src/codec/ws.rs:169-243"]}
{"id": "C87", "title": "The asynchronous chat client and the threaded server understand each other, and get stuck only when the client says too much at once", "statement": "Between examples/async-client.rs (one task that reads, prints and sends) and examples/server.rs (one blocking thread that greets, echoes and closes) the network holds a bounded number of bytes in each direction. What the client has shown its user is at any time the beginning of the conversation due: the greeting, an echo of each line typed before \"/close\", a pong for each \"/ping\", last the server's close. The client does not fail and the server does not panic. When the client's task ends, the whole conversation has been shown, the server has returned, and nothing is under way. If the user types \"/close\", if everyone gets a turn again and again, and if all that the user says (with 14 bytes for each line) stays below the room of the network plus the 8192 bytes the client's sink buffers, the client ends within a bounded number of rounds. Without that last condition there are conversations that come to a standstill: the client does not read while it waits to write, and the server does not read while it is in a write. The network never holds more than its room.", "quantifier": "for all lines typed (up to the message limit), masking keys, capacities, ways the bytes are cut on either end, spare capacities of the client's buffer, and schedules of the client's task, the server's thread, the user and the network", "why_tests_cant": "each example is only ever run by hand against its own counterpart, with a network that holds far more than is said; the standstill needs a particular combination of sizes and timing", "anchors": ["examples/async-client.rs:26-79", "examples/server.rs:24-45", "websocket-base/src/codec/ws.rs:169-243", "websocket-base/src/ws/receiver.rs:40-46"]}
{"id": "C88", "title": "A plain blocking client that sends and receives in a fixed order: when it gets through, and when it hangs", "statement": "A program uses a blocking client without threads: it calls send_message and recv_message in an order fixed beforehand, unwrapping every result, with the server of examples/server.rs at the other end and a network that holds a bounded number of bytes in each direction. What the program has received is at any time the beginning of the greeting and the answers to what it has sent so far. When it has come to its end it has received exactly as many messages as it asked for. An unwrap fails only if the program asks for more after the server's close, having received everything. If the order is such that it never asks for more than it is owed, and sends only when all that it is owed, or all that it has sent, has room in the network, it comes to its end within a bounded number of rounds. In particular sending and receiving by turns always works, however little the network holds; sending everything first works if all the answers, or all that is sent, has room. Otherwise sending everything first can hang for good: neither side reads while it is in a write. A program that asks for more than it is owed never comes to its end; if it has sent a Close, it fails instead of waiting for ever.", "quantifier": "for all messages up to the size limit, plans, masking keys, capacities, ways the bytes are cut on either end, and schedules of the program, the server's thread and the network", "why_tests_cant": "a test runs one order of calls against one operating system's socket buffers, which are much larger than what it sends; whether an order of calls can hang depends on sizes and timing that no test controls", "anchors": ["src/client/sync.rs:162-167", "src/client/sync.rs:192-194", "examples/server.rs:24-45", "websocket-base/src/ws/receiver.rs:40-46", "websocket-base/src/ws/sender.rs:28-35"]}
{"id": "C89", "title": "How much work a peer can cause with what it sends", "statement": "Every message a stream delivers comes out of one call of the decoder, and there are at most as many calls as the transport has something to read, plus one per message, plus two. A call costs at most the number of fragments that are kept at the time and 14 header bytes, and every byte received is consumed once; since at most 1048575 fragments are kept, the work is at most a constant per call and byte. If never more than k fragments of an unfinished message are waiting, the constant is k + 14; a peer that does not fragment causes work in proportion to what it sends and to the number of reads. Refuted with the default limits: a peer that sends n empty fragments of six bytes, one at a time, makes an asynchronous server add up about n*n/2 lengths (n up to 1048575), because all kept frames are summed at every call; with a Ping after each fragment a blocking server does the same, whatever the chunks. A blocking server parses the request anew with each read, but in total never more than 417792*417793/2 bytes, which a caller that sends the request byte by byte reaches in proportion to the square of its length; an asynchronous server searches all that has come at each read, which no factor of what was sent bounds.", "quantifier": "for all limits, contexts, byte streams, chunkings and pauses; all numbers of fragments below 2^20; all unfinished requests", "why_tests_cant": "tests check results, not how often the code looks at the same data; the cost shows only with adversarial chunking and a hundred thousand fragments, and a bound for every input cannot be sampled", "anchors": ["websocket-base/src/codec/ws.rs:112-148", "websocket-base/src/codec/ws.rs:279", "src/receiver.rs:131", "src/codec/http.rs:65-70", "src/server/upgrade/sync.rs:185-187"]}
{"id": "C90", "title": "The blocking code never flushes: what reaches the peer over a writer that buffers", "statement": "A blocking Client, Reader/Writer or upgrade works over any stream that is Read + Write, for instance a ReadWritePair whose writer is a BufWriter or a line-buffered Stdout. Every send succeeds, the frames are handed on complete and in order, and never more than one buffer of bytes is kept back; flushing the writer hands on the rest. But the library itself never flushes. As long as what is sent fits into the buffer of a BufWriter the peer gets nothing at all: not the messages, not the client's handshake request (while connect_on already waits for the response), not the server's response. A writer that flushes at line ends lets the two heads through, since they end with one, but of the messages keeps back whatever follows the last byte 0x0a. The asynchronous code does flush: when poll_complete reports that it is done everything has been written and the stream below has confirmed a flush after that.", "quantifier": "for all capacities, all buffer contents, all lists of sendable messages and masks, either role; for all requests and responses that can be printed; for all states of the asynchronous writer and all scripts of its stream", "why_tests_cant": "The project's tests send into a Cursor or a socket, which keep nothing back; how much arrives depends on the size of the buffer, on what is already in it, on the masking keys drawn and on where line feeds happen to fall in frames.", "anchors": ["websocket-base/src/stream.rs:9-64", "websocket-base/src/ws/dataframe.rs:53-92", "websocket-base/src/ws/sender.rs:17-35", "src/client/builder.rs:500-511", "src/server/upgrade/mod.rs:136-143"]}
{"id": "C91", "title": "RFC 6455 frame rules: which the library keeps, and which are left to the application", "statement": "Take the rules of RFC 6455 sections 5 and 7 for the sequence of frames an endpoint may send: reserved bits and opcodes unused, control frames whole and short, fragments in order with only control frames between them, text UTF-8, a close frame with no data or a code fit to be sent (7.4) and a UTF-8 reason, and nothing after it. Everything a receiver (blocking or asynchronous) accepts keeps to all of these but three, and says exactly the messages returned: the close code is not looked at, frames after a close are accepted, and the reserved bits and opcode of a fragment are looked at only when the message is complete. Conversely every sequence that keeps to the rules, or to any choice of these three, is received completely, within the limits. Messages sent keep to the rules, whatever they are, exactly if the application gives close messages only codes fit to be sent and sends nothing after one; otherwise to all but these two. Refuted: that the library by itself sends only conforming sequences, and that it refuses at once one that does not conform.", "quantifier": "for all byte streams in all chunkings with all transport behaviours, all frame sequences, all lists of messages and masks, both roles, all limits", "why_tests_cant": "The accepted language is infinite, and the claim is an equivalence with a specification of the RFC in both directions.", "anchors": ["src/receiver.rs:127-186", "websocket-base/src/ws/receiver.rs:36-46", "websocket-base/src/codec/ws.rs:278-326", "websocket-base/src/message.rs:189-230", "websocket-base/src/ws/sender.rs:17-35"]}
{"id": "C92", "title": "A plain blocking client with the asynchronous server: the server's own buffer makes room, up to a point", "statement": "A program uses a blocking client without threads, as in C88, but with the server of examples/async-server.rs at the other end. What the program has received is at any time the beginning of the greeting and the answers to what it has sent, each once and in order, and the server's task does not fail. A program that came to its end received exactly what it asked for; an unwrap fails only if it asks for more after the server's Close, having received everything. If it never asks for more than it is owed, and sends only when there is room for what it is owed (in the network, and in 8192 bytes of buffer in the server once its greeting is out) or for all it has sent, it comes to its end within a bounded number of rounds. So sending and receiving by turns always works; sending everything first works up to 8192 bytes beyond what the network holds, where the blocking server would already hang. Beyond that it can hang for good, and when the network is too small even for the greeting a single message can be enough.", "quantifier": "for all messages up to the size limit except Pongs, plans, masking keys, capacities, buffer sizes, ways the bytes are cut on either end, and schedules of the program, the server's task and the network", "why_tests_cant": "a test runs one order of calls over socket buffers far larger than what it sends; where the two sides start to wait for each other depends on the room in the network, on the sink's buffer and on timing, none of which a test controls", "anchors": ["src/client/sync.rs:162-194", "examples/async-server.rs:48-68", "websocket-base/src/codec/ws.rs:271-352"]}
{"id": "C93", "title": "What masking hides from an intermediary, and what it does not", "statement": "Whoever chooses the payload of a frame that a client of the library sends (RFC 6455, 10.3: a hostile script, say) does not choose the bytes on the wire. For any frame or message, any four bytes and any place in the frame behind the length field, exactly one of the 2^32 masking keys puts those bytes at that place, with the blocking and with the asynchronous client. So a chosen sequence of four bytes or more turns up anywhere behind the length field with at most as many keys as the payload has bytes, and one. What masking does not hide: the length field, through which the chooser can put any two bytes (from 126 up) on the wire whatever the key, and differences between bytes four apart, which are the same on the wire as in the payload.", "quantifier": "for all frames and messages, payloads, sequences, places, keys, and states of the transport or of the buffer before", "why_tests_cant": "a test sees the wire for a handful of keys; that no payload, however chosen, can fix the bytes on the wire for more than a few of 2^32 keys is a statement about all payloads and all keys", "anchors": ["websocket-base/src/ws/util/mask.rs:7-54", "websocket-base/src/ws/dataframe.rs:53-93", "websocket-base/src/codec/ws.rs:151-166", "websocket-base/src/ws/util/header.rs:35-75"]}
{"id": "C94", "title": "Two plain programs that talk to each other get through when what they say has room or is waited for, and hang when both say too much first", "statement": "Two programs use the blocking library the plain way, one with the client that a ClientBuilder gave it and one with the client that accept gave it; each sends and receives in an order laid down beforehand and unwraps every result. Whatever the two plans, no unwrap fails, and each program has received an initial part of what the other has begun to send, every message once and in order; a program that is done has received exactly the messages its plan asks for. If there is one order of all the deeds in which every message that is sent has room in the network or is just being waited for, both programs end under every fair schedule. In particular a script in which one speaks while the other listens always works, even with room for a single byte. If both send everything first and receive only then, they get through as soon as what one of them sends has room; if neither has, they hang for good under every schedule, and neither receives anything.", "quantifier": "all pairs of plans of any length with messages of up to 100 MiB, all capacities of the network, all masking keys, all interleavings of the two programs and the network, all ways the bytes are cut", "why_tests_cant": "A deadlock of two blocking programs depends on the sizes of messages, the buffers of the network and the timing; a test sees one schedule and one buffer size, and a test that does not finish does not tell that it never will.", "anchors": ["src/client/sync.rs:162-167", "src/client/sync.rs:192-194", "websocket-base/src/ws/receiver.rs:40-46", "websocket-base/src/ws/sender.rs:28-35", "src/server/upgrade/sync.rs:56-58"]}
{"id": "C95", "title": "To the programs at its ends, a connection is two queues of messages, and timing cannot be observed", "statement": "Two programs of any kind use the blocking library, one with the client that a ClientBuilder gave it and one with the client that accept gave it; each decides by what has happened to it so far whether to send_message or to recv_message next. Whatever happens to them could have happened with two plain queues of messages, where a control message over 125 octets is refused and anything else is delivered once, whole and in order: no bytes, keys, frames or network. Conversely every behaviour of queues that never hold more than the network has room for is a behaviour of the programs. Of any two runs, with whatever delays, cuts, masking keys and room in the network, what happens to a program in one is an initial part of what happens to it in the other; and all runs that come to rest with neither program in a write end alike. When nothing can happen any more, each program is done, waits for a message where there is none, or is in a write with the network full.", "quantifier": "all pairs of programs (functions of their past) that send messages of up to 100 MiB, all capacities, masking keys, interleavings and ways the bytes are cut", "why_tests_cant": "It quantifies over all programs and all pairs of schedules; a test shows one program under one timing and cannot show that another timing gives the same.", "anchors": ["src/client/sync.rs:162-167", "src/client/sync.rs:192-194", "websocket-base/src/ws/receiver.rs:40-47", "websocket-base/src/ws/sender.rs:28-35", "websocket-base/src/ws/dataframe.rs:53-93"]}
{"id": "C96", "title": "A handshake that is cut off says so, and loses nothing that had come; the four sides say it differently", "statement": "The peer goes away, or the connection breaks or times out, before the head of the handshake is complete. The blocking server then refuses the connection with exactly that I/O error, gives back the stream with nothing written to it, and the bytes that had come in its buffer; the blocking client fails with exactly that error after the request went out. The asynchronous server and client pass on the error of the transport; if the stream just ended they tell whether anything had come: nothing (a reset connection; 'Connection closed before handshake could complete.') or something (an I/O error of another kind), and the server gives back the bytes that had come. No side ever takes an incomplete head for a complete one. That the same mishap is told alike by the four is refuted.", "quantifier": "for all requests, responses and places to cut them, all ways the bytes arrive in pieces, all errors and pauses, all builders and writers", "why_tests_cant": "There is one place to cut for every byte of every head, times every way to deliver the bytes before it and every error; a test tries a handful.", "anchors": ["src/server/upgrade/sync.rs:178-207", "src/server/upgrade/async.rs:235-265", "src/client/builder.rs:767-812", "src/client/builder.rs:502-519", "src/codec/http.rs:65-105", "src/codec/http.rs:184-200"]}
{"id": "C97", "title": "From connect to the last message: the handshake always comes about, and leaves no trace in what the programs see", "statement": "A program calls connect_on with any sensibly configured builder, another calls into_ws and accepts, with any headers that can be written down; then both use their clients as they like, deciding by what has happened to them. Over a network that holds at most so many bytes in either direction, neither call of the handshake ever fails, and as long as anything is missing of it something can happen: when nothing can, both programs have their connection and each is done, waits where there is nothing, or is in a write with the network full. What happens to the programs could have happened with two queues of messages: a message that comes in the same read as the end of the response is not lost, and nothing of a head comes out as a message. Conversely everything that queues within the room can do happens in some run. What a program sees does not depend on the builder, the headers, the keys, the network or the timing: of any two runs one is an initial part of the other, also if the handshake is left out.", "quantifier": "for all builders and headers as described, all pairs of programs that send messages of up to 100 MiB, all capacities from one byte, masking keys, interleavings and ways the bytes are cut", "why_tests_cant": "The end of the handshake can fall into any read in as many ways as there are schedules and capacities; a test over loopback sees a few of them, with one program on either side.", "anchors": ["src/client/builder.rs:502-519", "src/client/sync.rs:137-151", "src/server/upgrade/sync.rs:56-97", "src/server/upgrade/sync.rs:178-207", "websocket-base/src/ws/receiver.rs:40-47"]}
{"id": "C98", "title": "The blocking and the asynchronous client cannot be told apart by the programs that use them", "statement": "Take two programs at the ends of a connection, each deciding what to say or whether to hear next from what has happened to it so far, and give each of them either the blocking client or the asynchronous one. To the programs the connection is two queues of messages: a message that can be sent is appended to one, a control message of more than 125 octets is refused and leaves no trace, and hearing takes the oldest message from the other. Whatever happens in some run could have happened with the queues; whatever could happen with the queues, within the room of the network, happens in some run with any choice of clients; of any two runs, with any choice of clients, what happens to a program in one is an initial part of what happens to it in the other; and a run that ends with nobody in the middle of saying something ends the same way for every choice of clients, room, delays, keys and polls.", "quantifier": "for all pairs of programs that send valid messages up to the limits, all four choices of clients, all capacities of the network, all splittings and delays of bytes, all masking keys, all allocator slack, and all orders of polls and system calls", "why_tests_cant": "A test runs one program with one kind of client in one timing. That exchanging a client for the other kind changes nothing for any program whatever is a statement about all programs, all four combinations and all schedules at once.", "anchors": ["src/client/sync.rs:162-194", "src/client/async.rs:65", "websocket-base/src/codec/ws.rs:278-343", "websocket-base/src/ws/receiver.rs:40-47", "websocket-base/src/ws/sender.rs"]}
{"id": "C99", "title": "A connection that a program ends is heard to its last message and then ends, for every program, kind of client and timing", "statement": "Take two programs at the ends of a connection, each with the blocking client or the asynchronous one, each deciding what to do next from what has happened to it so far, and let a program that has nothing more to do shut down its sending side. To the programs the connection is two queues of messages with an end: hearing from an empty queue whose writer is done reports the end, and only then. When a program is told of the end its partner is done, and what the program has heard by then is exactly what its partner has said, in order; it may still say things itself. Nobody is left waiting for a program that is done. Whatever happens in some run could have happened with such queues and the other way round; no program can tell timings or kinds of client apart by when and how the connection ends; and a run that ends with nobody in the middle of saying something ends the same way in every other run.", "quantifier": "for all pairs of programs that send valid messages up to the limits, all four choices of clients, all capacities of the network, all splittings and delays of bytes and of the end of file, all masking keys, all allocator slack, and all orders of polls and system calls", "why_tests_cant": "The dangerous cases are interleavings: the end of file arriving with unread bytes in the client's buffer, in the middle of a message, or after an earlier poll found nothing. A test sees a few of them; that no program loses a message or waits for ever in any of them is a statement about all schedules and all programs.", "anchors": ["src/client/sync.rs:68-70", "src/sender.rs:51-53", "src/client/sync.rs:162-194", "src/client/async.rs:65", "websocket-base/src/codec/ws.rs:278-343", "websocket-base/src/ws/receiver.rs:40-47"]}
{"id": "C100", "title": "A connection that breaks loses an end, never a middle", "statement": "Two programs talk over a connection, each with a blocking or an asynchronous client. At any moment either direction may break: the bytes under way are lost from some byte on (in the middle of a frame, of a header or of a masking key, or not at all), and so is all that is written to it later. Then (1) the messages a program has heard are at every moment the first of those its partner has said, in order, none altered, repeated, skipped or invented; (2) a program is told that there is nothing more (an error from recv_message, None or an error from the stream) only if the direction to it is broken, and afterwards it never hears another message; (3) no program waits for ever on a broken direction: where nothing can happen any more, a program that waits to hear waits on a direction that is not broken and has heard every message its partner finished, and one that waits to write has a full network before it that is not broken; (4) where the writer was not in the middle of a message at the break, the reader, when it is told of the end, has heard exactly those of the messages said before of which no byte was lost; all of them, if nothing under way was lost.", "quantifier": "all pairs of programs that send valid messages up to the limits (any functions of what has happened to them), all four combinations of client kinds, every capacity of the network, every schedule of turns, writes, reads and polls, all masking keys, every moment and extent of a break of either direction or both", "why_tests_cant": "A break can fall between any two bytes of any frame at any state of two buffers on either side; tests break connections at a few convenient places, and a reader that makes a short message out of a cut frame, or goes on after a hole, shows only at particular ones.", "anchors": ["src/client/sync.rs:68-70", "src/sender.rs:51-53", "src/client/sync.rs:162-194", "src/client/async.rs:65", "websocket-base/src/codec/ws.rs:278-343", "websocket-base/src/ws/receiver.rs:40-47"]}
{"id": "C101", "title": "To the programs at its ends, a connection that breaks in the middle of any byte is two queues of messages that break between messages", "statement": "Two programs talk over a connection, each with a blocking or an asynchronous client, and at any moment either direction may break at any byte. What happens to the two programs, taken together (what each says, hears and is told, and in which order), could always have happened with two queues of messages, either of which may break: then all but the first so many of its messages are lost, with all that is said later, and the reader is told of the end when it has heard the rest. Conversely, whatever can happen with such queues, as long as they never hold more than the network has room for, happens in some run. So bytes, frames, masking, buffers, the sizes of reads and writes and the kinds of the clients cannot be seen, not even through a connection that breaks.", "quantifier": "all pairs of programs that send valid messages up to the limits (any functions of what has happened to them), all four combinations of client kinds, every capacity of the network, every schedule of turns, writes, reads and polls, all masking keys, every moment and extent of a break of either direction or both", "why_tests_cant": "The claim is about the joint history of two arbitrary programs over all schedules and all places of a break; a test runs two particular programs on one schedule.", "anchors": ["src/client/sync.rs:68-70", "src/sender.rs:51-53", "src/client/sync.rs:162-194", "src/client/async.rs:65", "websocket-base/src/codec/ws.rs:278-343", "websocket-base/src/ws/receiver.rs:40-47"]}
{"id": "C102", "title": "A connection that is refused can be used for something else: kept by the blocking server; the asynchronous one loses a head it cannot parse", "statement": "InvalidConnection is documented as all that is recovered from a failed handshake, in case one wants to use the connection for something else, such as HTTP. When the blocking server refuses a connection nothing has been written to it, and nothing that came is lost: either there is the request, which stands for exactly the bytes of its head, and the buffer and then the stream go on right after them; or there is none, and the buffer and then the stream hold everything that came, except for the end or the failure of the stream if that is the reported error. The asynchronous server writes nothing either, and with a request it gives back everything after its head. That it loses nothing is refuted: when the parser refuses the head there is no request and the head is in neither buffer nor stream. A connection that begins with the HTTP/2 preface comes back with only its last six bytes.", "quantifier": "blocking: for every stream of bytes, ends and errors in any pieces, every writer and every refusal; asynchronous: for every head ending in its first empty line, every way its bytes arrive and everything after it", "why_tests_cant": "Every stream, cut in every way, and every reason to refuse; the tests of the repository never use what a refused connection gives back.", "anchors": ["src/server/mod.rs:30-52", "src/server/sync.rs:230-252", "src/server/upgrade/sync.rs:178-207", "src/server/upgrade/async.rs:235-265", "src/codec/http.rs:94-112", "src/codec/http.rs:188-206"]}
{"id": "C103", "title": "A request that another server has read is upgraded as if the library had read it", "statement": "A program with an HTTP server of its own hands a request it has read to the library, as a RequestStreamPair (the stream goes on after the head) or as a HyperRequest (the server's buffer, with what it has read beyond the head, and then the stream go on after it). The library does what it would have done on a connection it had read from the start: it refuses for the same reason, and gives back the stream, the request and the buffer as they were; or it offers the upgrade of the same request, and when that is accepted, in any of the ways, the same bytes are written, the client has the same headers, and every sequence of sending and receiving gives the same results and writes the same bytes.", "quantifier": "for every request head of at most 100 fields and 417792 bytes, everything that comes after it, every division of that between the other server's buffer and the stream, every way the bytes arrive on either, every writer, custom headers and limits, every sequence of uses of the client", "why_tests_cant": "It compares two ways to enter the library over all requests, all continuations and all programs using the resulting clients; the repository has no test for either of these ways.", "anchors": ["src/server/upgrade/sync.rs:178-207", "src/server/upgrade/sync.rs:209-227", "src/server/upgrade/sync.rs:271-297", "src/server/upgrade/sync.rs:83-97"]}
