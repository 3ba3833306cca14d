{"id": "C01", "title": "Arrow framing reassembles every message stream exactly", "statement": "If any sequence of Arrow messages (service < 2^16, session < 2^24, payload < 2^32 bytes) is encoded, concatenated, and delivered to the receiving codec cut into chunks at arbitrary positions, the codec returns exactly those messages, in order, each exactly once, and an incomplete trailing frame stays buffered untouched.", "quantifier": "every list of well-formed messages, every way of cutting the byte stream into chunks (including empty chunks), every incomplete tail", "why_tests_cant": "the number of message lists times chunkings is unbounded; tests try a handful of cuts", "anchors": ["src/net/arrow/proto/codec.rs: ArrowCodec::decode/encode", "src/net/arrow/proto/msg/mod.rs: ArrowMessage::encode/decode, ArrowMessageHeader::from_bytes"]}
{"id": "C02", "title": "Receiving side does not depend on how TCP segments the stream", "statement": "For any byte stream whatsoever (also malformed ones), the messages returned, the point at which a protocol error is reported and the bytes left unread are the same for every way of cutting the stream into chunks.", "quantifier": "every byte string, every chunking", "why_tests_cant": "malformed streams and chunk boundaries form an infinite product", "anchors": ["src/net/arrow/proto/codec.rs: ArrowCodec::decode", "src/net/arrow/proto/msg/mod.rs: ArrowMessage::decode"]}
{"id": "C03", "title": "Frames of another protocol version are refused and consume nothing", "statement": "Whenever at least one whole header is buffered, the codec reports an error if and only if the version byte is not 2, and then leaves the buffer unchanged; it asks for more data iff the header or the announced payload is incomplete; otherwise it consumes exactly 11 + size bytes. Session IDs of received frames always fit in 24 bits.", "quantifier": "every buffer content", "why_tests_cant": "needs all header values and buffer lengths", "anchors": ["src/net/arrow/proto/msg/mod.rs: ArrowMessageHeader::from_bytes, ArrowMessage::decode"]}
{"id": "C04", "title": "A payload of any length survives the wire", "statement": "Encoding a message and decoding the result gives back the message for payloads of every length.", "quantifier": "every message, no bound on payload length", "why_tests_cant": "the failing size (2^32 bytes) is out of reach of a unit test", "anchors": ["src/net/arrow/proto/msg/mod.rs: ArrowMessage::encode (payload.len() as u32)"]}
{"id": "C05", "title": "Control messages round-trip", "statement": "Every ACK, CONNECT, DATA_ACK, REDIRECT, HUP and bodyless control message, with any field values in range, is decoded from its encoding to the same type, message ID and fields; conversely every byte string accepted by the control decoder is exactly the encoding of what was decoded.", "quantifier": "every control message value; every byte string", "why_tests_cant": "all field values and all byte strings", "anchors": ["src/net/arrow/proto/msg/control/mod.rs: ControlMessage::from_bytes/encode", "src/net/arrow/proto/msg/control/ack.rs", "src/net/arrow/proto/msg/control/connect.rs", "src/net/arrow/proto/msg/control/data_ack.rs", "src/net/arrow/proto/msg/control/hup.rs", "src/net/arrow/proto/msg/control/redirect.rs", "src/net/arrow/proto/msg/control/register.rs", "src/net/arrow/proto/msg/control/status.rs", "src/net/arrow/proto/msg/control/svc_table.rs", "src/net/arrow/proto/msg/control/update.rs"]}
{"id": "C06", "title": "The control decoder is total and accepts exactly the documented messages", "statement": "For every byte string the control decoder returns a message or an error and never panics; it accepts exactly the strings of at least 4 bytes whose type is one of the types a server may send and whose body has that type's exact shape; REGISTER, UPDATE, STATUS, SCAN_REPORT and unknown types are always refused.", "quantifier": "every byte string", "why_tests_cant": "exhaustive over inputs", "anchors": ["src/net/arrow/proto/msg/control/mod.rs: ControlMessageHeader::message_type, decode_body, ControlMessage::from_bytes"]}
{"id": "C07", "title": "Announced lengths equal the bytes written", "statement": "For every control message the client can build (REGISTER and UPDATE with any service table, STATUS, SCAN_REPORT with any scan result, HUP, DATA_ACK, ACK, REDIRECT, PING) the length it reports equals the number of bytes its encoder writes.", "quantifier": "every message body, every service table, every scan result", "why_tests_cant": "tables and strings of any size", "anchors": ["src/net/arrow/proto/msg/control/ack.rs: len, encode", "src/net/arrow/proto/msg/control/connect.rs: len, encode", "src/net/arrow/proto/msg/control/data_ack.rs: len, encode", "src/net/arrow/proto/msg/control/hup.rs: len, encode", "src/net/arrow/proto/msg/control/redirect.rs: len, encode", "src/net/arrow/proto/msg/control/register.rs: len, encode", "src/net/arrow/proto/msg/control/status.rs: len, encode", "src/net/arrow/proto/msg/control/svc_table.rs: len, encode", "src/net/arrow/proto/msg/control/update.rs: len, encode", "src/net/arrow/proto/msg/control/scan_report/mod.rs: len, encode", "src/net/arrow/proto/msg/control/scan_report/host_table.rs: len, encode"]}
{"id": "C08", "title": "The service can recover the announced service table", "statement": "An independent reader of the table format (29-byte entries followed by a NUL-terminated path, ended by the control entry) recovers from the table bytes in REGISTER and UPDATE exactly the set of visible services with their IDs, types, MACs, addresses and paths, whatever order the table is iterated in, provided no path contains a NUL byte and the table does not itself contain an entry with ID 0; with a NUL in a path the recovered table can differ.", "quantifier": "every service table (any size, any iteration order)", "why_tests_cant": "iteration order of a hash map and table size are unbounded", "anchors": ["src/net/arrow/proto/msg/control/svc_table.rs: Element::encode, SimpleServiceTable::encode", "src/net/arrow/proto/msg/control/update.rs"]}
{"id": "C09", "title": "The service can recover every REGISTER field", "statement": "An independent reader recovers UUID, key, MAC, window size, gateway flag, extended info and service table from every REGISTER message with window in 1..65536 and NUL-free strings; building a REGISTER with a window outside that range is refused (panic), never sent truncated.", "quantifier": "every field value, every table", "why_tests_cant": "all field values", "anchors": ["src/net/arrow/proto/msg/control/register.rs", "src/net/arrow/proto/msg/control/mod.rs: register"]}
{"id": "C10", "title": "Scan reports list every host with all of its ports", "statement": "An independent reader recovers from a SCAN_REPORT the request ID, every scanned host with flags, MAC, IP and all of its open ports, and exactly those scanned services that have an ID in the service table.", "quantifier": "every scan result and service table", "why_tests_cant": "port sets up to 65536 elements and arbitrary host counts", "anchors": ["src/net/arrow/proto/msg/control/scan_report/host_table.rs", "src/net/arrow/proto/msg/control/scan_report/mod.rs"]}
{"id": "C11", "title": "Message IDs repeat only after 65536 messages", "statement": "Whatever mix of control messages is created by the client and its sessions, two messages that consume an ID get the same ID only if their creation numbers differ by a multiple of 65536, and ACKs always echo the ID they acknowledge without consuming one.", "quantifier": "every sequence of message creations by the shared factory and its clones", "why_tests_cant": "wrap-around only shows after 65536 operations", "anchors": ["src/net/arrow/proto/msg/control/mod.rs: ControlMessageFactory"]}
{"id": "C12", "title": "Reserved session-ID bits never reach the wire and never matter", "statement": "Session IDs are 24 bits wide: the reserved upper 8 bits are zero in everything the client sends, and setting them in a received message does not change which session is addressed.", "quantifier": "every received control or data message, every session ID value", "why_tests_cant": "needs all 2^32 field values in every message type", "anchors": ["src/net/arrow/proto/msg/control/connect.rs", "src/net/arrow/proto/msg/control/hup.rs", "src/net/arrow/proto/msg/control/data_ack.rs", "src/net/arrow/proto/msg/mod.rs"]}
{"id": "C13", "title": "Data for a service is delivered in order, unmodified, without gaps", "statement": "At every moment the bytes written to the service's socket are a prefix of the concatenation of the payloads the session accepted from the Arrow service, and the rest of that concatenation is exactly what is buffered.", "quantifier": "every interleaving of incoming messages, acks, partial writes, partial reads, errors and closes", "why_tests_cant": "arbitrary interleavings of two tasks with partial I/O", "anchors": ["src/net/arrow/session.rs: SessionContext::push_output_message, poll_write_output"]}
{"id": "C14", "title": "Data from a service is forwarded in order, unmodified, without gaps", "statement": "At every moment the concatenation of the data messages sent for the session followed by what is still buffered equals the bytes read from the service's socket; every data message is non-empty and carries the session's own service and session IDs.", "quantifier": "every interleaving of reads, polls, acks, errors and closes", "why_tests_cant": "arbitrary interleavings", "anchors": ["src/net/arrow/session.rs: SessionContext::take_arrow_message, poll_read_input"]}
{"id": "C15", "title": "The client never overruns the server's receive window", "statement": "For every session, bytes sent to the Arrow service minus bytes acknowledged by it never exceed the window (65536), at every point of every execution.", "quantifier": "every interleaving and every sequence of DATA_ACK values", "why_tests_cant": "long interleavings with acks of arbitrary size", "anchors": ["src/net/arrow/session.rs: process_data_ack, take_arrow_message"]}
{"id": "C16", "title": "Acknowledgements are exact and the client's buffer is bounded", "statement": "For every session the total acknowledged by DATA_ACK messages plus the not yet acknowledged written bytes equals the bytes written to the service, the output buffer plus unacknowledged written bytes plus remaining capacity always equals the window, and a message that exceeds the remaining capacity is not buffered at all but closes the session with an error.", "quantifier": "every interleaving of incoming data, partial writes and polls", "why_tests_cant": "arbitrary interleavings", "anchors": ["src/net/arrow/session.rs: push_output_message, take_data_ack, poll_write_output"]}
{"id": "C17", "title": "No lost wake-up between a session and the connection task", "statement": "Whenever the connection task went to sleep on a session, that session has nothing to report (no data within the window, no ack due, not closed); every event that makes it ready wakes the task.", "quantifier": "every interleaving of session events", "why_tests_cant": "lost wake-ups are schedule dependent", "anchors": ["src/net/arrow/session.rs: session_manager_task handling"]}
{"id": "C18", "title": "No lost wake-up of the transport task", "statement": "Whenever the transport task of a session sleeps, the session is open and it is waiting for the socket or for the peer: either the input buffer is full or the socket had nothing to read, and either nothing is to be written or the socket was not writable; every event that changes this wakes it.", "quantifier": "every interleaving of session events", "why_tests_cant": "schedule dependent", "anchors": ["src/net/arrow/session.rs: SessionTransport::poll, session_transport_task handling"]}
{"id": "C19", "title": "Everything a service sent before closing reaches the Arrow service", "statement": "When a service closes its connection, all bytes it sent before are forwarded before the session is hung up.", "quantifier": "every execution in which the service closes the connection", "why_tests_cant": "depends on window state at the moment of the close", "anchors": ["src/net/arrow/session.rs: take_arrow_message, poll_read_input", "src/net/arrow/session.rs: Session::close doc comment"]}
{"id": "C20", "title": "Data accepted before a hang-up is flushed to the service", "statement": "Payload accepted by a session before the Arrow service hangs the session up is still written to the service (as the doc comment of Session::close says).", "quantifier": "every execution in which the server hangs up", "why_tests_cant": "depends on the schedule of the transport task", "anchors": ["src/net/arrow/session.rs: Session::close, SessionTransport::poll"]}
{"id": "C21", "title": "Each session ends with exactly one hang-up", "statement": "A session that ends on the client's side (service EOF, I/O error, connect failure, capacity violation) produces exactly one HUP for it, with error code 0 for EOF and 3 otherwise, and no message of that session after it; a session hung up by the server produces no HUP and no further message.", "quantifier": "every sequence of session-manager events", "why_tests_cant": "all event orders", "anchors": ["src/net/arrow/session.rs: SessionManager::poll_next, close, connect"]}
{"id": "C22", "title": "Live sessions are always scheduled and served round-robin", "statement": "Every live session is always in the polling order, so a session with something to send is served after at most as many messages as there are polling entries; with session IDs that are not reused before the next poll, each session appears exactly once.", "quantifier": "every sequence of connects, closes, polls", "why_tests_cant": "histories of any length; needs an invariant", "anchors": ["src/net/arrow/session.rs: SessionManager::poll_next, connect, close"]}
{"id": "C23", "title": "Connections are opened only to permitted services", "statement": "The client opens a network connection only in response to a CONNECT for an ID that resolves to a currently visible service with an address, to exactly that address, and with gateway mode disabled only to loopback addresses; in all other cases it answers with HUP(3) and opens nothing.", "quantifier": "every service table, every CONNECT, every mode", "why_tests_cant": "all tables, IDs and addresses", "anchors": ["src/net/arrow/session.rs: SessionManager::connect_inner", "src/svc_table/mod.rs: ServiceTableData::get"]}
{"id": "C24", "title": "Sessions do not interfere with each other", "statement": "Events addressed to one session ID (data, ack, hang-up, duplicate CONNECT) never change the state of another session, and a CONNECT for an ID in use does not disturb the existing session.", "quantifier": "every manager state and event", "why_tests_cant": "all states", "anchors": ["src/net/arrow/session.rs: SessionManager::send, close, process_data_ack, connect"]}
{"id": "C25", "title": "Nothing but the REGISTER acknowledgement is honoured before registration", "statement": "Until the REGISTER message is acknowledged with code 0, every message other than that ACK ends the connection with an error; before that no connection to a service is opened, no command is executed, and nothing but the REGISTER message has been sent.", "quantifier": "every sequence of received messages and timer ticks", "why_tests_cant": "all message sequences", "anchors": ["src/net/arrow/mod.rs: ArrowClientContext::process_*"]}
{"id": "C26", "title": "Registration verdicts are reported faithfully", "statement": "The ACK code of REGISTER alone decides the outcome: 0 established, 1 unsupported protocol version, 2 unauthorized, 0xffffffff server error, anything else a generic error; in diagnostic mode success ends the connection.", "quantifier": "every ACK code", "why_tests_cant": "all 2^32 codes", "anchors": ["src/net/arrow/mod.rs: process_handshake_ack"]}
{"id": "C27", "title": "Acknowledgements must arrive in order", "statement": "At any time the set of outstanding acknowledgements is exactly the REGISTER/PING messages sent and not yet acknowledged, oldest first; an ACK is accepted iff it carries the ID of the oldest one, otherwise the connection ends with an error.", "quantifier": "every history of sends, received messages and ticks", "why_tests_cant": "all histories", "anchors": ["src/net/arrow/mod.rs: process_ack_message, send_unconfirmed_control_message"]}
{"id": "C28", "title": "A silent server is detected", "statement": "With the watchdog ticking every second, if a REGISTER or PING stays unacknowledged for 20 seconds the connection ends with a connection error at the next tick and not before; in an established connection a PING is sent at the first tick at least 60 seconds after the previous one, so a dead peer is noticed within 60+20 seconds plus tick latency.", "quantifier": "every tick schedule and message history", "why_tests_cant": "real time, all schedules", "anchors": ["src/net/arrow/mod.rs: time_event, ack_timeout, ArrowClient::new watchdog"]}
{"id": "C29", "title": "Service table changes reach the server", "statement": "When the set of visible services changes while connected, then at the first tick at least five seconds after the last check an UPDATE carrying the then visible set is queued; no UPDATE is queued if nothing changed since the last announcement.", "quantifier": "every history of table updates, ticks and messages, including updates racing with the announcement", "why_tests_cant": "races and version wrap-around", "anchors": ["src/net/arrow/mod.rs: check_for_updates, send_update_message", "src/svc_table/mod.rs: visible_set_version"]}
{"id": "C30", "title": "A service-table reset reaches the connected server", "statement": "After the service table was reset (RESET_SVC_TABLE command or rescan_network()), an established connection announces the new table and resolves CONNECTs against it.", "quantifier": "every history containing a reset", "why_tests_cant": "needs the sharing structure of the table handles", "anchors": ["src/config.rs: reset_service_table", "src/svc_table/mod.rs: SharedServiceTable::clone/get_ref", "src/net/arrow/mod.rs: ArrowClientContext::new"]}
{"id": "C31", "title": "Redirect and close are final", "statement": "After a REDIRECT (or after the client was closed) the connection sends nothing more, ignores everything received, opens no sessions, and the connect call returns the redirect target.", "quantifier": "every state and every later message sequence", "why_tests_cant": "all continuations", "anchors": ["src/net/arrow/mod.rs: is_closed, process_redirect_message, poll_next, connect"]}
{"id": "C32", "title": "Server requests get the matching answer", "statement": "In an established connection each PING is answered by exactly one ACK with the same ID and code 0, each GET_STATUS by one STATUS echoing the request ID with the scanning bit and the number of sessions, each GET_SCAN_REPORT by one SCAN_REPORT echoing the request ID; answers leave in the order of the requests and ahead of session data.", "quantifier": "every sequence of requests", "why_tests_cant": "all sequences", "anchors": ["src/net/arrow/mod.rs: process_ping_message, process_get_status_message, process_get_scan_report_message, poll_next"]}
{"id": "C33", "title": "Service table stays consistent under any history", "statement": "After any sequence of additions (dynamic or static), activity refreshes and lookups: IDs are unique, each service identity has exactly one ID, ID 0 is the control protocol and nothing else, every stored service is found under its ID and its identity, and no operation panics as long as fewer than 65535 services were added.", "quantifier": "every operation sequence and every hash function", "why_tests_cant": "hash collisions and probing over all histories", "anchors": ["src/svc_table/mod.rs: ServiceTableData"]}
{"id": "C34", "title": "Service IDs are stable", "statement": "Once a service identity (type, MAC, port, path) has an ID, it keeps that ID for the lifetime of the table whatever is added later, also when its IP address changes, and the ID is never given to another service.", "quantifier": "every operation sequence", "why_tests_cant": "all histories", "anchors": ["src/svc_table/mod.rs: add_service, update_element", "src/svc_table/service.rs: ServiceIdentifier"]}
{"id": "C35", "title": "Table versions track changes", "statement": "If between two moments the visible set (IDs, services) differs then the visible-set version differs, and if the stored services differ then the table version differs, as long as fewer than 2^32 changes happened in between; if nothing changes the versions do not change.", "quantifier": "every operation sequence", "why_tests_cant": "wrap-around needs 2^32 operations", "anchors": ["src/svc_table/mod.rs: update_element, update_active_services, add_service"]}
{"id": "C36", "title": "Discovered services expire after 20 minutes unseen, static ones never", "statement": "After a refresh at time t, a discovered service is visible iff it was last seen at t-1200 or later, a static service is visible iff it was configured in this run, independently of time; lookups by ID return exactly the visible services and the control service.", "quantifier": "every table, every time", "why_tests_cant": "all times and histories", "anchors": ["src/svc_table/mod.rs: ServiceTableElement::is_visible, update_active_flag, get, visible"]}
{"id": "C37", "title": "A service seen again becomes visible again", "statement": "Adding a service makes it visible immediately.", "quantifier": "every table state, every service", "why_tests_cant": "depends on the earlier history of the entry", "anchors": ["src/svc_table/mod.rs: ServiceTableElement::update, SharedServiceTable::add, add_static"]}
{"id": "C38", "title": "Service table survives save and restart", "statement": "Writing the table and reading it back restores every service with the same ID, identity, address, static flag, activity flag and last-seen time; restored static services are hidden until they are configured again.", "quantifier": "every consistent table", "why_tests_cant": "all tables, field values", "anchors": ["src/svc_table/mod.rs: to_json/from_json"]}
{"id": "C39", "title": "Client identity survives a crash at any point", "statement": "Once the client has started with some UUID and password, then whatever happens later (updates, saves, crash in the middle of any file write, restart), the next successful start uses the same UUID and password.", "quantifier": "every operation history and every crash point", "why_tests_cant": "crash points inside writes", "anchors": ["src/storage.rs: load_configuration, save_configuration, save_configuration_file", "src/config.rs: PersistentConfig"]}
{"id": "C40", "title": "Configuration writes are neither missed nor wasted", "statement": "After every scan the configuration is written iff the stored services changed or (unless flash-friendly mode is on) the visible set changed; each write carries a version one higher than the previous write and the current table.", "quantifier": "every sequence of scans and resets", "why_tests_cant": "all histories", "anchors": ["src/config.rs: update_service_table, reset_service_table, save"]}
{"id": "C41", "title": "The --flash-friendly option takes effect", "statement": "Starting the client with --flash-friendly enables flash-friendly mode; more generally every recognised option ends up in the running configuration and every unrecognised option is refused.", "quantifier": "every command line", "why_tests_cant": "all command lines", "anchors": ["src/config.rs: ConfigParser::parse, ConfigParser::build"]}
{"id": "C42", "title": "The default port is appended correctly", "statement": "The address handed to the connector is the given address if it already carries a port and otherwise the given address with :8900 appended, for host names, IPv4 and bracketed IPv6 addresses.", "quantifier": "every address string", "why_tests_cant": "all strings", "anchors": ["src/config.rs: ConfigParser::arrow_service_address"]}
{"id": "C43", "title": "Reconnection is paced", "statement": "Consecutive connection attempts after failures other than 'unauthorized' start at least 59.5 seconds apart, and always at the configured address; after a redirect the next attempt goes to the redirect target at once.", "quantifier": "every sequence of connection outcomes and durations", "why_tests_cant": "all outcome sequences and clocks", "anchors": ["src/client.rs: ArrowMainTask::connect, process_result, process_connection_error, wait_for_retry"]}
{"id": "C44", "title": "Pairing window", "statement": "While unauthorized, the client retries every 10 s during the first 10 minutes after start, every 30 s during the next 10 minutes and then never again; an unsupported protocol version stops it for good.", "quantifier": "every outcome sequence and clock", "why_tests_cant": "all schedules", "anchors": ["src/client.rs: process_connection_error"]}
{"id": "C45", "title": "Connection state is reported truthfully", "statement": "The reported state is Connected only while a registered connection exists, Unauthorized after an unauthorized verdict and Disconnected otherwise.", "quantifier": "every outcome sequence", "why_tests_cant": "all sequences", "anchors": ["src/client.rs: ArrowMainTask::connect, process_result"]}
{"id": "C46", "title": "Diagnostic mode verdict", "statement": "In diagnostic mode the process exits after the first attempt, with status 0 iff the Arrow service answered the registration with success or 'unauthorized' (or redirected), else 1.", "quantifier": "every outcome", "why_tests_cant": "process exit", "anchors": ["src/client.rs: process_result, diagnose_connection_result"]}
{"id": "C47", "title": "At most one network scan at a time, with spacing", "statement": "At any time at most one scan runs; requests during a scan are dropped; a periodic scan starts only if none was completed in the last 300 seconds.", "quantifier": "every sequence of commands, completions and times", "why_tests_cant": "all schedules", "anchors": ["src/cmd_handler.rs: scan_network, periodic_network_scan, scan_completed"]}
{"id": "C48", "title": "Scanning always recovers", "statement": "After any scan, successful or failed, the client returns to the not-scanning state and further scan requests are served.", "quantifier": "every scan outcome including a crash of the scanning thread", "why_tests_cant": "depends on panics in the scanner thread", "anchors": ["src/cmd_handler.rs: scan_network, network_scanner_thread"]}
{"id": "C49", "title": "Closing the client stops its background tasks", "statement": "After close() the connection task, the periodic-scan task and the command-handler task all terminate.", "quantifier": "every history", "why_tests_cant": "task lifetime depends on channel ownership", "anchors": ["src/client.rs: ArrowClient::close", "src/cmd_handler.rs: CommandHandler, CommandHandlerContext"]}
{"id": "C50", "title": "Every listener sees every state change, in order", "statement": "Each registered listener is notified of every connection-state and scanner-state change after its registration, exactly once and in the order of the changes.", "quantifier": "every interleaving of state changes and listener registrations", "why_tests_cant": "needs thread interleavings", "anchors": ["src/context.rs: set_connection_state, set_scanning, add_event_listener(s)"]}
{"id": "C51", "title": "URL parsing loses nothing", "statement": "For every accepted URL the components (scheme, user, password, host, port text, path, query, fragment) reassemble to exactly the original string, and parsing never panics on any string.", "quantifier": "every string", "why_tests_cant": "all strings", "anchors": ["src/net/url.rs: Url::from_str and accessors"]}
{"id": "C52", "title": "Line reading does not depend on packet boundaries", "statement": "The HTTP/RTSP line reader returns exactly the CR LF separated lines of the stream for every chunking; a line is refused iff it does not end within the configured maximum length.", "quantifier": "every byte stream and chunking", "why_tests_cant": "all chunkings", "anchors": ["src/net/http/generic.rs: LineDecoder"]}
{"id": "C53", "title": "Response headers are parsed independently of chunking, with folding and limits", "statement": "The header returned for a stream is the same for every chunking: status line, fields in order, folded continuation lines joined to their field; more lines than the limit are refused.", "quantifier": "every byte stream and chunking", "why_tests_cant": "all chunkings", "anchors": ["src/net/http/generic.rs: ResponseHeaderDecoder"]}
{"id": "C54", "title": "Fixed-length bodies are exact", "statement": "A body with announced length n is returned exactly once, consisting of exactly the next n bytes of the stream for every chunking, and no byte beyond it is consumed.", "quantifier": "every n, stream, chunking", "why_tests_cant": "all chunkings", "anchors": ["src/net/http/generic.rs: FixedSizeBodyDecoder"]}
{"id": "C55", "title": "Chunked transfer coding is decoded exactly", "statement": "For every body cut into chunks in any way (with any extensions and trailers) and delivered in any segmentation, the decoder returns exactly the body and leaves the bytes after it untouched.", "quantifier": "every body, chunk list, extension, trailer, segmentation", "why_tests_cant": "double chunking", "anchors": ["src/net/http/generic.rs: ChunkedBodyDecoder"]}
{"id": "C56", "title": "A remote device cannot crash the scanner with a response", "statement": "No HTTP or RTSP response, whatever its bytes, makes the response decoder panic.", "quantifier": "every byte stream", "why_tests_cant": "hostile values such as a huge Content-Length", "anchors": ["src/net/http/generic.rs: FixedSizeBodyDecoder::new", "src/net/rtsp/mod.rs: ClientCodec", "src/net/rtsp/sdp.rs", "src/utils/string/reader.rs: read_decimal_u32"]}
{"id": "C57", "title": "Header lookup is case-insensitive and sees every value", "statement": "After any sequence of adding and replacing header fields, looking a name up returns exactly the values of the fields with that name (compared case-insensitively) in order, and rendering lists the fields in order.", "quantifier": "every operation sequence", "why_tests_cant": "two parallel structures must stay in sync for all histories", "anchors": ["src/net/http/generic.rs: HeaderFields"]}
{"id": "C58", "title": "SDP media sections are recognised", "statement": "For every session description, the parser returns one media description per m= line in order, with the attributes that follow it, for any mix of CR, LF and CR LF line ends; lines longer than the limit are refused.", "quantifier": "every session description", "why_tests_cant": "all inputs", "anchors": ["src/net/rtsp/sdp.rs"]}
{"id": "C59", "title": "Checksums produced verify", "statement": "Every IPv4, TCP and ICMP packet produced by the library carries a checksum that a receiver's standard verification (one's complement sum 0xffff) accepts.", "quantifier": "every field value, option list and payload", "why_tests_cant": "all contents and lengths", "anchors": ["src/net/raw/utils.rs", "src/net/raw/ip.rs", "src/net/raw/tcp.rs", "src/net/raw/icmp.rs"]}
{"id": "C60", "title": "Packets parse back to what was built", "statement": "Serialising any Ethernet/ARP, Ethernet/IPv4/TCP, Ethernet/IPv4/ICMP packet and parsing the bytes returns the same fields and payload.", "quantifier": "every field value, option list and payload", "why_tests_cant": "all contents", "anchors": ["src/net/raw/ether/packet.rs", "src/net/raw/arp.rs", "src/net/raw/ip.rs", "src/net/raw/tcp.rs", "src/net/raw/icmp.rs"]}
{"id": "C61", "title": "A captured frame cannot crash the scanner", "statement": "Parsing any captured frame returns a packet or an error and never panics.", "quantifier": "every byte string", "why_tests_cant": "all malformed frames", "anchors": ["src/net/raw/ip.rs: Ipv4PacketHeader::parse", "src/net/raw/tcp.rs: TcpPacket::parse", "src/net/raw/arp.rs"]}
{"id": "C62", "title": "Network scans probe every host exactly once", "statement": "The ARP scan asks for exactly the host addresses strictly between the network and broadcast addresses, each once, in order; the TCP scan sends one SYN for each (host, port) pair, each once.", "quantifier": "every address, mask, host list, port collection", "why_tests_cant": "all networks and port ranges", "anchors": ["src/net/raw/arp.rs: Ipv4ArpScanner", "src/net/raw/tcp.rs: TcpPortScanner, PortCollection"]}
{"id": "C63", "title": "Scan results merge as sets", "statement": "Merging scan results yields exactly the union of hosts (flags combined), open ports and services; it is idempotent and, for hosts and ports, independent of order; iterating the result visits every (host, port) pair exactly once.", "quantifier": "every pair of results", "why_tests_cant": "all results", "anchors": ["src/scanner/result/mod.rs", "src/scanner/result/host.rs"]}
{"id": "C64", "title": "One stream service per device, by port preference", "statement": "After filtering, each IP address has exactly one service, drawn from the candidates, of the highest port priority among them.", "quantifier": "every candidate list and port order", "why_tests_cant": "all lists", "anchors": ["src/scanner/discovery.rs: filter_duplicit_services, get_port_priorities"]}
{"id": "C65", "title": "RTSP path probing picks the best outcome", "statement": "Probing a list of paths reports the first playable or password-protected path, else an unsupported stream, else an unknown service, and errors on single paths never hide a later playable one.", "quantifier": "every path list and response sequence", "why_tests_cant": "all sequences", "anchors": ["src/scanner/discovery.rs: find_rtsp_stream, get_rtsp_stream, get_rtsp_stream_type"]}
{"id": "C66", "title": "Log files stay bounded and lose only the oldest lines", "statement": "With rotation count n >= 1, after any sequence of log lines the current file never exceeds the size limit (unless a single line does), at most n backup files exist, and backups followed by the current file contain exactly a suffix of everything logged, in order.", "quantifier": "every sequence of lines, every limit and rotation count", "why_tests_cant": "all sequences", "anchors": ["src/utils/logger/file.rs: write, rotate"]}
{"id": "C67", "title": "Log rotation works for every configured rotation count", "statement": "Logging never panics whatever rotation count the user configured, including zero.", "quantifier": "every rotation count", "why_tests_cant": "boundary value", "anchors": ["src/utils/logger/file.rs: rotate", "src/config.rs: log_file_rotations"]}
{"id": "C68", "title": "MAC addresses print and parse consistently", "statement": "Printing any MAC address and parsing the text gives the address back.", "quantifier": "all 2^48 addresses", "why_tests_cant": "too many values", "anchors": ["src/net/raw/ether/mod.rs: MacAddr Display/FromStr"]}
{"id": "C69", "title": "The connection task never sleeps on work", "statement": "Whenever the task of the server connection sleeps, its waker is stored, no control message waits to be sent, nothing is queued in the session manager and no session has anything to report.", "quantifier": "every sequence of server messages, ticks, polls and transport steps", "why_tests_cant": "unbounded interleavings", "anchors": ["src/net/arrow/mod.rs: ArrowClientContext::poll_next, send_control_message", "src/net/arrow/session.rs: SessionManager::poll_next"]}
{"id": "C70", "title": "Sessions do not outlive the server connection", "statement": "When the connection to the server ends, for whatever reason, every session is closed: running transports are woken and end at their next poll without reading or writing anything more, sessions still connecting end as soon as they are connected.", "quantifier": "every connection history and every session alive at its end", "why_tests_cant": "unbounded histories", "anchors": ["src/net/arrow/session.rs: Drop for SessionManager, SessionTransport::poll"]}
{"id": "C71", "title": "Server commands are executed exactly as asked", "statement": "A service-table reset or a network scan is triggered by the connection iff the server sent the corresponding control message after registration, once per message and in order.", "quantifier": "every connection history", "why_tests_cant": "unbounded histories", "anchors": ["src/net/arrow/mod.rs: process_command"]}
{"id": "C72", "title": "Sending a command never fails", "statement": "No part of the client panics or gets stuck because the command channel is broken: every command sent through the API, by the server or by the timer reaches a command handler that is still alive.", "quantifier": "every sequence of commands, scans, crashes of scanner threads and closing", "why_tests_cant": "needs all orders of task ends", "anchors": ["src/cmd_handler.rs: CommandSender::send, CommandHandler", "src/client.rs: ArrowClient::close"]}
{"id": "C73", "title": "Reading any saved configuration gives a consistent table", "statement": "Every service table document that is accepted on load yields a table in which identities and identifiers are in one-to-one correspondence and the control service keeps identifier 0.", "quantifier": "every JSON document", "why_tests_cant": "all documents", "anchors": ["src/svc_table/mod.rs: SharedServiceTable::from_json, ServiceTableData::from_json"]}
{"id": "C74", "title": "A response does not depend on its segmentation", "statement": "The result of an HTTP or RTSP request (the response, an error, still waiting, closed) is the same for every way the bytes of the response are cut into reads.", "quantifier": "every byte stream, every two segmentations of it, closed or open connection, all limits", "why_tests_cant": "there are exponentially many segmentations of a response", "anchors": ["src/net/http/mod.rs: ClientCodec", "src/net/rtsp/mod.rs: ClientCodec", "src/net/http/generic.rs"]}
{"id": "C75", "title": "Reading a session description needs bounded stack", "statement": "The number of nested calls made while parsing a session description is bounded by a constant, whatever the description.", "quantifier": "every session description", "why_tests_cant": "tests use short descriptions", "anchors": ["src/net/rtsp/sdp.rs: process_line, process_time_description, process_media_description"]}
{"id": "C76", "title": "A stream is reported as playable exactly if a supported video codec is announced", "statement": "An RTSP path is classified as playable exactly if the description in the response is readable and one of its video sections has an rtpmap attribute naming a supported codec (in any letter case).", "quantifier": "every description", "why_tests_cant": "all descriptions", "anchors": ["src/scanner/discovery.rs: is_supported_rtsp_service", "src/net/rtsp/sdp.rs: RTPMap"]}
{"id": "C77", "title": "The packet listener stops in time and keeps everything it read", "statement": "The listener of a network scan stops at the first check that exceeds the time since the last packet or the total time, not before and, under any traffic, not later; its result is exactly the packets of all readable frames up to then, in order.", "quantifier": "every sequence of frames and times", "why_tests_cant": "timing and traffic patterns", "anchors": ["src/net/raw/pcap/mod.rs: packet_listener, Scanner"]}
{"id": "C78", "title": "Every well-formed answer to a scan is reported", "statement": "Every ARP reply gives the host that sent it (also in a padded frame), every TCP answer gives its sender's address and port, and every answer to the ICMP scan gives its sender exactly if it is in the network of the device.", "quantifier": "every address, port and payload", "why_tests_cant": "all answers", "anchors": ["src/net/raw/arp.rs: Ipv4ArpScanner::scan_device", "src/net/raw/tcp.rs: TcpPortScanner", "src/net/raw/icmp.rs: IcmpScanner"]}
{"id": "C79", "title": "The report of a scan is exactly what was found", "statement": "The report of a network scan contains exactly the hosts, flags and open ports found in the allowed networks whose scans succeeded; every service in it answers at an open port; every address at which an RTSP or HTTP server answers is represented by its stream and its plain service.", "quantifier": "every network, every set of answers, every list of paths and of allowed devices", "why_tests_cant": "all networks and all answers", "anchors": ["src/scanner/discovery.rs: scan_network, find_open_ports, find_rtsp_services, find_http_services, find_rtsp_streams, find_mjpeg_streams", "src/scanner/result/mod.rs"]}
{"id": "C80", "title": "A failure to write the log does not stop the client", "statement": "If a file system operation fails while a line is logged, logging does not panic, and no more than that line and the oldest backup file is lost.", "quantifier": "every sequence of failing operations, every point in a rotation", "why_tests_cant": "failures at every single point of a rotation", "anchors": ["src/utils/logger/file.rs: log, write, rotate"]}
{"id": "C81", "title": "Every probe is one well-formed request to the probed address", "statement": "For every service address and every path of the path files, the request of a probe (OPTIONS, DESCRIBE, GET) is sent to that address only, a server that reads it line by line sees exactly one request whose target is that path and whose header fields are the ones of the client, nothing follows it, and the probe ends with a response or an error within its timeout.", "quantifier": "every IPv4 and IPv6 address, every port, every UTF-8 path, every answer of the server", "why_tests_cant": "all texts a path file can contain", "anchors": ["src/net/http/mod.rs: Request", "src/net/rtsp/mod.rs: Request", "src/net/http/generic.rs: RequestBuilder, Request", "src/scanner/discovery.rs: is_rtsp_service, is_http_service, get_rtsp_stream_type, get_http_response"]}
{"id": "C82", "title": "No poll of the TLS stream panics or sleeps without a waker", "statement": "Every poll of the TLS stream (read, write, flush, shutdown, handshake) finishes without a panic, removes the thread-local waker, and, if it is pending, has polled the socket last with the waker of the calling task and found it pending, so that the task is woken up; the handshake is pending exactly until it ends.", "quantifier": "every behaviour of the TLS library and of the socket that keeps their contracts, every waker, every earlier content of the thread-local variable", "why_tests_cant": "all interleavings of operations inside of the TLS library", "anchors": ["src/net/tls.rs: ASYNC_CONTEXT, set_async_context, with_async_context, InnerSslStream, TlsStream, TlsConnect, TlsConnector::connect"]}
{"id": "C83", "title": "A reachable address of the service is found in time", "statement": "Whatever addresses the resolver gives: the client connects to the first one that accepts, addresses are tried in order, a second apart and no more than four at a time, and if any address accepts a connection in time, the client connects before its timeout.", "quantifier": "every list of addresses, every time they take to accept or refuse, every sequence of polls", "why_tests_cant": "all orders of events", "anchors": ["src/net/tls.rs: TlsConnector::connect", "src/net/arrow/mod.rs: connect, CONNECTION_TIMEOUT"]}
{"id": "C84", "title": "The certificate is checked against the host of the address", "statement": "The name given to the TLS library is the host of the address of the service: a name, an IPv4 address or an IPv6 address without its brackets and without the port.", "quantifier": "every address on the command line", "why_tests_cant": "all addresses", "anchors": ["src/net/tls.rs: TlsConnector::connect", "src/config.rs: arrow_service_address"]}
{"id": "C85", "title": "Memory exchanged with C is freed exactly as it was allocated", "statement": "Whatever a C program does with ac__malloc and ac__free, as long as it frees only live allocations and writes only into them: no call has undefined behaviour or panics, blocks never overlap, each free releases exactly the block of its allocation with its size, the content of other allocations is unchanged, and a failed allocation is reported.", "quantifier": "every sequence of allocations, frees and writes, every size, every allocator", "why_tests_cant": "all programs; undefined behaviour is not observable in a test", "anchors": ["src/exports/mem.rs: ac__malloc, ac__free"]}
{"id": "C86", "title": "What a custom storage returns is read exactly and freed once", "statement": "Whatever a custom storage callback returns (a code, an array of path strings, a configuration text, or nothing): the client takes exactly those paths in order (or exactly that text), reports an error for a non-zero code or a text that is not UTF-8, frees every string and the array exactly once and nothing else, without undefined behaviour.", "quantifier": "every code, every array, every text, every layout of memory", "why_tests_cant": "all layouts of memory", "anchors": ["src/exports/storage/custom.rs: load_configuration, load_paths", "src/exports/mem.rs: ac__free"]}
{"id": "C87", "title": "The service table seen from C is the service table of the client", "statement": "The exported table has exactly the visible services of the client except for the control service, in order, each with its identifier, type code, hardware address, IP address and version, port and path; exporting never panics, and reading an index outside of the table is harmless.", "quantifier": "every service table, every index", "why_tests_cant": "all tables and texts of paths", "anchors": ["src/exports/svc_table.rs: NativeServiceTable, NativeService, ac__service_table__get_service", "src/exports/mod.rs: ac__arrow_client__get_service_table", "src/client.rs: get_service_table"]}
{"id": "C88", "title": "A client started through the C interface runs once, and its log callback gets every line", "statement": "However often a client is started (blocking or not), its task runs exactly once; connection states have the distinct codes of the header; the log callback is called once, in order, for every line at or above the level, with the file, the line, the level and the message, and for no other; logging never panics.", "quantifier": "every number of starts, every sequence of log lines, every level", "why_tests_cant": "all sequences", "anchors": ["src/exports/mod.rs: NativeArrowClient, ac__arrow_client__start, ac__arrow_client__start_blocking, connection_state_to_c_int", "src/exports/logger.rs: CallbackLogger, log"]}
{"id": "C89", "title": "One instance runs at a time, and the lock file tells which one", "statement": "However many instances of the client are started, in whatever order their steps interleave and whatever fails: at most one passes the lock, an instance that starts while no other one runs gets the lock, and while an instance runs the lock file has exactly its process identifier.", "quantifier": "every number of instances, every interleaving, every failing operation", "why_tests_cant": "interleavings of processes", "anchors": ["src/storage.rs: DefaultStorage::builder"]}
{"id": "C90", "title": "A path file gives exactly its paths", "statement": "The paths loaded from a file are its lines in order, without line ends (LF or CRLF), except for comments and blank lines; a line that cannot be decoded affects no other one.", "quantifier": "every content of a file", "why_tests_cant": "all contents", "anchors": ["src/storage.rs: load_paths", "src/config.rs: ConfigBuilder::build"]}
{"id": "C91", "title": "Exactly the certificates below the given paths are trusted", "statement": "Whatever is below the given paths: the certificates of exactly those files are trusted whose name ends with .der, .cer, .crt or .pem in any case, at any depth and in any order, and a file that cannot be used affects no other one.", "quantifier": "every tree of files, every order of directory entries, every file that cannot be used", "why_tests_cant": "all trees", "anchors": ["src/storage.rs: load_ca_certificates, is_cert_file"]}
{"id": "C92", "title": "The connection state file has the state of the connection", "statement": "Whenever the client runs, the connection state file has the current state; a reader sees the line of the current state, of an earlier one or an incomplete line, never that of a state that was not reported.", "quantifier": "every sequence of states, every failing write, every crash", "why_tests_cant": "crashes between any two bytes", "anchors": ["src/storage.rs: save_connection_state", "src/context.rs: ConnectionState, set_connection_state", "src/config.rs: update_connection_state"]}
{"id": "C93", "title": "Every TLS connector verifies its peer and refuses old protocols", "statement": "Every connector the client creates verifies the certificate of the peer, has compression, SSL 2 and 3, TLS 1.0 and 1.1 switched off, has the cipher list of the client, keeps the settings of the library's builder otherwise and trusts in addition only what the storage loaded; if any step fails there is no connector at all.", "quantifier": "every builder, every result of the library and of the storage", "why_tests_cant": "all failures", "anchors": ["src/config.rs: get_tls_connector"]}
{"id": "C94", "title": "Reading a packet reports exactly what the capture library did", "statement": "A read reports a packet exactly if the library delivered one (with exactly its bytes), a timeout exactly if there was none, and an error exactly if some call failed; a listener on a failing device ends.", "quantifier": "every combination of results of the calls of the operating system and the library, any number of reads", "why_tests_cant": "the error branches of the C code need failing system calls", "anchors": ["src/net/raw/pcap/wrapper-linux.c: pcap_wrapper__read_packet", "src/net/raw/pcap/mod.rs: Capture::read_packet, packet_listener"]}
{"id": "C95", "title": "The buffer of the last capture error is never overrun", "statement": "Whatever errors are recorded in whatever order, with or without memory, no byte is written outside of the buffer, it always holds a terminated text, it is always large enough for the library, and the text is that of the last error (cut only without memory).", "quantifier": "every sequence of errors, every text, every pattern of failing allocations", "why_tests_cant": "memory safety under failing allocations", "anchors": ["src/net/raw/pcap/wrapper-common.c: copy_error_string, copy_errno_description, try_realloc_error_buffer", "src/net/raw/pcap/mod.rs: get_last_error"]}
{"id": "C96", "title": "The network devices are the Ethernet interfaces with an IPv4 address", "statement": "The list of devices is exactly the list of Ethernet interfaces with an IPv4 address and mask, whatever the records of the system; the client takes the hardware address of the first one, so that adding an interface does not change it.", "quantifier": "every list of interface records", "why_tests_cant": "needs machines with particular interfaces", "anchors": ["src/net/raw/devices/devices-linux.c", "src/net/raw/devices/devices-common.c", "src/net/raw/devices/mod.rs: EthernetDevice::list", "src/config.rs: get_first_mac"]}
{"id": "C97", "title": "A scan sends its packets only while it listens, and ends", "statement": "Whatever the interleaving of the two threads of a scan and whatever fails: packets are sent only after the listener is active, in order and once each; success means all were sent and the listener ended; the scan never deadlocks and its listener does not outlive it.", "quantifier": "every interleaving, every number of packets, every failure", "why_tests_cant": "interleavings of threads", "anchors": ["src/net/raw/pcap/mod.rs: Scanner::sr, packet_listener, send_packets"]}
{"id": "C98", "title": "JSON documents are read back exactly, and unfinished ones not at all", "statement": "Every document the client writes is read back by a JSON reader as the same document; no proper prefix of the text of a document other than a number (the client writes objects) is a document, so that a file whose writing was cut is never taken for a configuration.", "quantifier": "every JSON value of any depth and size, every string with any bytes, every prefix", "why_tests_cant": "prefixes and nested strings with control characters are infinitely many", "anchors": ["src/storage.rs: save_configuration_file, load_configuration_file", "src/config.rs: PersistentConfig::to_json", "src/svc_table/mod.rs: to_json"]}
{"id": "C99", "title": "The extended information reaches the server whatever the device strings are", "statement": "The extended information in the REGISTER message contains no NUL and no other control character, and the server recovers the category, type and vendor of the device exactly, for all strings given on the command line.", "quantifier": "all device strings, with any bytes, in any REGISTER message", "why_tests_cant": "the texts are arbitrary user input", "anchors": ["src/config.rs: get_extended_info", "src/net/arrow/proto/msg/control/register.rs", "src/net/arrow/mod.rs: send_register_message"]}
{"id": "C100", "title": "The identity file holds the UUID only", "statement": "The content of the identity file is a document with the UUID as its only field; in particular it does not depend on the password.", "quantifier": "all identities", "why_tests_cant": "secrecy is a statement about all passwords", "anchors": ["src/config.rs: PublicIdentity, to_identity", "src/storage.rs: save_identity_file"]}
{"id": "C101", "title": "The password is sent in the REGISTER message only", "statement": "Two clients that differ only in password, UUID, MAC address or extended information, and that see the same events, send the same messages at the same times, reach the same states and end with the same result, except for their REGISTER messages.", "quantifier": "all identities, all histories of a connection (messages, ticks, sessions, service tables)", "why_tests_cant": "a statement about pairs of executions", "anchors": ["src/net/arrow/mod.rs: ArrowClientContext, send_register_message", "src/net/arrow/session.rs: SessionManager"]}
{"id": "C102", "title": "No file is touched before the lock is held", "statement": "With a lock file, the client touches no other file before it holds the lock, and ends when it does not get it; files other than the configuration, its skeleton, the identity file, the lock file and the log file are never changed by the start.", "quantifier": "all paths (also equal ones), all contents of files, all failures", "why_tests_cant": "order of effects under all failures", "anchors": ["src/config.rs: ConfigParser::build, ConfigBuilder::build", "src/storage.rs: DefaultStorage::builder, load_configuration"]}
{"id": "C103", "title": "A started client has saved what it runs with", "statement": "When the client has started, the configuration file holds the configuration it runs with and the identity file its UUID; the identity file never names an identity that no client has; the start on real files, with writes cut anywhere, is the one on documents used for C39.", "quantifier": "all contents of files, all failures, writes cut after any number of bytes, every JSON parser that reads the documents of the client and no unfinished ones", "why_tests_cant": "crashes in the middle of writes", "anchors": ["src/config.rs: ConfigBuilder::build, save", "src/storage.rs: load_configuration, save_configuration, save_identity_file"]}
{"id": "C104", "title": "Every log message is one line of the log", "statement": "The lines of the log are the messages, one each, in order; the colored output shows the same text as the plain one and its color tells the severity.", "quantifier": "all sequences of messages with any text", "why_tests_cant": "log messages contain text from the network", "anchors": ["src/utils/logger/stderr.rs: StderrLogger::log", "src/utils/logger/file.rs: log", "src/client.rs: connect"]}
{"id": "C105", "title": "Log messages are never format strings", "statement": "The format given to syslog is constant, the text has no NUL and equals the place and the message when these have none; more severe messages get more urgent priorities.", "quantifier": "all messages with any bytes", "why_tests_cant": "memory safety for all texts", "anchors": ["src/utils/logger/syslog.rs: Syslog::log"]}
{"id": "C106", "title": "The verbosity holds for all loggers of the client", "statement": "With -v all handles of the logger write messages of all severities, without it all but DEBUG, whatever clones are made.", "quantifier": "all kinds of loggers, all sequences of clones", "why_tests_cant": "clones of clones in all orders", "anchors": ["src/config.rs: ConfigBuilder::build, get_logger", "src/utils/logger/mod.rs: BoxLogger", "src/utils/logger/stderr.rs", "src/utils/logger/syslog.rs", "src/utils/logger/file.rs"]}
{"id": "C107", "title": "Different services are hashed as different texts", "statement": "The bytes hashed for two different service identities are different, and the bytes of one are never the beginning of the bytes of another.", "quantifier": "all service types, MAC addresses, ports and paths (any UTF-8 text), both byte orders and all pointer widths", "why_tests_cant": "injectivity over unbounded strings", "anchors": ["src/svc_table/mod.rs: StableHasher, stable_hash", "src/svc_table/service.rs: ServiceIdentifier, StableHashOption, StableHashString", "src/net/raw/ether/mod.rs: Hash for MacAddr"]}
{"id": "C108", "title": "The IDs of services do not depend on the machine", "statement": "Two machines that see the same services keep the same service tables, with the same IDs, whatever their pointer width and byte order; the ID of a new service is the low half of the hash of its identity unless that ID is taken.", "quantifier": "all histories of service tables, all 64-bit hash functions of byte strings, all machines", "why_tests_cant": "a statement about pairs of machines", "anchors": ["src/svc_table/mod.rs: StableHasher, stable_hash, add_service", "src/svc_table/service.rs: StableHashOption, StableHashString", "src/net/raw/ether/mod.rs: Hash for MacAddr"]}
{"id": "C109", "title": "The messages handled are the frames that arrived", "statement": "However the bytes of the server arrive, cut into whatever pieces, the messages the client handles are the first frames of the byte stream, in order and each once; when a poll ends with nothing to do, no complete frame is left unread. A poll always ends.", "quantifier": "all sequences of reads, polls, writes, watchdog ticks and transport events, all byte streams", "why_tests_cant": "tests cannot cut a byte stream in all possible ways and interleave all polls", "anchors": ["src/net/arrow/mod.rs: ArrowClient::poll_next, connect", "src/net/arrow/proto/codec.rs: ArrowCodec"]}
{"id": "C110", "title": "The bytes written are the frames of the messages sent", "statement": "The bytes written to the server are at any time the frames of the first messages sent, in order, followed by at most a part of the next frame; when nothing is buffered they are the frames of all messages sent.", "quantifier": "all sequences of events of a connection whose messages fit into frames", "why_tests_cant": "partial writes and interleavings are unbounded", "anchors": ["src/net/arrow/mod.rs: connect", "src/net/arrow/proto/codec.rs: ArrowCodec"]}
{"id": "C111", "title": "Data reach the service in order", "statement": "The bytes written to the service of a session are a prefix of the payloads of the data messages received for the session, in order, without loss or duplication; while the session is open the difference is what the session still holds.", "quantifier": "all histories of a connection and all sessions", "why_tests_cant": "a statement about all interleavings of sessions, messages and transports", "anchors": ["src/net/arrow/mod.rs: process_service_request_message, process_arrow_message", "src/net/arrow/session.rs: SessionManager::send, SessionTransport"]}
{"id": "C112", "title": "Data of the service reach the server in order", "statement": "The payloads of the data messages sent for a session are a prefix of the bytes read from its service, in order, without loss or duplication; while the session is alive the difference is what the session still holds.", "quantifier": "all histories of a connection and all sessions", "why_tests_cant": "a statement about all interleavings of sessions, messages and transports", "anchors": ["src/net/arrow/session.rs: SessionManager::poll_next, SessionContext::take_arrow_message", "src/net/arrow/mod.rs: ArrowClientContext::poll_next"]}
{"id": "C113", "title": "A lost connection is noticed at once", "statement": "When the stream of the server ends or fails, the next poll of the client ends the connection with an error: a connection error at the end of the stream between two frames, another error inside a frame or on a failed read. It is never a verdict of the server such as an authorization failure. However the bytes were cut into reads, the frames received before the end are handed out first, each once and in order.", "quantifier": "all histories of a connection that has handled what arrived and has no message waiting for the sink", "why_tests_cant": "the stream can end at any byte of any history", "anchors": ["src/net/arrow/mod.rs: ArrowClient::poll_next", "src/net/arrow/error.rs: ConnectionError, ArrowError"]}
{"id": "C114", "title": "A server cannot make the client queue control messages", "statement": "At any time at most one message waits for an acknowledgement, and at most one control message more than the UPDATE messages of the connection waits to be sent. The messages of the server alone, however many, queue no UPDATE: at most one is queued per watchdog tick. So the answers to a flood of requests do not pile up in memory.", "quantifier": "all histories of a connection that is still running", "why_tests_cant": "needs floods of all lengths interleaved with all ticks and sessions", "anchors": ["src/net/arrow/mod.rs: ArrowClientContext::process_control_protocol_message, send_unconfirmed_control_message, time_event, poll_next", "src/net/arrow/session.rs: SessionManager::close, connect, poll_next"]}
{"id": "C115", "title": "The threads of the client never block each other for ever", "statement": "Whatever the threads of the client run and however they are interleaved, a thread that has something left to do can always be brought to its next step by letting the other threads go on. A mutex is held by one thread at a time, and a thread that is done holds none.", "quantifier": "all numbers of threads, all sequences of functions per thread, all interleavings, all listeners that use the client", "why_tests_cant": "deadlocks need a particular interleaving of several threads; tests hit it by chance only", "anchors": ["src/context.rs: ApplicationContext", "src/net/arrow/mod.rs: ArrowClient", "src/net/arrow/session.rs: Session, SessionTransport", "src/svc_table/mod.rs: SharedServiceTable", "src/utils/logger/file.rs: FileLogger", "src/exports/logger.rs: CallbackLogger", "src/cmd_handler.rs: network_scanner_thread"]}
{"id": "C116", "title": "Callbacks of the application may use the client", "statement": "The code of the application that the client calls (state listeners, storage functions, log callbacks) can call the functions of the client without blocking it.", "quantifier": "all interleavings and all callbacks that call functions of the interface", "why_tests_cant": "depends on the locks held at the moment of the call and on what other threads hold", "anchors": ["src/context.rs: ApplicationContext::set_connection_state, set_scanning", "src/exports/storage/custom.rs: CustomStorage", "src/exports/logger.rs: CallbackLogger", "src/config.rs: Config::update_connection_state, save, get_tls_connector"]}
{"id": "C117", "title": "A connection ends only for a reason", "statement": "Whenever a connection has ended, its history shows why, and the result says so: REGISTER or a PING was not acknowledged for 20 seconds; REGISTER was not acknowledged first, or refused (the result is the verdict); diagnostic mode; a REDIRECT (the result is its target); a control message that no server may send; an acknowledgement for something other than the oldest unacknowledged message; the network failed or was closed. Nothing that happens to a session ends a connection.", "quantifier": "all histories of a connection: all messages of the server, all timings, all behaviours of sessions and of the network", "why_tests_cant": "an absence: no test can show that there is no other way to lose a connection", "anchors": ["src/net/arrow/mod.rs: ArrowClient::poll_next, ArrowClientContext::process_arrow_message, time_event, connect"]}
{"id": "C118", "title": "A good server is never left", "statement": "As long as the network works, a server that acknowledges REGISTER first, sends only control messages that a server may send (no REDIRECT), acknowledges in order and within 20 seconds keeps its connection, whatever data and session messages it sends; the client makes no further connection attempt and reports no other state.", "quantifier": "all histories with such a server, of any length", "why_tests_cant": "a liveness guarantee over unbounded histories", "anchors": ["src/net/arrow/mod.rs: connect, ArrowClientContext", "src/client.rs: ArrowMainTask"]}
{"id": "C119", "title": "A server cannot make the client hold large amounts of data", "statement": "The bytes read from the TLS stream but not handled, the bytes encoded but not written, and the buffers of each session are bounded, whatever the server sends: the read buffer by one frame and one read, the write buffer by 8192 bytes and one frame, the input of a session by 8192 bytes and one read of the service's socket, its output by the window of 65536 bytes. The bound for the read buffer does not depend on the server.", "quantifier": "all histories of a connection with any arrival of bytes, writes, services and timing", "why_tests_cant": "exhaustion takes gigabytes of input and minutes; tests check single buffers with small data", "anchors": ["src/net/arrow/proto/msg/mod.rs: ArrowMessage::decode", "src/net/arrow/mod.rs: connect", "src/net/arrow/session.rs: SessionContext"]}
{"id": "C120", "title": "A CONNECT reaches the service that was announced under its ID", "statement": "If the server asks for a service ID, the network connection that is opened goes to the service it has been told about under that ID: same type, MAC address and port, at the IP address where the service was last seen. This holds for the IDs of REGISTER and UPDATE messages and of scan reports of the same Arrow connection, whatever scans happened in between.", "quantifier": "all histories of the service table, all connections that read it at any of its moments, all messages the server could have learnt the ID from", "why_tests_cant": "a wrong device is reached only after particular sequences of scans, resets and ID collisions", "anchors": ["src/net/arrow/mod.rs: send_register_message, send_update_message, process_get_scan_report_message", "src/net/arrow/session.rs: SessionManager::connect", "src/svc_table/mod.rs: ServiceTableData", "src/config.rs: reset_service_table"]}
{"id": "C121", "title": "The client goes only where a server it registered with sent it, and gives up only if told to", "statement": "Every address the client connects to is the configured one, or the target of a REDIRECT that the server it was registered with sent as the last message of the immediately preceding connection. Unauthorized is reported only after a server answered REGISTER with code 2. At any time an attempt is going on, or a sleep after which there is another one, or a server answered REGISTER with code 1, or with code 2 at least 20 minutes after the start.", "quantifier": "all histories of the main task: any number of attempts, failures, redirects and connections with arbitrary servers", "why_tests_cant": "the whole life of the client would have to be watched, against every sequence of server and network behaviour", "anchors": ["src/client.rs: ArrowMainTask", "src/net/arrow/mod.rs: process_redirect_message, process_handshake_ack, ArrowClientContext"]}
{"id": "C122", "title": "A server can make the client hold only so many network connections", "statement": "The number of network connections to services is bounded by the number of sessions, which is bounded; when a session ends, its connection is closed: nothing more is read or written.", "quantifier": "all sequences of CONNECT, HUP and data messages and all behaviours of the services", "why_tests_cant": "connections that are still being set up when their session is closed are visible only as sockets of the process, and only with devices that do not answer", "anchors": ["src/net/arrow/session.rs: Session::new, SessionTransport, SessionManager::connect, SessionManager::close"]}
{"id": "C123", "title": "What the server believes about the services is what the table showed at the last check", "statement": "At all times the services in the last REGISTER or UPDATE message, as an independent reader of the messages sees them, are exactly the services that the client's table showed when the connection was made or last looked for changes; a tick of an established connection five seconds after the last check makes them current, and after every tick the last check is less than five seconds old. Each tick sees one table, and the table shows fewer than 2^32 changes.", "quantifier": "all tables, all interleavings of changes of the table with timer ticks, messages and transport events of the connection, with no bound on their number", "why_tests_cant": "an announcement that is skipped, late or built from the wrong moment needs a particular interleaving of scans with the timer; tests of either side alone cannot see it", "anchors": ["src/net/arrow/mod.rs: ArrowClientContext::check_for_updates, ArrowClientContext::send_update_message, ArrowClientContext::time_event", "src/svc_table/mod.rs: SharedServiceTable::add, SharedServiceTable::update_active_services, SharedServiceTable::visible_set_version"]}
{"id": "C124", "title": "Nothing of a stopped client is left running", "statement": "After the client was closed or freed and the thread it ran on has been joined, none of the client's code runs any more: no callback of the application is called, no thread panics, whatever the application does.", "quantifier": "all histories of commands, scans, crashes, starting, closing and freeing, with no bound on their number, all interleavings of the scanner threads with the end of the runtime", "why_tests_cant": "it shows only if a scan, which takes minutes, is going on at the moment of closing; unit tests neither scan nor close", "anchors": ["src/exports/mod.rs: ac__arrow_client__free, ac__arrow_client__start, ac__join_handle__join", "src/runtime.rs: run", "src/client.rs: ArrowClient::close, ArrowClient::new_with_connector", "src/cmd_handler.rs: CommandHandlerContext::scan_network, network_scanner_thread"]}
{"id": "C125", "title": "The C interface owns its objects as its header says", "statement": "A C program that keeps to the ownership rules of include/arrow_client.h never reaches undefined behaviour in the library, leaves nothing allocated once it has given everything back, and its client has exactly the configuration, storage functions, files, certificates and loggers it asked for.", "quantifier": "all sequences of calls of the C interface, with no bound on their number, all results of the operating system, all allocators", "why_tests_cant": "tests call the functions in one sensible order with one allocator; a double free shows only with the wrong reading of the header", "anchors": ["include/arrow_client.h", "src/exports/mod.rs: ac__arrow_client__new, ac__arrow_client__start, cstr_to_str", "src/exports/config.rs: ac__config__set_logger", "src/exports/logger.rs: ac__logger__clone", "src/exports/storage/custom.rs: CustomStorage", "src/exports/storage/default.rs: ac__default_storage_builder__set_logger", "src/exports/svc_table.rs: ac__service_table__get_service"]}
{"id": "C126", "title": "Any saved configuration is read exactly as it says or refused", "statement": "Whatever JSON document the configuration file holds, it is either read as exactly the services (each under the first free ID from the one it gives, or from its position) and the identity it says, or refused with an error; it never stops the program.", "quantifier": "all JSON documents, with any number of services and in any order of fields, all parsers of addresses and identifiers, all times", "why_tests_cant": "a test reads a few documents the program wrote itself; the ones a user edited are without bound, and too many services bring it down", "anchors": ["src/config.rs: PersistentConfig::from_json", "src/svc_table/mod.rs: ServiceTableElement::from_json, ServiceTableData::from_json, add_element"]}
{"id": "C127", "title": "Everything the client sends is a message of its side of the protocol", "statement": "The first frame of a connection is a REGISTER with the identity of the client; every later one is an ACK, PING, UPDATE, STATUS, SCAN_REPORT, HUP or DATA_ACK with the right layout, or data. Data and DATA_ACK name only sessions the server asked for before, HUP only sessions the server mentioned before. No message of the server's side (CONNECT, REDIRECT, GET_STATUS and so on) is ever sent.", "quantifier": "all identities and service tables, all sequences of server messages, polls, ticks and progress of any number of sessions", "why_tests_cant": "a test server sees the messages of a few scenarios; a wrong type code or session is sent only in the one state nobody tried", "anchors": ["src/net/arrow/mod.rs: ArrowClientContext, ArrowClient", "src/net/arrow/session.rs: SessionManager", "src/net/arrow/proto/msg/control/mod.rs: ControlMessageFactory"]}
{"id": "C128", "title": "Only a full service table stops the program at a start or a scan", "statement": "Whatever the configuration files contain, as long as the services they list and the configured ones are at most 65535: a start of the client never panics, and it succeeds exactly if the lock and the log can be had, there is a network interface and the configuration can be saved. A scan never panics as long as its services fit in the table, also if the table is inconsistent. A full table panics on the first unknown service.", "quantifier": "all contents of the configuration file and its skeleton, all lists of configured and found services, all hash functions, all outcomes of file operations", "why_tests_cant": "a crash needs a file no version of the client has written, or tens of thousands of services", "anchors": ["src/config.rs: ConfigBuilder::build, Config::update_service_table", "src/storage.rs: DefaultStorage::load_configuration", "src/svc_table/mod.rs: ServiceTableData::add_element, update_element"]}
{"id": "C129", "title": "The server is told about a service exactly while it was found within the last 1200 seconds", "statement": "After a scan has brought the table up to date and an established connection has had a tick five seconds after its last check, the last list of services sent to the server contains every service last found no more than 1200 seconds before the end of the scan, in the form in which it was last found; and it contains nothing but such services and static ones that are switched on.", "quantifier": "all tables read from a saved configuration, all histories of additions, scans, ticks and messages from the server, all hash functions", "why_tests_cant": "needs a camera that disappears for twenty minutes while a connection stays up, in every order of scans, expiry and ticks", "anchors": ["src/svc_table/mod.rs: ServiceTableData::update_active_services, add, visible", "src/net/arrow/mod.rs: check_for_updates, send_update_message, time_event", "src/cmd_handler.rs: network_scanner_thread"]}
{"id": "C130", "title": "Everything in the report of a scan was heard in the scanned network", "statement": "Every host, open port and service of the report of a whole scan is backed by a frame that a listener on a scanned device really captured: hosts by an ARP frame to the device, an echo reply from an address of the network or a SYN-ACK; ports and services by a SYN-ACK to port 61234 with exactly the reported MAC address, IP address and port. The addresses are those of the scanned network.", "quantifier": "all devices and lists of allowed devices, all networks that answer whatever they like to the frames sent, all contents and times of the frames captured, all answers of the HTTP and RTSP probes", "why_tests_cant": "the tests parse single packets; no test runs a scan, and a forged or misread frame shows only in the final report", "anchors": ["src/scanner/discovery.rs: find_open_ports, find_open_ports_in_network", "src/net/raw/arp.rs: Ipv4ArpScanner", "src/net/raw/icmp.rs: IcmpScanner", "src/net/raw/tcp.rs: TcpPortScanner", "src/net/raw/pcap/mod.rs: Scanner::sr"]}
{"id": "C131", "title": "Every device that answers in time is in the report", "statement": "On every scanned device on which capturing works, the scan asks all addresses of the network, then all 13 camera ports of every host that answered; and every answer that arrives before the time limits is in the report. The scan ends unless a capture call never returns, and it never fails.", "quantifier": "all devices, networks, frames, times and answers", "why_tests_cant": "a lost answer looks like an absent camera; a test cannot try all interleavings of answers, limits and filters", "anchors": ["src/scanner/discovery.rs: find_open_ports, find_open_ports_in_network, RTSP_PORT_CANDIDATES, HTTP_PORT_CANDIDATES", "src/net/raw/arp.rs: Ipv4ArpScanner", "src/net/raw/icmp.rs: IcmpScanner", "src/net/raw/tcp.rs: TcpPortScanner", "src/net/raw/pcap/mod.rs: packet_listener"]}
{"id": "C132", "title": "Probing the services found takes bounded time, whatever the devices do", "statement": "The probes of a scan end at most 2000 ms * (2 + number of RTSP paths + number of MJPEG paths) after they begin, however many devices there are and whatever they answer or fail to answer; one device that answers each request after two seconds makes every scan take exactly that long; and a scan finds what it would find without times, with the responses that take more than two seconds left out.", "quantifier": "all reports of open ports, all lists of paths, all devices, whose answers may come at any time or never and depend on the time of the request", "why_tests_cant": "Hundreds of paths and silent devices make a run take minutes, and that the bound is exact for all lists of paths and all reports is beyond any number of runs.", "anchors": ["src/scanner/discovery.rs: scan_network, find_rtsp_stream, find_mjpeg_path, filter_services, ContextData", "src/net/rtsp/mod.rs: Request::send", "src/net/http/mod.rs: Request::send"]}
{"id": "C133", "title": "What a device answers does not change what is reported for another one", "statement": "Two scans of the same networks that differ only in the answers of some devices report the same services for every hardware address that none of these devices has or shares an IP address with; hosts and open ports are the same in any case.", "quantifier": "all networks, all lists of paths, all pairs of behaviours of all devices", "why_tests_cant": "The space of the behaviours of many devices at once cannot be sampled; the interference found needs two devices with one hardware address.", "anchors": ["src/scanner/discovery.rs: scan_network, filter_duplicit_services", "src/scanner/result/mod.rs: ScanResult::add_service"]}
{"id": "C134", "title": "The memory used for a response is bounded by the limits of the request", "statement": "Whatever a device sends in reply to a request and however it is cut into pieces, the decoders keep less than (maximal header lines + 1) * (maximal line length) bytes of it besides the body between two reads, nothing of a body that is ignored, and for a body that is read no more memory than the bytes received.", "quantifier": "all byte streams, all ways to cut them, all limits, HTTP and RTSP, widths of usize, with and without ignored bodies", "why_tests_cant": "The bound ranges over all streams, also endless ones; the failing case asks for exabytes of memory and ends a test process instead of failing a test.", "anchors": ["src/net/http/generic.rs: LineDecoder, ResponseHeaderDecoder, FixedSizeBodyDecoder, ChunkedBodyDecoder", "src/net/http/mod.rs: ClientCodec", "src/net/rtsp/mod.rs: ClientCodec"]}
{"id": "C135", "title": "Through the client a server reaches only what was configured or answered a scan", "statement": "Whatever a server sends and whenever the table changes, a connection to a local device is opened only if the client is a gateway or the address is a loopback address, and only to an address that was stored in the configuration, was given on the command line, or accepted a TCP connection and answered in RTSP or HTTP during a scan. Addresses that come from scans lie in a network of a scanned device.", "quantifier": "all messages of a server, all histories of the service table made of configured services and scans, all traffic heard during the scans, all answers of devices", "why_tests_cant": "It spans the scanner, the service table and the Arrow connection, over all traffic on the local network and all behaviours of a server; the failing case needs a forged frame at the right moment of a scan.", "anchors": ["src/scanner/discovery.rs: scan_network, find_open_ports", "src/svc_table/mod.rs: SharedServiceTable", "src/net/arrow/mod.rs: ArrowClient", "src/net/arrow/session.rs: SessionManager"]}
{"id": "C136", "title": "A device that answers the frames of a scan is found", "statement": "A device of a scanned network that answers every ARP request for its address and every connection to a camera port within a fixed delay is in the report of the scan with its open ports, whatever time it takes to send the frames.", "quantifier": "all networks, all paces of sending, all delays of answers, all other traffic that matches the filters", "why_tests_cant": "It depends on the timing of two threads and of all devices of a network; a test network is small and fast, and the failing cases need a slow interface or a large network.", "anchors": ["src/net/raw/pcap/mod.rs: Scanner, packet_listener, send_packets", "src/net/raw/arp.rs: Ipv4ArpScanner", "src/net/raw/tcp.rs: TcpPortScanner"]}
{"id": "C137", "title": "A camera that answers is announced to the server", "statement": "A camera of a scanned network that answers ARP, accepts a connection at a camera port and has a playable stream there at one of the known paths is in the report of the scan with the first such path, is merged into the service table, and is in the list of services that the server knows after the next check of the established connection. Every service of a report can be encoded and is announced.", "quantifier": "all networks, cameras, ports, lists of paths, states of the table before and all histories of the connection", "why_tests_cant": "It is a chain through raw frames, four scans, probing, the service table and the protocol; a test has one network, one table and one server.", "anchors": ["src/scanner/discovery.rs: scan_network, find_rtsp_services, filter_duplicit_services, find_rtsp_stream, find_mjpeg_path", "src/net/raw/pcap/mod.rs: Scanner", "src/svc_table/mod.rs: SharedServiceTable, add", "src/net/arrow/mod.rs: check_for_updates"]}
{"id": "C138", "title": "Tasks do not run in vain", "statement": "Every poll of a session's transport task except two is paid for by an event from outside the task (a call of the connection task, the socket becoming ready) or by a byte read or written, provided that writing takes at least one byte. A poll of the connection task that neither ends the connection nor hands over a message leaves the task asleep, so every poll without anything from the server except one is paid for by another event or by a message handed over.", "quantifier": "every interleaving of session events, and every sequence of server messages, ticks, polls and transport steps, with executors that poll runnable tasks only", "why_tests_cant": "a task that keeps waking itself still delivers everything; only its use of the processor shows it", "anchors": ["src/net/arrow/session.rs: SessionTransport, poll_read_input, poll_write_output, SessionManager", "src/net/arrow/mod.rs: ArrowClientContext, poll_next"]}
{"id": "C139", "title": "Data that waits in a session moves on", "statement": "Everything accepted for a service is written to it once the service was ready to take something as often as bytes were waiting, if the session stays open. Everything read from a service is sent to the server, as far as its window allows, after a fixed number of polls of the session.", "quantifier": "every session state that can be reached and every continuation, with any cutting of reads and writes", "why_tests_cant": "a starving schedule needs an unbounded interleaving of the two tasks", "anchors": ["src/net/arrow/session.rs: take_arrow_message, take_data_ack, poll_write_output, push_output_message"]}
{"id": "C140", "title": "The sessions of a connection get their turn", "statement": "A session that has data, an acknowledgement or its end to report sends a message after a number of polls of the client that is fixed when it begins to wait.", "quantifier": "every connection that is still running, every session in it and every continuation: messages of the server, wake-ups of the watchdog, progress of the transport tasks, in any order", "why_tests_cant": "needs an unbounded sequence of messages of the server and of polls", "anchors": ["src/net/arrow/mod.rs: poll_next, send_control_message, time_event", "src/net/arrow/session.rs: SessionManager, poll_next"]}
{"id": "C141", "title": "What a service sent reaches a server that keeps silent", "statement": "Once the client was polled more often than messages are ahead of the data that waits in a session, all of that data has been sent, as far as the window of the server allows. Ahead are the control messages that wait, one message of each session scheduled before, a round of all sessions for each acknowledgement the session can still have to send, and two messages for each wake-up of the watchdog.", "quantifier": "every running connection, every session in it and every continuation in which the server sends nothing: any number of sessions, any cutting of reads and writes, any order of polls, wake-ups and transport tasks", "why_tests_cant": "a progress bound over all interleavings of the tasks of all sessions", "anchors": ["src/net/arrow/mod.rs: poll_next, time_event", "src/net/arrow/session.rs: take_arrow_message, take_data_ack, poll_next"]}
{"id": "C142", "title": "What the client has to tell the server is sent, whatever the server does", "statement": "Control messages of the client (REGISTER, PING, UPDATE and the answers to requests of the server) that wait are the next messages sent, in their order, one by each poll of the client, even if the server goes on sending. One poll and one more for each UPDATE of the past are enough, so every request gets its answer on the wire, in the order of the requests.", "quantifier": "every running connection and every continuation that does not end it: any messages of the server, any order of polls, wake-ups of the watchdog and transport tasks", "why_tests_cant": "a progress bound for every behaviour of the server and every interleaving of the tasks", "anchors": ["src/net/arrow/mod.rs: send_control_message, poll_next, process_ping_message"]}
{"id": "C143", "title": "Text is taken apart as the standard library documents it", "statement": "Numbers are read exactly from digits with an optional plus sign, as their positional value and up to the maximum of the type; they are written without leading zeros. The first and last place of a character, prefixes, suffixes and the pieces between separators are what the words say. Texts are equal but for case exactly if their ASCII letters are, and valid exactly if they encode Unicode scalar values. A MAC address is six hexadecimal octets with colons between. A header line without a colon is a name only, and a line continues the one before exactly if it starts with white space.", "quantifier": "every text, radix, maximum and number", "why_tests_cant": "unbounded texts; the parsers of URLs, headers, MAC addresses and command lines are made of these functions, and the other claims about them use some of them as a reference", "anchors": ["src/net/raw/ether/mod.rs: MacAddr, from_str", "src/net/http/generic.rs: HeaderField", "src/net/url.rs: Url", "src/net/rtsp/sdp.rs: from_str"]}
{"id": "C144", "title": "A conversation with a service works from end to end", "statement": "When the server asks for a connection to a service of the table that the client may reach, as a session that is not in use, then sends a request of at most a window, and the service takes the request and answers, the connection to the address of the service is opened, exactly the request is written to it, exactly the answer is read from it, and the server gets exactly the answer after a bounded number of polls of the client, whatever happens meanwhile in the other sessions, if the connection to the server lasts.", "quantifier": "every history of the connection before, every service table, request, answer and socket outcome, and every interleaving with polls, wake-ups of the watchdog and all events of the other sessions", "why_tests_cant": "unbounded histories and interleavings; the claim spans control messages, the table, the manager, the session, the transport task and the framing of the answer", "anchors": ["src/net/arrow/mod.rs: process_connect_message, process_arrow_message, poll_next", "src/net/arrow/session.rs: connect, connect_inner, send, push_output_message, take_arrow_message, poll_read_input, poll_write_output"]}
{"id": "C145", "title": "The control messages of a connection are numbered one after the other", "statement": "The n-th control message that a connection makes of itself (REGISTER, PING, UPDATE, STATUS, SCAN_REPORT, DATA_ACK or HUP), counted from zero, has the message ID n modulo 65536, whichever part of the client makes it; so two messages with the same ID are at least 65536 messages apart.", "quantifier": "every connection: every identity and service table, and every sequence of messages, polls, wake-ups and events of the sessions", "why_tests_cant": "unbounded histories; one counter is shared by the client, the watchdog, the session manager and every session, and it wraps", "anchors": ["src/net/arrow/proto/msg/control/mod.rs: ControlMessageFactory, next_id", "src/net/arrow/session.rs: take_arrow_message, create_hup_message", "src/net/arrow/mod.rs: send_ping_message, send_update_message"]}
{"id": "C146", "title": "The server is told of the end of a session", "statement": "When the service of a session closes its connection, reading from it or writing to it fails, or no connection to it can be made, the server gets a HUP for that session with the error code for that end (0 or 3) after a bounded number of polls of the client, and before it the data that waited in the session as far as the window allows, if the server sends nothing meanwhile and the connection lasts.", "quantifier": "every history of the connection before, every number of other sessions and their events, and every interleaving of polls, wake-ups of the watchdog and steps of the transport tasks", "why_tests_cant": "unbounded histories; a hang-up competes with control messages, other sessions, the acknowledgement and the data of its own session", "anchors": ["src/net/arrow/session.rs: take_arrow_message, poll_read_input, poll_write_output, set_error, create_hup_message, poll_next", "src/net/arrow/mod.rs: poll_next"]}
{"id": "C147", "title": "The log accounts for every service connection", "statement": "At any time the sessions that the log shows as open are the open ones: no session is opened twice without an end in between, every end follows its beginning, and after the end of the connection to the server no session is left open in the log. The record of a connection has the address that is connected to; a refusal has its true reason; with -v every HUP has a record.", "quantifier": "all histories of the session manager, all texts of errors, any order in which the remaining sessions are closed", "why_tests_cant": "unbounded histories; the texts are read back, so no two sessions may be confused by their records", "anchors": ["src/net/arrow/session.rs: connect, connect_inner, close, create_hup_message, poll_next, drop"]}
{"id": "C148", "title": "The log tells what the main task does", "statement": "The records of the main task list the addresses of all attempts, the servers that refused the client and the lengths of all waits in order, with one warning for each other failure; the record of the suspension is written if and only if the task is suspended, with the true reason, as the last one.", "quantifier": "all histories of the main task, all texts of errors", "why_tests_cant": "all sequences of outcomes and clocks", "anchors": ["src/client.rs: connect, process_result, wait_for_retry, SuspendReason"]}
{"id": "C149", "title": "The log tells about every scan", "statement": "Every scan of the local network leaves two records: its beginning, and its end with the error, or with the number of services found and the current service table as a JSON document on the same line from which the table can be read back. A scanner thread that panics is reported by a warning.", "quantifier": "all histories of the command handler and the scanner threads, all scan results and tables, all paths", "why_tests_cant": "all interleavings of requests, scans and their ends; all strings of the network in the table", "anchors": ["src/cmd_handler.rs: network_scanner_thread, scan_completed", "src/utils/mod.rs: result_or_log", "src/svc_table/mod.rs: SharedServiceTableRef"]}
{"id": "C150", "title": "The client does not look at the data it carries", "statement": "Were the data bytes of some sessions others, of the same lengths, then the same connections would be opened and closed, the same control messages sent, data messages of the same sizes sent and written at the same moments, and the connection to the server would end in the same way, with only those bytes replaced; what is sent and written in one session does not depend on the data of the others, and the log of the sessions depends on no data.", "quantifier": "all replacements of bytes, session by session; all clients, tables and histories of a connection", "why_tests_cant": "a statement about all pairs of executions that differ in the data; any finite number of runs compares a few contents only", "anchors": ["src/net/arrow/session.rs: push_output_message, take_arrow_message, poll_read_input, poll_write_output, SessionManager", "src/net/arrow/mod.rs: process_arrow_message, process_service_request_message, poll_next"]}
{"id": "C151", "title": "The log of a connection is complete and gives nothing away", "statement": "In the log of a connection every control message that is received (but acknowledgements of data) and every control message that the protocol makes has a record with its name, in order; the other records are those of the sessions. The log does not depend on the password, the UUID, the MAC address or the extended information of the client, nor on the data of the sessions.", "quantifier": "all clients, tables, server messages, times and histories of a connection; all pairs of identities and of data", "why_tests_cant": "all histories, and all pairs of histories that differ in what must not be shown", "anchors": ["src/net/arrow/mod.rs: send_register_message, send_update_message, send_ping_message, process_control_protocol_message, process_ping_message, process_get_status_message, process_get_scan_report_message", "src/net/arrow/proto/msg/control/mod.rs: ControlMessageType"]}
{"id": "C152", "title": "The log tells which networks were scanned and which were not", "statement": "For every network interface that may be scanned, in order, the log has a record for each scan that was begun, and a warning with the name of the interface and the error if one of them failed; there is nothing about other interfaces. So no network is missing from a report without a warning, and there is no warning without reason. After the networks come the searches for RTSP services, RTSP streams, HTTP services and MJPEG streams, each once and in this order.", "quantifier": "all interfaces, whitelists, results and errors of the scans of the networks, and all answers of the devices", "why_tests_cant": "every combination of interfaces and of scans that fail or succeed", "anchors": ["src/scanner/discovery.rs: scan_network, find_open_ports, find_open_ports_in_network, find_open_ports_on_hosts, find_rtsp_services, find_http_services, find_rtsp_streams, find_mjpeg_streams, DiscoveryError"]}
{"id": "C153", "title": "What a scan found is reported", "statement": "A host that answered to one of the scans of a network is in the report. (False: when the port scan of a network fails, the hosts that its ARP and ICMP scans have found are lost. What holds: the other networks are reported as if the failing one did not exist.)", "quantifier": "all interfaces and results of their scans", "why_tests_cant": "every scan of every network may fail after others have found something", "anchors": ["src/scanner/discovery.rs: find_open_ports, find_open_ports_in_network, find_open_ports_on_hosts"]}
{"id": "C154", "title": "The identity of the client never changes silently", "statement": "The log of a start has a warning for every file that could not be read or written, and at last the UUID and the MAC address in use. A client runs with the identity of its configuration file, or the log has a warning about this file and the client runs with the identity of the skeleton, or there are warnings about both files and the identity is new. The log does not depend on the password.", "quantifier": "all files, fates of file operations, error texts, services and command lines; all pairs of passwords", "why_tests_cant": "every combination of damaged, missing and unwritable files", "anchors": ["src/storage.rs: load_configuration, load_configuration_file, save_configuration_file, save_identity_file", "src/config.rs: ConfigBuilder::build", "src/client.rs: ArrowClient::new_with_connector", "src/utils/mod.rs: result_or_log"]}
{"id": "C155", "title": "No failed save of the configuration is silent", "statement": "A scan or a reset leaves the version of the configuration and the file as they are and writes nothing to the log, or it increases the version and then either the file has the new version and the current service table, or the log has exactly one warning with the name of the file and the error. As long as there is no such warning, the file has the version and the identity of the running client.", "quantifier": "all histories of scans and resets, fates of the writes and error texts; all files and clients", "why_tests_cant": "every combination of failing writes and scans over months", "anchors": ["src/config.rs: ApplicationConfig::reset_service_table, update_service_table, save", "src/storage.rs: DefaultStorage::save_configuration"]}
{"id": "C156", "title": "No given CA certificate path is ignored silently", "statement": "Every path given for CA certificates either has its certificates trusted or has a warning with its name in the log.", "quantifier": "all lists of paths, file trees, certificate readers and error texts", "why_tests_cant": "every file tree with every failure in it", "anchors": ["src/storage.rs: DefaultStorage::load_ca_certificates, SslConnectorBuilderExt::load_ca_certificates, is_cert_file"]}
{"id": "C157", "title": "The server gets what a service sent, up to its window", "statement": "For each session the data sent to the server is never more than 65536 bytes plus what the DATA_ACK messages of the server acknowledged since the session was opened, the session knows exactly how much it may still send, and while the server is silent all that was read from the service is sent up to that window.", "quantifier": "all connections, all sessions in them, all interleavings of server messages, timers, polls and service I/O", "why_tests_cant": "the sums range over whole histories of any length", "anchors": ["src/net/arrow/session.rs: SessionContext::process_data_ack, SessionContext::take_arrow_message", "src/net/arrow/mod.rs: process_data_ack_message"]}
{"id": "C158", "title": "A server that respects the window of the client is never cut off", "statement": "As long as the server sends for a session no more than 65536 bytes beyond what the DATA_ACK messages of the client confirmed, each of its data messages is accepted as a whole, the session stays open until the service, its connection or a HUP ends it, and all data is written to the service or waits to be written; no byte of a message beyond the window is accepted.", "quantifier": "all connections, all sessions in them, all interleavings of server messages, timers, polls and service I/O", "why_tests_cant": "the sums range over whole histories of any length", "anchors": ["src/net/arrow/session.rs: SessionContext::push_output_message, SessionContext::take_data_ack, SessionContext::poll_write_output", "src/net/arrow/mod.rs: ArrowClientContext::poll_next"]}
{"id": "C159", "title": "Going beyond the window of the client costs the server that session only", "statement": "When a data message goes more than 65536 bytes beyond what the client confirmed for its session, the server gets a HUP for that session with the error code 3 after a bounded number of polls of the client, nothing more is written to the service of the session, the connection goes on, and every other open session stays open with all its data and its window.", "quantifier": "all connections, all sessions in them, all histories before the message, all later events without input of the server", "why_tests_cant": "the history before the message and the other sessions are arbitrary", "anchors": ["src/net/arrow/session.rs: SessionContext::push_output_message, SessionContext::set_error, SessionManager::send, SessionManager::poll_next", "src/net/arrow/mod.rs: ArrowClient::poll_next"]}
{"id": "C160", "title": "The client listens while it waits to send", "statement": "While a connection is up, what the server has sent is handled when the connection task runs, whether or not the server takes what the client sends; a server whose ACK arrives within 20 seconds keeps its connection.", "quantifier": "all states of a connection on its TLS stream with a message that waits for the sink, all sequences of reads, polls, writes, ticks and session progress", "why_tests_cant": "needs a server that answers while it takes no data, for longer than the timeout", "anchors": ["src/net/arrow/mod.rs: ArrowClient::connect, ArrowClient::poll_next, ArrowClientContext::check_timeout", "src/net/arrow/proto/codec.rs: ArrowCodec"]}
{"id": "C161", "title": "A redirect that the client has read is followed", "statement": "When a registered server sends REDIRECT and the client reads it, the call of connect returns the target at most 20 seconds after the next turn of the watchdog, whatever the server does then, and everything sent before is written if the server takes it.", "quantifier": "all connections that a REDIRECT ended, all sequences of writes, write errors, watchdog turns, shutdowns and timeouts after it", "why_tests_cant": "needs a connection that breaks in the second after the REDIRECT, with unwritten data", "anchors": ["src/net/arrow/mod.rs: connect, ArrowClient::new"]}
