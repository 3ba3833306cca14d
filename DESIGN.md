# Formal model of arrow-client: design

Source under study: `/repo` (littlehill/arrow-client, Rust with some C), read as text only.
Prover: Rocq/Coq 8.16.1 with its standard library. No other library, no axioms.

## Layout

    properties.jsonl           the properties, in words
    MANIFEST.json              property -> theorems
    rocq/theories/Model/*.v    executable Gallina model, no proofs; every definition cites file:lines
    rocq/theories/Spec/*.v     independent definitions used in theorem statements
    rocq/theories/Proofs/*.v   lemmas and proofs
    rocq/theories/Props/*.v    property theorems only: `exact lemma. Qed.` + `Print Assumptions`,
                               each with an `Example` showing that the hypotheses are met by a concrete case
    rocq/theories/Tests/*.v    the unit tests of the repository, replayed on the model
    seeded/LOG.jsonl           wrong programs tried against the theorems

A Model file never imports a Spec file.

## Conventions

* A byte is an `N`; `bytes := list N`. Where a statement needs it, `wf_bytes l` says all are < 256. Encoders always
  produce well-formed bytes.
* Rust `str`/`String` values are the byte lists of their UTF-8 encodings. UTF-8 validation is a modelled function.
* Fixed-width arithmetic is explicit: `as u16`, `as u32` are `mod 2^k`; where overflow matters a flag `ovf` tells
  whether overflow checks are compiled in. In Cargo.toml the release profile has no overflow checks and
  `panic = "abort"`; development builds check overflow and unwind. Theorems hold for both unless they name the flag.
* `usize` lengths are unbounded unless a property is about their overflow (`bits` is the pointer width then).
* A Rust panic is an explicit value (`RPanic`, `...Panic`), never a silent default. Undefined behaviour of the C
  interface is an explicit value as well.
* All functions are total. Where a loop of the program needs fuel, a theorem shows that the fuel never runs out.
* Wakers are booleans ("a waker is stored"); polls of a task are events chosen by the environment.
* Time is `Z` (nanoseconds), supplied by the environment; monotonicity is a hypothesis where it is used.
* Hash maps are association lists with distinct keys; the iteration order is arbitrary where it can be seen.
* Everything external (see "Parameters") is an argument or a Section variable: theorems hold for every behaviour of it
  except where a hypothesis in the statement says otherwise.
* A property that is false of the code has a theorem `..._refuted` with a concrete execution of the faithful model that
  violates it, and `..._partial` theorems for the strongest true version found. Its manifest status is `partial`.

## What models what

| Source | Model | Properties |
|---|---|---|
| net/arrow/proto/msg/mod.rs, proto/codec.rs, net/utils.rs | Frame.v | C01-C04 |
| net/arrow/proto/msg/control/* | Control.v, Service.v | C05-C12, C145 |
| net/arrow/session.rs | Session.v, Manager.v, Sockets.v, Journal.v | C13-C24, C69, C70, C122, C138, C139, C140, C141, C144, C145, C146, C147, C150, C157-C159 |
| net/arrow/mod.rs, net/arrow/error.rs, proto/error.rs | Client.v, Wire.v, Finish.v, ConnLog.v | C25-C32, C69, C71, C101, C109-C114, C117-C121, C123, C127, C129, C135, C137, C138, C140-C142, C144, C145, C146, C150, C151, C157-C161 |
| svc_table/mod.rs, svc_table/service.rs | SvcTable.v, TableJson.v, StableHash.v | C33-C38, C73, C107, C108, C123, C126, C128, C129, C135, C137 |
| config.rs (configuration) | Config.v, Start.v, JsonText.v, StartLog.v, SaveLog.v | C30, C39, C40, C93, C98-C103, C126, C128, C154, C155 |
| config.rs (command line) | CmdLine.v | C41, C42 |
| client.rs, runtime.rs, net/arrow/connector.rs | MainTask.v, Background.v, Runtime.v, Journal.v, StartLog.v | C43-C46, C49, C72, C104, C121, C124, C148, C154 |
| cmd_handler.rs | Background.v, ScanLog.v | C47, C48, C72, C149 |
| context.rs | Events.v | C50, C92 |
| net/url.rs | Url.v, Text.v | C51 |
| net/http/*, net/rtsp/mod.rs | Http.v, Request.v, Memory.v | C52-C57, C74, C81, C134 |
| net/rtsp/sdp.rs | Sdp.v | C56, C58, C75, C76 |
| net/raw/* (Rust) | Raw.v, Scan.v | C59-C62, C77, C78, C130, C131, C136, C137 |
| net/raw/pcap, net/raw/devices (Rust and C) | Capture.v | C94-C97 |
| scanner/* | Discovery.v, Probes.v, Scan.v, DiscLog.v | C63-C65, C76, C79, C130-C133, C135, C137, C152, C153 |
| utils/logger/* | Logger.v, Loggers.v | C66, C67, C80, C104-C106 |
| net/raw/ether/mod.rs | Mac.v | C68, C143 |
| net/tls.rs | Tls.v | C82-C84 |
| exports/*, include/arrow_client.h | Exports.v, Runtime.v, Handles.v | C85-C88, C124, C125 |
| all mutexes and callbacks | Locks.v | C115, C116 |
| storage.rs | Storage.v, Config.v, Start.v, StartLog.v, SaveLog.v, CaLog.v | C39, C89-C92, C98, C102, C103, C128, C154-C156 |

Text.v, Utf8.v, Bytes.v and Alist.v model the pieces of the Rust standard library used by the others;
C143 says what the text functions do without using them (C51 the slices, C53 the white space).
The anchors in properties.jsonl name the symbols; the comments in the models name the lines.

## Trusted base

1. The Coq kernel, 8.16.1. `Print Assumptions` is run under every property theorem in `Props/*.v` and answers
   `Closed under the global context` for each of them: no axiom is used, not even one of the standard library.
   (A listing of all constants in the loaded standard library shows `Coq.ssr.ssrunder.Under_rel.*`: these are fields of
   a module type in the library's ssreflect support, loaded by `Lia`'s preprocessing. No theorem depends on them.)
2. Our reading of the source: that each Model definition does what the cited lines do. Every simplification is stated in
   the comment of the definition.
3. The statements: the definitions in Spec and the types of the theorems in Props.
4. The behaviour of what is outside of the code, as listed next.

### Parameters (arbitrary unless a theorem has a hypothesis about them)

| Name | Stands for | Hypotheses used |
|---|---|---|
| `lc`, `uc`, `lossy` | `str::to_lowercase`, `to_uppercase`, `String::from_utf8_lossy` | stated per theorem (ASCII behaviour, identity on valid UTF-8) |
| `bits` | pointer width of the machine | none, or its size where a number is parsed as usize |
| `ovf` | overflow checks compiled in | none |
| `hash` | farmhash of the stable hash input (reduced to 16 bits by the code) | none: collisions are part of the model |
| `width`, `big` | pointer width and byte order when hashing | as named in C108 |
| `aprint`/`aparse`, `uprint`/`uparse` | printing and parsing of socket addresses and UUIDs | parsing inverts printing |
| `jparse` | `json::parse` of the json crate | reads back what the writer writes (proved for the modelled writer against an independent reader, C98) |
| `resolve`, `resolve_host`, `get_mac`, `feature` | name resolution, MAC of an interface, compiled-in features | none |
| `describe`, `get_header`, `is_rtsp`, scan results | answers of the probed devices | none |
| `io` | failure of the n-th file operation of the logger | none |
| `fresh` | the allocator | blocks do not overlap, where stated |
| `pem` | reading certificates from a file | none |
| `tr`, `en` | TCP stream and TLS engine (OpenSSL) | the stream errors as documented, where stated |
| `env`, `view`s in Client.v | clock, service table, commands, sessions' connections as seen during one call | none |
| `v6`, `ver` | printing of IPv6 addresses, version string of the crate | no white space, where stated |
| events `kev`, `wev`, `mev`, `sev`, ... | order of polls, timers, socket results, thread steps | none |

### Assumptions about libraries

* tokio runs a task again after it was woken; a single task is never polled concurrently; timers fire not before their time.
* `tokio_util` `Framed` reads and decodes as described in Wire.v (decode, read more, `decode_eof` at the end), buffers
  encoded frames in order; futures' `forward`/`send_all` takes an item only when the last one was accepted by the sink.
* `std` containers, `BytesMut`, `Path`, `str` methods behave as documented (modelled in Bytes.v, Text.v, Alist.v).
* The json crate's writer is modelled from its source as known (JsonText.v); its parser is a parameter.
* `flock` is exclusive between open file descriptions; `rename`, `open(O_TRUNC)`, `write` behave as POSIX says; a write can be torn
  only by a crash (Config.v) and, for the lock file, interleave per call.
* `#[derive(Hash)]` on a `repr(u32)`-like enum hashes the discriminant as in StableHash.v.
* The C wrappers are read as C on Linux; libpcap calls return what their manual says.
* The network a scan listens to is any function of the device, the filter and the frames sent; C130 and C131 assume that only
  frames that match the filter are delivered, with the filter language of pcap-filter(7) given in ScanSpec.v.
* C132 counts only the time devices take: the client's own work and the delivery of timers are instantaneous, and requests made
  together start together. The time the network scans take before the probes is bounded by C77.

### Not modelled

* OpenSSL itself, DNS, the kernel's TCP, libpcap, `getifaddrs` (only what the code does with their answers).
* The scheduler: theorems about several tasks or threads quantify over all interleavings of the modelled steps;
  fairness is never assumed, so liveness is stated as "some step is possible" or "within n polls".
* Failing memory allocation, other than capacity overflow (C56) and `ac__malloc` (C85).
* `Display`/`Error` implementations and the wording of log messages other than those of the session manager, the main task
  (Journal.v), the scanner threads (ScanLog.v), the scans (DiscLog.v), the start (StartLog.v), the saves (SaveLog.v), the CA certificates (CaLog.v) and a connection (ConnLog.v); where all messages go and how they are framed is modelled.
* Windows variants of the C wrappers, the usage text, and build scripts.
* Destructors, except where a property is about freeing (C85, C86) or closing (C49).
* The main task (MainTask.v) goes on from the result at the end of the client's stream. The flush and the close of the sink between that
  and the return of `connect` are in Finish.v, after a connection on the wire; C43-C46, C117 and C121 do not see the write errors there;
  for the main task such an error is the same as a connection that broke just before its last message (C161_as_broken).

## How the main groups are proved

* Codecs (C01-C12, C51-C60, C68, C98, C99): an independent reader or layout in Spec; round trips both ways, exact acceptance,
  and independence of how the input is cut into pieces, by induction over the input.
* Sessions, manager, client, wire (C13-C32, C69, C70, C109-C114): a step function over events chosen by the environment;
  statements about histories (what was received, queued, sent, read, written) that are computed from observations, not stored
  in the state; invariants by induction over the list of events. C145 numbers the messages of all parts by one counter.
* Progress (C138-C142, C144, C146): bounds on the polls a message waits for, from what is ahead of it; C144 puts the parts together for a
  conversation from the CONNECT of the server to the answer it gets.
* Table and configuration (C33-C42, C73, C107, C108): invariants over all sequences of operations; the hash is arbitrary.
* Main task, commands, listeners, scans, lock file (C43-C50, C89, C97): small-step interleavings of several threads.
* Parsers against attackers (C52-C58, C61, C74, C75): totality, exact characterisation of inputs that panic, bounds on
  buffers and on stack depth.

## Findings

What the refutations and the reading found, by area. "(Cnn)" names the theorem; items without it are observations made
while modelling.

Protocol and sessions
* CONNECT, HUP and DATA_ACK carry 32-bit session IDs, data frames 24: IDs that differ in the upper byte collide, and data are
  sent under another session's ID (C12, C112).
* Payloads of 2^32 bytes or more are announced with a truncated length (C04). The scan report truncates port counts (C10).
* Data read from a service are dropped if it closes while the window is used up (C19); data accepted from the server are
  dropped at hang-up (C20). Acknowledgements go before data: data of a service waits while the server goes on sending (C139). Control messages go before sessions: a server that keeps sending PINGs keeps all sessions waiting (C140).
* CONNECT for an ID in use is answered with HUP for the running session (C21). An ID reused before its stale entry is polled is
  scheduled twice (C22).
* A change of the service table between two reads of one tick is never announced (C29). A reset of the table is invisible to a
  running connection (C30).
* The service ID of a data frame is not compared with that of the session.
* Read errors and an end of stream inside a frame are reported as `Other` errors (C113).
* The client does not read while it cannot write: with a full sink nothing from the server is handled, and an ACK that arrived in time
  does not save the connection from the timeout (C160).
* A server may open any number of sessions, and a HUP does not stop a connection that is being set up (C122).
* After RESET_SVC_TABLE on an open connection, scan reports use the IDs of the new table and CONNECT those of the old one: a server that asks for a reported service can reach another device (C120).
* The length of a frame is not limited: a server can make the client collect 4 GiB before the first message is handled (C119).
* A redirect is followed without delay, so two servers can keep a client busy (C43-C46).
* A redirect is lost if the connection breaks in the second after it with unwritten data in the sink: `send_all` reports the write error
  and the client waits and goes back to the configured address (C31, C161). In the same way the diagnostic mode can report a failure
  although the service accepted the registration (C46).

Table and configuration
* A service whose addition finds an invisible entry stays invisible until the next refresh (C37); a configured service discovered
  before stays a discovered one and expires (C36). The version counter wraps at 2^32.
* Saving writes in place: a crash can lose the identity if there is no skeleton file (C39). A failed save is not repeated and a scan
  whose changes cancel out writes (C40). `--flash-friendly` is parsed and dropped (C41).
* An empty optional path is read back as none (C38). Duplicate and control entries in a document are accepted and break the
  consistency of the table (C73). Paths with NUL bytes break the C export (C87).
* A document with 65536 or more services stops the program instead of being refused (C126), and so does one more service for a full
  table (C128). A last-seen time near 2^63 in a document counts as long ago (C36).
* The identity file is written before the configuration (C103). Equal paths for lock, configuration and identity files erase each other.
* `-v` does not reach the storage's logger (C106).
* The stable hash depends on the byte order of the machine (C108).

Main task, commands, listeners
* Discovered services expire only when a scan succeeds: without one they stay for ever.
* Storage functions are called with the application context locked and log callbacks with the logger locked: a callback that uses the
  client blocks it for ever (C116).
* "Connected" is reported before the connection stands (C45). A crashed scanner thread leaves "scanning" set for ever in development
  builds (C48). The command handler never ends (C49). A scan outlives a client that was freed and joined: its thread calls the
  application back and then panics on the broken command channel, which aborts the application in release builds (C72, C124). Overlapping state changes are lost for some listeners (C50).

Parsers and packets
* Content-Length above isize::MAX panics (C56). A smaller one is allocated before the body arrives: with 56 bytes an RTSP device makes the
  client ask for 2^63-1 bytes, and the failed allocation ends the whole process, not only the task (C134). 1xx responses are taken as final. The line after a chunk is not checked.
* SDP: recursion as deep as the number of sections (C75), attributes after a `t=` line dropped (C58), numbers of 2^32 or more panic in
  development builds (C56), a line of exactly the limit is refused.
* Frames with short headers crash the parsers (C61). The ICMP checksum is wrong for sequence numbers of 256 or more (C59). The TCP urgent
  pointer is lost (C60). Ethernet padding becomes payload (C60).
* Empty port ranges, port 65535 alone and the network 255.255.255.255/32 break the generators (C62).
* Bracketed IPv6 hosts are given to the resolver and to certificate checks with brackets (C84).

Scanner and probes
* Paths with line breaks inject header fields or requests; paths without a leading slash name other hosts (C81). The Host header omits
  the port. A path that needs authorization hides playable paths after it (C76-C79).
* Probing takes up to two seconds for each path in the lists, one path after the other, and one slow device delays the report of all: 674
  seconds with the files of the repository (C132), more than twice the period of scans.
* Services with the same identity are reported once (C79): two devices behind one router displace each other (C133). A device with several addresses causes a write at every scan (C40).
* Errors of the capture wrapper are taken for packets (C94). A null netmask is dereferenced (C96). Packets are sent although nothing
  listens (C97).
* The senders of ARP and SYN-ACK frames are not compared with the network, and a SYN-ACK counts without a question: one forged frame
  puts any address of the internet into the report and the service table (C130), and a server can then be connected to it
  through the client (C135). One odd ARP frame ends the scan with a panic (C131). The
  listener counts its two seconds of silence from its start, also while requests are still being sent: a device that answers
  at once is missed if it is asked later than that and nothing else was heard (C136). One port of
  each host is probed for streams: a camera with its stream at the second port that speaks RTSP is reported without one (C137).

TLS, storage, logs, C interface
* A silent first address blocks all others until the timeout of the attempt (C83).
* The lock file is truncated before it is locked (C89). Blank lines of a path file are paths; one bad line loses them all (C90). One bad
  file ends the loading of a certificate directory (C91). A CA path where nothing is, or without a certificate's extension, is ignored
  without a warning (C156). The state file is stale after a failed write and at start (C92).
* Rotation count 0 never returns or panics (C67). Every log I/O error panics (C80). Line feeds in messages forge log lines; the server
  can send them in a REDIRECT (C104).
* The warning "network scanner thread panicked" cannot be written: the command handler joins a scanner thread only after the
  thread has reported the end of its scan, which a thread that panics never does (C149).
* When the port scan of a network fails, the hosts already found by its ARP and ICMP scans are dropped from the report (C153).
* `ac__malloc` gives blocks of alignment 1 that are read as arrays of pointers (C86); null and overflow are undefined behaviour (C85).
  The header does not say that the logger of a default storage is taken, that strings must be UTF-8 and that a client or a join
  handle can be NULL: programs that keep to it can free twice or use a null pointer (C125).
  A NUL in a message makes the log callback panic for good (C88). `load_pem`/`load_der` add client CAs, not trusted roots.

## Checking the model against the repository's own tests

The code cannot be run here, but its authors' expectations are in the repository: 38 unit tests. `Tests/RepoTests.v` states 34 of them
about the model, and all hold by computation; the other four are about small helpers that are not modelled. The tests of the service
table name IDs that come from farmhash. With the published algorithm in place of the parameter `hash` the model gives the same IDs
(640, 93 and 11717), so the bytes fed to the hash (C107, C108) are confirmed as well. These are tests, not proofs, and no claim in the
manifest rests on them.

## Seeded mutations

`seeded/LOG.jsonl` has one line per wrong program: the definition edited in a scratch copy, the edit, the claim it breaks, the
theorems that failed and, if none did at first, the theorems tightened until one did. Mutants that are equivalent to the program are
marked as such.
