# Machine-checked model of byrcoder/sps

This directory holds a Rocq/Coq 8.16.1 model of the parts of `sps` (a C++
streaming proxy, source in `/repo`) whose behaviour is *logic*: codecs,
parsers, framing, caches, routing, session state machines.  Every property in
`properties.jsonl` is stated over that model and proved for all inputs or all
histories.

## Modelling conventions

* Bytes and C integers are `Z`.  A byte is a `Z` with `0 <= b < 256`; buffers
  are `list Z`.  Wrap-around is written out (`mod 2^8/16/32/64`) wherever the
  code relies on or suffers from it.
* Undefined behaviour (out-of-bounds read/write, failed `assert`, `memcpy`
  with a wrapped length, null dereference) is a separate outcome `UB` of the
  result type `res A := Ok a | Err code | UB | Fuel`.  It is never a normal value.
* Loops are structural recursions or recursions on explicit fuel; running out
  of fuel is a separate outcome `Fuel` and theorems exclude it.
* Transports (sockets, files) are a list of non-empty chunks; one `read` of
  size n returns at most n bytes of the first chunk.  All theorems quantify
  over the chunk list, i.e. over every partition of the stream into reads.
* Coroutines: the server runs on State-Threads (cooperative).  A code section
  without a blocking call is one atomic step; theorems quantify over the list
  of steps.
* `3rdparty/` is empty in this checkout (http_parser, librtmp, libsrt,
  state-threads).  Their behaviour, where needed, is an input of the model: an
  explicit parameter, a list of answers, or any object meeting a contract that
  is written out in an `S_*.v` file.
* Order of evaluation: `read_int16` is `read_int8() << 8 | read_int8()`, whose
  operand order is unspecified in C++.  The model takes left-to-right (what
  GCC and Clang do); this is part of the trusted base.

Layout of `rocq/theories`: `Base.v` (shared vocabulary), `M_*.v` models with
file/line citations, `S_*.v` independent specifications, `L_*.v` lemmas,
`P_*.v` property theorems, each followed by an `Example` that meets its
hypotheses and by `Print Assumptions`.

A property that is false of the code is recorded in one of two ways.  Either a
theorem ending in `_refuted` gives a witness, next to the strongest true
statement.  Or the property in `properties.jsonl` states the wrong behaviour
itself, and the theorem shows it for every input of the stated kind.

## Plan per property

| id | modelled | proof |
|----|----------|-------|
| C01 | `BitContext` read side, cursor state (pos, remaining bits, shift register) | refinement: cursor abstracts to a bit list; induction over widths |
| C02 | `BitContext` write side incl. the mask table | per-chunk lemma by finite sweep, induction over fields; iff characterisation and refutation witness |
| C03 | `size_bits`, `acquire`, `skip_read_bytes` with size_t wrap | arithmetic |
| C04 | `AVBuffer` + `BytesReader::acquire` over a chunked transport | refinement to an abstract byte stream |
| C05 | `MemoryReaderWriter::read_line` | induction over the text |
| C06 | FLV muxer and demuxer | round trip using C04 |
| C07 | FLV muxer against an independent FLV grammar | induction over packet list |
| C08 | FLV demuxer on arbitrary bytes with UB outcome | invariant |
| C09 | `AVGopCacheStream` | invariant over histories against a declarative spec |
| C10 | caches + publisher/subscriber | invariant over interleavings |
| C11 | `MepegtsCacheStream` | invariant, refutation of boundedness |
| C12 | `StreamCache`, `StreamHandler::publish` as an event system | invariant over interleavings |
| C13 | `CharBuffer` | induction over appended pieces; refutation with head room |
| C14 | RTP header | bounds + spec equality |
| C15, C16 | FU reassembly | induction over fragments |
| C17 | RFC 3640 AU headers | round trip + bounds |
| C18 | RTCP SR/RR | bounds |
| C19, C20 | H.264 Annex-B split, AVCC output | round trip, induction |
| C21 | ADTS parser | induction over frames; refutations |
| C22-C24 | TS packet, adaptation field, PES reassembly | invariant, refutations |
| C25 | HTTP head reader | induction, scan invariant |
| C26-C28 | HTTP body framing, both sides | round trip |
| C29-C31 | URL and request serialisation | round trip |
| C32, C33 | configuration parser | round trip over trees, balance |
| C34, C35 | host table, server merge, router | refinement to finite map |
| C36 | phase handler chain | induction |
| C37-C41 | RTMP session state machine, ack counter, mux/demux | invariants, round trip |
| C42 | UDP session queue | refinement to FIFO |
| C43 | SRT stream id | induction, refutation |
| C44 | `read_fully` loops | induction over chunks |
| C45-C47 | RTP H.264: aggregation, parameter sets, short payloads | case analysis over packet types |
| C48-C54 | TS: last unit, long and declared lengths, tables, forwarding, chunking | invariant over packets; refutations |
| C55-C61 | HTTP: bad sizes, zero length, 32-bit lengths, relay, pipelining | induction over chunks and requests |
| C62-C66 | request URLs without or with odd Host, stream keys, formats | equations over the URL model |
| C67-C72 | configuration: structure, comments, braces, location table | induction over lines |
| C73-C79 | host merge, shared ports, server installation, proxy target | refinement to finite maps |
| C80-C85 | RTMP shared packets, byte interface both ways | simulation against the FLV model |
| C86-C94 | RTMP commands, pings, windows, counters, URLs | case analysis, invariants over messages |
| C95-C100 | UDP server, sessions, addresses | invariant over event lists |
| C101-C107 | SRT sockets and dispatcher | induction over answers; invariant over interleavings |
| C108 | accept loop over TCP and SRT listeners | induction over accept results |
| C109-C115 | TLS accept, init, acceptor, write, read | induction over network pieces, for every engine meeting the contract |
| C116-C120 | RTP sessions: media among reports, MPEG-TS over RTP, decoder choice, datagram sizes, ignored headers | induction over the datagrams; a session equals a fold of single decodings |
| C121-C128 | Stream requests: publisher to player end to end (FLV over HTTP, transport stream over SRT), how players end, who may publish, answers, a URL that stops the server, edge pulls | composition of C06, C08, C10 and C104 with the player's loop; invariant over the loop for any writer |
| C129 | UDP sessions are told apart by the peer's address and port, not by the local address | injectivity of the key text |
| C130-C134 | RTMP publishers and players: what messages become, republishing to RTMP and HTTP-FLV players end to end, how players end, who may publish | exactness of the read loop by induction; composition with C06, C104 and C121's player lemmas |
| C135-C142 | Starting the process, transports of ports, listening, certificates by server name | composition with the loader (C30s) and the installer; equivalence of certificate choice and routing |
| C143-C144 | Reading over TLS equals reading over a plain connection; whole requests over TLS | reading code as an inductive type of programs; simulation by induction on the program |
| C145-C148 | Body framing is transparent to readers; FLV uploads over HTTP and HTTPS, whole and cut short | a body reader as a transformer of programs; simulation by induction on the program, truncation by comparison with the whole connection |
| C149-C155 | Whole HTTP connections: independence of requests, responses told apart, answers that are missing or cannot be delimited | a homomorphism (earlier effects only prefix later ones), invariants of the sink, an RFC 7230 response reader as an inductive relation with a uniqueness proof |
| C156-C159 | Edges that pull over HTTP, chains of any number of servers, pulls that fail | the demuxer over the body reader of the client, simulated by a plain connection; snapshots have a canonical form closed under initial parts, so views compose; induction on the chain |
| C160-C162 | RTMP replies as a client reads them, transaction ids, the own client | an AMF0 reader and a reading of IEEE 754 bits written from the formats; every reply body is a list of pieces put into a bounded buffer; invariant over both loops of the connect phase |
| C163 | which reuse_port values share a port | the last setting of the option by splitting the list of settings; a kernel that refuses only SO_REUSEPORT makes the option visible |
| C164-C168, C172 | players waiting for an edge or for packets, with a clock (M_Wait on top of M_Live) | invariant over timed histories: deadlines, registered edges, empty queues of sleepers; the events behind a timed run are a history of M_Live, so C10 applies; who still refers to an ended edge is part of the state, since the destructor releases the name again (`calm` excludes events in that window); refutation witnesses |
| C169-C171 | the log (M_Log): what a line shows, percent signs, cutting, forged lines | formatted output as a reader of directives; statements as lists of words, strings and numbers; `doubled` relates a text to what a format without arguments prints |
| C173-C175 | coroutines and connection objects (M_Co): lifetimes, context ids | explicit references; invariant tying the owners of a handler to its life as told by the events alone; a ghost assignment of ids to handlers; refutation witnesses, one by induction on the number of connections |
| C176-C177 | whole SRT connections (M_SrtConn), clients that meet by stream id | composition of the stream id theorems (C43), the host table and the relay theorem (C128); induction on the play loop for its result |
| C178 | TCP reads and writes (M_Tcp) over a list of kernel events | induction on the calls; `coming` is the byte stream a list of events carries |
| C179-C181 | files (M_File): std::fstream as a text with three state bits, reads, lines, writes, and the copying loop of the FLV test | induction on reads and lines; simulation of reading programs by a connection (`reads_body`), then the FLV theorems |
| C182-C188 | HTTP heads end to end: callbacks to fields, request texts, faulty heads, proxy chains, spelling of names | round trips through texts, induction over fields and over chains of servers, witnesses for refutations |
| C189-C191 | The delivered configuration files: ports, hosts, what happens to every name; the unused upstream; the edge that pulls from its own server | the model run on the exact text of the files, lifted to all ports and names by induction over the tables; corollary of C157; witness for the refutation |
| C192-C193 | Which hosts fetch missing streams; the kinds of URL | case analysis for all inputs, from C30 |
| C194 | Video configuration for newcomers, and command frames that displace it | cache content (C09) read on the FLV bytes |
| C195-C196 | FFmpeg build: output stream and time of a packet; containers with other streams in front; packets without a time end the process | arithmetic of rescaling; mapping as a fold over the streams |
| C197-C198 | FFmpeg build: streams from SRT, unknown formats, unreadable content | case analysis over all library answers |
| C199-C200 | FFmpeg build: name reached by RTMP clients; newcomers; read and write results | exactness of URL parts; induction over the history |
| C201 | Mixed requests on texts and files | relation on the text that is left; refinement by induction over the requests |
| C202 | What a newcomer to a raw stream is given, in bytes | monotone order on what an identifier stands for; invariant over the run of the demultiplexer |
| C203 | Transport stream in, HTTP-FLV out | sanity invariant of the demultiplexer state (every queued packet is of four kinds), then C121's composition and the FLV round trip |
| C204-C206 | Empty AAC frames in FLV; key pictures in several slices; SEI as seen one server on | induction over packets; last-such reasoning on the snapshot (S_Cache) |
| C207-C208 | Transport stream or FLV in, RTMP out | the message of a packet by case analysis, for every offset (bits of the two masks); then C131's composition for any source |
| C209-C210 | FLV and RTMP players compared; times after parameter sets | arithmetic of the half bytes; sortedness over histories |
| C211-C213 | What is held for slow viewers and newcomers; names while edges run | corollaries of C10's invariant; induction over the packets of a continuation; last group of pictures by induction |
| C214-C218 | Time on TCP connections: recv_timeout and send_timeout | event lists with times; induction over programs of reads: with no gap the clock only cuts the stream; bounds by induction on events and on the bytes still asked for |
| C219 | Options in memory | refinement of M_Conf's last-item values by a memory of cells; members do not overlap (computed per structure), induction over defaults, items and blocks |
| C220 | Packets per source | induction over the packets with the counter of the cache as an int; witness of length 2^31 built without computing it |
| C221-C222 | Times of pictures from transport streams and RTP | composition of C23/C15 with the FLV round trip; division and moduli 2^33, 2^32, 2^24 by linear arithmetic |
| C223-C224 | HTTP over SRT and the download tool | simulation of SRT reads by plain reads, programs over reads; body framing theorems of C28/C56 |
| C225-C226 | UDP client sockets and the UDP load generator | induction on datagrams and on rounds of the loop; statements about every prefix of the events |
| C227-C228 | Length-prefixed H.264 and sequence headers | round trip and split by induction on units; refutations for every such record |
| C229 | The receiving end of the load generator | segmentation of the arrivals by induction; simulation of the generator's loop |
| C230 | RTMP publisher, any number of edges, RTMP or HTTP player | induction over the chain; one FLV hop only drops times of data and command frames |
| C231 | A message without media data ends the edges' streams | the reader refuses the tag, by cases of the message |
| C232 | Responses without a usable length | induction on the relay's reads; what is sent is the upstream's bytes whatever its end |
| C233 | Broken-off responses do not look complete | induction on the relay with the reader in any state; whole chunks without a last one are no chunked body, by unambiguity |
| C234 | Transport stream publisher, any number of edges | composition of C203/C207 with the chain of edges of C158/C230 |
| C235-C236 | Every packet of a table; exactly when a transport stream reads outside | exact outcome per packet over all payloads and adaptation fields; invariant of the pending units; induction over blocks, transfer to the demuxer on any transport |
| C237 | Exactly when an RTP session reads outside | gathering of datagrams by simulation; exact outcome per packet for each decoder; induction over packets |
| C238 | Exactly which RTMP clients are undefined | counts abstracted from the session object by simulation; one-step lemmas for the two loops and the publisher, induction over messages |
| C239 | SRT transport stream publishers, from messages to players | the demuxer restated as a program over reads, proved equal to `ts_demux`; reads-at-least-one-byte invariant; composition of C223, C236 and C128 |
| C240 | FLV reads outside the buffer: exactly when | a separate calculation of where each tag body lies; invariant relating it to the reader's pointer for every cutting; the rest of the buffer is the only unknown; lifted to HTTP uploads over the body programs of C145 |
| C241 | What becomes of every configuration text | relation over the lines with a stack of open blocks, deterministic and total; recursive reader proved equal to a stack machine by induction on the length; lines described through their words, both directions |
| C242 | Exactly which HTTP requests bring the server into undefined behaviour | equivalence over the connection loop by induction on the number of requests, with the invariant that the remembered request has the schema http or none; every component proved free of undefined behaviour except at the five places named by the specification |
| C243 | What becomes of every pull of an edge | relation with nine cases, deterministic, equal to the handler in both directions; body readers proved total by induction on programs |
| C244 | Every HTTP connection comes to an end within its bytes | measure: bytes left of the client's stream, which every step never lengthens and every served request shortens by four; the same for the relay of an upstream's answer; an FLV reader over a framed body is simulated on a plain connection bringing a subsequence of the bytes |
| C245 | Uploads and pulls of FLV streams end and publish nothing that was not sent | simulation: a reader over any framed body equals the reader on a plain connection whose bytes are a subsequence of those received; then the segment layout of FLV |
| C246 | An RTMP session follows its client message by message until it ends | induction on the messages received; the session on a concatenation is the session on the first part followed by the rest, unless it has ended |
| C247 | The clock follows the system's clock, and a dumped message can be read back | arithmetic of the division; the numbers of the dump are separated by blanks, which are no digits, and a hexadecimal text has one value |
| C248 | Decoding times of RTP pictures follow the server's clock, and sound is on another time line | every path of the decoder ends in the encoder of one unit with the clock of the call; induction on the datagrams; order from that of the clock |
| C249 | Sound that comes over RTP is delivered at the wrong speed | from the exact result of a session (C116): the j-th unit has its timestamp over 90; arithmetic of the division |
| C250 | Sound that came over RTP reaches a viewer of FLV complete, but without the decoder's configuration | the exact result of a session (C116) composed with the FLV round trip (C06) |
| C251 | What the server keeps of whatever the HTTP library reports | induction on the reports from the end; a separate relation for the fields, shown to determine them |
| C252 | Merging host tables joins them when no name is in both, and is not undone when it fails | the invariant between table and hosts (C34) holds of the merged table and the joined list; lookup from that |

## Trusted base

1. Coq 8.16.1's kernel, as run by `coqc` and `coqchk`.
2. `Print Assumptions` stands under every theorem in `P_*.v`.  Every one of
   them answers `Closed under the global context`: no axiom is used, neither
   from the standard library nor from anywhere else.
3. That the definitions in `M_*.v` say what the cited lines of `/repo` do.
   This is by reading; `/repo` was not compiled or run.
4. That the specifications in `S_*.v` and the statements in `P_*.v` say what
   `properties.jsonl` says in words.
5. The contracts of code that is not in `/repo`:
   * http_parser: any URL splitter meeting `url_lib_ok`.  The header parser is
     an input.
   * C and C++ library text functions (`stoi`, `strtol`, `stringstream`,
     `getline`): `M_Text.v`, from the standards.
   * librtmp: delivers type, timestamp and body of each message; `m_body` is
     null exactly for an empty body; chunk size 128 at the start.  AMF values
     are what it reports.  Its own acknowledgements and handshake are outside.
   * State-Threads: a coroutine runs without interruption to its next blocking
     call.
   * Kernel: a TCP stream arrives in order in pieces of any size; `st_write`
     writes everything or fails; `recvfrom` cuts a datagram to the buffer.
   * libsrt in live mode: whole messages, cut to the buffer; a send takes the
     whole message; registering events succeeds.  `epoll_update` of a socket
     that is not registered registers it.
   * OpenSSL: the records `two_flights` and `decrypts` in `S_Tls.v`.

## What is modelled

| model | source | left out |
|-------|--------|----------|
| `M_Bits`, `M_Fields` | `io/sps_io_bits.*` | nothing that is called |
| `M_IO` | `io/sps_io_bytes.*`, `io/sps_io_memory.*`, `read_fully` of `io/sps_io_socket.*` | time |
| `M_Packet`, `M_Cache` | `avformat/sps_avformat_packet.*`, `sps_avformat_cache.*`, `cache/*` | null packets |
| `M_Flv` | `avformat/sps_avformat_flvdec.*`, `flvenc.*` | |
| `M_H264`, `M_AAC` | `avcodec/*` | the `is_avc` branch, which no caller takes, is in `M_Avc` |
| `M_Rtp` | `avformat/sps_avformat_rtp.*`, `rtpdec_*` decoders | - |
| `M_RtpDemux` | `avformat/sps_avformat_rtpdec.cpp` (read loop, decoder choice), `rtpdec_ts.cpp`, `StreamDecoder::decode` | text printed for RTCP packets, errno cases of the socket |
| `M_Ts` | `avformat/sps_avformat_ts.*`, `tsdec.*` | descriptor bodies that are never read |
| `M_Http` | `module/http/*` head, body, response, proxy, phase chain; `io/url/sps_io_url_http.*` | header parsing inside http_parser |
| `M_Url` | `io/url/sps_io_url.*`, stream keys, format choice, SRT stream ids | |
| `M_Conf` | `module/sps_module*.cpp`, option tables | `include` of unreadable files, I/O errors while reading |
| `M_Host` | `module/host/*`, `module/server/*` merge and install | transport and TLS setup of a server |
| `M_Live` | `module/stream/*` registry, publish, play, edge with the second `stop` of its destructor | opening the edge's upstream |
| `M_Stream` | `module/stream/sps_stream.cpp` encode, `sps_stream_handler.cpp`, `sps_stream_edge.cpp` target and pull, `module/http/sps_http_stream_phase_handler.cpp`, `module/srt/sps_srt_stream_handler.cpp` | the clock behind the 10 seconds' wait; coroutine of the edge (in `M_Live`); answers of the origin inside http_parser |
| `M_RtmpRelay` | `module/rtmp/sps_rtmp_stream_handler.cpp` (build without FFmpeg), `sps_rtmp_module.cpp` phases, decode and encode loops of `module/stream/sps_stream.cpp` over RTMP | chunking inside librtmp (a send either passes the whole message or fails); the clock; what a player sends while it plays is never read |
| `M_Serve` | `main/sps_main_sps.cpp`, `UrlProtocol::create`, file opening in `io/url/sps_io_url_file.cpp`, transport choice in `module/server/sps_server_module.cpp`, `st_tcp_listen`, `st_srt_listen`, certificate choice in `sys/st/io/sps_sys_st_io_ssl.cpp` | OpenSSL, the SRT library and the kernel are oracles; the URL library is an oracle with contracts `url_lib_ok` and `refuses_empty_host`; State Threads initialisation is one number; file reads that fail half-way; the log |
| `M_Co` | `sys/sps_sys_co.*`, `sys/st/sps_sys_st_co.*`, the loop of `Server::accept`, `Registers` | the work of a handler is one call that may log; closing the socket stands for the end of the handler's destructor |
| `M_SrtConn` | `module/srt/*` phases, `sps_host_router_handler.cpp` | the packet loops, which are in `M_Ts` and `M_Stream` |
| `M_Tcp` | `StTcpSocket` over sequences of events | State-Threads' own calls are modelled from its sources |
| `M_File` | `io/url/sps_io_url_file.cpp`, the loop of `test/test_av_flv.cpp` | the C++ library's stream states as the standard says; no failing device while reading; the stream buffer counts as the file; no mixed reading and writing except a write after the end |
| `M_Https` | `Socket::read_fully`, `HttpParser::parse_header`, `HttpRequestSocket::read` once more, as programs that can run over TCP and TLS (proved equal to the functions of `M_IO` and `M_Http`) | OpenSSL is an oracle with the contract `decrypts`; reads of size 0 |
| `M_Upload` | HttpRequestSocket stacked under any reader; the FLV demuxer and `StreamDecoder::decode` once more, as programs (proved equal to `M_Flv`) | `StreamDecoder::running` is never cleared; uploads in other formats |
| `M_TsUp` | `SrtServerStreamHandler::publish` (reading loop) with `TsDemuxer::read_packet` on the SRT socket, as a program (proved equal to `M_Ts`) | `pop` of decoded packets between reads: they are collected instead (`M_Ts`) |
| `M_HttpConn` | The HTTP connection with its real handlers: parse, host router, 404, API stub, proxy, stream (with uploads read from the connection) | http_parser, upstream answers, the states of other streams and the demuxers of other formats are inputs; a proxied request with a schema other than http only as far as its missing response |
| `M_HParse` | HttpParser: the callbacks of http_parser, what parse_request and parse_response take from them | http_parser itself: what it reports on well-formed heads, and where it stops at a forbidden character in a field name, are hypotheses (met by an example library) |
| `M_Shipped` | conf/sps.conf, conf/srt.conf, conf/https.conf, byte for byte | - |
| `M_Edge` | `StreamEdge::handler` for http urls: `HttpUrlProtocol::open` and `read` as programs, the demuxer over them | http_parser is an input; the coroutine, the wait for it and the release of the stream at its end are not modelled; rtmp and file urls crash (C127) |
| `M_Get` | `StSrtSocket::read` under the HTTP readers, `tools/srt_http_client.cpp` | connecting and sending the request succeed; the SRT library is a list of answers; http_parser is an input |
| `M_RtmpReply` | the bodies `RtmpHook` writes: results, status messages, control messages, and the client's `send_connect`, `create_stream` | librtmp's AMF encoders and its own window, limit and control messages are taken to write what the formats say and to return null when out of space; the uninitialised fields of `RTMPPacket` are not modelled |
| `M_Wait` | `StreamEdgeEnter::start_edge/wait_edge`, `StreamEdge::wait` (sps_stream_edge.cpp), `StreamHandler::play` (sps_stream_handler.cpp:87-119), `AVDumpCacheStream::dump`, `StreamEncoder::encode` as coroutines with a clock | computing takes no time; the clock advances only while no coroutine is runnable and stops at deadlines (State-Threads is not in the checkout); a batch of writes is one event; formats without an encoder are left out |
| `M_Log` | `log/sps_log.cpp`, the macros of `log/sps_log.hpp`, six statements that print client text | `cfmt` stands for the C library's formatted output (C11 7.21.6.1) for the conversions used; integer arguments of any width fill one slot; `%m` counts as unknown. All other models leave the log out: they describe runs whose log lines are defined, which C170 shows clients can prevent |
| `M_Clock` | `sys/st/io/sps_sys_st_io_tcp.cpp` read, write and their limits; options recv_timeout, send_timeout | State-Threads' st_read/st_write are described from that library's sources (each wait at most the limit, anew after every part); computing takes no time; an event exactly at the limit may or may not be seen (`tie`); overflow of clock + limit left out; signals (EINTR) left out |
| `M_Opt` | `module/sps_module_opt.cpp` opt_set, `module/sps_module.cpp` set_default, the ConfCtx structures | layout of x86-64 with libstdc++; a std::string is one whole object; double, float and cstring options are not used by any table and left out |
| `M_Count` | `avformat/sps_avformat_cache.cpp` :35, the counter of AVGopCacheStream::put | on top of M_Cache; the other theorems about the cache use gop_put, which counts in Z |
| `M_Rtmp` | `rtmpdec`, `rtmpenc`, `io/url/sps_io_url_rtmp_ffmpeg.*` | chunk layer |
| `M_RtmpSess` | `avformat/sps_avformat_librtmp*.cpp`, `module/rtmp/sps_rtmp_server_handler.cpp` | client side of `RtmpHook` |
| `M_FFmpeg` | `avformat/sps_avformat_ffmpeg*.cpp` and the places that depend on FFMPEG_ENABLED | the FFmpeg libraries: guessing a format, opening an input, writing a header and a frame are oracles; av_rescale_q and av_packet_rescale_ts are written out as documented, which is trusted; bit stream filters, options and failing allocations are left out |
| `M_Udp` | `sys/st/io/sps_sys_st_io_udp.cpp`, server and sessions | creation of the socket |
| `M_UdpClient` | `StUdpClientSocket`, `tools/udp_client.cpp` | timeouts of the sends are results; the interval computed in double; the arguments |
| `M_Avc` | `NALUParser::decode` with `is_avc` and `is_seq_header` | the element pushed before a failure |
| `M_BlackHole` | `tools/udp_blackhole_server.cpp` | one session at a time; datagrams are read as they arrive; one clock |
| `M_Srt` | `sys/st/io/sps_sys_st_io_srt.cpp` | connect, listen, statistics |
| `M_Tls` | `sys/st/io/sps_sys_st_io_tcp.cpp`, `sps_sys_st_io_ssl.cpp`, `module/server/sps_server.cpp` | client handshake, listen, connect, host name lookup |
| `M_Time` | `util/sps_util_time.cpp` | the answer of gettimeofday is an input; char is signed (x86) |

Not modelled at all: most log statements, and `test/` except the
loop of `test_av_flv.cpp`.  `sp_debug` expands to nothing, because `SPS_HEAVY_LOG` is defined nowhere
(log/sps_log.hpp:85-90), so debug statements and the reads in their arguments are absent.

Each definition names the file and lines it follows.


## Testing the theorems

`seeded/LOG.jsonl` records edits of the model that imitate realistic bugs, made
in a scratch copy, with the theorems that then failed to build and the theorems
that were tightened because they had not.
