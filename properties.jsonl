{"id": "C01", "title": "Bit reader returns the consecutive big-endian bit fields", "statement": "Reading a buffer through the bit cursor with any sequence of field widths (each at most 32 bits, summing to at most the buffer's bit length) returns exactly the integers encoded by the consecutive big-endian bit slices of the buffer, never touches memory outside the buffer, and afterwards reports exactly the number of unread bits as its remaining size. A 33-bit read, which some callers perform, silently loses its most significant bit.", "quantifier": "for every byte buffer, every starting bit offset and every list of widths that fits", "why_tests_cant": "The set of buffers and of width sequences is unbounded; the cursor has 8 internal phases and the chunking of a read depends on the phase, so tests sample a handful of alignments only.", "anchors": ["src/io/sps_io_bits.cpp:BitContext::read_bits", "src/io/sps_io_bits.cpp:BitContext::next", "src/io/sps_io_bits.cpp:BitContext::size_bits"]}
{"id": "C02", "title": "Bit writer stores the requested fields exactly, except for six-bit pieces", "statement": "Writing a list of fields through the bit cursor and reading the same widths back yields the original values if and only if no byte-local piece of exactly six bits has its bit 4 set (the writer's mask for six bits is 0x2f instead of 0x3f). Bytes that were not written are unchanged, and earlier fields are never altered by later ones.", "quantifier": "for every buffer, every list of (value, width) fields that fits in it", "why_tests_cant": "A round trip over all values, widths and alignments is unbounded; the defect appears only for one chunk size and one bit, which example tests miss.", "anchors": ["src/io/sps_io_bits.cpp:BitContext::write_bits", "src/io/sps_io_bits.cpp:BitContext::next_write"]}
{"id": "C03", "title": "Bit-cursor bounds check is sound until the cursor runs past the end", "statement": "If the bit cursor lies within its buffer and a capacity check for n bits succeeds, then reading n bits stays inside the buffer; if it fails, fewer than n bits are left. The byte version has the same guarantee for n below 2^29. Once a skip has moved the cursor beyond the end, the check accepts every request, so the guarantee is lost.", "quantifier": "for every buffer, cursor position and requested count", "why_tests_cant": "The unsigned subtraction wraps only for positions past the end and counts past 2^29, which tests of normal streams never reach.", "anchors": ["src/io/sps_io_bits.cpp:BitContext::acquire", "src/io/sps_io_bits.cpp:BitContext::acquire_bits", "src/io/sps_io_bits.cpp:BitContext::skip_read_bytes"]}
{"id": "C04", "title": "Buffered byte reader is independent of how the transport splits the stream", "statement": "A parser that repeatedly asks the buffered reader for n bytes and then consumes at most n observes exactly the byte stream, in order, without loss, duplication or reordering, whatever sizes the underlying reads return, and the reader never writes beyond its buffer; a request is refused as 'buffer full' exactly when it exceeds the capacity (for rewindable buffers).", "quantifier": "for every byte stream, every partition of it into non-empty reads, every capacity and every sequence of acquire/consume operations", "why_tests_cant": "There are exponentially many partitions; rewinding happens only when a request straddles the end of the buffer.", "anchors": ["src/io/sps_io_bytes.cpp:BytesReader::acquire", "src/io/sps_io_bytes.cpp:AVBuffer::rewind", "src/io/sps_io_bytes.cpp:BytesReader::read_int8"]}
{"id": "C05", "title": "In-memory line reader returns the lines of the text", "statement": "Repeatedly reading lines from an in-memory text yields the newline-separated lines in order and then end-of-file, every line without its newline, except that a newline that is the very last byte of the text is kept in the last line. Line numbers count the lines returned. A write replaces exactly as many bytes at the position as it has and is refused if they do not fit; it does not move the position, so a second write overwrites the first.", "quantifier": "for every text", "why_tests_cant": "Text contents and the number and position of newlines are unbounded; the off-by-one occurs only at the very end of the text.", "anchors": ["src/io/sps_io_memory.cpp:MemoryReaderWriter::read_line"]}
{"id": "C06", "title": "FLV mux then demux returns the same packets", "statement": "Any sequence of packets (audio AAC, video H.264/H.265, metadata; non-empty payload, 32-bit timestamps, 24-bit signed composition offset, tag fitting the reader's 1 MiB buffer) written by the FLV muxer and read by the FLV demuxer through a transport with arbitrary read sizes yields the same sequence of packets: same type, flags, codec, packet type, dts, payload, and the same pts for audio and for video frames that carry a composition offset.", "quantifier": "for every packet list satisfying the stated field ranges and every partition of the byte stream into reads", "why_tests_cant": "Round trip over unbounded packet lists, payloads and read partitions.", "anchors": ["src/avformat/sps_avformat_flvenc.cpp:FlvAVMuxer::write_packet", "src/avformat/sps_avformat_flvdec.cpp:FlvDemuxer::read_packet", "src/avformat/sps_avformat_flvdec.cpp:FlvDemuxer::read_header"]}
{"id": "C07", "title": "FLV muxer output is a well-formed FLV file", "statement": "For every sequence of packets accepted, the bytes emitted form an FLV file: 9-byte header, then for each packet a back pointer equal to the full size (11 + data size) of the preceding tag (0 for the first) and a tag whose 24-bit size field equals its body length, as long as bodies are below 2^24 bytes.", "quantifier": "for every packet list", "why_tests_cant": "The back pointer is carried as hidden state from one call to the next; lists are unbounded.", "anchors": ["src/avformat/sps_avformat_flvenc.cpp:FlvAVMuxer::write_packet", "src/avformat/sps_avformat_flvenc.cpp:FlvAVMuxer::write_header"]}
{"id": "C08", "title": "FLV demuxer never hands out bytes it did not receive", "statement": "On arbitrary input, each packet the FLV demuxer returns has a payload that is a contiguous slice of the received stream, of the length declared in its tag minus the codec prefix, and successive packets are disjoint and in order. A tag too short for its codec prefix makes it read past the received data (stale buffer contents) before it reports an error.", "quantifier": "for every byte stream and every partition into reads", "why_tests_cant": "Arbitrary malicious input; the over-read occurs only for truncated tags at particular buffer positions.", "anchors": ["src/avformat/sps_avformat_flvdec.cpp:FlvDemuxer::read_packet"]}
{"id": "C09", "title": "GOP cache content is exactly the last headers plus the packets since the last keyframe", "statement": "After any history of packets, what a newcomer is given is: the most recent metadata, the most recent audio sequence header, the most recent video sequence header (each only if one was seen), followed by every non-header packet since and including the most recent keyframe, in arrival order; if no keyframe was seen no media is given. In particular replayed media always starts at a keyframe.", "quantifier": "for every packet history", "why_tests_cant": "Histories are unbounded and the classification order matters (a sequence header is never treated as a keyframe although its flags say so).", "anchors": ["src/avformat/sps_avformat_cache.cpp:AVGopCacheStream::put", "src/avformat/sps_avformat_cache.cpp:AVGopCacheStream::dump", "src/avformat/sps_avformat_packet.cpp:AVPacket::is_keyframe"]}
{"id": "C10", "title": "Every viewer receives the cached prefix and then every later packet exactly once in order", "statement": "A viewer that joins a live stream at any moment and polls at arbitrary moments has, at every instant, received-or-queued exactly: the newcomer snapshot at its join followed by every packet published since, in order, without loss or duplication, independently of the other viewers joining, polling or leaving.", "quantifier": "for every interleaving of publish, join, poll and leave operations of any number of viewers", "why_tests_cant": "Requires all interleavings of an unbounded number of viewers with the publisher.", "anchors": ["src/cache/sps_cache.hpp:CacheStream::put", "src/sys/sps_sys_sync.hpp:Publisher::publish", "src/avformat/sps_avformat_cache.cpp:AVDumpCacheStream::dump", "src/module/stream/sps_stream_cache.hpp:StreamCache::get_client_streamcache"]}
{"id": "C11", "title": "MPEG-TS newcomer cache is never trimmed", "statement": "The TS cache is meant to restart at each payload-unit start, but its test can never be true, so after any history the cache holds every non-PSI packet ever published, followed by newcomers in full: memory and the newcomer's backlog grow without bound.", "quantifier": "for every packet history", "why_tests_cant": "Unbounded growth is a statement about all histories; tests with short streams see plausible output.", "anchors": ["src/avformat/sps_avformat_cache.cpp:MepegtsCacheStream::put", "src/avformat/sps_avformat_packet.cpp:AVPacket::is_payload_unit_start_indicator", "src/avformat/sps_avformat_tsdec.cpp:TsCache::on_packet"]}
{"id": "C12", "title": "At most one publisher per stream; the registry is consistent", "statement": "For every history of publish attempts, publisher terminations and plays on any stream names: at any time each stream name has at most one active publisher, a second publisher is refused with 'has source' and does not disturb the first, and a name can be published again once its publisher ended. A play succeeds iff the stream has a source or its host is an edge. This is for streams without an edge pull: an edge pull started while a publisher is active replaces the registered source.", "quantifier": "for every interleaving of publish/end/play events on any number of names", "why_tests_cant": "Needs all interleavings of arbitrarily many clients.", "anchors": ["src/module/stream/sps_stream_handler.cpp:StreamHandler::publish", "src/module/stream/sps_stream_cache.hpp:StreamCache::create_av_streamcache", "src/module/stream/sps_stream_cache.hpp:StreamCache::release_av_streamcache"]}
{"id": "C13", "title": "Packet buffer append stores bytes where readers look, when there is no head room", "statement": "Appending any pieces to an empty packet buffer without head room makes its contents the concatenation of the pieces and never writes outside the allocation as long as the total does not exceed the declared capacity. With reserved head room (every media packet reserves 20 bytes) an append writes to the wrong offset: readers see different bytes.", "quantifier": "for every capacity, head room and list of appended pieces", "why_tests_cant": "Depends on arbitrary sizes; the defect shows only for buffers with head room.", "anchors": ["src/cache/sps_cache_buffer.hpp:CharBuffer::append", "src/cache/sps_cache_buffer.hpp:CharBuffer::pos", "src/cache/sps_cache_buffer.cpp:CharBuffer::CharBuffer"]}
{"id": "C14", "title": "RTP header decoding is memory-safe and extracts the RFC 3550 fields", "statement": "For every datagram, decoding the RTP fixed header, CSRC list and extension never reads outside the datagram, and for datagrams without extension and padding the version, flags, payload type, sequence number, timestamp, SSRC and CSRCs are the RFC 3550 fields and the rest is the payload. With extension data the code takes the length field as bytes rather than 32-bit words, so three quarters of the data are handed to the payload decoder.", "quantifier": "for every byte string", "why_tests_cant": "All malformed datagrams cannot be enumerated.", "anchors": ["src/avformat/sps_avformat_rtp.cpp"]}
{"id": "C15", "title": "Fragmented H.264 RTP units are reassembled exactly", "statement": "For every NAL unit and every way of cutting it into two or more FU fragments, feeding the fragments in order produces exactly one NAL unit, identical to the original, on the fragment with the end bit, and leaves the reassembler ready for the next unit; nothing is produced earlier.", "quantifier": "for every NAL unit and every partition of it into fragments, repeated for any number of units", "why_tests_cant": "Partitions and units are unbounded.", "anchors": ["src/avformat/sps_avformat_rtpdec_h264_hevc.cpp"]}
{"id": "C16", "title": "Losing an FU end fragment blocks the next unit and delivers a spliced one", "statement": "If the fragment carrying the end bit of a unit is lost, every later start fragment is rejected and leaves the reassembler unchanged, and the end fragment of the next unit delivers one corrupted unit: the stale bytes followed by the next unit without its first fragment.", "quantifier": "for every later sequence of start/middle fragments", "why_tests_cant": "It is a statement about all continuations of a lossy history.", "anchors": ["src/avformat/sps_avformat_rtpdec_h264_hevc.cpp"]}
{"id": "C17", "title": "RTP AAC access units are split exactly and safely", "statement": "For every RTP AAC payload, splitting into access units never reads outside the payload; for every list of access units encoded with 13-bit size / 3-bit index headers that fits a datagram, exactly those units are returned in order.", "quantifier": "for every payload, and for every list of access units", "why_tests_cant": "Unbounded lists of units and all malformed payloads.", "anchors": ["src/avformat/sps_avformat_rtpdec_aac.cpp"]}
{"id": "C18", "title": "RTCP parsing is defined except for source descriptions", "statement": "For every byte string, RTCP parsing never reads outside the received bytes, except that a source description with at least one chunk always dereferences the end of an empty list. Sender and receiver reports made of the 20-byte blocks the code expects are returned exactly; a standard 24-byte report block is misread.", "quantifier": "for every byte string", "why_tests_cant": "All malformed inputs cannot be enumerated.", "anchors": ["src/avformat/sps_avformat_rtpdec_rtcp.cpp"]}
{"id": "C19", "title": "Annex-B splitting returns exactly the NAL units", "statement": "For every list of NAL units that contain no 00 00 01 sequence, concatenating them with start codes after any leading bytes without a start code and splitting the result gives back exactly those units in order, where zero bytes in front of a start code (a 4-byte start code has one) stay at the end of the previous unit. Splitting any byte string never reads out of bounds; when it succeeds, the returned units with their start codes are all the bytes from the first start code on.", "quantifier": "for every list of NAL units, every byte string", "why_tests_cant": "Unbounded inputs with overlapping start-code patterns.", "anchors": ["src/avcodec/sps_avcodec_h264_parser.cpp"]}
{"id": "C20", "title": "H.264 Annex-B to AVCC conversion keeps every slice and the parameter sets", "statement": "For every access unit of NAL units, the produced packets are: one AVC sequence header built from the last SPS and last PPS when they are present, and one packet for each IDR/non-IDR slice and SEI, in order, whose payload is the 4-byte big-endian length followed by the NAL unit; the key-frame flag is set iff the unit is an IDR slice; media packets carry the timestamps divided by the time base. The sequence header is not the ISO 14496-15 record: the profile-compatibility byte is always zero and the reserved bits are clear.", "quantifier": "for every list of NAL units", "why_tests_cant": "Unbounded inputs.", "anchors": ["src/avcodec/sps_avcodec_h264_parser.cpp"]}
{"id": "C21", "title": "ADTS frame splitting is exact and emits a correct AudioSpecificConfig", "statement": "For every list of valid ADTS frames the parser emits exactly the raw AAC frames in order, with a sequence header holding the two-byte MPEG-4 AudioSpecificConfig before the first frame, before every frame whose parameters differ from the previous one, and before every frame that carries a CRC. Every byte string is such a list of frames followed by nothing, by a tail that is rejected with an error, or by a tail (missing CRC, frame length smaller than the header or larger than the data) that makes the parser read outside the buffer.", "quantifier": "for every list of ADTS frames; for every byte string in the negative part", "why_tests_cant": "Unbounded inputs.", "anchors": ["src/avcodec/sps_avcodec_aac_parser.cpp"]}
{"id": "C22", "title": "MPEG-TS continuity check accepts exactly consecutive counters", "statement": "For every elementary stream and any interleaving, an accepted input has continuity counters that are each the successor modulo 16 of the previous one (the first being 0). Any other counter, including that of a duplicate packet, is refused and changes nothing; after j lost packets the next 16-j packets of the stream are all refused.", "quantifier": "for every sequence of counters", "why_tests_cant": "Unbounded sequences.", "anchors": ["src/avformat/sps_avformat_ts.cpp"]}
{"id": "C23", "title": "PES reassembly from TS packets", "statement": "For every list of H.264 units without declared length and below 64 KiB, and every cut of them into TS packets with consecutive counters, every packet is accepted and the codec parser is given exactly the units with their time stamps, in order, each when the next one starts; packets of other PIDs may be interleaved. For AAC the unit (clipped to its declared length) is given likewise.", "quantifier": "for every PES payload and every cut into TS packets", "why_tests_cant": "Unbounded payloads and cuts.", "anchors": ["src/avformat/sps_avformat_ts.cpp", "src/avformat/sps_avformat_tsdec.cpp"]}
{"id": "C24", "title": "TS adaptation field parsing can run out of the packet", "statement": "There are 188-byte TS packets with an adaptation field whose parsing leaves the packet's bounds; for packets whose adaptation field length matches its flags and contents the parser consumes exactly the adaptation field.", "quantifier": "for every 188-byte packet", "why_tests_cant": "256^188 packets.", "anchors": ["src/avformat/sps_avformat_ts.cpp"]}
{"id": "C25", "title": "HTTP request head reader consumes exactly the head", "statement": "For every request or response head that uses CRLF line ends and contains no bare CR or LF, followed by any body bytes, the head reader returns exactly the head up to and including the blank line and leaves the body untouched in the socket; it reports an error (never success) if the head exceeds the limit or the connection ends first. On arbitrary bytes it never leaves its buffer; with bare LF line ends it can stop in the middle of a head.", "quantifier": "for every head and body, every limit", "why_tests_cant": "Unbounded heads; the reader skips 1 to 4 bytes at a time depending on the last bytes seen.", "anchors": ["src/module/http/sps_http_parser.cpp:HttpParser::parse_header"]}
{"id": "C26", "title": "HTTP chunked transfer encode then decode is the identity", "statement": "For every sequence of non-empty writes to a chunked HTTP response, the byte stream produced, when read by the proxy's chunked decoder with arbitrary buffer sizes, gives back exactly the concatenated body and then end of stream, and leaves the following bytes on the connection untouched. Both decoders accept every conforming chunked body, stay inside the caller's buffer on arbitrary bytes, and a failing peer leaves a prefix of the encoding.", "quantifier": "for every list of writes, every sequence of reader buffer sizes, every following data", "why_tests_cant": "Unbounded lists of writes and read sizes.", "anchors": ["src/module/http/sps_http_socket.cpp:HttpResponseSocket::write", "src/io/url/sps_io_url_http.cpp"]}
{"id": "C27", "title": "An empty write ends a chunked response early", "statement": "Writing zero bytes to a chunked response emits the terminating chunk: whatever is written afterwards is not part of the body for any standard-conforming receiver.", "quantifier": "for every earlier and later write sequence", "why_tests_cant": "Statement about all continuations.", "anchors": ["src/module/http/sps_http_socket.cpp:HttpResponseSocket::write"]}
{"id": "C28", "title": "Fixed-length body reader returns exactly Content-Length bytes", "statement": "When the peer announces Content-Length n > 0 the body reader returns exactly the next n bytes of the connection in order, over any sequence of read sizes and any transport partition, then reports end of stream without consuming more.", "quantifier": "for every n, every read-size sequence and partition", "why_tests_cant": "Unbounded.", "anchors": ["src/io/url/sps_io_url_http.cpp", "src/module/http/sps_http_socket.cpp"]}
{"id": "C29", "title": "Query parameters of a well-formed URL are all found", "statement": "For every list of key/value pairs (no '&' in either, no '=' in the key), parsing a URL with the query built from it yields exactly these pairs in order, and looking a key up yields its first value. In any query, a piece without '=' is not a parameter: it becomes, with its '&', the beginning of the next parameter's key, so that parameter is not found under its own name.", "quantifier": "for every list of pairs", "why_tests_cant": "Unbounded lists and strings.", "anchors": ["src/io/url/sps_io_url.cpp:RequestUrl::parse_url"]}
{"id": "C30", "title": "URL parsing recovers schema, host, port, path and extension", "statement": "For every URL schema://host[:port]/path.ext built from well-formed parts the parser returns exactly those parts and the default port of http, https and rtmp. The extension is what follows the last dot of the path. A file URL loses its first eight characters. An HTTP request with a Host header gets host and port from it and path and query from its target.", "quantifier": "for every combination of well-formed parts", "why_tests_cant": "Unbounded strings.", "anchors": ["src/io/url/sps_io_url.cpp:RequestUrl::parse_url"]}
{"id": "C31", "title": "Forwarded request contains exactly the given header lines plus framing", "statement": "The text sent upstream reads back as the given method, target and version 1.1, exactly one Host field with the given host, every other given field in order, plus one more Accept field and one more Content-Length field; nothing follows the head, so the body is never part of it and only its size matters. If the given headers already contain Content-Length the output contains two of them.", "quantifier": "for every header list and body", "why_tests_cant": "Unbounded.", "anchors": ["src/io/url/sps_io_url_http.cpp"]}
{"id": "C32", "title": "Configuration text round trip", "statement": "For every configuration tree made of simple directives and nested blocks, the text printed from it (one directive per line, any indentation, comments and blank lines) is parsed back to exactly that tree.", "quantifier": "for every configuration tree", "why_tests_cant": "Unbounded nested trees.", "anchors": ["src/module/sps_module.cpp"]}
{"id": "C33", "title": "Unbalanced configuration is rejected", "statement": "Every configuration without a block of type root inside it whose block openings and closings do not match (missing or extra closing brace) is refused. With an inner root block this fails: such a block is accepted only if it is never closed.", "quantifier": "for every configuration text", "why_tests_cant": "Unbounded.", "anchors": ["src/module/sps_module.cpp"]}
{"id": "C34", "title": "Virtual-host lookup precedence", "statement": "For every set of registered host patterns and every request host: an exactly matching host wins, otherwise the host whose pattern is '*' followed by the request host from its first dot on, otherwise the default host, otherwise none; a table of hosts is accepted exactly when its names are valid and pairwise different.", "quantifier": "for every registration sequence and every request host", "why_tests_cant": "Unbounded tables and names.", "anchors": ["src/module/host/sps_host_module.cpp"]}
{"id": "C35", "title": "Second server block on a port is never routed", "statement": "When two server blocks share a listening port their hosts are merged into the first one's module, but the router built earlier is not updated: no request is ever routed to a host that appears only in the second block.", "quantifier": "for every pair of server blocks on a port and every request host", "why_tests_cant": "All host names and configurations.", "anchors": ["src/module/server/sps_server_module.cpp"]}
{"id": "C36", "title": "Phase handler chain runs in order and stops at the first non-continue result", "statement": "For every list of phase handlers, the chain invokes them in order until one returns something other than 'continue', and returns that value ('no continue' counts as success); handlers after it are not invoked. A request head of which the parser accepts nothing counts as 'continue': as the first request of a connection it makes the router use a context that does not exist, later it makes the server answer the previous request again.", "quantifier": "for every handler list and every result vector", "why_tests_cant": "Unbounded lists.", "anchors": ["src/module/server/sps_server_handler.cpp", "src/module/http/sps_http_phase_handler.cpp"]}
{"id": "C37", "title": "RTMP connection handling ends in exactly one role", "statement": "For every sequence of client messages the RTMP connect phase succeeds only after a connect command was answered, and then in exactly one role, that of the first play or publish after it; createStream, releaseStream and FCPublish in between are each answered once, in order, with their own transaction id; every other ending is an error without a role; and a client that keeps to the protocol always gets its role.", "quantifier": "for every sequence of client commands", "why_tests_cant": "Unbounded sequences.", "anchors": ["src/module/rtmp/sps_rtmp_server_handler.cpp"]}
{"id": "C38", "title": "RTMP chunk size negotiated before publishing is lost", "statement": "The server uses one RTMP session object during connect and a fresh one for streaming; a client's Set Chunk Size received before publish/play is not in effect when media arrive: for every history ending in publish, the receive chunk size at the start of streaming is the protocol default 128.", "quantifier": "for every sequence of client messages before publishing", "why_tests_cant": "All histories.", "anchors": ["src/module/rtmp/sps_rtmp_server_handler.cpp", "src/module/rtmp/sps_rtmp_server.cpp", "src/avformat/sps_avformat_librtmp.cpp"]}
{"id": "C39", "title": "RTMP receive acknowledgements keep up with the window", "statement": "For every sequence of received messages without pings and with positive bandwidth limits, the bytes received since the previous acknowledgement stay below the window in force, and the acknowledgements report, in order, totals the client can compute itself. With pings the claim fails: a ping never causes an acknowledgement, so any amount can stay unacknowledged.", "quantifier": "for every sequence of received message sizes", "why_tests_cant": "Unbounded sequences and 32-bit counters.", "anchors": ["src/avformat/sps_avformat_librtmp.cpp:RtmpHook::ack"]}
{"id": "C40", "title": "RTMP mux then demux preserves media packets", "statement": "For every media packet with composition offset between 0 and 15 (and every audio packet), the RTMP message body produced by the muxer is decoded by the demuxer to the same packet; for other offsets the composition time is corrupted because the muxer masks the wrong bits.", "quantifier": "for every packet", "why_tests_cant": "All payloads and offsets.", "anchors": ["src/avformat/sps_avformat_rtmpenc.cpp", "src/avformat/sps_avformat_rtmpdec.cpp"]}
{"id": "C41", "title": "RTMP demuxer payload bounds", "statement": "For every RTMP audio/video message long enough for its codec prefix, the packet payload is exactly the rest of the message after that prefix, with the message's timestamp; shorter video messages are refused; the only messages read outside their body are AAC messages of a single byte, and those always are.", "quantifier": "for every message body", "why_tests_cant": "All message bodies.", "anchors": ["src/avformat/sps_avformat_rtmpdec.cpp"]}
{"id": "C42", "title": "UDP session queue is a bounded FIFO", "statement": "For every interleaving of arriving datagrams and reads, the datagrams delivered are a prefix-ordered subsequence of the arrivals: nothing is reordered, duplicated or altered, at most 4000 are queued, and only arrivals at a full queue are dropped. A read with a buffer smaller than the head datagram fails and leaves it queued, so the same read fails forever.", "quantifier": "for every interleaving of push and read", "why_tests_cant": "Unbounded interleavings.", "anchors": ["src/sys/st/io/sps_sys_st_io_udp.cpp"]}
{"id": "C43", "title": "SRT stream id parsing", "statement": "For every list of key=value pairs in an SRT stream id, the stream is named by the last h value and the client plays exactly when the last m value is 'request'; only pairs followed by a comma count, so a final m=request without comma publishes; ids whose h pair is missing, comes last, or already starts with srt:// are refused.", "quantifier": "for every stream id", "why_tests_cant": "Unbounded strings.", "anchors": ["src/module/srt/sps_srt_server_handler.cpp"]}
{"id": "C44", "title": "Socket read_fully returns exactly the requested bytes", "statement": "For every transport partition, a full read of n > 0 bytes returns the next n bytes of the connection and consumes no more, or fails with the transport's error.", "quantifier": "for every n and partition", "why_tests_cant": "Unbounded partitions.", "anchors": ["src/io/sps_io_socket.cpp:Socket::read_fully", "src/sys/st/io/sps_sys_st_io_tcp.cpp:StTcpSocket::read_fully"]}
{"id": "C45", "title": "H.264 over RTP never delivers picture parameter sets", "statement": "Whatever datagrams arrive, no packet produced by the H.264 RTP decoder contains a picture parameter set: configuration records carry the sequence parameter set only.", "quantifier": "for every sequence of datagrams", "why_tests_cant": "A statement about all inputs.", "anchors": ["src/avformat/sps_avformat_rtpdec_h264_hevc.cpp:NaluRtpDecoder::decode", "src/avcodec/sps_avcodec_h264_parser.cpp"]}
{"id": "C46", "title": "H.264 RTP decoding leaves the datagram only for short aggregation and FU-B payloads", "statement": "For every sequence of datagrams every call is defined, except for STAP-B, MTAP24 and FU-B payloads shorter than their fixed part, which are read past the end of the datagram (such datagrams exist). A unit that outgrows the 1 MiB reassembly buffer fails an assertion.", "quantifier": "for every sequence of datagrams", "why_tests_cant": "All malformed inputs cannot be enumerated.", "anchors": ["src/avformat/sps_avformat_rtpdec_h264_hevc.cpp"]}
{"id": "C47", "title": "Aggregated H.264 units (STAP-A) are lost", "statement": "A STAP-A packet whose units are shorter than 256 bytes never produces a packet, whatever units it carries.", "quantifier": "for every list of aggregated units", "why_tests_cant": "Unbounded lists of units.", "anchors": ["src/avformat/sps_avformat_rtpdec_h264_hevc.cpp:StapRtpDecoder::decode"]}
{"id": "C48", "title": "The last PES unit of a TS stream is never delivered", "statement": "Only a packet that starts a unit makes the demuxer deliver anything, and what it delivers is the unit before it; whatever follows the last unit start, and however the stream ends, that unit is not delivered.", "quantifier": "for every sequence of packets", "why_tests_cant": "Statement about all continuations.", "anchors": ["src/avformat/sps_avformat_tsdec.cpp:TsDemuxer::read_tail", "src/avformat/sps_avformat_ts.cpp:TsPesContext::flush"]}
{"id": "C49", "title": "H.264 access units of 64 KiB and more are cut when received over TS", "statement": "For every H.264 unit without declared length of n >= 65536 bytes (up to 1 MiB) the codec parser is given only its first n mod 65536 bytes.", "quantifier": "for every unit and packetization", "why_tests_cant": "Unbounded units; needs very large inputs.", "anchors": ["src/avformat/sps_avformat_ts.cpp:TsPesContext::flush"]}
{"id": "C50", "title": "H.264 units with a declared length are delivered with stale memory", "statement": "For every complete H.264 unit that declares its PES length, the codec parser is given the unit followed by as many bytes of uninitialised memory as the PES header was long, so the output depends on more than the input.", "quantifier": "for every unit, packetization and memory content", "why_tests_cant": "Depends on uninitialised memory.", "anchors": ["src/avformat/sps_avformat_tsdec.cpp:TsDemuxer::on_h264", "src/avformat/sps_avformat_ts.cpp:TsPesContext"]}
{"id": "C51", "title": "Program tables register exactly what they list", "statement": "A program association section registers exactly the listed PIDs as program maps; a program map section registers, for PIDs not yet in use, exactly the listed H.264, H.265 and AAC streams; nothing else changes. For every table content, descriptors and following stuffing that fit a packet.", "quantifier": "for every table", "why_tests_cant": "Unbounded number of table contents.", "anchors": ["src/avformat/sps_avformat_ts.cpp:TsPatProgram::psi_decode", "src/avformat/sps_avformat_ts.cpp:TsPmtProgram::psi_decode"]}
{"id": "C52", "title": "Program tables: pointer field, CRC and length are not honoured", "statement": "Whatever the pointer field says, the eight bytes after it are taken as the section header, so a section that starts further on is not found (filler of zeroes: nothing is registered; filler whose length field passes the packet: the session ends with an error); a section with any CRC is believed; a program association with less than four bytes behind its entries, and a program map that goes on in the next packet and is cut within the five bytes of an entry, make the demuxer read past the packet.", "quantifier": "for every CRC, pointer field, section header and table of a program association, and every program map cut within an entry", "why_tests_cant": "All CRC values.", "anchors": ["src/avformat/sps_avformat_ts.cpp:TsPsiProgram::decode"]}
{"id": "C53", "title": "Raw TS viewers get the accepted packets unchanged and in order", "statement": "For every input, the packets handed to the raw TS cache are a subsequence of the input packets, byte for byte; their type never tells whether they start a unit.", "quantifier": "for every sequence of packets", "why_tests_cant": "Unbounded sequences.", "anchors": ["src/avformat/sps_avformat_ts.cpp:TsContext::decode", "src/avformat/sps_avformat_tsdec.cpp:TsCache::on_packet"]}
{"id": "C54", "title": "TS demuxing does not depend on how the transport cuts the stream", "statement": "For every way in which the transport splits the bytes of a TS stream, the demuxer handles exactly its 188-byte packets in order, up to the first refused packet or the end of the transport.", "quantifier": "for every partition of every stream", "why_tests_cant": "Unbounded partitions.", "anchors": ["src/avformat/sps_avformat_tsdec.cpp:TsDemuxer::read_packet", "src/io/sps_io_bytes.cpp:BytesReader::acquire"]}
{"id": "C55", "title": "A malformed chunk size is taken as the end of the body", "statement": "For every text that does not start with a hexadecimal digit, sign or blank, a size line made of it followed by a blank line is accepted by both chunked readers as the last chunk: the body is reported complete and no error is raised.", "quantifier": "for every such text, transport partition and buffer size", "why_tests_cant": "Unbounded texts.", "anchors": ["src/module/http/sps_http_socket.cpp:HttpRequestSocket::read_chunked_length", "src/io/url/sps_io_url_http.cpp:HttpUrlProtocol::read_chunked_length"]}
{"id": "C56", "title": "A body of declared length zero is an error instead of an end of stream", "statement": "A reader for a message with Content-Length 0 answers every read with a buffer-full error; a proxied response with Content-Length 0 is relayed to the client but the request then ends with that error.", "quantifier": "for every reader buffer and every response head", "why_tests_cant": "All heads and sizes.", "anchors": ["src/io/url/sps_io_url_http.cpp:HttpUrlProtocol::read", "src/module/http/sps_http_proxy_phase_handler.cpp:HttpProxyPhaseHandler::handler"]}
{"id": "C57", "title": "Response lengths are cut to 32 bits by the proxy", "statement": "For every response whose declared length is 2^32 or more and modulo 2^32 lies between 1 and 2^31 - 1, the client is told the length modulo 2^32 and receives only that many bytes, although the proxy reports success (for the other lengths see C232 and C56).", "quantifier": "for every length, head and body", "why_tests_cant": "Needs bodies of more than 4 GiB.", "anchors": ["src/module/http/sps_http_parser.cpp:HttpParser::parse_response", "src/io/url/sps_io_url_http.cpp:HttpUrlProtocol::read"]}
{"id": "C58", "title": "The proxy relays response bodies unchanged", "statement": "For every response with a declared length or chunked body, however the upstream connection delivers it, the client receives one head with the same status and the same body content, correctly framed, and the upstream received exactly the serialized request.", "quantifier": "for every response head, body, chunking and transport partition", "why_tests_cant": "Unbounded bodies and partitions.", "anchors": ["src/module/http/sps_http_proxy_phase_handler.cpp:HttpProxyPhaseHandler::handler", "src/io/url/sps_io_url_http.cpp", "src/module/http/sps_http_socket.cpp:HttpResponseSocket::write"]}
{"id": "C59", "title": "The body of a request is served as the next request", "statement": "Requests on one connection are served in order, each exactly once. A request's body is not consumed: whenever the body of a request is itself a request head, it is served as a second request of that client.", "quantifier": "for every sequence of request heads; for every head and body", "why_tests_cant": "Unbounded pipelines; all bodies.", "anchors": ["src/module/server/sps_server_handler.cpp:Connection::handler", "src/module/http/sps_http_phase_handler.cpp:HttpParsePhaseHandler::handler"]}
{"id": "C60", "title": "A chunked response is relayed with the Transfer-Encoding field repeated", "statement": "For every chunked upstream response that carries its Transfer-Encoding field, the response sent to the client carries the field once more.", "quantifier": "for every header list", "why_tests_cant": "All header lists.", "anchors": ["src/module/http/sps_http_socket.cpp:HttpResponseSocket::write_header"]}
{"id": "C61", "title": "An upstream response the parser rejects at its first byte crashes the proxy", "statement": "Whenever the response parser accepts no byte of the upstream's response head, opening the upstream connection reports success and the proxy then uses a response object that does not exist.", "quantifier": "for every response head", "why_tests_cant": "All heads; undefined behaviour.", "anchors": ["src/io/url/sps_io_url_http.cpp:HttpUrlProtocol::open", "src/module/http/sps_http_proxy_phase_handler.cpp:HttpProxyPhaseHandler::handler"]}
{"id": "C62", "title": "Requests without a Host header are routed by their first path segment", "statement": "For every request without a Host header whose target is /segment/rest, the request's host is the segment and its path is /rest.", "quantifier": "for every target and header list", "why_tests_cant": "All targets.", "anchors": ["src/module/http/sps_http_parser.cpp:HttpParser::parse_header", "src/io/url/sps_io_url.cpp:RequestUrl::parse_url"]}
{"id": "C63", "title": "A Host header naming a path changes the requested path", "statement": "For every request whose Host header is host/dir, the request's host is host and its path is /dir followed by the target.", "quantifier": "for every host, directory, target and header list", "why_tests_cant": "All headers and targets.", "anchors": ["src/module/http/sps_http_parser.cpp:HttpParser::parse_header"]}
{"id": "C64", "title": "Publishers and players meet on the same stream key", "statement": "For every URL, the stream key is the host followed by the path up to its last dot (or the whole path without a dot), whatever the schema, port, query and extension.", "quantifier": "for every well-formed URL", "why_tests_cant": "Unbounded URLs.", "anchors": ["src/module/stream/sps_stream_handler.cpp:StreamHandler::get_cache_key", "src/io/url/sps_io_url.cpp:RequestUrl::parse_url"]}
{"id": "C65", "title": "Streams in a directory whose name contains a dot share one key", "statement": "For every two URLs whose paths agree up to a dot and have no further dot, the stream keys are equal, even when the rest of the paths names different streams: /v1.0/cam1 and /v1.0/cam2 are one stream.", "quantifier": "for every pair of such URLs", "why_tests_cant": "Unbounded paths.", "anchors": ["src/module/stream/sps_stream_handler.cpp:StreamHandler::get_cache_key"]}
{"id": "C66", "title": "Media formats are chosen by the beginning of the extension", "statement": "For every extension of two or more characters the format chosen is one whose name begins the extension, in any order of the registered formats, and none when there is no such format: flv, - and ts when reading, flv and - when writing; for shorter extensions the comparison with \"flv\" reads past the end of the extension.", "quantifier": "for every extension and every order of the formats", "why_tests_cant": "Registration order is that of addresses.", "anchors": ["src/avformat/sps_avformat_dec.cpp:IAVInputFormat::match", "src/avformat/sps_avformat_enc.cpp:IAVOutputFormat::match", "src/util/sps_util_typedef.hpp"]}
{"id": "C67", "title": "Loaded configurations have the prescribed structure", "statement": "For every configuration that is accepted: http, rtmp and srt blocks contain only server blocks, server and globalhost blocks only named host blocks, host blocks only stream and upstream blocks, and every setting kept is an option of the block it stands in.", "quantifier": "for every configuration text", "why_tests_cant": "Unbounded nested texts.", "anchors": ["src/module/sps_module.cpp:IModule::init_conf", "src/module/server/sps_server_module.cpp:ServerModule::post_sub_module", "src/module/host/sps_host_module.cpp:HostModule::post_sub_module"]}
{"id": "C68", "title": "Comments, blank lines and unknown directives say nothing", "statement": "For every configuration and every position, inserting a blank line, a comment without a word ending in ; { or }, or a directive whose name is no option of any block changes neither acceptance nor the result: a misspelt option is silently ignored.", "quantifier": "for every configuration text and position", "why_tests_cant": "All texts and positions.", "anchors": ["src/module/sps_module.cpp:IModule::init_conf", "src/module/sps_module.cpp:IModule::parse"]}
{"id": "C69", "title": "A comment can make a configuration invalid", "statement": "Every configuration containing a comment line in which a word ending in ; { or } is followed by a word not starting with # is refused, whatever else it contains.", "quantifier": "for every configuration containing such a line", "why_tests_cant": "All texts.", "anchors": ["src/module/sps_module.cpp:IModule::parse"]}
{"id": "C70", "title": "A block name glued to its brace is lost", "statement": "For every configuration, writing a block opening with the brace attached to the last word of its name has the same effect as leaving that word out: the block has a shorter name or none.", "quantifier": "for every configuration and block opening", "why_tests_cant": "All texts.", "anchors": ["src/module/sps_module.cpp:IModule::parse"]}
{"id": "C71", "title": "A directive ending in a closing brace is dropped", "statement": "For every configuration, a line of any number of words the last of which ends in } has exactly the effect of a line with } alone: it closes the block and the directive on it is lost without an error.", "quantifier": "for every configuration and line", "why_tests_cant": "All texts.", "anchors": ["src/module/sps_module.cpp:IModule::parse", "src/module/sps_module.cpp:IModule::init_conf"]}
{"id": "C72", "title": "Location blocks read past their option table; reading always ends", "statement": "Every configuration starting with a location block makes the reader iterate past the end of an unterminated option table; the reader always terminates.", "quantifier": "for every block body", "why_tests_cant": "The table is read beyond its end, which a test may not notice.", "anchors": ["src/module/host/sps_host_loc_module.hpp:loc_options", "src/module/sps_module.cpp:IModule::set_default"]}
{"id": "C73", "title": "Merging host tables loses the default host", "statement": "For every two host tables of which only the second has a default host, a successful merge leaves the first without a default host.", "quantifier": "for every pair of tables", "why_tests_cant": "All tables.", "anchors": ["src/module/host/sps_host_module.cpp:HostModulesRouter::merge"]}
{"id": "C74", "title": "Servers of different protocols cannot share a port, silently", "statement": "For every configuration in which an rtmp or srt server names the port of an http server and which starts successfully, that port speaks HTTP only: the other server is merged into it and never listens, without an error.", "quantifier": "for every configuration", "why_tests_cant": "All configurations.", "anchors": ["src/module/server/sps_server_module.cpp:ServerCompare", "src/module/rtmp/sps_rtmp_module.cpp:RtmpModule::install", "src/module/srt/sps_srt_module.cpp:SrtModule::install"]}
{"id": "C75", "title": "A server cannot redefine a global host", "statement": "For every configuration that starts, the own and global hosts of each listening server have valid, pairwise different names; a server that declares a host of the same name as a global one keeps the program from starting.", "quantifier": "for every configuration", "why_tests_cant": "All configurations.", "anchors": ["src/module/server/sps_server_module.cpp:ServerModule::merge", "src/module/server/sps_server_module.cpp:ServerModule::get_router"]}
{"id": "C76", "title": "Two http blocks never start", "statement": "No configuration with two or more http blocks, one of whose servers has a host of its own or a global one, is started correctly: every http block handles the servers of all of them, so global hosts are duplicates and a vector is inserted into itself.", "quantifier": "for every configuration with several http blocks", "why_tests_cant": "All configurations; undefined behaviour.", "anchors": ["src/module/http/sps_http_module.cpp:HttpModule::install", "src/module/http/sps_http_module.cpp:HttpModule::merge", "src/module/server/sps_server_module.cpp:ServerModule::merge_hosts"]}
{"id": "C77", "title": "Hosts of type api are proxied", "statement": "For every host the HTTP dispatcher never chooses the API handler; a host of type api is handled as a proxy.", "quantifier": "for every host configuration", "why_tests_cant": "A statement about all configurations: dead code.", "anchors": ["src/module/host/sps_host_module.cpp:HostModule::is_api", "src/module/http/sps_http_adapter_phase_handler.cpp:HttpAdapterPhaseHandler::handler"]}
{"id": "C78", "title": "The enabled option of a host has no effect", "statement": "For every host, setting enabled to any value changes neither the dispatch of its requests, nor its proxy target, nor what may be published, nor its role.", "quantifier": "for every host and value", "why_tests_cant": "All configurations.", "anchors": ["src/module/host/sps_host_module.cpp:HostModule::enabled"]}
{"id": "C79", "title": "Where a proxied request goes", "statement": "For every host whose last inner upstream block, or if it has none whose own pass_proxy, says addr:port or addr, requests are sent to addr at that port or the caller's default; the name of an upstream block outside the host is used literally as an address.", "quantifier": "for every host and address text", "why_tests_cant": "All addresses and ports.", "anchors": ["src/module/host/sps_host_module.cpp:HostModule::get_proxy_info", "src/module/upstream/sps_upstream_module.cpp:UpStreamModules::get", "conf/sps.conf"]}
{"id": "C80", "title": "A packet shared by many RTMP players is sent identically to all", "statement": "The RTMP writer assembles the codec prefix inside the shared packet, in the room in front of the payload; for every packet, every number of players and every earlier content of that room, all players are sent the same message, the payload is untouched and the room keeps its size.", "quantifier": "for every packet, number of players and head content", "why_tests_cant": "Aliasing between any number of writers of one shared buffer.", "anchors": ["src/avformat/sps_avformat_rtmpenc.cpp:RtmpAVMuxer::write_packet", "src/cache/sps_cache_buffer.cpp"]}
{"id": "C81", "title": "RTMP read as bytes is the FLV text of its media messages", "statement": "Reading an RTMP connection through the FLV byte interface, with a first buffer of at least 13 bytes and any later sizes, hands out a prefix of one fixed text: FLV header, then for each non-empty audio, video or data message its tag and back pointer; the error of the connection is reported only after the whole text. With buffers of at least 4 bytes every read makes progress, so the whole text is delivered.", "quantifier": "for every message sequence and every sequence of buffer sizes", "why_tests_cant": "Unbounded streams cut at arbitrary positions.", "anchors": ["src/io/url/sps_io_url_rtmp_ffmpeg.cpp:FFmpegRtmpUrlProtocol::read"]}
{"id": "C82", "title": "Small reads stall the RTMP byte interface", "statement": "When the position is right before a tag's back pointer, reads with buffers of 1 to 3 bytes succeed with zero bytes forever.", "quantifier": "for every message and every number of such reads", "why_tests_cant": "Non-termination: any finite test sees only successful empty reads.", "anchors": ["src/io/url/sps_io_url_rtmp_ffmpeg.cpp:FFmpegRtmpUrlProtocol::read"]}
{"id": "C83", "title": "FLV bytes written to an RTMP connection become its messages", "statement": "Writing a buffer of whole FLV tags sends exactly one message per tag, with the tag's type, timestamp and body, in order; arbitrary buffers send the messages of their leading well-formed tags up to the first defect or failed send. A tag split over two writes, at any position, is refused and lost. Bytes read from one connection and written to another forward exactly its media messages.", "quantifier": "for every buffer, split point and sequence of send results", "why_tests_cant": "All buffers and split points.", "anchors": ["src/io/url/sps_io_url_rtmp_ffmpeg.cpp:FFmpegRtmpUrlProtocol::write"]}
{"id": "C84", "title": "The FLV writer cannot write to an RTMP connection", "statement": "The FLV muxer's first write is the 9-byte file header; the RTMP byte interface needs 13 bytes in its first write, so the combination is refused with a tag error for every stream header, and the interface stays unopened.", "quantifier": "for every stream header packet", "why_tests_cant": "An interaction between two components tested separately.", "anchors": ["src/io/url/sps_io_url_rtmp_ffmpeg.cpp:FFmpegRtmpUrlProtocol::write", "src/avformat/sps_avformat_flvenc.cpp:FlvAVMuxer::write_header"]}
{"id": "C85", "title": "Both ways of ingesting RTMP give the same packets", "statement": "For every sequence of messages with known codecs and non-empty payloads, the FLV demuxer over the RTMP byte interface (any partition of the bytes) produces the same packets in the same order as the native RTMP demuxer, up to the presentation time of data and video-command packets, and then the same error.", "quantifier": "for every message sequence and every partition of the bytes", "why_tests_cant": "Equivalence of two implementations over unbounded inputs.", "anchors": ["src/io/url/sps_io_url_rtmp_ffmpeg.cpp", "src/avformat/sps_avformat_rtmpdec.cpp", "src/avformat/sps_avformat_flvdec.cpp"]}
{"id": "C86", "title": "RTMP messages are read as exactly the commands they spell", "statement": "For every message and every AMF library, the server takes a message for a command exactly when its type is one of the four AMF types and its values are the command's name, a number, an object or null and (for play, publish, releaseStream, FCPublish) the stream name; data messages count as commands too; failures of the library are never commands. Other message types and other names are passed over; what the library cannot read, values that do not begin with a string, and one of the six names with the wrong values behind it are errors, each with its own code (connect with a null object apart).", "quantifier": "for every received message and AMF decoding", "why_tests_cant": "All value lists; a test has a few.", "anchors": ["src/avformat/sps_avformat_librtmp_packet.cpp:RtmpPacketDecoder::decode", "src/avformat/sps_avformat_librtmp_packet.cpp:AmfRtmpPacket::convert_self"]}
{"id": "C87", "title": "An RTMP connect without command object is undefined behaviour", "statement": "The server accepts null for the command object of connect and then looks up its properties: for every message that spells connect, a number and null, handling it reads a union member that was never set.", "quantifier": "for every connect message whose command object is null", "why_tests_cant": "The memory read is uninitialised, so a test may pass by luck.", "anchors": ["src/avformat/sps_avformat_librtmp_packet.cpp:get_amf_prop", "src/avformat/sps_avformat_librtmp_packet.cpp:ConnectRtmpPacket::invoke_from"]}
{"id": "C88", "title": "RTMP ping answers do not echo the timestamp", "statement": "For every ping request the answer carries the number 0, whatever timestamp the request carried; the claim that the timestamp is echoed, as the protocol requires, is false.", "quantifier": "for every ping request and session state", "why_tests_cant": "A test with timestamp 0 passes.", "anchors": ["src/avformat/sps_avformat_librtmp.cpp:RtmpHook::send_pong"]}
{"id": "C89", "title": "The acknowledgement window an RTMP peer asks for is ignored", "statement": "Two receptions that differ only in the windows requested by Window Acknowledgement Size messages end alike and send exactly the same; in particular no acknowledgement is sent in the first five million bytes, however small the requested window.", "quantifier": "for every message sequence and every requested window", "why_tests_cant": "Relates all pairs of runs.", "anchors": ["src/avformat/sps_avformat_librtmp.cpp:RtmpHook::on_recv_packet", "src/avformat/sps_avformat_librtmp.cpp:RtmpHook::ack"]}
{"id": "C90", "title": "Short RTMP window messages read outside the message", "statement": "For every Window Acknowledgement Size or Set Peer Bandwidth message with fewer than four body bytes, receiving it reads outside the body, even as the very first message of a client.", "quantifier": "for every such message and session", "why_tests_cant": "An out-of-bounds read a test does not see.", "anchors": ["src/avformat/sps_avformat_librtmp.cpp:RtmpHook::on_recv_packet"]}
{"id": "C91", "title": "RTMP byte counters overflow at 2 GiB", "statement": "No session receives 2 GiB without signed overflow of the byte counter; the acknowledgement overflows as soon as it is due within one window of that limit.", "quantifier": "for every session and message sequence", "why_tests_cant": "Needs gigabytes of input.", "anchors": ["src/avformat/sps_avformat_librtmp.cpp:RtmpHook::ack"]}
{"id": "C92", "title": "An RTMP library failure without a socket error goes unnoticed", "statement": "If librtmp gives up reading a message for a reason other than the socket, the connect phase treats it as a message: with a command type pending it dereferences a null body, with any other type but Set Chunk Size the failure changes nothing at all.", "quantifier": "for every session, pending type and later messages", "why_tests_cant": "Failures inside the library are hard to provoke.", "anchors": ["src/avformat/sps_avformat_librtmp.cpp:RtmpHook::recv_packet", "src/module/rtmp/sps_rtmp_server_handler.cpp:RtmpPreRequest::connect"]}
{"id": "C93", "title": "The RTMP stream requested is tcUrl plus stream name, unless tcUrl has a query", "statement": "For every tcUrl without query the requested path is its path, a slash and the stream name; for every tcUrl with a query the name ends up in the query instead, so all streams published under such a tcUrl share one stream key.", "quantifier": "for every well-formed tcUrl, query and stream names", "why_tests_cant": "All URLs and pairs of streams.", "anchors": ["src/module/rtmp/sps_rtmp_server_handler.cpp:RtmpPrepareHandler::handler", "src/io/url/sps_io_url.cpp:RequestUrl::parse_url", "src/module/stream/sps_stream_handler.cpp:StreamHandler::get_cache_key"]}
{"id": "C94", "title": "RTMP accepts every chunk size", "statement": "Set Chunk Size messages are obeyed for every 32-bit value, including zero and negative ones the protocol forbids.", "quantifier": "for every 32-bit value and session", "why_tests_cant": "All values.", "anchors": ["src/avformat/sps_avformat_librtmp.cpp:RtmpHook::on_recv_packet"]}
{"id": "C95", "title": "A full UDP read succeeds only on datagram boundaries", "statement": "A read of exactly n bytes on a UDP session succeeds with the queued datagrams joined in order when n is the total size of some first datagrams. When n falls inside a datagram the read fails with a buffer-too-small error, and the datagrams before that one are lost: the caller gets an error and the queue no longer holds them.", "quantifier": "for every queue of datagrams and every size", "why_tests_cant": "Depends on how arbitrary datagram sizes align with arbitrary read sizes.", "anchors": ["src/sys/st/io/sps_sys_st_io_udp.cpp: StUdpClientSocket::read_fully, StUdpSessionClientSocket::read"]}
{"id": "C96", "title": "The UDP server never uses a session that is gone", "statement": "For every sequence of arriving datagrams, accepts, reads, writes and closes, the server never pushes a datagram to a destroyed session, and at every moment at most one live session answers to a set of addresses.", "quantifier": "for every sequence of events", "why_tests_cant": "Lifetime bugs appear only for particular interleavings of closes and arrivals.", "anchors": ["src/sys/st/io/sps_sys_st_io_udp.cpp: StUdpServerSocket::handler, search_or_create, remove, on_destroy"]}
{"id": "C97", "title": "UDP sessions are isolated from one another", "statement": "While a UDP session lives, its reads return exactly what its own queue returns for the datagrams of its addresses (cut to 4096 bytes) and its own reads; traffic, accepts and closes of other sessions change nothing.", "quantifier": "for every sequence of events and every live session", "why_tests_cant": "Needs all interleavings of all sessions.", "anchors": ["src/sys/st/io/sps_sys_st_io_udp.cpp: StUdpServerSocket, StUdpSessionClientSocket"]}
{"id": "C98", "title": "UDP sessions are not told apart by sender", "statement": "Expected: datagrams from different senders belong to different sessions. In fact nothing the UDP server does depends on the sender: the peer address is never filled in, so all senders share a session; and unless the destination address is 2.0.x.y or 10.0.x.y there is never more than one live session whatever the senders and destinations.", "quantifier": "for every sequence of events and every renaming of senders", "why_tests_cant": "A test with one sender sees correct behaviour.", "anchors": ["src/sys/st/io/sps_sys_st_io_udp.cpp: StUdpClientSocket::read, StUdpServerSocket::generate_key", "src/io/sps_io_socket.cpp: addr2string"]}
{"id": "C99", "title": "Replies on UDP sessions never reach the peer", "statement": "Expected: what is written on a UDP session is sent to the peer of that session. In fact every write on every session, after any events, is sent to address 0.0.0.0, port 0.", "quantifier": "for every sequence of events", "why_tests_cant": "Needs all histories; a send to the wrong address still reports success.", "anchors": ["src/sys/st/io/sps_sys_st_io_udp.cpp: StUdpClientSocket::StUdpClientSocket, write"]}
{"id": "C100", "title": "Long UDP datagrams are silently cut", "statement": "A datagram of more than 4096 bytes is delivered as its first 4096 bytes with a success result.", "quantifier": "for every datagram longer than 4096 bytes and every read size of at least 4096", "why_tests_cant": "All sizes and contents.", "anchors": ["src/sys/st/io/sps_sys_st_io_udp.cpp: StUdpServerSocket::handler"]}
{"id": "C101", "title": "SRT reads return the received bytes in order", "statement": "For every sequence of positive read sizes on an SRT connection whose messages have at most 1316 bytes, the successful reads together return the bytes of the received messages in order, none lost, repeated or changed. Every successful read returns at least one byte and no more than was asked for.", "quantifier": "for every sequence of library answers with messages of 1 to 1316 bytes and every sequence of positive read sizes", "why_tests_cant": "Message sizes and read sizes are unrelated; all combinations and all errors in between matter.", "anchors": ["src/sys/st/io/sps_sys_st_io_srt.cpp: StSrtSocket::read, st_srt_read"]}
{"id": "C102", "title": "A long SRT message is cut by a short read", "statement": "Of an SRT message longer than 1316 bytes, a read of fewer than 1316 bytes keeps only the first 1316: the rest never reaches the reader, and no error is reported.", "quantifier": "for every message longer than 1316 bytes and every read of 1 to 1315 bytes", "why_tests_cant": "The loss is silent and depends on the size of the read that happens to meet the message.", "anchors": ["src/sys/st/io/sps_sys_st_io_srt.cpp: StSrtSocket::read, st_srt_read"]}
{"id": "C103", "title": "A full read on SRT and TLS sockets is right only in one piece", "statement": "A read of exactly n bytes on an SRT or TLS socket gives the right bytes when they arrive in one piece. When they arrive in two or more pieces every piece is stored at the start of the buffer: the call reports success although the end of the buffer was never written. The readers of this project reach these sockets through a wrapper with its own loop and are not affected (C143, C223).", "quantifier": "for every division of the bytes into pieces", "why_tests_cant": "Division into pieces is up to the network; a test on one machine sees one piece.", "anchors": ["src/sys/st/io/sps_sys_st_io_srt.cpp: StSrtSocket::read_fully", "src/sys/st/io/sps_sys_st_io_ssl.cpp: StSSLSocket::read_fully"]}
{"id": "C104", "title": "SRT writes send aligned messages", "statement": "A successful write on an SRT socket sends exactly the data, in order, in messages of 1316 bytes with only the last one shorter. A write that fails has sent a first part of the data in whole messages.", "quantifier": "for every data and every sequence of library answers", "why_tests_cant": "Needs every size and every point of failure.", "anchors": ["src/sys/st/io/sps_sys_st_io_srt.cpp: st_srt_write, StSrtSocket::write"]}
{"id": "C105", "title": "A failing SRT accept yields a connection", "statement": "When accepting an SRT connection fails, accept still returns a connection object, whose descriptor is the error code.", "quantifier": "for every way accept can fail", "why_tests_cant": "Library failures on accept cannot be provoked reliably.", "anchors": ["src/sys/st/io/sps_sys_st_io_srt.cpp: st_srt_accept, StSrtServerSocket::accept"]}
{"id": "C106", "title": "SRT waits lose no wake-up", "statement": "After every sequence of waits, events, wake-ups and timeouts, a coroutine that still waits on an SRT socket is known to the dispatcher and its event is watched by the library. What a wait returns tells why it ended: the socket's error or readiness by the first event since the wait began that concerned it, or a timeout when there was none.", "quantifier": "for every sequence of waits, events, wake-ups and timeouts on any sockets", "why_tests_cant": "Interleavings of coroutines on the same socket are unbounded.", "anchors": ["src/sys/st/io/sps_sys_st_io_srt.cpp: SrtStDispatch::st_srt_epoll, SrtStDispatch::handler, SrtStDispatch::get_exits_evt"]}
{"id": "C107", "title": "An SRT waiter may stop being watched for errors", "statement": "Whenever one of several coroutines waiting on the same SRT socket returns, woken or after its time, errors of that socket are no longer watched for the others: a broken connection does not wake them.", "quantifier": "for every sequence of waits, events, wake-ups and timeouts", "why_tests_cant": "Needs two coroutines on one socket and a connection that breaks afterwards.", "anchors": ["src/sys/st/io/sps_sys_st_io_srt.cpp: SrtStDispatch::st_srt_epoll, SrtStDispatch::get_exits_evt"]}
{"id": "C108", "title": "A failing accept crashes a TCP server and loops an SRT server", "statement": "Without failures the accept loop hands out every connection in order and goes on. A TCP accept that fails (no descriptor left, an aborted connection) makes the server use a null pointer, after handing out the connections before it. An SRT accept that fails is handed out as a connection, so a listening socket that keeps failing yields connections without end.", "quantifier": "for every sequence of accept results", "why_tests_cant": "Failures of accept need exhausted resources or aborted connections at the right moment.", "anchors": ["src/sys/st/io/sps_sys_st_io_tcp.cpp: StTcpServerSocket::accept", "src/module/server/sps_server.cpp: Server::accept", "src/sys/st/io/sps_sys_st_io_srt.cpp: StSrtServerSocket::accept"]}
{"id": "C109", "title": "TLS accepts work however the network divides the handshake", "statement": "However the client's two flights are divided into packets, a TLS accept succeeds, has sent the server's two flights and nothing else, and what comes in later packets is still there to be read.", "quantifier": "for every TLS engine keeping its contract, every pair of flights and every division into non-empty packets", "why_tests_cant": "The number of divisions is unbounded and not under a test's control.", "anchors": ["src/sys/st/io/sps_sys_st_io_ssl.cpp: StSSLSocket::accept, handshake_util_write, handshake_util_read, do_handshake"]}
{"id": "C110", "title": "Early data behind the TLS handshake is lost", "statement": "Data that a client sends right behind its last handshake flight, arriving in the same read of at most 1024 bytes, is lost: the accept succeeds, but the data is neither in the socket's input nor in the connection.", "quantifier": "for every TLS engine keeping its contract, every pair of flights, every division and every such data", "why_tests_cant": "Whether flight and data arrive together depends on timing and on the client.", "anchors": ["src/sys/st/io/sps_sys_st_io_ssl.cpp: StSSLSocket::accept, handshake_util_read"]}
{"id": "C111", "title": "A failed TLS handshake is reported as success when asked again", "statement": "After one call of the TLS initialisation, whatever its result, a second call reports success without any handshake.", "quantifier": "for every engine, connection, certificate result and first result", "why_tests_cant": "Callers normally initialise once; the false success appears only on a retry.", "anchors": ["src/sys/st/io/sps_sys_st_io_ssl.cpp: StSSLSocket::init"]}
{"id": "C112", "title": "One silent client blocks all TLS clients", "statement": "As long as every handshake ends, exactly the connections whose handshake went well are handed out, in order. A client that connects and sends nothing blocks the only acceptor, which has no timeout: no connection after it is ever handed out.", "quantifier": "for every sequence of connections", "why_tests_cant": "Needs a client that stays silent for ever.", "anchors": ["src/sys/st/io/sps_sys_st_io_ssl.cpp: StSSLAcceptor::handler, StSSLServerSocket::accept", "src/sys/st/io/sps_sys_st_io_tcp.cpp: StTcpSocket::StTcpSocket"]}
{"id": "C113", "title": "A TLS write that succeeds has sent all data", "statement": "A TLS write that succeeds has encrypted exactly the data, in order, whatever part the library takes at a time, and has sent exactly the resulting ciphertext, each part once.", "quantifier": "for every data and every sequence of library and connection answers", "why_tests_cant": "Partial writes depend on the library's record size and state.", "anchors": ["src/sys/st/io/sps_sys_st_io_ssl.cpp: StSSLSocket::write"]}
{"id": "C114", "title": "A TLS write after a failed one sends old ciphertext again", "statement": "When the connection refuses the ciphertext of a write, the ciphertext stays behind, and the next write sends it again in front of its own.", "quantifier": "for every pair of writes of which the first fails on the connection", "why_tests_cant": "Needs a send timeout followed by another write.", "anchors": ["src/sys/st/io/sps_sys_st_io_ssl.cpp: StSSLSocket::write"]}
{"id": "C115", "title": "TLS reads return the plaintext in order", "statement": "For every sequence of positive read sizes on a TLS socket, and however the network divides the ciphertext, the successful reads together return the plaintext in order, none lost or repeated. Every successful read returns at least one byte and no more than was asked for. When the connection ends, all plaintext received has been returned.", "quantifier": "for every engine keeping its contract, every division into non-empty packets and every sequence of positive read sizes", "why_tests_cant": "Packet and read sizes are unrelated; all combinations matter.", "anchors": ["src/sys/st/io/sps_sys_st_io_ssl.cpp: StSSLSocket::read"]}
{"id": "C116", "title": "An RTP session delivers exactly its media, whatever reports arrive in between", "statement": "For every H.264 session whose units are fragmented in any way, and every AAC session with any access units, the packets a consumer reads are exactly those of the units in order, followed by the error of the socket; RTCP reports mixed in at any place change nothing. Choosing AAC is reported as a failure although the codec is then in use. A source description with chunks makes the session undefined.", "quantifier": "for all numbers and fragmentations of units, all access unit lists, all interleavings with RTCP reports, all decoders", "why_tests_cant": "Interleavings of media and control datagrams of any length cannot be enumerated.", "anchors": ["src/avformat/sps_avformat_rtpdec.cpp: RtpDemuxer::read_packet, init_codec", "src/module/stream/sps_stream.cpp: StreamDecoder::decode", "src/avformat/sps_avformat_rtpdec_rtcp.cpp"]}
{"id": "C117", "title": "MPEG-TS over RTP equals the transport stream it carries", "statement": "A session of datagrams with whole transport packets delivers exactly what the demuxer delivers for the concatenated transport packets, wherever the datagram borders lie; the first datagram with a bad transport packet ends the session with its error, after everything completed in earlier datagrams, and what was completed earlier in the same datagram is lost. The same holds for a datagram that ends with a part of a transport packet.", "quantifier": "for all transport streams and all groupings of their packets into datagrams, with reports in between", "why_tests_cant": "The grouping of packets into datagrams is free and unbounded.", "anchors": ["src/avformat/sps_avformat_rtpdec_ts.cpp: MpegtsRtpDecodder::decode", "src/avformat/sps_avformat_tsdec.cpp: TsDemuxer::decode_packet", "src/avformat/sps_avformat_rtpdec.cpp: RtpDemuxer::read_packet"]}
{"id": "C118", "title": "The first media datagram decides the decoder; a marker bit on it refuses a transport stream", "statement": "Without a chosen codec every first media datagram other than payload type 33 with a clear marker bit ends the session with the probe error. In particular a valid transport stream whose first datagram has the marker bit set is refused.", "quantifier": "for all datagrams and all later datagrams", "why_tests_cant": "The second byte mixes marker and type; a sampled stream starts with a clear marker.", "anchors": ["src/avformat/sps_avformat_rtpdec.cpp: RtpDemuxer::init_rtp_decode, read_packet"]}
{"id": "C119", "title": "Datagrams shorter than a header are glued to the next, longer ones are cut", "statement": "A datagram of fewer than twelve bytes is put in front of the next datagram, so a stray byte spoils a good packet; a datagram of more than 3000 bytes is cut to 3000 without notice; an empty datagram ends the session.", "quantifier": "for all datagram contents, sessions and decoders", "why_tests_cant": "The stray datagram can come at any moment of any session.", "anchors": ["src/avformat/sps_avformat_rtpdec.cpp: RtpDemuxer::read_packet", "src/io/sps_io_bytes.cpp: BytesReader::acquire", "src/sys/st/io/sps_sys_st_io_udp.cpp: StUdpClientSocket::read"]}
{"id": "C120", "title": "RTP sequence numbers and sources are never looked at", "statement": "Two H.264 sessions that agree in clock, timestamps and payloads deliver the same, however sequence numbers, sources, markers, versions and padding flags differ; so a lost datagram or a change of sender inside a unit goes unnoticed and the unit is delivered without the lost bytes.", "quantifier": "for all pairs of sessions equal up to these header fields", "why_tests_cant": "A test exercises chosen headers, the claim is about all pairs.", "anchors": ["src/avformat/sps_avformat_rtpdec.cpp: RtpDemuxer::read_packet", "src/avformat/sps_avformat_rtpdec_h264_hevc.cpp"]}
{"id": "C121", "title": "FLV publisher to HTTP player, end to end", "statement": "When a publisher uploads FLV and a player fetches the stream over HTTP, the bytes the player has received are a complete HTTP 200 head followed by an FLV file whose packets are exactly those handed to the player, unchanged and in order, however the upload and the reading are cut into pieces. They are the beginning of: the snapshot (metadata, codec headers, frames since the last key frame) of what had been published when the player joined, then every packet published since.", "quantifier": "for all uploads (any bytes after the FLV signature), all divisions of upload and download into reads, all interleavings of publishers, players, polls and leaves, all hosts and names", "why_tests_cant": "Combines arbitrary input bytes, arbitrary division into reads and arbitrary interleavings of any number of clients.", "anchors": ["src/module/stream/sps_stream.cpp: StreamDecoder::decode, StreamEncoder::encode", "src/module/stream/sps_stream_handler.cpp: StreamHandler::play", "src/avformat/sps_avformat_flvdec.cpp", "src/avformat/sps_avformat_flvenc.cpp", "src/module/http/sps_http_stream_phase_handler.cpp: HttpStreamPhaseHandler::handler"]}
{"id": "C122", "title": "How an HTTP player ends", "statement": "An HTTP-FLV player is served until nothing has come for the timeout, when it has been sent everything handed to it and the result is a timeout, or until a write fails, when it has been sent an initial part and the result is the socket's error; before that it has been sent everything handed to it.", "quantifier": "for all packet sequences FLV can carry, all groupings into polls, all points where a write can fail", "why_tests_cant": "The write can fail at any of unboundedly many points of any stream.", "anchors": ["src/module/stream/sps_stream.cpp: StreamEncoder::encode", "src/module/http/sps_http_socket.cpp: HttpResponseSocket::write"]}
{"id": "C123", "title": "Who may publish", "statement": "An HTTP upload is accepted exactly when the host has role source, its edge_avformat is all or equals the extension, a reader for the extension exists and no stream of the name is live. SRT uploads are accepted on any host exactly when the stream is not published already: role and format are not looked at.", "quantifier": "for all host settings, requests and sets of live streams", "why_tests_cant": "Quantifies over all settings, extensions and registry contents.", "anchors": ["src/module/stream/sps_stream_handler.cpp: StreamHandler::publish", "src/module/host/sps_host_module.cpp: HostModule::publish, HostModule::support_publish", "src/module/srt/sps_srt_stream_handler.cpp: SrtServerStreamHandler::publish"]}
{"id": "C124", "title": "What HTTP stream clients are told", "statement": "An upload the host does not allow is answered 403 and a request for an unknown stream 404, both with a head that has no Content-Length and no Transfer-Encoding, after which the connection goes on; every other refusal, and an accepted upload whatever its end, sends nothing at all.", "quantifier": "for all hosts, requests, registries and reason phrases", "why_tests_cant": "Covers every refusal for every configuration and request.", "anchors": ["src/module/http/sps_http_stream_phase_handler.cpp: HttpStreamPhaseHandler::handler", "src/module/stream/sps_stream_handler.cpp: StreamHandler::handler"]}
{"id": "C125", "title": "No request URL stops the server (false)", "statement": "A player of any live stream over HTTP whose extension begins with a dash gets the RTMP writer over a socket that is no RTMP session; the first media packet is written through a null pointer. The stream is the one its normal players watch.", "quantifier": "for all live streams, hosts, request paths with an extension of a dash and at least one more byte, orders of the registered formats", "why_tests_cant": "Tests use the intended extensions; the claim is about every URL.", "anchors": ["src/avformat/sps_avformat_enc.cpp: IAVOutputFormat::match, AVEncoderFactory::create", "src/avformat/sps_avformat_rtmpenc.cpp: RtmpAVMuxer", "src/module/stream/sps_stream_handler.cpp: StreamHandler::get_cache_key, StreamHandler::play"]}
{"id": "C126", "title": "Where an edge pulls from", "statement": "An edge host with pass_proxy addr or addr:port pulls the path and query the player asked for, under the player's scheme, from addr and that port or the scheme's usual one. With a fixed pass_url alone, its host is used but its port is not: the connection goes to the usual port of the scheme the player came with.", "quantifier": "for all addresses, ports, paths, queries and settings", "why_tests_cant": "Quantifies over all configurations and request URLs.", "anchors": ["src/module/stream/sps_stream_edge.cpp: StreamEdgeEnter::start_edge", "src/module/host/sps_host_module.cpp: HostModule::get_proxy_info", "src/io/url/sps_io_url_http.cpp: HttpURLProtocol::open"]}
{"id": "C127", "title": "Pulls that work and pulls that stop the server", "statement": "A pull yields a stream exactly when it is by http, the connection opens, the origin answers 200 and a reader for the extension exists. A pull by rtmp or from a file that opens, and a 200 answer for an extension without a reader, dereference a null pointer; given that an answer was parsed, nothing else does, and https ends at once.", "quantifier": "for all URLs with extensions of at least two characters, results of opening, statuses and orders of the registered formats", "why_tests_cant": "The whole space of schemes, extensions and origin answers is covered.", "anchors": ["src/module/stream/sps_stream_edge.cpp: StreamEdge::handler", "src/io/url/sps_io_url_protocol.cpp", "src/io/url/sps_io_url_rtmp.cpp: response", "src/io/url/sps_io_url_file.cpp: response"]}
{"id": "C128", "title": "Transport stream over SRT, publisher to player", "statement": "Each SRT player is sent, one message per packet and unchanged, the transport stream packets the publisher's reader forwarded: the snapshot (last PAT, last PMT, then all other packets ever forwarded) at its joining and then everything forwarded since, in order; every message is one of the publisher's 188-byte packets.", "quantifier": "for all publisher packets, all interleavings of publishers, players, polls and leaves, all waits for room in the library", "why_tests_cant": "Arbitrary stream contents and arbitrary interleavings of any number of players.", "anchors": ["src/module/srt/sps_srt_stream_handler.cpp: SrtServerStreamHandler::play, SrtServerStreamHandler::publish", "src/avformat/sps_avformat_cache.cpp", "src/sys/st/io/sps_sys_st_io_srt.cpp: st_srt_write"]}
{"id": "C129", "title": "The key of a UDP session", "statement": "The key sessions are found by determines the peer address and port it is built from. It does not determine the destination: address and port are joined without a separator, so datagrams for 1.2.3.4 port 56 and for 1.2.3.45 port 6 share one session.", "quantifier": "for all peer addresses without a dash and all ports", "why_tests_cant": "Injectivity of a text encoding over all addresses.", "anchors": ["src/sys/st/io/sps_sys_st_io_udp.cpp: StUdpServerSocket::generate_key, StUdpServerSocket::search_or_create"]}
{"id": "C130", "title": "What an RTMP publisher's messages become", "statement": "A publisher that keeps to the protocol is read message by message: each audio, video or data message becomes the packet it holds, in order; other messages are skipped; the first unusable message ends the publisher with that message's error. Whatever the client or the network does, the stream only ever holds the packets of an initial part of the messages sent. If the RTMP library gives up for a reason of its own, the server is not told and the stream stays, empty, for ever.", "quantifier": "for all sequences of messages and failures, of any length, and any session state", "why_tests_cant": "The claim is about every message sequence and about the absence of packets from any other source.", "anchors": ["src/module/stream/sps_stream.cpp: StreamDecoder::decode", "src/avformat/sps_avformat_rtmpdec.cpp: RtmpDemuxer::read_packet", "src/avformat/sps_avformat_librtmp.cpp: RtmpHook::recv_packet"]}
{"id": "C131", "title": "RTMP publisher to RTMP player, end to end", "statement": "While a publisher streams, every message a player has received is the republished form of a message the publisher sent: same timestamp and payload on message stream 1, data announced as AMF0, the packet type reduced to zero or one, and of the composition offset only the low byte, split over two bytes. The messages are those of the packets handed to the player, which begin with the snapshot at its join and go on with everything published since. A message arrives byte for byte exactly if its packet type is 0 or 1 and its composition offset at most 15 ms.", "quantifier": "for all event histories of the server, all published message sequences, all players", "why_tests_cant": "Composition over unbounded histories of server events and messages; the set of messages that survive is characterised exactly.", "anchors": ["src/module/rtmp/sps_rtmp_stream_handler.cpp: RtmpServerStreamHandler::handler", "src/module/stream/sps_stream_handler.cpp: StreamHandler::play", "src/module/stream/sps_stream.cpp: StreamEncoder::encode", "src/avformat/sps_avformat_rtmpenc.cpp: RtmpAVMuxer::write_packet"]}
{"id": "C132", "title": "How an RTMP player ends", "statement": "If every failed send is a socket failure, an RTMP player of a live stream ends only in two ways: no packet for 10 seconds after everything had been sent, or a failed send after an initial part had been sent, with that send's error. A send the library refuses for its own reasons is dropped silently and the player goes on with a hole in its stream.", "quantifier": "for all packet sequences and outcomes of sends", "why_tests_cant": "Every interleaving of dumps and send results.", "anchors": ["src/module/stream/sps_stream.cpp: StreamEncoder::encode", "src/avformat/sps_avformat_librtmp.cpp: RtmpHook::send_packet", "src/io/url/sps_io_url_rtmp.cpp: RtmpUrlProtocol::write"]}
{"id": "C133", "title": "RTMP publisher to HTTP-FLV player, end to end", "statement": "The body an HTTP player has downloaded of a stream published over RTMP is, up to the last tag's trailing size, the FLV file with one tag per message handed to the player, each with the publisher's timestamp and body unchanged and its type (AMF3 data as AMF0 data).", "quantifier": "for all event histories, all published message sequences, all HTTP players", "why_tests_cant": "Equality of whole files over unbounded histories, through two formats.", "anchors": ["src/avformat/sps_avformat_rtmpdec.cpp: RtmpDemuxer::read_packet", "src/avformat/sps_avformat_flvenc.cpp: FlvAVMuxer::write_packet", "src/module/stream/sps_stream.cpp: StreamEncoder::encode", "src/module/http/sps_http_stream_phase_handler.cpp: HttpStreamPhaseHandler::handler"]}
{"id": "C134", "title": "Who may publish over RTMP", "statement": "After the RTMP connect phase a publisher's stream is registered exactly if the requested host is configured with role source and format all or -, the format is built in and no stream has the name. The client hears NetStream.Publish.Start before any of that is checked, so a refused publisher has been told it publishes.", "quantifier": "for all libraries, hosts, requests, message sequences and states of the server", "why_tests_cant": "An equivalence over all configurations, and an ordering of observable effects.", "anchors": ["src/module/rtmp/sps_rtmp_module.cpp: RtmpModule::install", "src/module/stream/sps_stream_handler.cpp: StreamHandler::publish", "src/module/host/sps_host_router_handler.cpp: HostRouterPhaseHandler::handler", "src/module/rtmp/sps_rtmp_server_handler.cpp: RtmpPrepareHandler::handler"]}
{"id": "C135", "title": "Starting with a configuration file", "statement": "Started with a relative file name, the server does exactly what the text of that file says (loads it and opens its listeners), provided the file can also be opened for writing; a missing or read-only file ends the start with the file error. An absolute file name is never opened: the start ends with unknown protocol.", "quantifier": "for all file systems, file names of the stated form, file contents, URL libraries meeting the contract and further arguments", "why_tests_cant": "Equality of the whole start with loading and installing the text, for every text; a test names a few files.", "anchors": ["src/main/sps_main_sps.cpp: init_config, main", "src/io/url/sps_io_url_protocol.cpp: UrlProtocol::create", "src/io/url/sps_io_url_file.cpp: FileURLProtocol::open"]}
{"id": "C136", "title": "A failed start is visible to the parent", "statement": "Whatever makes the start fail (initialisation, file, configuration text, a port), the exit status seen by the parent process is between 1 and 255; no error code is lost by the reduction to eight bits.", "quantifier": "for all arguments, files, configurations and answers of the system to listening", "why_tests_cant": "Exit statuses are error codes modulo 256; that none of the reachable codes is a multiple of 256 is a claim about all failing paths.", "anchors": ["src/main/sps_main_sps.cpp: main, init_config", "src/sps_error.hpp"]}
{"id": "C137", "title": "Which transport a port speaks", "statement": "The first started server block with a port decides its protocol and its transport: SRT for exactly srt, TLS for exactly https, plain TCP for any other text. A server of an srt block whose transport is not srt ends every connection before a byte is exchanged.", "quantifier": "for all configurations that install, all ports and transports", "why_tests_cant": "Any number and order of blocks and ports.", "anchors": ["src/module/server/sps_server_module.cpp: ServerModule::install, ServerModule::pre_install", "src/module/srt/sps_srt_server_handler.cpp: SrtPrepareHandler::handler"]}
{"id": "C138", "title": "The certificate a client is shown", "statement": "On a TLS port of an http block, a client that names a host is shown a certificate exactly if the host block that will serve that name has both files and the library accepts the pair, and then it is that block's certificate. A client that sends no name is shown none.", "quantifier": "for all configurations that install, all host names and certificate libraries", "why_tests_cant": "An equivalence between certificate choice and request routing over all configurations.", "anchors": ["src/sys/st/io/sps_sys_st_io_ssl.cpp: do_ssl_verify, ssl_servername_callback", "src/module/http/sps_http_module.cpp: HttpModule::install", "src/module/host/sps_host_module.cpp: HostModulesRouter::search, HostModulesRouter::find_host"]}
{"id": "C139", "title": "The server block's certificate as fallback", "statement": "Expected: a certificate and key set on a server block are used for names whose hosts have none. Refuted: whatever the server block says, a client that names a host without a usable pair of its own is shown none.", "quantifier": "for all configurations that install, host names and certificate libraries; a witness with a usable pair on the server block", "why_tests_cant": "Shows that the documented option has no effect on the choice, over the model of the whole lookup.", "anchors": ["src/sys/st/io/sps_sys_st_io_ssl.cpp: StSSLSocket::accept, ssl_servername_callback", "src/module/server/sps_server_module.cpp: ServerModule::post_install"]}
{"id": "C140", "title": "TLS outside http blocks", "statement": "On an rtmp or srt port with transport https every handshake ends with a handshake error before anything is read or sent, whatever certificates are configured.", "quantifier": "for all configurations that install, all TLS engines, networks and certificate libraries", "why_tests_cant": "For every engine and every state of the connection.", "anchors": ["src/module/http/sps_http_module.cpp: HttpModule::install", "src/module/server/sps_server_module.cpp: ServerModule::post_install", "src/sys/st/io/sps_sys_st_io_ssl.cpp: StSSLSocket::accept"]}
{"id": "C141", "title": "The port that is opened", "statement": "A server that listens does so on the configured port, over TCP, TLS and SRT, if that number is between 0 and 65535. Any other number is cut to its low 16 bits without an error: listen_port 65616 listens on port 80.", "quantifier": "for all server blocks, ports and answers of the system", "why_tests_cant": "All numbers; the failing ones are not rejected, so no error shows up in a test of the configuration.", "anchors": ["src/sys/st/io/sps_sys_st_io_tcp.cpp: st_tcp_listen", "src/sys/st/io/sps_sys_st_io_srt.cpp: st_srt_listen"]}
{"id": "C142", "title": "SRT ports have no second way to be opened", "statement": "An SRT listener is opened only if a UDP socket was created, bound to the port and taken over by the library; the second attempt the code makes without reuse_port never succeeds, since it passes 0 as the length of the address.", "quantifier": "for all answers of the system and of an SRT library that refuses an address of length 0", "why_tests_cant": "The fallback runs only when the system refuses; all combinations of answers are covered.", "anchors": ["src/sys/st/io/sps_sys_st_io_srt.cpp: st_srt_listen, StSrtServerSocket::listen"]}
{"id": "C143", "title": "TLS is transparent to everything that reads", "statement": "Any code that reads through a TLS socket (any number of reads of any positive sizes, each depending on what was read before, stopping at the first error) ends exactly as it would over a plain connection that delivers the decrypted bytes in some division and then fails with the same error. If the TLS library fails, it ends as over a plain connection that delivers a part of the plaintext and then the TLS read error.", "quantifier": "for all reading programs, divisions of the ciphertext, and TLS libraries meeting the decryption contract", "why_tests_cant": "Quantifies over all programs that read; every theorem about any division of a TCP stream carries over to TLS.", "anchors": ["src/sys/st/io/sps_sys_st_io_ssl.cpp: StSSLSocket::read", "src/io/sps_io_socket.cpp: Socket::read, Socket::read_fully", "src/module/http/sps_http_parser.cpp: HttpParser::parse_header", "src/module/http/sps_http_socket.cpp: HttpRequestSocket::read"]}
{"id": "C144", "title": "Requests over TLS are read exactly", "statement": "After a handshake divided in any way, a request whose ciphertext comes in packets of its own, divided in any way, is read exactly: the head, then the whole body in order for any sequence of buffer sizes, chunked or with a length, and the end of the body where it is.", "quantifier": "for all TLS libraries meeting the contracts, divisions of handshake and ciphertext, heads, bodies and buffer sizes", "why_tests_cant": "Composition of handshake, decryption, head and body readers over all divisions.", "anchors": ["src/sys/st/io/sps_sys_st_io_ssl.cpp: StSSLSocket::accept, StSSLSocket::read", "src/module/http/sps_http_phase_handler.cpp: HttpParsePhaseHandler::handler", "src/module/http/sps_http_socket.cpp: HttpRequestSocket::read"]}
{"id": "C145", "title": "Body framing is transparent", "statement": "Code that reads the body of a request (reads of positive size, stopping at the first error, asking again when a read brings nothing) ends exactly as it would over a plain connection that delivers the bare body in some division and then the end-of-body error, for chunked bodies and bodies with a length. If the connection breaks off inside the body, it ends as over a connection that delivers an initial part of the body and then the error of the connection. A body without framing is the rest of the connection.", "quantifier": "for all reading programs, chunked and fixed-length framings, divisions of the stream and points where it breaks off", "why_tests_cant": "Quantifies over all programs that read a body, all divisions and all cut points.", "anchors": ["src/module/http/sps_http_socket.cpp: HttpRequestSocket::read, HttpRequestSocket::read_chunked_data", "src/io/sps_io_socket.cpp: Socket::read", "src/io/sps_io_bytes.cpp: BytesReader::acquire"]}
{"id": "C146", "title": "An HTTP upload publishes what it carries", "statement": "For a POST of an FLV text, chunked or with a length and divided by the network in any way, the packets that reach the stream are exactly those of the text, in order, and decoding ends with the end of the body; the packets an encoder wrote are the packets published.", "quantifier": "for all heads, framings, divisions, FLV texts and sizes of the demuxer's buffer", "why_tests_cant": "Composition of head reader, body reader, buffer and demuxer over all divisions and all contents.", "anchors": ["src/module/http/sps_http_stream_phase_handler.cpp: HttpStreamPhaseHandler::handler", "src/module/stream/sps_stream.cpp: StreamDecoder::decode", "src/avformat/sps_avformat_flvdec.cpp: FlvDemuxer::read_packet", "src/module/http/sps_http_phase_handler.cpp: HttpParsePhaseHandler::handler"]}
{"id": "C147", "title": "An interrupted upload publishes an initial part", "statement": "If the connection of an FLV upload breaks off at any byte after the head, the packets published are an initial segment of those the whole upload would have published: none is altered, reordered or made up.", "quantifier": "for all uploads as above and all points where the connection breaks off", "why_tests_cant": "All cut points, including those inside chunk sizes, chunk ends and tag heads.", "anchors": ["src/module/http/sps_http_socket.cpp: HttpRequestSocket::read", "src/module/stream/sps_stream.cpp: StreamDecoder::decode", "src/avformat/sps_avformat_flvdec.cpp: FlvDemuxer::read_packet"]}
{"id": "C148", "title": "An HTTPS upload publishes what it carries", "statement": "The same as for HTTP uploads holds over TLS, from the handshake on, for every division of handshake and ciphertext.", "quantifier": "for all TLS libraries meeting the contracts, divisions, heads, framings and FLV texts", "why_tests_cant": "Five layers composed over all divisions of the ciphertext.", "anchors": ["src/sys/st/io/sps_sys_st_io_ssl.cpp: StSSLSocket::accept, StSSLSocket::read", "src/module/http/sps_http_stream_phase_handler.cpp: HttpStreamPhaseHandler::handler", "src/avformat/sps_avformat_flvdec.cpp: FlvDemuxer::read_packet"]}
{"id": "C149", "title": "Requests on one connection are independent", "statement": "For every sequence of requests on one connection that each leave it open, however the network divides them, the client receives exactly the concatenation of what it would have received on separate connections, the upstreams receive exactly the same requests in the same order, and the connection then goes on as a new one. A request that fails or never ends is the last one; nothing after it is looked at.", "quantifier": "for all sequences of requests, divisions of the stream, configurations, upstream answers and stream states", "why_tests_cant": "Absence of leaks between requests is a statement about all pairs of histories; a test shows single histories.", "anchors": ["src/module/server/sps_server_handler.cpp:handler", "src/module/http/sps_http_phase_handler.cpp:handler", "src/module/host/sps_host_router_handler.cpp:handler", "src/module/http/sps_http_proxy_phase_handler.cpp:handler", "src/module/http/sps_http_stream_phase_handler.cpp:handler"]}
{"id": "C150", "title": "An unknown host is answered with an empty 404", "statement": "Every request for a host the server does not know, with any method, is answered with one 404 response that declares a length of zero; no upstream is contacted, no byte behind the head is consumed and the connection is ready for the next request.", "quantifier": "for all requests, hosts, divisions of the stream and following bytes", "why_tests_cant": "All methods, hosts and divisions.", "anchors": ["src/module/http/sps_http_phase_handler.cpp:handler", "src/module/host/sps_host_router_handler.cpp:handler"]}
{"id": "C151", "title": "Responses on one connection can be told apart", "statement": "When all requests of a connection are for unknown hosts or proxied and answered with a body by length or in chunks, a client that delimits responses by the rules of RFC 7230 reads exactly the statuses and bodies of the upstreams, in order, and no other reading of the received bytes exists.", "quantifier": "for all sequences of such requests, bodies, chunk divisions, header fields and divisions of the streams", "why_tests_cant": "Ambiguity of framing shows only for particular bodies and field combinations; uniqueness is a statement about all readings.", "anchors": ["src/module/http/sps_http_proxy_phase_handler.cpp:handler", "src/module/http/sps_http_socket.cpp: HttpResponseSocket::write_header, HttpResponseSocket::write", "src/io/url/sps_io_url_http.cpp:read"]}
{"id": "C152", "title": "The answer for a missing stream swallows the next response", "statement": "The 404 for a stream that is not there and the 403 for a refused upload carry neither a length nor chunked framing although the server keeps the connection: a client that follows RFC 7230 must take the response to its next request as the body of this one, and no reading of the bytes yields two responses.", "quantifier": "for all such requests followed by any request", "why_tests_cant": "Needs the joint view of two responses and the framing rules.", "anchors": ["src/module/http/sps_http_stream_phase_handler.cpp:handler", "src/module/http/sps_http_socket.cpp:write_header"]}
{"id": "C153", "title": "A proxied response without a body ends the connection", "statement": "When an upstream sends a response that has only a head (the answer to HEAD, a 204, a 304), the client receives that head, but the server goes on waiting for a body; when the upstream ends its connection the request counts as failed and the connection of the client ends with its further requests unanswered.", "quantifier": "for all such responses, requests and following requests", "why_tests_cant": "The server waits as long as the upstream keeps the connection open; covers all statuses and field combinations.", "anchors": ["src/io/url/sps_io_url_http.cpp:read", "src/module/http/sps_http_proxy_phase_handler.cpp:handler"]}
{"id": "C154", "title": "A failing upstream is not reported to the client", "statement": "If the upstream of a proxied request cannot be reached, or ends the connection before its response head is complete, the client receives no byte: there is no error response, the connection just ends.", "quantifier": "for all proxied requests and all points before the end of the response head", "why_tests_cant": "All cut points of the upstream head.", "anchors": ["src/module/http/sps_http_proxy_phase_handler.cpp:handler", "src/io/url/sps_io_url_http.cpp:open"]}
{"id": "C155", "title": "An accepted upload is published and never answered", "statement": "An accepted FLV upload, chunked or with a length, is published under the name of its stream packet for packet; the client never receives a response, and the connection ends with the upload whatever was sent behind it.", "quantifier": "for all accepted FLV uploads, framings, divisions and following bytes", "why_tests_cant": "Composition of routing, admission, body framing and demuxer over all divisions.", "anchors": ["src/module/http/sps_http_stream_phase_handler.cpp:handler", "src/module/stream/sps_stream_handler.cpp:publish", "src/module/stream/sps_stream.cpp:decode"]}
{"id": "C156", "title": "An edge publishes exactly what its upstream answers", "statement": "The stream an edge makes of a 200 answer with an FLV body is the packets of that body in order, whether the upstream sends it in chunks, by length or up to the end of the connection and however the network divides it; if the connection breaks off anywhere, what has been published is where the whole starts.", "quantifier": "for all answer heads up to 2048 bytes, framings, divisions of the bytes, FLV bodies, buffer capacities from 15 bytes and points of failure", "why_tests_cant": "the divisions and failure points of one answer alone are exponentially many, and chunk boundaries fall anywhere in a tag", "anchors": ["src/module/stream/sps_stream_edge.cpp:StreamEdge::handler", "src/io/url/sps_io_url_http.cpp:HttpUrlProtocol::read", "src/io/url/sps_io_url_http.cpp:HttpUrlProtocol::open", "src/avformat/sps_avformat_flvdec.cpp:FlvDemuxer::read_packet"]}
{"id": "C157", "title": "The stream an edge asks its upstream for", "statement": "For a player path p.e an edge with pass_proxy addr or addr:port sends a request that an HTTP server reads as a GET for the stream named addr followed by p, in format e and with the query of the player: the upstream must know the stream under the address in the configuration of the edge, not under the host name the player used.", "quantifier": "for all player requests over http, addresses, ports, paths with an extension and queries, and all parsers that read the text as it stands", "why_tests_cant": "it connects two servers and two parsers over all URLs; a test sees one configuration", "anchors": ["src/module/stream/sps_stream_edge.cpp:StreamEdgeEnter::start_edge", "src/io/url/sps_io_url_http.cpp:HttpUrlProtocol::open", "src/module/stream/sps_stream_handler.cpp:StreamHandler::get_cache_key"]}
{"id": "C158", "title": "Chains of edges are transparent", "statement": "However many edges stand between a source and a player, the player gets what a player of the first server could have got who joined at some moment: the snapshot of that moment (metadata, codec headers, newest group of pictures) and everything published since, up to some point. Nothing is lost in between, repeated, altered or reordered, whatever connections break; the file the player downloads decodes to exactly these packets.", "quantifier": "for all numbers of servers, all event histories on each, all packets FLV can carry, all divisions and failures of the connections between them", "why_tests_cant": "histories of several servers and the network between them cannot be enumerated; that snapshots of snapshots are snapshots needs an argument", "anchors": ["src/module/stream/sps_stream_edge.cpp:StreamEdge::handler", "src/avformat/sps_avformat_cache.cpp:AVGopCacheStream::put", "src/avformat/sps_avformat_cache.cpp:AVGopCacheStream::dump", "src/module/stream/sps_stream_handler.cpp:StreamHandler::play"]}
{"id": "C159", "title": "Pulls that give no stream, and an answer that stops the server", "statement": "Without a connection, when the request cannot be sent, when the head of the answer does not arrive or is refused, or when the status is not 200, a pull ends and no stream exists; a stream exists only after a parsed answer with status 200. But an answer whose very first byte the parser refuses counts as success (0 bytes parsed) and the server goes on through a null response.", "quantifier": "for all upstream answers, parsers and failure points", "why_tests_cant": "it needs an upstream that is no HTTP server, and all places where a pull can fail", "anchors": ["src/module/stream/sps_stream_edge.cpp:StreamEdge::handler", "src/io/url/sps_io_url_http.cpp:HttpUrlProtocol::open", "src/module/http/sps_http_parser.cpp:HttpParser::parse_header"]}
{"id": "C160", "title": "What an RTMP client hears while it connects", "statement": "A client whose connect phase succeeds hears, besides acknowledgements and pongs, exactly this in RTMP messages and AMF0 texts that any reader of the two formats understands: window, limit, chunk size and the result of its connect under its own transaction id; one result per createStream, releaseStream and FCPublish in order, under its id and with stream number 1 or 0; then the status of its role and the start of stream 1. However the phase ends, every message sent fits its buffer and is readable.", "quantifier": "for all sequences of client messages, transaction ids, send failures and AMF libraries that find IEEE doubles", "why_tests_cant": "All commands in all orders with all 2^64 ids; the bytes are compared with the formats, not with a recorded session.", "anchors": ["src/avformat/sps_avformat_librtmp.cpp: RtmpHook::send_connect_result, RtmpHook::send_result, RtmpHook::send_play_start, RtmpHook::send_publish_start, RtmpHook::send_sample_access, RtmpHook::send_stream_begin", "src/module/rtmp/sps_rtmp_server_handler.cpp:connect", "src/avformat/sps_avformat_librtmp_packet.cpp: AMF_EncodeNull, AMF_EncodeStartObject, AMF_EncodeEndObject"]}
{"id": "C161", "title": "Transaction ids and streams of RTMP status messages", "statement": "The status of a publish carries the transaction id of the command cut to an int: an id that is an int comes back as the same number, a fraction is lost. A play or publish whose id is not within the ints (too large, infinite or NaN) is undefined behaviour. All messages of the connect phase travel on message stream 0, also the status of a stream created as stream 1, so a client that looks for the status on its stream does not find it.", "quantifier": "for all clients, ids and orderly sessions", "why_tests_cant": "Conversion of every double, including the undefined ones; every message of every session.", "anchors": ["src/avformat/sps_avformat_librtmp.cpp: RtmpHook::send_publish_start, RtmpHook::send_play_start", "src/module/rtmp/sps_rtmp_server_handler.cpp: RtmpPreRequest::on_recv_play, RtmpPreRequest::on_recv_publish"]}
{"id": "C162", "title": "The own client and the own server understand each other", "statement": "The connect message the library sends as a client is read by its server as a connect to the same application and address with the next transaction id, exactly if application and address have at most 71 bytes together; longer ones are undefined behaviour, because the encoder reports a lack of space by a null pointer that is used on. Its createStream is read as createStream with the next id.", "quantifier": "for all names without NUL and all ids in the int range", "why_tests_cant": "All names; the limit comes from a fixed buffer of 256 bytes and the sum of two lengths.", "anchors": ["src/avformat/sps_avformat_librtmp.cpp: RtmpHook::send_connect, RtmpHook::create_stream", "src/avformat/sps_avformat_librtmp_packet.cpp: ConnectRtmpPacket::invoke_from, AmfRtmpPacket::convert_self"]}
{"id": "C163", "title": "When a server shares its port between processes", "statement": "A server block asks the operating system for a shared port exactly if the value of its last reuse_port line begins with on (on, only, once); any other value, and no line at all, means not shared. On a system without shared ports the first kind fails to start with the error of setting the option, over TCP, TLS and SRT, and the second kind listens.", "quantifier": "for all server blocks, values, ports, and all systems that lack only shared ports", "why_tests_cant": "The set of values is unbounded, and the rule (two bytes compared, last line wins) shows only for texts like only; a test covers on and off.", "anchors": ["src/module/sps_module_opt.cpp:opt_set", "src/module/server/sps_server_module.hpp:reuse_port", "src/sys/st/io/sps_sys_st_io_tcp.cpp:st_tcp_listen", "src/sys/st/io/sps_sys_st_io_srt.cpp:st_srt_listen"]}
{"id": "C164", "title": "No player waits longer than ten seconds for the origin", "statement": "A player that asks an edge server for a stream is attached to that stream, or has been answered that it does not exist, by ten seconds after its arrival, whatever the origin, publishers, other players and the clock do.", "quantifier": "for all histories of arrivals, publishers, edges, packets, writes and clock steps, and all players", "why_tests_cant": "The bound must hold for every interleaving of coroutines and every moment the origin answers, fails or stays silent; a test covers a few timings and has to wait in real time.", "anchors": ["src/module/stream/sps_stream_edge.cpp:wait_edge", "src/module/stream/sps_stream_edge.cpp:start_edge", "src/module/stream/sps_stream_handler.cpp:play", "src/sys/st/sps_sys_st_sync.hpp:StCondition"]}
{"id": "C165", "title": "One pull from the origin, and everybody waiting for it is served together", "statement": "However many players ask for the same name, only one connection to the origin is being made or used for it and all of them wait for that one, provided that nobody asks for or publishes a name between the end of a pull and the moment the player that started the pull goes on; without the proviso two pulls of one name can run at once (witness). When the origin answers, all of them are attached to the stream before the clock moves (under the proviso, and unless a source ends in that very moment); when it fails and nobody else publishes the name, all that wait for that pull are told so at that moment. No wake-up is lost. A pull that has ended is in nobody's way: the next player starts a new one, and unless a player still has to go on from having started it, its edge object is gone at once.", "quantifier": "for all histories, any number of waiting players, in whatever order they go on", "why_tests_cant": "Lost wake-ups and double pulls show only for particular interleavings of arrival, start of the edge, answer and time-out.", "anchors": ["src/module/stream/sps_stream_edge.cpp:handler", "src/module/stream/sps_stream_edge.cpp:start", "src/module/stream/sps_stream_edge.cpp:stop", "src/module/stream/sps_stream_edge.cpp:wait"]}
{"id": "C166", "title": "A sleeping player has been given everything", "statement": "Whenever a player sleeps waiting for packets, it has been handed the snapshot of its source at the time it joined followed by every packet that source put since, in order; the clock never moves while a player that could take a packet has one queued.", "quantifier": "for all timed histories of publishers, edges, packets, joins, leaves and write completions, and all players", "why_tests_cant": "A packet that arrives between the check of the queue and the wait, or while the player writes, would be delayed by up to ten seconds; that needs an exact interleaving to see.", "anchors": ["src/avformat/sps_avformat_cache.cpp:dump", "src/module/stream/sps_stream.cpp:encode", "src/sys/sps_sys_sync.hpp:on_event", "src/module/stream/sps_stream_handler.cpp:play"]}
{"id": "C167", "title": "A player of a silent stream is dropped after exactly ten seconds", "statement": "A player that began to wait for packets at some time and gets none is ended with the time-out code exactly ten seconds later, also when its source has ended in the meantime (players are not told about the end of a source); no player is ended by time-out earlier than that, and no wait ever holds the clock.", "quantifier": "for all timed histories in which no packet is put into the stream that player plays", "why_tests_cant": "The exact moment over all interleavings with other players, sources and clock steps cannot be sampled.", "anchors": ["src/avformat/sps_avformat_cache.cpp:dump", "src/module/stream/sps_stream.cpp:encode", "src/module/stream/sps_stream_handler.cpp:play"]}
{"id": "C168", "title": "Waiting for the origin although the stream is there", "statement": "Two expectations are false. A publisher that takes the name while an edge is connecting wakes nobody: players go on waiting up to ten seconds for the origin although the stream is registered; in every history nothing but the answer or end of that pull, or ten seconds, ends their wait. And when such a publisher ends after the edge has connected, the running edge loses its stream: every later player waits ten seconds for the edge and is refused, while packets keep arriving from the origin.", "quantifier": "all histories for the wait; witness histories for the two expectations", "why_tests_cant": "Both need a publisher to appear during the connection of an edge to the same name, and a wait.", "anchors": ["src/module/stream/sps_stream_edge.cpp:wait_edge", "src/module/stream/sps_stream_handler.cpp:publish", "src/module/stream/sps_stream_cache.hpp:release_av_streamcache"]}
{"id": "C169", "title": "A log line shows the statement's words and values", "statement": "A log statement made of words, strings and numbers whose text has no percent sign writes the time, the place and that text, cut at 4095 characters. In general it writes the text with each pair of percent signs turned into one; a text (within the first 4095 characters of the line) with a percent sign outside a pair makes the statement undefined behaviour. The lines about HTTP requests, unknown hosts, RTMP connections, play and publish requests and SRT stream ids follow this rule with the client's text in them.", "quantifier": "for all times, places, numbers and NUL-free strings, and all statements built of words, %s and %d", "why_tests_cant": "The rule is about every text a client may send and every length around the size of the buffer; running with chosen texts shows the undefined cases only by luck.", "anchors": ["src/log/sps_log.cpp:printf", "src/log/sps_log.hpp:sp_trace", "src/module/http/sps_http_phase_handler.cpp:handler", "src/module/rtmp/sps_rtmp_server_handler.cpp:on_recv_play", "src/module/srt/sps_srt_server_handler.cpp:get_url_by_streamid"]}
{"id": "C170", "title": "What a client sends is only data for the log", "statement": "False. The finished line is used as a format once more, so any client can make the server execute undefined behaviour: the first percent sign in a URL (as in every percent-encoded one, say /live/a%20b.flv), in an unknown host name, an RTMP url or stream name or an SRT stream id that is not followed by a second percent sign does it, if it stands within the first 4095 characters of the line.", "quantifier": "for all client texts with such a percent sign, all statements that print them, all times and places (and one witness request)", "why_tests_cant": "A conversion without an argument reads whatever is on the stack: a test may print garbage, crash or pass, and says nothing about the next compiler.", "anchors": ["src/log/sps_log.cpp:printf", "src/module/http/sps_http_phase_handler.cpp:handler", "src/module/host/sps_host_router_handler.cpp:handler", "src/module/rtmp/sps_rtmp_server_handler.cpp:on_recv_publish", "src/module/srt/sps_srt_server_handler.cpp:get_url_by_streamid"]}
{"id": "C171", "title": "One statement, one line", "statement": "False in two ways. The line of a request that is 4095 characters or longer is written without its line end, so the next statement continues it. And an RTMP player can add any line of its choice (without percent signs and NULs) to the log by asking for a stream whose name contains line ends.", "quantifier": "for all long requests, and for all lines a player may want to forge, all times and places", "why_tests_cant": "The forged line is arbitrary and the cut depends on every length in the line.", "anchors": ["src/log/sps_log.cpp:printf", "src/log/sps_log.hpp:ConsoleLog", "src/module/rtmp/sps_rtmp_server_handler.cpp:on_recv_play", "src/module/http/sps_http_phase_handler.cpp:handler"]}
{"id": "C172", "title": "A waiting player that goes on takes no name from anybody", "statement": "A player that goes on after a wait changes neither which streams can be played nor which names are being pulled, provided that nobody asks for or publishes a name between the end of a pull and the moment the player that started the pull goes on. Without the proviso it is false: the object of the ended pull is destroyed when that player goes on, and its destructor releases the name a second time. A publisher that has taken the name in between loses its stream: it keeps publishing, nobody can play it, and a second publisher of the same name is let in.", "quantifier": "for all timed histories meeting the proviso; a witness history for the failure", "why_tests_cant": "The failure needs a pull that ends before the player that started it has run again, and a publisher in between.", "anchors": ["src/module/stream/sps_stream_edge.cpp:StreamEdge", "src/module/stream/sps_stream_edge.cpp:stop", "src/module/stream/sps_stream_edge.cpp:start_edge", "src/module/stream/sps_stream_cache.hpp:release_av_streamcache"]}
{"id": "C173", "title": "Every accepted connection is served once with its objects alive, and let go at its end", "statement": "In every order in which connections are accepted and coroutines begin, log and end, no object is used after it was destroyed; an accepted connection whose coroutine could be created is served exactly once and its socket is closed exactly once, after its handler has returned; one whose coroutine could not be created is closed without being served; its objects live exactly from the acceptance until that moment.", "quantifier": "for all histories (handlers new, threads not given out twice, other starters keep their handler until its coroutine has begun) with at most 2147483647 coroutines", "why_tests_cant": "The objects are kept by several reference-counted owners that let go in different orders; a use after free or a leak shows only for a particular order of accept, scheduling and end.", "anchors": ["src/module/server/sps_server.cpp:accept", "src/module/server/sps_server.cpp:on_stop", "src/sys/sps_sys_co.cpp:start", "src/sys/st/sps_sys_st_co.cpp:main_co", "src/util/sps_util_typedef.hpp:Registers"]}
{"id": "C174", "title": "The context id in the log tells connections apart", "statement": "Two log lines carry the same context id exactly when they were written for the same connection (or other coroutine), even when threads are used again; a line written while a connection is served always has an id of at least zero.", "quantifier": "for all histories as above, all pairs of log lines", "why_tests_cant": "Two connections could share an id only after some sequence of ends and new threads.", "anchors": ["src/sys/st/sps_sys_st_co.cpp:set_id", "src/sys/st/sps_sys_st_co.cpp:get_id", "src/sys/st/sps_sys_st_co.cpp:remove_id", "src/sys/st/sps_sys_st_co.cpp:main_co"]}
{"id": "C175", "title": "A coroutine can be started and forgotten", "statement": "False in three ways. A handler that is let go after start() and before its coroutine begins is not skipped, as the test of the weak pointer intends: the coroutine reads its own freed object. A handler that is started a second time frees the object of its first coroutine. And the coroutine number 2147483648 of a process overflows the counter of context ids.", "quantifier": "for all histories before, all handlers and threads, and all further events up to the beginning of the coroutine in question; for the overflow every history of that many connections served one after the other", "why_tests_cant": "The first two need an exact order of scheduling and show as a use after free only by luck; the last needs two thousand million connections.", "anchors": ["src/sys/sps_sys_co.cpp:start", "src/sys/st/sps_sys_st_co.cpp:main_co", "src/sys/st/sps_sys_st_co.cpp:set_id"]}
{"id": "C176", "title": "What an SRT connection comes to", "statement": "A connection whose stream id names host, path and mode (pairs ended by commas) plays the transport stream of host and path exactly if the host is configured, the mode is request and such a stream is there; it publishes under host and path exactly if the host is configured, the mode is anything else and no stream has that name; every other connection is refused with an error. Stream ids that are too short or name no host, and sockets that are not SRT, are always refused. A player's connection that ends ends with an error, so it is never served a second time, and a player of a missing stream is sent nothing.", "quantifier": "for all URL libraries meeting the contract, host tables, sets of streams, four first characters, lists of pairs and rests; for all sequences of dumps and of library results", "why_tests_cant": "The stream id is free text and the outcome depends on the host table and the streams present at that moment.", "anchors": ["src/module/srt/sps_srt_server_handler.cpp:get_url_by_streamid", "src/module/srt/sps_srt_server_handler.cpp:handler", "src/module/srt/sps_srt_stream_handler.cpp:handler", "src/module/srt/sps_srt_stream_handler.cpp:play", "src/module/srt/sps_srt_stream_handler.cpp:publish", "src/module/host/sps_host_router_handler.cpp:handler"]}
{"id": "C177", "title": "SRT clients that name the same stream meet", "statement": "When one client publishes and another plays with stream ids that name the same host and path, in whatever order and spelling of the pairs, the messages sent to the player are transport-stream packets of the publisher, unaltered and in order: the snapshot at the time it joined and everything since. An HTTP request for the same host and path with any extension looks for the same name.", "quantifier": "for all stream ids, host tables, histories of the server, uploads of whole packets in any order with other events, and sets of library waits", "why_tests_cant": "It is a statement about all pairs of stream ids and all interleavings of the two connections with everything else on the server.", "anchors": ["src/module/srt/sps_srt_server_handler.cpp:get_url_by_streamid", "src/module/srt/sps_srt_stream_handler.cpp:play", "src/module/srt/sps_srt_stream_handler.cpp:publish", "src/module/stream/sps_stream_handler.cpp:get_cache_key"]}
{"id": "C178", "title": "A TCP connection is a stream of bytes", "statement": "Reads of any sizes return the bytes of the peer in order, none lost, repeated or altered, however the network divides them and whatever time-outs and interruptions come between; a successful read has at least one byte and at most as many as asked for; the end of the connection is reported only after every byte has been returned. Writes send, in order, all of their data when they succeed and a first part of it when they fail; writing nothing is an error. The socket's full read (used by no caller today) returns exactly the next bytes if they come, and loses the bytes it has read when a wait times out.", "quantifier": "for all sequences of arrivals, time-outs, interruptions and errors, and all sequences of read and write sizes", "why_tests_cant": "The division of the bytes by the network and the moments of time-outs are not under a test's control.", "anchors": ["src/sys/st/io/sps_sys_st_io_tcp.cpp:read", "src/sys/st/io/sps_sys_st_io_tcp.cpp:read_fully", "src/sys/st/io/sps_sys_st_io_tcp.cpp:write"]}
{"id": "C179", "title": "A file is read exactly, by bytes and by lines", "statement": "Reads of any positive sizes return the bytes of a file in order, each as many as asked for, until one shorter read, possibly empty, meets the end; every later one reports the end of the file and never another error. Read by lines, the file gives its lines, the last one with or without a newline, and then its end. Any code that reads positive sizes, stops at the first error and asks again after an empty read ends as it would over a connection that brings the same bytes.", "quantifier": "every file content, every sequence of positive read sizes, every number of lines, every reading program of that kind", "why_tests_cant": "the boundary cases (file length a sum of the sizes, empty last read, missing last newline) depend on the alignment of all sizes with the file; programs are unbounded", "anchors": ["src/io/url/sps_io_url_file.cpp:read", "src/io/url/sps_io_url_file.cpp:read_line", "src/io/sps_io_bytes.cpp:acquire"]}
{"id": "C180", "title": "Copying an FLV file packet by packet gives the same file", "statement": "Reading an FLV file with the demuxer and writing every packet with the muxer to a second file succeeds and produces the same bytes, header included, for every file made of AAC, H.264, H.265 and script tags with correct back pointers whose bodies fit the buffer.", "quantifier": "every such file: any number of packets, payloads, timestamps, frame types, composition times, and header flags", "why_tests_cant": "the test copies one file and only checks that no error occurs; equality for all files involves timestamps of 32 bits, signed composition times and buffer refills at every offset", "anchors": ["src/avformat/sps_avformat_flvdec.cpp:read_packet", "src/avformat/sps_avformat_flvenc.cpp:write_packet", "src/io/url/sps_io_url_file.cpp:read", "test/test_av_flv.cpp:test_flv"]}
{"id": "C181", "title": "A write to a file that reports success has been written", "statement": "True as long as no read has met the end of the file: the file gets exactly the data of the writes before the first refusal of the device, and from that write on all report failure, as do reads. False afterwards: once a read has met the end, every write reports success and writes nothing.", "quantifier": "every sequence of writes, every point at which the device refuses, every content and read size", "why_tests_cant": "a refusal of the device cannot be provoked in a unit test; the false case needs a file used for both directions, which no test does", "anchors": ["src/io/url/sps_io_url_file.cpp:write", "src/io/url/sps_io_url_file.cpp:read"]}
{"id": "C182", "title": "HTTP heads are understood exactly", "statement": "Of a well-formed request head the server gets the target, the method and every header field, in order, repeated fields included; of a well-formed response head the status, the declared length (below 2^31) or that there is none, whether it is in chunks, and every field.", "quantifier": "all methods of the list, targets, fields, status codes, header sections up to the limit, and every parser library that reports well-formed heads part by part", "why_tests_cant": "Header sections are unbounded in number and content; the property links the parser's callback sequence to the list every later decision is made from.", "anchors": ["src/module/http/sps_http_parser.cpp:on_header_value", "src/module/http/sps_http_parser.cpp:on_header_field", "src/module/http/sps_http_parser.cpp:on_url", "src/module/http/sps_http_parser.cpp:parse_request", "src/module/http/sps_http_parser.cpp:parse_response"]}
{"id": "C183", "title": "Folded header values are split", "statement": "A header value continued on further lines does not arrive as one field: every line becomes a field of its own with the same name. That fields arrive one for one is false.", "quantifier": "all requests with any number of continued fields; a witness for the refutation", "why_tests_cant": "Depends on the parser library reporting a value in pieces; tests with one-line headers never see it.", "anchors": ["src/module/http/sps_http_parser.cpp:on_header_value", "src/module/http/sps_http_parser.cpp:on_header_field"]}
{"id": "C184", "title": "A request text means the URL it names", "statement": "A well-formed request with a Host header yields a request with the host, port, path, parameters and method of the text and with all its fields, so that routing, proxying and streaming act on what the client asked for.", "quantifier": "all hosts, ports, paths, queries, methods, further fields", "why_tests_cant": "Quantifies over all requests; composes head reading, the parser library, the Host header and URL parsing.", "anchors": ["src/module/http/sps_http_parser.cpp:parse_request", "src/module/http/sps_http_parser.cpp:parse_header", "src/io/url/sps_io_url.cpp:parse_url"]}
{"id": "C185", "title": "A head that turns faulty is served up to the fault", "statement": "A request with a character no field name may have is not refused: the server does everything it would do for the request that ends before that field, and ignores the rest of the head. That a malformed request is refused is false: it is forwarded to the upstream.", "quantifier": "all requests and all faults of that kind at any field, any environment; a witness for the refutation", "why_tests_cant": "The count of bytes the parser accepted is only compared with zero; a test would need the fault at every position.", "anchors": ["src/module/http/sps_http_parser.cpp:parse_header", "src/module/http/sps_http_phase_handler.cpp:handler"]}
{"id": "C186", "title": "A forwarded request means the same at the next server", "statement": "The request the proxy sends upstream, read by another such server, is for the same host, path, parameters and method, with the client's fields except Host in order; the port of the Host header is lost and Accept and Content-Length are added. After two such servers there are two Content-Length fields, which no well-formed request has.", "quantifier": "all requests without a body, all pairs of servers", "why_tests_cant": "Relates two servers for every request; a test sees one request text at a time.", "anchors": ["src/io/url/sps_io_url_http.cpp:http_request", "src/module/http/sps_http_proxy_phase_handler.cpp:handler", "src/module/http/sps_http_parser.cpp:parse_request"]}
{"id": "C187", "title": "Responses survive any number of proxies", "statement": "Through any number of such servers one behind the other, the client gets the origin's status, its end-to-end fields in order and its body, whether sent by length or in chunks, and a client that delimits responses as RFC 7230 says reads exactly that.", "quantifier": "all chains of servers of any length, all responses with a body (by length below 2^31, chunked of any size), all divisions into reads", "why_tests_cant": "Induction over the number of servers: framing added by one hop (repeated Transfer-Encoding, rewritten length) is read by the next.", "anchors": ["src/module/http/sps_http_proxy_phase_handler.cpp:handler", "src/module/http/sps_http_socket.cpp:write_header", "src/module/http/sps_http_parser.cpp:parse_response"]}
{"id": "C188", "title": "Header names are matched in one spelling only", "statement": "A Host field not spelled exactly so is not seen: the first segment of the path is taken for the host; a length or transfer coding spelled otherwise is not seen either. That names are compared without regard to case is false: of two requests differing only in that, one is forwarded and one answered with 404.", "quantifier": "all requests without a field of the exact spelling; a witness pair for the refutation", "why_tests_cant": "HTTP/1.1 clients and proxies may send any spelling; tests use the usual one.", "anchors": ["src/module/http/sps_http_parser.cpp:contains", "src/module/http/sps_http_parser.cpp:parse_request", "src/io/url/sps_io_url.cpp:get_header"]}
{"id": "C189", "title": "What the delivered configuration files do", "statement": "Started with conf/sps.conf, conf/srt.conf or conf/https.conf the program opens exactly the ports in that file's order, or stops with the system's error at the first that cannot be opened; then, for every port and every host name a client may use, a fixed table says whether there is a server, whether the name is unknown, proxied and to where, or serves streams, who may publish and where missing streams come from.", "quantifier": "all ports, all host names, all outcomes of opening the ports", "why_tests_cant": "The table must hold for all names, not just those in the files; it goes through tokenising, nesting, option defaults, merging of global hosts and routing.", "anchors": ["conf/sps.conf:globalhost", "conf/srt.conf:globalhost", "conf/https.conf:https445", "src/module/sps_module.cpp:init_conf", "src/module/host/sps_host_module.cpp:find_host"]}
{"id": "C190", "title": "The delivered upstream name is not used", "statement": "That the upstream block github of conf/sps.conf receives the requests of the host that names it in pass_proxy is false: they go to a machine called github, not to github.com:80.", "quantifier": "a witness within the delivered file", "why_tests_cant": "A test with the delivered file needs the real network to notice; the block is read and accepted without complaint.", "anchors": ["conf/sps.conf:github", "src/module/host/sps_host_module.cpp:get_proxy_info", "src/module/upstream/sps_upstream_module.cpp:get"]}
{"id": "C191", "title": "The delivered edge host pulls from its own server", "statement": "With conf/sps.conf, a player of any path on the host localhost whose stream is missing makes the server ask 127.0.0.1:80, itself, in words any HTTP server reads as a request for the stream published on the host 127.0.0.1 under the same path, and that host takes publishers of every format.", "quantifier": "all paths, formats and queries, all conforming parsers", "why_tests_cant": "Relates configuration, the edge's URL rewriting and the stream naming on the other side for every path.", "anchors": ["conf/sps.conf:localhost", "src/module/stream/sps_stream_edge.cpp:start_edge", "src/module/host/sps_host_module.cpp:edge"]}
{"id": "C192", "title": "Which hosts fetch missing streams", "statement": "A player of a stream nobody publishes makes the server fetch it from an origin exactly when the host's role is edge: the player is then treated as if the stream had been there if fetching succeeds, and is refused otherwise; on any other host it is refused at once.", "quantifier": "all hosts, requests, stream tables and results of fetching", "why_tests_cant": "For all role texts and all outcomes of the fetch, including one that succeeds without the stream appearing.", "anchors": ["src/module/stream/sps_stream_handler.cpp:play", "src/module/host/sps_host_module.cpp:edge"]}
{"id": "C193", "title": "The kinds of URL that can be opened", "statement": "Of all well-formed URLs those with the schemas http, file and rtmp have a reader and those with any other schema have none.", "quantifier": "all schemas, hosts, ports, paths, queries", "why_tests_cant": "The negative half is about all other schemas.", "anchors": ["src/io/url/sps_io_url_protocol.cpp:create", "src/install/sps_install_url_protocols.cpp:sps_url_protocols"]}
{"id": "C194", "title": "Newcomers and the video decoder configuration", "statement": "The newest video decoder configuration a publisher sent is the one a newcomer gets, as long as no video information or command frame followed it. A command frame is taken for a configuration: once one has arrived, no newcomer gets any decoder configuration until the publisher sends a new one, even though an earlier one was received.", "quantifier": "all histories of packets FLV can carry, before and after the configuration or command frame", "why_tests_cant": "A test stream without command frames never shows the loss; the loss is a statement about every history around such a frame.", "anchors": ["src/avformat/sps_avformat_cache.cpp:put", "src/avformat/sps_avformat_packet.cpp:is_video_sequence_header", "src/avformat/sps_avformat_flvdec.cpp:read_packet"]}
{"id": "C195", "title": "FFmpeg build: which stream a packet goes out on", "statement": "In the build with FFmpeg, if every stream of the published container is audio, video, subtitles or data, each packet goes out to a player exactly once, with its bytes unchanged, on the output stream made for its input stream, at the same decoding and presentation time up to half a tick of the output's clock; packets of other streams are left out. But behind a stream of another kind (an attachment) no packet reaches the output stream made for it: it is sent on another one, or, if there are too few output streams, the server reads outside an array.", "quantifier": "all containers (lists of streams), packets, clocks and output clocks", "why_tests_cant": "A test container has its streams in the usual order; the claim is about every list of streams and the arithmetic of all pairs of clocks.", "anchors": ["src/avformat/sps_avformat_ffmpeg_enc.cpp:write_packet", "src/avformat/sps_avformat_ffmpeg_enc.cpp:on_av_stream", "src/avformat/sps_avformat_ffmpeg_dec.cpp:read_packet"]}
{"id": "C196", "title": "FFmpeg build: a packet without a time ends the server", "statement": "In the build with FFmpeg, a packet of a relayed stream whose decoding or presentation time is missing, or lies half an output tick or more before zero, makes the whole server process exit while it is written to any player, whatever was sent before.", "quantifier": "all streams, clocks, packets and earlier packets of the player", "why_tests_cant": "Running into it ends the test process itself; which times lead there depends on all pairs of clocks.", "anchors": ["src/avformat/sps_avformat_ffmpeg_enc.cpp:write_packet"]}
{"id": "C197", "title": "FFmpeg build: streams not published through FFmpeg", "statement": "In the build with FFmpeg, a stream whose packets do not come from FFmpeg's demuxer (published over SRT) cannot be played: the player gets no frame, and its request fails when the header is written, or the server dereferences a null pointer at the first packet.", "quantifier": "all requests, answers of the library and sequences of packets", "why_tests_cant": "It concerns every combination of library answers, of which a test sees one.", "anchors": ["src/avformat/sps_avformat_ffmpeg_enc.cpp:write_packet", "src/module/stream/sps_stream_handler.cpp:play"]}
{"id": "C198", "title": "FFmpeg build: formats FFmpeg does not know", "statement": "In the build with FFmpeg, the output format is chosen by schema, host and path of the request alone. A request for a running stream by a URL for which no format is found dereferences a null pointer instead of failing. Content FFmpeg cannot open is refused to a publisher with an error, but dereferences a null pointer when an edge receives it from its origin.", "quantifier": "all requests, streams, library answers and queries", "why_tests_cant": "The set of formats is the library's; the claim is about every answer it can give.", "anchors": ["src/avformat/sps_avformat_ffmpeg_enc.cpp:free_ffmpeg_ctx", "src/avformat/sps_avformat_ffmpeg_enc.cpp:init", "src/module/stream/sps_stream_edge.cpp:handler", "src/module/stream/sps_stream_handler.cpp:publish"]}
{"id": "C199", "title": "FFmpeg build: an RTMP client reaches the same stream", "statement": "In the build with FFmpeg, an RTMP client that names host, application and stream gets the stream of the same name as in the build without it, in FLV format, with the query it gave.", "quantifier": "all well-formed hosts, paths and queries", "why_tests_cant": "Equality of names across two builds for all URLs.", "anchors": ["src/module/rtmp/sps_rtmp_stream_handler.cpp:handler"]}
{"id": "C200", "title": "FFmpeg build: newcomers, times and results of reads and writes", "statement": "In the build with FFmpeg, a newcomer gets exactly the newest packets from the last key frame of the video on, and nothing of a stream without video. A failed read or write is always reported to the library as a negative number and a successful one as its size. The times of the packets stay in ticks of the input's clock and are not brought to milliseconds.", "quantifier": "all histories of packets, results of reads and writes, clocks and times", "why_tests_cant": "Histories are unbounded; the claim about times is about every clock.", "anchors": ["src/avformat/sps_avformat_cache.cpp:put", "src/avformat/sps_avformat_ffmpeg_dec.cpp:read_data", "src/avformat/sps_avformat_ffmpeg_enc.cpp:write_data", "src/avformat/sps_avformat_ffmpeg_dec.cpp:read_packet"]}
{"id": "C201", "title": "Any mix of requests on a text or a file", "statement": "Byte requests, requests for an exact number of bytes and line requests on a text in memory or on a file may be mixed freely: each is answered from where the one before stopped, no byte is skipped or given twice, and at the end every request reports the end. A text in memory keeps what is left when too many bytes are asked for; a file loses it.", "quantifier": "all texts and all sequences of requests of positive size", "why_tests_cant": "Sequences of mixed requests are unbounded, and the state bits of a file stream depend on all earlier ones.", "anchors": ["src/io/sps_io_memory.cpp:read", "src/io/sps_io_memory.cpp:read_fully", "src/io/sps_io_memory.cpp:read_line", "src/io/url/sps_io_url_file.cpp:read_fully", "src/io/url/sps_io_url_file.cpp:read_line"]}
{"id": "C202", "title": "What a newcomer to a raw transport stream is given, in bytes", "statement": "Whatever transport packets a publisher sends, a newcomer to its raw stream is given the latest association table, then at most one program map, then packets among which every packet of every elementary stream stands, unchanged and in order, and no older association table. Of a stream with two programs it is given one map only.", "quantifier": "all sequences of well-formed transport packets, with or without errors, in which no table gives identifier 0 another meaning", "why_tests_cant": "The sequence is unbounded and what an identifier stands for depends on all earlier tables.", "anchors": ["src/avformat/sps_avformat_cache.cpp:put", "src/avformat/sps_avformat_cache.cpp:dump", "src/avformat/sps_avformat_tsdec.cpp:on_packet"]}
{"id": "C203", "title": "Transport stream in, HTTP-FLV out", "statement": "A publisher sends any bytes as transport stream packets and a player asks for the stream over HTTP as FLV. If no AAC frame was empty, the player receives one response holding an FLV file that reads back, however it is cut on the wire, as exactly the packets handed to it, in order, up to what the format can show: the packet type and composition time of frames marked as commands, and composition offsets beyond 24 bits.", "quantifier": "all byte strings sent as transport packets, all interleavings of publishers, players and deliveries, all requests and all ways of cutting the file", "why_tests_cant": "The claim spans demultiplexer, codec parsers, cache, queues and muxer on unbounded input and unbounded schedules.", "anchors": ["src/avformat/sps_avformat_tsdec.cpp:on_packet", "src/avcodec/sps_avcodec_h264_parser.cpp:encode_avc", "src/avformat/sps_avformat_flvenc.cpp:write_packet", "src/module/http/sps_http_stream_phase_handler.cpp:handler"]}
{"id": "C204", "title": "An AAC frame without data ends the reading of the FLV file", "statement": "ADTS allows a frame that is a header only. Such a frame becomes a packet without data, the FLV muxer writes a tag for it, and the project's own FLV reader refuses that tag: the packets before it are read, then an error, and nothing that follows is ever read.", "quantifier": "all ADTS streams with an empty frame at any place, all packets before and after, all ways of cutting the file", "why_tests_cant": "Unbounded numbers of frames before and after the empty one.", "anchors": ["src/avcodec/sps_avcodec_aac_parser.cpp:encode_avc", "src/avformat/sps_avformat_flvdec.cpp:read_packet", "src/avformat/sps_avformat_flvenc.cpp:write_packet"]}
{"id": "C205", "title": "Key pictures in several slices", "statement": "Every slice of a key picture becomes a packet that counts as a key frame. A newcomer who joins after a key picture of several slices is given none of its slices but the last and what follows it.", "quantifier": "all histories, all access units with two or more key slices", "why_tests_cant": "The history before the picture is unbounded, as is the number of slices.", "anchors": ["src/avcodec/sps_avcodec_h264_parser.cpp:encode_avc", "src/avformat/sps_avformat_cache.cpp:put"]}
{"id": "C206", "title": "Supplemental information hides the decoder configuration one server on", "statement": "A second server that pulls the stream as FLV from this one has no decoder configuration for its newcomers once a picture with supplemental information has passed: none of the packets it gives them is a decoder configuration.", "quantifier": "all histories of packets from a transport stream, ending in any access unit with supplemental information", "why_tests_cant": "Histories are unbounded; the effect shows only with two servers in a row and a viewer who comes late.", "anchors": ["src/avcodec/sps_avcodec_h264_parser.cpp:encode_avc", "src/avformat/sps_avformat_cache.cpp:put", "src/avformat/sps_avformat_flvdec.cpp:read_packet"]}
{"id": "C207", "title": "Transport stream in, RTMP out", "statement": "A publisher sends any bytes as transport stream packets and a player asks for the stream over RTMP. The player is sent exactly one message for every packet handed to it, in order, each carrying the packet's decoding time and data; this project's own reader makes of them the packets with the composition offsets that are left. Empty AAC frames do no harm here.", "quantifier": "all byte strings sent as transport packets, all interleavings of publishers, players and deliveries, all RTMP players", "why_tests_cant": "The claim spans demultiplexer, codec parsers, cache, queues and muxer on unbounded input and unbounded schedules.", "anchors": ["src/avformat/sps_avformat_rtmpenc.cpp:write_packet", "src/module/stream/sps_stream_handler.cpp:play", "src/avformat/sps_avformat_rtmpdec.cpp:read_packet"]}
{"id": "C208", "title": "FLV in, RTMP out", "statement": "A stream uploaded or pulled as FLV, in whatever pieces, and watched over RTMP: the player is sent exactly one message for every packet handed to it, in order, with the packet's decoding time and data; the packets are the beginning of the snapshot when it joined and everything uploaded since.", "quantifier": "all FLV bodies and all ways of cutting them, all interleavings of publishers, players and deliveries, all RTMP players", "why_tests_cant": "Unbounded input and unbounded schedules.", "anchors": ["src/avformat/sps_avformat_rtmpenc.cpp:write_packet", "src/avformat/sps_avformat_flvdec.cpp:read_packet", "src/module/stream/sps_stream_handler.cpp:play"]}
{"id": "C209", "title": "FLV and RTMP players of one stream disagree about time", "statement": "For every picture of a stream with an offset between decoding and presentation that the formats can hold, FLV and RTMP players are told the same decoding time and content, the FLV player is told the right time of presentation, and the RTMP player is told the right one exactly when it is 0 to 15 ms after decoding.", "quantifier": "all decoding and presentation times within 24 bits of each other, all contents", "why_tests_cant": "The times range over an unbounded set; a test with small offsets passes.", "anchors": ["src/avformat/sps_avformat_rtmpenc.cpp:write_packet", "src/avformat/sps_avformat_flvenc.cpp:write_packet"]}
{"id": "C210", "title": "Parameter sets within a transport stream turn the clock back", "statement": "An access unit with a sequence parameter set is preceded by a configuration packet stamped 0, whatever the time of the unit. Once a packet with a positive time has been sent, the decoding times FLV and RTMP players see are not in order any more.", "quantifier": "all earlier packets with a positive time among them, all access units with a sequence parameter set, all times", "why_tests_cant": "Histories before the access unit are unbounded; test streams that carry the parameter sets once, at the start, do not show it.", "anchors": ["src/avcodec/sps_avcodec_h264_parser.cpp:encode_avc", "src/avformat/sps_avformat_flvenc.cpp:write_packet", "src/avformat/sps_avformat_rtmpenc.cpp:write_packet"]}
{"id": "C211", "title": "A slow viewer never holds the stream back, and nothing bounds what waits for it", "statement": "While a source is active, everything it publishes is accepted whatever its viewers do, and for a viewer that does not read every one of these packets waits, in order, behind what already waited. So there is no bound on what the server holds for one viewer: for every number there is a run in which more packets wait.", "quantifier": "all runs of publishers, edges, players and deliveries, all continuations by the source, all numbers", "why_tests_cant": "No finite test shows that a queue has no bound, or that publishing never fails whatever the viewers do.", "anchors": ["src/cache/sps_cache.hpp:CacheStream::put", "src/sys/sps_sys_sync.hpp:Publisher::publish", "src/avformat/sps_avformat_cache.cpp:AVDumpCacheStream::dump"]}
{"id": "C212", "title": "The burst a newcomer is handed", "statement": "A player joining a stream is handed at once at most three headers and, if there is a key frame among any K media packets in a row, at most K media packets. While there has been no key frame it is handed no media at all, so a player joining an audio-only stream starts with headers only. Without further key frames the burst is as long as the stream since the last one: for every N there is a run with N packets.", "quantifier": "all runs of publishers, edges, players and deliveries, all distances K between key frames, all N", "why_tests_cant": "Bounds over all histories and all distances, and the absence of a bound, are not finite observations.", "anchors": ["src/avformat/sps_avformat_cache.cpp:AVGopCacheStream::put", "src/avformat/sps_avformat_cache.cpp:AVGopCacheStream::dump"]}
{"id": "C213", "title": "A name is taken only while a source has it", "statement": "Also with edges pulling streams from elsewhere: a publisher is turned away from a name, and a player is accepted on it, only while some source that was accepted on this very name has not ended. When the sources of a name have ended the name is never left behind as taken.", "quantifier": "all runs of publishers, edges, players and deliveries", "why_tests_cant": "Leaked names appear only after particular interleavings of several sources; the claim is about all of them.", "anchors": ["src/module/stream/sps_stream_handler.cpp:publish", "src/module/stream/sps_stream_edge.cpp:stop", "src/module/srt/sps_srt_stream_handler.cpp:handler"]}
{"id": "C214", "title": "A client that is never silent longer than the limit is served as if there were no clock", "statement": "If, from the moment the server starts to read, bytes or the end of the connection come before recv_timeout has passed since the last ones, then whatever the server reads from that connection gives the same result as without a limit, and that result is one that some division of the same bytes gives without any clock. In particular an HTTP-FLV upload that takes arbitrarily long in all is published exactly as it was sent.", "quantifier": "all limits, all times of arrival without a gap as long as the limit, all divisions of the bytes, all programs of reads; for uploads: all heads, framings and packet lists an FLV file can carry", "why_tests_cant": "Timing is continuous and runs of hours cannot be enumerated; a test uses a few pauses on a fast network.", "anchors": ["src/sys/st/io/sps_sys_st_io_tcp.cpp:StTcpSocket::read", "src/sys/st/io/sps_sys_st_io_tcp.cpp:StTcpSocket::set_recv_timeout", "src/module/server/sps_server.cpp:Server::accept", "src/module/stream/sps_stream.cpp:StreamDecoder::decode"]}
{"id": "C215", "title": "A client that falls silent is let go; without a limit it is kept for ever", "statement": "With recv_timeout T, any reader that asks for at least one byte each time and gives up at an error has ended at most T after the client's last sign of life, whatever the client sent. Without a limit (the default), a read on a connection whose peer sends nothing and never closes does not return.", "quantifier": "all limits, all readers of that kind, all behaviours of the client", "why_tests_cant": "That something never ends, or ends within a time after an arbitrary last event, is a statement over all runs; tests stop waiting.", "anchors": ["src/sys/st/io/sps_sys_st_io_tcp.cpp:StTcpSocket::read", "src/module/server/sps_server_module.hpp:recv_timeout"]}
{"id": "C216", "title": "How long the head of a request may take", "statement": "With recv_timeout T, reading the head of an HTTP request is over after at most 2048 times T, whatever the client does; and that is nearly attained: a client that sends any head one byte every T-1 microseconds is served, after (T-1) times its length.", "quantifier": "all limits of at least two microseconds, all heads up to 2048 bytes, all behaviours of the client", "why_tests_cant": "With the shipped limit of ten seconds the bound is more than five hours; no test waits that long, and no test varies the timing of 2048 bytes.", "anchors": ["src/module/http/sps_http_parser.cpp:HttpParser::parse_header", "src/sys/st/io/sps_sys_st_io_tcp.cpp:StTcpSocket::read"]}
{"id": "C217", "title": "A viewer that drains is kept, a stuck one let go with a prefix", "statement": "With send_timeout T: if the viewer's connection takes some bytes in every interval of T, everything is sent in order, however long it takes. In every case sending is over at most T after the connection last took something, and what has been sent is an initial part of what was to be sent, all of it if no error was reported. An empty piece ends the sending with a write error.", "quantifier": "all limits, all sequences of non-empty writes, all times and amounts the connection takes", "why_tests_cant": "The states of a kernel's send buffer over time cannot be enumerated; tests have fast local peers.", "anchors": ["src/sys/st/io/sps_sys_st_io_tcp.cpp:StTcpSocket::write", "src/sys/st/io/sps_sys_st_io_tcp.cpp:StTcpSocket::set_send_timeout", "src/module/stream/sps_stream.cpp:StreamEncoder::encode"]}
{"id": "C218", "title": "The limits are those of the configuration", "statement": "A server block without recv_timeout (send_timeout) sets no limit; if the last such item of the block is a decimal number below 2^63, the limit is that many microseconds; written as -1 it sets no limit; an item without a value is a limit of zero: every wait fails at once. conf/sps.conf sets ten seconds on each of its ports, conf/srt.conf on two of its three, conf/https.conf none.", "quantifier": "all server blocks, whatever else they contain", "why_tests_cant": "All blocks and all numbers; tests read a few files.", "anchors": ["src/module/sps_module_opt.cpp:ConfigOption::opt_set", "src/module/server/sps_server_module.cpp:ServerModule::install", "src/module/server/sps_server.cpp:Server::accept"]}
{"id": "C219", "title": "Every option keeps the value of its last item, in memory", "statement": "For every file that is accepted and every block in it, each option of the block reads back, from the structure in memory that the code uses, as the value of its last item, or its default if it has none. No item changes another option. In particular a host reads as enabled exactly if its last 'enabled' begins with on, although only one byte of that integer is written; without the zeroing of new structures that would not hold.", "quantifier": "all configuration files, all blocks of the tree, all options", "why_tests_cant": "Overlapping or short writes show only for particular combinations of items, values and previous memory contents.", "anchors": ["src/module/sps_module_opt.cpp:ConfigOption::opt_set", "src/module/sps_module.cpp:IModule::set_default", "src/module/sps_module.cpp:IModule::init_conf", "src/module/host/sps_host_module.hpp:HostConfCtx", "src/module/server/sps_server_module.hpp:ServerConfCtx", "src/module/host/sps_host_module.cpp:HostModule::enabled"]}
{"id": "C220", "title": "How many packets one source can relay", "statement": "A published or pulled stream relays up to 2147483647 packets with every effect on its cache as stated elsewhere; the packet after that is undefined behaviour, whatever the packets are. So 'a source may run for any time' is false.", "quantifier": "all sequences of packets of one source", "why_tests_cant": "The event comes after 2^31 packets of one source (at 100 packets a second, 248 days).", "anchors": ["src/avformat/sps_avformat_cache.cpp:AVGopCacheStream::put", "src/avformat/sps_avformat_cache.hpp:AVGopCacheStream", "src/module/stream/sps_stream.cpp:StreamDecoder::decode"]}
{"id": "C221", "title": "The clock of a transport stream starts again after 26.5 hours", "statement": "Pictures that come as a transport stream are given the times the stream states, modulo 2^33 ticks of 90 kHz, in milliseconds. As long as the stream's clock stays within one period of 2^33 ticks (26.5 hours), the times that players are told keep the order and the distances of the pictures to within a millisecond. When the clock passes the end of a period, the times fall back: nothing carries the count of periods. A picture that is decoded before the end of a period and shown after it has a wrong distance between the two times: an FLV player is told to show it more than 86 minutes after it is decoded, plus the real distance; every other picture with up to 1000 seconds between the two is shown at its time.", "quantifier": "for every stream of H.264 units (any number, any packetization), every list of times of the sender's clock without bound, every offset", "why_tests_cant": "The clock wraps after more than a day of streaming; the statement is about all times, and the error at the wrap comes from two different moduli (2^33 ticks, 2^24 milliseconds).", "anchors": ["src/avformat/sps_avformat_tsdec.cpp:TsDemuxer::on_h264", "src/avcodec/sps_avcodec_h264_parser.cpp:H264AVCodecParser::encode_avc", "src/avformat/sps_avformat_flvenc.cpp"]}
{"id": "C222", "title": "Pictures that come over RTP are never told their time of presentation", "statement": "A slice that comes in an RTP packet gets, as time of decoding, the time of the server's clock (milliseconds since 1970) and, as time of presentation, the timestamp of the RTP packet divided by 90. Written as FLV and read back, the slice is complete and in order; its time of decoding is the server's clock modulo 2^32; the offset to the time of presentation lies within 2^23 ms of 0 and differs from the true distance of the two by a multiple of 2^24 ms (4.7 hours) that is never 0. So the delay a player sees is any number between minus and plus 2.3 hours that depends on the day.", "quantifier": "for every sequence of RTP packets with one slice each, all timestamps, all clock values since the second day of 1970, every way the FLV bytes are cut into reads", "why_tests_cant": "The error depends on the date of the run and on the sender's random first timestamp; a test sees one pair of them.", "anchors": ["src/avformat/sps_avformat_rtpdec_h264_hevc.cpp:NaluRtpDecoder::decode", "src/util/sps_util_time.cpp:get_time", "src/avformat/sps_avformat_flvenc.cpp"]}
{"id": "C223", "title": "HTTP over SRT is read as over TCP", "statement": "Everything that reads a request or an answer gets over an SRT connection, whose messages have at most 1316 bytes, exactly what it would get over a TCP connection with the same bytes and then the same error, in whatever messages the bytes come and wherever the waits fall. A request read over SRT is its head and then its body, whole and in order, with the end of the body where it is. One exception: an answer whose declared length is zero is not recognised as complete; the reader waits for a further message, which ends the wait and is kept for the next read.", "quantifier": "for every program that reads at least one byte at a time and stops at the first error, every sequence of library answers, every head up to 2048 bytes, every body, every division into messages", "why_tests_cant": "The division into messages and the read sizes are independent of each other; a test tries a few pairs. The wait for an empty answer only shows when nothing else comes.", "anchors": ["src/sys/st/io/sps_sys_st_io_srt.cpp:StSrtSocket::read", "src/io/sps_io_socket.cpp:Socket::read_fully", "src/module/http/sps_http_parser.cpp:HttpParser::parse_header", "src/io/url/sps_io_url_http.cpp:HttpUrlProtocol::read"]}
{"id": "C224", "title": "What the download tool leaves behind", "statement": "The tool that downloads over SRT stores exactly the body of the answer, however it is framed (chunks, declared length, until the connection closes) and in whatever messages it comes, if the answer comes whole and every write to the file succeeds. Its exit status is 0 whatever happens: when only a part of the answer comes, or the disk refuses a write, the file holds only the beginning of the body, or is not made at all, and the status is the same. The status of the answer is not looked at: the page of a 404 is stored as the file. A head of which the HTTP parser takes nothing crashes the tool; no piece it reads overruns its buffer.", "quantifier": "for every answer with a head of up to 2048 bytes, every body and framing, every division into messages, every point at which the connection fails, every pattern of refused writes", "why_tests_cant": "The points of failure and the divisions are unbounded; a script that checks the exit status in a test sees only success.", "anchors": ["tools/srt_http_client.cpp:SrtHttpClient", "src/io/url/sps_io_url_http.cpp:HttpUrlProtocol::open", "src/io/url/sps_io_url_file.cpp:FileURLProtocol::write"]}
{"id": "C225", "title": "Datagrams through a UDP client socket", "statement": "A read on a UDP client socket takes one datagram; what does not fit the caller's buffer is dropped without an error, and an empty datagram fails the read with a code that depends on errno left by an earlier call. A read of exactly n bytes returns the first n bytes of the datagrams joined and takes the fewest datagrams that hold n bytes; the rest of the last one is lost, so successive full reads do not see the bytes that were sent (a session of the UDP server fails instead, C95). A write that succeeds has sent exactly its bytes, as one datagram when the kernel sends datagrams whole, and an empty write sends nothing; but whatever peer address the socket was made for, every datagram goes to 0.0.0.0.", "quantifier": "for every sequence of datagrams, buffer size, peer address, port, data and results of the sends", "why_tests_cant": "depends on how datagram borders fall against read sizes and on partial sends; the shipped test talks to its own host, where the ignored address makes no difference", "anchors": ["src/sys/st/io/sps_sys_st_io_udp.cpp:StUdpClientSocket::StUdpClientSocket", "src/sys/st/io/sps_sys_st_io_udp.cpp:StUdpClientSocket::read_fully", "src/sys/st/io/sps_sys_st_io_udp.cpp:StUdpClientSocket::read", "src/sys/st/io/sps_sys_st_io_udp.cpp:StUdpClientSocket::write"]}
{"id": "C226", "title": "The UDP load generator keeps its pace and counts", "statement": "The datagrams of the load generator are numbered from 0 without gaps and carry the time of their sending. With an interval of i microseconds and a burst of g, before the datagram that has n others in front of it the tool has paused n/g times (rounded down) for g*i microseconds, so i*n is below the time paused plus one burst. Each report counts exactly the datagrams since the report before and all of them so far, comes at least a second after it by the clock, and its rate is 11200 bits times that count by the milliseconds. The number is a 32-bit integer: a run of 2^31 datagrams is undefined behaviour.", "quantifier": "for every interval, burst, clock and number of datagrams", "why_tests_cant": "a statement about every prefix of an endless run; 2^31 datagrams take hours", "anchors": ["tools/udp_client.cpp:main", "src/sys/st/io/sps_sys_st_io_udp.cpp:StUdpClientSocket::write"]}
{"id": "C227", "title": "Length-prefixed H.264 is read back unit by unit", "statement": "Given data in which each NAL unit stands behind its size in one to four bytes, the H.264 parser returns exactly the units, in order, and ignores up to three bytes at the end. Whatever the data, the units it returns are a prefix of the data; on success fewer than four bytes remain, and on failure what remains does not begin with a whole unit whose forbidden bit is clear; memory outside is read only if a size field is 2^29 or more. The slices and SEI that the library's own encoder puts into packets are read back as these units.", "quantifier": "for every list of units, every size width of one to four bytes, every buffer below 2^29 bytes and every timestamp", "why_tests_cant": "unit sizes, widths and borders combine without bound; no shipped test uses this branch", "anchors": ["src/avcodec/sps_avcodec_h264_parser.cpp:NALUParser::decode", "src/avcodec/sps_avcodec_h264_parser.cpp:NALUParser::decode_data", "src/avcodec/sps_avcodec_h264_parser.cpp:NALUParser::encode_avc"]}
{"id": "C228", "title": "H.264 sequence headers cannot be read back (refuted)", "statement": "One expects the parser to read the configuration record that ISO/IEC 14496-15 defines, at least the one the library itself writes. It does not: it adds two to the size of each parameter set and then looks for a second, four-byte size inside it, so every record with four-byte sizes whose first parameter set is an SPS of at least two bytes is refused and nothing is returned, and so is every sequence header made by the library's own encoder. And in length-prefixed data a size of 2^29 or more is checked by its lower 29 bits only: such a size in front of a unit that is there sends the reader outside the memory.", "quantifier": "for every such record, with anything behind the first parameter set, every parser state, every SPS and PPS, and every size j*2^29+w with w within the data", "why_tests_cant": "a failure for every input needs an argument about the arithmetic of the size field; the out-of-range read may go unnoticed when it happens", "anchors": ["src/avcodec/sps_avcodec_h264_parser.cpp:NALUParser::decode_header", "src/avcodec/sps_avcodec_h264_parser.cpp:NALUParser::decode_data", "src/io/sps_io_bits.cpp:BitContext::acquire"]}
{"id": "C229", "title": "The receiving end of the load generator", "statement": "Whatever datagrams arrive and when, the tool divides them into sessions at silences of ten seconds; within a session each rate it reports is 8 times the bytes of all datagrams since its last report, divided by the milliseconds since then, rounded down, and comes with the first datagram at least a second later. What follows the last report of a session is in none. If every datagram of the load generator arrives in the millisecond it was sent in, and the first one in that of the start, both ends report the same rates. Datagrams of more than 4096 bytes count as 4096, so the report can be below the rate of what was sent.", "quantifier": "for every sequence of arrival times and datagrams of less than 2^60 bytes in total, and every run of the generator of less than 2^31 datagrams", "why_tests_cant": "times, sizes and silences combine without bound; the equality of both ends holds for whole runs", "anchors": ["tools/udp_blackhole_server.cpp:main", "src/sys/st/io/sps_sys_st_io_udp.cpp:StUdpSessionClientSocket::read", "tools/udp_client.cpp:main"]}
{"id": "C230", "title": "RTMP publisher, any number of edges, RTMP or HTTP player", "statement": "A client publishes over RTMP to the first of any number of servers, each of which pulls the stream from the one before it as HTTP-FLV. An RTMP player of the last server is sent only republished forms of the publisher's messages; an HTTP player of it downloads, but for the size of the last tag, the FLV file of the publisher's messages with timestamps and bodies unchanged. In both cases the messages are those of packets that a player of the first server could have got: the snapshot of some moment and what was published since, in order, up to some point. This holds for messages that carry media data and fit the edges' buffers.", "quantifier": "for all numbers of servers, all published message sequences, all event histories of all servers, all ways in which pulls break off and the network divides them, all buffer sizes from 15 bytes to 16 MB", "why_tests_cant": "The number of servers, the moments at which edges and players come and the cutting of every connection are unbounded; a test fixes one chain.", "anchors": ["src/avformat/sps_avformat_rtmpdec.cpp:RtmpDemuxer::read_packet", "src/avformat/sps_avformat_rtmpenc.cpp:RtmpAVMuxer::write_packet", "src/module/stream/sps_stream_edge.cpp:StreamEdge::handler", "src/avformat/sps_avformat_cache.cpp:AVGopCacheStream::dump", "src/avformat/sps_avformat_flvenc.cpp:FlvAVMuxer::write_packet"]}
{"id": "C231", "title": "A message without media data ends the edges' streams", "statement": "An RTMP message that has its codec fields but nothing behind them, such as the end-of-sequence message encoders send for H.264, is published and sent to players of that server. A server that pulls the stream as FLV refuses its tag: it has published exactly the packets before it, then the pull ends with an error, and nothing published later reaches the servers behind.", "quantifier": "for all messages before and after, all three kinds of such messages, all framings of the upstream's answer and all ways of cutting it", "why_tests_cant": "The place of the message in the stream and the framing of the answer are unbounded.", "anchors": ["src/avformat/sps_avformat_rtmpdec.cpp:RtmpDemuxer::read_packet", "src/avformat/sps_avformat_flvdec.cpp:read_packet", "src/module/stream/sps_stream_edge.cpp:StreamEdge::handler"]}
{"id": "C232", "title": "Responses without a usable length are relayed until the upstream's connection ends", "statement": "If the upstream's response is not chunked and gives no length, or one whose low 32 bits are 2^31 or more (2 to 4 GiB and so on), the proxy relays everything the upstream sends until its connection ends, with the upstream's own length fields, and then ends the request with the error of that connection. What the client is sent does not depend on how the connection ended, so a response without length that broke off cannot be told from a complete one.", "quantifier": "for every response head, status, header list, body, announced length, and every way the transport cuts the bytes", "why_tests_cant": "lengths of gibibytes and every kind of ending of a connection cannot be tried out", "anchors": ["src/io/url/sps_io_url_http.cpp:HttpUrlProtocol::read", "src/module/http/sps_http_socket.cpp:HttpResponseSocket::write_header", "src/module/http/sps_http_proxy_phase_handler.cpp:HttpProxyPhaseHandler::handler", "src/module/http/sps_http_parser.cpp:HttpParser::parse_response"]}
{"id": "C233", "title": "A response that breaks off upstream does not look complete to the client", "statement": "If the upstream announced a length below 2^31 and its connection ends earlier, the client has been announced that length and sent only the bytes there were, and the request ends with the error. If the response is chunked, then whatever bytes the upstream sends after the head, either the proxy reports success and the client has been sent a complete chunked body, or the proxy reports an error and what the client has been sent does not begin with a complete chunked body.", "quantifier": "for every response head and every sequence of bytes after it, however the transport cuts them", "why_tests_cant": "where and how an upstream breaks off has endless variants", "anchors": ["src/io/url/sps_io_url_http.cpp:HttpUrlProtocol::read_chunked", "src/io/url/sps_io_url_http.cpp:HttpUrlProtocol::read_chunked_data", "src/module/http/sps_http_socket.cpp:HttpResponseSocket::write", "src/module/http/sps_http_proxy_phase_handler.cpp:HttpProxyPhaseHandler::handler"]}
{"id": "C234", "title": "Transport stream in, any number of edges, FLV or RTMP out", "statement": "A publisher sends any bytes as transport stream packets to the first of two or more servers, each of which pulls the stream from the one before. If no AAC frame was empty, a player of the last server receives exactly the packets that a player of one server could receive, where each packet is as the FLV format shows it: the first pull changes what FLV cannot express and no later pull changes, loses, repeats or reorders anything. An HTTP player gets a file that reads back as these packets, an RTMP player one message for each.", "quantifier": "for all byte strings sent as transport packets, all numbers of servers, all moments at which edges and players arrive, all ways of cutting the connections and all places where they break off", "why_tests_cant": "The claim is about unboundedly many servers in a row and all contents, moments and breaks at each of them; a test sets up a few servers with one recording.", "anchors": ["src/avformat/sps_avformat_tsdec.cpp:on_packet", "src/avcodec/sps_avcodec_h264_parser.cpp:encode_avc", "src/module/stream/sps_stream_edge.cpp:StreamEdge::handler", "src/avformat/sps_avformat_flvenc.cpp:write_packet"]}
{"id": "C235", "title": "What every packet of a program table does", "statement": "A packet that belongs to the program association or to a program map, whatever its payload, has exactly one of three outcomes, which a short description over its bytes decides: the entries its declared length reaches are registered (of a map only AAC, H.264 and H.265 streams whose identifier is free; of an association all, as maps, whatever they were) and the packet is forwarded; or nothing is registered and the session ends with an error; or the demuxer reads behind the packet, which happens exactly when an entry or the four bytes after the table are not wholly there.", "quantifier": "for every well-formed transport packet of a table with any payload and every state of the demuxer", "why_tests_cant": "The claim covers all 2^1472 payloads of 184 bytes in all demuxer states; a test tries some tables.", "anchors": ["src/avformat/sps_avformat_ts.cpp:TsPsiProgram::decode", "src/avformat/sps_avformat_ts.cpp:TsPatProgram::psi_decode", "src/avformat/sps_avformat_ts.cpp:TsPmtProgram::psi_decode"]}
{"id": "C236", "title": "Exactly when a transport stream makes the demuxer read outside its buffers", "statement": "For every sequence of 188-byte blocks: a block that does not start with 0x47 or whose adaptation field is longer than the block ends the session with an error; a packet of an elementary stream, whatever its payload, is refused (continuation without a unit, wrong counter, unit over 1 MiB, start with fewer than nine bytes), extends the pending unit, or hands the pending unit to the codec parser and begins the next one, where the session ends with an error if the bytes lack the 00 00 01 prefix or announce a header that does not fit. A packet whose adaptation field holds the parts it announces makes the demuxer read outside exactly in two cases: its program table overruns the packet, or it completes an AAC unit that ends in a broken ADTS frame. A packet whose adaptation field announces more than it holds is refused if the announced private data does not fit the packet; otherwise it makes the demuxer read outside exactly if its payload is looked at: it belongs to a table, or to an elementary stream with the right counter and either starts a unit (the unit before it not being refused by its codec parser) or continues a unit of declared length; and it has no effect else. For every input, however it is cut by the transport, a new demuxer reads outside if and only if one of the 188-byte blocks, reached with all earlier ones accepted, is such a packet.", "quantifier": "for every input and every way the transport cuts it, every payload, every pending unit, every memory content", "why_tests_cant": "The claim is an equivalence over all 188-byte contents and all histories; tests can show crashes for some inputs but not that no other input crashes.", "anchors": ["src/avformat/sps_avformat_ts.cpp:TsPesProgram", "src/avformat/sps_avformat_ts.cpp:TsPesContext", "src/avformat/sps_avformat_ts.cpp:TsContext", "src/avformat/sps_avformat_ts.cpp:TsSdtProgram", "src/avformat/sps_avformat_tsdec.cpp:on_aac"]}
{"id": "C237", "title": "Exactly when an RTP session makes the server read outside its buffers", "statement": "Whatever datagrams an RTP publisher sends (any number, any bytes, any lengths, empty ones included), the session behaves as on a list of packets of 12 to 3000 bytes: longer datagrams are cut, shorter ones are put in front of the next, an empty one ends the session with an error. A packet gives its decoder the bytes behind the twelve header bytes, the announced sources and the extension (its length counted in bytes), or is refused because these do not fit or because of its payload type. The session always ends, and it reads outside a buffer if and only if one of its packets, all earlier ones being accepted, is an RTCP source description with a chunk, or carries an H.264 payload of the types 25, 27 or 29 that is too short for the decoding order number it is read for (type 29 of two or three bytes: a first fragment with no unit pending, or a later one with a unit pending), or transport stream blocks one of which is a packet that makes the demuxer read outside (C236). An AAC session does so only for a source description.", "quantifier": "for every list of datagrams, every decoder in every reachable state, every memory content", "why_tests_cant": "The answer is a condition on all histories of datagrams: fuzzing finds some packets that crash the server but cannot show that no other packet does, and a packet is harmless or not depending on the fragments and tables received before it.", "anchors": ["src/avformat/sps_avformat_rtpdec.cpp:RtpDemuxer", "src/avformat/sps_avformat_rtpdec.cpp:IRtpDecoder", "src/avformat/sps_avformat_rtpdec_h264_hevc.cpp:NaluRtpDecoder", "src/avformat/sps_avformat_rtpdec_rtcp.cpp:RtcpHeadDecoder"]}
{"id": "C238", "title": "Exactly which RTMP clients bring the server into undefined behaviour", "statement": "Whatever a client sends while it connects, and whatever becomes of the server's own messages, the connect phase is undefined if and only if some reception, reached while the phase was still going on, makes the count of received bytes or the count at which the next acknowledgement is due leave 32 bits, or is a window message of fewer than four bytes, a connect whose object is null, a failure of the RTMP library that leaves a packet without its body, or, after connect, a play or publish whose transaction id is no int. For a publisher's session it is these counts, short window messages, and AAC messages of a single byte, and nothing else. The counts stay defined for every client that announces complete windows between 0 and W and sends less than 2^31 - W bytes (W being 5000000 or more), so that such a publisher is undefined only for an AAC message of a single byte.", "quantifier": "for every sequence of messages and failures of any length, every AMF library, every outcome of the server's sends", "why_tests_cant": "A statement about all clients: tests can show single messages that are fatal, not that the list is complete, and whether a message is fatal depends on the counts of the whole session before it.", "anchors": ["src/avformat/sps_avformat_librtmp.cpp:on_recv_packet", "src/avformat/sps_avformat_librtmp.cpp:ack", "src/avformat/sps_avformat_librtmp_packet.cpp:convert_self", "src/module/rtmp/sps_rtmp_server_handler.cpp:RtmpPreRequest", "src/avformat/sps_avformat_rtmpdec.cpp:read_packet"]}
{"id": "C239", "title": "A transport stream published over SRT, from its messages to the players", "statement": "Whatever messages an SRT publisher sends, with any waits between them, the session is that of the 188-byte blocks of the concatenated messages up to the first refused block; if none is refused it ends with the error of the connection, and bytes after the last whole block are never looked at. How the stream is cut into messages makes no difference. The session always ends, never with success, and reads outside its buffers if and only if one of its blocks, reached with all earlier ones accepted, is one of the packets of C236. Every message a player of the stream gets is one of the publisher's blocks, unchanged, in the order of C128.", "quantifier": "for every sequence of SRT messages of 1 to 1316 bytes, every wait and first error of the library, every memory content; for the players every interleaving", "why_tests_cant": "no finite set of streams covers all ways of cutting a stream into messages, nor all byte sequences", "anchors": ["src/module/srt/sps_srt_stream_handler.cpp:publish", "src/avformat/sps_avformat_tsdec.cpp:read_packet", "src/sys/st/io/sps_sys_st_io_srt.cpp:read"]}
{"id": "C240", "title": "Exactly when an FLV stream makes its reader read outside the buffer", "statement": "Feed the FLV reader any FLV stream, cut into reads in any way. Where each tag body comes to lie in the reader's buffer is determined by the sizes of the tags alone, not by the cutting. If no tag is too short for the codec prefix its type calls for (two bytes for audio, five for video), nothing is ever read outside the buffer. At the first tag that is too short, the reader reads outside the buffer if and only if the prefix, read from the body and whatever old bytes follow it in the buffer, runs over the end of the buffer. So only a short tag lying within a few bytes of the end can do it, one that ends exactly at the end always does, and in between the outcome depends on bytes no one wrote. The same holds for a whole HTTP upload, however its body is framed.", "quantifier": "for every FLV stream, every cutting into reads, every buffer size from 15 bytes up and every initial buffer contents; for every HTTP request head, body framing and division by the network", "why_tests_cant": "Whether the reader leaves the buffer depends on where a tag falls in a 1 MiB buffer and on old memory; a test has to hit the last five bytes and the right old bytes, and a read one byte past usually shows nothing", "anchors": ["src/avformat/sps_avformat_flvdec.cpp:read_packet", "src/io/sps_io_bytes.cpp:acquire", "src/avformat/sps_avformat_flv.hpp:FLV_MAX_LEN"]}
{"id": "C241", "title": "What becomes of every configuration text", "statement": "Every configuration text, well-formed or not, has exactly one fate, given by reading it line by line with the stack of open blocks: it is accepted, refused (the server does not start), or makes the reader read outside memory. The description says what each line means (nothing, a setting, the start or the end of a block) and when a line is refused; that where a block may stand is asked only when it is closed; that unknown settings are passed over; and that an inner root block is closed by the end of the file only. The only lines that lead outside are the start of a location block and the on/off settings enabled, reuse_port and edge without a value inside a block that has them; what follows such a line does not matter.", "quantifier": "for every configuration text: all lines, all nestings", "why_tests_cant": "The texts are unbounded and mostly malformed; tests try a few files, not every order of faults", "anchors": ["src/module/sps_module.cpp:init_conf", "src/module/sps_module.cpp:parse", "src/module/sps_module_opt.cpp:opt_set"]}
{"id": "C242", "title": "Exactly which HTTP requests bring the server into undefined behaviour", "statement": "An HTTP connection brings the server into undefined behaviour if and only if, all requests before having been served, one of these comes: a first request, or an upstream's answer, that the library refuses at its very first byte; an upload or a player whose extension is compared past its end; an upload whose body makes the reader of its format read outside; a player who gets the writer of a format without a session while media comes; or a request refused at its first byte after one of those that do it, which is then served again. With the formats registered without FFmpeg the extension is compared past its end exactly when it has less than two characters, and the writer without a session is chosen exactly when it begins with '-'.", "quantifier": "for every configuration, every client byte stream cut in every way, every number of requests, every behaviour of the upstreams, of the streams and of the head parser", "why_tests_cant": "a test shows one crash; that these are all the ways, for every client and every configuration, and that each of them really is one, needs both directions of a proof over the whole connection loop", "anchors": ["src/module/http/sps_http_phase_handler.cpp:handler", "src/module/http/sps_http_proxy_phase_handler.cpp:handler", "src/module/http/sps_http_stream_phase_handler.cpp:handler", "src/module/server/sps_server_handler.cpp:handler"]}
{"id": "C243", "title": "What becomes of every pull of an edge", "statement": "How an edge's pull over HTTP ends, and which stream it makes, is for every origin exactly one of: not connected; request not sent; no head in the answer, with the error of the connection; head refused, with the library's code; undefined when it is refused at its first byte; ended without a stream when the status is not 200; for a 200, undefined when the extension is compared past its end or no format has it, and otherwise the stream the reader of the chosen format makes of the body, with its result. So an origin brings the edge into undefined behaviour if and only if its answer is refused at the first byte, or is a 200 for an extension too short or of no format, or has a body the reader reads outside of.", "quantifier": "for every origin byte stream cut in every way, every request, every list of formats, every behaviour of the head parser and every reader", "why_tests_cant": "a test plays one origin; that the list of outcomes is complete, exclusive and exact for all origins needs a proof in both directions", "anchors": ["src/module/stream/sps_stream_edge.cpp:handler", "src/io/url/sps_io_url_http.cpp:open", "src/io/url/sps_io_url_http.cpp:read", "src/avformat/sps_avformat_dec.cpp:create"]}
{"id": "C244", "title": "Every HTTP connection comes to an end within its bytes", "statement": "Whatever a client sends on an HTTP connection, and whatever the upstreams and streams do, each request served uses up at least four bytes of what the client sent, so the server's loop over the requests of the connection ends by itself: it goes around at most once more than a quarter of the bytes received. The connection then has ended with a nonzero code, is being used for a player that waits for media, or the server is in undefined behaviour, after at most a quarter of the bytes as many served requests, as C242 says exactly. Reading an upload also ends by itself: an FLV upload, however its body is framed, cut up or broken off, is read in at most as many steps as bytes came, and relaying an upstream's answer ends with its bytes.", "quantifier": "for every client byte stream and cut into reads, every router and configuration, every HTTP parser and URL library that finds the schema, every upstream and stream behaviour, every framing of bodies, every number of requests", "why_tests_cant": "Absence of endless loops over all byte streams, framings and upstream answers cannot be shown by running some of them.", "anchors": ["src/module/server/sps_server_handler.cpp:handler", "src/module/http/sps_http_phase_handler.cpp:handler", "src/module/http/sps_http_socket.cpp:read_chunked_data", "src/module/http/sps_http_proxy_phase_handler.cpp:handler", "src/avformat/sps_avformat_flvdec.cpp:read_packet"]}
{"id": "C245", "title": "Uploads and pulls of FLV streams end and publish nothing that was not sent", "statement": "Whatever a publishing client sends as the body of an FLV upload, and whatever an origin sends to an edge that pulls an FLV stream from it (any head, any framing, lengths and chunk sizes that lie, broken chunks, a connection that breaks off anywhere), reading it ends by itself, and what is put into the stream is what an FLV reader finds in bytes of that connection, in their order: all published payloads one after the other are bytes that were sent, none twice, none from elsewhere in memory. At most one packet is published for every sixteen bytes received. A pull never ends with an unreported error.", "quantifier": "for every byte stream and every cut into reads, every framing, every buffer of at least 15 bytes, every response parser, every request of the edge and connection behaviour", "why_tests_cant": "The inputs that matter are the malformed ones, of which there are infinitely many; tests of leaks of stale buffer contents show single cases only.", "anchors": ["src/module/http/sps_http_socket.cpp:read", "src/io/url/sps_io_url_http.cpp:read", "src/module/stream/sps_stream_edge.cpp:handler", "src/avformat/sps_avformat_flvdec.cpp:read_packet"]}
{"id": "C246", "title": "An RTMP session follows its client message by message until it ends", "statement": "How an RTMP client's connect phase ends depends only on what it sent before the end: nothing sent later changes it. If the connection breaks while the phase is going on, it ends with the error of the connection, without a role, and without any further message to the client. For a publisher, what has been published for the messages so far stays, the rest of the session goes on from there, a session that has ended publishes nothing more, and a connection that breaks ends it with that error at once.", "quantifier": "for every sequence of messages and failures of any length, every AMF library, every outcome of the server's sends, every point at which the connection breaks", "why_tests_cant": "All points of failure in all message sequences cannot be tried.", "anchors": ["src/module/rtmp/sps_rtmp_server_handler.cpp:connect", "src/avformat/sps_avformat_librtmp.cpp:recv_packet", "src/avformat/sps_avformat_rtmpdec.cpp:read_packet"]}
{"id": "C247", "title": "The clock follows the system's clock, and a dumped message can be read back", "statement": "The server's clock is the system's time in whole milliseconds, rounded down (less than a millisecond behind), for every time from 1970 on until about 292 million years later, so it never runs backwards while the system's clock does not.  The hexadecimal dump of a message consists of one hexadecimal number and a blank for each byte; bytes below 128 are written as themselves, the others with ffffff in front (the sign of the char is extended); two messages with the same dump are the same message.", "quantifier": "For all seconds from 1970 on and all microseconds whose milliseconds fit a signed 64 bit integer; for all messages of bytes of any length.", "why_tests_cant": "All times and all messages cannot be tried; that no two messages share a dump is about pairs of messages of any length.", "anchors": ["src/util/sps_util_time.cpp:update_time", "src/util/sps_util_time.cpp:get_time", "src/util/sps_util_time.cpp:to_hex"]}
{"id": "C248", "title": "Decoding times of RTP pictures follow the server's clock, and sound is on another time line", "statement": "Whatever datagrams an H.264 RTP session consists of, every media packet delivered carries, as time of decoding, the server's clock at the datagram that completed it, and sequence headers carry 0; so the times of decoding of the media packets never go back while the system's clock does not, whatever the timestamps in the datagrams say. Sound that comes over RTP gets the timestamp of its packet divided by 90 instead, which is always less than 13 hours and 16 minutes; so every picture received after that much of the year 1970 comes later than all sound, and sound and pictures of one sender cannot be brought together by their times.", "quantifier": "For all sequences of datagrams of any length and content, all states of the decoder, all readings of the clock; for the sound, all well-formed AAC packets and all timestamps.", "why_tests_cant": "All sequences of datagrams and all clock readings cannot be tried; a test sees one day's clock.", "anchors": ["src/avformat/sps_avformat_rtpdec_h264_hevc.cpp:decode", "src/avformat/sps_avformat_rtpdec_aac.cpp:decode", "src/util/sps_util_time.cpp:get_time"]}
{"id": "C249", "title": "Sound that comes over RTP is delivered at the wrong speed", "statement": "A sender of AAC over RTP counts samples in its timestamps (RFC 3640) and the server takes them for ticks of 90 kHz. So every access unit of a session is delivered, complete and in order, with its timestamp divided by 90 as time; sound sampled at a given rate that lasts a number of milliseconds is delivered as lasting that number times the rate over 90000, give or take a millisecond (48 kHz: little more than half the time). Where the timestamps pass 2^32 the times fall in one step from above 13 hours and 15 minutes to below 23 ms. All units of one packet are delivered with the same time.", "quantifier": "For all sessions of any length of an RFC 3640 sender with one unit to a packet, all first timestamps, all samples to a unit, all sampling rates, with RTCP reports anywhere in between; for the units of one packet, all packets.", "why_tests_cant": "The drift grows with the length of the session and the jump comes after hours of sound; a short test sees neither.", "anchors": ["src/avformat/sps_avformat_rtpdec_aac.cpp:decode", "src/avformat/sps_avformat_rtpdec.cpp:read_packet"]}
{"id": "C250", "title": "Sound that came over RTP reaches a viewer of FLV complete, but without the decoder's configuration", "statement": "When an AAC session over RTP is written as FLV, a viewer who reads the bytes, however they are cut into pieces, gets exactly the access units of the session, complete and in order, each with its packet's timestamp divided by 90 as time, and then the end of the stream. No tag is a sequence header, so the viewer is never told the sampling rate and the channels that are needed to decode the sound.", "quantifier": "For all sessions of any length with any number of non-empty access units to a packet, RTCP reports anywhere in between, every way the FLV bytes are cut into reads.", "why_tests_cant": "All sessions and all ways to cut the bytes cannot be tried; that a tag never occurs is about all of them.", "anchors": ["src/avformat/sps_avformat_rtpdec_aac.cpp:decode", "src/avformat/sps_avformat_rtpdec.cpp:read_packet", "src/avformat/sps_avformat_flvenc.cpp:write_packet", "src/avformat/sps_avformat_flvdec.cpp:read_packet"]}
{"id": "C251", "title": "What the server keeps of whatever the HTTP library reports", "statement": "Whatever the HTTP library reports about a head, in whatever order and number of pieces, the server keeps as target the last one reported, as body the last piece, and as fields one for every value reported, in order, each under the name reported last before it (an empty name if there was none): pieces are never joined. This determines what is kept.", "quantifier": "For all sequences of reports of any length.", "why_tests_cant": "The library decides how it cuts its reports; all sequences cannot be tried.", "anchors": ["src/module/http/sps_http_parser.cpp:on_url", "src/module/http/sps_http_parser.cpp:on_header_field", "src/module/http/sps_http_parser.cpp:on_header_value", "src/module/http/sps_http_parser.cpp:on_body"]}
{"id": "C252", "title": "Merging host tables joins them when no name is in both, and is not undone when it fails", "statement": "Merging the table of hosts of one server into that of another succeeds exactly when no name (exact, with a wildcard, or the default) is in both; the merged table then serves every name as one table made of all these hosts would, except that the default host of the second table is forgotten. A merge that fails is not undone: when the two share only wildcard names, the exact hosts of the second table are served by the first from then on.", "quantifier": "For all pairs of lists of hosts that can be made into tables, all requested names.", "why_tests_cant": "All tables and names cannot be tried; the function is called nowhere, so no run of the server shows it.", "anchors": ["src/module/host/sps_host_module.cpp:merge", "src/module/host/sps_host_module.cpp:find_host", "src/module/host/sps_host_module.cpp:register_host"]}
