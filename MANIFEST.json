{
 "claims": [
  {
   "property": "C01",
   "status": "proved",
   "theorems": [
    "bit_reader_returns_fields",
    "bit_position_exact",
    "bit_read_33_refuted"
   ],
   "note": "Exact for fields up to 32 bits; the companion shows that 33-bit reads (used for PCR/PTS) lose the top bit."
  },
  {
   "property": "C02",
   "status": "proved",
   "theorems": [
    "bit_writer_roundtrip_iff",
    "bit_writer_roundtrip_refuted"
   ],
   "note": "The iff pins exactly which fields survive; round trip in general is refuted (mask table entry for six bits)."
  },
  {
   "property": "C03",
   "status": "proved",
   "theorems": [
    "bit_acquire_exact",
    "bit_acquire_after_overrun_refuted",
    "bit_acquire_2_29_bytes_refuted"
   ],
   "note": "Exact inside the buffer and for buffers below 2^28 bytes; counterexamples outside."
  },
  {
   "property": "C04",
   "status": "proved",
   "theorems": [
    "buffered_reader_sees_the_stream",
    "buffered_reader_partition_irrelevant"
   ],
   "note": "Rewindable buffers, any capacity below 2^62."
  },
  {
   "property": "C05",
   "status": "proved",
   "theorems": [
    "memory_reader_lines",
    "memory_reader_last_newline_refuted",
    "memory_writer_write",
    "memory_writer_appends_refuted"
   ],
   "note": "Statement includes the kept final newline; the companion refutes the faithful version."
  },
  {
   "property": "C06",
   "status": "proved",
   "theorems": [
    "flv_mux_demux_roundtrip"
   ],
   "note": "Any buffer size between 15 bytes and 16 MiB; the code uses 1 MiB."
  },
  {
   "property": "C07",
   "status": "proved",
   "theorems": [
    "flv_mux_layout",
    "flv_mux_after_failed_write_refuted"
   ],
   "note": "Layout for successful writes; after a failed write the back pointer is wrong (counterexample)."
  },
  {
   "property": "C08",
   "status": "proved",
   "theorems": [
    "flv_demux_arbitrary_input",
    "flv_demux_payloads_are_slices",
    "flv_demux_stays_in_buffer_refuted",
    "flv_demux_ignores_stale_bytes_refuted"
   ],
   "note": "Packets are slices of the input; the over-read on short tags is exhibited for every buffer size."
  },
  {
   "property": "C09",
   "status": "proved",
   "theorems": [
    "gop_cache_content",
    "newest_gop_determined"
   ],
   "note": ""
  },
  {
   "property": "C10",
   "status": "proved",
   "theorems": [
    "viewer_gets_snapshot_then_everything",
    "viewer_kept_after_unclean_exit_refuted"
   ],
   "note": "Holds for the two players in the code, which always unsubscribe first; the subscriber set on its own does not guarantee it (counterexample)."
  },
  {
   "property": "C11",
   "status": "proved",
   "theorems": [
    "ts_cache_keeps_everything",
    "ts_cache_bounded_refuted"
   ],
   "note": ""
  },
  {
   "property": "C12",
   "status": "proved",
   "theorems": [
    "at_most_one_source",
    "publish_and_play_outcomes",
    "refused_attempt_is_harmless",
    "single_source_with_edge_refuted"
   ],
   "note": "Holds without edge pulls; with an edge pull racing a publisher it is false (counterexample)."
  },
  {
   "property": "C13",
   "status": "proved",
   "theorems": [
    "buffer_append_no_headroom",
    "buffer_append_headroom",
    "packet_append_visible_refuted",
    "buffer_append_overflow",
    "buffer_of_bytes",
    "buffer_skip_exact"
   ],
   "note": ""
  },
  {
   "property": "C14",
   "status": "proved",
   "theorems": [
    "rtp_header_exact",
    "rtp_extension_leaks",
    "rtp_payload_after_extension_refuted",
    "rtp_header_safe"
   ],
   "note": ""
  },
  {
   "property": "C15",
   "status": "proved",
   "theorems": [
    "fu_reassembly",
    "fu_unit_bytes"
   ],
   "note": "H.264 (FU-A); the code has no HEVC decoder."
  },
  {
   "property": "C16",
   "status": "proved",
   "theorems": [
    "fu_lost_end_rejects_starts",
    "fu_lost_end_splices"
   ],
   "note": ""
  },
  {
   "property": "C17",
   "status": "proved",
   "theorems": [
    "aac_units_exact",
    "aac_units_safe"
   ],
   "note": ""
  },
  {
   "property": "C18",
   "status": "proved",
   "theorems": [
    "rtcp_sr_exact",
    "rtcp_rr_exact",
    "rtcp_defined_iff_not_sdes",
    "rtcp_standard_blocks_refuted"
   ],
   "note": ""
  },
  {
   "property": "C19",
   "status": "proved",
   "theorems": [
    "annexb_split_exact",
    "annexb_three_byte_codes",
    "annexb_four_byte_codes",
    "annexb_split_total"
   ],
   "note": ""
  },
  {
   "property": "C20",
   "status": "proved",
   "theorems": [
    "avc_conversion_exact",
    "avc_keyframe_flag",
    "avc_config_standard_refuted"
   ],
   "note": "The configuration record itself is not the standard one (counterexample)."
  },
  {
   "property": "C21",
   "status": "proved",
   "theorems": [
    "adts_split_exact",
    "adts_split_total",
    "adts_bad_length_overreads"
   ],
   "note": ""
  },
  {
   "property": "C22",
   "status": "proved",
   "theorems": [
    "ts_continuity_step",
    "ts_accepted_counters_consecutive",
    "ts_loss_rejects_following",
    "ts_duplicate_refused",
    "ts_first_counter_must_be_zero",
    "ts_no_payload_ignored"
   ],
   "note": ""
  },
  {
   "property": "C23",
   "status": "proved",
   "theorems": [
    "ts_h264_stream_delivered",
    "ts_h264_unit_interleaved",
    "ts_aac_unit_interleaved"
   ],
   "note": "The codec parsers are those of C19-C21."
  },
  {
   "property": "C24",
   "status": "proved",
   "theorems": [
    "ts_payload_after_adaptation",
    "ts_bad_adaptation",
    "ts_never_reads_outside_refuted"
   ],
   "note": ""
  },
  {
   "property": "C25",
   "status": "proved",
   "theorems": [
    "head_reader_exact",
    "head_reader_limit",
    "head_reader_truncated",
    "head_reader_total",
    "head_reader_bare_lf_refuted"
   ],
   "note": ""
  },
  {
   "property": "C26",
   "status": "proved",
   "theorems": [
    "chunked_writer",
    "chunked_reader",
    "chunked_identity",
    "chunked_writer_failure",
    "body_reader_safe"
   ],
   "note": ""
  },
  {
   "property": "C27",
   "status": "proved",
   "theorems": [
    "chunked_empty_write_ends_body"
   ],
   "note": ""
  },
  {
   "property": "C28",
   "status": "proved",
   "theorems": [
    "fixed_body_exact"
   ],
   "note": ""
  },
  {
   "property": "C29",
   "status": "proved",
   "theorems": [
    "url_params_exact",
    "url_params_general",
    "url_flag_parameter_lost",
    "url_library_exists"
   ],
   "note": "For every URL library meeting the stated contract; hp_url is shown to meet it."
  },
  {
   "property": "C30",
   "status": "proved",
   "theorems": [
    "url_parts_exact",
    "url_file_exact",
    "request_with_host",
    "url_library_exists"
   ],
   "note": "For every URL library meeting the stated contract."
  },
  {
   "property": "C31",
   "status": "proved",
   "theorems": [
    "forwarded_request",
    "forwarded_request_ignores_body",
    "erase_header_exact"
   ],
   "note": ""
  },
  {
   "property": "C32",
   "status": "proved",
   "theorems": [
    "conf_roundtrip",
    "conf_option_last",
    "conf_option_default",
    "conf_option_number"
   ],
   "note": "The text includes indentation, comments, blank lines, attached or separate semicolons and a last line with or without newline."
  },
  {
   "property": "C33",
   "status": "proved",
   "theorems": [
    "conf_accepted_balanced",
    "conf_balanced_refuted",
    "conf_root_block_unbalanced"
   ],
   "note": "Proved for configurations without inner root blocks; with them the claim is false and refuted."
  },
  {
   "property": "C34",
   "status": "proved",
   "theorems": [
    "host_lookup",
    "host_table_accepted"
   ],
   "note": ""
  },
  {
   "property": "C35",
   "status": "proved",
   "theorems": [
    "install_first_block",
    "install_later_block_ignored"
   ],
   "note": ""
  },
  {
   "property": "C36",
   "status": "proved",
   "theorems": [
    "chain_runs_in_order",
    "chain_stops_at_first",
    "unparsed_first_request_crashes",
    "unparsed_request_replays_previous"
   ],
   "note": ""
  },
  {
   "property": "C37",
   "status": "proved",
   "theorems": [
    "rtmp_connect_one_role",
    "rtmp_connect_error_no_role",
    "rtmp_connect_orderly"
   ],
   "note": ""
  },
  {
   "property": "C38",
   "status": "proved",
   "theorems": [
    "rtmp_streaming_starts_afresh",
    "rtmp_chunk_size_kept_refuted"
   ],
   "note": ""
  },
  {
   "property": "C39",
   "status": "proved",
   "theorems": [
    "rtmp_acks_keep_up",
    "rtmp_pings_never_acked",
    "rtmp_acks_keep_up_with_pings_refuted"
   ],
   "note": "Counts the acknowledgements RtmpHook sends itself; librtmp may send its own."
  },
  {
   "property": "C40",
   "status": "proved",
   "theorems": [
    "rtmp_mux_demux_roundtrip",
    "rtmp_mux_cts_preserved_iff",
    "rtmp_mux_message"
   ],
   "note": "The chunk layer (librtmp) is assumed to deliver type, timestamp and body of a sent message."
  },
  {
   "property": "C41",
   "status": "proved",
   "theorems": [
    "rtmp_demux_exact",
    "rtmp_demux_payload_bounds",
    "rtmp_demux_short_audio_outside",
    "rtmp_demux_outside_only_short_audio",
    "rtmp_read_all_exact"
   ],
   "note": ""
  },
  {
   "property": "C42",
   "status": "proved",
   "theorems": [
    "udp_queue_fifo",
    "udp_queue_no_loss",
    "udp_queue_wedged"
   ],
   "note": "any interleaving; kernel and coroutine scheduling are outside the model"
  },
  {
   "property": "C43",
   "status": "proved",
   "theorems": [
    "srt_streamid_exact",
    "srt_mode_last_publishes",
    "srt_no_host_refused",
    "srt_full_url_refused"
   ],
   "note": ""
  },
  {
   "property": "C44",
   "status": "proved",
   "theorems": [
    "read_fully_exact"
   ],
   "note": "Transport as list of non-empty pieces; time not modelled."
  },
  {
   "property": "C45",
   "status": "proved",
   "theorems": [
    "rtp_never_delivers_pps"
   ],
   "note": ""
  },
  {
   "property": "C46",
   "status": "proved",
   "theorems": [
    "rtp_overread_only_short",
    "rtp_never_overreads_refuted",
    "fu_overflow_asserts"
   ],
   "note": ""
  },
  {
   "property": "C47",
   "status": "proved",
   "theorems": [
    "stap_a_units_lost",
    "stap_a_anywhere"
   ],
   "note": ""
  },
  {
   "property": "C48",
   "status": "proved",
   "theorems": [
    "ts_only_starts_deliver",
    "ts_all_units_delivered_refuted"
   ],
   "note": ""
  },
  {
   "property": "C49",
   "status": "proved",
   "theorems": [
    "ts_h264_long_unit_cut"
   ],
   "note": ""
  },
  {
   "property": "C50",
   "status": "proved",
   "theorems": [
    "ts_h264_declared_length_stale",
    "ts_output_depends_on_input_only_refuted"
   ],
   "note": ""
  },
  {
   "property": "C51",
   "status": "proved",
   "theorems": [
    "ts_pat_registers",
    "ts_pmt_registers"
   ],
   "note": ""
  },
  {
   "property": "C52",
   "status": "proved",
   "theorems": [
    "ts_pointer_field_followed_refuted",
    "ts_psi_crc_ignored",
    "ts_table_stays_inside_refuted",
    "ts_pat_any",
    "ts_pat_overruns",
    "ts_pat_too_long",
    "ts_pmt_split_overruns"
   ],
   "note": ""
  },
  {
   "property": "C53",
   "status": "proved",
   "theorems": [
    "ts_forwards_verbatim",
    "ts_unit_start_not_marked"
   ],
   "note": ""
  },
  {
   "property": "C54",
   "status": "proved",
   "theorems": [
    "ts_demux_chunking"
   ],
   "note": ""
  },
  {
   "property": "C55",
   "status": "proved",
   "theorems": [
    "chunked_bad_size_ends_body"
   ],
   "note": ""
  },
  {
   "property": "C56",
   "status": "proved",
   "theorems": [
    "zero_length_body_fails",
    "proxy_zero_length_fails"
   ],
   "note": ""
  },
  {
   "property": "C57",
   "status": "proved",
   "theorems": [
    "proxy_large_length_truncated"
   ],
   "note": ""
  },
  {
   "property": "C58",
   "status": "proved",
   "theorems": [
    "proxy_fixed_body",
    "proxy_chunked_body"
   ],
   "note": ""
  },
  {
   "property": "C59",
   "status": "proved",
   "theorems": [
    "requests_served_in_order",
    "request_body_served_as_request"
   ],
   "note": ""
  },
  {
   "property": "C60",
   "status": "proved",
   "theorems": [
    "proxy_chunked_body"
   ],
   "note": ""
  },
  {
   "property": "C61",
   "status": "proved",
   "theorems": [
    "proxy_unparsed_response_crashes"
   ],
   "note": ""
  },
  {
   "property": "C62",
   "status": "proved",
   "theorems": [
    "request_without_host"
   ],
   "note": ""
  },
  {
   "property": "C63",
   "status": "proved",
   "theorems": [
    "request_host_injects_path"
   ],
   "note": ""
  },
  {
   "property": "C64",
   "status": "proved",
   "theorems": [
    "stream_key_exact",
    "stream_key_without_ext"
   ],
   "note": ""
  },
  {
   "property": "C65",
   "status": "proved",
   "theorems": [
    "stream_key_collision"
   ],
   "note": ""
  },
  {
   "property": "C66",
   "status": "proved",
   "theorems": [
    "format_by_prefix",
    "format_names",
    "format_short_overread"
   ],
   "note": ""
  },
  {
   "property": "C67",
   "status": "proved",
   "theorems": [
    "conf_loaded_shape",
    "conf_manual"
   ],
   "note": ""
  },
  {
   "property": "C68",
   "status": "proved",
   "theorems": [
    "conf_idle_line"
   ],
   "note": ""
  },
  {
   "property": "C69",
   "status": "proved",
   "theorems": [
    "conf_comment_refused"
   ],
   "note": ""
  },
  {
   "property": "C70",
   "status": "proved",
   "theorems": [
    "conf_glued_brace"
   ],
   "note": ""
  },
  {
   "property": "C71",
   "status": "proved",
   "theorems": [
    "conf_directive_closing"
   ],
   "note": ""
  },
  {
   "property": "C72",
   "status": "proved",
   "theorems": [
    "conf_location_overrun",
    "conf_terminates"
   ],
   "note": ""
  },
  {
   "property": "C73",
   "status": "proved",
   "theorems": [
    "host_merge_default_lost"
   ],
   "note": ""
  },
  {
   "property": "C74",
   "status": "proved",
   "theorems": [
    "install_port_shared"
   ],
   "note": ""
  },
  {
   "property": "C75",
   "status": "proved",
   "theorems": [
    "install_names_distinct",
    "install_global_not_overridable"
   ],
   "note": ""
  },
  {
   "property": "C76",
   "status": "proved",
   "theorems": [
    "install_two_http_blocks"
   ],
   "note": ""
  },
  {
   "property": "C77",
   "status": "proved",
   "theorems": [
    "host_api_unreachable"
   ],
   "note": ""
  },
  {
   "property": "C78",
   "status": "proved",
   "theorems": [
    "host_enabled_ignored"
   ],
   "note": ""
  },
  {
   "property": "C79",
   "status": "proved",
   "theorems": [
    "host_proxy_target"
   ],
   "note": ""
  },
  {
   "property": "C80",
   "status": "proved",
   "theorems": [
    "rtmp_shared_packet_same_for_all"
   ],
   "note": ""
  },
  {
   "property": "C81",
   "status": "proved",
   "theorems": [
    "rtmp_bridge_read_prefix",
    "rtmp_bridge_read_complete"
   ],
   "note": ""
  },
  {
   "property": "C82",
   "status": "proved",
   "theorems": [
    "rtmp_bridge_small_buffer_stalls"
   ],
   "note": ""
  },
  {
   "property": "C83",
   "status": "proved",
   "theorems": [
    "rtmp_bridge_write_exact",
    "rtmp_bridge_write_tags",
    "rtmp_bridge_split_tag_refused",
    "rtmp_bridge_forward"
   ],
   "note": ""
  },
  {
   "property": "C84",
   "status": "proved",
   "theorems": [
    "rtmp_bridge_refuses_flv_muxer"
   ],
   "note": ""
  },
  {
   "property": "C85",
   "status": "proved",
   "theorems": [
    "rtmp_bridge_same_packets"
   ],
   "note": ""
  },
  {
   "property": "C86",
   "status": "proved",
   "theorems": [
    "rtmp_command_reading",
    "rtmp_no_command"
   ],
   "note": ""
  },
  {
   "property": "C87",
   "status": "proved",
   "theorems": [
    "rtmp_connect_null_object"
   ],
   "note": ""
  },
  {
   "property": "C88",
   "status": "proved",
   "theorems": [
    "rtmp_ping_answer",
    "rtmp_ping_echo_refuted"
   ],
   "note": ""
  },
  {
   "property": "C89",
   "status": "proved",
   "theorems": [
    "rtmp_peer_window_ignored",
    "rtmp_first_ack_late"
   ],
   "note": ""
  },
  {
   "property": "C90",
   "status": "proved",
   "theorems": [
    "rtmp_short_window_message",
    "rtmp_short_window_any"
   ],
   "note": ""
  },
  {
   "property": "C91",
   "status": "proved",
   "theorems": [
    "rtmp_two_gib",
    "rtmp_ack_overflow"
   ],
   "note": ""
  },
  {
   "property": "C92",
   "status": "proved",
   "theorems": [
    "rtmp_library_failure_unnoticed"
   ],
   "note": ""
  },
  {
   "property": "C93",
   "status": "proved",
   "theorems": [
    "rtmp_request_url",
    "rtmp_streams_collide"
   ],
   "note": ""
  },
  {
   "property": "C94",
   "status": "proved",
   "theorems": [
    "rtmp_any_chunk_size"
   ],
   "note": ""
  },
  {
   "property": "C95",
   "status": "proved",
   "theorems": [
    "udp_read_fully_aligned",
    "udp_read_fully_loses"
   ],
   "note": ""
  },
  {
   "property": "C96",
   "status": "proved",
   "theorems": [
    "udp_server_safe"
   ],
   "note": "a session waiting to be accepted is owned by the server"
  },
  {
   "property": "C97",
   "status": "proved",
   "theorems": [
    "udp_sessions_isolated"
   ],
   "note": ""
  },
  {
   "property": "C98",
   "status": "proved",
   "theorems": [
    "udp_sender_ignored",
    "udp_one_session"
   ],
   "note": "the expected property is refuted for every run"
  },
  {
   "property": "C99",
   "status": "proved",
   "theorems": [
    "udp_replies_misdirected"
   ],
   "note": "the expected property is refuted for every run"
  },
  {
   "property": "C100",
   "status": "proved",
   "theorems": [
    "udp_long_datagram_cut"
   ],
   "note": "the kernel cuts a datagram to the buffer"
  },
  {
   "property": "C101",
   "status": "proved",
   "theorems": [
    "srt_reads_in_order"
   ],
   "note": "the SRT library is a list of answers"
  },
  {
   "property": "C102",
   "status": "proved",
   "theorems": [
    "srt_long_message_cut"
   ],
   "note": "a defect, shown for every long message"
  },
  {
   "property": "C103",
   "status": "proved",
   "theorems": [
    "read_fully_one_piece",
    "read_fully_pieces_refuted"
   ],
   "note": "the expected property holds for one piece and is refuted otherwise"
  },
  {
   "property": "C104",
   "status": "proved",
   "theorems": [
    "srt_write_packs",
    "srt_write_prefix"
   ],
   "note": ""
  },
  {
   "property": "C105",
   "status": "proved",
   "theorems": [
    "srt_accept_error_is_socket"
   ],
   "note": "the expected property is refuted"
  },
  {
   "property": "C106",
   "status": "proved",
   "theorems": [
    "srt_no_lost_wakeup",
    "srt_wait_result"
   ],
   "note": "registration calls of the library are taken to succeed"
  },
  {
   "property": "C107",
   "status": "proved",
   "theorems": [
    "srt_error_watch_refuted",
    "srt_error_watch_lost"
   ],
   "note": "the expected property is refuted"
  },
  {
   "property": "C108",
   "status": "proved",
   "theorems": [
    "tcp_accept_all",
    "tcp_accept_failure_crashes",
    "srt_accept_failures_spin"
   ],
   "note": "survival is refuted for every failing TCP accept"
  },
  {
   "property": "C109",
   "status": "proved",
   "theorems": [
    "tls_accept_any_division"
   ],
   "note": "the TLS library is any engine meeting the two_flights contract"
  },
  {
   "property": "C110",
   "status": "proved",
   "theorems": [
    "tls_accept_loses_early_data"
   ],
   "note": "a defect, shown for every such data"
  },
  {
   "property": "C111",
   "status": "proved",
   "theorems": [
    "tls_init_again_succeeds"
   ],
   "note": "the expected property is refuted"
  },
  {
   "property": "C112",
   "status": "proved",
   "theorems": [
    "tls_acceptor_good",
    "tls_acceptor_one_client_blocks_all"
   ],
   "note": "how each handshake ends is an input"
  },
  {
   "property": "C113",
   "status": "proved",
   "theorems": [
    "tls_write_complete"
   ],
   "note": ""
  },
  {
   "property": "C114",
   "status": "proved",
   "theorems": [
    "tls_write_resends"
   ],
   "note": "the expected property is refuted"
  },
  {
   "property": "C115",
   "status": "proved",
   "theorems": [
    "tls_reads_in_order"
   ],
   "note": "the TLS library is any reader meeting the decrypts contract"
  },
  {
   "property": "C116",
   "status": "proved",
   "theorems": [
    "rtp_h264_session_exact",
    "rtp_aac_session_exact",
    "rtp_reports_invisible",
    "rtp_sdes_undefined"
   ],
   "note": "reports: RTCP datagrams at least as long as their count announces (20 bytes a block); datagrams of 12 to 3000 bytes"
  },
  {
   "property": "C117",
   "status": "proved",
   "theorems": [
    "rtp_ts_session_exact",
    "rtp_ts_session_stops",
    "rtp_ts_part_stops"
   ],
   "note": ""
  },
  {
   "property": "C118",
   "status": "proved",
   "theorems": [
    "rtp_first_datagram_decides",
    "rtp_other_payload_ends",
    "rtp_ts_session_accepted_refuted"
   ],
   "note": "the expected property (any valid transport stream is accepted) is refuted"
  },
  {
   "property": "C119",
   "status": "proved",
   "theorems": [
    "rtp_short_merges",
    "rtp_stray_ignored_refuted",
    "rtp_long_cut",
    "rtp_empty_ends"
   ],
   "note": "the expected property (stray datagrams are ignored) is refuted"
  },
  {
   "property": "C120",
   "status": "proved",
   "theorems": [
    "rtp_h264_ignores_headers",
    "rtp_gap_detected_refuted"
   ],
   "note": "the expected property (gaps are detected) is refuted"
  },
  {
   "property": "C121",
   "status": "proved",
   "theorems": [
    "flv_relay_end_to_end"
   ],
   "note": "the server events are those of M_Live; the upload ends no earlier than the packets put so far; a response socket that takes every write"
  },
  {
   "property": "C122",
   "status": "proved",
   "theorems": [
    "http_player_ends"
   ],
   "note": "the sink fails from some write on with one error code"
  },
  {
   "property": "C123",
   "status": "proved",
   "theorems": [
    "http_publish_rule",
    "srt_publish_rule",
    "srt_publish_checks_host_refuted"
   ],
   "note": "the expected property for SRT (the host is checked) is refuted"
  },
  {
   "property": "C124",
   "status": "proved",
   "theorems": [
    "http_stream_answers"
   ],
   "note": "an accepted upload whose decoding itself returned one of the two codes is excluded"
  },
  {
   "property": "C125",
   "status": "proved",
   "theorems": [
    "http_play_dash_crashes"
   ],
   "note": "the expected property (no URL stops the server) is refuted for a family of URLs"
  },
  {
   "property": "C126",
   "status": "proved",
   "theorems": [
    "edge_pulls_same_path",
    "edge_pass_url_port_ignored"
   ],
   "note": ""
  },
  {
   "property": "C127",
   "status": "proved",
   "theorems": [
    "edge_pull_outcomes"
   ],
   "note": "extensions of one character are read past their end (C66)"
  },
  {
   "property": "C128",
   "status": "proved",
   "theorems": [
    "srt_relay_end_to_end"
   ],
   "note": "the library takes every message, after any number of waits"
  },
  {
   "property": "C129",
   "status": "proved",
   "theorems": [
    "udp_datagram_name",
    "udp_key_names_peer",
    "udp_key_names_destination_refuted"
   ],
   "note": "the expected property (the key determines the destination too) is refuted; in the code the peer is always empty (C98)"
  },
  {
   "property": "C130",
   "status": "proved",
   "theorems": [
    "rtmp_publish_exact",
    "rtmp_publish_prefix",
    "rtmp_publish_library_failure"
   ],
   "note": ""
  },
  {
   "property": "C131",
   "status": "proved",
   "theorems": [
    "rtmp_relay_end_to_end",
    "rtmp_resent_verbatim",
    "rtmp_resent_changed"
   ],
   "note": ""
  },
  {
   "property": "C132",
   "status": "proved",
   "theorems": [
    "rtmp_player_ends",
    "rtmp_player_hole_refuted"
   ],
   "note": "that a player misses nothing without that proviso is refuted"
  },
  {
   "property": "C133",
   "status": "proved",
   "theorems": [
    "rtmp_to_flv_player"
   ],
   "note": ""
  },
  {
   "property": "C134",
   "status": "proved",
   "theorems": [
    "rtmp_publish_rule",
    "rtmp_unknown_host",
    "rtmp_publish_start_means_published_refuted"
   ],
   "note": "that Publish.Start means the stream is published is refuted"
  },
  {
   "property": "C135",
   "status": "proved",
   "theorems": [
    "start_exact",
    "start_absolute_refused"
   ],
   "note": "that absolute names work is refuted for every URL library that refuses empty hosts; contracts of the URL library are hypotheses"
  },
  {
   "property": "C136",
   "status": "proved",
   "theorems": [
    "start_failure_reported"
   ],
   "note": "the codes of listening are a hypothesis, checked for all of them in the example beside it"
  },
  {
   "property": "C137",
   "status": "proved",
   "theorems": [
    "port_transport",
    "srt_block_default_transport_refuses"
   ],
   "note": ""
  },
  {
   "property": "C138",
   "status": "proved",
   "theorems": [
    "tls_certificate_of_host",
    "tls_no_name_no_certificate"
   ],
   "note": "OpenSSL is an oracle"
  },
  {
   "property": "C139",
   "status": "proved",
   "theorems": [
    "tls_server_certificate_refuted",
    "tls_server_certificate_ignored"
   ],
   "note": "the expected property is refuted"
  },
  {
   "property": "C140",
   "status": "proved",
   "theorems": [
    "tls_other_blocks_refuse"
   ],
   "note": ""
  },
  {
   "property": "C141",
   "status": "proved",
   "theorems": [
    "listen_port_low_bits",
    "listen_port_refuted",
    "listens_after_all_steps"
   ],
   "note": "that other numbers are rejected is refuted"
  },
  {
   "property": "C142",
   "status": "proved",
   "theorems": [
    "srt_listen_no_second_way"
   ],
   "note": ""
  },
  {
   "property": "C143",
   "status": "proved",
   "theorems": [
    "tls_transparent"
   ],
   "note": "contract of the TLS library as hypothesis, met by a small library in the example"
  },
  {
   "property": "C144",
   "status": "proved",
   "theorems": [
    "https_request_exact"
   ],
   "note": "early data in the packet of the last handshake flight is lost (C110), hence packets of its own"
  },
  {
   "property": "C145",
   "status": "proved",
   "theorems": [
    "body_framing_transparent",
    "body_unframed_transparent"
   ],
   "note": ""
  },
  {
   "property": "C146",
   "status": "proved",
   "theorems": [
    "http_flv_upload_exact",
    "http_flv_upload_published"
   ],
   "note": "how tags shorter than their codec prefix end is C08; the parser library says how the body is framed"
  },
  {
   "property": "C147",
   "status": "proved",
   "theorems": [
    "http_flv_upload_cut"
   ],
   "note": ""
  },
  {
   "property": "C148",
   "status": "proved",
   "theorems": [
    "https_flv_upload_exact"
   ],
   "note": "contracts of the TLS library are hypotheses, met by a small library (C144)"
  },
  {
   "property": "C149",
   "status": "proved",
   "theorems": [
    "keepalive_requests_independent",
    "keepalive_run",
    "keepalive_stops"
   ],
   "note": "Whole connection with the real handlers; the http_parser library, upstream answers and stream states are arbitrary inputs per request. A head of which the parser accepts nothing is excluded (it replays the previous request, C36)."
  },
  {
   "property": "C150",
   "status": "proved",
   "theorems": [
    "unknown_host_answer"
   ],
   "note": ""
  },
  {
   "property": "C151",
   "status": "proved",
   "theorems": [
    "responses_separable"
   ],
   "note": "Spec: RFC 7230 3.3.3 as an inductive relation. Upstream fields must not contradict the framing (no other Transfer-Encoding value, no differing Content-Length)."
  },
  {
   "property": "C152",
   "status": "proved",
   "theorems": [
    "missing_stream_swallows",
    "refused_upload_swallows"
   ],
   "note": "A defect, stated for all such requests."
  },
  {
   "property": "C153",
   "status": "proved",
   "theorems": [
    "bodyless_response_ends_connection"
   ],
   "note": "A defect; length zero is C60."
  },
  {
   "property": "C154",
   "status": "proved",
   "theorems": [
    "upstream_failure_unreported"
   ],
   "note": ""
  },
  {
   "property": "C155",
   "status": "proved",
   "theorems": [
    "accepted_upload_unanswered"
   ],
   "note": "FLV; other demuxers are inputs of the model."
  },
  {
   "property": "C156",
   "status": "proved",
   "theorems": [
    "edge_publishes_answer",
    "edge_publishes_file",
    "edge_cut_answer"
   ],
   "note": "FLV over plain HTTP (the client never uses TLS); the parser library is an input."
  },
  {
   "property": "C157",
   "status": "proved",
   "theorems": [
    "edge_names_stream"
   ],
   "note": "URL and request parsers are inputs constrained to read well-formed texts as they stand."
  },
  {
   "property": "C158",
   "status": "proved",
   "theorems": [
    "cluster_transparent",
    "cluster_player_file",
    "newcomer_same_downstream",
    "views_compose"
   ],
   "note": "FLV over HTTP between the servers, with the GOP cache."
  },
  {
   "property": "C159",
   "status": "proved",
   "theorems": [
    "edge_no_stream",
    "edge_stream_needs_200",
    "edge_survives_answers_refuted"
   ],
   "note": "the expected property (no answer stops the server) is refuted"
  },
  {
   "property": "C160",
   "status": "proved",
   "theorems": [
    "rtmp_answers_on_the_wire",
    "rtmp_replies_readable"
   ],
   "note": "librtmp encoders taken to write AMF0; its numbers taken to be IEEE doubles"
  },
  {
   "property": "C161",
   "status": "proved",
   "theorems": [
    "rtmp_publish_id_int",
    "rtmp_role_id_range",
    "rtmp_replies_on_stream_zero",
    "rtmp_status_on_its_stream_refuted"
   ],
   "note": "the expected stream of a status is refuted"
  },
  {
   "property": "C162",
   "status": "proved",
   "theorems": [
    "rtmp_own_connect",
    "rtmp_own_create_stream"
   ],
   "note": "librtmp decoder taken to find in an AMF0 text what it says"
  },
  {
   "property": "C163",
   "status": "proved",
   "theorems": [
    "reuse_port_rule"
   ],
   "note": ""
  },
  {
   "property": "C164",
   "status": "proved",
   "theorems": [
    "origin_wait_bounded"
   ],
   "note": "computing takes no time; the clock stops at deadlines"
  },
  {
   "property": "C165",
   "status": "proved",
   "theorems": [
    "one_pull_per_name",
    "one_pull_per_name_refuted",
    "pull_starts_when_none_runs",
    "ended_pull_gone",
    "origin_serves_all_waiting",
    "origin_failure_told_at_once"
   ],
   "note": "The proviso is the hypothesis calm; one_pull_per_name_refuted is the witness without it."
  },
  {
   "property": "C166",
   "status": "proved",
   "theorems": [
    "idle_player_has_everything",
    "no_sleep_with_packets"
   ],
   "note": ""
  },
  {
   "property": "C167",
   "status": "proved",
   "theorems": [
    "silent_player_dropped",
    "dropped_in_time",
    "clock_goes_on"
   ],
   "note": ""
  },
  {
   "property": "C168",
   "status": "proved",
   "theorems": [
    "waiting_ends_with_stream_refuted",
    "only_origin_ends_wait",
    "pulled_stream_can_be_played_refuted"
   ],
   "note": "both expectations are refuted"
  },
  {
   "property": "C169",
   "status": "proved",
   "theorems": [
    "log_prints_text",
    "log_defined_iff",
    "client_lines"
   ],
   "note": ""
  },
  {
   "property": "C170",
   "status": "proved",
   "theorems": [
    "request_log_defined_refuted",
    "client_percent_ub"
   ],
   "note": "the expectation is refuted; the second theorem is the general form"
  },
  {
   "property": "C171",
   "status": "proved",
   "theorems": [
    "long_line_unfinished",
    "log_line_forged"
   ],
   "note": "the expectation is refuted in general form"
  },
  {
   "property": "C172",
   "status": "proved",
   "theorems": [
    "going_on_keeps_names",
    "published_stream_stays_refuted"
   ],
   "note": "The proviso is the hypothesis calm; published_stream_stays_refuted is the witness without it."
  },
  {
   "property": "C173",
   "status": "proved",
   "theorems": [
    "accepted_served_once"
   ],
   "note": ""
  },
  {
   "property": "C174",
   "status": "proved",
   "theorems": [
    "log_ids_tell_apart"
   ],
   "note": ""
  },
  {
   "property": "C175",
   "status": "proved",
   "theorems": [
    "forgotten_handler_not_run_refuted",
    "forgotten_handler_undefined",
    "started_twice_refuted",
    "started_twice_undefined",
    "ids_run_out_refuted"
   ],
   "note": "the three expectations are refuted, the first two for every history of the kind"
  },
  {
   "property": "C176",
   "status": "proved",
   "theorems": [
    "srt_connection_rule",
    "srt_connection_refused",
    "srt_player_ends"
   ],
   "note": ""
  },
  {
   "property": "C177",
   "status": "proved",
   "theorems": [
    "srt_clients_meet",
    "srt_http_same_name"
   ],
   "note": ""
  },
  {
   "property": "C178",
   "status": "proved",
   "theorems": [
    "tcp_reads_in_order",
    "tcp_full_read_exact",
    "tcp_full_read_timeout_refuted",
    "tcp_writes_in_order"
   ],
   "note": "that a full read that times out can be repeated is refuted"
  },
  {
   "property": "C179",
   "status": "proved",
   "theorems": [
    "file_reads_exact",
    "file_lines_exact",
    "file_transparent"
   ],
   "note": "std::fstream modelled by its three state bits; a device that fails while reading is left out."
  },
  {
   "property": "C180",
   "status": "proved",
   "theorems": [
    "flv_file_copy_exact"
   ],
   "note": "The copying loop is that of test/test_av_flv.cpp; the second file takes every write."
  },
  {
   "property": "C181",
   "status": "proved",
   "theorems": [
    "file_writes_reported",
    "file_read_after_refusal",
    "file_write_after_end_lost_refuted"
   ],
   "note": "Data in the stream buffer counts as written."
  },
  {
   "property": "C182",
   "status": "proved",
   "theorems": [
    "request_head_exact",
    "response_head_exact",
    "http_library_exists"
   ],
   "note": "The library is an input; that one exists as assumed is shown."
  },
  {
   "property": "C183",
   "status": "proved",
   "theorems": [
    "folded_value_split",
    "folded_value_joined_refuted"
   ],
   "note": "The one-for-one claim is refuted."
  },
  {
   "property": "C184",
   "status": "proved",
   "theorems": [
    "request_text_means"
   ],
   "note": ""
  },
  {
   "property": "C185",
   "status": "proved",
   "theorems": [
    "faulty_request_served",
    "malformed_request_refused_refuted"
   ],
   "note": "The expected refusal is refuted."
  },
  {
   "property": "C186",
   "status": "proved",
   "theorems": [
    "forwarded_request_means",
    "forwarded_twice_two_lengths"
   ],
   "note": ""
  },
  {
   "property": "C187",
   "status": "proved",
   "theorems": [
    "proxy_chain_delivers"
   ],
   "note": "Responses without a body are not included (C153)."
  },
  {
   "property": "C188",
   "status": "proved",
   "theorems": [
    "host_spelling_matters",
    "length_spelling_matters",
    "length_read",
    "names_compared_caseless_refuted"
   ],
   "note": "The case-insensitive claim is refuted."
  },
  {
   "property": "C189",
   "status": "proved",
   "theorems": [
    "sps_conf_starts",
    "srt_conf_starts",
    "https_conf_starts"
   ],
   "note": "The timeouts of a server are not in the table."
  },
  {
   "property": "C190",
   "status": "proved",
   "theorems": [
    "shipped_upstream_used_refuted"
   ],
   "note": "The expected use of the upstream block is refuted."
  },
  {
   "property": "C191",
   "status": "proved",
   "theorems": [
    "shipped_edge_own_source"
   ],
   "note": ""
  },
  {
   "property": "C192",
   "status": "proved",
   "theorems": [
    "play_fetches_on_edges_only"
   ],
   "note": ""
  },
  {
   "property": "C193",
   "status": "proved",
   "theorems": [
    "url_kinds"
   ],
   "note": "A file URL with a port or query is left out."
  },
  {
   "property": "C194",
   "status": "proved",
   "theorems": [
    "packet_kinds_on_wire",
    "newcomer_gets_video_header",
    "newcomer_header_hidden_refuted"
   ],
   "note": "The expectation that the configuration always arrives is refuted by the last theorem."
  },
  {
   "property": "C195",
   "status": "proved",
   "theorems": [
    "ffmpeg_packet_out",
    "ffmpeg_player_gets_all",
    "ffmpeg_refusals",
    "ffmpeg_ignored_stream",
    "ffmpeg_shifted_stream_refuted"
   ],
   "note": "The last theorem refutes the first for containers with a stream of another kind in front."
  },
  {
   "property": "C196",
   "status": "proved",
   "theorems": [
    "ffmpeg_negative_time_exits_refuted",
    "ffmpeg_exit_reaches_all"
   ],
   "note": "A fault of the source: exit(0) on a packet."
  },
  {
   "property": "C197",
   "status": "proved",
   "theorems": [
    "ffmpeg_foreign_stream_unplayable"
   ],
   "note": ""
  },
  {
   "property": "C198",
   "status": "proved",
   "theorems": [
    "ffmpeg_unknown_format_refuted",
    "ffmpeg_format_by_path",
    "ffmpeg_unreadable_content_refuted"
   ],
   "note": "What the library knows is a parameter."
  },
  {
   "property": "C199",
   "status": "proved",
   "theorems": [
    "ffmpeg_rtmp_same_stream"
   ],
   "note": "http_parser on well-formed URLs is a hypothesis, met by an example."
  },
  {
   "property": "C200",
   "status": "proved",
   "theorems": [
    "ffmpeg_newcomer",
    "ffmpeg_newcomer_read",
    "ffmpeg_newcomer_audio_only",
    "ffmpeg_io_codes",
    "ffmpeg_packet_milliseconds_refuted"
   ],
   "note": ""
  },
  {
   "property": "C201",
   "status": "proved",
   "theorems": [
    "memory_mixed_requests",
    "file_mixed_requests",
    "mixed_answers_determined"
   ],
   "note": ""
  },
  {
   "property": "C202",
   "status": "proved",
   "theorems": [
    "ts_newcomer_on_wire",
    "ts_newcomer_every_program_refuted"
   ],
   "note": ""
  },
  {
   "property": "C203",
   "status": "proved",
   "theorems": [
    "ts_to_flv_player"
   ],
   "note": ""
  },
  {
   "property": "C204",
   "status": "proved",
   "theorems": [
    "empty_aac_frame_ends_flv"
   ],
   "note": "A fault of the source: the writer emits what the reader refuses."
  },
  {
   "property": "C205",
   "status": "proved",
   "theorems": [
    "newcomer_lacks_key_slices"
   ],
   "note": "A fault of the source."
  },
  {
   "property": "C206",
   "status": "proved",
   "theorems": [
    "sei_hides_config_downstream"
   ],
   "note": "A fault of the source."
  },
  {
   "property": "C207",
   "status": "proved",
   "theorems": [
    "ts_to_rtmp_player"
   ],
   "note": ""
  },
  {
   "property": "C208",
   "status": "proved",
   "theorems": [
    "flv_to_rtmp_player"
   ],
   "note": ""
  },
  {
   "property": "C209",
   "status": "proved",
   "theorems": [
    "players_agree_iff"
   ],
   "note": "A fault of the source: see C40."
  },
  {
   "property": "C210",
   "status": "proved",
   "theorems": [
    "stamps_fall_back"
   ],
   "note": "A fault of the source."
  },
  {
   "property": "C211",
   "status": "proved",
   "theorems": [
    "publisher_never_held_back",
    "waiting_packets_bounded_refuted"
   ],
   "note": "The second theorem refutes any bound: a fault of the source for slow viewers."
  },
  {
   "property": "C212",
   "status": "proved",
   "theorems": [
    "newcomer_burst",
    "newcomer_burst_bounded_refuted"
   ],
   "note": ""
  },
  {
   "property": "C213",
   "status": "proved",
   "theorems": [
    "name_taken_only_by_a_source"
   ],
   "note": "The converse fails with edges: C12."
  },
  {
   "property": "C214",
   "status": "proved",
   "theorems": [
    "timely_client_served",
    "timely_upload_published"
   ],
   "note": "Computing takes no time in this model."
  },
  {
   "property": "C215",
   "status": "proved",
   "theorems": [
    "silent_client_let_go",
    "silent_client_kept"
   ],
   "note": ""
  },
  {
   "property": "C216",
   "status": "proved",
   "theorems": [
    "head_time_bound",
    "slow_head_is_served"
   ],
   "note": "The second theorem shows that the limit does not protect against slow clients: it starts anew with every byte."
  },
  {
   "property": "C217",
   "status": "proved",
   "theorems": [
    "draining_viewer_kept",
    "stuck_viewer_let_go",
    "empty_piece_ends_viewer"
   ],
   "note": ""
  },
  {
   "property": "C218",
   "status": "proved",
   "theorems": [
    "limits_of_server",
    "shipped_limits"
   ],
   "note": ""
  },
  {
   "property": "C219",
   "status": "proved",
   "theorems": [
    "option_memory_exact",
    "host_enabled_exact",
    "enabled_needs_zeroes"
   ],
   "note": "Layout of x86-64 and libstdc++."
  },
  {
   "property": "C220",
   "status": "proved",
   "theorems": [
    "source_packets_bound",
    "source_runs_forever_refuted"
   ],
   "note": "The first theorem is exact; the second refutes the unlimited form with a witness."
  },
  {
   "property": "C221",
   "status": "proved",
   "theorems": [
    "ts_clock_wraps",
    "shown_follows_then_falls",
    "offset_at_the_wrap"
   ],
   "note": ""
  },
  {
   "property": "C222",
   "status": "proved",
   "theorems": [
    "rtp_pictures_in_flv"
   ],
   "note": "Slices in single packets; fragments give the same packets by C15."
  },
  {
   "property": "C223",
   "status": "proved",
   "theorems": [
    "srt_transparent",
    "srt_request_exact",
    "srt_empty_body_waits"
   ],
   "note": "the expected property holds except for empty bodies, where it is refuted"
  },
  {
   "property": "C224",
   "status": "proved",
   "theorems": [
    "download_exact",
    "sent_answer_arrives",
    "download_failure_unreported",
    "download_pieces_fit",
    "download_unparsed_crashes"
   ],
   "note": "the first half holds; that failures are reported is refuted. The connection is made and the request sent"
  },
  {
   "property": "C225",
   "status": "proved",
   "theorems": [
    "udp_client_read",
    "udp_client_empty_datagram",
    "udp_client_full_read",
    "udp_client_stream_refuted",
    "udp_client_write",
    "udp_client_write_whole"
   ],
   "note": "The kernel is an oracle: the datagrams and failures that arrive, and what each send gives."
  },
  {
   "property": "C226",
   "status": "proved",
   "theorems": [
    "load_numbered",
    "load_paced",
    "load_rate",
    "load_report",
    "load_overflows"
   ],
   "note": "The interval is a parameter: how it is computed from the rate, in double, is not modelled. Sends are whole or fail."
  },
  {
   "property": "C227",
   "status": "proved",
   "theorems": [
    "avc_roundtrip",
    "avc_read_any",
    "avc_encoded_read"
   ],
   "note": "Nothing in the repository calls the parser this way: the claim is about the interface."
  },
  {
   "property": "C228",
   "status": "proved",
   "theorems": [
    "avc_config_refused",
    "avc_own_config_refuted",
    "avc_size_wrap_refuted"
   ],
   "note": "Proved as the refutation: these inputs fail. Nothing in the repository passes a sequence header to the parser."
  },
  {
   "property": "C229",
   "status": "proved",
   "theorems": [
    "blackhole_reports",
    "load_received",
    "blackhole_rate_refuted"
   ],
   "note": "Datagrams are read when they arrive; the ten seconds are measured by the clock of the reports. One session at a time."
  },
  {
   "property": "C230",
   "status": "proved",
   "theorems": [
    "rtmp_cluster_rtmp_player",
    "rtmp_cluster_http_player"
   ],
   "note": "Messages with media data in them that fit the buffers; C231 is what happens without. The chain is that of C158."
  },
  {
   "property": "C231",
   "status": "proved",
   "theorems": [
    "rtmp_bare_message_ends_pull"
   ],
   "note": "Proved as the refutation of C230 for messages without media data. Players of the first server: C131, C133."
  },
  {
   "property": "C232",
   "status": "proved",
   "theorems": [
    "proxy_open_body",
    "proxy_open_cut_unseen"
   ],
   "note": ""
  },
  {
   "property": "C233",
   "status": "proved",
   "theorems": [
    "proxy_short_body_seen",
    "proxy_chunked_outcome"
   ],
   "note": ""
  },
  {
   "property": "C234",
   "status": "proved",
   "theorems": [
    "ts_cluster_http_player",
    "ts_cluster_rtmp_player"
   ],
   "note": "Demuxer buffers of at least 2^18 and less than 2^24 bytes. Empty AAC frames: C204."
  },
  {
   "property": "C235",
   "status": "proved",
   "theorems": [
    "ts_map_packet",
    "ts_assoc_packet"
   ],
   "note": "The reads behind the packet are a fault of the source: see C52."
  },
  {
   "property": "C236",
   "status": "proved",
   "theorems": [
    "ts_stream_packet",
    "ts_service_packet",
    "ts_reads_outside_exactly",
    "ts_every_block",
    "ts_session_outside",
    "ts_misfit_exactly",
    "ts_session_exactly",
    "ts_input_outside_exactly"
   ],
   "note": "A copy of zero bytes from an address outside counts as a read outside; the fresh memory of every allocation is the same unknown list."
  },
  {
   "property": "C237",
   "status": "proved",
   "theorems": [
    "rtp_session_of_packets",
    "rtp_packet_payload",
    "rtp_packet_outside",
    "rtp_session_outside_exactly",
    "rtp_aac_outside_only_sdes"
   ],
   "note": "Decoder states: any fragment buffer the decoder can hold, any transport stream state in which the pending units are held (kept by every accepted packet). The clock values of the datagrams are arbitrary. Fresh memory is the same unknown list for every allocation, 1 MiB or longer and shorter than 2^32."
  },
  {
   "property": "C238",
   "status": "proved",
   "theorems": [
    "rtmp_connect_undefined_exactly",
    "rtmp_publish_undefined_exactly",
    "rtmp_counts_defined",
    "rtmp_modest_publisher"
   ],
   "note": "librtmp is outside /repo: its messages, wire sizes, failures and AMF values are arbitrary inputs. Undefined behaviour inside librtmp is not covered."
  },
  {
   "property": "C239",
   "status": "proved",
   "theorems": [
    "srt_publisher_exact",
    "srt_publisher_cutting",
    "srt_publisher_outside_exactly",
    "srt_messages_to_player"
   ],
   "note": "Composes the SRT socket (C223), the reader and the demuxer (C236) and the relay (C128)."
  },
  {
   "property": "C240",
   "status": "proved",
   "theorems": [
    "flv_outside_exactly",
    "flv_outside_at_the_end",
    "flv_outside_depends_on_memory_refuted",
    "upload_outside_exactly"
   ],
   "note": "The bytes after the body in the buffer are existentially quantified (their number is exact); flv_outside_depends_on_memory_refuted shows that the outcome really depends on them."
  },
  {
   "property": "C241",
   "status": "proved",
   "theorems": [
    "conf_fate_exactly",
    "conf_fate_one",
    "conf_outside_line"
   ],
   "note": "Reading of the file up to the module tree; what the modules do afterwards with the tree (post_conf: hosts, upstreams) is C34, C35, C73 to C76."
  },
  {
   "property": "C242",
   "status": "proved",
   "theorems": [
    "http_outside_exactly",
    "url_library_schema",
    "formats_outside",
    "player_outside"
   ],
   "note": "Equivalence for whole connections. The URL library is only asked to find the schema http in a text that begins with http:/ (proved for the modelled one). What the body readers of the formats do is C236 and C240."
  },
  {
   "property": "C243",
   "status": "proved",
   "theorems": [
    "edge_fate_exactly",
    "edge_outside_exactly",
    "edge_formats"
   ],
   "note": "Relation proved equal to the model in both directions. Error codes of connections are taken to be nonzero."
  },
  {
   "property": "C244",
   "status": "proved",
   "theorems": [
    "requests_bounded_by_bytes",
    "http_connection_ends",
    "http_connection_fates",
    "flv_uploads_end"
   ],
   "note": "readers_end is the condition that readers of uploads do not exhaust their rounds; flv_uploads_end proves it for the FLV reader. The client side brings finitely many bytes and then an error."
  },
  {
   "property": "C245",
   "status": "proved",
   "theorems": [
    "upload_invents_nothing",
    "edge_invents_nothing",
    "made_payloads"
   ],
   "note": "Payload bytes only: codec fields of a tag too short for its prefix are C240. Runs that end in undefined behaviour are included as far as packets were published before."
  },
  {
   "property": "C246",
   "status": "proved",
   "theorems": [
    "rtmp_connect_final",
    "rtmp_connect_broken",
    "rtmp_publish_stepwise",
    "rtmp_publish_broken"
   ],
   "note": "A failure without an error code of the socket is C92. librtmp is outside /repo: its messages and failures are arbitrary inputs."
  },
  {
   "property": "C247",
   "status": "proved",
   "theorems": [
    "clock_milliseconds",
    "clock_follows",
    "dump_words",
    "dump_tells_bytes"
   ],
   "note": "The answer of gettimeofday is an input; char is signed as on x86.  When gettimeofday fails the clock is 0 (not part of the claim)."
  },
  {
   "property": "C248",
   "status": "proved",
   "theorems": [
    "rtp_decoding_times",
    "rtp_decoding_order",
    "rtp_decoding_clock",
    "rtp_sound_before_pictures"
   ],
   "note": "The clock reading of each call is an input of the model (C247 says what it is); its product with 90 is taken without overflow, which is right for the first three million years.  That sound and pictures are on different time lines is what the code does (its own comment says: fixme dts)."
  },
  {
   "property": "C249",
   "status": "proved",
   "theorems": [
    "rtp_sound_times",
    "rtp_sound_speed",
    "rtp_sound_starts_again",
    "rtp_sound_units_together"
   ],
   "note": "What the code does, which is not what RFC 3640 asks for: no rate is known to the decoder.  The sender specification has one unit to a packet; rtp_sound_units_together is about packets with several."
  },
  {
   "property": "C250",
   "status": "proved",
   "theorems": [
    "rtp_sound_in_flv"
   ],
   "note": "Units up to 8191 bytes, the limit of the 13 bits of their size; the reader has a buffer of at least 16 KiB."
  },
  {
   "property": "C251",
   "status": "proved",
   "theorems": [
    "parser_keeps",
    "parser_keeps_unique"
   ],
   "note": "No assumption about the library.  The member body is kept but read by nothing."
  },
  {
   "property": "C252",
   "status": "proved",
   "theorems": [
    "host_merge_joins",
    "host_merge_not_undone"
   ],
   "note": "Nothing in the server calls merge.  Names without NUL.  Tables are lists in the order of registration instead of std::map; the claim does not depend on the order."
  }
 ]
}