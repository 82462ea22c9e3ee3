{
 "claims": [
  {
   "property": "C01",
   "status": "proved",
   "theorems": [
    "C01_queue",
    "C01_fifo"
   ],
   "note": "Refinement of every safe history to a bounded byte queue; a copying getter whose allocation fails does consume (see C07_alloc_failure_refuted)."
  },
  {
   "property": "C02",
   "status": "proved",
   "theorems": [
    "C02_memory_safe",
    "C02_reset_small_limit_refuted"
   ],
   "note": "Holds for histories that keep the limit at or above 256 bytes or do not reset; the refuted theorem shows that restriction is needed."
  },
  {
   "property": "C03",
   "status": "proved",
   "theorems": [
    "C03_limit_exact"
   ],
   "note": ""
  },
  {
   "property": "C04",
   "status": "proved",
   "theorems": [
    "C04_no_fault",
    "C04_shared_memory",
    "C04_lifetime",
    "C04_no_leak"
   ],
   "note": "Up to 2^20-1 simultaneous direct views per buffer, the reference counter's own limit; histories are of any length."
  },
  {
   "property": "C05",
   "status": "proved",
   "theorems": [
    "C05_roundtrip",
    "C05_int_bytes",
    "C05_fits"
   ],
   "note": ""
  },
  {
   "property": "C06",
   "status": "proved",
   "theorems": [
    "C06_put_minimal",
    "C06_put_unique",
    "C06_get"
   ],
   "note": ""
  },
  {
   "property": "C07",
   "status": "proved",
   "theorems": [
    "C07_total",
    "C07_any_input",
    "C07_alloc_failure_refuted"
   ],
   "note": "Error paths are side-effect free except when the allocation of the returned copy fails."
  },
  {
   "property": "C08",
   "status": "proved",
   "theorems": [
    "C08_cstring"
   ],
   "note": ""
  },
  {
   "property": "C09",
   "status": "proved",
   "theorems": [
    "C09_unambiguous",
    "C09_userauth"
   ],
   "note": ""
  },
  {
   "property": "C10",
   "status": "proved",
   "theorems": [
    "C10_glob"
   ],
   "note": ""
  },
  {
   "property": "C11",
   "status": "proved",
   "theorems": [
    "C11_total",
    "C11_list",
    "C11_order",
    "C11_long",
    "C11_hostname"
   ],
   "note": "match_host_and_ip is covered with the address lists (C13)."
  },
  {
   "property": "C12",
   "status": "proved",
   "theorems": [
    "C12_masks",
    "C12_prefix",
    "C12_scope_refuted",
    "C12_entry"
   ],
   "note": "getaddrinfo is an arbitrary function returning well-formed addresses. IPv6 interface scopes are compared too; the refuted theorem shows why the statement says so."
  },
  {
   "property": "C13",
   "status": "proved",
   "theorems": [
    "C13_list",
    "C13_match_means",
    "C13_check",
    "C13_unparsed_address_refuted",
    "C13_cidr_list",
    "C13_cidr_characters_refuted",
    "C13_host_and_ip",
    "C13_user"
   ],
   "note": "The refuted theorems show two holes: an address that does not parse hides list errors, and a CIDR-only list entry with a forbidden character can still match."
  },
  {
   "property": "C14",
   "status": "proved",
   "theorems": [
    "C14_bitwise",
    "C14_families",
    "C14_last_address",
    "C14_increment",
    "C14_order",
    "C14_range"
   ],
   "note": ""
  },
  {
   "property": "C15",
   "status": "proved",
   "theorems": [
    "C15_choice",
    "C15_proper",
    "C15_long_server_list_refuted",
    "C15_next"
   ],
   "note": "Exact for up to 40 server names; longer server lists are cut at 40, shown by the refuted theorem."
  },
  {
   "property": "C16",
   "status": "proved",
   "theorems": [
    "C16_kexinit",
    "C16_agree",
    "C16_together",
    "C16_choice",
    "C16_succeeds",
    "C16_guess",
    "C16_strict",
    "C16_rekey"
   ],
   "note": "Algorithm tables are parameters. The MAC choice is compared for ends with equal tables; the server's list counts up to forty names (C15)."
  },
  {
   "property": "C17",
   "status": "proved",
   "theorems": [
    "C17_append",
    "C17_head",
    "C17_remove",
    "C17_supported",
    "C17_explicit"
   ],
   "note": ""
  },
  {
   "property": "C18",
   "status": "proved",
   "theorems": [
    "C18_stream",
    "C18_prefix",
    "C18_need",
    "C18_separation",
    "C18_both_ends"
   ],
   "note": "The hash is an arbitrary function with fixed output length."
  },
  {
   "property": "C19",
   "status": "proved",
   "theorems": [
    "C19_framing",
    "C19_padding_exists"
   ],
   "note": "Ciphers, MACs, compression and the random generator are parameters."
  },
  {
   "property": "C20",
   "status": "proved",
   "theorems": [
    "C20_delivery"
   ],
   "note": "For packets of up to 256 KiB, the receiver's limit; the sender's code does not enforce it. The cipher and compressor are parameters that must be inverse to each other; PacketToy.v shows instances."
  },
  {
   "property": "C21",
   "status": "proved",
   "theorems": [
    "C21_integrity",
    "C21_forged"
   ],
   "note": "Delivered messages are backed by pieces with a right tag under the position's sequence number; unforgeability of the MAC itself is not modelled."
  },
  {
   "property": "C22",
   "status": "proved",
   "theorems": [
    "C22_consecutive",
    "C22_unique_within",
    "C22_unique",
    "C22_demand",
    "C22_initial_wrap",
    "C22_norekey_refuted",
    "C22_handover_refuted"
   ],
   "note": "Key exchanges are assumed to produce different keys. Exceptions, shown by the refuted theorems: peers with the NOREKEY bug flag, and the hand-over between server processes, which restarts the hard 2^32 limit; C22_unique_within still bounds both."
  },
  {
   "property": "C23",
   "status": "proved",
   "theorems": [
    "C23_quiet",
    "C23_order",
    "C23_padding_refuted"
   ],
   "note": "The refuted theorem records that padding asked for a message that is held back is spent on another packet."
  },
  {
   "property": "C24",
   "status": "proved",
   "theorems": [
    "C24_exact",
    "C24_prefix",
    "C24_completes",
    "C24_send_restart",
    "C24_wrong_guess_refuted",
    "C24_stray_newkeys_refuted"
   ],
   "note": "Message contents are summarised by what their handlers conclude. Two exceptions are recorded as refuted theorems: a message after a wrong guess is thrown away unseen, and a stray NEWKEYS after the first exchange restarts the receive sequence number."
  },
  {
   "property": "C25",
   "status": "proved",
   "theorems": [
    "C25_sender",
    "C25_receiver",
    "C25_accept",
    "C25_pair",
    "C25_overrun_refuted",
    "C25_ext_credit_refuted"
   ],
   "note": "Proved with the code's real limit (the sender keeps to the advertised window; the receiver tolerates a 10 percent overrun). The refuted theorems record that tolerance and that stderr data nobody can use is never credited back."
  },
  {
   "property": "C26",
   "status": "proved",
   "theorems": [
    "C26_prefix",
    "C26_complete"
   ],
   "note": "One channel between two modelled ends over a reliable transport (C20)."
  },
  {
   "property": "C27",
   "status": "proved",
   "theorems": [
    "C27_trace",
    "C27_release",
    "C27_progress",
    "C27_exteof_refuted"
   ],
   "note": "Progress excludes peers with the EXTEOF bug flag after a write failure; the refuted theorem shows the stuck channel."
  },
  {
   "property": "C28",
   "status": "proved",
   "theorems": [
    "C28_history",
    "C28_history_listen",
    "C28_direct_tcpip",
    "C28_direct_path",
    "C28_tcpip_forward",
    "C28_client",
    "C28_client_path",
    "C28_client_dynamic",
    "C28_mux_gone",
    "C28_cancel",
    "C28_listen_path_refuted",
    "C28_validated_refuted"
   ],
   "note": "Exact for connections and TCP listeners, for every order of rule changes and for every server configuration. Refuted: PermitListen does not restrict socket paths, and a permitlisten text with '/' passes validation but ends the session."
  },
  {
   "property": "C29",
   "status": "proved",
   "theorems": [
    "C29_multi",
    "C29_single",
    "C29_checks"
   ],
   "note": "Success is reported exactly if the completed methods contain, in order, all steps of one configured list whose methods are enabled (any history); a method is completed only by a message whose check passed, for a valid user and as PermitRootLogin allows. Check outcomes are arbitrary inputs; PAM account check, banner and delays not modelled."
  },
  {
   "property": "C30",
   "status": "proved",
   "theorems": [
    "C30_failures",
    "C30_refusals",
    "C30_requests",
    "C30_user",
    "C30_change_ends",
    "C30_none_free",
    "C30_gss_refuted"
   ],
   "note": "At most MaxAuthTries counted failures, every refused password/key/keyboard-interactive answer counts, at most 1024 answered requests, user and service fixed. Finding: a failed GSSAPI MIC check can stay uncounted after a request with a server-caused failure."
  },
  {
   "property": "C31",
   "status": "proved",
   "theorems": [
    "C31_order",
    "C31_once",
    "C31_needs",
    "C31_completed",
    "C31_success",
    "C31_failures",
    "C31_postauth",
    "C31_once_all_refuted",
    "C31_mic_not_required"
   ],
   "note": "Requests are answered only when open (defined over the history, not the table); the set-up requests at most once; success only through a passed check with all required methods. Refuted as literally stated for the PAM conversation requests, which are marked once-only but enabled again. Finding: the GSSAPI MIC check is not needed for success in the monitor. Outcomes of passwords, keys, PAM and GSSAPI are arbitrary inputs."
  },
  {
   "property": "C32",
   "status": "proved",
   "theorems": [
    "C32_approved",
    "C32_used_up",
    "C32_distinct",
    "C32_inner_key_not_compared"
   ],
   "note": "Includes the session id, user and client host bound into the signed data. Finding: the key named inside the signed data is not compared with the approved one."
  },
  {
   "property": "C33",
   "status": "proved",
   "theorems": [
    "C33_rights",
    "C33_command",
    "C33_verify",
    "C33_expiry",
    "C33_lists",
    "C33_login",
    "C33_restrict",
    "C33_expiry_refuted",
    "C33_open_refuted"
   ],
   "note": "Rights, commands, verification for every pair and for every sequence of activations. Findings (refuted as literally worded): an expiry of the second side alone is dropped; destination lists are replaced, not intersected."
  },
  {
   "property": "C34",
   "status": "proved",
   "theorems": [
    "C34_round_trip",
    "C34_parsed",
    "C34_certificate",
    "C34_merged"
   ],
   "note": "Round trip for every storable set with any suffix; every set built by the parsers and by merging is storable. Allocation failure not modelled."
  },
  {
   "property": "C35",
   "status": "proved",
   "theorems": [
    "C35_parse",
    "C35_last_decides",
    "C35_restrict",
    "C35_boundary",
    "C35_empty_refuted"
   ],
   "note": "Exact: a line is accepted iff it reads as a list of items whose effects apply in order. Service names and dates are oracles. Finding: an empty option is accepted."
  },
  {
   "property": "C36",
   "status": "proved",
   "theorems": [
    "C36_scope",
    "C36_now",
    "C36_host",
    "C36_boundary"
   ],
   "note": "Exact for user and host certificates."
  },
  {
   "property": "C37",
   "status": "proved",
   "theorems": [
    "C37_any_tree_shape",
    "C37_set_semantics"
   ],
   "note": "For every shape the red-black tree may have (the entry a search meets is a parameter of each insertion), and through the interface for any CAs."
  },
  {
   "property": "C38",
   "status": "proved",
   "theorems": [
    "C38_same_answers",
    "C38_reader_ends",
    "C38_round_trip_refuted"
   ],
   "note": "Same answers for every query whenever the written list can be read; unreadable only if one CA has serials 16384 or more apart. Finding: bitmaps above 2048 bytes are written but refused by the reader. sshkey_from_blob is an oracle that must recover the CA keys; allocation failure not modelled."
  },
  {
   "property": "C39",
   "status": "proved",
   "theorems": [
    "C39_histories",
    "C39_round_trip",
    "C39_top_bit_refuted"
   ],
   "note": "Every history, any allocator behaviour. Finding: bit 2^24 can be set and written but not read back."
  },
  {
   "property": "C40",
   "status": "proved",
   "theorems": [
    "C40_any_criterion",
    "C40_revoked_iff",
    "C40_monotone"
   ],
   "note": "Fingerprints and key blobs are given with the key."
  },
  {
   "property": "C41",
   "status": "proved",
   "theorems": [
    "C41_locked",
    "C41_unlock"
   ],
   "note": "Whole-agent histories over any number of connections. bcrypt_pbkdf is an arbitrary function; the hypothesis is that no tried passphrase has the same hash."
  },
  {
   "property": "C42",
   "status": "proved",
   "theorems": [
    "C42_sign",
    "C42_kept",
    "C42_recorded",
    "C42_empty_list_refuted"
   ],
   "note": "Byte-level requests. Finding: a restriction with an empty list of destinations is accepted and restricts nothing. Key parsing, signatures and certificate validity are arbitrary functions."
  },
  {
   "property": "C43",
   "status": "proved",
   "theorems": [
    "C43_bindings",
    "C43_append_only",
    "C43_truthful",
    "C43_long_sid_refuted",
    "C43_flag_refuted"
   ],
   "note": "The success clause holds for session ids up to 128 bytes; the refuted theorems show that a longer one is answered with success without any check, and that the forwarding flag of an existing binding is not compared."
  },
  {
   "property": "C44",
   "status": "proved",
   "theorems": [
    "C44_sweep",
    "C44_gone",
    "C44_lifetime"
   ],
   "note": "A key that expired between two sweeps is still usable until the next sweep; the main loop sweeps before it serves requests."
  },
  {
   "property": "C45",
   "status": "proved",
   "theorems": [
    "C45_verdict",
    "C45_found",
    "C45_by_type",
    "C45_tab_marker_refuted",
    "C45_stale_line_refuted",
    "C45_unterminated_read_refuted"
   ],
   "note": "Exact verdict over any files of newline-terminated text lines. Findings: a tab after @revoked with a later space makes the line ignored; a last line without newline holding only a host name reads past its terminator (stale key of an earlier line accepted, or out-of-bounds read)."
  },
  {
   "property": "C46",
   "status": "proved",
   "theorems": [
    "C46_handles",
    "C46_live"
   ],
   "note": "Every byte stream in any pieces, every operating-system answer; below 2^31 live handles (their numbers are C ints). The message during which the server stops is not covered."
  },
  {
   "property": "C47",
   "status": "proved",
   "theorems": [
    "C47_read_only",
    "C47_refused"
   ],
   "note": "All requests, including those during which the server stops."
  },
  {
   "property": "C48",
   "status": "proved",
   "theorems": [
    "C48_download",
    "C48_partial_file",
    "C48_no_exit",
    "C48_outstanding",
    "C48_reasons",
    "C48_truncate_refuted",
    "C48_hole_refuted"
   ],
   "note": "Success means a copy for every honest server and schedule. Findings: an in-place download whose final truncation fails still reports success with the old tail; after two failed writes with replies out of order the remaining file can have a hole, which a later resume keeps."
  },
  {
   "property": "C49",
   "status": "proved",
   "theorems": [
    "C49_scalar",
    "C49_vector",
    "C49_exact",
    "C49_exact_vector",
    "C49_written",
    "C49_stored",
    "C49_completes",
    "C49_too_many",
    "C49_error_hides_progress_refuted",
    "C49_empty_first_refuted"
   ],
   "note": "Every schedule of kernel answers. Findings: a hard error after partial progress returns 0, so the progress is not reported; a vector whose first entry is empty is not sent at all."
  },
  {
   "property": "C50",
   "status": "proved",
   "theorems": [
    "C50_number",
    "C50_port",
    "C50_time",
    "C50_time_unique",
    "C50_tun",
    "C50_url",
    "C50_url_nul_refuted",
    "C50_pattern_interval",
    "C50_atoi"
   ],
   "note": "An encoded NUL truncates a percent-decoded text, shown by the refuted theorem."
  },
  {
   "property": "C51",
   "status": "proved",
   "theorems": [
    "C51_split",
    "C51_assembled",
    "C51_roundtrip",
    "C51_empty_argument_refuted",
    "C51_comment_refuted"
   ],
   "note": "Proved for vectors of non-empty arguments; C51_assembled gives the exact result for every vector, and the refuted theorems show that empty arguments and '#' arguments do not survive."
  },
  {
   "property": "C52",
   "status": "proved",
   "theorems": [
    "C52_answers",
    "C52_tables",
    "C52_causes",
    "C52_owes",
    "C52_eviction",
    "C52_connections",
    "C52_room_refuted",
    "C52_max_refuted"
   ],
   "note": "Findings: when the tables overflow an active penalty is forgotten (permissive) or everybody is refused (deny-all), and a first penalty larger than the configured maximum is not cut down to it; both are stated as refutations beside the theorems that hold. Clock assumed monotonic; red-black trees as ordered lists with the code's comparators."
  },
  {
   "property": "C53",
   "status": "proved",
   "theorems": [
    "C53_poly1305",
    "C53_tag_unique",
    "C53_chacha20",
    "C53_chacha20_continues",
    "C53_chacha20_inverse",
    "C53_key_length",
    "C53_seal",
    "C53_open",
    "C53_length",
    "C53_roundtrip"
   ],
   "note": "Word-level models of poly1305.c, chacha.c and cipher-chachapoly.c against RFC 8439 arithmetic on unbounded integers and the packet format of PROTOCOL.chacha20poly1305, for every key, sequence number, length and history of the context. The sum of header and payload lengths is assumed below 2^32 (it is computed in u_int)."
  },
  {
   "property": "C54",
   "status": "proved",
   "theorems": [
    "C54_encode",
    "C54_decode",
    "C54_injective",
    "C54_round_trip",
    "C54_strict",
    "C54_stray",
    "C54_url",
    "C54_url_wrapped_refuted"
   ],
   "note": "The bundled implementation (openbsd-compat); isspace is that of the C locale; texts below 4 GB. Finding: the URL-safe form keeps the padding when wrapping is asked for (no caller does)."
  },
  {
   "property": "C55",
   "status": "proved",
   "theorems": [
    "C55_rendering",
    "C55_codesets",
    "C55_output",
    "C55_exact",
    "C55_complete",
    "C55_dangerous",
    "C55_failure",
    "C55_unformatted",
    "C55_readable",
    "C55_utf8",
    "C55_snmprintf",
    "C55_fmprintf",
    "C55_overflow_refuted"
   ],
   "note": "For texts with 4 times their length below 2^31 and every decoder that consumes between 1 and 16 bytes inside the string. Finding: the count returned is an int and overflows for half a gigabyte of unprintable bytes. vasprintf and stdio are outside the model."
  },
  {
   "property": "C56",
   "status": "proved",
   "theorems": [
    "C56_before",
    "C56_after"
   ],
   "note": "Before and after authentication; the count (one signature before authentication) is C31_once."
  },
  {
   "property": "C57",
   "status": "proved",
   "theorems": [
    "C57_file",
    "C57_principals",
    "C57_login",
    "C57_certificate",
    "C57_names",
    "C57_comma_refuted",
    "C57_no_principals_refuted",
    "C57_forty_refuted"
   ],
   "note": "Exact for every configuration; reading a key off a line, address/date/service parsing and revocation lookup are oracles. Findings: certificate principals are split at commas against principals=; a certificate without principals passes a cert-authority entry; only 40 names count."
  },
  {
   "property": "C58",
   "status": "proved",
   "theorems": [
    "C58_options",
    "C58_meaning"
   ],
   "note": "Exact on every byte string in the certificate's option sections."
  },
  {
   "property": "C59",
   "status": "proved",
   "theorems": [
    "C59_load",
    "C59_recorded"
   ],
   "note": "Pattern lists with patterns below 1023 bytes, as in C11."
  },
  {
   "property": "C60",
   "status": "proved",
   "theorems": [
    "C60_web_origin"
   ],
   "note": "Pattern lists with patterns below 1023 bytes, as in C11."
  },
  {
   "property": "C61",
   "status": "proved",
   "theorems": [
    "C61_recorded",
    "C61_confirmed"
   ],
   "note": "The user's answer is an oracle of each request."
  },
  {
   "property": "C62",
   "status": "proved",
   "theorems": [
    "C62_unique",
    "C62_remove",
    "C62_list",
    "C62_parsers_end"
   ],
   "note": "The list theorem asks that all keys fit in one message."
  },
  {
   "property": "C63",
   "status": "proved",
   "theorems": [
    "C63_accepted",
    "C63_strict",
    "C63_revoked",
    "C63_changed",
    "C63_address",
    "C63_recorded",
    "C63_options",
    "C63_complete",
    "C63_ends",
    "C63_crash",
    "C63_connection",
    "C63_dns",
    "C63_revocation_file",
    "C63_files",
    "C63_crash_refuted",
    "C63_recorded_refused_refuted",
    "C63_other_port_revoked_refuted",
    "C63_address_revoked_refuted"
   ],
   "note": "Names, addresses, files, fingerprints, DNS answers and certificate validity are oracles of the environment; files are tied to C45 by C63_files. Findings: the client reads a null pointer when the host has another key and the shown key is revoked for the address; a refused key may have been recorded already; a key revoked under the bare name is new on another port; a revocation for the address alone is not honoured; DNS records that match and are validated bypass @revoked and HostKeyAlgorithms."
  },
  {
   "property": "C64",
   "status": "proved",
   "theorems": [
    "C64_crash",
    "C64_contents",
    "C64_append",
    "C64_short_write_refuted"
   ],
   "note": "All crash states and contents of hostfile_replace_entries; add_host_to_hostfile. Finding: write errors on the temporary file are not checked, so a full disk truncates the file (the backup keeps the old contents)."
  },
  {
   "property": "C65",
   "status": "proved",
   "theorems": [
    "C65_refused",
    "C65_allowed",
    "C65_announced",
    "C65_long_list_refuted",
    "C65_empty_entry_refuted"
   ],
   "note": "For lists of at most 40 non-empty names. Findings: a deny list is not read past its 40th name, nor past an empty name."
  },
  {
   "property": "C66",
   "status": "proved",
   "theorems": [
    "C66_replies",
    "C66_in_order",
    "C66_init_first",
    "C66_unknown_refuted"
   ],
   "note": "Finding: a request of unknown type gets no reply at all (the protocol wants SSH_FX_OP_UNSUPPORTED)."
  },
  {
   "property": "C67",
   "status": "proved",
   "theorems": [
    "C67_transfer"
   ],
   "note": ""
  },
  {
   "property": "C68",
   "status": "proved",
   "theorems": [
    "C68_rename"
   ],
   "note": "Replacing rename is still used when looking up the target failed for any reason (see the statement: the lookup returned -1)."
  },
  {
   "property": "C69",
   "status": "proved",
   "theorems": [
    "C69_copy",
    "C69_write_failure_refuted",
    "C69_short_source_refuted"
   ],
   "note": "Findings: when the last chunk cannot be written, or the source is shorter than the amount asked for, success is reported all the same."
  },
  {
   "property": "C70",
   "status": "proved",
   "theorems": [
    "C70_document",
    "C70_only_documents",
    "C70_critical"
   ],
   "note": "Signature sections are skipped without being verified, as in the source; the reader of CA keys is a parameter."
  },
  {
   "property": "C71",
   "status": "proved",
   "theorems": [
    "C71_upload",
    "C71_beginning",
    "C71_no_exit",
    "C71_outstanding",
    "C71_last_error",
    "C71_reasons",
    "C71_lost_error_refuted",
    "C71_interrupt_refuted",
    "C71_truncate_refuted"
   ],
   "note": "Findings: only the status of the last reply counts, so an error for an earlier piece is forgotten and success is reported for a file with a hole; an interrupted upload returns success; a refused truncation in place is ignored."
  },
  {
   "property": "C72",
   "status": "proved",
   "theorems": [
    "C72_syslog",
    "C72_reads",
    "C72_line_exact",
    "C72_handler",
    "C72_unambiguous",
    "C72_short",
    "C72_level",
    "C72_stderr",
    "C72_strnvis",
    "C72_scp_name",
    "C72_strnvis_one_byte_refuted",
    "C72_stderr_unended_refuted"
   ],
   "note": "Findings: strnvis with a one-byte buffer reports 0 instead of the size needed; a line on standard error with a program name can lose its line end; syslog lines are cut at 500 bytes, possibly inside an escape."
  },
  {
   "property": "C73",
   "status": "proved",
   "theorems": [
    "C73_line",
    "C73_comment",
    "C73_start",
    "C73_frozen",
    "C73_reading",
    "C73_value",
    "C73_last",
    "C73_text",
    "C73_list",
    "C73_defaults",
    "C73_where",
    "C73_first_value_refuted",
    "C73_accepted_at_start_refuted",
    "C73_subsystem_refuted"
   ],
   "note": "Globbing, files, name services, group membership, tilde expansion and validity of algorithm lists are oracles of the machine. Findings: IPQoS and StreamLocalBindMask take the last value, not the first; UnusedConnectionTimeout none overrides an earlier value; a glob Include that includes itself is accepted at start and refused for every connection; Subsystem in a Match block drops the other subsystems or reads outside the array; none in a Match block is not honoured for Banner and three other files; a quotation mark joined to a keyword makes the line silently ignored."
  },
  {
   "property": "C74",
   "status": "proved",
   "theorems": [
    "C74_decision",
    "C74_named_refuted"
   ],
   "note": "On top of C73: the settings are those computed for the user and the connection. Account, lock state, shell and groups are facts of the machine. Patterns with a list entry of 1023 bytes or more are excluded (hypothesis short; see C11_long). Finding: a user whose name contains an at sign cannot be named in DenyUsers or AllowUsers."
  },
  {
   "property": "C75",
   "status": "proved",
   "theorems": [
    "C75_confined",
    "C75_requested",
    "C75_modes",
    "C75_reported",
    "C75_total",
    "C75_copy",
    "C75_copy_as",
    "C75_braces_refuted",
    "C75_plain_modes_refuted",
    "C75_times_refuted",
    "C75_stale_times_refuted",
    "C75_directories_refuted",
    "C75_cut_short_refuted"
   ],
   "note": "The legacy protocol (-O). Paths are compared as text; symbolic links are facts of the system. Findings: a brace alternative that is empty at the end refuses the files asked for; set-user-ID bits and times sent are honoured without -p; times of a file that failed go to the next one; failing chmod or utimes of a directory is not reported; a stream that ends inside a directory counts as success."
  },
  {
   "property": "C76",
   "status": "proved",
   "theorems": [
    "C76_verified",
    "C76_bound",
    "C76_one_purpose",
    "C76_malleable",
    "C76_armor",
    "C76_round_trip",
    "C76_options",
    "C76_line",
    "C76_allowed",
    "C76_verify",
    "C76_found",
    "C76_not_found",
    "C76_found_verifies",
    "C76_matched",
    "C76_find_negated_refuted",
    "C76_critical_refuted"
   ],
   "note": "Key parsing, signature verification, digests, parse_absolute_time and the revocation check are parameters. Findings: version and reserved field are not covered by the signature, so another valid file can be made from any (C76_malleable); find-principals ignores negated patterns, so it names identities that verify refuses; critical options of a signer's certificate are not looked at; valid-before is inclusive; text after the footer is ignored."
  },
  {
   "property": "C77",
   "status": "proved",
   "theorems": [
    "C77_accepts",
    "C77_signed",
    "C77_issued",
    "C77_certify",
    "C77_certify_round_trip",
    "C77_round_trip",
    "C77_rewrite",
    "C77_read",
    "C77_text",
    "C77_unique_refuted"
   ],
   "note": "sshkey_verify, the signer and the point checks are parameters; DSA and XMSS are compiled out. Finding: the byte form is not unique (an RSA key is also accepted under the names of signature algorithms, names may end in NUL, integers may have zeros in front), so equal keys can have different blobs."
  },
  {
   "property": "C78",
   "status": "proved",
   "theorems": [
    "C78_accepts",
    "C78_unique",
    "C78_public",
    "C78_wrong",
    "C78_round_trip",
    "C78_protected",
    "C78_section",
    "C78_section_round_trip",
    "C78_secret_refuted",
    "C78_group_refuted"
   ],
   "note": "bcrypt_pbkdf, the ciphers other than none, and the libcrypto checks of secrets are parameters; PEM files and in-memory shielding are not modelled. Findings: that an Ed25519 secret belongs to its public key is never checked; the type name in front of a certificate need not be that of its curve (the test in sshkey_private_deserialize looks for the plain type and never fires)."
  },
  {
   "property": "C79",
   "status": "proved",
   "theorems": [
    "C79_hash",
    "C79_hash_gex",
    "C79_transcript",
    "C79_opening",
    "C79_accepts",
    "C79_accepts_gex",
    "C79_authentic",
    "C79_authentic_gex",
    "C79_completes",
    "C79_completes_gex",
    "C79_dh_value",
    "C79_dh_own",
    "C79_x25519",
    "C79_hybrid",
    "C79_group_size",
    "C79_choice",
    "C79_no_group",
    "C79_hash_gex_refuted",
    "C79_choice_refuted",
    "C79_fallback_refuted",
    "C79_silent_refuted"
   ],
   "note": "Hash, signature, curve and KEM functions and the application's host key check are parameters; modular exponentiation is written out. Unforgeability is a hypothesis about the signatures on this very hash; a collision, if any, is exhibited by the two runs. Findings: without a moduli file, or when it changes, the fixed group can lie outside the requested bounds; when no group fits the monitor does not send its answer; a maximum of 2^32-1 is left out of the hash; in an unordered moduli file a group of exactly the wanted size can be passed over."
  },
  {
   "property": "C80",
   "status": "proved",
   "theorems": [
    "C80_opens",
    "C80_delivered",
    "C80_segmentation",
    "C80_refused",
    "C80_bounded",
    "C80_unambiguous",
    "C80_address",
    "C80_remote",
    "C80_remote_delivered",
    "C80_remote_window",
    "C80_told_early_refuted",
    "C80_nul_refuted",
    "C80_mixed_refuted"
   ],
   "note": "inet_ntop for IPv6 and the outcome of connecting are parameters; the rest of the opening of the channel is C25-C28. Findings: the client is told of success before the server has been asked; a SOCKS5 name is cut at a NUL instead of being refused; after a SOCKS5 greeting a SOCKS4 request is served."
  },
  {
   "property": "C81",
   "status": "proved",
   "theorems": [
    "C81_keysign",
    "C81_client",
    "C81_file",
    "C81_lines",
    "C81_lines_unique",
    "C81_rhosts",
    "C81_named",
    "C81_accepts",
    "C81_honest",
    "C81_trailing",
    "C81_comment_refuted",
    "C81_negative_refuted",
    "C81_name_refuted"
   ],
   "note": "innetgr, revocation, certificate scope, known-hosts status and signature verification are parameters; files do not change during a decision. C81_honest assumes that what verifies under the request's key was signed by ssh-keysign."
  },
  {
   "property": "C82",
   "status": "proved",
   "theorems": [
    "C82_display",
    "C82_segments",
    "C82_refused",
    "C82_order",
    "C82_deadline",
    "C82_first",
    "C82_session",
    "C82_kept",
    "C82_secret",
    "C82_one_display",
    "C82_length_refuted"
   ],
   "note": "sscanf of two digits is a parameter, random data an argument that fills what it is asked to; monotime is given with each segment; windows and the shutdown of channels are C26 and following. C82_secret assumes that no cookie is unreadable (fatal)."
  },
  {
   "property": "C83",
   "status": "proved",
   "theorems": [
    "C83_applied",
    "C83_fatal",
    "C83_trip",
    "C83_none",
    "C83_size_refuted",
    "C83_255_refuted"
   ],
   "note": "ttymodes.h as expanded on a system, the masks, speed constants and _POSIX_VDISABLE are a parameter (platform); failures of cfsetispeed and tcsetattr are not modelled."
  },
  {
   "property": "C84",
   "status": "proved",
   "theorems": [
    "C84_exact",
    "C84_one_reading",
    "C84_values",
    "C84_doubled",
    "C84_verbatim",
    "C84_plain"
   ],
   "note": "getenv is a parameter; strings longer than a buffer may be (fatal) are not modelled; what a shell later makes of the result is outside the model."
  },
  {
   "property": "C85",
   "status": "proved",
   "theorems": [
    "C85_exact",
    "C85_no_path",
    "C85_kept",
    "C85_above_home_refuted"
   ],
   "note": "Paths are canonical (after realpath), so symbolic links and dirname on text are not modelled; platform_sys_dir_uid is a parameter; what users may do follows from owner, group and mode bits (access lists are not modelled)."
  },
  {
   "property": "C86",
   "status": "proved",
   "theorems": [
    "C86_exact",
    "C86_agree",
    "C86_one_reading",
    "C86_later",
    "C86_server",
    "C86_many",
    "C86_bad",
    "C86_refused",
    "C86_bound_refuted"
   ],
   "note": "sscanf of the string and the probe patterns of compat.c are parameters; C86_agree assumes that sscanf reads SSH-2.0-x as 2, 0, x. Timeouts and failing reads and writes are not modelled: in the code the login grace time or the connect timeout ends the reading that C86_bound_refuted shows to be unbounded."
  }
 ]
}