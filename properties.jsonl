{"id": "C01", "title": "sshbuf behaves as a bounded byte queue", "statement": "After any sequence of buffer calls (put, get, reserve, consume, consume_end, reset, set_max_size), the readable contents of the buffer are exactly the bytes appended and not yet consumed, in order; a call that reports an error leaves the readable contents unchanged (except that a copying getter whose result cannot be allocated has already consumed it).", "quantifier": "every finite sequence of buffer API calls with every argument, starting from a new buffer", "why_tests_cant": "packing, over-allocation and offset arithmetic depend on the whole history of calls; tests visit a handful of histories", "anchors": ["sshbuf.c:sshbuf_reserve", "sshbuf.c:sshbuf_consume", "sshbuf.c:sshbuf_consume_end", "sshbuf.c:sshbuf_set_max_size", "sshbuf.c:sshbuf_maybe_pack", "sshbuf.c:sshbuf_allocate", "sshbuf.c:sshbuf_reset", "sshbuf-getput-basic.c:sshbuf_put"]}
{"id": "C02", "title": "sshbuf never touches memory outside its allocation", "statement": "In every history of buffer calls that never sets a size limit below the initial allocation of 256 bytes (or never resets the buffer), each byte range read, written, moved or zeroed lies inside the allocation that is live at that moment and the consistency check never fails, so no size computation wraps into an undersized allocation. Outside that condition the claim is false: a reset under a smaller limit makes the next call abort.", "quantifier": "every finite sequence of buffer API calls with every size argument up to SIZE_MAX", "why_tests_cant": "an out-of-range access needs one specific combination of offset, size and allocation; absence has to be an invariant", "anchors": ["sshbuf.c:sshbuf_check_sanity", "sshbuf.c:sshbuf_allocate", "sshbuf.c:sshbuf_maybe_pack", "sshbuf.c:sshbuf_set_max_size"]}
{"id": "C03", "title": "sshbuf honours its size limit exactly", "statement": "An append or reserve of n bytes on a writable, unshared buffer succeeds if and only if the resulting length does not exceed the configured maximum, and the length never exceeds the maximum at any time; the reported available space is exactly the largest n that would be accepted.", "quantifier": "all buffer states reachable from a new buffer, all n, all configured maxima up to the hard maximum", "why_tests_cant": "the limit must hold at every state, in particular at the boundary with a non-zero read offset", "anchors": ["sshbuf.c:sshbuf_check_reserve", "sshbuf.c:sshbuf_avail", "sshbuf.c:sshbuf_reserve", "sshbuf.c:sshbuf_set_max_size"]}
{"id": "C04", "title": "Derived buffers keep the shared memory alive", "statement": "While any buffer derived from another (a slice parsed out of it or a duplicate view) has not been freed, the underlying memory is not freed and is not modified through the parent; memory is freed exactly once, when the last owner goes away, in whatever order they are freed.", "quantifier": "every interleaving of creating views, nesting them, parsing from them and freeing any of them in any order", "why_tests_cant": "use-after-free depends on the order of frees; the orders are unbounded", "anchors": ["sshbuf.c:sshbuf_fromb", "sshbuf.c:sshbuf_set_parent", "sshbuf.c:sshbuf_free", "sshbuf-getput-basic.c:sshbuf_froms"]}
{"id": "C05", "title": "Wire values survive encoding and decoding", "statement": "For each wire type (u8, u16, u32, u64, length-prefixed string, C string), decoding what was encoded returns the original value and leaves exactly the bytes that followed it, whatever those are.", "quantifier": "every value of each type and every trailing byte sequence", "why_tests_cant": "2^64 integers and unboundedly many strings and suffixes", "anchors": ["sshbuf-getput-basic.c:sshbuf_put_u32", "sshbuf-getput-basic.c:sshbuf_get_u32", "sshbuf-getput-basic.c:sshbuf_put_string", "sshbuf-getput-basic.c:sshbuf_get_string_direct", "sshbuf-getput-basic.c:sshbuf_get_cstring"]}
{"id": "C06", "title": "Multiprecision integers have one canonical encoding", "statement": "Encoding any byte string as an mpint yields the minimal non-negative two's-complement form; decoding returns the magnitude without leading zeros; equal magnitudes encode identically; encodings of negative or over-long numbers are refused.", "quantifier": "every byte string, including those with leading zeros and with the top bit set", "why_tests_cant": "edge cases sit at every length; canonical form is a for-all statement", "anchors": ["sshbuf-getput-basic.c:sshbuf_put_bignum2_bytes", "sshbuf-getput-basic.c:sshbuf_get_bignum2_bytes_direct"]}
{"id": "C07", "title": "Decoders are total and fail without side effects", "statement": "On every byte sequence each wire decoder either returns a value that stands at the front of the input (for big integers up to leading zeros) and consumes exactly that prefix, or reports an error and leaves the buffer as it was; it never reads beyond the available bytes and no declared length can wrap. The one exception is failure to allocate the returned copy, which consumes the input.", "quantifier": "every byte sequence (hostile lengths included)", "why_tests_cant": "the input space is all byte strings; fuzzing samples it", "anchors": ["sshbuf-getput-basic.c:sshbuf_peek_string_direct", "sshbuf-getput-basic.c:sshbuf_get_string_direct", "sshbuf-getput-basic.c:sshbuf_get_u64", "sshbuf-getput-basic.c:check_offset"]}
{"id": "C08", "title": "Decoded C strings contain no hidden NUL", "statement": "A string returned by the C-string decoder contains no NUL byte, so its C length is its wire length (one trailing NUL on the wire excepted and dropped); every string with a NUL elsewhere is refused.", "quantifier": "every byte sequence", "why_tests_cant": "NUL injection can sit at any position", "anchors": ["sshbuf-getput-basic.c:sshbuf_get_cstring"]}
{"id": "C09", "title": "Field sequences are encoded unambiguously", "statement": "Two different sequences of wire fields of the same types never have the same encoding, so data signed as a concatenation of fields (for instance a public-key authentication request) has one reading.", "quantifier": "every pair of field sequences of the same shape", "why_tests_cant": "collision freedom is a statement about all pairs", "anchors": ["sshbuf-getput-basic.c:sshbuf_put_string", "sshconnect2.c:sign_and_send_pubkey", "auth2-pubkey.c:userauth_pubkey"]}
{"id": "C10", "title": "Wildcard matching is exactly glob semantics", "statement": "A string matches a pattern if and only if the pattern's literal characters, '?' (any one character) and '*' (any sequence) can be lined up with it.", "quantifier": "every string and every pattern of any length", "why_tests_cant": "the recursive matcher backtracks; agreement with the declarative meaning is for all pairs", "anchors": ["match.c:match_pattern"]}
{"id": "C11", "title": "Negated patterns always win in pattern lists", "statement": "Matching a name against a comma-separated pattern list returns 'denied' if any negated pattern matches, 'match' if no negated pattern matches and some positive one does, and 'no match' otherwise, independent of the order of the list; lists with an over-long pattern are never reported as a match after that pattern.", "quantifier": "every name and every pattern list", "why_tests_cant": "a permissive answer in one ordering would be an access-control hole; orderings are unbounded", "anchors": ["match.c:match_pattern_list", "match.c:match_hostname", "match.c:match_host_and_ip"]}
{"id": "C12", "title": "CIDR matching is prefix equality", "statement": "An address matches an address/prefix-length entry if and only if both are of the same family, their leading prefix-length bits are equal and (IPv6 only) their interface scopes are equal; masks are computed for every prefix length, and an entry with host bits set or too many bits is refused.", "quantifier": "all IPv4 and IPv6 addresses and all prefix lengths", "why_tests_cant": "2^128 addresses by 129 prefix lengths", "anchors": ["addr.c:addr_netmask", "addr.c:addr_and", "addr.c:addr_cmp", "addr.c:addr_netmatch", "addr.c:addr_host_is_all0s", "addr.c:addr_pton_cidr"]}
{"id": "C13", "title": "Address lists: malformed entries and negation", "statement": "Matching an address against an address list returns 'match' only if some entry matches, no negated entry does and every entry is valid; a list with an invalid entry is reported as an error whenever the address parses and no earlier negated entry has already denied it, and always when a list is checked on its own. The combined host-and-address matcher and USER@HOST patterns follow the same rule. CIDR-only lists reject any bad entry as long as its characters are permitted ones.", "quantifier": "every address and every comma-separated list", "why_tests_cant": "the list and its error positions are unbounded", "anchors": ["addrmatch.c:addr_match_list", "addrmatch.c:addr_match_cidr_list"]}
{"id": "C14", "title": "Host-bits arithmetic on addresses", "statement": "Incrementing an address adds one modulo the address space and range enumeration visits each address of the network exactly once, in order; OR/AND/NOT act bitwise on the address read as an integer; comparison is the integer order.", "quantifier": "all addresses of both families", "why_tests_cant": "carry chains over 128 bits", "anchors": ["addr.c:addr_increment", "addr.c:addr_invert", "addr.c:addr_or", "addr.c:addr_hostmask"]}
{"id": "C15", "title": "Algorithm negotiation follows the client's preference", "statement": "For every pair of name lists, the negotiated algorithm is the first name of the client's list that also occurs in the server's list; if there is none, negotiation fails.", "quantifier": "every pair of proposal lists", "why_tests_cant": "all pairs of lists of arbitrary length", "anchors": ["match.c:match_list", "kex.c:choose_enc", "kex.c:choose_mac", "kex.c:choose_kex", "kex.c:choose_hostkeyalg"]}
{"id": "C16", "title": "Both ends negotiate the same algorithms", "statement": "When client and server exchange proposals, either both ends fail or both select the same key exchange, host key, cipher, MAC and compression in each direction, and both agree on whether a guessed packet has to be ignored.", "quantifier": "every pair of proposals and first-packet-follows flags", "why_tests_cant": "agreement of two programs over all inputs", "anchors": ["kex.c:kex_choose_conf", "kex.c:proposals_match"]}
{"id": "C17", "title": "Algorithm list editing (+, -, ^) has set semantics", "statement": "A '+list' edit yields the defaults followed by the new names without duplicates, '^list' puts the new names first, '-list' removes exactly the names matching the patterns, and names outside the supported list never survive.", "quantifier": "every default list, supported list and edit string", "why_tests_cant": "lists and patterns are unbounded", "anchors": ["kex-names.c:kex_assemble_names", "kex-names.c:kex_names_cat", "match.c:filter_list"]}
{"id": "C18", "title": "Key derivation gives consistent streams", "statement": "The key material derived for a label and length is a prefix of that derived for any larger length, both ends derive the same material for the same direction, and the six labels use distinct hash inputs.", "quantifier": "every shared secret, exchange hash, session id, label and length", "why_tests_cant": "the block-extension loop must be right for every length", "anchors": ["kex.c:derive_key", "kex.c:kex_derive_keys"]}
{"id": "C19", "title": "Packet framing is well formed for every payload", "statement": "Every packet produced carries between 4 and 255 padding bytes, its padded length is a multiple of the cipher block size, and the length field describes exactly padding-length byte, payload and padding.", "quantifier": "every payload length, block size, and requested extra padding", "why_tests_cant": "u_char padding arithmetic wraps; the dangerous lengths are specific", "anchors": ["packet.c:ssh_packet_send2_wrapped", "packet.c:sshpkt_add_padding"]}
{"id": "C20", "title": "Transport delivers exactly what was sent, for any segmentation", "statement": "If the receiver holds the sender's keys and the sender's byte stream arrives unmodified but cut into arbitrary chunks, the receiver delivers exactly the sent payloads in order and consumes exactly the bytes sent.", "quantifier": "every sequence of payloads and every way of cutting the stream into chunks, in all three framing modes (encrypt-and-MAC, encrypt-then-MAC, AEAD)", "why_tests_cant": "chunk boundaries can fall anywhere; state is kept between calls", "anchors": ["packet.c:ssh_packet_send2_wrapped", "packet.c:ssh_packet_read_poll2"]}
{"id": "C21", "title": "No payload is delivered without an integrity check", "statement": "Once a MAC or AEAD is active, a payload is handed to the caller only after its tag has been verified under the current receive sequence number; if the tag is wrong nothing of the packet is delivered.", "quantifier": "every byte stream from the network", "why_tests_cant": "all hostile streams", "anchors": ["packet.c:ssh_packet_read_poll2", "packet.c:ssh_packet_read_poll2_mux", "mac.c:mac_check"]}
{"id": "C22", "title": "A (key, sequence number) pair is never reused", "statement": "Under one set of keys no two packets are sent with the same sequence number, for every history of sends and rekeys; before the counter can wrap a rekey is demanded, and a wrap during the initial key exchange ends the connection.", "quantifier": "every history of sends, receives and rekeys", "why_tests_cant": "needs 2^31 and more packets to observe", "anchors": ["packet.c:ssh_packet_need_rekeying", "packet.c:ssh_packet_send2_wrapped", "packet.c:ssh_set_newkeys"]}
{"id": "C23", "title": "Only key-exchange packets travel during rekeying", "statement": "From our KEXINIT until NEWKEYS only key-exchange and transport packets are sent; other packets are held back and afterwards sent exactly once in the original order.", "quantifier": "every interleaving of send calls with rekey events", "why_tests_cant": "schedules are unbounded", "anchors": ["packet.c:ssh_packet_send2", "packet.c:ssh_packet_type_is_kex", "packet.c:ssh_packet_need_rekeying"]}
{"id": "C24", "title": "Strict key exchange excludes injected packets", "statement": "With strict key exchange negotiated, during the initial key exchange every message other than the one expected next terminates the connection, sequence numbers restart at zero after NEWKEYS, so a prefix of injected or dropped messages cannot go unnoticed.", "quantifier": "every sequence of messages an attacker can inject before NEWKEYS", "why_tests_cant": "all attack traces", "anchors": ["packet.c:ssh_packet_read_poll_seqnr", "kex.c:kex_choose_conf", "kex.c:kex_input_kexinit", "kex.c:kex_protocol_error", "packet.c:ssh_set_newkeys"]}
{"id": "C25", "title": "Channel flow control is never violated", "statement": "A sender never has more unacknowledged data in flight than the window its peer advertised, data beyond the local window or packet size is never passed on to the application, and window credits never exceed what the application consumed.", "quantifier": "every interleaving of data, window adjusts, local reads and writes on both ends", "why_tests_cant": "window accounting is a history invariant over u_int arithmetic", "anchors": ["channels.c:channel_output_poll_input_open", "channels.c:channel_input_data", "channels.c:channel_check_window", "channels.c:channel_input_window_adjust", "channels.c:channel_handle_wfd"]}
{"id": "C26", "title": "Channel data arrives in order, exactly once", "statement": "The bytes written by the application on one end are read on the other end as a prefix of the same sequence at every moment.", "quantifier": "every schedule of reads, writes, packet deliveries and window adjusts", "why_tests_cant": "schedules are unbounded", "anchors": ["channels.c:channel_handle_rfd", "channels.c:channel_output_poll_input_open", "channels.c:channel_input_data", "channels.c:channel_handle_wfd"]}
{"id": "C27", "title": "Channel shutdown protocol is respected", "statement": "On every channel at most one EOF and at most one CLOSE are sent, nothing is sent after CLOSE, no EOF after CLOSE, and a channel is released only after a CLOSE was both sent and received; from every state a CLOSE from the peer plus drained buffers leads to release.", "quantifier": "every sequence of local and remote shutdown events", "why_tests_cant": "half-close state machine over all event orders", "anchors": ["nchan.c:chan_rcvd_ieof", "nchan.c:chan_rcvd_oclose", "nchan.c:chan_is_dead", "nchan.c:chan_send_eof2", "nchan.c:chan_send_close2", "nchan.c:chan_shutdown_write", "nchan.c:chan_read_failed", "nchan.c:chan_write_failed", "nchan.c:chan_ibuf_empty", "nchan.c:chan_obuf_empty"]}
{"id": "C28", "title": "Port-forward permissions are enforced", "statement": "A connection requested through forwarding is made only if it was permitted by both the user's and the administrator's rule sets (or the set is 'all').", "quantifier": "every permission history (add, clear, disable, update) and every host/port", "why_tests_cant": "rule histories are unbounded", "anchors": ["channels.c:channel_add_permission", "channels.c:channel_connect_to_port", "channels.c:open_match", "channels.c:remote_open_match", "channels.c:channel_clear_permission", "channels.c:channel_disable_admin"]}
{"id": "C29", "title": "Multi-method authentication cannot be short-cut", "statement": "With required method lists configured, authentication succeeds only after every method of at least one configured list has succeeded in that order, however failures and repeats are interleaved.", "quantifier": "every configuration of method lists and every sequence of attempts and outcomes", "why_tests_cant": "attempt histories are unbounded", "anchors": ["auth2.c:auth2_update_methods_lists", "auth2.c:auth2_setup_methods_lists", "auth2.c:list_starts_with", "auth2.c:remove_method", "auth2.c:userauth_finish"]}
{"id": "C30", "title": "Authentication attempts are bounded and bound to one user", "statement": "The server gives at most MaxAuthTries counted failures before disconnecting, and user name and service cannot change between requests of one connection.", "quantifier": "every sequence of authentication requests", "why_tests_cant": "unbounded histories", "anchors": ["auth2.c:input_userauth_request", "auth2.c:userauth_finish"]}
{"id": "C31", "title": "The privileged monitor obeys its dispatch tables", "statement": "Before authentication the monitor answers only requests enabled in the current table; a once-only request is answered at most once; and the pre-authentication phase ends with success only through a request of authentication type whose check succeeded (and all required methods done).", "quantifier": "every sequence of requests a compromised unprivileged process may send", "why_tests_cant": "hostile request sequences are unbounded", "anchors": ["monitor.c:monitor_read", "monitor.c:monitor_child_preauth", "monitor.c:monitor_permit", "monitor.c:mon_dispatch_proto20"]}
{"id": "C32", "title": "The monitor verifies only keys it has itself approved", "statement": "The monitor accepts a public-key or host-based signature only for the exact key blob it has most recently approved, and the approval is used up by one verification.", "quantifier": "every sequence of key-allowed and key-verify requests", "why_tests_cant": "hostile request sequences", "anchors": ["monitor.c:mm_answer_keyallowed", "monitor.c:mm_answer_keyverify", "monitor.c:monitor_valid_userblob", "monitor.c:monitor_reset_key_state"]}
{"id": "C33", "title": "Merging login restrictions never widens them", "statement": "When restrictions from two sources (certificate and authorized_keys) are merged, a permission is granted only if both grant it, conflicting forced commands make authentication fail, the forced command of either side survives, verification is required if either side requires it, no limiting list disappears, and the earliest expiry wins when the first side has one (the code drops an expiry only the second side has, and does not intersect destination lists: both shown by witness).", "quantifier": "every pair of option sets", "why_tests_cant": "all combinations of two option records", "anchors": ["auth-options.c:sshauthopt_merge"]}
{"id": "C34", "title": "Login restrictions survive privilege separation", "statement": "Serialising an option set and parsing it back yields the same permissions, expiry, limits and lists (with the untrusted variant hiding only what it must).", "quantifier": "every option set", "why_tests_cant": "unbounded lists and strings", "anchors": ["auth-options.c:sshauthopt_serialise", "auth-options.c:sshauthopt_deserialise"]}
{"id": "C35", "title": "authorized_keys options parse to what they say", "statement": "Parsing an option string yields exactly the effect of applying its comma-separated options left to right; unknown or malformed options make the whole line unusable; 'restrict' clears every permission not re-enabled after it.", "quantifier": "every option string", "why_tests_cant": "quoting and ordering over unbounded strings", "anchors": ["auth-options.c:sshauthopt_parse", "misc.c:opt_flag", "misc.c:opt_match", "misc.c:opt_dequote"]}
{"id": "C36", "title": "Certificates are accepted only in scope", "statement": "A certificate is accepted for a host or user only if its type fits, the current time lies inside its validity interval, and its principals list (when required or present) contains the name.", "quantifier": "every certificate, time and name", "why_tests_cant": "boundary instants and list contents", "anchors": ["sshkey.c:sshkey_cert_check_authority", "sshkey.c:sshkey_cert_check_host"]}
{"id": "C37", "title": "Serial revocation has set semantics", "statement": "After any sequence of serial and serial-range revocations, a serial is reported revoked if and only if it lies in one of the revoked ranges.", "quantifier": "every sequence of ranges over 64-bit serials", "why_tests_cant": "range merging across 2^64 values and all insertion orders", "anchors": ["krl.c:insert_serial_range", "krl.c:ssh_krl_revoke_cert_by_serial_range", "krl.c:is_cert_revoked"]}
{"id": "C38", "title": "A written KRL revokes exactly what was revoked", "statement": "Writing a revocation list and reading it back yields a list that gives the same answer for every serial, key id and key, and keeps version and comment; reading can only be refused for a list in which one CA has revoked serials 16384 or more apart (and such lists, for example every second serial up to 16386, can indeed be written and then not read: recorded as a refuted theorem). Reading any byte string ends.", "quantifier": "every revocation list built by any sequence of calls; every query; for termination every byte string", "why_tests_cant": "the encoder switches between list, range and bitmap sections depending on gaps", "anchors": ["krl.c:revoked_certs_generate", "krl.c:choose_next_state", "krl.c:parse_revoked_certs", "krl.c:ssh_krl_to_blob", "krl.c:ssh_krl_from_blob"]}
{"id": "C39", "title": "Bitmaps are finite sets of bit numbers", "statement": "Set, clear and test act as set insertion, removal and membership; the byte-string form is the minimal big-endian one and converts back to the same set for bit numbers below 2^24 (bit 2^24 itself can be set and written but not read back: recorded as a refuted theorem); no access lies outside the allocated words.", "quantifier": "every sequence of bit operations up to the size limit", "why_tests_cant": "word boundaries and reallocation over histories", "anchors": ["bitmap.c:bitmap_set_bit", "bitmap.c:bitmap_test_bit", "bitmap.c:bitmap_clear_bit", "bitmap.c:bitmap_nbits", "bitmap.c:bitmap_to_string", "bitmap.c:bitmap_from_string"]}
{"id": "C40", "title": "Any revocation criterion suffices", "statement": "A key whose fingerprints can be computed is reported revoked exactly when one applicable criterion matches it or the key that signed it (explicit key, SHA1 or SHA256 hash, certificate key id, non-zero serial, for its CA or for any CA), whatever else the list contains and in whatever order it was built; adding to a list never withdraws a revocation.", "quantifier": "every list and every key or certificate", "why_tests_cant": "all combinations of criteria", "anchors": ["krl.c:is_key_revoked", "krl.c:is_cert_revoked", "krl.c:ssh_krl_check_key"]}
{"id": "C41", "title": "A locked agent gives nothing away", "statement": "From a successful lock until an unlock with the same passphrase, every request other than unlock gets the failure reply or an empty key list, and the key table does not change through requests.", "quantifier": "every sequence of requests on any number of sockets", "why_tests_cant": "unbounded histories", "anchors": ["ssh-agent.c:process_message", "ssh-agent.c:process_lock_agent"]}
{"id": "C42", "title": "Destination-constrained keys sign only along permitted paths", "statement": "The agent signs with a destination-constrained key only on a bound connection, only a well-formed authentication request for the session and host most recently bound, and only if every hop from the origin to that host is allowed by some constraint for that user.", "quantifier": "every key, constraint set, binding history and request", "why_tests_cant": "paths and constraints are unbounded", "anchors": ["ssh-agent.c:identity_permitted", "ssh-agent.c:permitted_by_dest_constraints", "ssh-agent.c:match_key_hop", "ssh-agent.c:process_sign_request2", "ssh-agent.c:parse_userauth_request"]}
{"id": "C43", "title": "Session binding is append-only and truthful", "statement": "A session-bind request is answered with success only if the binding is on record; bindings are never changed or removed, no binding follows one made for authentication, and a session id is bound to one key only.", "quantifier": "every sequence of bind requests", "why_tests_cant": "unbounded histories", "anchors": ["ssh-agent.c:process_ext_session_bind"]}
{"id": "C44", "title": "Agent key lifetimes are enforced", "statement": "After an expiry sweep at time t no key whose lifetime ended at or before t remains or can be used, unexpired keys remain, and the reported time to the next sweep is exactly the time to the earliest remaining expiry.", "quantifier": "every key table and time", "why_tests_cant": "all tables and instants", "anchors": ["ssh-agent.c:reaper", "ssh-agent.c:process_add_identity"]}
{"id": "C45", "title": "Revoked host keys are never accepted", "statement": "Over the loaded known-hosts files, a key is 'revoked' exactly when some line for the host carries @revoked with that key or with the CA key that signed it, whatever other lines exist and in whatever order; 'ok' exactly when it is not revoked and is listed under the matching marker (no marker for a plain key, @cert-authority for a certificate's signer); 'changed' exactly when neither holds and another plain key is listed; 'new' otherwise. Names match as patterns or as salted hashes.", "quantifier": "every list of known-hosts files of any text lines, every host name and every key", "why_tests_cant": "orders and combinations are unbounded", "anchors": ["hostfile.c:check_hostkeys_by_key_or_type", "hostfile.c:check_key_not_revoked", "hostfile.c:check_key_in_hostkeys", "hostfile.c:hostkeys_foreach_file", "hostfile.c:check_markers", "hostfile.c:match_maybe_hashed", "sshkey.c:sshkey_read"]}
{"id": "C46", "title": "SFTP handles name live objects only", "statement": "A handle returned by the server refers to that object until it is closed; closed or never issued handles are refused; no two live handles share a number.", "quantifier": "every sequence of open, close and use", "why_tests_cant": "free-list reuse over histories", "anchors": ["sftp-server.c:handle_new", "sftp-server.c:handle_unused", "sftp-server.c:handle_is_ok", "sftp-server.c:handle_from_string", "sftp-server.c:handle_close"]}
{"id": "C47", "title": "Read-only SFTP never modifies the file system", "statement": "In read-only mode no request sequence leads to a file-system modifying call.", "quantifier": "every sequence of requests", "why_tests_cant": "all requests and flags", "anchors": ["sftp-server.c:request_permitted", "sftp-server.c:process_open", "sftp-server.c:handlers", "sftp-server.c:extended_handlers"]}
{"id": "C48", "title": "Pipelined SFTP download reproduces the file", "statement": "For every order in which the outstanding read replies arrive and however short they are, the downloaded file equals the remote one when the transfer reports success.", "quantifier": "every file, chunk size, number of outstanding requests, and reply schedule", "why_tests_cant": "reply orders and short reads are unbounded", "anchors": ["sftp-client.c:sftp_download"]}
{"id": "C49", "title": "Interrupted I/O is completed exactly", "statement": "A full-transfer call returns the requested count only if exactly those bytes were transferred in order, whatever partial transfers and interruptions happen, and otherwise reports how many were.", "quantifier": "every schedule of partial transfers, interruptions and errors", "why_tests_cant": "schedules are unbounded", "anchors": ["atomicio.c:atomicio6", "atomicio.c:atomiciov6"]}
{"id": "C50", "title": "Number and time parsing never wraps", "statement": "Port, time-interval and number parsers return either the mathematical value of the text within range or an error, never a wrapped value.", "quantifier": "every input string", "why_tests_cant": "overflow inputs are sparse", "anchors": ["misc.c:a2port", "misc.c:convtime", "misc.c:a2tun", "misc.c:urldecode"]}
{"id": "C51", "title": "Command splitting inverts quoting", "statement": "Splitting the assembled form of an argument vector returns its non-empty arguments in order (up to a '#'-argument where comments are recognised), so a vector of non-empty arguments comes back unchanged; and splitting any text returns exactly the arguments its quoting denotes, or an error for an unclosed quote.", "quantifier": "every argument vector and every command text", "why_tests_cant": "quoting over all strings", "anchors": ["misc.c:argv_split", "misc.c:argv_assemble"]}
{"id": "C52", "title": "Penalties and connection limits per source", "statement": "While the penalty tables have room, a connection is refused exactly when the accumulated penalty of its source (all addresses sharing the configured prefix) is active at that time; exempt addresses never are. Whatever happens, tables stay within their configured sizes with one entry per source, a refusal always goes back to an offence no older than the maximum penalty (or, under deny-all, to a full table of such offenders), an entry evicted early is the one soonest to expire, and unauthenticated connections are admitted exactly while both the per-source and the total limit leave room.", "quantifier": "every configuration and every sequence of penalties, checks, connections, disconnections and times", "why_tests_cant": "The answer depends on the whole history of offences and times, including table overflow and expiry order; there are unboundedly many histories.", "anchors": ["srclimit.c:srclimit_penalise", "srclimit.c:srclimit_penalty_check_allow", "srclimit.c:srclimit_check_allow", "srclimit.c:srclimit_done"]}
{"id": "C53", "title": "Stream cipher and one-time authenticator arithmetic is exact", "statement": "The ChaCha20 block function and Poly1305 as implemented with 32-bit words compute the functions of their specification for every key, nonce and message; encryption is inverted by decryption.", "quantifier": "every key, nonce, message length and content", "why_tests_cant": "carry propagation bugs appear with negligible probability in tests", "anchors": ["poly1305.c:poly1305_auth", "chacha.c:chacha_encrypt_bytes", "cipher-chachapoly.c:chachapoly_crypt"]}
{"id": "C54", "title": "Base64 text survives decoding", "statement": "Decoding the base64 text of any byte string returns it, and the text-form decoder refuses every text with stray characters or non-zero trailing bits.", "quantifier": "every byte string and every text", "why_tests_cant": "unbounded", "anchors": ["openbsd-compat/base64.c:b64_ntop", "openbsd-compat/base64.c:b64_pton"]}
{"id": "C55", "title": "Text from the other side is neutralised before it is printed", "statement": "Whatever the bytes, the locale's decoder and the allocator do, the safe-print routines write the text cut between two of its characters, within the size and width given, with every byte that is undecodable or has no width replaced by an escape; in UTF-8 the output holds no control characters apart from line breaks and tabs where these are permitted; a return value within the size means the whole text was printed and gives its length.", "quantifier": "every byte string, decoder (also with shift state), width function, size and width limit, codeset and pattern of allocation failures", "why_tests_cant": "all inputs", "anchors": ["utf8.c:vasnmprintf", "utf8.c:dangerous_locale", "utf8.c:grow_dst", "utf8.c:snmprintf", "utf8.c:vfmprintf", "openbsd-compat/vis.c:vis"]}
{"id": "C56", "title": "Host keys sign only what the protocol needs", "statement": "Whatever an unprivileged process asks for, the monitor signs with a host key only data of the length of a key exchange hash or, after authentication, the proof of possession for this very session and key; and only one signature is made before authentication.", "quantifier": "every sequence of requests a compromised unprivileged process may send, before and after authentication", "why_tests_cant": "hostile request sequences and bodies are unbounded", "anchors": ["monitor.c:mm_answer_sign", "monitor.c:monitor_child_postauth", "monitor.c:mon_dispatch_postauth20"]}
{"id": "C57", "title": "A key lets a user in only as an entry allows", "statement": "A public key or certificate is accepted for a login exactly if it and its authority are not revoked and some configured source accepts it: the first line of an authorized keys file (or of a clean AuthorizedKeysCommand output) that names the key (or, marked cert-authority, the certificate's authority) and whose expiry, source and principals restrictions the connection meets, or a trusted authority together with the principals lists. The login gets exactly the options of that line merged with the certificate's. A certificate never works outside its validity, never without its forced command or from outside its networks, and never gives a right it does not carry.", "quantifier": "every key, certificate, file contents, configuration, user, address and time", "why_tests_cant": "unbounded files and option combinations; first-match order over all histories of lines", "anchors": ["auth2-pubkeyfile.c:auth_check_authkey_line", "auth2-pubkeyfile.c:auth_authorise_keyopts", "auth2-pubkeyfile.c:auth_process_principals", "auth2-pubkey.c:user_key_allowed", "auth2-pubkey.c:user_cert_trusted_ca"]}
{"id": "C58", "title": "Certificate options are understood or the certificate is refused", "statement": "The critical options of a user certificate are all known, well formed, of the right shape and not contradictory, or the certificate yields no login options at all; unknown extensions are ignored, known ones must carry no data; each right is given exactly by its extension.", "quantifier": "every byte string in the critical options and extensions", "why_tests_cant": "arbitrary nested encodings", "anchors": ["auth-options.c:cert_option_list", "auth-options.c:sshauthopt_from_cert"]}
{"id": "C59", "title": "The agent loads providers only as allowed", "statement": "The agent loads a PKCS#11 module or records a FIDO provider only if its resolved path is on the list of allowed providers (or, for FIDO, it is the internal one); over a connection that was used for forwarding, modules are loaded only if the agent was started to allow this.", "quantifier": "every history of requests and connections, every file system and module behaviour", "why_tests_cant": "all paths, lists and request histories", "anchors": ["ssh-agent.c:process_add_smartcard_key", "ssh-agent.c:process_add_identity", "ssh-agent.c:socket_is_remote"]}
{"id": "C60", "title": "Web-origin FIDO keys sign only SSH messages", "statement": "With the default restriction, a FIDO key made for an application outside the allowed list signs nothing but public key authentication requests made with this very key and SSHSIG messages.", "quantifier": "every key, data and history", "why_tests_cant": "arbitrary data to be signed", "anchors": ["ssh-agent.c:check_websafe_message_contents", "ssh-agent.c:parse_userauth_request", "ssh-agent.c:parse_sshsig_request", "ssh-agent.c:process_sign_request2"]}
{"id": "C61", "title": "Confirmation comes before use", "statement": "A key added with the confirmation constraint is used only after the user was asked about it within the same request and agreed.", "quantifier": "every history of requests", "why_tests_cant": "all histories and interleavings of connections", "anchors": ["ssh-agent.c:process_sign_request2", "ssh-agent.c:parse_key_constraints"]}
{"id": "C62", "title": "The agent's key table is a set and its list is exact", "statement": "The table holds each key once and counts them exactly; a successful removal removes that key and no other; the list of keys given to a connection shows exactly the keys without destination constraints and those whose constraints are met by its bound path.", "quantifier": "every history of requests on any number of connections", "why_tests_cant": "unbounded histories", "anchors": ["ssh-agent.c:process_request_identities", "ssh-agent.c:process_remove_identity", "ssh-agent.c:process_remove_all_identities", "ssh-agent.c:identity_permitted"]}
{"id": "C63", "title": "Host keys are accepted for a reason", "statement": "The client goes on with a server only if the key shown was accepted in this connection: because the exemption for the local machine applies, a known-hosts entry (or a listed authority, for a certificate valid for the host) vouches for it and no entry revokes it, validated DNS records match it, or the host is new and the policy or the user allows it. A revoked or different key is refused unless checking is off, and then passwords, forwardings and agent are switched off. Only confirmed or permitted plain keys are recorded, options are only ever tightened, and a key that is vouched for is accepted.", "quantifier": "every setting, host, port, key, list of entries, sequence of answers, DNS answer and sequence of key exchanges of a connection", "why_tests_cant": "the combinations of entries, policies, ports, certificates, addresses and answers are unbounded", "anchors": ["sshconnect.c:check_host_key", "sshconnect.c:verify_host_key", "sshconnect.c:confirm", "dns.c:verify_host_key_dns", "authfile.c:sshkey_check_revoked", "sshconnect2.c:verify_host_key_callback", "kex.c:kex_verify_host_key"]}
{"id": "C64", "title": "Rewriting known_hosts is atomic and drops only superseded keys", "statement": "When the keys of a host are replaced in a known-hosts file, at every crash point and after every failing system call the file holds its old contents, or the new contents with the old ones in the backup. The new contents are the old lines in order, without exactly those that name the host (or address) with an unmarked key that was not requested, followed by lines that make every requested key known. Appending a key never alters what was there.", "quantifier": "every file of text lines, host, address, list of requested keys, hashing choice, failure of any system call and crash point", "why_tests_cant": "crash points, failures and file contents combine without bound", "anchors": ["hostfile.c:hostfile_replace_entries", "hostfile.c:host_delete", "hostfile.c:write_host_entry", "hostfile.c:add_host_to_hostfile", "hostfile.c:host_hash"]}
{"id": "C65", "title": "SFTP request lists are honoured", "statement": "A request whose name is on the deny list, or missing from the allow list, is answered with permission denied and performs no system call; a request the lists do not refuse behaves as if there were no lists; the extensions announced to the client are exactly the permitted ones.", "quantifier": "every configuration of lists, every byte stream from the client in any pieces, every operating-system behaviour", "why_tests_cant": "all requests, lists and histories", "anchors": ["sftp-server.c:request_permitted", "sftp-server.c:process", "sftp-server.c:process_extended", "sftp-server.c:compose_extension", "sftp-server.c:process_init"]}
{"id": "C66", "title": "Every SFTP request is answered once, in order, with its own identifier", "statement": "After the version exchange every request the server knows gets exactly one reply carrying the identifier of that request, replies leave in the order of requests, and nothing is done before the version exchange.", "quantifier": "every byte stream from the client in any pieces, every operating-system behaviour", "why_tests_cant": "all handlers, all error paths, all histories", "anchors": ["sftp-server.c:process", "sftp-server.c:process_extended", "sftp-server.c:handlers", "sftp-server.c:extended_handlers"]}
{"id": "C67", "title": "SFTP reads and writes concern the right bytes", "statement": "Data in the reply to a read request is what was read from the file the handle was issued for, at the requested offset; a write request is reported as successful exactly when all of its data was written to that file at that offset.", "quantifier": "every session, every operating-system behaviour", "why_tests_cant": "partial writes, failures and histories of handles", "anchors": ["sftp-server.c:process_read", "sftp-server.c:process_write"]}
{"id": "C68", "title": "An SFTP rename never replaces a target known to exist", "statement": "A plain rename request only issues a replacing rename after the target was found missing; a name is only removed once the other one was created; success is reported only if the rename took place.", "quantifier": "every session, every operating-system behaviour", "why_tests_cant": "all failure combinations of the calls involved", "anchors": ["sftp-server.c:process_rename"]}
{"id": "C69", "title": "SFTP copy-data copies the right range", "statement": "A copy-data request writes to the target exactly the bytes read from the source, in order, at most the requested amount, between two different live files; success is reported only when the whole amount was gone through or the end of the source was reached.", "quantifier": "every session, every operating-system behaviour, every length and offset", "why_tests_cant": "loop over chunks with failures at any point", "anchors": ["sftp-server.c:process_extended_copy_data"]}
{"id": "C70", "title": "A revocation list is refused or honoured in full", "statement": "Reading a byte string as a key revocation list either fails, or the string is a document in the published format and afterwards a key or certificate is reported revoked exactly if some part of the document (serial, serial range, bitmap bit, key id, key, fingerprint) names it or its signing key. A document with a critical extension, serial zero, an inverted range, an unreadable CA key, a fingerprint of the wrong size or text containing NUL is refused as a whole, wherever in it that part is.", "quantifier": "every byte string, every document, every key asked about", "why_tests_cant": "infinitely many documents, nested sections of unbounded number and any order", "anchors": ["krl.c:ssh_krl_from_blob", "krl.c:parse_revoked_certs", "krl.c:extension_section", "krl.c:blob_section", "krl.c:ssh_krl_check_key"]}
{"id": "C71", "title": "Pipelined SFTP upload stores the file", "statement": "However the server delays, reorders and carries out the outstanding write requests, an upload that reports success and was neither interrupted nor told of an error has stored the local file; otherwise what is stored is a beginning of it, failures have a cause, and no more requests than the limit allows wait for an answer.", "quantifier": "every local file, sizes of reads, number of outstanding requests, server schedule, reply order, interrupt time, and both ways of writing (at an offset, appending)", "why_tests_cant": "schedules, reply orders and read sizes are unbounded", "anchors": ["sftp-client.c:sftp_upload"]}
{"id": "C72", "title": "Log lines cannot be forged", "statement": "However hostile the text in a message, the line handed to syslog is printable ASCII, says which bytes were logged without ambiguity, and begins with the severity chosen by the program; messages above the configured level are not written; text written to standard error contains no escape sequences.", "quantifier": "every message, level, setting and program name; every encoder flag and buffer size", "why_tests_cant": "all byte strings and lengths, including those that are cut", "anchors": ["log.c:do_log", "openbsd-compat/vis.c:vis", "openbsd-compat/vis.c:strnvis", "scp.c:source"]}
{"id": "C73", "title": "The settings that apply to a connection are the ones the configuration says", "statement": "For every configuration text, command line, set of included files and connection: if the server accepts them, there is one reading of the text into directives with the Match conditions they stand under, and every setting in force for the connection is the first value given by the Match blocks whose criteria all hold for the connection; else the first on the command line; else the first outside Match blocks; else the documented default. AllowUsers and its like accumulate. What was included at start is what every later connection uses, whatever happens to the files.", "quantifier": "all configuration texts, include trees, command lines, connections and file system contents", "why_tests_cant": "arbitrary texts, nesting of includes and Match blocks, and combinations of about a hundred options", "anchors": ["servconf.c:process_server_config_line_depth", "servconf.c:match_cfg_line", "servconf.c:parse_server_match_config", "servconf.c:copy_set_server_options", "servconf.c:fill_default_server_options", "servconf.c:load_server_config"]}
{"id": "C74", "title": "Only accounts the configuration admits may log in", "statement": "For every configuration, connection and user name: the account is admitted if and only if it exists, is not locked, has an executable shell or a root directory to change to, no DenyUsers pattern covers the user at the client's name and address, AllowUsers is absent or has a pattern that does, and the same for the user's groups; and no pattern of an accepted configuration makes the server die.", "quantifier": "all configurations accepted at start, users, machines, host names and addresses", "why_tests_cant": "interplay of Match blocks, pattern lists, negation, addresses and group membership", "anchors": ["auth.c:allowed_user", "auth.c:getpwnamallow", "groupaccess.c:ga_match", "match.c:match_user"]}
{"id": "C75", "title": "scp writes only inside its target, and what it reports as copied is there", "statement": "For every byte sequence a peer sends and every outcome of system calls, scp in receiving mode ends, and every file or directory it creates, opens, truncates or changes is the target or lies below it by names without slash, . or ..; without -r it is the target or directly in it and no directory is made; when the user named the files (with braces and globs) a name stored is one of those asked for; without -p the permissions given respect the umask and no existing file's mode is changed; success is not reported if a call on a file failed. When no call fails, what the sender of a tree emits is recreated: contents, permissions, and times if sent, with nothing else changed.", "quantifier": "all byte streams from the peer, targets, options, requests, file systems and results of system calls; all trees sent", "why_tests_cant": "the peer is hostile and the stream, names, nesting and failing calls are unbounded", "anchors": ["scp.c:sink", "scp.c:source", "scp.c:rsource", "scp.c:brace_expand", "scp.c:response", "scp.c:note_err"]}
{"id": "C76", "title": "A file signature is good only for that message, purpose, signer and time", "statement": "ssh-keygen -Y verify says Good exactly when the signature file is the text form of an object that carries the requested namespace, a key, an allowed digest name and a signature that this key accepts over (namespace, digest name, digest of the whole message read without error), RSA keys signing with SHA-2 only; the key is not revoked; and some line of the allowed signers file lists the identity (positively and without a negated match), names this very key (or, marked cert-authority, the authority of its user certificate that is valid at that time and lists the identity), allows the namespace, and covers the time. What is signed determines namespace and digest and is never data signed in the SSH protocol. What -Y sign writes is accepted. Names found by find-principals are accepted by verify when nothing is negated.", "quantifier": "all signature files, messages and ways of reading them, namespaces, identities, allowed signers files, revocation lists, keys, times, digest and signature functions", "why_tests_cant": "files and lists are unbounded and hostile; a single accepted forgery or confused purpose breaks the guarantee", "anchors": ["sshsig.c:sshsig_verify_fd", "sshsig.c:sshsig_wrap_verify", "sshsig.c:sshsig_dearmor", "sshsig.c:check_allowed_keys_line", "sshsig.c:sshsigopt_parse", "sshsig.c:sshsig_find_principals", "ssh-keygen.c:sig_verify", "misc.c:strdelimw"]}
{"id": "C77", "title": "A key or certificate means the same to whoever reads it; a certificate says only what its authority signed", "statement": "A byte string is accepted as a public key exactly when it is a known type name followed by exactly that type's key material (right curve, valid point, RSA modulus of at least 1024 bits) and nothing else; as a certificate exactly when it has every field in the published form, at most 256 principals, type user or host, well-formed option sections, a plain key as authority, and a signature of that authority over every byte before the signature. The signed bytes determine the key, all fields and the authority, so an accepted certificate carries what its authority issued. What is certified is accepted with the same contents; a key survives being written and read, as bytes and as text; a text line is read only when its type word fits the key.", "quantifier": "all byte strings and lines, all keys, certificate fields, nonces, signers, verification functions and point checks", "why_tests_cant": "blobs are hostile and unbounded; one ambiguous or unsigned byte lets a field be changed after signing", "anchors": ["sshkey.c:sshkey_from_blob_internal", "sshkey.c:cert_parse", "sshkey.c:to_blob_buf", "sshkey.c:sshkey_certify_custom", "sshkey.c:sshkey_read", "sshkey.c:sshkey_format_text", "ssh-rsa.c:ssh_rsa_deserialize_public", "ssh-ecdsa.c:ssh_ecdsa_deserialize_public", "ssh-ed25519.c:ssh_ed25519_deserialize_public"]}
{"id": "C78", "title": "A private key file gives back the key that was put in, and only to who has the passphrase", "statement": "A private key file in OpenSSH format is accepted exactly when it is well formed throughout (the two marker lines, base64, magic, known cipher and KDF, one key, lengths that fit the cipher, equal check bytes, a complete key, a comment, the prescribed padding, nothing after it) and opens with the given passphrase; the key returned is the one the file names in the clear, which can also be had without the passphrase. What is written with a passphrase is read back with it: the same key, certificate, secret and comment. No passphrase for a protected file, a tag that does not verify, and differing check bytes are reported as a wrong passphrase. Of secret, comment and check bytes a protected file shows nothing that the cipher does not. The private form of a key used between client and agent is read back as it was written, taking just the bytes that belong to it.", "quantifier": "all files up to the buffer limit, passphrases, keys of all compiled-in types with and without certificate, secrets, comments, ciphers, salts, KDFs and ciphers with the stated laws", "why_tests_cant": "the files are unbounded and may be crafted; a byte of the plaintext outside the ciphertext or an unchecked part would show on no ordinary key", "anchors": ["sshkey.c:sshkey_parse_private2", "sshkey.c:private2_decrypt", "sshkey.c:private2_uudecode", "sshkey.c:private2_check_padding", "sshkey.c:sshkey_private_to_blob2", "sshkey.c:sshkey_private_serialize_opt", "sshkey.c:sshkey_private_deserialize", "sshkey.c:sshkey_parse_private2_pubkey"]}
{"id": "C79", "title": "A client that accepts a key exchange was talking to the owner of that host key, in the same exchange", "statement": "The client finishes a key exchange exactly when the reply is a host key, a public value and a signature and nothing else, the key is of the negotiated type (and curve) and accepted by the application, the public value is usable, and the key's signature over the hash of the whole exchange verifies under the negotiated algorithm. What is hashed is what RFC 4253 and RFC 4419 prescribe and determines both version lines, both KEXINIT messages, the host key, both public values, the group and requested sizes, and the secret; so if only the key's owner signs, some run of the server had all of these in common with the client and ends with the same session id and mirrored keys, or the two runs exhibit a hash collision. An honest exchange succeeds. Public values 0, 1, p-1 and above or with fewer than four bits set, all-zero X25519 results and values of a wrong length are refused; the client takes only groups of 2048 to 8192 bits; the server chooses from its moduli within the bounds asked for, the smallest that suffices if the file is ordered.", "quantifier": "all messages, host keys, private values, methods (finite field, elliptic curve, X25519, both hybrids, group exchange), moduli files, hash, signature, curve and KEM functions", "why_tests_cant": "the peer is hostile and the space of messages unbounded; one field left out of the hash allows a downgrade or relay that no ordinary run shows", "anchors": ["kexgen.c:kex_gen_hash", "kexgen.c:input_kex_gen_reply", "kexgen.c:input_kex_gen_init", "kexgex.c:kexgex_hash", "kexgexc.c:input_kex_dh_gex_group", "kexgexc.c:input_kex_dh_gex_reply", "kexgexs.c:input_kex_dh_gex_request", "kexgexs.c:input_kex_dh_gex_init", "kexdh.c:kex_dh_compute_key", "kexecdh.c:kex_ecdh_dec_key_group", "kexc25519.c:kexc25519_shared_key_ext", "kexsntrup761x25519.c", "kexmlkem768x25519.c", "dh.c:choose_dh", "dh.c:dh_pub_is_valid", "dh.c:dh_gen_key", "kex.c:kex_verify_host_key", "monitor.c:mm_answer_moduli"]}
{"id": "C80", "title": "A SOCKS client is connected to what it asked for, however its bytes arrive", "statement": "On a dynamic forwarding the host and port that are opened are exactly those of the SOCKS4, SOCKS4A or SOCKS5 request with which the client's bytes begin, the client is sent exactly the prescribed replies, and what goes to the target is everything after the request, for every way the bytes are cut into reads and every moment the handler runs. A complete request is always served; the channel is given up only when no continuation could be a request; at most 1025 bytes are held while waiting. For remote dynamic forwardings the same holds, the target must in addition be permitted, and the replies keep within the peer's window.", "quantifier": "all byte streams, all ways to cut them, all interleavings with the handler (and, for remote ones, window adjustments and end of file), all permission lists and connect outcomes", "why_tests_cant": "the cuts and interleavings are unbounded; an off-by-one shows only when a read ends inside a length field", "anchors": ["channels.c:channel_decode_socks4", "channels.c:channel_decode_socks5", "channels.c:channel_pre_dynamic", "channels.c:channel_before_prepare_io_rdynamic", "channels.c:rdynamic_connect_finish", "channels.c:port_open_helper"]}
{"id": "C81", "title": "Host-based authentication: whose request is signed and accepted", "statement": "ssh-keysign signs data with a host key exactly if it is enabled and the data is a well-formed host-based authentication request that names, as the client's user, the user who called it and, as the client's host (up to case, with a final dot), the local name of the connection handed to it; what the ssh client builds is signed. What is signed has one reading, so if signatures under a key come only from ssh-keysign, the user and host an accepted request names are the true caller and machine, and the request was for this account and session. The server accepts exactly the requests whose algorithm is permitted, whose key is of that kind, not revoked, known for the host and in scope, whose signature covers the request, and whose user and host are granted by hosts.equiv, shosts.equiv (not for root), .shosts or .rhosts under StrictModes and IgnoreRhosts; a file grants exactly if its first line about that user and host is not negated, and no line is about everybody. Anything after the signature is ignored. Refuted: long comments grant nothing; a negated line denies overall; the name in the request must be the peer's.", "quantifier": "all messages to ssh-keysign, callers, host key sets, local names; all request packets, option settings, file contents, owners and modes, peers, oracles for netgroups, known hosts, revocation, certificate scope and signatures", "why_tests_cant": "impersonation between users of one host is excluded only if no byte string is signed for one user and read as another, over all packets; file semantics depend on every combination of lines, negations, lengths and modes", "anchors": ["ssh-keysign.c:valid_request", "ssh-keysign.c:main", "sshconnect2.c:userauth_hostbased", "auth2-hostbased.c:userauth_hostbased", "auth2-hostbased.c:hostbased_key_allowed", "auth-rhosts.c:check_rhosts_file", "auth-rhosts.c:auth_rhosts2"]}
{"id": "C82", "title": "X11 forwarding: only the fake cookie opens the display, and only the fake cookie is told", "statement": "In a session with X11 forwarding the server is told, in place of the user's cookie, a random one of the same length, saved once and kept; nothing that is sent depends on the digits of the real cookie. A forwarded X11 connection reaches the display exactly if what arrived before ForwardX11Timeout begins with a complete X11 setup packet, in either byte order, that names the saved protocol and shows the fake cookie; the display then gets the same bytes with the real cookie in the fake one's place, followed by the rest, however the stream is cut into segments. Any other complete setup packet, or any wait past the deadline, closes the connection before the display has seen a byte. Only one display is forwarded. Refuted: that later requests stay within the saved fake cookie; a longer cookie makes the client send what lies behind it.", "quantifier": "all byte streams, segmentations, arrival times, deadlines, protocols, cookies; all histories of requests and all random data", "why_tests_cant": "the server chooses the stream and its segmentation freely; independence of the real cookie is a statement about pairs of histories", "anchors": ["channels.c:x11_open_helper", "channels.c:channel_pre_x11_open", "channels.c:x11_request_forwarding_with_spoofing", "misc.c:tohex"]}
{"id": "C83", "title": "The far terminal gets the modes of the near one", "statement": "When a terminal is requested, every mode that both systems know and that has a bit of its own there is set at the far end exactly if it is set at the near end, every special character arrives (disabled stays disabled, whatever each system uses for it), line speeds have the same baud rate or are 9600, and everything the near system does not know stays as it was. For arbitrary data from the peer: the terminal is changed exactly if the data is a sequence of settings and its end with nothing after it, then the last setting of each mode counts; the connection ends exactly if a setting is cut short; otherwise nothing happens. Refuted: that all modes arrive (a terminal with six or seven bits per character is eight bits wide at the far end); that the character 255 arrives.", "quantifier": "all pairs of systems (tables of modes, masks, places of characters, speed constants), all terminal states at both ends, all byte strings received", "why_tests_cant": "tests run on one system with one set of constants; the claim is about every pair of systems and every string a peer can send", "anchors": ["ttymodes.c:ssh_tty_make_modes", "ttymodes.c:ssh_tty_parse_modes", "ttymodes.c:special_char_encode", "ttymodes.c:special_char_decode", "ttymodes.c:speed_to_baud", "ttymodes.c:baud_to_speed", "ttymodes.h"]}
{"id": "C84", "title": "Tokens and variables are expanded once and values are never read as templates", "statement": "Expanding a configuration string (ProxyCommand, IdentityFile, ControlPath, AuthorizedKeysCommand and so on) gives exactly what the template stands for: each %-token its value, taken from the first key that has the character, each ${VARIABLE} its value, %% a percent sign, all else itself; values are copied as they are, even if they hold tokens or variables. No value of a token or variable can cause or prevent an error; a template has one reading; an unset variable yields no string; unknown tokens, a lone final percent sign, unclosed and empty variables are errors. Any string survives if its percent signs are doubled (and no variable begins in it, where variables are expanded).", "quantifier": "all template strings, all key lists (up to the 64 the function takes) and values, all environments", "why_tests_cant": "injection is excluded only if no value of any token in any position is read again; tests fix templates and values", "anchors": ["misc.c:vdollar_percent_expand", "misc.c:percent_expand", "misc.c:dollar_expand", "misc.c:percent_dollar_expand"]}
{"id": "C85", "title": "A file that passes StrictModes is in the hands of its user", "statement": "The check of authorized_keys and similar files passes exactly if the file is regular and it and every directory above it, up to the user's home directory if that is one of them and else up to the root, is owned by the user or the system and not writable by group or others. If the directories above the home directory are like that too, nothing that other users do afterwards, in any number of steps (writing files, changing modes of what is theirs, replacing entries of directories they may write), changes the file, what its path leads to, or the outcome of the check. Refuted: that this holds whatever the directories above the home directory are like.", "quantifier": "all file systems, paths, owners, groups, modes, home directories; all sequences of actions by any number of other users in any groups", "why_tests_cant": "the claim is about every history of what other users may do to a tree of any shape", "anchors": ["misc.c:safe_path", "misc.c:safe_path_fd", "auth2-pubkeyfile.c:auth_openfile"]}
{"id": "C86", "title": "Both sides agree on the identification strings and lose nothing after them", "statement": "The peer's version is the text of the first line that identifies an SSH implementation, after fewer than 1024 other lines at a client and none at a server; every byte after its newline is left for the packet protocol. No input can be divided in two ways. What one side sends is exactly what the other records, so both hash the same two strings. A decision stands whatever arrives later and however the input is cut up. Other lines at a server, 1024 of them at a client, text that cannot be parsed, other versions and probes are refused. Refuted: that the amount read before the identification is bounded (carriage returns are not counted).", "quantifier": "all byte streams, segmentations, software names and addenda, both roles, any outcome of sscanf and of the probe patterns", "why_tests_cant": "the claim is about every byte stream a peer can send and every way of cutting it", "anchors": ["kex.c:kex_exchange_identification", "ssh.h:SSH_MAX_PRE_BANNER_LINES", "ssh.h:SSH_MAX_BANNER_LEN"]}
