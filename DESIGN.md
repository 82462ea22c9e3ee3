# Formal model of openssh-portable in Rocq

## Layout

`rocq/theories/` holds one group of files per area of the code:

- `<Area>Model.v`: executable Gallina transcription of the C functions. Each
  definition cites the file and lines it models and says what it simplifies.
- `<Area>Spec.v`: the independent meaning used in the statements (where it is
  more than a line or two).
- `<Area>Proof.v`: lemmas.
- `<Area>Props.v`: the property theorems, each followed by `Print Assumptions`
  and by an `Example` that meets its hypotheses with a concrete case.

`Base.v` holds shared definitions (bytes, big-endian integers, list helpers).

Conventions: bytes are `Z` in 0..255 and byte strings are `list Z`; C unsigned
integers are `Z` with the wrap written out (`mod 2^32`, `mod 2^64`) wherever
the C code can wrap; C failure is an option/result value; undefined behaviour
(out-of-range access, use after free, double free, failed assertion) is a
separate outcome that the theorems exclude. Calls out of the modelled code
(hash, cipher, MAC, getaddrinfo, clock, system calls) are function parameters
of the model or Section variables, so every theorem is quantified over them.

## Trusted base

- Coq 8.16.1 kernel, `coqc` and `coqchk`.
- The standard library. No axioms of our own. What `Print Assumptions` prints
  for each theorem is recorded in the build log of each `*Props.v` file; all
  theorems are expected to be closed under the global context.
- The transcription from C to Gallina, done by hand, function by function. It
  is not checked mechanically against the C text. Line citations are there so
  that a reader can compare.
- For oracles: only the laws that appear as hypotheses in the theorem
  statement (for instance decrypt (encrypt x) = x).
- Not modelled anywhere: the C memory allocator (malloc failure is a possible
  error outcome only where the model says so), signals, real time, the
  operating system, the cryptographic strength of any primitive, logging,
  compilers and hardware.


## Plan per property

| id | property | model files | how |
|---|---|---|---|
| C01 | sshbuf behaves as a bounded byte queue | Sshbuf | Executable model of struct sshbuf with an explicit backing array, offset, size, alloc and max_size. Refinement to an abstract list of bytes by induction over operation lists. |
| C02 | sshbuf never touches memory outside its allocation | Sshbuf | Same model; every memcpy/memmove/bzero is a checked list operation that yields the distinct outcome UB when out of range. Invariant by induction over histories; theorem: UB is unreachable. |
| C03 | sshbuf honours its size limit exactly | Sshbuf | Corollaries of the invariant: success iff the arithmetic condition, in both directions. |
| C04 | Derived buffers keep the shared memory alive | SshbufHeap | Heap of buffers with refcount and parent links; operations new/from/fromb/froms/free; invariant refcount = 1 + number of live children; use-after-free and double-free are explicit outcomes shown unreachable. |
| C05 | Wire values survive encoding and decoding | Wire | Encoders/decoders as functions on byte lists; round trip with arbitrary suffix. |
| C06 | Multiprecision integers have one canonical encoding | Wire | put_bignum2/get_bignum2 modelled; value preservation, canonicity, refusal. |
| C07 | Decoders are total and fail without side effects | Wire | Characterisation of each decoder on every input: success iff the input has the form encode(v)++rest. |
| C08 | Decoded C strings contain no hidden NUL | Wire | get_cstring on every input. |
| C09 | Field sequences are encoded unambiguously | Wire | Injectivity of the encoding of field lists of one shape. |
| C10 | Wildcard matching is exactly glob semantics | Match | match_pattern transcribed; inductive glob relation as specification; iff by induction. |
| C11 | Negated patterns always win in pattern lists | Match | match_pattern_list transcribed over the raw string; specification over the split list. |
| C12 | CIDR matching is prefix equality | Addr | addr.c with addresses as byte/word vectors; specification over the integer value of the address. |
| C13 | Address lists: malformed entries and negation | Addr | addr_match_list and addr_match_cidr_list over entry lists; address text parsing (getaddrinfo) is an oracle. The full statement is false of addr_match_cidr_list: proved refuted with a witness. |
| C14 | Host-bits arithmetic on addresses | Addr | addr_increment etc. against integer arithmetic mod 2^32 and 2^128. |
| C15 | Algorithm negotiation follows the client's preference | Match | match_list transcribed (strsep, MAX_PROP); specification: first client name that is a member of the server's list. |
| C16 | Both ends negotiate the same algorithms | Kex | kex_choose_conf as a function of both proposals run by each side; agreement theorem. |
| C17 | Algorithm list editing (+, -, ^) has set semantics | KexNames | kex_assemble_names over name lists. |
| C18 | Key derivation gives consistent streams | Kex | derive_key loop with an abstract hash (Section variable). |
| C19 | Packet framing is well formed for every payload | Packet | padding arithmetic with explicit u_char wrap. |
| C20 | Transport delivers exactly what was sent, for any segmentation | Packet | sender and incremental receiver over byte streams; cipher/MAC are section variables with their inverse law as hypothesis; induction over chunks. |
| C21 | No payload is delivered without an integrity check | Packet | receiver trace theorem: every delivered payload has a verified tag at its sequence number. |
| C22 | A (key, sequence number) pair is never reused | PacketSeq | history machine of send/rekey with mod 2^32 counters. |
| C23 | Only key-exchange packets travel during rekeying | PacketRekey | queue machine of ssh_packet_send2; FIFO delivery invariant. |
| C24 | Strict key exchange excludes injected packets | StrictKex | receive-side machine of the initial key exchange. |
| C25 | Channel flow control is never violated | Channel | two endpoints with queues between them; invariant on windows. |
| C26 | Channel data arrives in order, exactly once | Channel | same machine; stream-prefix invariant. |
| C27 | Channel shutdown protocol is respected | Nchan | nchan.c transcribed; invariant over event lists. |
| C28 | Port-forward permissions are enforced | Permit | permission lists and open_match. |
| C29 | Multi-method authentication cannot be short-cut | Auth2 | method-list machine; ghost history of successes. |
| C30 | Authentication attempts are bounded and bound to one user | Auth2 | request machine with counters. |
| C31 | The privileged monitor obeys its dispatch tables | Monitor | dispatch table machine with abstract handlers. |
| C32 | The monitor verifies only keys it has itself approved | Monitor | key state machine. |
| C33 | Merging login restrictions never widens them | AuthOpt | sshauthopt_merge transcribed; lattice statements; expiry clause is false of the code: refuted with a witness and the true part proved. |
| C34 | Login restrictions survive privilege separation | AuthOpt | serialise/deserialise over the Wire model. |
| C35 | authorized_keys options parse to what they say | AuthOptParse | option string scanner over bytes; specification over option lists. |
| C36 | Certificates are accepted only in scope | Cert | sshkey_cert_check_authority transcribed. |
| C37 | Serial revocation has set semantics | Krl | range tree as an ordered list; set semantics by induction over insertions, u64 bounds explicit. |
| C38 | A written KRL revokes exactly what was revoked | Krl | generator and parser of certificate sections; round trip. The full statement is false (a bitmap above 16384 bits is written but not readable): refuted, plus the round trip when all bitmaps fit. |
| C39 | Bitmaps are finite sets of bit numbers | Bitmap | word array with explicit masks; refinement to finite sets. |
| C40 | Any revocation criterion suffices | Krl | is_key_revoked over abstract key blobs and digests. |
| C41 | A locked agent gives nothing away | Agent | whole agent as an event machine over byte streams; lock invariant by induction over histories. |
| C42 | Destination-constrained keys sign only along permitted paths | Agent | identity_permitted etc. transcribed; specification: a path relation in which every hop has a permitting constraint; constraints read back exactly as ssh-add writes them. |
| C43 | Session binding is append-only and truthful | Agent | bindings invariant and append-only steps. The success clause is false for over-long session ids and for a changed flag: refuted. |
| C44 | Agent key lifetimes are enforced | Agent | reaper; histories after a sweep. |
| C45 | Revoked host keys are never accepted | Hostfile | hostkeys_foreach_file transcribed over the getline buffer as memory (reads past the allocation are a distinct outcome), markers, hashed names, sshkey_read, loading and lookups; specification by the fields of a line; scan lemmas by induction on the bytes, verdict by induction on entries. |
| C46 | SFTP handles name live objects only | Sftp | the whole server: handle table with free list, parsing, dispatch and all handlers in a state/trace monad with an operating-system oracle; refinement of the handle table to a finite map, request by request, by induction over the input pieces. |
| C47 | Read-only SFTP never modifies the file system | Sftp | same model; the trace of system calls contains no modifying call (per handler, then induction). |
| C48 | Pipelined SFTP download reproduces the file | Sclient | sftp_download as a machine over arbitrary histories of messages, write results and interrupts, with its trace of requests, replies and writes; an honest server is a relation on traces; the loop invariant says that every byte below the next offset is written or still asked for; counting of outstanding requests for every server; refuted where a failed truncation or a second failed write is ignored. |
| C49 | Interrupted I/O is completed exactly | Atomicio | system-call results are an arbitrary script; induction over the script for the scalar and the vector loop, with the bytes moved, the count and errno in the statement. |
| C50 | Number and time parsing never wraps | MiscNum | a2port, convtime, strtonum on byte strings; specification over integers. |
| C51 | Command splitting inverts quoting | Argv | argv_split/argv_assemble on byte strings. |
| C52 | Penalties and connection limits per source | Srclimit | both trees of each family as sorted lists with the code's comparators; invariants of the tables over every history of calls; a pointwise induction over histories relating what a table holds for an address to a debt computed from the history alone; refuted where the tables overflow and for a first penalty above the maximum. |
| C53 | Stream cipher and one-time authenticator arithmetic is exact | Poly, Chacha | word-level models with every wrap explicit; the specification is RFC 8439 on unbounded integers and the packet format; carries bounded by linear arithmetic after generalising the products; uninitialised buffers are arbitrary lists. |
| C54 | Base64 text survives decoding | Base64 | b64_ntop/b64_pton and the sshbuf-misc.c wrappers transcribed over explicit target buffers; specification by bits; induction over groups of three bytes / four letters. |
| C55 | Text from the other side is neutralised before it is printed | Vis, Utf | vasnmprintf with decoder, widths and allocator as oracles and undefined behaviour as an outcome; the specification is a relation from the text to a list of units with their sizes; invariant over the loop; concrete UTF-8 decoder for the statement about control characters; refuted for texts of half a gigabyte (the count is an int). |
| C56 | Host keys sign only what the protocol needs | Monitor | mm_answer_sign before and after authentication; session id from the history. |
| C57 | A key lets a user in only as an entry allows | Cert | auth2-pubkeyfile.c and the decision part of auth2-pubkey.c; specification of an entry over the item grammar of C35; first-match by induction over lines; exact iff for all routes. |
| C58 | Certificate options are understood or the certificate is refused | Cert | cert_option_list over the wire decoders; fields relation; iff. |
| C59 | The agent loads providers only as allowed | Agent | observations of module loading; invariant on recorded providers. |
| C60 | Web-origin FIDO keys sign only SSH messages | Agent | observations of signing; message grammars as specification. |
| C61 | Confirmation comes before use | Agent | order of observations within a request. |
| C62 | The agent's key table is a set and its list is exact | Agent | table invariant; exact list reply. |
| C63 | Host keys are accepted for a reason | Hostcheck (on Hostfile, Match) | check_host_key with both attempts (certificate, then plain key) and the inner call without the port, verify_host_key with DNS, the callback and the sequence of key exchanges of a connection; the world is the options, the answers and a log of additions and questions; the specification is an inductive list of reasons over entries, answers and settings, and acceptance implies a reason; what is recorded, how options change and completeness are separate theorems; crash and premature recording are refuted by witnesses. |
| C64 | Rewriting known_hosts is atomic and drops only superseded keys | Hostfile | hostfile_replace_entries as the list of file-system states it passes through, each system call may fail; host_delete fold invariant; written lines parse back. |
| C65 | SFTP request lists are honoured | Sftp | dispatch and request_permitted against the split lists; the message parsers only look at their own bytes. |
| C66 | Every SFTP request is answered once, in order, with its own identifier | Sftp | per-handler analysis of the replies queued, then induction over the input. |
| C67 | SFTP reads and writes concern the right bytes | Sftp | process_read/process_write against the calls in the trace. |
| C68 | An SFTP rename never replaces a target known to exist | Sftp | process_rename, all paths. |
| C69 | SFTP copy-data copies the right range | Sftp | the copy loop related to an inductive description of chunks. |
| C70 | A revocation list is refused or honoured in full | KrlRead | an encoder for abstract documents, an equation for the reader on every encoded document, and the inverse: whatever is read is an encoded document. |
| C71 | Pipelined SFTP upload stores the file | Supload | sftp_upload over arbitrary histories of read sizes, messages and interrupts; the server is a relation on traces that keeps a file, with internal steps that carry out requests at any time; invariant: every byte sent is in the file or in an unanswered request; refuted where an error is forgotten, for interrupts, and for a refused truncation. |
| C72 | Log lines cannot be forged | Vis | vis, strnvis and do_log; the specification is a relation between an encoded line and the bytes it stands for, shown to be functional; case analysis over the 256 bytes by reflection, induction over the text. |
| C73 | The settings that apply to a connection are the ones the configuration says | Serv (on Match, Addr, Argv, MiscNum) | the line splitter, the keyword table and every directive of process_server_config_line_depth, includes with their cache, match_cfg_line, load_server_config, the command line, fill_default_server_options, copy_set_server_options and the three passes main and a connection make; the specification reads the text into directives under Match conditions by an inductive relation, with tables of keywords from sshd_config(5); each directive is shown to set what the tables say, the passes by induction over the reading. |
| C74 | Only accounts the configuration admits may log in | Login (on Serv, Addr, Match) | allowed_user, ga_match and getpwnamallow over the settings of C73; the specification is a record of conditions over patterns, places and groups; the loops by induction, and an invariant of the configuration reader says that every user pattern in force has been checked. |
| C75 | scp writes only inside its target, and what it reports as copied is there | Scp | sink as a function of the bytes received and the answers of the system, its effects in a trace; an invariant over the trace by induction over the records; the sender as a function of a tree, and a replay of the trace over a file system; round trip by induction over trees; brace expansion against a grammar of requests. |
| C76 | A file signature is good only for that message, purpose, signer and time | Sig | signature objects, armour, signing, verification, the allowed signers file and the four -Y commands; keys, digests and the clock are parameters; parsers against grammars by induction over the text, composed into an iff for the verdict; round trip for signing. |
| C77 | A key or certificate means the same to whoever reads it; a certificate says only what its authority signed | Key | parsing and writing of public keys and certificates of all compiled-in types, certification, the text form; verification, signing and point checks are parameters; parsers against a grammar by iff lemmas per field, uniqueness of the signed part from functional parsing, round trips. |
| C78 | A private key file gives back the key that was put in, and only to who has the passphrase | Priv | private key files in OpenSSH format and the private form used by the agent: parser, writer, markers and base64, padding, per-type private parts; KDF, ciphers and secret checks are parameters; parser against a grammar (iff), round trip, equality of files for two secrets under a length-only cipher. |
| C79 | A client that accepts a key exchange was talking to the owner of that host key, in the same exchange | Exch | both sides of every key exchange method (kexgen, group exchange, DH, ECDH, X25519, hybrids), the hash input, checks of public values, moduli choice; crypto primitives are parameters; handlers against iff-specifications, injectivity of the hash input, then agreement of a client and a server run up to an exhibited collision; completeness of the honest run. |
| C80 | A SOCKS client is connected to what it asked for, however its bytes arrive | Socks | the two SOCKS decoders and the handlers of local and remote dynamic forwardings as a state machine over reads and handler runs; decoders against a grammar (sound, complete, stable under more input), then confluence of every schedule; the remote direction by simulation. |
| C81 | Host-based authentication: whose request is signed and accepted | Hostb | HostbModel: valid_request and main of ssh-keysign, the data sshconnect2.c builds, userauth_hostbased and hostbased_key_allowed of auth2-hostbased.c, check_rhosts_file and auth_rhosts2 of auth-rhosts.c. Exact characterisations of what is signed and accepted; lines, words, remarks and entries of rhosts files as relations proved equal to the readers; unambiguity of the signed data gives the composite statement about caller and machine. Not modelled: reading of host keys and configuration, uid switching, logging. |
| C82 | X11 forwarding: only the fake cookie opens the display, and only the fake cookie is told | Xcookie | XcookieModel: x11_open_helper, channel_pre_x11_open, x11_request_forwarding_with_spoofing of channels.c, tohex of misc.c. The check is shown monotone in the data received, so a run is a function of the whole stream; the setup packet is a separate predicate with byte order, lengths and filler; secrecy as equality of what two histories send. |
| C83 | The far terminal gets the modes of the near one | Tty | TtyModel: ssh_tty_make_modes and ssh_tty_parse_modes of ttymodes.c over a platform (the expansion of ttymodes.h, masks, places, speed constants). Every byte string has one of three shapes; the effect of settings is characterised bit by bit and composed with what the other platform sends. |
| C84 | Tokens and variables are expanded once and values are never read as templates | Expand | ExpandModel: vdollar_percent_expand and its three callers in misc.c. Refinement to the inductive relation stands_for; independence of values as a relation between two runs. |
| C85 | A file that passes StrictModes is in the hands of its user | Safep | SafepModel: safe_path of misc.c over canonical paths. Exact characterisation by induction over the path; SafepSpec has an independent model of what other users may do to a tree, and safety is an invariant over all their histories. |
| C86 | Both sides agree on the identification strings and lose nothing after them | Ident | IdentModel: kex_exchange_identification of kex.c from the reading on, byte by byte. Exact characterisation against a relational grammar of lines (IdentSpec) by induction over the input; agreement, unique reading and monotonicity follow. |
