{"id": "C01", "title": "Base64 round trip", "statement": "Encoding any byte string with the library's base64 encoder, with or without stripping the trailing '=' padding, and decoding the text again gives back exactly the same bytes and the same length; the encoded text contains only base64 characters.", "quantifier": "every byte string of every length (all lengths modulo 3, every byte value)", "why_tests_cant": "The input space is infinite; boundary behaviour depends on the length modulo 3 and on every byte value, tests only sample it.", "anchors": ["lib/base64.c: b64_encode, b64_decode, strip_b64_eq", "lib/fko_encode.c: append_b64"]}
{"id": "C02", "title": "Base64 decoding stays inside its buffer and rejects foreign characters", "statement": "Decoding any text never writes more bytes than the text has characters (so a buffer of the text's length always suffices), and returns an error exactly when a character outside the base64 alphabet occurs before the first '=' or the end of the text.", "quantifier": "every NUL-terminated text", "why_tests_cant": "A memory bound over all texts; a fuzzer can only fail to find an overflow.", "anchors": ["lib/base64.c: b64_decode", "lib/fko_encryption.c: _rijndael_decrypt", "lib/fko_decode.c"]}
{"id": "C03", "title": "SPA message encode/decode round trip", "statement": "If a context's fields are set through the public setters and the message is encoded and then decoded by the receiver, every field (random value, username, timestamp, version, message type, message, NAT access, server auth, client timeout) comes back unchanged.", "quantifier": "every combination of field values the setters accept, every message type, every digest type", "why_tests_cant": "The product of all field values and types is infinite and field separators/length limits interact.", "anchors": ["lib/fko_encode.c: fko_encode_spa_data", "lib/fko_decode.c: fko_decode_spa_data", "lib/fko_message.c", "lib/fko_user.c"]}
{"id": "C04", "title": "Decoding only accepts well-formed, digest-protected messages", "statement": "Whenever decoding of a plaintext SPA message succeeds, its last field is a correct digest of everything before it, it has between 6 and 9 further fields, the random value is 16 characters, username, message, NAT and timeout fields pass the documented validation for the decoded message type, and the message type is one of the seven documented types.", "quantifier": "every plaintext byte string", "why_tests_cant": "Soundness over all hostile inputs; tests can only exhibit particular rejected inputs.", "anchors": ["lib/fko_decode.c: fko_decode_spa_data, parse_*, verify_digest, is_valid_digest_len"]}
{"id": "C05", "title": "Access message grammar", "statement": "An access message is accepted by the validator only if it consists of a valid IPv4 address followed by one or more comma separated proto/port items, and every message of that shape with tcp or udp and a port in 1..65535 within the length limits is accepted.", "quantifier": "every message string", "why_tests_cant": "Needs both directions over an infinite language.", "anchors": ["lib/fko_message.c: validate_access_msg, validate_proto_port_spec, got_allow_ip"]}
{"id": "C06", "title": "Username validation keeps separators and shell metacharacters out", "statement": "A username accepted by the setter or decoder is non-empty, at most 63 characters after truncation, starts with an allowed first character and contains none of the characters that are field separators or excluded by the documentation.", "quantifier": "every username string", "why_tests_cant": "Ranges over all byte strings.", "anchors": ["lib/fko_user.c: fko_set_username, validate_username"]}
{"id": "C07", "title": "IPv4 validation", "statement": "A string accepted as an IPv4 address consists of exactly four dot separated groups of decimal digits each denoting a value of at most 255, with total length between 7 and 16; every canonical dotted quad is accepted.", "quantifier": "every string and every length argument", "why_tests_cant": "Infinite input language, both soundness and completeness.", "anchors": ["common/fko_util.c: is_valid_ipv4_addr"]}
{"id": "C08", "title": "Bounded integer parsing", "statement": "The bounded integer parser reports success only if the value it returns lies in the requested range, and the value it returns is the number denoted by the leading digits of the text.", "quantifier": "every text and every range", "why_tests_cant": "Depends on integer width conversions for texts of any length.", "anchors": ["common/fko_util.c: strtol_wrapper"]}
{"id": "C09", "title": "Symmetric encryption round trip", "statement": "For every supported Rijndael mode, key, salt and plaintext, decrypting what was encrypted returns exactly the plaintext with its original length.", "quantifier": "every plaintext of every length, key of 0..32 bytes, salt, mode in {ECB, CBC, CFB, OFB, CTR, legacy CBC}", "why_tests_cant": "All lengths and all key/plaintext bytes; padding ambiguity is a for-all question.", "anchors": ["lib/cipher_funcs.c: rij_encrypt, rij_decrypt, rij_salt_and_iv", "lib/rijndael.c: block_encrypt, block_decrypt"]}
{"id": "C10", "title": "AES block decryption inverts block encryption", "statement": "For every 32-byte key and every 16-byte block, decrypting the encrypted block with the same key gives the block back.", "quantifier": "all 2^256 keys and all 2^128 blocks", "why_tests_cant": "The domain cannot be enumerated; test vectors sample it.", "anchors": ["lib/rijndael.c: rijndael_setup, rijndael_encrypt, rijndael_decrypt, dtbl, itbl, sbox, isbox"]}
{"id": "C11", "title": "End-to-end packet round trip", "statement": "A packet produced by the client API (encode, encrypt, append HMAC) and given to the receiver's constructor with the same keys, mode and HMAC type is accepted and yields the same field values.", "quantifier": "all field values, keys, modes, HMAC types", "why_tests_cant": "Combination of all layers over all inputs.", "anchors": ["lib/fko_funcs.c: fko_spa_data_final, fko_get_spa_data, fko_new_with_data", "lib/fko_encryption.c", "lib/fko_hmac.c"]}
{"id": "C12", "title": "HMAC is verified before anything is decrypted", "statement": "If an HMAC key is configured, the receiver's constructor succeeds only if the packet text ends with the base64 HMAC of the (prefixed) remaining text under that key; otherwise it fails without the decryption key influencing the result.", "quantifier": "every packet text, HMAC key and type, decryption key", "why_tests_cant": "Non-interference over all packets and keys is a universally quantified statement.", "anchors": ["lib/fko_hmac.c: fko_verify_hmac, fko_set_spa_hmac", "lib/fko_funcs.c: fko_new_with_data"]}
{"id": "C13", "title": "Authenticated packets are not malleable", "statement": "With an HMAC key configured, two accepted packets that carry the same ciphertext under the same key are the same text.", "quantifier": "every pair of packet texts", "why_tests_cant": "Relational property over all pairs of inputs.", "anchors": ["lib/fko_hmac.c: fko_verify_hmac", "lib/cipher_funcs.c: add_salted_str"]}
{"id": "C14", "title": "Constant-time comparison is equality", "statement": "The constant run time comparison returns zero exactly if the two buffers agree on the given number of bytes, and inspects every byte whatever the data.", "quantifier": "all pairs of buffers and all lengths", "why_tests_cant": "All data; timing independence is a property of every execution.", "anchors": ["common/fko_util.c: constant_runtime_cmp"]}
{"id": "C15", "title": "Context life cycle", "statement": "Every public function called on a context that was never created or has been destroyed returns the not-initialized error and changes nothing; after a successful setter the getter returns the value that was set.", "quantifier": "every sequence of API calls", "why_tests_cant": "Arbitrary call histories.", "anchors": ["lib/fko_context.h", "lib/fko_state.h", "lib/fko_funcs.c"]}
{"id": "C16", "title": "No stale data is sent", "statement": "After any sequence of setter calls, the packet produced by finalisation carries the values most recently set, never an earlier encoding.", "quantifier": "every history of setter, encode, encrypt and finalise calls", "why_tests_cant": "Depends on modification flags over arbitrary histories.", "anchors": ["lib/fko_state.h: FKO_IS_SPA_DATA_MODIFIED, FKO_CLEAR_SPA_DATA_MODIFIED", "lib/fko_encode.c", "lib/fko_funcs.c: fko_spa_data_final"]}
{"id": "C17", "title": "Access is granted only if every configured check passes", "statement": "Whenever processing an incoming packet opens the firewall, runs a command or starts a command cycle, some access stanza exists whose source and destination lists match the packet, which is not expired, under whose keys the packet authenticates and decrypts, and all of whose checks (age, source address, username, message type permission, ports) the packet passes.", "quantifier": "every packet, configuration, clock value and replay cache state", "why_tests_cant": "The decision is a conjunction over a loop across all stanzas with many early exits; a missed check shows only for particular combinations.", "anchors": ["server/incoming_spa.c: incoming_spa and its helpers"]}
{"id": "C18", "title": "First acceptable stanza decides and at most one grant per packet", "statement": "Per packet at most one stanza grants access, it is the first stanza in file order that passes all checks, and a packet that fails a stanza's checks is still tried against later ones except where the code documents an abort.", "quantifier": "every packet and stanza list", "why_tests_cant": "All stanza list lengths and orders.", "anchors": ["server/incoming_spa.c: incoming_spa"]}
{"id": "C19", "title": "No replay", "statement": "With digest tracking enabled, once a packet has been accepted no later packet with the same SPA data is ever acted upon, over any history of packets, for as long as the cache is kept.", "quantifier": "every finite history of packets interleaved with clock changes", "why_tests_cant": "History property.", "anchors": ["server/incoming_spa.c: get_raw_digest, src_check, add_replay_cache", "server/replay_cache.c"]}
{"id": "C20", "title": "Replayed traffic cannot be disguised", "statement": "An attacker who alters an accepted packet without knowing the keys cannot make it acceptable again (different text, same authenticated content).", "quantifier": "every accepted packet and every altered text", "why_tests_cant": "Quantifies over all alterations.", "anchors": ["server/incoming_spa.c: preprocess_spa_data", "lib/cipher_funcs.c: add_salted_str", "lib/base64.c: b64_decode"]}
{"id": "C21", "title": "Replay cache survives restart", "statement": "After a clean stop and start the in-memory replay cache contains every digest that was recorded before.", "quantifier": "every history of recorded packets (addresses, ports, protocol, times)", "why_tests_cant": "Round trip through a text file for all histories.", "anchors": ["server/replay_cache.c: replay_file_cache_init, add_replay_file_cache"]}
{"id": "C22", "title": "Replay cache survives crashes", "statement": "If the daemon is killed at any point while recording a digest, after restart all digests recorded before the interrupted one are present, and so are those recorded after the restart.", "quantifier": "every crash point within every append, every number of crashes", "why_tests_cant": "Crash points.", "anchors": ["server/replay_cache.c: add_replay_file_cache, replay_file_cache_init"]}
{"id": "C23", "title": "Packet age window", "statement": "With packet aging enabled, a packet whose timestamp differs from the server clock by more than MAX_SPA_PACKET_AGE in either direction is never acted upon.", "quantifier": "every clock value and timestamp", "why_tests_cant": "Integer conversions at all values.", "anchors": ["server/incoming_spa.c: check_pkt_age"]}
{"id": "C24", "title": "Expired stanzas never grant access", "statement": "Once an access stanza's expiration time has passed it never grants access again, even if the clock is set back.", "quantifier": "every history of clock values and packets", "why_tests_cant": "History property.", "anchors": ["server/incoming_spa.c: check_stanza_expiration"]}
{"id": "C25", "title": "CIDR source and destination matching", "statement": "An address/mask entry matches exactly the addresses whose leading n bits agree with it; ANY matches every address; a list matches if some entry does.", "quantifier": "every entry, every prefix length 1..32, every address", "why_tests_cant": "2^64 combinations, all list lengths.", "anchors": ["server/access.c: add_int_ent, expand_acc_int_list, compare_addr_list, acc_check_... ", "server/incoming_spa.c: is_src_match, src_dst_check"]}
{"id": "C26", "title": "Port checks", "statement": "A request is permitted only if none of the requested protocol/port pairs is in RESTRICT_PORTS and, if OPEN_PORTS is configured, all of them are in OPEN_PORTS.", "quantifier": "every request list and configured lists", "why_tests_cant": "All lists of all lengths, including duplicates.", "anchors": ["server/access.c: acc_check_port_access, compare_port_list, expand_acc_port_list, parse_proto_and_port"]}
{"id": "C27", "title": "Access timeout never exceeds the configured maximum", "statement": "The lifetime used for a firewall rule is at most MAX_FW_TIMEOUT whatever the client asks for.", "quantifier": "every stanza and client timeout", "why_tests_cant": "All numeric combinations including sign conversions.", "anchors": ["server/incoming_spa.c: set_timeout"]}
{"id": "C28", "title": "Granted address", "statement": "The address opened is the one inside the authenticated message, or, only if that is 0.0.0.0 and the stanza does not require a source address, the packet's source (or its validated X-Forwarded-For address when enabled).", "quantifier": "every message and packet source", "why_tests_cant": "All inputs.", "anchors": ["server/incoming_spa.c: check_src_access"]}
{"id": "C29", "title": "Commands run only if enabled", "statement": "A command message is executed only if the stanza enables command execution, with exactly the command text of the message, as the configured user and group.", "quantifier": "every message and stanza", "why_tests_cant": "All configurations.", "anchors": ["server/incoming_spa.c: process_cmd_msg"]}
{"id": "C30", "title": "Test mode has no effects", "statement": "With --test no firewall rule is added and no command of any kind is run for any packet.", "quantifier": "every packet and configuration", "why_tests_cant": "All inputs.", "anchors": ["server/incoming_spa.c: incoming_spa, process_cmd_msg", "server/cmd_cycle.c"]}
{"id": "C31", "title": "Command cycles: each open is closed exactly once and on time", "statement": "For every opened command cycle with a close command, the close command is run exactly once, at the first timer pass at which the configured (or client requested) time has elapsed, in opening order, and cycles not yet due are untouched.", "quantifier": "every history of opens and timer passes with arbitrary clock values", "why_tests_cant": "Linked list surgery over arbitrary histories.", "anchors": ["server/cmd_cycle.c: add_cmd_close, cmd_cycle_close"]}
{"id": "C32", "title": "Command template substitution", "statement": "The command line built for a command cycle is the template with $IP/$SRC, $PKT_SRC, $DST, $PORT, $PROTO, $CLIENT_TIMEOUT replaced by the request's values and everything else copied literally, and never overruns its buffer.", "quantifier": "every template and request", "why_tests_cant": "All templates; memory bound.", "anchors": ["server/cmd_cycle.c: build_cmd, is_var"]}
{"id": "C33", "title": "Packet parsing stays inside the captured frame", "statement": "For every captured frame, every byte examined or copied lies inside the captured bytes and at most MAX_SPA_PACKET_LEN bytes are copied.", "quantifier": "every frame content and capture length", "why_tests_cant": "Memory safety over all frames.", "anchors": ["server/process_packet.c: process_packet"]}
{"id": "C34", "title": "HTTP preprocessing", "statement": "An SPA request sent over HTTP yields exactly the SPA data after the GET slash with URL-safe characters mapped back, and only base64 data reaches decryption.", "quantifier": "every packet payload", "why_tests_cant": "All payloads.", "anchors": ["server/incoming_spa.c: preprocess_spa_data"]}
{"id": "C35", "title": "Expired firewall rules are removed, others are kept", "statement": "A cleanup pass over a chain deletes exactly the fwknop rules whose expiry time has passed, leaves all other rules in place and in order, whatever the positions of the expired ones.", "quantifier": "every rule list, clock value", "why_tests_cant": "Rule numbers shift under deletion; all positions and counts.", "anchors": ["server/fw_util_iptables.c: rm_expired_rules, check_firewall_rules"]}
{"id": "C36", "title": "No firewall rule outlives its expiry", "statement": "At every point of every run, after the periodic check at time t no rule whose expiry is at or before t remains.", "quantifier": "every interleaving of grants and periodic checks with a monotone clock", "why_tests_cant": "History property over bookkeeping variables.", "anchors": ["server/fw_util_iptables.c: ipt_rule, check_firewall_rules, rm_expired_rules", "server/pcap_capture.c", "server/udp_server.c"]}
{"id": "C37", "title": "Firewall rules open only what was requested", "statement": "Rules created for an access request name the granted source address and exactly the requested protocol/port pairs and carry the expiry time now + timeout.", "quantifier": "every request", "why_tests_cant": "All requests.", "anchors": ["server/fw_util_iptables.c: process_spa_request, ipt_rule, create_rule"]}
{"id": "C38", "title": "Configuration list parsing", "statement": "Parsing a comma separated address, port or string list yields exactly the listed items in order, or an error; nothing is silently dropped.", "quantifier": "every list text", "why_tests_cant": "All texts.", "anchors": ["server/access.c: expand_acc_int_list, expand_acc_port_list, expand_acc_string_list, parse_proto_and_port"]}
{"id": "C39", "title": "Configuration variable expansion", "statement": "A configuration value that starts with $NAME is replaced by the value of NAME followed by the rest of the text, independently of the preceding lines.", "quantifier": "every configuration file", "why_tests_cant": "History within the file.", "anchors": ["server/config_init.c: parse_config_file"]}
{"id": "C40", "title": "Command line splitting", "statement": "Splitting a command string into arguments yields exactly its maximal runs of non-space characters in order, or fails if there are too many.", "quantifier": "every string", "why_tests_cant": "All strings.", "anchors": ["common/fko_util.c: strtoargv, add_argv"]}
{"id": "C41", "title": "Bounded string copy and concatenation", "statement": "The bounded copy and concatenation helpers never write outside the destination size, always terminate it, and produce the longest prefix that fits.", "quantifier": "all sources, destinations and sizes", "why_tests_cant": "Memory bound over all inputs.", "anchors": ["common/strlcpy.c", "common/strlcat.c"]}
{"id": "C42", "title": "Hostname validation", "statement": "A NAT host name accepted by the validator consists of dot separated labels of at most 63 letters, digits or hyphens that neither begin nor end with a hyphen, total length at most 254.", "quantifier": "every string", "why_tests_cant": "Infinite language.", "anchors": ["common/fko_util.c: is_valid_hostname"]}
{"id": "C43", "title": "Key material is wiped", "statement": "After the wiping helper reports success every byte of the buffer is zero, and it reports failure for lengths outside its limits instead of wiping partially.", "quantifier": "all buffers and lengths", "why_tests_cant": "All inputs.", "anchors": ["common/fko_util.c: zero_buf, zero_free"]}
{"id": "C44", "title": "HMAC construction", "statement": "The keyed digest computed for every supported type is the RFC 2104 HMAC of the message under the key, for every key length up to the maximum.", "quantifier": "every key, message, digest type", "why_tests_cant": "All key lengths around the block size, every message.", "anchors": ["lib/hmac.c"]}
{"id": "C45", "title": "The block cipher is AES", "statement": "For every key of 16, 24 or 32 bytes and every 16-byte block, the table driven encryption routine computes exactly the AES cipher of FIPS 197, so packets can be exchanged with any other conforming implementation.", "quantifier": "all keys of the three sizes and all 2^128 blocks", "why_tests_cant": "Published vectors exercise a few dozen of 2^384 inputs; one wrong table entry would be missed by most of them.", "anchors": ["lib/rijndael.c: rijndael_setup, rijndael_encrypt, dtbl, sbox"]}
{"id": "C46", "title": "Ciphertexts have the standard format", "statement": "The encrypted data are the eight letters Salted__, the salt, and the PKCS#7 padded plaintext encrypted with AES-256 in the chosen NIST SP 800-38A mode under the key and IV that OpenSSL derives from password and salt (MD5, one round); legacy mode fills short passwords with the digit 0.", "quantifier": "every password, salt, plaintext and supported mode", "why_tests_cant": "Interoperability vectors cover single block counts and counter values; counter wrap-around and chaining over any number of blocks need a proof.", "anchors": ["lib/cipher_funcs.c: rij_encrypt, rij_salt_and_iv", "lib/rijndael.c: block_encrypt"]}
{"id": "C47", "title": "Generated random values are well formed", "statement": "Whenever a random value is generated for a context, the value read back is exactly sixteen decimal digits.", "quantifier": "every sequence of numbers the system's generator may return", "why_tests_cant": "The value depends on an unbounded choice of generator outputs of varying decimal length.", "anchors": ["lib/fko_rand_value.c:fko_set_rand_value"]}
{"id": "C48", "title": "Key generation produces keys of the requested size", "statement": "When key generation succeeds, both results are the RFC 4648 text of keys with the requested lengths, or of the documented default lengths, within the supported limits; with default lengths it succeeds for every HMAC type.", "quantifier": "all requested lengths and HMAC types", "why_tests_cant": "The combination of lengths and types is unbounded.", "anchors": ["lib/fko_funcs.c:fko_key_gen"]}
{"id": "C49", "title": "Memory safety of the sender interface", "statement": "No sequence of calls a sending program can make on a context, in any order and whatever their results, reads or writes outside the memory the library owns.", "quantifier": "every history of sender calls with all arguments", "why_tests_cant": "All orders of calls and all argument values have to be considered; out of bounds reads are usually silent.", "anchors": ["lib/fko_encryption.c:fko_encrypt_spa_data", "lib/fko_hmac.c:fko_set_spa_hmac", "lib/fko_funcs.c:fko_spa_data_final"]}
{"id": "C50", "title": "Memory safety of the receiver", "statement": "Creating a context from received data never accesses memory out of bounds, whatever the data, keys and modes.", "quantifier": "every packet text, every key and mode", "why_tests_cant": "The attacker chooses the packet text.", "anchors": ["lib/fko_funcs.c:fko_new_with_data", "lib/fko_encryption.c:_rijndael_decrypt", "lib/cipher_funcs.c:rij_decrypt"]}
{"id": "C51", "title": "Memory safety of packet preprocessing", "statement": "Looking for the SPA data in a received packet (prefix tests, HTTP request parsing, X-Forwarded-For header) never reads or writes outside the packet buffer and the fixed-size fields.", "quantifier": "every packet of up to 1500 bytes and every configuration", "why_tests_cant": "The attacker chooses the packet; the faults depend on the exact position and length of a header value.", "anchors": ["server/incoming_spa.c:preprocess_spa_data", "server/fwknopd_common.h:spa_pkt_info"]}
{"id": "C52", "title": "Ignored packets leave no trace", "statement": "A packet that is not acted upon changes nothing: no cycle is opened or closed, the stanzas stay as they are except for marks of expired ones, and the replay cache gains at most the digest of that very packet.", "quantifier": "every packet, every configuration and state of the daemon", "why_tests_cant": "All packets that are refused, for whatever reason, have to be considered.", "anchors": ["server/incoming_spa.c:incoming_spa", "server/replay_cache.c:add_replay"]}
{"id": "C53", "title": "Datagrams of the UDP server", "statement": "The UDP server hands on exactly the bytes of each datagram with the sender's address, whatever was received before, and never stores outside its buffers.", "quantifier": "every datagram, every earlier content of the buffers, every result of recvfrom", "why_tests_cant": "Depends on what earlier packets left in the buffer and on spurious wakeups of the socket.", "anchors": ["server/udp_server.c:run_udp_server"]}
{"id": "C54", "title": "Settings of the server configuration file", "statement": "After reading a configuration file every known variable has the value given by the last line about it (without the blanks around it and up to a semicolon), or its old value if no line is about it; comments, malformed lines and unknown variables disturb nothing, and reading is memory safe.", "quantifier": "every file (any number of lines), every earlier configuration, every variable", "why_tests_cant": "Depends on the whole history of lines of the file and on arbitrary text in them.", "anchors": ["server/config_init.c:parse_config_file", "server/config_init.c:set_config_entry", "common/fko_util.c:chop_whitespace"]}
{"id": "C55", "title": "Numbers of the server configuration are within their limits", "statement": "The daemon only starts if each of its integer settings lies within its documented limits (ports within 1..65535), and works with exactly the number written.", "quantifier": "every configuration text", "why_tests_cant": "Ranges over all texts, including numbers beyond the width of an int.", "anchors": ["server/config_init.c:range_check", "server/config_init.c:validate_int_var_ranges", "server/fwknopd_common.h"]}
{"id": "C56", "title": "Settings of the access file", "statement": "Each stanza of the access file takes effect with exactly the settings its lines give: the last line about a parameter counts, blanks around values do not, comments give nothing, parameters not given have their defaults, no line of one stanza affects another; the firewall is used exactly if some stanza does not run command cycles.", "quantifier": "every access file (any number of lines and stanzas), every parameter", "why_tests_cant": "Depends on the whole history of lines, and on arbitrary texts in them.", "anchors": ["server/access.c:parse_access_file", "server/access.c:set_acc_defaults"]}
{"id": "C57", "title": "Only usable stanzas are loaded", "statement": "The server only starts if every stanza has a key to decrypt with, different keys for encryption and HMAC, consistent NAT settings, complete command cycles, timeouts and a way to check signatures.", "quantifier": "every set of access files and their includes", "why_tests_cant": "Quantifies over every arrangement of included files and folders.", "anchors": ["server/access.c:acc_data_is_valid", "server/access.c:parse_access_file", "server/access.c:include_keys_file"]}
{"id": "C58", "title": "Lists of a stanza contain each item once", "statement": "However the access files are arranged, the source, destination, port and GnuPG lists of a stanza contain exactly the items of its settings, each once.", "quantifier": "every set of access files and folders", "why_tests_cant": "The lists are rebuilt for each file read, so the effect depends on the number and order of the files.", "anchors": ["server/access.c:expand_acc_ent_lists", "server/access.c:parse_access_folder"]}
{"id": "C59", "title": "Identity commands are run with", "statement": "Commands of a stanza run as the user CMD_EXEC_USER and the group CMD_EXEC_GROUP name, or the group of that user.", "quantifier": "every order of the settings, every user database", "why_tests_cant": "Depends on the order of settings through a shared result buffer.", "anchors": ["server/access.c:get_user_pw", "server/access.c:acc_data_is_valid"]}
{"id": "C60", "title": "Reading the access files ends", "statement": "Reading the access files ends whatever files and folders they include.", "quantifier": "every set of files and every inclusion structure, including cyclic ones", "why_tests_cant": "Non-termination on cyclic structures cannot be observed by a test that ends.", "anchors": ["server/access.c:parse_access_file", "server/access.c:parse_access_folder"]}
{"id": "C61", "title": "Expiry of a stanza", "statement": "A stanza with an expiry setting expires at the moment given; a text that gives no moment is refused.", "quantifier": "every access file, every date and number", "why_tests_cant": "Ranges over all dates and texts.", "anchors": ["server/access.c:add_acc_expire_time", "server/access.c:add_acc_expire_time_epoch"]}
{"id": "C62", "title": "Forced NAT", "statement": "FORCE_NAT with an address and a port directs the traffic of the stanza to this address and port; other texts are refused.", "quantifier": "every text of the setting", "why_tests_cant": "Ranges over all texts, including overlong numbers and addresses.", "anchors": ["server/access.c:add_acc_force_nat"]}
{"id": "C63", "title": "The hash functions are the standard ones", "statement": "The digest functions give the digests of RFC 1321 (MD5), FIPS 180-4 (SHA-1, SHA-256, SHA-384, SHA-512) and FIPS 202 (SHA3-256, SHA3-512) for every text of less than 2^31 bytes, also when the text is handed over in pieces, and the HMAC over them is that of RFC 2104; the memory used before does not matter.", "quantifier": "every text below 2^31 bytes, every way to cut it into pieces, every key, every content of the memory beforehand", "why_tests_cant": "Test vectors cover a few lengths; padding and block boundaries concern every length, and the functions range over all texts.", "anchors": ["lib/md5.c", "lib/sha1.c", "lib/sha2.c", "lib/sha3.c", "lib/digest.c", "lib/hmac.c"]}
{"id": "C64", "title": "The client's packet says what the options ask for", "statement": "If the client makes a packet, then whoever has the keys opens it and finds the user name, time, type, address, ports, translation and timeout that the options ask for; a request that cannot be sent is refused instead.", "quantifier": "every combination of options, every login name, time, random source", "why_tests_cant": "The options combine freely and their texts have any length.", "anchors": ["client/fwknop.c:main", "client/fwknop.c:set_message_type", "client/fwknop.c:set_access_buf", "client/fwknop.c:set_nat_access"]}
{"id": "C65", "title": "From the client's options to the open port", "statement": "If client and server agree on the keys and a stanza permits the address and ports that the user asks for, the packet that the client sends makes the server grant exactly this access for exactly this address, once.", "quantifier": "every combination of options, stanzas, states of the server and ways of sending", "why_tests_cant": "The claim spans both programs and ranges over all configurations and histories.", "anchors": ["client/fwknop.c:main", "client/spa_comm.c:send_spa_packet", "server/incoming_spa.c:incoming_spa"]}
{"id": "C66", "title": "Packets over HTTP", "statement": "A packet sent as an HTTP request, directly or by way of a proxy, reaches the host named and is read by the server as the packet that was made.", "quantifier": "every packet, server name, user agent and proxy text", "why_tests_cant": "Ranges over all packets and texts, including overlong ones.", "anchors": ["client/spa_comm.c:send_spa_packet_http", "server/incoming_spa.c:preprocess_spa_data"]}
{"id": "C67", "title": "Raw packets", "statement": "A packet sent over a raw socket is a valid IP datagram of the protocol chosen, to the server's address, from the spoofed address if one is given, with the packet as its contents.", "quantifier": "every packet, address, port, ICMP type and code", "why_tests_cant": "Checksums and lengths concern every content; raw sockets are not available to tests.", "anchors": ["client/spa_comm.c:send_spa_packet_tcp_raw", "client/spa_comm.c:send_spa_packet_udp_raw", "client/spa_comm.c:send_spa_packet_icmp", "client/spa_comm.c:chksum"]}
{"id": "C68", "title": "Random ports", "statement": "A random destination, source or translation port is in 10000 to 65534, is the one that is really used and reveals nothing about the contents of the packet.", "quantifier": "every random source, every protocol and option", "why_tests_cant": "Ranges over all random values, including those a test does not draw.", "anchors": ["client/fwknop.c:get_rand_port", "client/fwknop.c:set_access_buf"]}
{"id": "C69", "title": "Passwords and key files", "statement": "The key is the line typed at the prompt after its edits, or the entry of the key file for the server; an interrupted prompt or an unreadable entry sends nothing.", "quantifier": "every sequence of key strokes, every key file", "why_tests_cant": "Key strokes and file contents have unbounded length.", "anchors": ["client/getpasswd.c:read_passwd_from_stream", "client/getpasswd.c:get_key_file", "client/fwknop.c:get_keys"]}
{"id": "C70", "title": "Encryption key and HMAC key differ", "statement": "No packet is sent for which the encryption key and the HMAC key are the same.", "quantifier": "every pair of keys and every way to give them", "why_tests_cant": "Ranges over all keys, encodings and modes.", "anchors": ["client/fwknop.c:get_keys", "client/fwknop.c:main"]}
{"id": "C71", "title": "Test runs, failures and the packet file", "statement": "In test mode nothing is sent, nor in a run that ends with a failure; the packet file gets the line that is sent.", "quantifier": "every run of the client", "why_tests_cant": "Ranges over all failures of all calls.", "anchors": ["client/fwknop.c:main", "client/spa_comm.c:write_spa_packet_data"]}
{"id": "C72", "title": "Command line over stanza over default stanza", "statement": "Each setting of the client is the one of the command line if it is given there, else that of the stanza asked for, else that of the default stanza, else the built-in value; entries of other stanzas have no effect and an entry with a value that is not allowed stops the client.", "quantifier": "every rc file and every command line", "why_tests_cant": "Ranges over all files, all stanzas and all combinations of options.", "anchors": ["client/config_init.c:config_init", "client/config_init.c:process_rc_section", "client/config_init.c:parse_rc_param"]}
{"id": "C73", "title": "Accepted options can be used", "statement": "If the client accepts its options and is to send a packet, they name a server, an address or a way to find it, and consistent modes and keys, so that a packet can be made.", "quantifier": "every rc file and every command line", "why_tests_cant": "Ranges over all combinations of options from two sources.", "anchors": ["client/config_init.c:validate_options"]}
{"id": "C74", "title": "Saving a stanza keeps the others", "statement": "When the client saves its options under a name, the stanza of this name in the rc file then says what was asked for, except for keys the user wants to keep; the other stanzas say what they said, and an interrupted run leaves the old file or the new one.", "quantifier": "every rc file, command line, answer to the questions and moment of an interruption", "why_tests_cant": "Ranges over all files with all arrangements of stanzas, all sets of options and every crash point.", "anchors": ["client/config_init.c:update_rc", "client/config_init.c:add_multiple_vars_to_rc", "client/config_init.c:add_single_var_to_rc"]}
{"id": "C75", "title": "Saved options come back", "statement": "When the client has saved its options under a name, a later run that asks only for this name starts, has the same settings as the run that saved them, makes the same packet from them and sends it the same way.", "quantifier": "every rc file, every command line and every answer to the questions", "why_tests_cant": "A round trip through a text file over all combinations of options, values and other stanzas.", "anchors": ["client/config_init.c:add_single_var_to_rc", "client/config_init.c:update_rc", "client/config_init.c:process_rc_section", "client/config_init.c:parse_rc_param"]}
{"id": "C76", "title": "--last repeats the last command", "statement": "Started with --last, the client goes on with exactly the options of the last command line that was saved, whatever runs came before or between, and changes no file.", "quantifier": "every history of client runs, every argument list and every rc file", "why_tests_cant": "Ranges over all histories of runs and all argument lists, including blanks, empty arguments and lengths at the buffer limits.", "anchors": ["client/fwknop.c:prev_exec", "client/fwknop.c:save_args", "client/fwknop.c:run_last_args", "common/fko_util.c:strtoargv"]}
{"id": "C77", "title": "Starting and stopping the daemon leaves the rest of the firewall as it was", "statement": "Making the daemon's chains, granting requests, removing expired rules and removing the chains never change, remove or move a rule or chain that is not the daemon's. After the start, the daemon's chains exist, hold no permission of an earlier run, and are reached by their jump rules. After the end, the firewall is the one before the start.", "quantifier": "every firewall, every configuration of chains, every history of requests and expiry passes, and every way in which single runs of iptables can fail", "why_tests_cant": "Ranges over all rule sets and all histories, and over failures of each external command at each point.", "anchors": ["server/fw_util_iptables.c:fw_initialize", "server/fw_util_iptables.c:fw_cleanup", "server/fw_util_iptables.c:delete_all_chains", "server/fw_util_iptables.c:create_fw_chains", "server/fw_util_iptables.c:ipt_chk_support", "server/fw_util_iptables.c:comment_match_exists"]}
{"id": "C78", "title": "Everything the firewall lets through was asked for by an authorised packet, and ends in time", "statement": "At every moment of the daemon's life, each rule of the firewall was there before the daemon started, or leads to one of the daemon's chains, or is the rule for a protocol and port that a packet asked for, for the address of that packet, where an access stanza in force when the packet came authorises that packet and permits that port. Once the time of a permission is over, the next complete pass leaves no rule of it. What is granted without NAT is open afterwards.", "quantifier": "every history of packets (forged, replayed or genuine), expiry passes, restarts and rereadings of the access file, every firewall, and every way in which single runs of iptables can fail", "why_tests_cant": "It is an invariant over unbounded histories with adversarial packets and external failures, across decryption, access checks and firewall handling.", "anchors": ["server/incoming_spa.c:incoming_spa", "server/fw_util_iptables.c:process_spa_request", "server/fw_util_iptables.c:check_firewall_rules", "server/fwknopd.c:main"]}
{"id": "C79", "title": "What is asked for on the client's command line is what the server's firewall opens", "statement": "A client and a server with the same keys, and a stanza that permits the request: after the client has run and its packet has arrived, the server's firewall has a rule for each protocol and port given on the command line, for the address given there (or the sender's), until the time asked for as far as the server allows it, and no other new rule. A request with NAT sends the first protocol and port on to the host and port given on the command line, and to no other.", "quantifier": "every set of options, every stanza agreeing with it, every firewall, every salt, random value and clock", "why_tests_cant": "It relates all inputs of one program to all effects of another across encoding, encryption, transport, decoding, access checks and rule building.", "anchors": ["client/fwknop.c:main", "client/spa_comm.c:send_spa_packet", "server/incoming_spa.c:incoming_spa", "server/fw_util_iptables.c:process_spa_request"]}
{"id": "C80", "title": "The chains of the firewall are those of fwknopd.conf", "statement": "When fwknopd has started, the target, table, from-chain, jump position and to-chain of each chain it uses are those of the setting in fwknopd.conf, or the documented default if there is no setting; a chain is used exactly if its feature is enabled; the firewall program, rule order, destination addresses, source translation and name lookups are as set. A daemon with settings that are in order starts; one with a chain setting that is not six fields of letters, digits and underscores does not; and no contents of the files lead to undefined behaviour.", "quantifier": "every configuration file, override file and set of options", "why_tests_cant": "The settings are free texts of any length, and the chains must be right for each of them.", "anchors": ["server/config_init.c:config_init", "server/config_init.c:validate_options", "server/fw_util_iptables.c:fw_config_init", "server/fw_util_iptables.c:set_fw_chain_conf", "server/fw_util_iptables.c:validate_ipt_chain_conf"]}
{"id": "C81", "title": "Override files and options win over the configuration file", "statement": "The settings of fwknopd are those of the configuration file (the default one or that of -c), overridden by those of the files of -O in their order, overridden by the options of the command line; within each the last line or option counts. Naming the configuration file with -c makes no difference to what it says.", "quantifier": "every list of files and options", "why_tests_cant": "The number of files, lines and options is not bounded.", "anchors": ["server/config_init.c:config_init", "server/config_init.c:parse_config_file", "server/config_init.c:set_config_entry"]}
{"id": "C82", "title": "From the texts of the daemon's files to the rules of the firewall", "statement": "When the daemon has started from its configuration file, its options and its access file, then whatever packets arrive, whichever passes for expired rules are made and however each run of iptables ends, every rule of the firewall was there before, or is a jump into one of the chains that fwknopd.conf names, or was made by one stanza of the access file, with the settings that the lines of this stanza give, for a packet that this stanza lets, and carries the expiry of this request. The stanzas loaded are always usable: a key where one is needed, timeouts within limits, NAT addresses that are addresses. What a stanza asks for, source NAT included, is what is done.", "quantifier": "all configuration files, option lists and access files; all histories of packets, passes and restarts of the chains; all results of iptables", "why_tests_cant": "Tests run the daemon with a handful of configuration files against single packets; the property composes the readers of two file formats, the checks of packets and the making of rules over every file text and every history.", "anchors": ["server/config_init.c: config_init, validate_options", "server/access.c: parse_access_file, acc_data_is_valid, set_acc_defaults", "server/incoming_spa.c: incoming_spa", "server/fw_util_iptables.c: fw_config_init, process_spa_request, snat_rule"]}
{"id": "C83", "title": "Only one daemon runs, and the PID file names it", "statement": "However the steps of several fwknopd programs follow one another, at most one daemon runs, and the PID file names it. fwknopd -K and -R signal the daemon that runs and no other process; fwknopd -S says that none runs only when none does, and changes nothing.", "quantifier": "all orders of the steps of any number of daemons and of -K, -R and -S commands, all process numbers, all contents of the PID file, ends of processes at any point", "why_tests_cant": "Tests start daemons one after the other; the property is about all interleavings of several processes, of crashes and of the reuse of process numbers.", "anchors": ["server/fwknopd.c: setup_pid, daemonize_process, write_pid_file, get_running_pid, stop_fwknopd, restart_fwknopd, status_fwknopd"]}
{"id": "C84", "title": "The daemon answers to signals", "statement": "SIGTERM and SIGINT make the daemon end within a bounded number of steps, with its firewall rules cleaned up; SIGHUP makes it read its settings again and go on; no other signal makes it do either. It does neither without such a signal, an error, the end of its input or the packet limit.", "quantifier": "all sequences of signals, delivered between any two accesses to the signal flags, all outcomes of receiving packets, both ways to receive them", "why_tests_cant": "Whether a signal is lost depends on the instruction at which it arrives; tests send one signal to an idle daemon.", "anchors": ["server/sig_handler.c: sig_handler, set_sig_handlers, sig_do_stop", "server/fwknopd.c: main, handle_signals", "server/pcap_capture.c: pcap_capture", "server/udp_server.c: run_udp_server"]}
{"id": "C85", "title": "With -R the packet asks access for the address that the web server names", "statement": "With -R (with wget, or with --resolve-http-only over plain HTTP) the client asks the host, port and page of its URL and no other, runs wget directly and with the user agent and the URL as one argument each, and sends a packet only if the answer begins (behind its header) with an IPv4 address; that address is then the one in the packet. No URL and no answer makes it touch memory outside its arrays.", "quantifier": "all URLs, user agents, answers and ways to cut an answer into pieces, all other options of the client", "why_tests_cant": "Answers come from a server the user does not control, in pieces of any size; tests use one well-formed answer.", "anchors": ["client/http_resolve_host.c: try_url, parse_url, resolve_ip_https, resolve_ip_http", "client/fwknop.c: main"]}
{"id": "C86", "title": "A program the daemon starts runs as the configured user, and its result is reported as it was", "statement": "A command that a packet makes the daemon run has the user and group configured for it as its real, effective and saved identities and no other rights, can never get other ones by system calls, and does not run at all if its identity cannot be changed; the process made for it never goes on as a second daemon. The status the daemon logs and acts on is the one the program ended with, whatever signals arrive meanwhile. A search in the output of a program finds the first line with the text, and only if there is one.", "quantifier": "all identities of the daemon, users, groups and command lines, all failures of system calls, all orders of ends of children and runs of the signal handler, all outputs", "why_tests_cant": "The status depends on when the signal handler runs relative to the wait, and the identities on failures (limits of processes) that a test cannot bring about.", "anchors": ["server/extcmd.c: _run_extcmd, _run_extcmd_write, copy_or_search", "server/sig_handler.c: sig_handler", "server/incoming_spa.c: process_cmd_msg"]}
{"id": "C87", "title": "The TCP server of the daemon leaves its firewall alone", "statement": "With ENABLE_TCP_SERVER the process that accepts TCP connections serves them one after the other for as long as the daemon runs, and ends with it. At any moment exactly one such process exists, the one the daemon knows of; it is started again if it dies, and after a SIGHUP. The rules of the daemon are always those it would have without a TCP server.", "quantifier": "all histories of SIGHUPs, grants, connections, failures of system calls and ends of processes, in all interleavings of the daemon and its TCP servers", "why_tests_cant": "The interleavings matter: a SIGHUP in the second in which a connection is served, a server that ends after the daemon has started again, a signal handler before a wait.", "anchors": ["server/tcp_server.c: run_tcp_server", "server/fwknopd.c: main, handle_signals", "server/pcap_capture.c: pcap_capture", "server/utils.c: clean_exit"]}
{"id": "C88", "title": "On pf each accepted request opens exactly its rules, until their time", "statement": "With pf as the firewall, an accepted request for access adds to the anchor of the daemon one rule for each protocol and port asked for, from the granted source, with its time, and is reported as served exactly if it does. Each rule is removed by the first check after its time, and no earlier. Nothing else in the anchor or in other anchors changes, whatever pfctl does. The daemon starts only if its anchor is in the main rules, with the anchor empty, and leaves it empty.", "quantifier": "all configurations, requests, rules in the anchor, times, ways in which runs of pfctl fail, and histories of requests and checks", "why_tests_cant": "The rules are rewritten as one text at each step, and two counters decide when a check looks at them: whether a rule is ever removed depends on the whole history of requests, checks and failures.", "anchors": ["server/fw_util_pf.c: process_spa_request, check_firewall_rules, fw_initialize, fw_cleanup, anchor_active", "server/fw_util_pf.h", "server/extcmd.c: run_extcmd, run_extcmd_write, search_extcmd"]}
{"id": "C89", "title": "No packet brings the daemon down", "statement": "Whatever bytes arrive, and whatever arrived and happened before, the processing of a packet comes to its end: the daemon reads and writes only memory it owns and uses no pointer that is not set.", "quantifier": "all packets, configurations, keys, contents of the digest file, GnuPG installations, clock values and histories of packets, restarts and crashes", "why_tests_cant": "Whether an access stays inside a buffer depends on lengths and positions that the sender picks, on the settings of the stanzas in combination, and on the digests seen before.", "anchors": ["server/incoming_spa.c: incoming_spa, preprocess_spa_data, process_cmd_msg", "server/cmd_cycle.c: build_cmd", "lib/fko_funcs.c: fko_new_with_data", "lib/fko_encryption.c: _rijndael_decrypt, gpg_decrypt", "server/replay_cache.c: is_replay"]}
{"id": "C90", "title": "The ipfw firewall opens what is asked for and closes it in time", "statement": "On a system with ipfw, an accepted request for access opens exactly the protocols and ports it asks for, for its source address, under a rule number that nothing else uses, and refuses if there is none; each rule stays until its time has come and is closed by the checks that follow; expired rules are kept while they have connections and are deleted, and their numbers used again, when they have none; rules of others are never changed; at its start and its end the daemon empties its own set of rules and no other.", "quantifier": "all requests, configurations, tables of rules, clock values, failures of ipfw, and histories of requests, checks, purges and connections", "why_tests_cant": "What a check does depends on the listing of all rules, on counters and a map of numbers kept beside it, and on the order of requests and checks; the errors show only in certain interleavings or after a failed command.", "anchors": ["server/fw_util_ipfw.c: fw_config_init, fw_initialize, fw_cleanup, process_spa_request, check_firewall_rules, ipfw_purge_expired_rules, get_next_rule_num", "server/pcap_capture.c: pcap_capture"]}
{"id": "C91", "title": "With firewalld the daemon opens and closes the same as with iptables", "statement": "On a system with firewalld, an accepted request makes exactly the rules for its source, protocols and ports (or for its NAT target), each with its expiry, and all of them if firewall-cmd does its work; a check removes expired rules and no others; whatever happens to the runs of firewall-cmd, no rule or chain that is not the daemon's is changed by requests, checks and the making and removal of chains; at the start old permissions are gone, at the end everything of the daemon's is gone and the rest is as before.", "quantifier": "all requests, chain configurations, firewalls, versions of iptables and of firewalld within the stated assumptions, clock values, fates of each run of firewall-cmd, and histories of requests, checks, starts and stops", "why_tests_cant": "The daemon finds out from the text that firewall-cmd writes whether rules and chains exist, so what it does depends on that text, on buffer sizes, and on which of its runs fail or are killed; tests run one version, with every command succeeding.", "anchors": ["server/fw_util_firewalld.c: process_spa_request, check_firewall_rules, fw_initialize, fw_cleanup, rule_exists, chain_exists, comment_match_exists, firewd_chk_support, delete_all_chains"]}
{"id": "C92", "title": "GnuPG messages go to the named key and are accepted only with a trusted signature", "statement": "With GnuPG, a message that is encrypted successfully was encrypted for the one key that the recipient named last has in the key ring that is set, and signed by the key of the signer named last; a message is decrypted successfully only if it carries a signature that is right and of a trusted key, unless the caller turned that off; a failed call leaves a context that can be used again and destroyed; the settings of the daemon for GnuPG have their effect.", "quantifier": "all histories of calls on a context, all answers of gpgme during each of them, all messages, passphrases and key rings", "why_tests_cant": "Tests run against one key ring in which everything works; the errors are in what a context holds after a call that failed, after settings changed in another order, or for messages of an attacker.", "anchors": ["lib/gpgme_funcs.c: init_gpgme, get_gpg_key, process_sigs, gpgme_encrypt, gpgme_decrypt", "lib/fko_encryption.c: gpg_encrypt, gpg_decrypt, fko_set_gpg_recipient, fko_set_gpg_signer, fko_set_gpg_home_dir, fko_get_gpg_signature_fpr", "lib/fko_funcs.c: fko_new_with_data, fko_destroy", "server/incoming_spa.c: handle_gpg_enc"]}
{"id": "C93", "title": "With a netfilter queue the daemon takes the same packets, closes what it opened, and ends when told", "statement": "When packets come through a netfilter queue instead of a capture, every SPA datagram for the server is taken with its own data and addresses whatever its source address; only packets of the queue that are authorised change the firewall; packets for this host are dropped and others let through; command cycles are closed at their time; the daemon leaves its loop after a signal to end, after the given number of packets, and after a hundred errors in a row, and only then.", "quantifier": "all packets in the queue, all sequences of receptions, errors and signals, all settings and stanzas", "why_tests_cant": "A test sends a few packets from one address and then stops the idle daemon; the failures need particular source addresses, steady traffic, or a long wait.", "anchors": ["server/nfq_capture.c: nfq_capture, process_nfq_packet", "server/process_packet.c: process_packet"]}
{"id": "C94", "title": "The digest data base does what the digest file does", "statement": "A daemon built with a digest data base instead of a digest file acts on the same packets in the same way; no SPA data are acted upon twice, whatever packets, failures and restarts come in between; if the data base cannot be used, nothing is done; every replay is counted in the entry of its digest with the time of the first and the last one, and no other entry changes or is lost.", "quantifier": "all packets, configurations, data bases, fates of the calls to the data base library, and histories of packets and restarts", "why_tests_cant": "A test replays one packet against a data base that works; the property is about every history, and about every call that may fail at any point of it.", "anchors": ["server/replay_cache.c: is_replay_dbm_cache, add_replay_dbm_cache, replay_db_cache_init, replay_warning", "server/incoming_spa.c: src_check, add_replay_cache", "server/fwknopd.c: main (digest cache)"]}
{"id": "C95", "title": "With an iptables that has no -C option the daemon opens the same ports once", "statement": "When the installed iptables cannot check for a rule (-C), the daemon looks for it in a listing of the chain. Whatever the runs of iptables do, an authorised request neither removes nor moves a rule, and makes only rules for the granted source, the requested protocols and ports and the promised expiry. If iptables works, each requested port is open afterwards, NAT connections reach the internal host of the request, the chain is reached by its jump rule, and a request whose rules are all there makes no rule.", "quantifier": "all requests, configurations, rule sets, forms of listing and fates of the runs of iptables", "why_tests_cant": "Tests run with one iptables, which has -C, one request at a time; the failures need two requests in the same second or a rule that somebody else made.", "anchors": ["server/fw_util_iptables.c: rule_exists_no_chk_support, jump_rule_exists_no_chk_support, rule_exists, ipt_rule, forward_access_rule, dnat_rule, snat_rule, process_spa_request", "server/extcmd.c: search_extcmd_getline"]}
{"id": "C96", "title": "The run directory is there when the daemon runs", "statement": "Before it goes on, the daemon makes sure that its run directory (FWKNOP_RUN_DIR or -r) exists: what is missing on the way is made, for the owner only; if it goes on, the path is absolute and names a directory; nothing that was there is changed, and nothing is made outside of the way to the directory; if the directory can be made, the daemon makes it and goes on; and no memory is read that was not set.", "quantifier": "all paths, file systems with their permissions, and failures of mkdir at any point", "why_tests_cant": "A test uses a few paths on one file system; the property is about every spelling of a path and about every point at which something is missing, is not a directory, is not permitted, or fails.", "anchors": ["server/fwknopd.c: check_dir_path, make_dir_path, main", "common/fko_util.c: chop_char"]}
{"id": "C97", "title": "Listing shows the firewall rules and changes nothing, and flushing removes exactly those of the daemon", "statement": "fwknopd --fw-list and --fw-list-all run one listing command for each configured chain (with its name, or for its whole table), show what iptables writes, change no rule whatever happens to these runs, and end; the exit status says whether it worked and no table is listed twice. fwknopd --fw-flush removes the chains and jump rules of the daemon and nothing else, also if FLUSH_IPT_AT_EXIT is N, and nothing at all in test mode.", "quantifier": "all configurations, combinations of the options, firewalls and fates of the runs of iptables", "why_tests_cant": "That no rule is changed is a statement about all firewalls and all failures of iptables, of which tests see one each, and the wrong cases need an old iptables or one that cannot be started.", "anchors": ["server/fw_util_iptables.c: fw_dump_rules, fw_cleanup, delete_all_chains, jump_rule_exists, have_ipt_chk_support", "server/fwknopd.c: main", "server/utils.c: clean_exit", "server/extcmd.c: _run_extcmd"]}
