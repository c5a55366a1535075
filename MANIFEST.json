{
 "claims": [
  {
   "property": "C01",
   "status": "proved",
   "theorems": [
    "C01_base64_round_trip"
   ],
   "note": "Full, against RFC 4648."
  },
  {
   "property": "C02",
   "status": "partial",
   "theorems": [
    "C02_base64_decode_accepts",
    "C02_base64_body_total",
    "C02_base64_decode_fits_partial",
    "C02_base64_empty_store_refuted"
   ],
   "note": "Full except the empty text, whose terminating NUL overruns a zero-length buffer (C02_base64_empty_store_refuted)."
  },
  {
   "property": "C03",
   "status": "partial",
   "theorems": [
    "C03_round_trip_partial",
    "C03_long_username_refuted",
    "C03_year_2038_refuted",
    "C03_long_message_refuted",
    "C03_long_timeout_refuted",
    "C03_nat_becomes_auth_refuted",
    "C03_local_nat_refuted",
    "C03_command_timeout_refuted",
    "C03_rand_colon_refuted"
   ],
   "note": "Proved for every message within the receiver's limits and any digest type. Eight families of values accepted by the setters but not received are refuted beside it."
  },
  {
   "property": "C04",
   "status": "proved",
   "theorems": [
    "C04_decoder_soundness",
    "C04_nul_refuted",
    "C04_constructor_sound"
   ],
   "note": "Full. The digest covers the message text when the data has no NUL byte; with NULs it covers as many extra bytes (C04_nul_refuted shows the effect)."
  },
  {
   "property": "C05",
   "status": "proved",
   "theorems": [
    "C05_access_message_grammar",
    "C05_command_message_grammar",
    "C05_nat_message_grammar"
   ],
   "note": "Both directions, for access, command and NAT messages."
  },
  {
   "property": "C06",
   "status": "proved",
   "theorems": [
    "C06_username_validation",
    "C06_username_setter"
   ],
   "note": "Both directions; the setter truncates to 63 characters first."
  },
  {
   "property": "C07",
   "status": "partial",
   "theorems": [
    "C07_ipv4_validation",
    "C07_canonical_octets",
    "C07_decimal_reading_refuted"
   ],
   "note": "Exact characterisation. The decimal reading of the English is refuted for groups with a leading zero, which inet_aton reads as octal."
  },
  {
   "property": "C08",
   "status": "partial",
   "theorems": [
    "C08_bounded_int_range",
    "C08_bounded_int_value_partial",
    "C08_every_text_has_a_number",
    "C08_truncation_refuted"
   ],
   "note": "Full for numbers within 32 bits; refuted beyond them (long to int truncation)."
  },
  {
   "property": "C09",
   "status": "proved",
   "theorems": [
    "C09_cipher_round_trip",
    "C09_pcbc_refuted"
   ],
   "note": "All supported modes, any password, salt and plaintext. Mode 4 (PCBC), which the API also accepts, is refuted."
  },
  {
   "property": "C10",
   "status": "proved",
   "theorems": [
    "C10_block_round_trip"
   ],
   "note": ""
  },
  {
   "property": "C11",
   "status": "partial",
   "theorems": [
    "C11_end_to_end_partial",
    "C11_long_message_refuted",
    "C11_rand_refuted"
   ],
   "note": "Proved for every sender history whose values satisfy sendable, numeric random value, implemented mode and plaintext up to 271 bytes. Refuted for longer messages (text of 400 characters and more is classified as GPG) and for non-numeric random values."
  },
  {
   "property": "C12",
   "status": "proved",
   "theorems": [
    "C12_hmac_first"
   ],
   "note": "For every packet text: either it ends with the HMAC of the (prefixed) rest, or the result is one fixed error for all decryption keys."
  },
  {
   "property": "C13",
   "status": "partial",
   "theorems": [
    "C13_prefix_refuted",
    "C13_not_malleable_partial"
   ],
   "note": "Refuted as stated: the dropped prefix may be left in the packet. Proved for packets without the prefix: different accepted texts carry valid HMACs of different texts."
  },
  {
   "property": "C14",
   "status": "proved",
   "theorems": [
    "C14_constant_cmp_is_equality"
   ],
   "note": "Equality and visiting every index; physical timing is outside the model."
  },
  {
   "property": "C15",
   "status": "partial",
   "theorems": [
    "C15_null_handle",
    "C15_decode_null_refuted",
    "C15_destroyed_refuted",
    "C15_get_after_set",
    "C15_failed_setter",
    "C15_frame"
   ],
   "note": "NULL handles, get after set, failed setters and frame proved. Refuted: fko_decode_spa_data does not check for NULL; a destroyed handle is a dangling pointer."
  },
  {
   "property": "C16",
   "status": "proved",
   "theorems": [
    "C16_final_sends_current"
   ],
   "note": "The packet is determined by the values the getters show after finalisation, for every sender history."
  },
  {
   "property": "C17",
   "status": "partial",
   "theorems": [
    "C17_authorized_partial",
    "C17_cycle_ports_refuted"
   ],
   "note": "Every effect comes from a stanza that lets the packet act (networks, expiration, keys, age, user, type, ports). Not for the ports of command cycles: C17_cycle_ports_refuted."
  },
  {
   "property": "C18",
   "status": "partial",
   "theorems": [
    "C18_first_stanza_partial",
    "C18_at_most_one_partial",
    "C18_two_stanzas_refuted"
   ],
   "note": "First stanza decides and at most one effect, except when the close command of a cycle cannot be built: C18_two_stanzas_refuted."
  },
  {
   "property": "C19",
   "status": "partial",
   "theorems": [
    "C19_no_replay_partial",
    "C19_unrecorded",
    "C19_test_mode_refuted"
   ],
   "note": "Any history with restarts and other access files before, restarts and crashes after. Refuted in test mode (C19_test_mode_refuted); torn digest lines see C21."
  },
  {
   "property": "C20",
   "status": "partial",
   "theorems": [
    "C20_altered_partial",
    "C20_http_refuted",
    "C20_no_hmac_refuted"
   ],
   "note": "Two different accepted texts need two different HMACs. Refuted for HTTP requests (C20_http_refuted) and stanzas without an HMAC key (C20_no_hmac_refuted)."
  },
  {
   "property": "C21",
   "status": "proved",
   "theorems": [
    "C21_survives_restart",
    "C21_record_read_back"
   ],
   "note": "File-based cache (the default build). The cache is followed through any history of recordings and restarts from a missing file, with the exact file text."
  },
  {
   "property": "C22",
   "status": "partial",
   "theorems": [
    "C22_survives_kill_partial",
    "C22_before_kill",
    "C22_lookup_in_bounds",
    "C22_torn_line_refuted"
   ],
   "note": "Everything recorded before a kill survives, and so does every record whose line does not directly follow an incomplete one. The first digest recorded after a kill is lost at the next restart: its line is glued to the torn one (C22_torn_line_refuted)."
  },
  {
   "property": "C23",
   "status": "partial",
   "theorems": [
    "C23_packet_age_partial",
    "C23_wrap_refuted"
   ],
   "note": "Both directions, for differences below 2^31 seconds; beyond, the int wraps: C23_wrap_refuted."
  },
  {
   "property": "C24",
   "status": "partial",
   "theorems": [
    "C24_expired_nothing",
    "C24_noticed_partial",
    "C24_marked_for_good_partial",
    "C24_clock_set_back_refuted"
   ],
   "note": "Nothing after the date; a marked stanza never acts again; but the mark is only set when a packet reaches the stanza: C24_clock_set_back_refuted."
  },
  {
   "property": "C25",
   "status": "partial",
   "theorems": [
    "C25_networks_partial",
    "C25_mask_refuted",
    "C25_prefix_zero_refused"
   ],
   "note": "Proved for ANY, addresses, prefix lengths 1..32 and dotted masks, and for lists. Refuted for the dotted mask 0.0.0.32, which is mistaken for /32; prefix length 0 is refused."
  },
  {
   "property": "C26",
   "status": "partial",
   "theorems": [
    "C26_port_check_partial",
    "C26_validated_requests",
    "C26_any_text_partial",
    "C26_duplicates_refuted"
   ],
   "note": "Exact characterisation when OPEN_PORTS has no repeated pair. Refuted otherwise: matches are counted, so a repeated pair lets an unlisted port through."
  },
  {
   "property": "C27",
   "status": "partial",
   "theorems": [
    "C27_lifetime_partial",
    "C27_default_refuted"
   ],
   "note": "Client timeouts are capped; the FW_ACCESS_TIMEOUT of a stanza is not: C27_default_refuted."
  },
  {
   "property": "C28",
   "status": "partial",
   "theorems": [
    "C28_address_partial",
    "C28_header_at_end_refuted"
   ],
   "note": "Except for requests that end with the X-Forwarded-For header: C28_header_at_end_refuted."
  },
  {
   "property": "C29",
   "status": "partial",
   "theorems": [
    "C29_command_partial",
    "C29_root_prefix_refuted",
    "C29_group_refuted"
   ],
   "note": "Except that user names starting with root count as root (C29_root_prefix_refuted) and a missing sudo group is dereferenced (C29_group_refuted)."
  },
  {
   "property": "C30",
   "status": "partial",
   "theorems": [
    "C30_test_mode_partial",
    "C30_no_cycles",
    "C30_cycle_refuted"
   ],
   "note": "Proved for configurations without command cycles; command cycles are opened in test mode: C30_cycle_refuted."
  },
  {
   "property": "C31",
   "status": "partial",
   "theorems": [
    "C31_closed_once_partial",
    "C31_open_runs",
    "C31_others_untouched",
    "C31_close_lost_refuted"
   ],
   "note": "Proved for every history and clock; the close command of a cycle is lost if it does not fit its 256-byte buffer although the open command ran (C31_close_lost_refuted)."
  },
  {
   "property": "C32",
   "status": "partial",
   "theorems": [
    "C32_substitution_partial",
    "C32_any_template_partial",
    "C32_fits",
    "C32_overrun_refuted",
    "C32_truncated_refuted",
    "C32_dollar_dropped_refuted"
   ],
   "note": "Proved for templates of at most 256 characters whose result has at most 255; otherwise the buffer can be overrun (C32_overrun_refuted), the command cut short (C32_truncated_refuted); unknown dollar signs are dropped (C32_dollar_dropped_refuted)."
  },
  {
   "property": "C33",
   "status": "partial",
   "theorems": [
    "C33_frame_data_partial",
    "C33_frame_taken_partial",
    "C33_frame_memory_partial",
    "C33_handed_on",
    "C33_options_refuted",
    "C33_options_data_refuted",
    "C33_header_refuted",
    "C33_vlan_refuted"
   ],
   "note": "Frame data exact in both directions for IP headers without options; the mask 0x15 for the header length makes datagrams with options unread (C33_options_refuted) or misread (C33_options_data_refuted). No read outside of a frame captured whole, unless it ends within the VLAN tag (C33_vlan_refuted); a frame captured in part may be overrun (C33_header_refuted)."
  },
  {
   "property": "C34",
   "status": "proved",
   "theorems": [
    "C34_data",
    "C34_data_unique",
    "C34_complete"
   ],
   "note": "Soundness, uniqueness and completeness of the data found in a packet."
  },
  {
   "property": "C35",
   "status": "partial",
   "theorems": [
    "C35_pass_partial",
    "C35_only_expired_partial",
    "C35_due_partial",
    "C35_refused_refuted",
    "C35_killed_refuted"
   ],
   "note": "The full pass with a working iptables removes exactly the expired rules (C35_pass_partial), and if iptables is killed before its work or cannot be started nothing but expired rules is removed. Refuted when a deletion exits normally without effect, or is killed after its effect: the following rule numbers are wrong and live rules are deleted. Rule expiry is read from the listing, so listings beyond 4095 bytes and chains whose name is shorter than their index are excluded."
  },
  {
   "property": "C36",
   "status": "partial",
   "theorems": [
    "C36_periodic_partial",
    "C36_lingering_refuted",
    "C36_short_name_refuted"
   ],
   "note": "Proved for every round that is a multiple of RULES_CHECK_THRESHOLD, over all histories. Refuted for the rounds in between (next_expire is overwritten by a later grant), and for a chain whose index is not below the length of its name."
  },
  {
   "property": "C37",
   "status": "partial",
   "theorems": [
    "C37_access_partial",
    "C37_malformed",
    "C37_nat_partial",
    "C37_nat_second_refuted",
    "C37_nat_host_refuted"
   ],
   "note": "Proved for requests without NAT, and for NAT requests for the first protocol and port (the code looks at no other). Refuted: a NAT host of 70 characters overruns a buffer; the second pair of a NAT request is granted nowhere. Names and paths are assumed short enough for the 255 byte command buffer."
  },
  {
   "property": "C38",
   "status": "partial",
   "theorems": [
    "C38_items_exist",
    "C38_string_list",
    "C38_port_list_partial",
    "C38_big_port_refuted",
    "C38_address_list"
   ],
   "note": "String and address lists are exact. Port lists are exact for numbers in int range; a larger number is truncated (C38_big_port_refuted)."
  },
  {
   "property": "C39",
   "status": "partial",
   "theorems": [
    "C39_reference_partial",
    "C39_no_value_partial",
    "C39_rest_refuted"
   ],
   "note": "Proved: a reference with a non-empty rest without blanks gets the value of the variable and the rest, whatever lines precede it. Refuted: a reference without a rest gets the rest of an earlier reference."
  },
  {
   "property": "C40",
   "status": "partial",
   "theorems": [
    "C40_split_words_partial",
    "C40_words_total",
    "C40_long_word_overrun_refuted"
   ],
   "note": "Full for words shorter than 1024; longer words overrun the buffer (proved for every such string)."
  },
  {
   "property": "C41",
   "status": "proved",
   "theorems": [
    "C41_strlcpy",
    "C41_strlcat"
   ],
   "note": ""
  },
  {
   "property": "C42",
   "status": "partial",
   "theorems": [
    "C42_hostname_validation",
    "C42_hostname_in_bounds_partial",
    "C42_hostname_empty_refuted"
   ],
   "note": "Both directions; the empty string is an out-of-bounds read."
  },
  {
   "property": "C43",
   "status": "proved",
   "theorems": [
    "C43_zero_buf_success",
    "C43_zero_buf_failure",
    "C43_zero_buf_total"
   ],
   "note": ""
  },
  {
   "property": "C44",
   "status": "proved",
   "theorems": [
    "C44_hmac_is_rfc2104"
   ],
   "note": "All seven HMAC types, any key length; hash functions are parameters."
  },
  {
   "property": "C45",
   "status": "proved",
   "theorems": [
    "C45_block_cipher_is_aes"
   ],
   "note": ""
  },
  {
   "property": "C46",
   "status": "proved",
   "theorems": [
    "C46_standard_format"
   ],
   "note": "Hash functions are parameters."
  },
  {
   "property": "C47",
   "status": "proved",
   "theorems": [
    "C47_random_value"
   ],
   "note": ""
  },
  {
   "property": "C48",
   "status": "partial",
   "theorems": [
    "C48_key_lengths",
    "C48_sha3_default_refuted"
   ],
   "note": "Lengths proved; the default lengths do not exist for the SHA3 HMAC types (refuted)."
  },
  {
   "property": "C49",
   "status": "partial",
   "theorems": [
    "C49_sender_memory_partial",
    "C49_set_hmac_refuted"
   ],
   "note": "Proved for all sender calls but a direct fko_set_spa_hmac, which reads an uninitialised byte after finalisation (refuted)."
  },
  {
   "property": "C50",
   "status": "partial",
   "theorems": [
    "C50_receiver_memory_partial",
    "C50_padding_refuted"
   ],
   "note": "Proved for all packets without a padding character; refuted with one (reads before the plaintext buffer)."
  },
  {
   "property": "C51",
   "status": "partial",
   "theorems": [
    "C51_preprocess_memory_partial",
    "C51_long_address_refuted"
   ],
   "note": "Except for a header at the end of the packet and values of 16 characters: C51_long_address_refuted."
  },
  {
   "property": "C52",
   "status": "proved",
   "theorems": [
    "C52_no_trace"
   ],
   "note": "Cycles, stanzas, replay cache and digest file."
  },
  {
   "property": "C53",
   "status": "partial",
   "theorems": [
    "C53_datagram_partial",
    "C53_no_old_bytes",
    "C53_failure_refuted",
    "C53_old_bytes_refuted"
   ],
   "note": "Well-formed, older bytes never used; refuted: recvfrom failure stores at index -1 (C53_failure_refuted), bytes after a NUL are stale (C53_old_bytes_refuted)."
  },
  {
   "property": "C54",
   "status": "partial",
   "theorems": [
    "C54_settings_partial",
    "C54_blanks_refuted",
    "C54_freed_refuted"
   ],
   "note": "Proved for files whose values do not begin with a dollar sign and are not a single character followed by blanks; both other cases and the use of the freed file name are refuted (dollar: C39)."
  },
  {
   "property": "C55",
   "status": "partial",
   "theorems": [
    "C55_ranges_partial",
    "C55_refused",
    "C55_port_refuted"
   ],
   "note": "Proved: limits hold for whatever is accepted, and numbers that fit 32 bits are read exactly. Refuted: ports up to 131071 are accepted. Texts beyond 32 bits: see C08_truncation_refuted."
  },
  {
   "property": "C56",
   "status": "partial",
   "theorems": [
    "C56_stanzas_partial",
    "C56_blanks_refuted",
    "C56_comment_refuted"
   ],
   "note": "For access files without include directives. Refuted in the model for a one-character value followed by blanks (C56_blanks_refuted) and for comments longer than 1022 characters (C56_comment_refuted)."
  },
  {
   "property": "C57",
   "status": "partial",
   "theorems": [
    "C57_complete_partial",
    "C57_keys_refuted"
   ],
   "note": "For all files and folders without %include_keys. Refuted with it: unusable keys drop the last stanza read, which may be a different one (C57_keys_refuted)."
  },
  {
   "property": "C58",
   "status": "partial",
   "theorems": [
    "C58_lists_partial",
    "C58_folder_refuted"
   ],
   "note": "For ACCESS_FILE with any includes but %include_keys. Refuted for ACCESS_FOLDER: lists are doubled and the port check gives wrong results (C58_folder_refuted)."
  },
  {
   "property": "C59",
   "status": "partial",
   "theorems": [
    "C59_identity_partial",
    "C59_shared_refuted",
    "C59_group_refuted"
   ],
   "note": "For CMD_EXEC_USER as the last account named and no group. Refuted otherwise: getpwnam's shared buffer (C59_shared_refuted), groups looked up as users (C59_group_refuted)."
  },
  {
   "property": "C60",
   "status": "partial",
   "theorems": [
    "C60_ends_partial",
    "C60_folder_refuted"
   ],
   "note": "Without %include_folder. Refuted with it (C60_folder_refuted, for every bound on the depth)."
  },
  {
   "property": "C61",
   "status": "partial",
   "theorems": [
    "C61_expiry_partial",
    "C61_text_refuted"
   ],
   "note": "For dates and decimal numbers. Refuted: other texts are accepted and mean never (C61_text_refuted)."
  },
  {
   "property": "C62",
   "status": "partial",
   "theorems": [
    "C62_nat_partial",
    "C62_port_refuted",
    "C62_address_refuted"
   ],
   "note": "For addresses of at most 15 and ports of at most 5 characters. Refuted for longer texts (C62_port_refuted, C62_address_refuted)."
  },
  {
   "property": "C63",
   "status": "proved",
   "theorems": [
    "C63_standard_digest",
    "C63_pieces",
    "C63_sizes",
    "C63_hmac"
   ],
   "note": "All seven functions, in one call or in pieces (SHA-3 has no piecewise interface). SHA-1, MD5 and SHA-3 convert the size to 32 bits, hence the bound."
  },
  {
   "property": "C64",
   "status": "partial",
   "theorems": [
    "C64_packet_partial",
    "C64_no_access_refuted",
    "C64_timeout_refuted",
    "C64_command_nat_refuted",
    "C64_access_overflow_refuted",
    "C64_empty_host_refuted",
    "C64_length_refuted"
   ],
   "note": "The packet, opened with the keys, shows the message wanted, for options that fit. Refuted: no -A sends nothing, timeouts above 65536, commands with NAT, long requests, two overflows."
  },
  {
   "property": "C65",
   "status": "partial",
   "theorems": [
    "C65_granted_partial",
    "C65_short_refuted",
    "C65_long_refuted"
   ],
   "note": "Proved for access requests below 400 characters with symmetric keys. Refuted for short commands and for long packets."
  },
  {
   "property": "C66",
   "status": "partial",
   "theorems": [
    "C66_http_partial",
    "C66_proxy_cut_refuted",
    "C66_proxy_read_refuted"
   ],
   "note": "Proved for requests to the server itself. Refuted: long proxy names are cut or read out of bounds."
  },
  {
   "property": "C67",
   "status": "partial",
   "theorems": [
    "C67_raw_partial",
    "C67_tcp_sum_refuted"
   ],
   "note": "Proved but for the sum of TCP segments, which is refuted."
  },
  {
   "property": "C68",
   "status": "partial",
   "theorems": [
    "C68_ports_partial",
    "C68_reveals_refuted",
    "C68_no_seed_refuted"
   ],
   "note": "Range and use are proved. Refuted: the port shows digits of the encrypted random value; without a seed the random translation port is dropped."
  },
  {
   "property": "C69",
   "status": "partial",
   "theorems": [
    "C69_prompt_partial",
    "C69_file_partial",
    "C69_interrupt_refuted",
    "C69_file_overflow_refuted"
   ],
   "note": "Prompt and files proved for lines up to 127 characters and input without Control-C. Refuted: Control-C sends with an empty key; overflow."
  },
  {
   "property": "C70",
   "status": "partial",
   "theorems": [
    "C70_keys_partial",
    "C70_base64_overflow_refuted",
    "C70_accepted_partial",
    "C70_overflow_accepted_refuted"
   ],
   "note": "keys differ for every packet of accepted options; refuted: a long key in base64 is written behind its array"
  },
  {
   "property": "C71",
   "status": "proved",
   "theorems": [
    "C71_nothing_sent",
    "C71_saved"
   ],
   "note": "Covers test mode, failures and the packet file."
  },
  {
   "property": "C72",
   "status": "partial",
   "theorems": [
    "C72_settings_partial",
    "C72_one_meaning",
    "C72_verbose_refuted",
    "C72_resolve_refuted",
    "C72_key_refuted",
    "C72_offset_refuted",
    "C72_stanza_resolve_refuted",
    "C72_switch_refuted",
    "C72_hmac_key_file_refuted",
    "C72_empty_name_refuted",
    "C72_offset_overflow_refuted"
   ],
   "note": "each setting is decided by the last entry of default stanza, stanza asked for and command line; refuted for several options, where the command line or the stanza does not win"
  },
  {
   "property": "C73",
   "status": "partial",
   "theorems": [
    "C73_usable_partial",
    "C73_options_partial",
    "C73_resolve_refuted",
    "C73_no_access_refuted"
   ],
   "note": "accepted options meet the hypotheses of C64-C71; refuted: accepted options that never give a packet"
  },
  {
   "property": "C74",
   "status": "partial",
   "theorems": [
    "C74_saved_partial",
    "C74_crash_partial",
    "C74_done",
    "C74_comments_refuted",
    "C74_twice_refuted",
    "C74_last_line_refuted",
    "C74_malformed_refuted",
    "C74_crash_refuted"
   ],
   "note": "Proved for files with plain lines, one heading of the name and values without blanks. Refuted: comments are lost; of two stanzas with the name only the first is replaced; a heading without line end swallows a variable; a malformed line leaves the temporary file behind and blocks later saves; there is a moment with no rc file."
  },
  {
   "property": "C75",
   "status": "partial",
   "theorems": [
    "C75_back_partial",
    "C75_timeout_refuted",
    "C75_zero_offset_refuted",
    "C75_offset_refuted",
    "C75_verbose_refuted",
    "C75_source_refuted",
    "C75_word_refuted",
    "C75_hmac_file_refuted",
    "C75_command_refuted"
   ],
   "note": "Proved for the options that can be saved, values of one word, numbers in the ranges of the rc file, and a stanza that occurs once. Refuted without these: timeouts and offsets over 65536, an offset of 0, five times -v, -s, keys with a semicolon, the HMAC key file and server commands do not come back."
  },
  {
   "property": "C76",
   "status": "partial",
   "theorems": [
    "C76_last_partial",
    "C76_blank_refuted",
    "C76_empty_refuted",
    "C76_cut_refuted",
    "C76_many_refuted",
    "C76_long_refuted"
   ],
   "note": "Proved for arguments without blanks that are not empty, at most 28 of them and 1023 characters. Refuted without these: arguments are split, lost or cut without a word, and a refused command line erases the saved one."
  },
  {
   "property": "C77",
   "status": "partial",
   "theorems": [
    "C77_history_partial",
    "C77_stop_partial",
    "C77_run_partial",
    "C77_start_partial",
    "C77_probe_refuted",
    "C77_comment_refuted",
    "C77_many_refuted",
    "C77_position_refuted"
   ],
   "note": "The rest is preserved in all histories of the events; requests must be well-formed and a pass must not overrun its buffer. The two probes at the start are proved harmless only if iptables does its work; if inserting one fails, the administrator's first rule is deleted (C77_probe_refuted), and a probe may stay (C77_comment_refuted). More than ten jump rules are not removed (C77_many_refuted); a jump rule that could not be made goes unnoticed (C77_position_refuted). The start without support of -C is not modelled."
  },
  {
   "property": "C78",
   "status": "partial",
   "theorems": [
    "C78_trace_partial",
    "C78_ends_partial",
    "C78_opens_partial",
    "C78_nat_cut_refuted"
   ],
   "note": "Traceability and the unchanged rest are proved for every history and every fate of the iptables runs (C78_trace_partial), the end of permissions for a complete pass with iptables working and listings that fit (C78_ends_partial), the opening for requests without NAT (C78_opens_partial). Missing: the exact host of NAT requests, refuted for addresses written in 16 characters (C78_nat_cut_refuted)."
  },
  {
   "property": "C79",
   "status": "partial",
   "theorems": [
    "C79_access_partial",
    "C79_nat_partial"
   ],
   "note": "Proved for packets under 400 characters that ask for access, with Rijndael keys, without another port for the translation, to a stanza without command cycle and without forced NAT, with iptables doing its work on the server; NAT requests to an address (not a name) and port (C79_nat_partial)."
  },
  {
   "property": "C80",
   "status": "partial",
   "theorems": [
    "C80_chains_partial",
    "C80_defaults",
    "C80_accepted",
    "C80_refused",
    "C80_safe",
    "C80_target_refuted",
    "C80_position_refuted",
    "C80_cut_refuted",
    "C80_run_dir_refuted"
   ],
   "note": "Proved: chains and switches of the started daemon (C80_chains_partial, names of at most 63 characters and six fields as the grammar says); settings in order are accepted (C80_accepted), others refused (C80_refused), no undefined behaviour (C80_safe, option arguments not empty, the file does not set CONFIG_FILE). Refuted: empty target, position that is no number, names over 63 characters, empty run directory."
  },
  {
   "property": "C81",
   "status": "partial",
   "theorems": [
    "C81_files_partial",
    "C81_config_option_partial",
    "C81_twice_refuted",
    "C81_comma_refuted",
    "C81_option_refuted"
   ],
   "note": "Proved for lines that stand for themselves (no references to variables), with -O or without -c (C81_files_partial), and for -c alone with a name without comma (C81_config_option_partial). Refuted: the file of -c is read twice, a comma in its name ends the daemon, OVERRIDE_CONFIG in the file displaces -O."
  },
  {
   "property": "C82",
   "status": "partial",
   "theorems": [
    "C82_usable",
    "C82_policy_partial",
    "C82_trace_partial",
    "C82_text_partial",
    "C82_snat_refuted",
    "C82_masquerade_refuted"
   ],
   "note": "Any files, options and histories; the settings must fit the firewall commands (settings_fit). Missing: of a NAT address only 15 characters are used (C78). FORCE_SNAT without ENABLE_IPT_SNAT is accepted and has no effect (C82_snat_refuted); so is FORCE_MASQUERADE with FORWARD_ALL without NAT, and then no rule is made (C82_masquerade_refuted)."
  },
  {
   "property": "C83",
   "status": "partial",
   "theorems": [
    "C83_one_partial",
    "C83_signal_partial",
    "C83_status_partial",
    "C83_file",
    "C83_race_refuted",
    "C83_reload_refuted",
    "C83_stale_refuted",
    "C83_own_number_refuted",
    "C83_status_refuted"
   ],
   "note": "Proved for every interleaving when the PID file already names some process, no daemon gets SIGHUP and none is started under the number left in the file; each of the three conditions is necessary (C83_race_refuted, C83_reload_refuted, C83_own_number_refuted). C83_file needs none of them. C83_stale_refuted and C83_status_refuted: -K can kill an unrelated program, -S can hide the daemon."
  },
  {
   "property": "C84",
   "status": "partial",
   "theorems": [
    "C84_reasons",
    "C84_reread",
    "C84_limit",
    "C84_stop_partial",
    "C84_hup_partial",
    "C84_lost_refuted",
    "C84_hup_wins_refuted",
    "C84_udp_refuted",
    "C84_mistake_refuted",
    "C84_consecutive_refuted"
   ],
   "note": "Proved for signals that are in time (not at the places listed by the definition late) and, for SIGTERM, without a SIGHUP at the same time; reasons for ending and for reading again are complete. Refuted: lost SIGTERM, SIGHUP wins over SIGTERM, SIGHUP ends the UDP server, no cleanup after a mistake in the settings, errors counted as consecutive although packets came in between."
  },
  {
   "property": "C85",
   "status": "partial",
   "theorems": [
    "C85_ordinary_partial",
    "C85_http_partial",
    "C85_http_default",
    "C85_wget_partial",
    "C85_packet",
    "C85_port_refuted",
    "C85_colon_refuted",
    "C85_slash_refuted",
    "C85_overflow_refuted",
    "C85_empty_refuted",
    "C85_agent_refuted",
    "C85_long_url_refuted",
    "C85_long_answer_refuted",
    "C85_cut_refuted",
    "C85_command_refuted"
   ],
   "note": "The URLs and answers for which it holds are given exactly; ports of five digits, colons or a slash at the end of the path, long or empty URLs, blanks in the user agent, long answers and -R with a command are refuted."
  },
  {
   "property": "C86",
   "status": "partial",
   "theorems": [
    "C86_identity_partial",
    "C86_effective",
    "C86_groups_refuted",
    "C86_spa_partial",
    "C86_group_alone_refuted",
    "C86_one_daemon",
    "C86_write_refuted",
    "C86_status_partial",
    "C86_report",
    "C86_status_refuted",
    "C86_search_sound",
    "C86_search_partial",
    "C86_search_refuted"
   ],
   "note": "Proved: identities of a started program (also if not superuser) and that it keeps them, nothing runs if the change fails, no second daemon from run_extcmd, the status under any history without the handler taking it, what is logged, search sound for all outputs and exact for plain lines. Refuted: supplementary groups stay, CMD_EXEC_GROUP alone is ignored, run_extcmd_write leaves a second daemon if the program cannot be started, a status taken by the SIGCHLD handler counts as success, texts across the 255th byte of a line are not found."
  },
  {
   "property": "C87",
   "status": "partial",
   "theorems": [
    "C87_serves",
    "C87_outlives_refuted",
    "C87_rules_partial",
    "C87_keep_partial",
    "C87_busy_refuted",
    "C87_slow_refuted",
    "C87_port_refuted",
    "C87_failure_refuted",
    "C87_restart_refuted",
    "C87_second_daemon_refuted"
   ],
   "note": "Proved: the server by itself (serves until a failure or the end of the daemon, never captures packets), rules and number of servers in calm histories, no influence at all with FLUSH_IPT_AT_EXIT N. Refuted: a SIGHUP during a connection, a slow end, a port in use or one failing call remove the rules of the running daemon; a dead server is not restarted, or its restarted process becomes a second daemon; clients keep it alive after the daemon."
  },
  {
   "property": "C88",
   "status": "partial",
   "theorems": [
    "C88_open_partial",
    "C88_rules_exist",
    "C88_other",
    "C88_no_more_partial",
    "C88_close_partial",
    "C88_history_partial",
    "C88_closed_partial",
    "C88_start_partial",
    "C88_end",
    "C88_overdue_refuted",
    "C88_failed_write_refuted",
    "C88_reported_refuted",
    "C88_listing_refuted",
    "C88_message_refuted",
    "C88_room_refuted",
    "C88_foreign_refuted",
    "C88_anchor_refuted",
    "C88_entries_refuted"
   ],
   "note": "An access request adds exactly its rules behind the others, and a check removes exactly the lapsed ones, over all histories (refinement against the relation granted), if pfctl works. Whatever fails, a request opens nothing more and a check removes nothing early. Refuted: a request while a rule is overdue keeps that rule; one failed write lets a rule stay for ever; reported as served though refused, without room, or with messages in the listing; a failed listing drops the rules of others; foreign rules are removed; a similar anchor name passes; entries before an invalid one are opened."
  },
  {
   "property": "C89",
   "status": "partial",
   "theorems": [
    "C89_packet_partial",
    "C89_history_partial",
    "C89_padding_refuted",
    "C89_header_refuted",
    "C89_template_refuted",
    "C89_group_refuted"
   ],
   "note": "Proved for every packet whose data has no padding character or is not authenticated in any stanza (all stanzas with HMAC keys), whose X-Forwarded-For value is short and not last, and for stanzas with roomy command templates and a sudo group where one is needed; after any history. Refuted: an early padding character crashes any stanza without an HMAC key; a long X-Forwarded-For address crashes the daemon whatever the keys; a template without room; a missing sudo group."
  },
  {
   "property": "C90",
   "status": "partial",
   "theorems": [
    "C90_open_partial",
    "C90_other",
    "C90_no_more_partial",
    "C90_early_partial",
    "C90_check_partial",
    "C90_purge_partial",
    "C90_history_partial",
    "C90_closed_partial",
    "C90_start_partial",
    "C90_end_partial",
    "C90_all_refuted",
    "C90_order_refuted",
    "C90_overdue_refuted",
    "C90_count_refuted",
    "C90_expire_set_refuted",
    "C90_failed_move_refuted",
    "C90_restart_refuted",
    "C90_memory_refuted",
    "C90_settings_partial",
    "C90_settings_refuted"
   ],
   "note": "Proved for an ipfw that works, books that agree with the table (an invariant established by the start and kept by every history), listings that fit the buffer and no check-state rule. Safety of requests, checks and purges is for all failures of ipfw. The full English is refuted: one check closes one number only and a later rule keeps an earlier one open (C90_all_refuted, C90_order_refuted), overdue rules, counts above the maximum, expire set not disabled, failed moves, reuse of numbers after a restart, a write outside the map, and settings that are accepted but serve no request."
  },
  {
   "property": "C91",
   "status": "partial",
   "theorems": [
    "C91_access_partial",
    "C91_nat_partial",
    "C91_pass_partial",
    "C91_only_expired_partial",
    "C91_history_partial",
    "C91_stop_partial",
    "C91_run_partial",
    "C91_start_partial",
    "C91_probe_refuted",
    "C91_comment_refuted",
    "C91_twice_refuted"
   ],
   "note": "Access, NAT, passes, histories, stop, whole run and start proved for all fates of firewall-cmd where stated so; restricted to names that fit together with the passthrough options, addresses of at most 15 characters, and -C supported. Refuted: failed or killed probes at the start lose a rule of the administrator or leave one; a killed check makes a rule twice."
  },
  {
   "property": "C92",
   "status": "partial",
   "theorems": [
    "C92_encrypt_partial",
    "C92_unique",
    "C92_decrypt",
    "C92_safe_partial",
    "C92_stale_refuted",
    "C92_pass_refuted",
    "C92_retry_refuted",
    "C92_home_refuted",
    "C92_ambiguous_refuted",
    "C92_prefix_refuted",
    "C92_constructor_refuted",
    "C92_unsigned_refuted",
    "C92_daemon",
    "C92_decrypt_id_refuted"
   ],
   "note": "Proved for all histories of calls and answers of gpgme: what a successful encryption used, what a successful decryption checked, no use of a released handle while listings start, and that the daemon's model of GnuPG is what the library does. Refuted: see the theorems (stale handle after a failed listing, NULL passphrase, no retry, late home directory, broken-off listing, prefix hQ, unsigned message accepted by fko_new_with_data with a key, GPG_DECRYPT_ID without effect)."
  },
  {
   "property": "C93",
   "status": "partial",
   "theorems": [
    "C93_taken_partial",
    "C93_source_refuted",
    "C93_wrong_source_refuted",
    "C93_rounds",
    "C93_trace_partial",
    "C93_leaves",
    "C93_ends",
    "C93_stop_refuted",
    "C93_cycles_refuted",
    "C93_limit_refuted",
    "C93_errors_refuted"
   ],
   "note": "What an ordinary source sends is taken exactly (C93_taken_partial), the rounds refine the daemon of C78 (C93_rounds, C93_trace_partial), and a signal ends the loop in the first quiet round (C93_leaves). The English is false for sources taken for Ethernet types, under steady traffic, for command cycles, for the packet limit and for the count of errors: see the _refuted theorems."
  },
  {
   "property": "C94",
   "status": "partial",
   "theorems": [
    "C94_same_as_file",
    "C94_no_replay_partial",
    "C94_store_refuted",
    "C94_read_refuted",
    "C94_start_refuted",
    "C94_start_partial",
    "C94_unopened",
    "C94_recorded",
    "C94_counted",
    "C94_others"
   ],
   "note": "Proved: with a data base that works the daemon does what it does with the file; a packet acted upon is recorded and never acted upon again as long as the store and the later read succeed; nothing is done if the data base cannot be opened; replays are counted and other entries kept. Refuted: a store that fails counts as done, an entry that cannot be read counts as absent, and a data base that cannot be opened at the start switches the replay check off."
  },
  {
   "property": "C95",
   "status": "proved",
   "theorems": [
    "C95_access_partial",
    "C95_once_partial",
    "C95_nat_partial",
    "C95_malformed",
    "C95_duplicate_refuted",
    "C95_output_refuted",
    "C95_nat_refuted",
    "C95_nat_destination_refuted",
    "C95_snat_refuted",
    "C95_jump_refuted",
    "C95_local_refuted",
    "C95_nat_once_partial"
   ],
   "note": "Growth only, for all fates, with and without NAT; presence and no duplicates for what the search finds; when the redirection of a NAT request is made or not (C95_nat_once_partial, with and without ENABLE_DESTINATION_RULE, without source translation); the rest of the English is refuted (C95_duplicate_refuted, C95_output_refuted, C95_nat_refuted, C95_nat_destination_refuted, C95_snat_refuted, C95_jump_refuted, C95_local_refuted)."
  },
  {
   "property": "C96",
   "status": "partial",
   "theorems": [
    "C96_only",
    "C96_there_partial",
    "C96_made_partial",
    "C96_relative",
    "C96_slashes_refuted",
    "C96_long_refuted"
   ],
   "note": "Paths of 1024 characters and more and paths with two slashes at the end: refuted (C96_long_refuted, C96_slashes_refuted)."
  },
  {
   "property": "C97",
   "status": "partial",
   "theorems": [
    "C97_commands_partial",
    "C97_unchanged_partial",
    "C97_shown_partial",
    "C97_flush_partial",
    "C97_status_refuted",
    "C97_tables_refuted",
    "C97_old_flush_refuted"
   ],
   "note": "Proved for names that fit the command buffer: the commands run, the unchanged firewall for all fates, the text of --fw-list, and --fw-flush with an iptables that has -C and works (C97_flush_partial). Refuted: the exit status is 0 also on failure (C97_status_refuted), --fw-list-all lists a table once for each of its chains (C97_tables_refuted), --fw-flush leaves jump rule and chain with an iptables without -C (C97_old_flush_refuted)."
  }
 ]
}