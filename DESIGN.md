# Formal model of fwknop in Rocq (Coq 8.16.1)

## Layout

* `rocq/theories/Bytes.v` – bytes, C strings, integer-width helpers.
* `rocq/theories/M_*.v` – the model: total Gallina functions, one per C function,
  each with a comment citing the file and lines modelled. No proofs.
* `rocq/theories/S_*.v` – small specifications written without the model's helpers.
* `rocq/theories/P_*.v` – lemmas and proofs.
* `rocq/theories/T_*.v` – the property theorems only; each is `exact lemma`,
  followed by `Print Assumptions` and an `Example` that meets its hypotheses.

## Modelling conventions

* A byte is `Coq.Init.Byte.byte` (256 constructors), so there is no range side condition.
  C strings are byte lists without NUL; buffers are byte lists with explicit length.
* C integers are `Z`, with explicit wrap functions where C converts between widths
  (`int` 32 bit, `long` 64 bit, `unsigned short` 16 bit).
* Undefined behaviour (out-of-bounds read or write) is a separate outcome of the model
  function; theorems say when it cannot happen, or exhibit an input where it does.
* GnuPG, the operating system, the clock and the random source are parameters of the model:
  universally quantified functions or inputs. Most theorems also hold for any seven hash
  functions with the right output lengths (`hashes_ok`); M_hash models the real ones, and
  `C63_sizes` shows that they meet this hypothesis.
* Where the full English property is false of the code, a theorem `…_refuted` gives the
  counterexample and the positive theorem carries the precise precondition.

## Plan per property

| id | model | proof |
|----|-------|-------|
| C01 C02 | `b64_encode`, `b64_decode`, `strip_b64_eq` | induction on 3-byte groups; finite sweep of the alphabet |
| C03 | setters, `fko_encode_spa_data`, `fko_decode_spa_data` over lists | field by field: strchr of ':' splits what was joined; refute for the fields whose setter limit exceeds the decoder limit |
| C04 | same decoder | inversion of each parser |
| C05 | `validate_access_msg` etc. | both directions against a grammar |
| C06 C07 C08 C42 | validators, `strtol_wrapper` | character-level induction |
| C09 | modes of `block_encrypt/decrypt`, padding, KDF over an abstract block cipher with `D(E x)=x` | induction on blocks |
| C10 | the table-driven AES of rijndael.c | linearity of column mixing, finite table checks |
| C11 C12 C13 C44 | `fko_spa_data_final`, `fko_new_with_data`, HMAC | composition of the above |
| C14 C41 C43 | loops | induction |
| C15 C16 | context as a record, API calls as an inductive `op` | invariants over op lists |
| C17 C18 C28 C29 C30 | `incoming_spa` loop as a fold producing effects | induction on the stanza list |
| C19 C20 | packet histories | invariant; refuted through HTTP prefix and '=' suffix |
| C21 C22 | cache file as bytes, append cut at any point | print/scan round trip; refuted for a torn line |
| C23 C24 C27 | small numeric functions | lia |
| C25 C26 C38 | access.c lists and matchers | bit-level lemmas, list induction |
| C31 C32 | cmd_cycle.c | list surgery = filter; refuted overflow of template buffer |
| C33 C34 | process_packet.c, preprocess_spa_data | explicit indices with an out-of-bounds outcome |
| C35 C36 C37 | fw_util_iptables.c with a model of `iptables -L/-A/-D` | renumbering lemma, history invariant |
| C39 C40 C54 C55 | config_init.c `parse_config_file`, `range_check`; strtoargv | induction over the lines; relation "line says name = value" |
| C45 C46 | AES against FIPS 197; the salted format | tables against GF(2^8) arithmetic, refinement of the unrolled rounds |
| C47 C48 | random values and key generation over an arbitrary random source | induction on the digits |
| C49 C50 C51 | the context calls, `fko_new_with_data`, preprocessing with an out-of-bounds outcome | invariant on the context; no call sequence reaches the outcome |
| C52 | `incoming_spa` | case analysis; effects of an ignored packet are empty |
| C53 | udp_server.c | explicit buffer contents |
| C56–C62 | access.c: reading of access.conf with includes, folders and key files | induction over lines with an invariant of the stanza being built; depth argument for termination; `decided` = last line counts |
| C63 | md5.c, sha1.c, sha2.c, sha3.c | invariant: the context stands for the bytes absorbed so far; refinement to RFC 1321, FIPS 180-4 (constants as roots of primes) and FIPS 202 |
| C64–C71 | client/fwknop.c `main` from the options on, getpasswd.c, spa_comm.c; composed with the model of the server | relation `wants` between options and message; the library's round trip (C16); datagram of the kernel from the bytes of a raw socket |
| C72–C73 | client/config_init.c: rc file, command line, checks of the options | entries of a stanza as a relation on lines, meaning of each option as an entry, last entry decides; the checks give the hypotheses of C64–C71 |
| C74 | client/config_init.c: update_rc and the functions that write a variable | the new file as a function of the old one, options and answers; stanzas of the new file by the relation of C72; the files at every step of the replacement |
| C75 | client/config_init.c: saving and reading together | config_init, save_text and config_init again: every field that can be saved is the same, and so are the options of the packet and its route |
| C76 | client/fwknop.c: prev_exec, save_args, run_last_args, show_last_command | files by name; histories of runs over an arbitrary getopt_long; words of the saved line |
| C77 | server/fw_util_iptables.c: fw_initialize, fw_cleanup, ipt_chk_support, comment_match_exists, delete_all_chains, create_fw_chains | firewall as a function of table and chain; iptables with arbitrary fates; the firewall less what is the daemon's is invariant over all histories |
| C78 | server/incoming_spa.c with server/fw_util_iptables.c, the rounds of server/fwknopd.c: main | turns of the daemon (packet, pass, making and removing the chains, rereading) over the state of C17 and the firewall of C37; the origin of every rule is an invariant of all histories |
| C79 | client/fwknop.c, spa_comm.c with server/incoming_spa.c, fw_util_iptables.c | composition of C65 (options to grant) with the firewall of C37 by the turns of C78 |
| C80 | server/config_init.c (config_init, validate_options), fw_util_iptables.c (fw_config_init) | texts of chain settings against an independent grammar; invariants of the entries; acceptance and refusal |
| C81 | server/config_init.c (config_init) | the last line or option of the concatenated files and options, by induction over the files |
| C82 | server/config_init.c, access.c, incoming_spa.c, fw_util_iptables.c together | an invariant over the reading of all access files gives usable stanzas, the texts of the chain settings give the conditions on names, then C78 and C56; refuted for FORCE_SNAT without ENABLE_IPT_SNAT |
| C83 | server/fwknopd.c: PID file, -K, -R, -S | processes that take steps in any order over a file and a lock with the semantics of lockf; an invariant over all histories; partial: a file with a number must exist, no SIGHUP, no daemon under the number left in the file; each of these is refuted otherwise |
| C84 | server/sig_handler.c, main loop of fwknopd.c, pcap_capture.c and udp_server.c | the program as a machine whose steps are the accesses to the flags, signals between any two; ranking functions for the answer to SIGTERM and SIGHUP, invariants for the rest; partial: not in the windows named by `late`; refuted there, for SIGHUP with the UDP server, after a mistake in the settings and for the count of consecutive errors |
| C85 | client/http_resolve_host.c and its place in main of fwknop.c | the web and wget as functions from what is asked to what is answered; the answers understood are characterised exactly (grammar in S_resolve), URLs by their parts, the packet with C64; partial: not for ports of five digits, colons or a last slash in the path, empty or long URLs, user agents with blanks, long answers and commands, all refuted |
| C86 | server/extcmd.c without the copied output (M_fw), the SIGCHLD case of sig_handler.c | identities of a process with setuid and setgid of the kernel, failures as oracles, what a process may become as a reflexive transitive relation; the table of children under any history of ends and runs of the handler; the search as a function of the output; partial: supplementary groups stay, statuses taken by the handler are lost, long lines are searched in pieces |
| C87 | server/tcp_server.c and its callers in main, handle_signals and pcap_capture | the server as a function of the results of its system calls; daemon and servers as a transition system over interleaved events, compared with the daemon without servers (non-interference) by an invariant; partial: only while the server is in select at a SIGHUP, ends within the pause and has no failing call, or with FLUSH_IPT_AT_EXIT N; refuted otherwise, and no restart |
| C88 | server/fw_util_pf.c with run_extcmd, run_extcmd_write and search_extcmd | pfctl as anchors holding the lines it shows, each run having a fate; a request and a check characterised for all anchors and fates; a relation that says what the anchor should hold after a history, and a refinement proof with the invariant that the counters agree with the anchor; partial: pfctl works and writes no messages, rules have the form the daemon gives them and fit the buffer, and no request while a rule is overdue; refuted otherwise |
| C89 | M_incoming with M_ctx, M_cycle, M_replay | out-of-bounds accesses and NULL pointers are the outcome Fault; each stage is shown to give no Fault, then the loop over the stanzas, then any history by an invariant (usable stanzas, digests of full length in the cache); partial: templates with room, a sudo group where one is used, X-Forwarded-For values of at most 15 characters, and either no padding character in the data or no stanza in which it is authenticated; each of the four is refuted without its condition |
| C90 | M_ipfw (with run_extcmd of M_fw) | ipfw is a small program of its own in S_ipfw: a table of numbered rules in sets, disabled sets and dynamic rules, and the fate of each run; the books (count, next end, map of numbers) agree with the table by the invariant `tidy`, kept by each request, check and purge, so that histories are by induction; that everything is closed in the end needs a second invariant on the counters (`sound`); partial: no IPFW_ADD_CHECK_STATE, ipfw works except where the theorem is for all fates, listings fit 4095 characters; refuted: that one check closes all that is due, that a later rule does not keep an earlier one open, counts above IPFW_MAX_RULES, FLUSH_IPFW_AT_INIT N, FLUSH_IPFW_AT_EXIT N, failed moves, rules with foreign numbers (write outside the map), settings 0 and 65536 |
| C91 | M_firewd (with M_fw and M_fwinit for the code that is the same in both files) | firewall-cmd is a small program in S_firewd that has the iptables of S_fw do the work, with any error message and any text added to a listing; proved by simulation: each run of the firewalld code with any fates has the effect of a run of the iptables code, with some fates, under an iptables with a fixed error message (`quietly`) and a longer name (`beside`), and for the removal of expired rules and for runs without failures the two are equal, so that the theorems of C35, C37 and C77 carry over; partial: names short enough for the options added, -C supported; refuted: a failed or killed run of the probes and checks |
| C92 | M_gpg (lib/gpgme_funcs.c and the build with gpgme of the library); gpgme is a record of answers, one for each call | histories of calls with their answers (S_gpg), an invariant that ties the keys and the handle of the context to the history; the daemon's oracle for GnuPG in M_incoming is shown to be what these functions do (`C92_daemon`); partial: the key ring is one that was set at some moment, safety as long as listings of keys start; refuted: stale handle, no retry after a failure, late settings, broken-off listings, other prefixes than hQ, unsigned messages through fko_new_with_data, GPG_DECRYPT_ID |
| C93 | M_nfq (server/nfq_capture.c on top of M_packet, M_incoming and M_daemon); recv and signals are inputs | the rounds of the loop refine the turns of C78's daemon, so its theorem carries over; the packets by C33's exact reading with the link offset 0 |
| C94 | M_dbm (the gdbm half of server/replay_cache.c and incoming_spa with it); each opening of the data base has a fate: opens, reads, stores | lock-step simulation with the file cache of C19 while the data base works; an invariant of the stanza loop for what is recorded; refutations for the calls whose failure is ignored |
| C95 | M_old (the search of server/fw_util_iptables.c for an iptables without -C, on top of M_fw and the search of M_extcmd) | the same growth argument as C37, for all fates of the runs; a rule is found exactly if the first line of the listing with its expiry tells of it (S_old says what a line tells), for one requested port, and the redirection of a NAT request exactly if that line also sends to the requested port (and, with ENABLE_DESTINATION_RULE, holds the internal address); partial: an existing line counts as the rule, presence after a NAT request is false; refuted: no duplicates (input with two ports, output, SNAT), NAT to a second host or destination, the jump rule |
| C96 | M_dir (check_dir_path and make_dir_path of server/fwknopd.c) | stat and mkdir of a small file system in S_dir: nodes by the names on the way, permissions, names that are refused, and failures of mkdir as an oracle; induction over the characters of the path with the part already made as invariant; partial: paths under 1024 characters, not two slashes at the end; both refuted |
| C97 | M_list (fw_dump_rules of iptables, the options --fw-list, --fw-list-all, --fw-flush in main), on top of M_fw and M_fwinit | induction over the chains: exactly the listing commands are run, for every machine; the firewall of S_fw is unchanged by them for all fates, and the text shown is the listings; flushing is C77; partial: names that fit the command buffer; refuted: the exit status, tables listed twice, flushing with an iptables without -C |

Every property is expressible in a model except for the physical timing part of C14
(the model shows that the loop visits every index, not how long the machine takes).

## Trusted base

* Coq 8.16.1's kernel (and its virtual machine for `vm_compute`; the independent checker
  accepts the same files).
* Axioms: none. Every theorem in a `T_*.v` file is followed by `Print Assumptions`, which
  prints "Closed under the global context" for all of them. (A listing over all loaded
  libraries may also show `Coq.ssr.ssrunder.*`, which the standard library's ssreflect files
  bring along; no theorem here depends on it.)
* The transcription of C into Gallina, cited definition by definition.
* The specifications in the `S_*.v` files: they are what a reader has to compare with the
  English statements.
* The parameters of the model: what the operating system, the clock, the random source, the
  user database, external programs and GnuPG answer is arbitrary unless a hypothesis in the
  theorem says otherwise.

## What is modelled

| code | model |
|------|-------|
| common/fko_util.c (number and address parsing, constant time comparison, encryption mode names, chop, strtoargv, zero_buf), strlcpy.c, strlcat.c | M_util, M_conf |
| lib/base64.c | M_base64 |
| lib/fko_message.c, fko_user.c, fko_nat_access.c, … (validators) | M_message |
| lib/fko_encode.c, fko_decode.c | M_codec |
| lib/rijndael.c | M_aes, M_cipher |
| lib/cipher_funcs.c, hmac.c | M_cipher |
| lib/md5.c, sha1.c, sha2.c, sha3.c, digest.c (little-endian, 64-bit build) | M_hash |
| lib/fko_funcs.c, fko_context.h and all setters and getters, fko_encryption.c, fko_hmac.c, fko_digest.c (build without gpgme) | M_ctx |
| lib/gpgme_funcs.c, fko_encryption.c and fko_funcs.c in a build with gpgme (gpgme as a record of answers), server/incoming_spa.c:632-689 | M_gpg |
| server/access.c | M_access (lists and checks), M_accfile (reading the files) |
| server/config_init.c: parse_config_file, validate_int_var_ranges | M_conf |
| server/replay_cache.c (file cache) | M_replay |
| server/cmd_cycle.c | M_cycle |
| server/incoming_spa.c | M_incoming |
| server/process_packet.c, udp_server.c | M_packet |
| server/fw_util_iptables.c, extcmd.c (execvp build) | M_fw; start and end: M_fwinit; with an iptables without -C: M_old |
| composition of incoming_spa with process_spa_request, and the turns of the daemon (incoming_spa.c:1223; pcap_capture.c, udp_server.c, fwknopd.c main as a list of turns in any order) | M_daemon |
| config_init (config_init.c:1069-1461: -c, -O and the options that store an argument), validate_options (389-1042), fw_config_init (fw_util_iptables.c:1026-1091), main of fwknopd.c up to the first packet | M_start |
| setup_pid, restart_fwknopd, status_fwknopd, stop_fwknopd, daemonize_process, write_pid_file, get_running_pid (fwknopd.c:510-599, 650-715, 872-1051); POSIX record locks as a process number that is cleared when its process closes the file | M_pid |
| sig_handler.c:50-173; loop of main and handle_signals (fwknopd.c:76-334, 601-648); loops of pcap_capture (192-334) and run_udp_server (115-234) as far as signals, errors and limits go. Not the TCP server and nfq_capture | M_life |
| client/fwknop.c (main from the parsed options on, without key generation), getpasswd.c | M_client; the last-run arguments: M_last |
| client/spa_comm.c, sending part of fwknop.c main | M_send |
| client/http_resolve_host.c (build with execvp), fwknop.c:190-232 | M_resolve |
| server/extcmd.c:74-372 and 587-668 (build with execvp; descriptors not modelled), sig_handler.c:76-82 | M_extcmd, M_fw (output) |
| server/tcp_server.c, fwknopd.c:273-288, 315-331 and 609-617, pcap_capture.c:195-222, utils.c:222-243 (rules as a list, see M_fwinit for iptables) | M_tcp |
| server/fw_util_pf.c without fw_dump_rules (pfctl as a parameter), server/extcmd.c:585-687 | M_pf |
| server/fw_util_ipfw.c without fw_dump_rules, for systems other than macOS (ipfw as a parameter), server/pcap_capture.c:317-330 | M_ipfw |
| server/fw_util_firewalld.c without fw_dump_rules and without firewall-cmd lacking -C (firewall-cmd as a parameter) | M_firewd |
| server/nfq_capture.c without the set-up of the queue and the TCP server (signals at the beginning of a round) | M_nfq |
| server/replay_cache.c:366-428, 527-680 with gdbm, replay_warning 142-207 (what it does to the entry) | M_dbm |
| server/fwknopd.c:720-867 (nothing else changes the file system meanwhile; . and .. as names) | M_dir |
| server/fw_util_iptables.c:530-611, server/fwknopd.c:149-160, server/utils.c:222-243 (what is freed is left out) | M_list |
| client/config_init.c (without GnuPG key passphrases and help texts) | M_rc |

Not modelled: the other firewall back end (ipf: its functions are
marked as still to be implemented and open nothing), gpgme itself (a record of answers), gdbm itself and the ndbm variant of the replay cache, libpcap, libnetfilter_queue, log messages, allocation failure, the
command line of the server and getopt itself.  Each model file repeats its own exceptions at the top.

## Findings

For these properties the full statement is false of the code; the theorem named is the
counterexample, found by the proof attempt and checked by the kernel.

* `C02_base64_empty_store_refuted` – The empty text still stores its terminating NUL: a zero-length buffer is overrun.
* `C03_command_timeout_refuted` – A command message loses its client timeout.
* `C03_local_nat_refuted` – A local NAT request without NAT destination is encoded but refused by the receiver.
* `C03_long_message_refuted` – A message of 193 to 255 characters.
* `C03_long_timeout_refuted` – A client timeout above 65536.
* `C03_long_username_refuted` – A user name of 49 to 63 characters.
* `C03_nat_becomes_auth_refuted` – A NAT destination together with a type that carries none arrives as server authentication data.
* `C03_rand_colon_refuted` – A random value with a colon, which the setter accepts, shifts the fields.
* `C03_year_2038_refuted` – A time stamp of 2^31 or later.
* `C04_nul_refuted` – With an embedded NUL the digest covers other bytes than the message text.
* `C07_decimal_reading_refuted` – Read as decimal, as the English property says, the bound of 255 can be exceeded: a group with a leading zero is octal.
* `C08_truncation_refuted` – Without the 32 bit bound the property fails: a number beyond [int] is accepted as another one.
* `C09_pcbc_refuted` – The API also accepts mode 4 (PCBC), which has no case in the block routines: different plaintexts give the same ciphertext, so they cannot both be recovered.
* `C11_long_message_refuted` – A longer message: sent without error, refused by the receiver as being of no known encryption type.
* `C11_rand_refuted` – A random value that is not numeric, which the setter accepts.
* `C13_prefix_refuted` – The accepted text is not unique: the prefix that the sender drops may be left in.
* `C15_decode_null_refuted` – Except for one function, which dereferences the handle without looking at it.
* `C15_destroyed_refuted` – A destroyed handle is a dangling pointer: every use is undefined.
* `C17_cycle_ports_refuted` – A command cycle runs for a port that its stanza restricts.
* `C18_two_stanzas_refuted` – If the open command of a cycle has run but the close command is too long to be built, the next stanzas are tried too.
* `C19_test_mode_refuted` – In test mode digests are not recorded, but command cycles are opened.
* `C20_http_refuted` – An accepted packet is accepted again inside an HTTP request with the prefix that the client has removed put back: the test for it only looks at the start of the packet.
* `C20_no_hmac_refuted` – Without an HMAC key anything may be appended after an equals sign.
* `C22_torn_line_refuted` – C22 is false for the first digest recorded after a kill: its line is glued to the incomplete line, and after the next restart the packet is accepted again.
* `C23_wrap_refuted` – The difference is kept in an int: packets from 68 years away are fresh.
* `C24_clock_set_back_refuted` – The mark is only set when a packet reaches the stanza: if the clock is set back before that, the stanza grants access again.
* `C25_mask_refuted` – A dotted mask of 0.0.0.32 is taken for the prefix length 32: the entry should cover every address that agrees with it in one bit but covers one address only.
* `C26_duplicates_refuted` – With OPEN_PORTS tcp/22, tcp/22 a request for tcp/22 and tcp/80 is permitted, and one for tcp/22 alone is denied: matches are counted, not checked one by one.
* `C27_default_refuted` – FW_ACCESS_TIMEOUT above MAX_FW_TIMEOUT: the default lifetime is not limited by the maximum.
* `C28_header_at_end_refuted` – If the header ends the request, the first character of the address is lost.
* `C29_group_refuted` – A command group without a sudo group: a NULL pointer is dereferenced.
* `C29_root_prefix_refuted` – A configured user whose name starts with root: the command runs with the privileges of the daemon.
* `C30_cycle_refuted` – In test mode the open command of a command cycle is run.
* `C31_close_lost_refuted` – A close command that does not fit its buffer is never run, although the cycle was opened; the template itself fits the limit the configuration imposes.
* `C32_dollar_dropped_refuted` – A dollar sign that starts no known variable is not copied.
* `C32_overrun_refuted` – The buffer is overrun: the position of the next character is advanced by the full length of a value of which only a part was appended.
* `C32_truncated_refuted` – A command that does not fit may be run cut short.
* `C33_header_refuted` – A frame of 60 bytes of which only 34 were captured: the ports are read behind them.
* `C33_options_data_refuted` – With 7 words the header of the protocol is taken from the options: the data are not those of the datagram, and the ports neither.
* `C33_options_refuted` – A datagram with IP options is never taken if its header has 6, 8 to 12 or 14 words: the mask for the number of words is 0x15, not 0x0f. No such frame opens a port.
* `C33_vlan_refuted` – A captured frame that ends within the VLAN tag.
* `C35_killed_refuted` – The same after a deletion whose process is killed when it has done its work.
* `C35_refused_refuted` – Iptables refuses the first deletion (exit status 1): the daemon takes it for done, and the numbers of the following deletions are wrong. A rule without expiry is removed.
* `C36_lingering_refuted` – Grants at 1000, 1020 and 1031 of 30 seconds each, and quick passes at 1030 and 1050: the second rule, which expires at 1050, is still there afterwards.
* `C36_short_name_refuted` – A chain that is the fifth of the configuration and has a name of four characters is never gone through.
* `C37_nat_host_refuted` – A host name of 70 characters in a NAT request passes the check of the message and is copied with its terminator into a buffer of 70 bytes.
* `C37_nat_second_refuted` – The second protocol and port of that request are granted nowhere.
* `C38_big_port_refuted` – A port number beyond an int is taken for another port.
* `C39_rest_refuted` – A reference with no rest is followed by the rest of an earlier reference.
* `C40_long_word_overrun_refuted` – A word of 1024 or more characters overruns the buffer.
* `C42_hostname_empty_refuted` – For the empty text the byte before it is read.
* `C48_sha3_default_refuted` – With a SHA3 HMAC type there is no default length, and the call fails.
* `C49_set_hmac_refuted` – Setting the HMAC of a context directly and then computing it again.
* `C50_padding_refuted` – A padding character cuts the base64 text short; with exactly one block left the byte before the plaintext buffer is read. No key is needed to send this.
* `C51_long_address_refuted` – Sixteen characters that are taken for an address: 17 bytes are stored in an array of 16.
* `C53_failure_refuted` – If recvfrom fails (the socket is non-blocking), a NUL is stored in front of the array.
* `C53_old_bytes_refuted` – Bytes of an older packet in the packet handed on.
* `C54_blanks_refuted` – Blanks behind a value of one character stay in it.
* `C54_freed_refuted` – When a file gives a value to CONFIG_FILE, a later message about another line uses the name of the file after it was freed.
* `C55_port_refuted` – A port above 65535 is accepted.
* `C56_blanks_refuted` – Blanks behind a value of one character stay in it.
* `C56_comment_refuted` – What stands behind the first 1023 characters of a comment is taken as a line of its own.
* `C57_keys_refuted` – If the keys of a stanza are not usable the server drops the last stanza read, which may be another one; it then starts with a stanza without keys, and without the other one.
* `C58_folder_refuted` – With ACCESS_FOLDER the lists of a stanza grow with every file read after it; then a request for the open port is refused and a request for the open port and another one is permitted.
* `C59_group_refuted` – The name of a group is looked up among the users: the server takes the group of the user of that name, or does not start if there is none.
* `C59_shared_refuted` – A later setting that names an account changes the group of the earlier one
* `C60_folder_refuted` – A file that includes the folder it lies in is read again and again, whatever the bound on the nesting.
* `C61_text_refuted` – A text that is no number, or a negative one, is accepted as ACCESS_EXPIRE_EPOCH and the stanza never expires.
* `C62_address_refuted` – A text of 16 characters is split: the sixteenth becomes the port.
* `C62_port_refuted` – Of a port of more than five digits the first five are used
* `C64_access_overflow_refuted` – An access string with the slash far behind and a port for the translation: the client writes behind its array.
* `C64_command_nat_refuted` – A command together with an address for the translation.
* `C64_empty_host_refuted` – An address for the translation without a host.
* `C64_length_refuted` – With more ports the packet is still sent, and nobody can open it.
* `C64_no_access_refuted` – Without an access string the client asks for the port none/0, which its own library refuses: nothing is ever sent, although the option may be left out.
* `C64_timeout_refuted` – A timeout that the client takes and the server does not.
* `C65_long_refuted` – A long packet: the server does not try its key, unless the stanza permits commands.
* `C65_short_refuted` – A command in a short packet: the server does not look at it.
* `C66_proxy_cut_refuted` – The name of a proxy is cut to 49 characters without a word.
* `C66_proxy_read_refuted` – The removal of http:// reads behind the end of a long text.
* `C67_tcp_sum_refuted` – A raw TCP segment has no sum: a host would not accept it, only who listens to the wire.
* `C68_no_seed_refuted` – Without a seed the random port for the translation is left out without a word.
* `C68_reveals_refuted` – The random port of the destination, and the source port, are computed from the random value that is encrypted in the packet: they show its first five digits, up to 55535.
* `C69_file_overflow_refuted` – A key of more than 128 characters in a key file is written behind the array.
* `C69_interrupt_refuted` – Control-C at the prompt does not end the client: a packet sealed with the empty key is made.
* `C70_base64_overflow_refuted` – A key in base64 that is too long is written behind the array.
* `C70_overflow_accepted_refuted` – Such a key is accepted on the command line.
* `C72_empty_name_refuted` – A stanza with the empty name is read although none is asked for.
* `C72_hmac_key_file_refuted` – HMAC_KEY_FILE sets the file of the encryption key instead.
* `C72_key_refuted` – A key in base64 on the command line does not replace a KEY of the rc file.
* `C72_offset_overflow_refuted` – The number of seconds of a TIME_OFFSET can overflow.
* `C72_offset_refuted` – --time-offset-plus on the command line is added to a negative TIME_OFFSET of the rc file.
* `C72_resolve_refuted` – -R on the command line asks to look up the address, but one in the rc file is used.
* `C72_stanza_resolve_refuted` – ALLOW_IP resolve in the stanza asked for does not replace an address in the default stanza.
* `C72_switch_refuted` – A stanza cannot turn off what the default stanza turns on.
* `C72_verbose_refuted` – More -v on the command line than VERBOSE in the rc file: that of the rc file counts.
* `C73_no_access_refuted` – Neither ports nor a command: accepted, but no packet can be made, with no key and on no system.
* `C73_resolve_refuted` – -a resolve is accepted, and the text is then taken as the address.
* `C74_comments_refuted` – Comments are lost, in all stanzas.
* `C74_crash_refuted` – The old file is removed before the new one gets its name: there is a moment with no rc file at all, whenever a stanza is saved.
* `C74_last_line_refuted` – A heading in the last line, without a line end: the first variable that is saved is added to the heading and has no effect.
* `C74_malformed_refuted` – A malformed line in the stanza: nothing is saved, and the new file stays behind, so that nothing can be saved later either, whatever is asked for.
* `C74_twice_refuted` – Two stanzas of this name, one behind the other: the second one is not replaced, and its entries count.
* `C75_command_refuted` – A command for the server is not saved: the next run asks for access instead.
* `C75_hmac_file_refuted` – The file with the HMAC key becomes the one with the encryption key.
* `C75_offset_refuted` – A time offset of one day is saved in seconds, which are too many for the rc file.
* `C75_source_refuted` – With -s the address 0.0.0.0 is not saved: the stanza cannot be used.
* `C75_timeout_refuted` – A timeout of more than 65536 seconds is accepted with -f and saved, and then refused in the rc file.
* `C75_verbose_refuted` – Five times -v is accepted and saved as VERBOSE 5, which is refused.
* `C75_word_refuted` – A key with a hash sign or a semicolon is cut there when it is read back.
* `C75_zero_offset_refuted` – A time offset of 0 is saved as nothing, and the stanza is refused.
* `C76_blank_refuted` – An argument with a blank is two arguments for --last: a command for the server is cut, and the rest is taken as an option of the client.
* `C76_cut_refuted` – The blanks are not counted: a line of more than 1023 characters is cut without a word.
* `C76_empty_refuted` – An empty argument is gone, so that the option before it takes the next one.
* `C76_long_refuted` – A run with too long arguments is refused, after the last command has been erased: --last then takes no options at all.
* `C76_many_refuted` – With more than 28 arguments, which are accepted and saved, --last fails.
* `C77_comment_refuted` – The second probe rule is deleted only if it is seen in the listing; if the listing fails it stays, and accepts everything from 127.0.0.2.
* `C77_many_refuted` – At most ten jump rules are removed: with more of them the chain and the jump rules stay.
* `C77_position_refuted` – The start is reported as successful although no jump rule was made, the position given for it being beyond the end of the chain: no permission will ever have an effect.
* `C77_probe_refuted` – Inserting the probe rule fails, for instance because another program holds the lock of iptables; the daemon deletes the first rule of the chain all the same, which is a rule of the administrator.
* `C78_nat_cut_refuted` – The request names the host 192.168.1.10, written with octal numbers in 16 characters, and is granted; the connection is sent to 192.168.1.1, the last character being cut off.
* `C80_cut_refuted` – Of a name, 63 characters are used.
* `C80_position_refuted` – A jump position that is no number is accepted as 0, a position that iptables does not know.
* `C80_run_dir_refuted` – With an empty run directory the character before the beginning of an array is read.
* `C80_target_refuted` – A chain setting whose target is empty is accepted, and the chain is not used: the daemon runs without it.
* `C81_comma_refuted` – The daemon does not start with a configuration file whose name has a comma in it.
* `C81_option_refuted` – A line about OVERRIDE_CONFIG in the file displaces the option -O.
* `C81_twice_refuted` – The same file gives other settings when it is named with -c than when it is the default file, because it is read a second time.
* `C82_masquerade_refuted` – FORCE_MASQUERADE with FORWARD_ALL is accepted without any NAT enabled. A request is granted then, and no rule at all is made for it; without these two lines the port is opened (C82_ex).
* `C82_snat_refuted` – FORCE_SNAT in a stanza is accepted although ENABLE_IPT_SNAT is not set. The daemon then has no chain for such rules; the request is granted, the connection sent on, but no rule of source NAT made. With ENABLE_IPT_SNAT it is.
* `C83_own_number_refuted` – A daemon that is started under the very number an earlier one has left in the file (after a reboot, say, or in a container, where the numbers are few) takes itself for a daemon that restarts: it does not go into the background and does not take the lock; a second one runs beside it.
* `C83_race_refuted` – Two daemons that are started at about the same time when there is no PID file yet both run: the second is refused the lock, finds the file still empty, reports that the lock may not be effective, and goes on. (If the file named an older daemon it would end; see the theorem above.)
* `C83_reload_refuted` – After SIGHUP (also that of fwknopd -R) the daemon no longer holds its lock: it looks into the PID file to see whether it was running before, and closing the file releases the lock. A second daemon then starts beside it, and fwknopd -K stops only that one.
* `C83_stale_refuted` – Nothing removes the PID file when a daemon ends. If its number has since been given to another program, fwknopd -K sends that program SIGTERM and, when it does not end, SIGKILL.
* `C83_status_refuted` – Fwknopd -S asks by trying to become the daemon. After a SIGHUP it says that none runs, and leaves its own number in the file: fwknopd -K then signals that number, a process that no longer exists, and the daemon runs on.
* `C84_consecutive_refuted` – The daemon gives up after a hundred consecutive errors of the network, it says. But receiving packets does not start the count again: here no two errors follow one another.
* `C84_hup_wins_refuted` – SIGTERM together with SIGHUP, in either order, or while the settings are read again: SIGHUP wins, and SIGTERM is forgotten.
* `C84_lost_refuted` – SIGTERM is lost when it comes after the daemon has looked for it and before it forgets that there was a signal at all: it does so after each SIGCHLD, that is whenever an iptables command has ended, and after SIGUSR1 and SIGUSR2. The daemon then runs on for ever, as long as no other signal comes.
* `C84_mistake_refuted` – SIGHUP with a mistake in the settings: the daemon ends without cleaning up the firewall. The rules it has made stay, with nobody to remove them when they expire.
* `C84_udp_refuted` – With the UDP server SIGHUP (also that of fwknopd -R) never makes the daemon read its settings again: it ends.
* `C85_agent_refuted` – A user agent with a blank is cut into several arguments, which wget takes for more URLs.
* `C85_colon_refuted` – A colon in the path is taken for that of the port, and the end of the host name for the port: another host is asked.
* `C85_command_refuted` – With a command for the server the address is not looked up at all, and no packet is made.
* `C85_cut_refuted` – The last character of an address of 16 is dropped: the packet asks access for an address that nobody named.
* `C85_empty_refuted` – An empty URL: the character before it is read.
* `C85_long_answer_refuted` – The same page is understood in two pieces and not in one, if it has 2000 bytes or more.
* `C85_long_url_refuted` – A long URL is cut: wget asks for another page.
* `C85_overflow_refuted` – A long path with a colon behind a short host name: the length of the host name becomes negative, and the whole text is stored into its array.
* `C85_port_refuted` – A port of five digits: the last one is lost, and the colon becomes part of the host name.
* `C85_slash_refuted` – The slash at the end of a URL is not part of the page asked for.
* `C86_group_alone_refuted` – CMD_EXEC_GROUP without CMD_EXEC_USER has no effect: the command runs as root and in the groups of root.
* `C86_groups_refuted` – The supplementary groups are never changed: a command of any user runs with those of the daemon, and keeps them.
* `C86_search_refuted` – A text across the 255th byte of a line is not found, nor one in a line that starts with a hash mark or a semicolon.
* `C86_status_refuted` – If the SIGCHLD handler runs between the end of the command and the wait for it, the status is lost, and every command - one that failed or was killed, too - counts as successful.
* `C86_write_refuted` – The function that feeds a program from a pipe (used for pf) forgets the exit: if the program cannot be started, its child process goes on as a second daemon.
* `C87_busy_refuted` – A SIGHUP while a connection is served is lost to the TCP server. It keeps the port; the new one cannot bind it, and removes all rules of the running daemon. The old one is out of reach of the daemon, and still there when it has ended.
* `C87_failure_refuted` – So does a single failure of select or accept.
* `C87_outlives_refuted` – The daemon is looked for only after 200 ms without a connection: while clients keep connecting, the server outlives the daemon.
* `C87_port_refuted` – If another program has the port, the TCP server removes the rules of the daemon, which runs on.
* `C87_restart_refuted` – A TCP server that has ended is started again only if its status is still there: once the signal handler has collected it, which it does at once if no other child has ended, never.
* `C87_second_daemon_refuted` – If it is started again, its process does not end with it: it goes on as a second daemon.
* `C87_slow_refuted` – A TCP server that is slow to end after a SIGHUP removes the rules of the daemon that has started again.
* `C88_anchor_refuted` – The daemon starts, and adds rules that have no effect, when not its anchor but another one whose name ends with the same letters is in the main rules
* `C88_entries_refuted` – A request with an invalid entry is served for the entries before it, on this back end only
* `C88_failed_write_refuted` – When the writing of the remaining rules fails once, the count of the rules is wrong from then on, and a rule may stay for ever: after three checks, of which the first fails, and from then on at no time [t] does a check remove the second rule.
* `C88_foreign_refuted` – A rule in the anchor that the daemon did not make, and that has no time, is removed by the first check that removes something
* `C88_listing_refuted` – When the listing of the rules fails, the new rule replaces all those in the anchor: others lose their access
* `C88_message_refuted` – When pfctl writes a message to standard error with the listing (as it does without ALTQ in the kernel), that message is taken for rules: no request is ever served, but each is reported as served
* `C88_overdue_refuted` – A rule whose time has come outlives the check when a request was served between that time and the check: the time of the next check that does something is then the end of the new rule. Here a rule for 30 seconds is still there after 3000 seconds and a check.
* `C88_reported_refuted` – A request is reported as served although pfctl has not accepted the rule: how pfctl ends is not looked at
* `C88_room_refuted` – A request is reported as served although there is no room for its rule: with 47 rules in the anchor no further one is added
* `C89_group_refuted` – A stanza that runs commands with sudo, with a group but without a sudo group.
* `C89_header_refuted` – Any web request with a long X-Forwarded-For header, whatever the keys: the address is stored in an array that is too short.
* `C89_padding_refuted` – A packet that anybody can send: a padding character early in the data leaves less than two cipher blocks, and the program reads in front of its buffer. A stanza without an HMAC key is enough, whatever its encryption key.
* `C89_template_refuted` – A command template that has no room for an address, and an authorized packet.
* `C90_all_refuted` – A check does not close all rules whose time has come: only one number in a check
* `C90_count_refuted` – Rules stay open for ever when a request brings the count of the active rules above IPFW_MAX_RULES, which counts ports while the limit is on numbers: the count is set to zero, and from then on no check does anything
* `C90_expire_set_refuted` – With FLUSH_IPFW_AT_INIT N the expire set is not disabled: a rule whose time has come is moved to it and stays open. And a purge then finds no heading of dynamic rules in the listing: nothing is deleted, and the number is never used again, here the only one.
* `C90_failed_move_refuted` – When ipfw fails to move a rule once (it exits with an error, which is not looked at), the rule stays open for ever
* `C90_memory_refuted` – A rule left in the active set by an earlier run with other numbers makes the daemon write outside its map of numbers
* `C90_order_refuted` – A rule for 30 seconds stays open for an hour, through any number of checks, when a rule with a higher number ends later: of the listing only the time in the last line is understood, since in the others a line feed follows
* `C90_overdue_refuted` – A rule whose time has come outlives the checks when a request was served between that time and the check: until the end of the new rule a check does nothing, not even list the rules
* `C90_restart_refuted` – With FLUSH_IPFW_AT_EXIT N, FLUSH_IPFW_AT_INIT Y does not flush either: rules of an earlier run stay, their numbers are taken for free, and a rule is closed long before its time when a new one with the same number ends
* `C90_settings_refuted` – IPFW_START_RULE_NUM 0 is accepted, but then no request is ever served: the number 0 stands for no number. IPFW_MAX_RULES 65536 is accepted, too, and becomes 0.
* `C91_comment_refuted` – Firewall-cmd is killed when the second probe rule is made: the start fails and leaves the rule, which accepts everything from 127.0.0.2.
* `C91_probe_refuted` – Inserting the probe rule fails; the daemon deletes the first rule of the chain all the same, which is a rule of the administrator.
* `C91_twice_refuted` – A check whose process is killed is taken to say that there is no such rule: the permission is made a second time, and so is the jump to its chain.
* `C92_ambiguous_refuted` – A listing that breaks off with an error after the first key counts as one with a single key: the name may have more.
* `C92_constructor_refuted` – Fko_new_with_data with a key to decrypt with does not look at signatures, although a context has verification on from the start: a message without a signature, or with a bad one, has the same result as one that is signed.
* `C92_decrypt_id_refuted` – The setting GPG_DECRYPT_ID of a stanza has no effect. The context of a packet is not yet one for GnuPG when the daemon names the recipient: the call is refused, the daemon does not look at the result, and the packet is treated as without the setting.
* `C92_home_refuted` – The program and the directory count only if they are set before the first call that needs GnuPG. Here the caller sets the directory /b and names the recipient again: both calls succeed, and the message goes to the key of /a.
* `C92_pass_refuted` – A message that asks for a passphrase crashes a caller that has none: the length of the NULL pointer is taken. The sender decides about that, not the caller.
* `C92_prefix_refuted` – The two letters hQ are cut off from the packet and put back by the receiver, but gpg does not begin every text with the bytes they stand for: with a recipient whose key has 1024 bits the text begins with hI. gpg could open the text that it made, and not the one that the receiver gets.
* `C92_retry_refuted` – A call to encrypt or to decrypt that fails in gpgme is the last one that the context can be used for: every later call that needs GnuPG fails as well, whatever gpgme could do by then.
* `C92_stale_refuted` – A listing of keys that fails to start releases the handle and leaves the pointer to it in the context. The next call that looks for a key, and the destruction of the context, use the released handle.
* `C92_unsigned_refuted` – Here is such a message: it is accepted by the constructor, and the call made by hand on a context without a key refuses it.
* `C93_cycles_refuted` – No round closes a command cycle: none is ever taken off the list, whatever its time.
* `C93_errors_refuted` – The errors that make the daemon give up need not follow each other: a packet in between does not start the count anew.
* `C93_limit_refuted` – The limit of packets counts bytes: with a limit of 200 packets the first one, of which 300 bytes are received, is the last.
* `C93_source_refuted` – The packets of the queue begin with the IP header, but bytes 12 and 13 are taken for the type of an Ethernet frame: no datagram from 0.x.x.x or from 2.0.0.0 to 5.220.255.255 is ever taken, whatever it contains, because the header is looked for three bytes later.
* `C93_stop_refuted` – While something is received in every round the loop goes on, whatever signals come and whatever the limit of packets is: whoever sends a packet every half second keeps the daemon from ending.
* `C93_wrong_source_refuted` – From 1.x.x.x a datagram may be taken with a wrong source: the last octet of its source and the first three of its destination. Here one from 1.2.3.10 to 20.30.40.50 is said to come from 10.20.30.40.
* `C94_read_refuted` – An entry that cannot be read counts as absent, so a packet is acted upon again.
* `C94_start_refuted` – If the data base cannot be opened when the daemon starts, the daemon runs on without remembering digests, and a packet is acted upon as often as it comes.
* `C94_store_refuted` – The program takes a store that fails for one that went well, so the same packet is acted upon again.
* `C95_duplicate_refuted` – Claim: a request whose rules are all there makes no rule. Only the first line of the listing with the expiry is looked at. The request tcp/22,tcp/80 twice in the same second: the first such line is that of port 22, so the rule of port 80 is made again.
* `C95_jump_refuted` – Claim: after a request the rule that jumps from INPUT to the chain is there. The search is for the name of the chain in any line of INPUT. With a rule in INPUT whose comment is the name, the jump rule is not made, and the rules in the chain are without effect.
* `C95_local_refuted` – The rule that a local NAT request makes in the input chain has no address to redirect to, but the search is for a line with one, so it is never found: each request in the same second makes another.
* `C95_nat_destination_refuted` – With ENABLE_DESTINATION_RULE the internal address is looked for, as a text that may go on, and the destination is not. After a request to 192.168.1.1 with internal host 192.168.1.10, one to another destination makes no rule, and neither does one with internal host 192.168.1.1.
* `C95_nat_refuted` – Claim: after a NAT request the rule that redirects to its internal host is there. The text for the internal address is written over the text for the destination, which is only looked for with ENABLE_DESTINATION_RULE; the text meant for it stays empty, and an empty text is in every line. Two NAT requests in the same second, to port 80 of 192.168.1.10 and then of 192.168.1.11: the second is taken for the first, and its connections go to 192.168.1.10.
* `C95_output_refuted` – The same claim for the output chain. Its rule has the source port and is listed with spt:, but the search is for dpt:, so the rule is never found. The request tcp/22 twice in the same second, with ENABLE_IPT_OUTPUT: one rule in the input chain, two in the output chain.
* `C95_snat_refuted` – The rule for the source address of connections to the internal host has no source, but the search is for one, so it is never found: each request in the same second makes another.
* `C96_long_refuted` – Claim: if the daemon goes on, its run directory is there. Of a path of 1024 characters or more, which the option -r may have, only the first 1023 are looked at and made.
* `C96_slashes_refuted` – Claim: if the directory can be made, the daemon makes it and goes on. One slash at the end of the path is removed, of two slashes one stays: the directory is made in the loop over the slashes, then it is made again, which fails. The daemon ends with an error although the directory is there now, and goes on when it is started again.
* `C97_old_flush_refuted` – Claim: after --fw-flush nothing of the daemon is left. Whether iptables has -C is only found out when the daemon starts; with --fw-flush it is taken for granted. An iptables without -C then seems to have no jump rule: it stays, and so does the chain.
* `C97_status_refuted` – Claim: the exit status says whether the rules could be listed. The failures are counted, but the number is not looked at: the status is 0 also if iptables cannot be started.
* `C97_tables_refuted` – Claim: --fw-list-all lists each table once. It is listed once for each chain in it.
