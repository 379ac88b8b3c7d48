{
 "claims": [
  {
   "property": "C01",
   "status": "proved",
   "theorems": [
    "C01_name_list",
    "C01_uint32",
    "C01_boolean",
    "C01_uint64",
    "C01_size",
    "C01_skip",
    "C01_string_ref",
    "C01_string_copy",
    "C01_string_alloc",
    "C01_mpint"
   ],
   "note": "name-list contents: see C04"
  },
  {
   "property": "C02",
   "status": "proved",
   "theorems": [
    "C02_fields_round_trip",
    "C02_encoders_meaning"
   ],
   "note": ""
  },
  {
   "property": "C03",
   "status": "proved",
   "theorems": [
    "C03_mpint_keeps_number",
    "C03_mpint_idempotent",
    "C03_mpint_reader_refuses_negative"
   ],
   "note": ""
  },
  {
   "property": "C04",
   "status": "proved",
   "theorems": [
    "C04_name_list_result",
    "C04_name_list_capacity",
    "C04_name_lookup"
   ],
   "note": ""
  },
  {
   "property": "C05",
   "status": "partial",
   "theorems": [
    "C05_choice_partial",
    "C05_failure_partial",
    "C05_peers_agree_partial",
    "C05_parameters",
    "C05_unknown_first_refuted",
    "C05_advertised_unknown_refuted",
    "C05_cert_alias_refuted"
   ],
   "note": "Proved when an endpoint's own lists contain only names of the library's table and no RSA certificate name (true of the shipped defaults; the peer's bytes are arbitrary). Outside that the statement is false: the three _refuted theorems."
  },
  {
   "property": "C06",
   "status": "partial",
   "theorems": [
    "C06_connection_after_auth",
    "C06_grant_is_for_this_session",
    "C06_no_auth_after_connection",
    "C06_no_auth_after_accept",
    "C06_no_auth_after_success_partial",
    "C06_no_auth_after_success_refuted"
   ],
   "note": "Connection messages only after a grant bound to this session and the success message: proved for all histories. 'Refused afterwards': proved after the first connection message, after accept succeeded, and for accept-only histories after the success message; refuted in general (C06_no_auth_after_success_refuted: success message blocked, application calls the worker)."
  },
  {
   "property": "C07",
   "status": "partial",
   "theorems": [
    "C07_connection_after_success",
    "C07_client_messages_partial",
    "C07_client_messages_refuted"
   ],
   "note": "First half proved for all histories. Second half proved for SERVICE_REQUEST, KEXDH_INIT, GEX_INIT, GEX_REQUEST, USERAUTH_REQUEST and refuted for USERAUTH_INFO_RESPONSE, on which a client acts (C07_client_messages_refuted)."
  },
  {
   "property": "C08",
   "status": "proved",
   "theorems": [
    "C08_kex_order",
    "C08_client_awaited",
    "C08_keys_by_newkeys"
   ],
   "note": "All reachable states; on a client every key exchange message after KEXINIT is an awaited one."
  },
  {
   "property": "C09",
   "status": "proved",
   "theorems": [
    "C09_key_accepted",
    "C09_total",
    "C09_grant",
    "C09_history",
    "C09_offer_grants_nothing",
    "C09_password_accepted",
    "C09_ed25519_accepted"
   ],
   "note": "The server side: for every history of authentication messages, callback verdicts, crypto answers and I/O outcomes, the connection becomes authenticated only in a step whose message carries a credential for the fixed user that the callback accepted, with, for keys, an accepted algorithm and a signature verified over session id || request (C09_grant, C09_history). An offer without signature never grants. Conversely an accepted password (C09_password_accepted) and a verified signature of any kind of key, RSA, ECDSA, Ed25519 or ML-DSA (C09_key_accepted), do authenticate. Verification primitives are oracles."
  },
  {
   "property": "C10",
   "status": "proved",
   "theorems": [
    "C10_limit_positive",
    "C10_bounded",
    "C10_limit_ends",
    "C10_not_early",
    "C10_prompts_bounded"
   ],
   "note": "Failures sent never exceed the limit plus one opening none-probe for each 2^32 requests (the counter that exempts the probe is 32 bits wide), reaching the limit disconnects, the connection is not ended early, and the limit is positive."
  },
  {
   "property": "C11",
   "status": "proved",
   "theorems": [
    "C11_one_user",
    "C11_bound_once",
    "C11_other_user"
   ],
   "note": "Once a request is accepted for processing the user name never changes and a request for another user is refused with no callback and no grant."
  },
  {
   "property": "C12",
   "status": "proved",
   "theorems": [
    "C12_operation",
    "C12_grow_room",
    "C12_append",
    "C12_shrink",
    "C12_history"
   ],
   "note": "callers owe a size request that does not wrap 32 bits; Example C12_wrapped_request shows what happens otherwise"
  },
  {
   "property": "C13",
   "status": "proved",
   "theorems": [
    "C13_window_accounting",
    "C13_in_bounds",
    "C13_data_packet",
    "C13_data_all_or_nothing",
    "C13_stderr_packet",
    "C13_confirmation_announces_window",
    "C13_open_announces_window"
   ],
   "note": "For every history of packets, calls, rekeys and transport answers. An empty data packet is refused when the buffer is full (Example C13_empty_on_full): nothing is lost."
  },
  {
   "property": "C14",
   "status": "proved",
   "theorems": [
    "C14_never_twice",
    "C14_exactly_once",
    "C14_not_during_kex",
    "C14_owed_is_announced"
   ],
   "note": "After a transport failure that keeps the queue the same credit can be announced again; the statement excludes that (the session is dead)."
  },
  {
   "property": "C15",
   "status": "proved",
   "theorems": [
    "C15_peer_limits",
    "C15_next_bytes",
    "C15_not_during_kex",
    "C15_message"
   ],
   "note": "The EOF clause is C38."
  },
  {
   "property": "C16",
   "status": "partial",
   "theorems": [
    "C16_reported_is_queued_partial",
    "C16_idle_partial",
    "C16_reported_is_queued_refuted"
   ],
   "note": "Proved unless older output was waiting and could not be written before the send; in that case the full statement is false (C16_reported_is_queued_refuted): the call reports all bytes sent though none was queued."
  },
  {
   "property": "C17",
   "status": "proved",
   "theorems": [
    "C17_adjust",
    "C17_window_is_granted_less_used"
   ],
   "note": ""
  },
  {
   "property": "C18",
   "status": "partial",
   "theorems": [
    "C18_unique",
    "C18_no_duplicates",
    "C18_lookup",
    "C18_new_number",
    "C18_close_spares_others_partial",
    "C18_close_spares_others_refuted"
   ],
   "note": "Uniqueness, lookup and allocation are proved for all histories. Closing one channel spares the others except wolfSSH_ChannelExit, which works by the peer's number; refuted by a concrete history."
  },
  {
   "property": "C19",
   "status": "proved",
   "theorems": [
    "C19_in_order",
    "C19_stream_read",
    "C19_stderr_read",
    "C19_channel_read",
    "C19_others_take_nothing",
    "C19_peek",
    "C19_returned"
   ],
   "note": "wolfSSH_ChannelRead/ChannelIdRead are included when they return data; when they fail see C37."
  },
  {
   "property": "C20",
   "status": "proved",
   "theorems": [
    "C20_packet"
   ],
   "note": "For every payload covered by the estimate given to the packet builder."
  },
  {
   "property": "C21",
   "status": "proved",
   "theorems": [
    "C21_packet",
    "C21_stream"
   ],
   "note": "For any ciphers that decipher what they enciphered (crypto_ok); including streams with key changes and sequence-number wrap, under every fragmentation."
  },
  {
   "property": "C22",
   "status": "proved",
   "theorems": [
    "C22_history",
    "C22_stream",
    "C22_oversize"
   ],
   "note": "Integrity check of the packet at its sequence number, over every history of calls, including calls after failures. AES/HMAC themselves are parameters."
  },
  {
   "property": "C23",
   "status": "partial",
   "theorems": [
    "C23_fragmentation_partial",
    "C23_pipelined_refuted"
   ],
   "note": "Proved from any moment at which nothing beyond the current packet is buffered. Missing: packets that arrive in the same read as the version line; C23_pipelined_refuted shows the property is false there (bytes are discarded)."
  },
  {
   "property": "C24",
   "status": "proved",
   "theorems": [
    "C24_flush",
    "C24_history"
   ],
   "note": "For every sequence of enqueue and flush operations and every answer sequence of a transport that never claims to have taken more than it was shown. A general-failure answer discards the queue by design (the connection is closed)."
  },
  {
   "property": "C25",
   "status": "proved",
   "theorems": [
    "C25_send",
    "C25_send_rekey",
    "C25_receive",
    "C25_receive_rekey"
   ],
   "note": ""
  },
  {
   "property": "C26",
   "status": "proved",
   "theorems": [
    "C26_counter",
    "C26_distinct",
    "C26_sender"
   ],
   "note": ""
  },
  {
   "property": "C27",
   "status": "proved",
   "theorems": [
    "C27_accepts_only",
    "C27_accepts_all"
   ],
   "note": "Accepts exactly the version lines of the specification, for every fragmentation of the stream."
  },
  {
   "property": "C28",
   "status": "proved",
   "theorems": [
    "C28_builtin_table",
    "C28_group_choice",
    "C28_client_request",
    "C28_offer_accepted"
   ],
   "note": "The table of groups is an argument (any sorted table of odd numbers of their stated size); the built-in table is shown to be one. That the built-in numbers are prime is not proved."
  },
  {
   "property": "C29",
   "status": "partial",
   "theorems": [
    "C29_one_byte_buffer_refuted",
    "C29_resolution_partial",
    "C29_canonical_kept",
    "C29_server"
   ],
   "note": "wolfSSH_RealPath resolves every request text to the canonical path it denotes, or reports an invalid path exactly if a directory on the way has a name that does not fit. Proved for every buffer of at least 2 bytes; false for a one-byte buffer, where out[1] is written (C29_one_byte_buffer_refuted). The server's own calls all use 256 bytes (C29_server)."
  },
  {
   "property": "C30",
   "status": "partial",
   "theorems": [
    "C30_listing_refuted",
    "C30_confined_partial",
    "C30_decision",
    "C30_configuration",
    "C30_only_configuration_confines",
    "C30_session_partial"
   ],
   "note": "Proved for every request of the server and every entry of a listing except '..'. C30_session_partial says the same of every call of every session of the whole server, its open directories included. The full statement is false: listing the confinement directory itself fetches the attributes of its parent (C30_listing_refuted). Links are an oracle; races between the check and the use are not modelled."
  },
  {
   "property": "C31",
   "status": "proved",
   "theorems": [
    "C31_at_most_once",
    "C31_fires",
    "C31_only_when_reached"
   ],
   "note": "Over every history of the events that change the counters; both directions and both thresholds."
  },
  {
   "property": "C32",
   "status": "proved",
   "theorems": [
    "C32_session_id_first",
    "C32_session_id_stable"
   ],
   "note": "Identifier = first exchange hash, unchanged by every later call."
  },
  {
   "property": "C33",
   "status": "partial",
   "theorems": [
    "C33_accept",
    "C33_accept_keys_first",
    "C33_connect_partial",
    "C33_connect_refuted"
   ],
   "note": "accept: proved. connect: proved except that the channel open was confirmed, which is refuted: CHANNEL_SUCCESS before OPEN_CONFIRMATION completes connect (C33_connect_refuted)."
  },
  {
   "property": "C34",
   "status": "proved",
   "theorems": [
    "C34_reply",
    "C34_no_other_reply"
   ],
   "note": "exactly one reply, or an error is reported when it cannot be queued"
  },
  {
   "property": "C35",
   "status": "proved",
   "theorems": [
    "C35_in_bounds",
    "C35_payload"
   ],
   "note": "Also: no call loops forever, whatever the transport does."
  },
  {
   "property": "C36",
   "status": "proved",
   "theorems": [
    "C36_setup",
    "C36_cancel",
    "C36_refused",
    "C36_other"
   ],
   "note": ""
  },
  {
   "property": "C37",
   "status": "partial",
   "theorems": [
    "C37_read_succeeds_partial",
    "C37_failed_read_takes_nothing_refuted"
   ],
   "note": "The read succeeds if the window adjust can be sent; if that blocks, the call reports an error and the bytes are lost (refuted)."
  },
  {
   "property": "C38",
   "status": "partial",
   "theorems": [
    "C38_after_reported_eof_partial",
    "C38_success_is_recorded_partial",
    "C38_eof_is_last_refuted"
   ],
   "note": "Proved from the moment sending EOF reported success. An EOF that was queued but blocked is not remembered, and data can follow it (refuted)."
  },
  {
   "property": "C40",
   "status": "proved",
   "theorems": [
    "C40_host_proved"
   ],
   "note": "Callback answer and signature check are arguments; both directions, every exchange."
  },
  {
   "property": "C41",
   "status": "partial",
   "theorems": [
    "C41_answers_partial",
    "C41_answers_need_prompts_refuted"
   ],
   "note": "Refuted as stated: after the callback declines to set up prompts an INFO_RESPONSE with no answers is still put to it (C41_answers_need_prompts_refuted). Proved: an earlier keyboard-interactive request of the same user, and the number of answers is that of the last prompt message."
  },
  {
   "property": "C42",
   "status": "proved",
   "theorems": [
    "C42_asked_what_was_sent"
   ],
   "note": "For every history; presents in AuthSpec.v lists, per message kind, the credential the message carries."
  },
  {
   "property": "C43",
   "status": "partial",
   "theorems": [
    "C43_one_agreement",
    "C43_keys_out",
    "C43_keys_in_client_partial",
    "C43_keys_in_careful_partial",
    "C43_keys_in_refuted"
   ],
   "note": "Sending keys and single agreement: proved. Receiving keys: proved for clients, and for applications that stop at the first fatal error; refuted for a server whose application goes on after a failed rekey negotiation (C43_keys_in_refuted)."
  },
  {
   "property": "C45",
   "status": "proved",
   "theorems": [
    "C45_no_null_handshake"
   ],
   "note": "Allocation failures inside DoKexInit are outside the model."
  },
  {
   "property": "C39",
   "status": "proved",
   "theorems": [
    "C39_group_checked"
   ],
   "note": "The two probabilistic primality tests are arguments."
  },
  {
   "property": "C44",
   "status": "proved",
   "theorems": [
    "C44_same_transcript",
    "C44_transcript_binds"
   ],
   "note": "Hash function, Diffie-Hellman and signatures are outside; the theorem is about the bytes that are hashed."
  },
  {
   "property": "C46",
   "status": "proved",
   "theorems": [
    "C46_derivation",
    "C46_derivation_fails",
    "C46_both_ends"
   ],
   "note": "For every hash function with a fixed digest length. The path without the crypto library's own SSH KDF is modelled."
  },
  {
   "property": "C47",
   "status": "partial",
   "theorems": [
    "C47_malformed_refuted",
    "C47_callbacks_partial",
    "C47_command",
    "C47_size"
   ],
   "note": "Refuted for malformed exec and subsystem requests: the callback still runs, with the command an earlier request left (or none) (C47_malformed_refuted). Proved for well-formed requests and for every other malformed one."
  },
  {
   "property": "C48",
   "status": "proved",
   "theorems": [
    "C48_stream",
    "C48_schedule",
    "C48_complete"
   ],
   "note": "The SSH channel below is an oracle that moves any number of bytes per call. A request that fails without reply ends the session in the model (wolfSSH_SFTP_read returns its error); what a caller sees who calls again after that is not modelled."
  },
  {
   "property": "C49",
   "status": "proved",
   "theorems": [
    "C49_live_handle",
    "C49_live_dir",
    "C49_dead_file",
    "C49_dead_handle",
    "C49_fresh",
    "C49_one_file",
    "C49_close"
   ],
   "note": "up to 2^64 requests (the handle counter); CLOSE and READDIR of an unknown handle under the hypothesis that no OPENDIR reply was lost to a failed allocation"
  },
  {
   "property": "C50",
   "status": "proved",
   "theorems": [
    "C50_at_most_64",
    "C50_refuses_65th",
    "C50_only_open",
    "C50_all_closed"
   ],
   "note": ""
  },
  {
   "property": "C51",
   "status": "proved",
   "theorems": [
    "C51_write"
   ],
   "note": "system writes assumed not to report more than they were given; offset + length at most 2^64"
  },
  {
   "property": "C52",
   "status": "proved",
   "theorems": [
    "C52_read",
    "C52_too_long"
   ],
   "note": "longer READs are not answered at all (C52_too_long)"
  },
  {
   "property": "C53",
   "status": "partial",
   "theorems": [
    "C53_stat",
    "C53_fstat",
    "C53_setstat",
    "C53_fsetstat",
    "C53_unambiguous",
    "C53_size_refuted"
   ],
   "note": "Mode and times are set and reported as asked. Refuted for size and owner: a block that asks for these is answered OK and they are ignored (C53_size_refuted)."
  },
  {
   "property": "C54",
   "status": "partial",
   "theorems": [
    "C54_reply",
    "C54_always_refuted",
    "C54_always_partial",
    "C54_silent"
   ],
   "note": "Every reply has the right kind, id and layout (C54_reply), and a request without reply made no file system call but getcwd (C54_silent, READDIR aside). Always a reply: refuted (FSTAT of an unknown handle, C54_always_refuted); proved for handles of at most 256 bytes, FSTAT of an open handle, READ of at most 32768 bytes and short paths (C54_always_partial); READDIR is not covered."
  },
  {
   "property": "C55",
   "status": "partial",
   "theorems": [
    "C55_sound",
    "C55_complete_partial",
    "C55_eof",
    "C55_long_refuted"
   ],
   "note": "Whatever is sent is right (C55_sound) and EOF follows (C55_eof). Complete listing: proved when the directory's path and each name are shorter than 255 bytes together and the reply fits 32 bits (C55_complete_partial); refuted without (C55_long_refuted): a name of 254 bytes in the root directory ends the listing there."
  },
  {
   "property": "C56",
   "status": "proved",
   "theorems": [
    "C56_remove",
    "C56_rmdir",
    "C56_mkdir",
    "C56_rename",
    "C56_open",
    "C56_opendir"
   ],
   "note": "OPEN and OPENDIR while fewer than 64 handles are open and memory suffices. A path of 256 bytes or more, or with such a directory on the way, makes no call: it is answered with a failure, or for MKDIR, OPEN and OPENDIR not at all (see C54)."
  },
  {
   "property": "C57",
   "status": "partial",
   "theorems": [
    "C57_refuted",
    "C57_confined_partial",
    "C57_destination_partial"
   ],
   "note": "Proved for every byte stream, splitting and system answer, whenever the name taken from the destination is empty or proper (C57_confined_partial), in particular for absolute destinations with proper components (C57_destination_partial). For a destination such as \"x..\" the full statement is false: C57_refuted."
  },
  {
   "property": "C58",
   "status": "proved",
   "theorems": [
    "C58_streams",
    "C58_content"
   ],
   "note": "A connection lost in the middle of a file leaves its stream open: that is not an end of the request here, see DESIGN.md."
  },
  {
   "property": "C59",
   "status": "partial",
   "theorems": [
    "C59_in_bounds",
    "C59_refuted",
    "C59_header_partial",
    "C59_times_partial",
    "C59_accepts"
   ],
   "note": "In-bounds and acceptance of proper messages are proved in full; what is accepted is characterised exactly, and it is more than the protocol's messages (the byte after the mode, the last field of a time message, and anything after 'E' are not looked at): C59_refuted."
  },
  {
   "property": "C60",
   "status": "partial",
   "theorems": [
    "C60_refuted",
    "C60_upload_partial",
    "C60_destination_partial"
   ],
   "note": "Proved for senders whose confirmation after a file is read by itself, and that send times for files only. When one read takes that confirmation together with what follows it, the rest is lost: C60_refuted. Modes of files are not applied by the default callback, and are not part of the statement."
  },
  {
   "property": "C61",
   "status": "partial",
   "theorems": [
    "C61_refuted",
    "C61_turns_partial",
    "C61_confirmed_partial",
    "C61_items_partial",
    "C61_completes_partial",
    "C61_received_partial"
   ],
   "note": "The turns are proved for every callback and schedule. That each turn begins with a confirmation is refuted: data on the error stream and empty data also count (C61_refuted); it is proved for peers that send neither. Control messages longer than 1023 bytes are cut; the theorem on items assumes that they are not."
  },
  {
   "property": "C62",
   "status": "partial",
   "theorems": [
    "C62_refuted",
    "C62_destination_partial",
    "C62_clean_partial",
    "C62_parent_partial"
   ],
   "note": "Proved for absolute destinations with proper components, without ':' in the last one and of at most 1020 bytes. False for relative and some other destinations: C62_refuted and the examples beside it."
  },
  {
   "property": "C63",
   "status": "partial",
   "theorems": [
    "C63_disk",
    "C63_refuted",
    "C63_download_partial"
   ],
   "note": "Proved for trees whose names have no backslash; with one it is refuted (C63_refuted): leaving a directory 'a\\b' the path is cut at the backslash and the next entry is looked up in 'a'. Also assumed: paths shorter than 1024, control messages shorter than 1024, files smaller than 4 GiB, a send context cleared before the transfer. C63_disk shows that a system with the tree exists for every tree."
  },
  {
   "property": "C64",
   "status": "partial",
   "theorems": [
    "C64_refuted",
    "C64_careful_partial",
    "C64_disk"
   ],
   "note": "Proved for every system that lists no name with a backslash. Refuted otherwise (C64_refuted): after the directory 'd\\e' the file 'z' is opened as 'd/z', although 'd' was never checked and may be a link. C64_disk: disks meet the hypotheses."
  },
  {
   "property": "C65",
   "status": "partial",
   "theorems": [
    "C65_refuted",
    "C65_refuted_stream",
    "C65_dirs_partial",
    "C65_files_partial",
    "C65_dies_partial",
    "C65_disk"
   ],
   "note": "Refuted twice: a send that fails while the last part of a file is being sent closes a NULL stream (C65_refuted), and a file that grew is left open (C65_refuted_stream). Proved: directories are closed in the end and after an abort, on every system; when files do not grow at most one is open and none in the end, and undefined behaviour occurs only in the case named. C65_disk: disks meet the hypothesis. A context cleared before the transfer is assumed."
  },
  {
   "property": "C66",
   "status": "partial",
   "theorems": [
    "C66_refuted",
    "C66_prefix_refuted",
    "C66_settings_partial",
    "C66_refused",
    "C66_loads",
    "C66_unknown"
   ],
   "note": "Refuted for lines longer than 158 bytes, the rest of which is read as a line of its own, even of a comment (C66_refuted), and for unknown keywords that start with a known one, which are taken for it (C66_prefix_refuted). Proved for files of ordinary lines without Include: C66_settings_partial, C66_refused, C66_loads. For numbers, what the setting is is stated for decimal values only: the program also takes others, such as 22x."
  },
  {
   "property": "C67",
   "status": "partial",
   "theorems": [
    "C67_circle",
    "C67_refuted",
    "C67_include_partial",
    "C67_in_place_partial",
    "C67_in_place_loads_partial",
    "C67_pattern_refuted",
    "C67_pattern_partial",
    "C67_missing"
   ],
   "note": "Refuted: a directive after an Include of a file with a Match block does not govern the users of that block, even if the block says nothing about it (C67_refuted). Proved for an Include by name anywhere in a file, also inside of a Match block, of a file without Match blocks: it reads as if the text stood there (C67_in_place_partial, C67_in_place_loads_partial); and for circles of any length (C67_circle). Include with a pattern: refuted for a file named like the pattern without its star (C67_pattern_refuted); proved for all other listings, in string order (C67_pattern_partial); what is missing is an error (C67_missing)."
  },
  {
   "property": "C68",
   "status": "partial",
   "theorems": [
    "C68_long_line_refuted",
    "C68_refuted",
    "C68_bad_line_refuted",
    "C68_authorized_keys_partial",
    "C68_unlisted_partial",
    "C68_readable_partial"
   ],
   "note": "Refuted in both directions: the end of a line longer than the buffer is read as a line, so a key at the end of a long comment is accepted (C68_long_line_refuted, for every buffer size); a line with one word, or with text that is not base 64, ends the search, so a key listed below it is refused (C68_bad_line_refuted). Proved for lines within the buffer: accepted exactly when listed with only readable lines above."
  },
  {
   "property": "C69",
   "status": "proved",
   "theorems": [
    "C69_path",
    "C69_default",
    "C69_escapes",
    "C69_users"
   ],
   "note": "All patterns; the only pattern outside the grammar of pieces that is accepted ends in a lone percent sign (C69_escapes)."
  },
  {
   "property": "C70",
   "status": "proved",
   "theorems": [
    "C70_secure_open"
   ],
   "note": "realpath is assumed to give an absolute path of non-empty components; each answer of the system is free."
  },
  {
   "property": "C71",
   "status": "partial",
   "theorems": [
    "C71_principal",
    "C71_principal_bytes",
    "C71_validity",
    "C71_source_refuted",
    "C71_source_nul_refuted",
    "C71_source_partial",
    "C71_network"
   ],
   "note": "Principals and validity proved in full. The source-address list is refuted in full: a comma at its end is let pass (C71_source_refuted) and a NUL byte hides the rest of an entry (C71_source_nul_refuted). Proved for lists without NUL bytes that do not end in a comma. Parsing of the certificate itself is outside."
  },
  {
   "property": "C72",
   "status": "proved",
   "theorems": [
    "C72_upn"
   ],
   "note": "The loop over the alternative names of the certificate is outside; this is the test of one name."
  },
  {
   "property": "C73",
   "status": "partial",
   "theorems": [
    "C73_empty_refuted",
    "C73_refuted",
    "C73_password_login_partial",
    "C73_attempts",
    "C73_third"
   ],
   "note": "Refuted in full for passwords with a NUL byte, which are cut there: a password of one NUL opens an account without password although PermitEmptyPasswords is no (C73_empty_refuted). Proved as an equivalence for all other passwords; the limit of three attempts is proved for all histories. The hash is a function of the system (crypt), the data bases do not change during one attempt; PAM and Windows are outside."
  },
  {
   "property": "C74",
   "status": "partial",
   "theorems": [
    "C74_refuted",
    "C74_key_login_partial",
    "C74_strict_partial",
    "C74_no_attempt"
   ],
   "note": "Refuted in full: StrictModes is taken from the global settings, so a Match block that turns it on or off has no effect (C74_refuted). Proved as an equivalence with the global StrictModes, and in full where no Match block changes it. Key files within the limits of C68, source lists within those of C71. The signature check comes after this decision and is C09."
  },
  {
   "property": "C75",
   "status": "partial",
   "theorems": [
    "C75_refuted",
    "C75_cost_partial",
    "C75_work_partial",
    "C75_scheme_partial",
    "C75_view_partial",
    "C75_no_secret",
    "C75_no_account"
   ],
   "note": "The last part is refuted: the third wrong password for an account ends the connection, while attempts for unknown names only fail (C75_refuted). Proved: every refusal calls crypt, and one of the calls hashes the password if crypt knows DES and the account's own scheme; with one scheme on the system its first call uses that scheme; the made-up salts depend on no salt or digest; while two attempts are left the outcome is the same. Time itself is not modelled, only the calls of crypt."
  },
  {
   "property": "C76",
   "status": "partial",
   "theorems": [
    "C76_relay_refuted",
    "C76_uid_refuted",
    "C76_relative_refuted",
    "C76_user_partial",
    "C76_relay_partial",
    "C76_jail_partial",
    "C76_no_jail",
    "C76_for_good",
    "C76_after",
    "C76_lowered",
    "C76_groups"
   ],
   "note": "Refuted three ways: the process that relays a shell's data keeps the daemon's groups and is not confined (C76_relay_refuted), an account with uid 4294967295 runs as root (C76_uid_refuted), a relative ChrootDirectory is looked up twice (C76_relative_refuted). Proved for every service other than the relay, accounts with real ids and absolute directories; the relay has the user's ids; no way back (C76_for_good), nothing kept after a failure (C76_after, C76_lowered)."
  },
  {
   "property": "C77",
   "status": "partial",
   "theorems": [
    "C77_refuted",
    "C77_command_partial",
    "C77_certificate",
    "C77_sftp_only",
    "C77_root",
    "C77_asked",
    "C77_shell_partial",
    "C77_runs"
   ],
   "note": "Refuted: ForceCommand does not restrict SFTP and SCP of users other than root (C77_refuted). Proved: every program started runs the configured, else the certificate's, else the requested command; certificates restrict every kind of session; internal-sftp allows no program; root with forced-commands-only; the login shell (for shells shorter than 80 bytes, a longer path is cut); and the command does run when nothing fails."
  },
  {
   "property": "C78",
   "status": "partial",
   "theorems": [
    "C78_prefix",
    "C78_held",
    "C78_normal",
    "C78_refuted",
    "C78_stderr_refuted",
    "C78_eof_refuted",
    "C78_end_partial",
    "C78_delivers"
   ],
   "note": "Refuted in full: stale errno at the end of stderr (C78_refuted), more than one read of stderr left at the end (C78_stderr_refuted), the client's EOF (C78_eof_refuted). Proved: both streams are prefixes of the program's output always, nothing but the held bytes is missing while the loop runs, all of stdout is sent when the loop ends by its condition, and the end is complete when at most one read is left and no EOF was received."
  },
  {
   "property": "C79",
   "status": "partial",
   "theorems": [
    "C79_prefix_partial",
    "C79_closed_refuted",
    "C79_stalls",
    "C79_passed_refuted",
    "C79_delivered_partial"
   ],
   "note": "Refuted in full: data that comes while output is held is lost at EOF (C79_closed_refuted) or stalls both directions (C79_stalls, C79_passed_refuted). Proved, for a program that takes what is written: it gets a prefix of what was received, the rest is in the channel, and all is delivered at once if data comes while nothing is held."
  },
  {
   "property": "C80",
   "status": "proved",
   "theorems": [
    "C80_accepted",
    "C80_other_names",
    "C80_binding",
    "C80_unambiguous",
    "C80_unknown_option",
    "C80_safe",
    "C80_strict_refuted"
   ],
   "note": "Acceptance is an equivalence with a separate grammar of certificates (OsshSpec.v) for all bytes. Stricter than the property: C80_strict_full (the signature names its own algorithm and nothing follows it) is refuted."
  },
  {
   "property": "C81",
   "status": "proved",
   "theorems": [
    "C81_grant",
    "C81_partial_success",
    "C81_asked",
    "C81_query",
    "C81_safe",
    "C81_ed25519_accepted"
   ],
   "note": "Sending is taken to succeed. Completeness is proved for Ed25519 certificates (C81_ed25519_accepted)."
  },
  {
   "property": "C82",
   "status": "partial",
   "theorems": [
    "C82_get_partial",
    "C82_refuted",
    "C82_full_refuted",
    "C82_refuted_close"
   ],
   "note": "Refuted in full: a length word of a DATA reply that comes in two pieces is taken with what was in memory for the rest (C82_refuted), and what fclose fails to write is not noticed (C82_refuted_close). Proved when length words come whole (whole_lengths) and fclose loses nothing, for every other schedule."
  },
  {
   "property": "C83",
   "status": "partial",
   "theorems": [
    "C83_resume_partial",
    "C83_refuted"
   ],
   "note": "Refuted in full: a plain Get interrupted after an interrupted one does not replace the saved offset, and the resumed Get then writes at the wrong place (C83_refuted). Proved for histories in which every Get of the file asks to resume, under the conditions of C82; failed Gets are allowed."
  },
  {
   "property": "C84",
   "status": "partial",
   "theorems": [
    "C84_put_partial",
    "C84_handle",
    "C84_interrupted",
    "C84_refuted",
    "C84_full_refuted",
    "C84_refuted_read",
    "C84_refuted_failure"
   ],
   "note": "Refuted in full: Put returns success after a WRITE was refused (C84_refuted), after a local read error (C84_refuted_read) and after running out of memory (C84_refuted_failure). Proved when none of these happens; C84_interrupted for interrupted ones, with the offset they keep; C84_handle: the handle used is the reply's."
  },
  {
   "property": "C85",
   "status": "partial",
   "theorems": [
    "C85_resume_partial",
    "C85_refuted"
   ],
   "note": "Refuted: the resumed Put truncates the remote file on open (C85_refuted). Proved is what it leaves for every offset and schedule: zeros up to the offset, the local file from there on."
  },
  {
   "property": "C86",
   "status": "proved",
   "theorems": [
    "C86_proper",
    "C86_total",
    "C86_sign_once",
    "C86_keyboard_thrice"
   ],
   "note": "Builds without certificates, TPM and agent. C86_proper is the whole statement for one step after any history; C86_total, C86_sign_once and C86_keyboard_thrice the last clauses. User name, session identifier and the application's data are below 256 MiB each."
  },
  {
   "property": "C87",
   "status": "proved",
   "theorems": [
    "C87_key",
    "C87_password",
    "C87_ed25519"
   ],
   "note": "Passwords, and RSA, ECDSA, Ed25519 and ML-DSA keys with the first announced algorithm that goes with the key (C87_key), the law of the signature scheme being a hypothesis; failure messages with up to three methods; the application has not been asked for a key before on this connection (a second attempt always fails, see DESIGN.md)."
  },
  {
   "property": "C88",
   "status": "proved",
   "theorems": [
    "C88_fits"
   ],
   "note": "The models of C86 and C20 composed; messages below 2 GiB, at most 1 GiB already queued. Hypothesis on wolfCrypt: signatures are no longer than its size functions say."
  },
  {
   "property": "C89",
   "status": "proved",
   "theorems": [
    "C89_accepted",
    "C89_safe",
    "C89_unambiguous",
    "C89_text",
    "C89_markers",
    "C89_one_key",
    "C89_padding"
   ],
   "note": "RSA, ECDSA and Ed25519 keys; the crypto library's import and the base 64 decoder are oracles, the decoder assumed to give bytes and not more than it got. ML-DSA keys and which error code is returned are not modelled."
  },
  {
   "property": "C90",
   "status": "partial",
   "theorems": [
    "C90_refuted",
    "C90_partial"
   ],
   "note": "False of the code (C90_refuted): the name of the cipher is skipped. Proved: a file is refused whenever the two check numbers at the start of the section differ or are missing, which an encrypted section meets but for one chance in 2^32; missing is the refusal by name."
  },
  {
   "property": "C91",
   "status": "proved",
   "theorems": [
    "C91_served",
    "C91_listed",
    "C91_safe",
    "C91_server"
   ],
   "note": "Blocking session in which every send is taken and no allocation fails; the session's byte stream is otherwise arbitrary. A STATUS that says OK is taken as an answer to OPENDIR and leaves a handle of zeros, which the statement allows for (opened). Replies of up to 1 MiB, WOLFSSH_MAX_SFTP_NAME."
  },
  {
   "property": "C92",
   "status": "partial",
   "theorems": [
    "C92_partial",
    "C92_refuted"
   ],
   "note": "False of the code (C92_refuted): any reply without names, such as a failure status, ends the listing, and what was read so far is returned as if it were everything. Proved: if the connection is lost at any byte before the end, NULL is returned; missing is the failure reported by the server."
  },
  {
   "property": "C93",
   "status": "proved",
   "theorems": [
    "C93_together"
   ],
   "note": "Client and server models composed on each other's bytes. Assumed: the name is resolved and opened, closing succeeds, the directory has an entry, path and name are shorter than 255 bytes together (see C55) and each reply has at most 1 MiB of contents; the server sends a directory in one reply and the client refuses larger ones."
  },
  {
   "property": "C94",
   "status": "partial",
   "theorems": [
    "C94_get_partial",
    "C94_refuted",
    "C94_full_refuted"
   ],
   "note": "Client and server models composed on each other's bytes. False without C82's conditions (C94_refuted: a local file whose closing fails to write the rest). Proved if closing the local file does not lose data and the stream does not cut the length word of a DATA reply in two. Assumed of the requests, which are those the client sent: STAT, OPEN, READs of at least one byte, CLOSE; and that the server answered each of them."
  },
  {
   "property": "C95",
   "status": "partial",
   "theorems": [
    "C95_put_partial",
    "C95_refuted",
    "C95_full_refuted"
   ],
   "note": "Client and server models composed on each other's bytes. False of the code (C95_refuted): the server's system fails to write, the server says so, and Put returns success all the same. Proved if no write of the server and no local read fails, and neither the client's stream nor its memory does. Assumed of the requests, which are those the client sent: OPEN, WRITEs of at least one byte below 2^64, CLOSE; that the server answered each of them, and that its file was empty when opened (OPEN asks for that; what the system does with it is not modelled)."
  }
 ]
}