{
 "C01": [
  "proved",
  "name-list contents: see C04"
 ],
 "C02": [
  "proved",
  ""
 ],
 "C03": [
  "proved",
  ""
 ],
 "C04": [
  "proved",
  ""
 ],
 "C05": [
  "partial",
  "Proved when an endpoint's own lists contain only names of the library's table and no RSA certificate name (true of the shipped defaults; the peer's bytes are arbitrary). Outside that the statement is false: the three _refuted theorems."
 ],
 "C12": [
  "proved",
  "callers owe a size request that does not wrap 32 bits; Example C12_wrapped_request shows what happens otherwise"
 ],
 "C24": [
  "proved",
  "For every sequence of enqueue and flush operations and every answer sequence of a transport that never claims to have taken more than it was shown. A general-failure answer discards the queue by design (the connection is closed)."
 ],
 "C27": [
  "proved",
  "Accepts exactly the version lines of the specification, for every fragmentation of the stream."
 ],
 "C31": [
  "proved",
  "Over every history of the events that change the counters; both directions and both thresholds."
 ],
 "C20": [
  "proved",
  "For every payload covered by the estimate given to the packet builder."
 ],
 "C21": [
  "proved",
  "For any ciphers that decipher what they enciphered (crypto_ok); including streams with key changes and sequence-number wrap, under every fragmentation."
 ],
 "C22": [
  "proved",
  "Integrity check of the packet at its sequence number, over every history of calls, including calls after failures. AES/HMAC themselves are parameters."
 ],
 "C23": [
  "partial",
  "Proved from any moment at which nothing beyond the current packet is buffered. Missing: packets that arrive in the same read as the version line; C23_pipelined_refuted shows the property is false there (bytes are discarded)."
 ],
 "C25": [
  "proved",
  ""
 ],
 "C26": [
  "proved",
  ""
 ],
 "C35": [
  "proved",
  "Also: no call loops forever, whatever the transport does."
 ],
 "C13": [
  "proved",
  "For every history of packets, calls, rekeys and transport answers. An empty data packet is refused when the buffer is full (Example C13_empty_on_full): nothing is lost."
 ],
 "C14": [
  "proved",
  "After a transport failure that keeps the queue the same credit can be announced again; the statement excludes that (the session is dead)."
 ],
 "C15": [
  "proved",
  "The EOF clause is C38."
 ],
 "C16": [
  "partial",
  "Proved unless older output was waiting and could not be written before the send; in that case the full statement is false (C16_reported_is_queued_refuted): the call reports all bytes sent though none was queued."
 ],
 "C17": [
  "proved",
  ""
 ],
 "C18": [
  "partial",
  "Uniqueness, lookup and allocation are proved for all histories. Closing one channel spares the others except wolfSSH_ChannelExit, which works by the peer's number; refuted by a concrete history."
 ],
 "C19": [
  "proved",
  "wolfSSH_ChannelRead/ChannelIdRead are included when they return data; when they fail see C37."
 ],
 "C37": [
  "partial",
  "The read succeeds if the window adjust can be sent; if that blocks, the call reports an error and the bytes are lost (refuted)."
 ],
 "C38": [
  "partial",
  "Proved from the moment sending EOF reported success. An EOF that was queued but blocked is not remembered, and data can follow it (refuted)."
 ],
 "C09": [
  "proved",
  "The server side: for every history of authentication messages, callback verdicts, crypto answers and I/O outcomes, the connection becomes authenticated only in a step whose message carries a credential for the fixed user that the callback accepted, with, for keys, an accepted algorithm and a signature verified over session id || request (C09_grant, C09_history). An offer without signature never grants. Conversely an accepted password (C09_password_accepted) and a verified signature of any kind of key, RSA, ECDSA, Ed25519 or ML-DSA (C09_key_accepted), do authenticate. Verification primitives are oracles."
 ],
 "C10": [
  "proved",
  "Failures sent never exceed the limit plus one opening none-probe for each 2^32 requests (the counter that exempts the probe is 32 bits wide), reaching the limit disconnects, the connection is not ended early, and the limit is positive."
 ],
 "C11": [
  "proved",
  "Once a request is accepted for processing the user name never changes and a request for another user is refused with no callback and no grant."
 ],
 "C41": [
  "partial",
  "Refuted as stated: after the callback declines to set up prompts an INFO_RESPONSE with no answers is still put to it (C41_answers_need_prompts_refuted). Proved: an earlier keyboard-interactive request of the same user, and the number of answers is that of the last prompt message."
 ],
 "C42": [
  "proved",
  "For every history; presents in AuthSpec.v lists, per message kind, the credential the message carries."
 ],
 "C06": [
  "partial",
  "Connection messages only after a grant bound to this session and the success message: proved for all histories. 'Refused afterwards': proved after the first connection message, after accept succeeded, and for accept-only histories after the success message; refuted in general (C06_no_auth_after_success_refuted: success message blocked, application calls the worker)."
 ],
 "C07": [
  "partial",
  "First half proved for all histories. Second half proved for SERVICE_REQUEST, KEXDH_INIT, GEX_INIT, GEX_REQUEST, USERAUTH_REQUEST and refuted for USERAUTH_INFO_RESPONSE, on which a client acts (C07_client_messages_refuted)."
 ],
 "C08": [
  "proved",
  "All reachable states; on a client every key exchange message after KEXINIT is an awaited one."
 ],
 "C32": [
  "proved",
  "Identifier = first exchange hash, unchanged by every later call."
 ],
 "C33": [
  "partial",
  "accept: proved. connect: proved except that the channel open was confirmed, which is refuted: CHANNEL_SUCCESS before OPEN_CONFIRMATION completes connect (C33_connect_refuted)."
 ],
 "C40": [
  "proved",
  "Callback answer and signature check are arguments; both directions, every exchange."
 ],
 "C43": [
  "partial",
  "Sending keys and single agreement: proved. Receiving keys: proved for clients, and for applications that stop at the first fatal error; refuted for a server whose application goes on after a failed rekey negotiation (C43_keys_in_refuted)."
 ],
 "C45": [
  "proved",
  "Allocation failures inside DoKexInit are outside the model."
 ],
 "C28": [
  "proved",
  "The table of groups is an argument (any sorted table of odd numbers of their stated size); the built-in table is shown to be one. That the built-in numbers are prime is not proved."
 ],
 "C39": [
  "proved",
  "The two probabilistic primality tests are arguments."
 ],
 "C44": [
  "proved",
  "Hash function, Diffie-Hellman and signatures are outside; the theorem is about the bytes that are hashed."
 ],
 "C46": [
  "proved",
  "For every hash function with a fixed digest length. The path without the crypto library's own SSH KDF is modelled."
 ],
 "C29": [
  "partial",
  "wolfSSH_RealPath resolves every request text to the canonical path it denotes, or reports an invalid path exactly if a directory on the way has a name that does not fit. Proved for every buffer of at least 2 bytes; false for a one-byte buffer, where out[1] is written (C29_one_byte_buffer_refuted). The server's own calls all use 256 bytes (C29_server)."
 ],
 "C30": [
  "partial",
  "Proved for every request of the server and every entry of a listing except '..'. C30_session_partial says the same of every call of every session of the whole server, its open directories included. The full statement is false: listing the confinement directory itself fetches the attributes of its parent (C30_listing_refuted). Links are an oracle; races between the check and the use are not modelled."
 ],
 "C34": [
  "proved",
  "exactly one reply, or an error is reported when it cannot be queued"
 ],
 "C36": [
  "proved",
  ""
 ],
 "C47": [
  "partial",
  "Refuted for malformed exec and subsystem requests: the callback still runs, with the command an earlier request left (or none) (C47_malformed_refuted). Proved for well-formed requests and for every other malformed one."
 ],
 "C49": [
  "proved",
  "up to 2^64 requests (the handle counter); CLOSE and READDIR of an unknown handle under the hypothesis that no OPENDIR reply was lost to a failed allocation"
 ],
 "C50": [
  "proved",
  ""
 ],
 "C51": [
  "proved",
  "system writes assumed not to report more than they were given; offset + length at most 2^64"
 ],
 "C52": [
  "proved",
  "longer READs are not answered at all (C52_too_long)"
 ],
 "C53": [
  "partial",
  "Mode and times are set and reported as asked. Refuted for size and owner: a block that asks for these is answered OK and they are ignored (C53_size_refuted)."
 ],
 "C54": [
  "partial",
  "Every reply has the right kind, id and layout (C54_reply), and a request without reply made no file system call but getcwd (C54_silent, READDIR aside). Always a reply: refuted (FSTAT of an unknown handle, C54_always_refuted); proved for handles of at most 256 bytes, FSTAT of an open handle, READ of at most 32768 bytes and short paths (C54_always_partial); READDIR is not covered."
 ],
 "C56": [
  "proved",
  "OPEN and OPENDIR while fewer than 64 handles are open and memory suffices. A path of 256 bytes or more, or with such a directory on the way, makes no call: it is answered with a failure, or for MKDIR, OPEN and OPENDIR not at all (see C54)."
 ],
 "C55": [
  "partial",
  "Whatever is sent is right (C55_sound) and EOF follows (C55_eof). Complete listing: proved when the directory's path and each name are shorter than 255 bytes together and the reply fits 32 bits (C55_complete_partial); refuted without (C55_long_refuted): a name of 254 bytes in the root directory ends the listing there."
 ],
 "C48": [
  "proved",
  "The SSH channel below is an oracle that moves any number of bytes per call. A request that fails without reply ends the session in the model (wolfSSH_SFTP_read returns its error); what a caller sees who calls again after that is not modelled."
 ],
 "C57": [
  "partial",
  "Proved for every byte stream, splitting and system answer, whenever the name taken from the destination is empty or proper (C57_confined_partial), in particular for absolute destinations with proper components (C57_destination_partial). For a destination such as \"x..\" the full statement is false: C57_refuted."
 ],
 "C58": [
  "proved",
  "A connection lost in the middle of a file leaves its stream open: that is not an end of the request here, see DESIGN.md."
 ],
 "C59": [
  "partial",
  "In-bounds and acceptance of proper messages are proved in full; what is accepted is characterised exactly, and it is more than the protocol's messages (the byte after the mode, the last field of a time message, and anything after 'E' are not looked at): C59_refuted."
 ],
 "C62": [
  "partial",
  "Proved for absolute destinations with proper components, without ':' in the last one and of at most 1020 bytes. False for relative and some other destinations: C62_refuted and the examples beside it."
 ],
 "C60": [
  "partial",
  "Proved for senders whose confirmation after a file is read by itself, and that send times for files only. When one read takes that confirmation together with what follows it, the rest is lost: C60_refuted. Modes of files are not applied by the default callback, and are not part of the statement."
 ],
 "C61": [
  "partial",
  "The turns are proved for every callback and schedule. That each turn begins with a confirmation is refuted: data on the error stream and empty data also count (C61_refuted); it is proved for peers that send neither. Control messages longer than 1023 bytes are cut; the theorem on items assumes that they are not."
 ],
 "C63": [
  "partial",
  "Proved for trees whose names have no backslash; with one it is refuted (C63_refuted): leaving a directory 'a\\b' the path is cut at the backslash and the next entry is looked up in 'a'. Also assumed: paths shorter than 1024, control messages shorter than 1024, files smaller than 4 GiB, a send context cleared before the transfer. C63_disk shows that a system with the tree exists for every tree."
 ],
 "C64": [
  "partial",
  "Proved for every system that lists no name with a backslash. Refuted otherwise (C64_refuted): after the directory 'd\\e' the file 'z' is opened as 'd/z', although 'd' was never checked and may be a link. C64_disk: disks meet the hypotheses."
 ],
 "C65": [
  "partial",
  "Refuted twice: a send that fails while the last part of a file is being sent closes a NULL stream (C65_refuted), and a file that grew is left open (C65_refuted_stream). Proved: directories are closed in the end and after an abort, on every system; when files do not grow at most one is open and none in the end, and undefined behaviour occurs only in the case named. C65_disk: disks meet the hypothesis. A context cleared before the transfer is assumed."
 ],
 "C66": [
  "partial",
  "Refuted for lines longer than 158 bytes, the rest of which is read as a line of its own, even of a comment (C66_refuted), and for unknown keywords that start with a known one, which are taken for it (C66_prefix_refuted). Proved for files of ordinary lines without Include: C66_settings_partial, C66_refused, C66_loads. For numbers, what the setting is is stated for decimal values only: the program also takes others, such as 22x."
 ],
 "C67": [
  "partial",
  "Refuted: a directive after an Include of a file with a Match block does not govern the users of that block, even if the block says nothing about it (C67_refuted). Proved for an Include by name anywhere in a file, also inside of a Match block, of a file without Match blocks: it reads as if the text stood there (C67_in_place_partial, C67_in_place_loads_partial); and for circles of any length (C67_circle). Include with a pattern: refuted for a file named like the pattern without its star (C67_pattern_refuted); proved for all other listings, in string order (C67_pattern_partial); what is missing is an error (C67_missing)."
 ],
 "C68": [
  "partial",
  "Refuted in both directions: the end of a line longer than the buffer is read as a line, so a key at the end of a long comment is accepted (C68_long_line_refuted, for every buffer size); a line with one word, or with text that is not base 64, ends the search, so a key listed below it is refused (C68_bad_line_refuted). Proved for lines within the buffer: accepted exactly when listed with only readable lines above."
 ],
 "C69": [
  "proved",
  "All patterns; the only pattern outside the grammar of pieces that is accepted ends in a lone percent sign (C69_escapes)."
 ],
 "C70": [
  "proved",
  "realpath is assumed to give an absolute path of non-empty components; each answer of the system is free."
 ],
 "C71": [
  "partial",
  "Principals and validity proved in full. The source-address list is refuted in full: a comma at its end is let pass (C71_source_refuted) and a NUL byte hides the rest of an entry (C71_source_nul_refuted). Proved for lists without NUL bytes that do not end in a comma. Parsing of the certificate itself is outside."
 ],
 "C72": [
  "proved",
  "The loop over the alternative names of the certificate is outside; this is the test of one name."
 ],
 "C73": [
  "partial",
  "Refuted in full for passwords with a NUL byte, which are cut there: a password of one NUL opens an account without password although PermitEmptyPasswords is no (C73_empty_refuted). Proved as an equivalence for all other passwords; the limit of three attempts is proved for all histories. The hash is a function of the system (crypt), the data bases do not change during one attempt; PAM and Windows are outside."
 ],
 "C74": [
  "partial",
  "Refuted in full: StrictModes is taken from the global settings, so a Match block that turns it on or off has no effect (C74_refuted). Proved as an equivalence with the global StrictModes, and in full where no Match block changes it. Key files within the limits of C68, source lists within those of C71. The signature check comes after this decision and is C09."
 ],
 "C75": [
  "partial",
  "The last part is refuted: the third wrong password for an account ends the connection, while attempts for unknown names only fail (C75_refuted). Proved: every refusal calls crypt, and one of the calls hashes the password if crypt knows DES and the account's own scheme; with one scheme on the system its first call uses that scheme; the made-up salts depend on no salt or digest; while two attempts are left the outcome is the same. Time itself is not modelled, only the calls of crypt."
 ],
 "C76": [
  "partial",
  "Refuted three ways: the process that relays a shell's data keeps the daemon's groups and is not confined (C76_relay_refuted), an account with uid 4294967295 runs as root (C76_uid_refuted), a relative ChrootDirectory is looked up twice (C76_relative_refuted). Proved for every service other than the relay, accounts with real ids and absolute directories; the relay has the user's ids; no way back (C76_for_good), nothing kept after a failure (C76_after, C76_lowered)."
 ],
 "C77": [
  "partial",
  "Refuted: ForceCommand does not restrict SFTP and SCP of users other than root (C77_refuted). Proved: every program started runs the configured, else the certificate's, else the requested command; certificates restrict every kind of session; internal-sftp allows no program; root with forced-commands-only; the login shell (for shells shorter than 80 bytes, a longer path is cut); and the command does run when nothing fails."
 ],
 "C78": [
  "partial",
  "Refuted in full: stale errno at the end of stderr (C78_refuted), more than one read of stderr left at the end (C78_stderr_refuted), the client's EOF (C78_eof_refuted). Proved: both streams are prefixes of the program's output always, nothing but the held bytes is missing while the loop runs, all of stdout is sent when the loop ends by its condition, and the end is complete when at most one read is left and no EOF was received."
 ],
 "C79": [
  "partial",
  "Refuted in full: data that comes while output is held is lost at EOF (C79_closed_refuted) or stalls both directions (C79_stalls, C79_passed_refuted). Proved, for a program that takes what is written: it gets a prefix of what was received, the rest is in the channel, and all is delivered at once if data comes while nothing is held."
 ],
 "C80": [
  "proved",
  "Acceptance is an equivalence with a separate grammar of certificates (OsshSpec.v) for all bytes. Stricter than the property: C80_strict_full (the signature names its own algorithm and nothing follows it) is refuted."
 ],
 "C81": [
  "proved",
  "Sending is taken to succeed. Completeness is proved for Ed25519 certificates (C81_ed25519_accepted)."
 ],
 "C82": [
  "partial",
  "Refuted in full: a length word of a DATA reply that comes in two pieces is taken with what was in memory for the rest (C82_refuted), and what fclose fails to write is not noticed (C82_refuted_close). Proved when length words come whole (whole_lengths) and fclose loses nothing, for every other schedule."
 ],
 "C83": [
  "partial",
  "Refuted in full: a plain Get interrupted after an interrupted one does not replace the saved offset, and the resumed Get then writes at the wrong place (C83_refuted). Proved for histories in which every Get of the file asks to resume, under the conditions of C82; failed Gets are allowed."
 ],
 "C84": [
  "partial",
  "Refuted in full: Put returns success after a WRITE was refused (C84_refuted), after a local read error (C84_refuted_read) and after running out of memory (C84_refuted_failure). Proved when none of these happens; C84_interrupted for interrupted ones, with the offset they keep; C84_handle: the handle used is the reply's."
 ],
 "C85": [
  "partial",
  "Refuted: the resumed Put truncates the remote file on open (C85_refuted). Proved is what it leaves for every offset and schedule: zeros up to the offset, the local file from there on."
 ],
 "C86": [
  "proved",
  "Builds without certificates, TPM and agent. C86_proper is the whole statement for one step after any history; C86_total, C86_sign_once and C86_keyboard_thrice the last clauses. User name, session identifier and the application's data are below 256 MiB each."
 ],
 "C87": [
  "proved",
  "Passwords, and RSA, ECDSA, Ed25519 and ML-DSA keys with the first announced algorithm that goes with the key (C87_key), the law of the signature scheme being a hypothesis; failure messages with up to three methods; the application has not been asked for a key before on this connection (a second attempt always fails, see DESIGN.md)."
 ],
 "C88": [
  "proved",
  "The models of C86 and C20 composed; messages below 2 GiB, at most 1 GiB already queued. Hypothesis on wolfCrypt: signatures are no longer than its size functions say."
 ],
 "C89": [
  "proved",
  "RSA, ECDSA and Ed25519 keys; the crypto library's import and the base 64 decoder are oracles, the decoder assumed to give bytes and not more than it got. ML-DSA keys and which error code is returned are not modelled."
 ],
 "C90": [
  "partial",
  "False of the code (C90_refuted): the name of the cipher is skipped. Proved: a file is refused whenever the two check numbers at the start of the section differ or are missing, which an encrypted section meets but for one chance in 2^32; missing is the refusal by name."
 ],
 "C91": [
  "proved",
  "Blocking session in which every send is taken and no allocation fails; the session's byte stream is otherwise arbitrary. A STATUS that says OK is taken as an answer to OPENDIR and leaves a handle of zeros, which the statement allows for (opened). Replies of up to 1 MiB, WOLFSSH_MAX_SFTP_NAME."
 ],
 "C92": [
  "partial",
  "False of the code (C92_refuted): any reply without names, such as a failure status, ends the listing, and what was read so far is returned as if it were everything. Proved: if the connection is lost at any byte before the end, NULL is returned; missing is the failure reported by the server."
 ],
 "C93": [
  "proved",
  "Client and server models composed on each other's bytes. Assumed: the name is resolved and opened, closing succeeds, the directory has an entry, path and name are shorter than 255 bytes together (see C55) and each reply has at most 1 MiB of contents; the server sends a directory in one reply and the client refuses larger ones."
 ],
 "C94": [
  "partial",
  "Client and server models composed on each other's bytes. False without C82's conditions (C94_refuted: a local file whose closing fails to write the rest). Proved if closing the local file does not lose data and the stream does not cut the length word of a DATA reply in two. Assumed of the requests, which are those the client sent: STAT, OPEN, READs of at least one byte, CLOSE; and that the server answered each of them."
 ],
 "C95": [
  "partial",
  "Client and server models composed on each other's bytes. False of the code (C95_refuted): the server's system fails to write, the server says so, and Put returns success all the same. Proved if no write of the server and no local read fails, and neither the client's stream nor its memory does. Assumed of the requests, which are those the client sent: OPEN, WRITEs of at least one byte below 2^64, CLOSE; that the server answered each of them, and that its file was empty when opened (OPEN asks for that; what the system does with it is not modelled)."
 ]
}