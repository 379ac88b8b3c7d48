{"id": "C01", "title": "Wire field readers never leave the message", "statement": "Every SSH field reader (boolean, uint32, size, skip, mpint, string reference, copied string, name-list) given a buffer of at least len bytes touches no byte at or beyond len, whatever the index and the bytes; on success the index is moved forward to a position at most len, and the field it returns lies inside the message.", "quantifier": "all buffers, all declared lengths up to the buffer size, all starting indices and all field contents", "why_tests_cant": "out-of-bounds reads depend on the exact combination of attacker-chosen lengths and offsets (including 32-bit extremes); finitely many inputs cannot cover them", "anchors": ["src/internal.c:GetBoolean", "src/internal.c:GetUint32", "src/internal.c:GetSize", "src/internal.c:GetSkip", "src/internal.c:GetMpint", "src/internal.c:GetStringRef", "src/internal.c:GetString", "src/internal.c:GetNameListRaw"]}
{"id": "C02", "title": "Wire encodings round-trip", "statement": "A uint32, a string or a sequence of such fields written with the library's encoders and placed anywhere inside a message is read back unchanged by the matching reader, which stops exactly at the end of the field.", "quantifier": "all field values, all surrounding bytes, all positions", "why_tests_cant": "the law ranges over every value and every surrounding message", "anchors": ["src/misc.c:c32toa", "src/misc.c:ato32", "src/internal.c:GetUint32", "src/internal.c:GetStringRef"]}
{"id": "C03", "title": "mpint canonicalisation keeps the number", "statement": "Turning any big-endian magnitude into the SSH mpint form removes redundant leading zeros, adds one zero byte exactly when the top bit is set, denotes the same integer, is accepted by the mpint reader, and is idempotent; the mpint reader refuses every negative number.", "quantifier": "all byte strings (key-exchange secrets, public values)", "why_tests_cant": "leading-zero cases occur with probability 2^-8 per value; tests of key exchange hit them rarely and never all lengths", "anchors": ["src/internal.c:CreateMpint", "src/internal.c:GetMpint"]}
{"id": "C04", "title": "Name lists are read in order, bounded, and unknown names are dropped", "statement": "Reading a comma-separated name-list yields the identifiers of its known names in order (plus an unknown marker if the first name is unknown), never more than the capacity given, and refuses lists beyond the size or count limits.", "quantifier": "all byte strings offered as a name-list and all capacities", "why_tests_cant": "the parser is driven by unconstrained peer bytes of unbounded shape", "anchors": ["src/internal.c:GetNameListRaw", "src/internal.c:GetNameList", "src/internal.c:NameToId"]}
{"id": "C05", "title": "Algorithm negotiation picks the client's first common choice, and both peers agree", "statement": "The negotiated algorithm is in both offers and no earlier entry of the client's offer is in the server's; client and server computing it independently obtain the same result; negotiation fails only if the offers share nothing.", "quantifier": "all pairs of offer lists", "why_tests_cant": "all pairs of lists of any length; downgrade bugs hide in orderings tests do not list", "anchors": ["src/internal.c:MatchIdLists", "src/internal.c:DoKexInit"]}
{"id": "C06", "title": "Server processes no connection-protocol message before authentication", "statement": "On a server, whatever sequence of packets, API calls and would-block results has happened, a channel or global-request message is acted upon only if authentication has been granted and accept has produced the success message (or has told the application that it could not); a grant is for a credential bound to this session; authentication messages are refused afterwards.", "quantifier": "all histories of received packets, accept calls and I/O outcomes", "why_tests_cant": "an authentication bypass is one unexpected history among infinitely many", "anchors": ["src/internal.c:IsMessageAllowedServer", "src/internal.c:DoPacket", "src/ssh.c:wolfSSH_accept"]}
{"id": "C07", "title": "Client processes no connection-protocol message before the server accepted it", "statement": "On a client, channel and global-request messages are acted upon only after the server reported authentication success; messages that only a client may send are always refused.", "quantifier": "all histories of received packets, connect calls and I/O outcomes", "why_tests_cant": "ranges over every message order a malicious server can produce", "anchors": ["src/internal.c:IsMessageAllowedClient", "src/ssh.c:wolfSSH_connect"]}
{"id": "C08", "title": "Key exchange messages only in the expected order", "statement": "While the peer is in key exchange no second KEXINIT is acted upon and, when a specific message is awaited, no other transport key-exchange message is acted upon; outside key exchange the only key-exchange message acted upon is KEXINIT.", "quantifier": "all states and all message numbers", "why_tests_cant": "strict ordering must hold for every injected message at every point (Terrapin-like attacks)", "anchors": ["src/internal.c:IsMessageAllowedServer", "src/internal.c:IsMessageAllowedClient", "src/internal.c:DoKexInit", "src/internal.c:DoNewKeys"]}
{"id": "C09", "title": "A user is authenticated only if the callback accepted the credential and any key signature verified", "statement": "The server marks the user authenticated only in a request for which the application's authentication callback returned success and, for public-key requests, the signature verified under the offered key over the session identifier and the request; a key offer without signature never authenticates.", "quantifier": "all request messages, all callback behaviours, all histories", "why_tests_cant": "requires reasoning about every combination of method, parse error, callback verdict and signature result", "anchors": ["src/internal.c:DoUserAuthRequest", "src/internal.c:DoUserAuthRequestPassword", "src/internal.c:DoUserAuthRequestPublicKey", "src/internal.c:DoUserAuthRequestNone", "src/internal.c:DoUserAuthInfoResponse"]}
{"id": "C10", "title": "Authentication failures are limited", "statement": "Per connection the server never answers more than the configured maximum number of counted authentication failures; reaching it disconnects.", "quantifier": "all histories of authentication requests, all limits", "why_tests_cant": "brute-force limits must hold for every interleaving of methods", "anchors": ["src/internal.c:CountUserAuthFailure", "src/internal.c:SendUserAuthFailureCount", "src/internal.c:DoUserAuthRequest", "src/ssh.c:wolfSSH_SetMaxAuthAttempts"]}
{"id": "C11", "title": "The user name is fixed by the first authentication request", "statement": "Once a request named a user, any later request naming a different user disconnects and authenticates nobody; the authenticated user is the one named first.", "quantifier": "all histories of authentication requests", "why_tests_cant": "user confusion needs multi-request histories", "anchors": ["src/internal.c:DoUserAuthRequest"]}
{"id": "C12", "title": "Buffer growth and shrinking keep unread bytes", "statement": "Growing, compacting, appending to or shrinking an I/O buffer preserves exactly the unread bytes in order, keeps index <= length <= capacity, and makes the requested room available; a forced shrink discards everything.", "quantifier": "all buffer states reachable by any sequence of operations and all sizes", "why_tests_cant": "aliasing and off-by-one errors in memmove/realloc code depend on unbounded state histories", "anchors": ["src/internal.c:GrowBuffer", "src/internal.c:ShrinkBuffer", "src/internal.c:AppendBuffer", "src/internal.c:BufferInit"]}
{"id": "C13", "title": "Receive window accounting is exact", "statement": "For each channel, at every moment, bytes still allowed to the peer plus bytes stored (stdout not yet credited, stderr unread) equal the advertised window size; in-window data always fits in the buffer and out-of-window data is refused without changing the channel.", "quantifier": "all interleavings of peer data, stderr data, reads of any size, rekeys and send outcomes", "why_tests_cant": "window leaks stall connections only after long histories; overflow needs an adversarial history", "anchors": ["src/internal.c:ChannelPutData", "src/internal.c:DoChannelData", "src/internal.c:DoChannelExtendedData", "src/internal.c:ChannelCreditWindow", "src/internal.c:SendPendingChannelWindowAdjust", "src/ssh.c:_UpdateChannelWindow", "src/ssh.c:_ChannelReadExt"]}
{"id": "C14", "title": "Window credit reaches the peer exactly once and never during rekey", "statement": "While the transport has not failed for good, no byte of credit is announced twice, so the peer's view of the window never exceeds the local one; towards a peer that keeps to its window every byte of credit is announced in exactly one window-adjust or is still owed. None is announced while key exchange is in progress, and what is owed is announced when it ends.", "quantifier": "all interleavings of reads, rekeys and send failures", "why_tests_cant": "double or lost credit appears only under particular would-block/rekey interleavings", "anchors": ["src/internal.c:ChannelCreditWindow", "src/internal.c:SendPendingChannelWindowAdjust", "src/internal.c:SendChannelWindowAdjust"]}
{"id": "C15", "title": "Sent channel data respects the peer's window and packet size", "statement": "Channel data and stderr packets never exceed the peer's maximum packet size, their total never exceeds the window the peer granted, none is produced by a call made while a rekey is in progress, and every accepted byte is the next byte of the caller's buffer.", "quantifier": "all sequences of send calls, window adjusts and I/O outcomes", "why_tests_cant": "flow-control violations need long histories with particular window values", "anchors": ["src/internal.c:SendChannelData", "src/internal.c:SendChannelExtendedData", "src/internal.c:DoChannelWindowAdjust"]}
{"id": "C16", "title": "A send that reports n bytes really queued n bytes", "statement": "When a channel send returns n > 0, exactly the first n bytes given were put into one data packet placed on the output queue.", "quantifier": "all states, including output already pending and blocked", "why_tests_cant": "the failing schedule requires a would-block at one exact point", "anchors": ["src/internal.c:SendChannelData", "src/internal.c:wolfSSH_SendPacket"]}
{"id": "C17", "title": "Window adjust never wraps the peer window", "statement": "A window-adjust that would push the window past 2^32-1 is rejected and leaves it unchanged; otherwise the window grows by exactly the amount.", "quantifier": "all windows and all amounts", "why_tests_cant": "needs exact 32-bit boundary behaviour for all pairs", "anchors": ["src/internal.c:DoChannelWindowAdjust"]}
{"id": "C18", "title": "Local channel numbers are unique and lookups find the right channel", "statement": "Whatever channels are opened and closed by either side, no two live channels share a local number, a lookup by local number finds the channel with that number and no other, and closing one channel leaves all others in place.", "quantifier": "all histories of channel opens, confirmations, failures and closes", "why_tests_cant": "identifier reuse depends on unbounded open/close histories, including counter wrap", "anchors": ["src/internal.c:ChannelNew", "src/internal.c:ChannelFind", "src/internal.c:ChannelAppend", "src/internal.c:ChannelRemove"]}
{"id": "C19", "title": "Stream reads return the peer's bytes in order, without loss or duplication", "statement": "The concatenation of what the reads took, followed by what is still buffered, equals the concatenation of the data packets accepted on that channel, for every split of reads and packets; stream and stderr reads return exactly what they take, the next unread bytes; peeking changes nothing.", "quantifier": "all interleavings of data packets and reads of any size, with any send outcome for window adjusts", "why_tests_cant": "reordering or loss appears only for particular read sizes against particular packet sizes and compaction points", "anchors": ["src/ssh.c:wolfSSH_stream_read", "src/ssh.c:_ChannelRead", "src/ssh.c:_UpdateChannelWindow", "src/internal.c:ChannelPutData"]}
{"id": "C20", "title": "Outgoing packets are well formed", "statement": "Every packet put on the wire has a length field equal to its content, at least four bytes of padding, at most one block more padding than needed, a total that is a multiple of the cipher block size, and it fits the space reserved for it.", "quantifier": "all payload sizes, block sizes, MAC sizes and cipher modes", "why_tests_cant": "padding arithmetic has to hold at every residue and size", "anchors": ["src/internal.c:PreparePacket", "src/internal.c:BundlePacket"]}
{"id": "C21", "title": "Packets survive the transport round trip", "statement": "With matching keys, the receiver recovers from a sent packet exactly the payload sent, consumes exactly the bytes of that packet, and both sides' packet sequence numbers stay equal; this holds for whole streams of packets.", "quantifier": "all payload streams, both cipher modes, all keys (abstract inverse cipher and MAC functions)", "why_tests_cant": "desynchronisation bugs depend on packet history and sizes", "anchors": ["src/internal.c:BundlePacket", "src/internal.c:DoReceive", "src/internal.c:DoPacket"]}
{"id": "C22", "title": "A packet is acted upon only if its MAC verified", "statement": "Under encryption no byte of a received packet reaches a message handler unless the integrity check over that packet and its sequence number succeeded, and any packet announcing more than the maximum size is refused before being read in full.", "quantifier": "all byte streams from the network", "why_tests_cant": "ranges over all corrupted inputs", "anchors": ["src/internal.c:DoReceive", "src/internal.c:VerifyMac", "src/internal.c:DecryptAead"]}
{"id": "C23", "title": "Reception does not depend on how the network splits the stream", "statement": "The sequence of packets acted upon is the same however the transport fragments the byte stream and wherever it reports would-block.", "quantifier": "all byte streams and all fragmentations/would-block schedules", "why_tests_cant": "the number of fragmentations is exponential in the stream length", "anchors": ["src/internal.c:GetInputData", "src/internal.c:GetInputLine", "src/internal.c:DoReceive", "src/internal.c:ReceiveData"]}
{"id": "C24", "title": "Output queue bytes are transmitted in order, exactly once", "statement": "Whatever partial writes and would-block results the transport reports, the bytes handed to it are exactly the queued bytes in order with no loss or duplication, and the queue is empty when sending reports success.", "quantifier": "all queue contents and all schedules of partial writes / would-block", "why_tests_cant": "schedules are unbounded", "anchors": ["src/internal.c:wolfSSH_SendPacket"]}
{"id": "C25", "title": "Packet sequence numbers", "statement": "Each packet produced (received and consumed) increments its direction's sequence number by one modulo 2^32, and a rekey does not reset it; byte and message counters restart at a rekey.", "quantifier": "all histories of packets and rekeys", "why_tests_cant": "wrap and reset behaviour needs unbounded histories", "anchors": ["src/internal.c:BundlePacket", "src/internal.c:DoPacket", "src/internal.c:SendNewKeys", "src/internal.c:DoNewKeys"]}
{"id": "C26", "title": "AES-GCM nonces do not repeat under one key", "statement": "Under one key the nonce changes with every packet and does not repeat within 2^64 packets; the fixed part never changes.", "quantifier": "all initial IVs, all packet counts", "why_tests_cant": "2^64 states; carry propagation through eight bytes cannot be enumerated", "anchors": ["src/internal.c:AeadIncrementExpIv", "src/internal.c:EncryptAead", "src/internal.c:DecryptAead"]}
{"id": "C27", "title": "The peer's version line is bounded and validated", "statement": "A server accepts as version only a first line starting with the SSH-2.0 prefix; a client skips at most a fixed number of other lines; no line longer than the limit is accepted; parsing consumes exactly through the line terminator.", "quantifier": "all byte streams sent before key exchange", "why_tests_cant": "unbounded pre-authentication input", "anchors": ["src/internal.c:DoProtoId", "src/internal.c:GetInputLine"]}
{"id": "C28", "title": "Group exchange only chooses safe groups", "statement": "The server's group is within the client's requested window and the library's limits, is the smallest acceptable one at least as large as preferred if there is one and otherwise the largest acceptable; it fails only when none fits. The client's request triple is always ordered min <= preferred <= max.", "quantifier": "all request triples (all 32-bit values)", "why_tests_cant": "three unconstrained 32-bit numbers", "anchors": ["src/internal.c:SelectKexDhGexGroup", "src/internal.c:SendKexDhGexRequest", "src/internal.c:DoKexDhGexRequest"]}
{"id": "C29", "title": "Server path resolution is canonical and bounded", "statement": "Resolving any client path gives an absolute path without empty, '.' or '..' components, equal to the textual POSIX resolution of the request (relative requests against the default directory), always NUL-terminated within the output buffer, or an error when it does not fit.", "quantifier": "all request strings, all canonical default paths, all output sizes", "why_tests_cant": "path traversal bugs live in unusual component sequences", "anchors": ["src/ssh.c:wolfSSH_RealPath"]}
{"id": "C30", "title": "SFTP confinement cannot be escaped by any path text", "statement": "With a confinement directory configured, every path the SFTP server hands to the file system is that directory or textually inside it, component-wise (symbolic links excluded).", "quantifier": "all request strings, all confinement directories", "why_tests_cant": "quantifies over all traversal strings", "anchors": ["src/wolfsftp.c:GetAndCleanPath", "src/wolfsftp.c:wolfSSH_SFTP_SetConfinePath"]}
{"id": "C31", "title": "Rekey thresholds fire once and before exhaustion", "statement": "The high-water callback is invoked when the byte or message counter of a direction reaches its threshold, at most once per key epoch, and re-armed by new keys.", "quantifier": "all packet histories and thresholds", "why_tests_cant": "thresholds are 10^9 bytes / 2^31 messages", "anchors": ["src/internal.c:HighwaterCheck", "src/internal.c:wolfSSH_SendPacket", "src/internal.c:DoPacket"]}
{"id": "C32", "title": "The session identifier never changes", "statement": "The session identifier is the exchange hash of the first key exchange and is not altered by any later one.", "quantifier": "all histories of key exchanges", "why_tests_cant": "multi-rekey histories", "anchors": ["src/internal.c:DoKexDhReply", "src/internal.c:KeyAgree", "src/internal.c:SendKexDhReply"]}
{"id": "C33", "title": "accept/connect succeed only after the full handshake, for every blocking schedule", "statement": "A call to accept (connect) that returns success implies version exchange, key exchange, user authentication and channel setup all completed; resuming after would-block neither skips nor repeats a handshake message.", "quantifier": "all schedules of would-block results and packets across repeated calls", "why_tests_cant": "resumption states times schedules is unbounded", "anchors": ["src/ssh.c:wolfSSH_accept", "src/ssh.c:wolfSSH_connect"]}
{"id": "C34", "title": "Channel requests get exactly the reply they ask for", "statement": "A channel request with want-reply gets exactly one success or failure addressed to the requester's channel, success exactly when the request was understood and allowed; without want-reply, and for the kinds RFC 4254 says are never answered (window-change, exit-status, exit-signal), nothing is sent.", "quantifier": "all request messages and callback verdicts", "why_tests_cant": "ranges over all request contents", "anchors": ["src/internal.c:DoChannelRequest", "src/internal.c:SendChannelSuccess"]}
{"id": "C35", "title": "Packet parsing cannot read or write outside the received packet", "statement": "For every decrypted packet content and padding byte, splitting it into payload and padding stays inside the received bytes or is refused, with no 32-bit wrap.", "quantifier": "all packet lengths, padding lengths and buffer states", "why_tests_cant": "adversarial length arithmetic", "anchors": ["src/internal.c:DoPacket"]}
{"id": "C36", "title": "Remote-forward requests bind only what the application accepted", "statement": "A tcpip-forward request is granted only if the application's forwarding callback accepted it; for port 0 the granted port is the one the callback returned and lies in 1..65535; replies are sent exactly when requested.", "quantifier": "all requests and all callback results", "why_tests_cant": "all 32-bit ports and callback return values", "anchors": ["src/internal.c:DoGlobalRequestFwd", "src/internal.c:DoGlobalRequest"]}
{"id": "C37", "title": "A failed channel read takes no data", "statement": "wolfSSH_ChannelRead and wolfSSH_ChannelIdRead return the bytes they take from the channel; if they report an error, the data is still there for the next read.", "quantifier": "all channel states, read sizes and send outcomes for the window adjust that follows", "why_tests_cant": "the loss needs the window-adjust threshold and a would-block in the same call", "anchors": ["src/ssh.c:_ChannelRead", "src/ssh.c:_UpdateChannelWindow", "src/ssh.c:wolfSSH_ChannelIdRead", "src/ssh.c:wolfSSH_ChannelRead"]}
{"id": "C38", "title": "No channel data follows EOF", "statement": "Once an EOF for a channel has been put on the output queue, no data or stderr message for that channel is put there.", "quantifier": "all sequences of sends, EOFs and I/O outcomes", "why_tests_cant": "the failing schedule requires a would-block at the EOF itself", "anchors": ["src/internal.c:SendChannelEof", "src/internal.c:SendChannelData"]}
{"id": "C40", "title": "A client uses new keys only after the host proved its identity in that exchange", "statement": "A client puts keys in use, in either direction and at every rekeying, only if in that very key exchange the application's host key callback accepted a key and the server's signature by that key over that exchange's hash verified.", "quantifier": "all histories of packets, calls, callback answers and I/O outcomes", "why_tests_cant": "must hold for every order of messages, rekeyings started by either side, retries after would-block", "anchors": ["src/internal.c:DoKexDhReply", "src/internal.c:DoNewKeys", "src/internal.c:SendNewKeys", "src/internal.c:IsMessageAllowedClient"]}
{"id": "C41", "title": "Keyboard-interactive answers are judged only after prompts", "statement": "The application is asked to judge keyboard-interactive responses at most as often as prompts were sent to the client; the responses come from the user whose request started the exchange and are as many as the last prompt message asked for.", "quantifier": "all histories of authentication messages and callback verdicts", "why_tests_cant": "needs the callback to decline to set up prompts and a client that answers anyway", "anchors": ["src/internal.c:DoUserAuthInfoResponse", "src/internal.c:DoUserAuthRequest", "src/internal.c:SendUserAuthKeyboardRequest"]}
{"id": "C42", "title": "The authentication callback is asked exactly about what the client presented", "statement": "Every time the server's authentication callback is called, the user name is the connection's fixed user name and the credential (password, new password, public key blob, algorithm, responses) is the one in the message being processed.", "quantifier": "all histories of authentication messages and callback verdicts", "why_tests_cant": "ranges over all request contents, including malformed and overlapping length fields", "anchors": ["src/internal.c:DoUserAuthRequest", "src/internal.c:DoUserAuthRequestPassword", "src/internal.c:DoUserAuthRequestPublicKey", "src/internal.c:DoUserAuthInfoResponse"]}
{"id": "C43", "title": "Keys in use come from the key agreement of the current exchange", "statement": "Each key exchange agrees on keys at most once, and the keys put in use for sending and for receiving are those of the agreement made since the peer's latest KEXINIT - never stale, never uninitialised.", "quantifier": "all histories of packets, calls and I/O outcomes, including failed negotiations", "why_tests_cant": "the failing history needs a rekeying that fails in negotiation, and an application that goes on", "anchors": ["src/internal.c:DoNewKeys", "src/internal.c:SendNewKeys", "src/internal.c:SendKexDhReply", "src/internal.c:DoKexInit"]}
{"id": "C45", "title": "The handshake record is never used after it was released", "statement": "No sequence of packets and calls makes the library dereference the per-exchange handshake record when there is none (allocations succeeding).", "quantifier": "all histories of packets, calls and I/O outcomes", "why_tests_cant": "the record comes and goes with every rekeying and blocked send", "anchors": ["src/internal.c:DoPacket", "src/internal.c:SendNewKeys", "src/internal.c:SendKexDhInit", "src/internal.c:DoNewKeys"]}
{"id": "C39", "title": "A client accepts a group-exchange group only after checking it", "statement": "Whatever the server sends, the client goes on with a group only if the prime lies in the size window the client asked for (and has at least 2048 bits), is odd, passed both primality tests (itself and (p-1)/2), and the generator is between 2 and p-2; otherwise nothing of the message is kept. No read leaves the message.", "quantifier": "all messages, all configured windows, all answers of the primality tests", "why_tests_cant": "the message is chosen by the peer: lengths, leading zeros and values in every combination", "anchors": ["src/internal.c:DoKexDhGexGroup", "src/internal.c:ValidateKexDhGexGroup"]}
{"id": "C44", "title": "Client and server hash the same transcript, and the transcript binds the exchange", "statement": "For every kind of key exchange, if each end received what the other sent and both hold the same secret, both compute the exchange hash over the same bytes, which are the RFC 4253 section 8 (RFC 4419 section 3) encoding of versions, KEXINITs, host key, group, public values and secret. Conversely, if both hashed the same bytes they agree on all of these, whoever sits between them.", "quantifier": "all version strings, KEXINIT payloads, host keys, public values, secrets, group-exchange windows and tables", "why_tests_cant": "leading zeros, set top bits and empty fields appear with small probability and only for some values", "anchors": ["src/internal.c:DoKexInit", "src/internal.c:DoKexDhReply", "src/internal.c:SendKexDhReply", "src/internal.c:SendKexGetSigningKey", "src/internal.c:SendKexDhInit", "src/internal.c:DoKexDhInit", "src/internal.c:CreateMpint"]}
{"id": "C46", "title": "Session keys are the RFC 4253 keys and match at both ends", "statement": "Each derived IV, cipher key and MAC key is the prefix of K1 || K2 || ... of RFC 4253 7.2 for its letter, for all key sizes and hash sizes, over the secret as it was encoded in the exchange hash; what one end uses to send is what the other uses to receive.", "quantifier": "all secrets, hashes, session ids, key sizes, hash functions of any digest size", "why_tests_cant": "block boundaries, leading zeros and top bits of the secret", "anchors": ["src/internal.c:GenerateKey", "src/internal.c:GenerateKeys", "src/internal.c:CreateMpint"]}
{"id": "C47", "title": "The application is told of a channel request once, with the request's own contents", "statement": "A well-formed shell, exec, subsystem, pty-req or window-change request runs the application's callback for that type once, with the command or sizes the request carries; a malformed request runs none; the command read back from a channel is that of its last well-formed exec or subsystem request; the terminal sizes, terminal modes and exit status the session keeps are those of the well-formed pty-req, window-change or exit-status request, and no other request changes them.", "quantifier": "all request messages, channel states and callbacks", "why_tests_cant": "ranges over all request contents and the history of earlier requests on the channel", "anchors": ["src/internal.c:DoChannelRequest", "src/internal.c:GetStringAlloc", "src/ssh.c:wolfSSH_GetSessionCommand"]}
{"id": "C48", "title": "The SFTP server serves the requests in the byte stream, in order, whatever the timing", "statement": "Whatever bytes the peer sends and however the transport splits, delays or interrupts receiving and sending, the server touches nothing outside its buffers, serves exactly the complete requests in the input, in order and one at a time, and sends exactly their replies, in order; two runs on the same input differ only in how far they are; no request is lost.", "quantifier": "all inputs, all schedules of partial reads and writes, suspensions and errors, all system answers", "why_tests_cant": "partial reads and writes at every byte boundary cannot be enumerated", "anchors": ["src/wolfsftp.c:wolfSSH_SFTP_read", "src/wolfsftp.c:wolfSSH_SFTP_buffer_read", "src/wolfsftp.c:wolfSSH_SFTP_buffer_send", "src/wolfsftp.c:SFTP_GetHeader"]}
{"id": "C49", "title": "An SFTP handle means one open file or directory until it is closed", "statement": "Every handle the SFTP server gives out is new in the session; while it has not been closed, every request naming it works on the descriptor that was opened for it and on no other; a handle that was never given out, or was closed, reaches no file.", "quantifier": "all histories of SFTP requests, file system answers and allocation failures, up to 2^64 requests", "why_tests_cant": "needs all interleavings of opens, closes and uses, with forged and stale handles", "anchors": ["src/wolfsftp.c:wolfSSH_SFTP_RecvOpen", "src/wolfsftp.c:wolfSSH_SFTP_RecvOpenDir", "src/wolfsftp.c:wolfSSH_SFTP_RecvClose", "src/wolfsftp.c:SFTP_FindFileHandle", "src/wolfsftp.c:SFTP_HandleIdDecode"]}
{"id": "C50", "title": "SFTP descriptors are bounded, never used after close and never leaked", "statement": "At most 64 files and 64 directories are open at once; every read, write, close or attribute call on a descriptor happens while it is open; when the session is freed everything opened has been closed exactly once.", "quantifier": "all histories of SFTP requests, file system answers and allocation failures", "why_tests_cant": "leaks and double closes show only on failing paths in long histories", "anchors": ["src/wolfsftp.c:SFTP_AddFileHandle", "src/wolfsftp.c:SFTP_RemoveFileHandle", "src/wolfsftp.c:wolfSSH_SFTP_RecvOpen", "src/wolfsftp.c:wolfSSH_SFTP_FreeAll", "src/wolfsftp.c:wolfSSH_SFTP_free"]}
{"id": "C51", "title": "An SFTP WRITE changes exactly the bytes it names", "statement": "A WRITE at an offset changes the file behind its handle as a prefix of the data at that offset, the whole of it when OK is answered, and no other file, however the system splits the writes.", "quantifier": "all offsets below 2^64, data, handles and sequences of short or failing system writes", "why_tests_cant": "short writes and offsets that cross 2^32 are rare", "anchors": ["src/wolfsftp.c:wolfSSH_SFTP_RecvWrite"]}
{"id": "C52", "title": "An SFTP READ returns exactly what the system read", "statement": "A READ of at most 32768 bytes asks the system once, for that many bytes at that offset of the file behind the handle, and answers with exactly those bytes, with EOF if there are none, with failure if the system failed.", "quantifier": "all offsets, lengths, handles and system answers", "why_tests_cant": "ranges over 64-bit offsets and all system answers", "anchors": ["src/wolfsftp.c:wolfSSH_SFTP_RecvRead"]}
{"id": "C53", "title": "SFTP attribute requests read and change the file they name", "statement": "STAT, LSTAT and FSTAT ask the system once for the attributes of the file named and answer with them; SETSTAT and FSETSTAT change the mode and times of that file to the values given and answer OK only if everything asked for was set.", "quantifier": "all attribute blocks, paths, handles, configurations and system answers, after any history", "why_tests_cant": "attribute blocks have 2^32 flag words and optional fields; applying a wrong field, or none, passes most tests", "anchors": ["src/wolfsftp.c:SFTP_ParseAttributes_buffer", "src/wolfsftp.c:SFTP_SetFileAttributes", "src/wolfsftp.c:SFTP_SetFileAttributesHandle", "src/wolfsftp.c:wolfSSH_SFTP_RecvSTAT", "src/wolfsftp.c:wolfSSH_SFTP_RecvLSTAT", "src/wolfsftp.c:wolfSSH_SFTP_RecvFSTAT", "src/wolfsftp.c:wolfSSH_SFTP_RecvSetSTAT", "src/wolfsftp.c:wolfSSH_SFTP_RecvFSetSTAT"]}
{"id": "C54", "title": "Every SFTP request is answered by one well-formed reply with its id", "statement": "A reply is a well-formed message of a kind that belongs to the request and carries the request's id; every well-formed request gets one when memory suffices; a request without reply changed nothing in the file system.", "quantifier": "all requests, histories, system answers and allocation failures", "why_tests_cant": "a missing reply or wrong id hangs the client only on rare failing paths", "anchors": ["src/wolfsftp.c:wolfSSH_SFTP_read", "src/wolfsftp.c:wolfSSH_SFTP_CreateStatus", "src/wolfsftp.c:SFTP_CreatePacket"]}
{"id": "C55", "title": "An SFTP directory listing is exactly what the system reports for that directory", "statement": "A READDIR on a handle given out for a directory is answered with the entries the system reports for it, each once and with the attributes of the file it names; once they have been sent, further requests on that handle are answered with EOF.", "quantifier": "all directories, entry names and attributes, configurations, histories, system answers and allocation failures", "why_tests_cant": "an entry lost, repeated or paired with another file's attributes shows only for particular directories, name lengths and histories", "anchors": ["src/wolfsftp.c:wolfSSH_SFTP_RecvReadDir", "src/wolfsftp.c:wolfSSH_SFTPNAME_readdir", "src/wolfsftp.c:SFTP_GetAttributes"]}
{"id": "C56", "title": "SFTP path requests act on exactly the file named and report what happened", "statement": "OPEN, OPENDIR, REMOVE, RMDIR, MKDIR and RENAME resolve the path against the start directory, and, if the configuration allows the result, perform the one operation asked for on it, with the flags and mode asked for, and report its outcome; a path that is not allowed is refused, and nothing is done for it.", "quantifier": "all paths, flags, attribute blocks, configurations, histories and system answers", "why_tests_cant": "a swapped argument, wrong flag or wrong status shows only for particular paths, flags and failures", "anchors": ["src/wolfsftp.c:wolfSSH_SFTP_RecvOpen", "src/wolfsftp.c:wolfSSH_SFTP_RecvOpenDir", "src/wolfsftp.c:wolfSSH_SFTP_RecvRemove", "src/wolfsftp.c:wolfSSH_SFTP_RecvRMDIR", "src/wolfsftp.c:wolfSSH_SFTP_RecvMKDIR", "src/wolfsftp.c:wolfSSH_SFTP_RecvRename"]}
{"id": "C57", "title": "Receiving over SCP stays inside the destination directory", "statement": "Whatever the peer sends while files are received with the default callback, directories are entered, and files and directories created, only inside the directory that the destination names: through names without slash that are not '.' or '..', that were found not to be symbolic links just before, and going up only out of directories entered before.", "quantifier": "all byte streams, their splitting into reads, system answers and destinations", "why_tests_cant": "an escape needs one particular name, nesting or failure out of unboundedly many sessions", "anchors": ["src/wolfscp.c:DoScpSink", "src/wolfscp.c:wsScpRecvCallback", "src/wolfscp.c:GetScpFileName", "src/wolfscp.c:ParseScpCommand", "src/wolfscp.c:wolfSSH_SCP_from"]}
{"id": "C58", "title": "A file received over SCP has exactly the bytes sent for it", "statement": "From the confirmation of a file header on, exactly the next announced number of bytes of the channel are written to the file opened under its name, in order; then its times are set if given and it is closed, and it is confirmed only if that worked. Streams are used only while open, and none is open when the request has ended or was aborted.", "quantifier": "all histories, sizes, splittings into reads, would-blocks and system answers", "why_tests_cant": "lost, repeated or misplaced bytes depend on how the network splits the data", "anchors": ["src/wolfscp.c:ReceiveScpFile", "src/wolfscp.c:DoScpSink", "src/wolfscp.c:wsScpRecvCallback"]}
{"id": "C59", "title": "SCP control messages are read exactly as the protocol writes them", "statement": "The receiver never reads outside a control message. Every proper message is accepted and gives the mode, size, name and times it states; anything else is refused.", "quantifier": "all byte strings as messages", "why_tests_cant": "numeric overflow, missing fields and odd separators cannot be enumerated", "anchors": ["src/wolfscp.c:GetScpFileMode", "src/wolfscp.c:GetScpFileSize", "src/wolfscp.c:GetScpFileName", "src/wolfscp.c:GetScpTimestamp", "src/wolfscp.c:ScpParseUInt64", "src/wolfscp.c:ReceiveScpMessage"]}
{"id": "C60", "title": "An SCP upload leaves exactly what was sent", "statement": "When a sender offers any sequence of files and directories, waiting for each confirmation as the protocol has it, and the system calls work, the receiver confirms everything and ends, and exactly the files and directories sent are there: in the same places, with the same names, contents and times, the first one under the destination's name.", "quantifier": "all file trees, contents and sizes below 2^32, all splittings into reads, all pauses", "why_tests_cant": "nesting, sizes and splittings are unbounded, and mistakes show only where two meet", "anchors": ["src/wolfscp.c:DoScpSink", "src/wolfscp.c:ReceiveScpMessage", "src/wolfscp.c:ReceiveScpFile", "src/wolfscp.c:ReceiveScpConfirmation", "src/wolfscp.c:SendScpConfirmation", "src/wolfscp.c:wsScpRecvCallback"]}
{"id": "C61", "title": "Sending over SCP says exactly what the callback offers, in turn", "statement": "Whatever the send callback answers and however the channel behaves, the sender says in every turn exactly what the answers call for: control messages with the name, mode, size and times given, the data of each file in order and exactly once, and its end. A new turn begins only when the peer has confirmed. When the answers offer files and directories and the sender ends, everything was sent, in the form a receiver takes.", "quantifier": "all callbacks, answers, splittings into sends, pauses and failures, and all peers", "why_tests_cant": "a byte sent twice or lost after a partial send depends on the schedule", "anchors": ["src/wolfscp.c:DoScpSource", "src/wolfscp.c:SendScpFileHeader", "src/wolfscp.c:SendScpTimestamp", "src/wolfscp.c:SendScpEnterDirectory", "src/wolfscp.c:SendScpExitDirectory", "src/wolfscp.c:SendScpConfirmation", "src/wolfscp.c:ReceiveScpConfirmation"]}
{"id": "C62", "title": "An SCP upload is stored at the path given", "statement": "'scp -t path' stores what is sent first in the parent directory of the path under its last component; it is refused just if that directory cannot be opened.", "quantifier": "all destination paths, preceding options and system answers", "why_tests_cant": "path cleaning is a chain of index loops whose mistakes show for particular paths only", "anchors": ["src/wolfscp.c:ParseScpCommand", "src/wolfscp.c:ScpCheckForRename", "src/wolfscp.c:ParseBasePathHelper", "src/internal.c:wolfSSH_CleanPath"]}
{"id": "C63", "title": "Downloading over SCP sends the file tree as it is", "statement": "When a file, or a directory with all that is in it, is at the path asked for and does not change, what the default callback sends is the control messages and the whole contents of just the files and directories there, nested and in the order in which they are listed; when the sender is done it has sent them all.", "quantifier": "all file trees, paths, splittings of reads and sends, pauses and failures", "why_tests_cant": "the walk keeps a stack of open directories and one path buffer; a mistake shows for particular shapes and names only", "anchors": ["src/wolfscp.c:wsScpSendCallback", "src/wolfscp.c:ScpProcessEntry", "src/wolfscp.c:ScpPushDir", "src/wolfscp.c:ScpPopDir", "src/wolfscp.c:FindNextDirEntry", "src/wolfscp.c:DoScpSource"]}
{"id": "C64", "title": "An SCP download touches only what is in the tree asked for, and follows no link", "statement": "Whatever the file system answers, the default send callback examines and opens only the path asked for and names listed in directories it has opened, each after it was found not to be a symbolic link; for a recursive download the same holds of the path asked for.", "quantifier": "all answers of the file system, also changing ones, all paths and all schedules", "why_tests_cant": "a file outside the tree is reached only with particular names or a particular race", "anchors": ["src/wolfscp.c:wsScpSendCallback", "src/wolfscp.c:ScpProcessEntry", "src/wolfscp.c:ScpPushDir", "src/wolfscp.c:ScpPopDir", "src/wolfscp.c:GetFileStats"]}
{"id": "C65", "title": "An SCP download closes what it opens and survives a lost connection", "statement": "Whatever the file system answers and whenever the connection fails, the sender does not run into undefined behaviour, has at most one file open at a time, and when it is done every file and directory it opened is closed.", "quantifier": "all answers of the file system, all schedules and all points at which the connection fails", "why_tests_cant": "the stream is closed early when the last part is read, so what a failure does depends on when it happens", "anchors": ["src/wolfscp.c:DoScpSource", "src/wolfscp.c:wsScpSendCallback", "src/wolfscp.c:ScpProcessEntry", "src/wolfscp.c:ScpPopDir", "src/wolfscp.c:ScpSendCtxFreeDirs"]}
{"id": "C66", "title": "The daemon's configuration file means what it says", "statement": "Once wolfsshd has loaded its configuration file, every user is governed by the text: each setting has the value of the last directive with its keyword among the global ones and those of the first Match block all of whose criteria (user, one of the groups) the user meets, or its default; a file with an unknown keyword, a wrong value or a Match criterion other than User and Group is refused, and a well-formed one is loaded.", "quantifier": "all texts, users and sets of groups", "why_tests_cant": "a setting silently not applied, or applied to the wrong users, shows only for particular texts and users; lines are cut by a buffer and keywords compared by prefix", "anchors": ["apps/wolfsshd/configuration.c:ConfigLoad", "apps/wolfsshd/configuration.c:ParseConfigLine", "apps/wolfsshd/configuration.c:HandleConfigOption", "apps/wolfsshd/configuration.c:HandleMatch", "apps/wolfsshd/configuration.c:wolfSSHD_ConfigCopy", "apps/wolfsshd/configuration.c:wolfSSHD_GetUserConf"]}
{"id": "C67", "title": "Include stands for the text of the file it names", "statement": "An included file's directives count as if they stood there, what follows the Include outside of Match blocks is global and governs every user, a pattern stands for the files of the directory it matches, in string order, a missing file or directory is an error, and files that include one another in a circle are refused.", "quantifier": "all texts, file names, users and sets of groups; all circles of files", "why_tests_cant": "what an Include does to the blocks around it shows only for particular combinations of files", "anchors": ["apps/wolfsshd/configuration.c:HandleInclude", "apps/wolfsshd/configuration.c:ConfigLoad", "apps/wolfsshd/configuration.c:HandleMatch"]}
{"id": "C68", "title": "A key is accepted exactly when authorized_keys lists it", "statement": "wolfsshd accepts an offered plain key exactly when some line of the user's authorized_keys file that is not a comment names a known key type followed by that key in base 64.", "quantifier": "all file contents, keys, base 64 decoders and sizes of the line buffer", "why_tests_cant": "the file is any text; which lines shadow or fake others depends on lengths and on what stands above them", "anchors": ["apps/wolfsshd/auth.c:SearchKeysFile", "apps/wolfsshd/auth.c:CheckAuthKeysLine"]}
{"id": "C69", "title": "AuthorizedKeysFile names the file it spells out", "statement": "%u, %h and %% in AuthorizedKeysFile stand for the user, the home directory and a percent sign; a relative result is taken under the home directory, none means .ssh/authorized_keys, other escapes and results of 80 bytes or more are refused. An absolute pattern with %u never gives two users the same file.", "quantifier": "all patterns, users and home directories", "why_tests_cant": "tests try a few patterns; that no two users share a file is about all pairs of names", "anchors": ["apps/wolfsshd/auth.c:ResolveAuthKeysPath", "apps/wolfsshd/auth.c:ExpandAuthKeysTokens", "apps/wolfsshd/auth.c:IsAbsoluteAuthKeysPath"]}
{"id": "C70", "title": "A trusted file that is opened could not have been written by anyone else", "statement": "Under StrictModes a file is opened exactly when the path is a regular file and no link, the opened file is that file, belongs to the given owner or root, is not writable (for private files: nor readable) by group or others, and every directory above it is not writable by them or is sticky, whatever other processes do between the checks.", "quantifier": "all paths, all answers of the file system to each call, in any state others leave it", "why_tests_cant": "races between the checks and the open cannot be scheduled by a test", "anchors": ["apps/wolfsshd/auth.c:wolfSSHD_OpenSecureFile"]}
{"id": "C71", "title": "The restrictions of a user certificate are enforced", "statement": "An OpenSSH certificate is used only by a user among its principals, from its start until before its end, and, if it has a source-address list, from an address in one of the listed networks, all of which must be well formed.", "quantifier": "all principal regions, users, times, address lists, peers and address parsers", "why_tests_cant": "the regions are attacker-chosen bytes and the lists have no bound", "anchors": ["apps/wolfsshd/auth.c:OsshCertCheckPrincipal", "apps/wolfsshd/auth.c:OsshCertCheckValidity", "apps/wolfsshd/auth.c:OsshSourceAddrMatch", "apps/wolfsshd/auth.c:OsshPrefixMatch", "apps/wolfsshd/auth.c:OsshCertCheckSourceAddress"]}
{"id": "C72", "title": "The name in an X.509 certificate must be the user's", "statement": "A certificate name user@domain lets exactly that user in, and, if realms are configured, only with a domain that is one of them up to case.", "quantifier": "all names, users and realm lists", "why_tests_cant": "prefixes, missing domains and separators make infinitely many near misses", "anchors": ["apps/wolfsshd/auth.c:MatchUPNToUser"]}
{"id": "C73", "title": "A password logs in exactly the user it belongs to, and only three may be tried", "statement": "The daemon accepts a password exactly when the account exists, the settings that govern the user permit password logins (for root: PermitRootLogin, for an empty password: PermitEmptyPasswords), and the system's hash of the password is the stored one, which locked accounts have none of. On one connection at most three wrong passwords are checked, whoever they are for, and the third ends it.", "quantifier": "all names, passwords, settings, account data bases, crypt functions, and histories of attempts on a connection", "why_tests_cant": "the account data base, the settings and the interleaving of attempts are unbounded; a bypass is one input among them", "anchors": ["apps/wolfsshd/auth.c:RequestAuthentication", "apps/wolfsshd/auth.c:CheckPasswordUnix", "apps/wolfsshd/auth.c:CheckPasswordHashUnix", "apps/wolfsshd/auth.c:DoCheckUser", "apps/wolfsshd/auth.c:wolfSSHD_AuthGetUserConf"]}
{"id": "C74", "title": "A key logs in exactly the users whose files or certificates say so", "statement": "The daemon accepts a public key exactly when the settings that govern the user permit it (for root: PermitRootLogin, with a forced command where one is demanded), and the key is listed in the user's key file, which under StrictModes must be trusted; or it is a certificate of a listed CA for that user, now and from this address; or an X.509 certificate that names the user, where no key file is set. A key never uses up a password attempt.", "quantifier": "all names, keys, certificates' restrictions, settings, key files, file system answers and account data bases", "why_tests_cant": "it joins the decisions of C66 and C68 to C72, each over unbounded data", "anchors": ["apps/wolfsshd/auth.c:RequestAuthentication", "apps/wolfsshd/auth.c:CheckPublicKeyUnix", "apps/wolfsshd/auth.c:SearchForPubKey", "apps/wolfsshd/auth.c:CAKeysFileDiffers"]}
{"id": "C75", "title": "A refused password does not tell whether the account exists", "statement": "Every refused password is hashed at least once, for unknown, forbidden and locked accounts with the scheme and parameters the system's accounts use, with salts that hold nothing of the system's salts and digests; and what the peer sees of its attempts is the same for a name with and without an account.", "quantifier": "all names, passwords, settings, shadow files and account data bases", "why_tests_cant": "a difference in cost or outcome is a relation between two runs; tests look at one", "anchors": ["apps/wolfsshd/auth.c:DoFakePasswordCheck", "apps/wolfsshd/auth.c:GetFakeHashFromTemplate", "apps/wolfsshd/auth.c:AddShadowLineToFakeHashCache", "apps/wolfsshd/auth.c:wolfSSHD_AuthInit", "apps/wolfsshd/auth.c:RequestAuthentication"]}
{"id": "C76", "title": "A session has its user's privileges and no others, for good", "statement": "Whatever serves a logged-in user (the program of a shell or exec session, SFTP, SCP) runs with all of the user's real, effective and saved ids and exactly the user's groups, confined to ChrootDirectory if one is set, whatever system calls fail on the way; a user other than root can never get other ids, groups or another root; and a connection process that goes on after a failure has not kept root.", "quantifier": "all accounts, settings, requests, start states of the daemon and outcomes of every system call", "why_tests_cant": "a failed drop of privileges occurs only when a call fails at the wrong moment, and leaves no trace in a passing test", "anchors": ["apps/wolfsshd/auth.c:wolfSSHD_AuthRaisePermissions", "apps/wolfsshd/auth.c:wolfSSHD_AuthReducePermissionsUser", "apps/wolfsshd/auth.c:wolfSSHD_AuthReducePermissions", "apps/wolfsshd/auth.c:wolfSSHD_AuthSetGroups", "apps/wolfsshd/wolfsshd.c:SetupChroot", "apps/wolfsshd/wolfsshd.c:SHELL_Subsystem", "apps/wolfsshd/wolfsshd.c:SFTP_Subsystem", "apps/wolfsshd/wolfsshd.c:SCP_Subsystem"]}
{"id": "C77", "title": "A forced command is the only thing that runs", "statement": "With ForceCommand set nothing but that command runs for the user (internal-sftp standing for SFTP); a certificate's force-command binds likewise, unless ForceCommand replaces it; root limited to forced commands gets file transfer only if that is the command; and without a forced command exactly what the client asked for runs, through the user's login shell.", "quantifier": "all settings, certificates, session requests and accounts", "why_tests_cant": "the ways to ask for a session multiply with the ways to restrict it; one forgotten pair is a bypass", "anchors": ["apps/wolfsshd/wolfsshd.c:HandleConnection", "apps/wolfsshd/wolfsshd.c:GetEffectiveForcedCmd", "apps/wolfsshd/wolfsshd.c:GetCertForcedCmd", "apps/wolfsshd/wolfsshd.c:IsRootTransferBlocked", "apps/wolfsshd/wolfsshd.c:SHELL_Subsystem", "apps/wolfsshd/wolfsshd.c:UserAuthResult"]}
{"id": "C78", "title": "A program's output reaches the client whole, in order and on its own stream", "statement": "What wolfsshd sends on a shell or exec session's stdout and stderr streams is at every moment a beginning of what the program wrote there, however reads, partial sends, full windows, full sockets and key exchanges interleave; and when the session ends without a failure of the connection all of it has been sent.", "quantifier": "all outputs, all schedules of the loop and all answers of the system and the connection", "why_tests_cant": "loss and mixing depend on which send was cut short when, and on what errno an unrelated call left", "anchors": ["apps/wolfsshd/wolfsshd.c:SHELL_Subsystem", "apps/wolfsshd/wolfsshd.c:SHELL_FlushOut", "src/internal.c:SendChannelData", "src/internal.c:DoChannelEof"]}
{"id": "C79", "title": "A client's input reaches the program whole and in order", "statement": "What a session's program gets on its stdin is at every moment a beginning of what the client sent; it has got all of it when its stdin is closed for the client's EOF, and what the client sent before it fell silent is passed on.", "quantifier": "all inputs and schedules of the loop, and all answers of the system and the connection", "why_tests_cant": "the loss needs input and a full window in the same instant; the stall needs silence after it", "anchors": ["apps/wolfsshd/wolfsshd.c:SHELL_Subsystem", "src/ssh.c:wolfSSH_stream_peek", "src/ssh.c:wolfSSH_worker", "src/ssh.c:wolfSSH_ChannelIdRead"]}
{"id": "C80", "title": "Only certificates their authority signed are accepted, and as they read", "statement": "A server accepts an OpenSSH certificate offered under a certificate algorithm's name exactly when it is a whole certificate for a key of that type, made for users, whose signature over everything before it verifies under the authority key inside it, and whose critical options are force-command and source-address at most, each once and not empty. The application is shown the certified key, the authority, the principals, the validity and the restrictions that are in it. No two certificates share what the authority signs.", "quantifier": "all byte strings a client can offer, all names, and all behaviours of the signature primitives", "why_tests_cant": "acceptance is an equivalence over all byte strings; a parser slip shows only on inputs nobody wrote down", "anchors": ["src/ossh.c:OsshCertParse", "src/ossh.c:OsshCertCheckType", "src/ossh.c:OsshCertCheckOptions", "src/ossh.c:OsshCertVerifySignature"]}
{"id": "C81", "title": "A certificate logs in only the holder of the certified key, with the application's consent", "statement": "A request with an OpenSSH certificate lets the user in only if the certificate is acceptable and of an enabled type, the application's callback was shown that certificate and accepted it, and the request, together with the session identifier, is signed by the certified key with an algorithm of that key. The callback is not asked about other certificates; a request without a signature lets nobody in.", "quantifier": "all requests, session identifiers, answers of the application's callbacks, and behaviours of the signature primitives", "why_tests_cant": "the requests that must be refused are all but a few of an unbounded set", "anchors": ["src/internal.c:DoUserAuthRequestPublicKey", "src/ossh.c:OsshCertParse"]}
{"id": "C82", "title": "A successful Get leaves the remote file's contents", "statement": "When wolfSSH_SFTP_Get, not resuming and not interrupted, returns success, the server having answered each READ with some of what is in the file from that offset on or with end of file where nothing is, the local file is byte for byte the remote file, whatever was in it before and in whatever pieces the data came.", "quantifier": "all files below 2^64 bytes, servers (sizes of the pieces they return, handles), request numbers, earlier local contents, local write behaviours, and schedules of partial sends, partial reads and notices", "why_tests_cant": "the number of READs and the ways the stream cuts requests and replies are unbounded", "anchors": ["src/wolfsftp.c:wolfSSH_SFTP_Get", "src/wolfsftp.c:wolfSSH_SFTP_SendReadPacket", "src/wolfsftp.c:wolfSSH_SFTP_Open", "src/wolfsftp.c:wolfSSH_SFTP_Close"]}
{"id": "C83", "title": "A resumed Get completes the file", "statement": "After any history of Gets of the same file to the same local file on a session, interrupted any number of times, failed or completed, a Get that resumes, is not interrupted and returns success leaves the local file equal to the remote file; and one that is interrupted leaves a beginning of it.", "quantifier": "all histories of Gets of one file to one local file, all interruption points, failures, chunkings and schedules", "why_tests_cant": "the histories are unbounded and each may be cut anywhere", "anchors": ["src/wolfsftp.c:wolfSSH_SFTP_Get", "src/wolfsftp.c:wolfSSH_SFTP_SaveOfst", "src/wolfsftp.c:wolfSSH_SFTP_GetOfst", "src/wolfsftp.c:wolfSSH_SFTP_Interrupt"]}
{"id": "C84", "title": "A successful Put leaves the local file's contents on the server", "statement": "When wolfSSH_SFTP_Put, not resuming and not interrupted, returns success, a server that truncates on open as asked and carries out the writes it confirms has exactly the local file's contents in the remote file; an interrupted Put leaves a beginning of it.", "quantifier": "all local files below 2^64 bytes, sizes of local reads, handles, earlier remote contents, answers of the server, and schedules of partial sends, partial reads, notices and failures", "why_tests_cant": "the number of WRITEs, their answers and the schedules are unbounded", "anchors": ["src/wolfsftp.c:wolfSSH_SFTP_Put", "src/wolfsftp.c:wolfSSH_SFTP_SendWritePacket", "src/wolfsftp.c:wolfSSH_SFTP_Open", "src/wolfsftp.c:wolfSSH_SFTP_Close"]}
{"id": "C85", "title": "A resumed Put completes the remote file", "statement": "When a Put was interrupted at an offset, the remote file being what it had sent, and the Put is resumed, is not interrupted and returns success, the remote file equals the local file.", "quantifier": "all local files, saved offsets, servers and schedules", "why_tests_cant": "the offset and what the server holds at it range over all files and interruption points", "anchors": ["src/wolfsftp.c:wolfSSH_SFTP_Put", "src/wolfsftp.c:wolfSSH_SFTP_GetOfst", "src/wolfsftp.c:wolfSSH_SFTP_Open"]}
{"id": "C86", "title": "The client presents only what the server offered and the application gave", "statement": "During user authentication the client asks its application for a password or a key only when the server's last failure message lists that method, and for answers only to the server's own prompts, shown as sent; every message it sends is the initial \"none\" request, a keyboard-interactive request the server listed, or carries in the form of RFC 4252/4256 what the application gave in that same step; a private key signs nothing but this user's public-key request in this session, with the first algorithm of the server's latest server-sig-algs that fits the key (never SHA-1), and at most once per connection; at most three keyboard-interactive requests are made; and no message makes it read outside the message.", "quantifier": "all histories of EXT_INFO, failure, success and prompt messages with any bytes, all answers of the application and of the crypto library, every user name and session identifier", "why_tests_cant": "the server's messages are arbitrary bytes and what may be sent depends on the whole history", "anchors": ["src/internal.c:SendUserAuthRequest", "src/internal.c:DoUserAuthFailure", "src/internal.c:DoUserAuthInfoRequest", "src/internal.c:SendUserAuthKeyboardResponse", "src/internal.c:PrepareUserAuthRequestPublicKey", "src/internal.c:BuildUserAuthRequestPublicKey", "src/internal.c:DoExtInfo"]}
{"id": "C87", "title": "A wolfSSH server accepts what a wolfSSH client presents", "statement": "When the server lists a method the client has a credential for, the client sends the request, and a server in any open state of its connection with the same session identifier, whose application accepts the credential, logs in exactly that user with exactly that password or key.", "quantifier": "all client histories, all server histories, user names, passwords, RSA, ECDSA, Ed25519 and ML-DSA keys, failure messages of up to three methods", "why_tests_cant": "client and server are each covered by unit tests only on fixed credentials and histories; agreement must hold for every pair of states", "anchors": ["src/internal.c:SendUserAuthRequest", "src/internal.c:DoUserAuthRequest", "src/internal.c:DoUserAuthRequestPassword", "src/internal.c:DoUserAuthRequestPublicKey"]}
{"id": "C88", "title": "The client's authentication messages fit their packet buffer", "statement": "Every message the client sends during user authentication, whatever the server sent and the application gave, is written inside the space reserved for its packet although some size estimates are short (by eight bytes for keyboard-interactive, five for RSA): on an encrypted connection the call fails only if the random source or the cipher fails, and otherwise queues one well-formed protected packet with that message after what was already waiting.", "quantifier": "all histories of messages from the server, answers of the application, user names, keys, signature sizes, cipher suites and states of the output queue", "why_tests_cant": "a write past the buffer shows up only for particular sizes of name, key and queue, and need not crash", "anchors": ["src/internal.c:SendUserAuthRequest", "src/internal.c:PrepareUserAuthRequestRsa", "src/internal.c:PrepareUserAuthRequestEcc", "src/internal.c:SendUserAuthKeyboardResponse", "src/internal.c:PreparePacket", "src/internal.c:BundlePacket"]}
{"id": "C89", "title": "OpenSSH private key files are read as they are written", "statement": "A private key in OpenSSH's own format is accepted exactly when it has that format's layout (magic, one key, two equal check numbers, the fields of an RSA, ECDSA or Ed25519 key, a comment, and padding that counts up when the section is a multiple of eight long) and the crypto library takes its values; the type reported and the values handed to the library are the ones in the file, no file can be read as two different keys, and no read leaves the buffer whatever the file contains. Reading the text form gives the caller exactly the bytes encoded between the markers and the name of the key's type.", "quantifier": "all files and texts, all keys of those types, all sizes of the caller's buffer, all answers of the crypto library and of the base 64 decoder", "why_tests_cant": "tests read a few files written by ssh-keygen; they cannot rule out another file that is misread, or a length field that leads outside the buffer", "anchors": ["src/ossh.c:GetOpenSshKey", "src/ossh.c:GetOpenSshKeyRsa", "src/ossh.c:GetOpenSshKeyEcc", "src/ossh.c:GetOpenSshKeyEd25519", "src/ossh.c:IdentifyOpenSshKey", "src/internal.c:WS_StripOpenSshPem", "src/ssh.c:DoOpenSshKey", "src/port.c:wstrnstr"]}
{"id": "C90", "title": "An encrypted key file is never taken for a plain one", "statement": "A private key file that says its keys are encrypted is refused, as the library has no way to ask for the pass phrase, instead of its encrypted bytes being used as a key.", "quantifier": "all files in OpenSSH's format", "why_tests_cant": "whether the encrypted bytes look like a key depends on the cipher text, which tests cannot enumerate", "anchors": ["src/ossh.c:GetOpenSshKey"]}
{"id": "C91", "title": "A directory listing is what the server sent", "statement": "A list returned by wolfSSH_SFTP_LS has exactly the entries (names, long names and attributes) of the replies the server sent to the listing's own requests, none missing and none made up, each reply's entries from last to first; the requests sent are REALPATH, OPENDIR, as many READDIR as there were replies and CLOSE, and no reply makes the client read outside of it.", "quantifier": "all directories, all numbers and sizes of replies, all entries and attributes, and everything a server could send", "why_tests_cant": "the replies come from another program, in any number and with any contents", "anchors": ["src/wolfsftp.c:wolfSSH_SFTP_LS", "src/wolfsftp.c:wolfSSH_SFTP_DoName", "src/wolfsftp.c:wolfSSH_SFTP_ReadDir", "src/wolfsftp.c:wolfSSH_SFTP_GetHandle", "src/wolfsftp.c:wolfSSH_SFTP_Close", "src/wolfsftp.c:SFTP_ParseAttributes_buffer"]}
{"id": "C92", "title": "A directory listing is never silently cut short", "statement": "wolfSSH_SFTP_LS returns a list only when the server has said that there are no more entries; when reading the directory fails half way, or the connection is lost, it returns NULL.", "quantifier": "all directories, all ways of dividing them into replies and all points at which reading can fail or the connection end", "why_tests_cant": "a failure can come after any number of replies and at any byte", "anchors": ["src/wolfsftp.c:wolfSSH_SFTP_LS", "src/wolfsftp.c:wolfSSH_SFTP_DoName"]}
{"id": "C93", "title": "Client and server agree on what is in a directory", "statement": "When wolfSSH_SFTP_LS is used against this library's server, the list it returns has every entry the server's system reports for the directory, in the system's order, each with the attributes lstat() gave for that file.", "quantifier": "all directories whose reply fits 1 MiB and whose names fit the server's buffers, all file systems, request numbers and earlier histories of the session", "why_tests_cant": "client and server are tested with a few directories, while the two must agree on the layout and the order of any number of entries with any names and attributes", "anchors": ["src/wolfsftp.c:wolfSSH_SFTP_LS", "src/wolfsftp.c:wolfSSH_SFTP_DoName", "src/wolfsftp.c:wolfSSH_SFTP_RecvReadDir", "src/wolfsftp.c:wolfSSH_SFTP_RecvOpenDir", "src/wolfsftp.c:wolfSSH_SFTP_RecvRealPath"]}
{"id": "C94", "title": "A file fetched from this server is the server's file", "statement": "When wolfSSH_SFTP_Get fetches a file from this library's server and returns success, the local file has exactly the bytes the server's system reads from that file, if that file does not change meanwhile.", "quantifier": "all files, all sizes of the pieces the server's system returns, all schedules of the client's stream, all earlier histories of the server's session", "why_tests_cant": "client and server are tested on a few files, while handle, offsets, lengths and the end of file must agree between the two for every file and every way reads come up short", "anchors": ["src/wolfsftp.c:wolfSSH_SFTP_Get", "src/wolfsftp.c:wolfSSH_SFTP_SendReadPacket", "src/wolfsftp.c:wolfSSH_SFTP_RecvRead", "src/wolfsftp.c:wolfSSH_SFTP_RecvOpen"]}
{"id": "C95", "title": "A file stored on this server is the client's file", "statement": "When wolfSSH_SFTP_Put stores a file on this library's server and returns success, the server's file has exactly the bytes of the local file.", "quantifier": "all files, all ways the server's system cuts writes short, all schedules of the client's stream, all earlier histories of the server's session", "why_tests_cant": "client and server are tested on a few files, while handle, offsets and lengths must agree between the two for every file and every sequence of short writes", "anchors": ["src/wolfsftp.c:wolfSSH_SFTP_Put", "src/wolfsftp.c:wolfSSH_SFTP_SendWritePacket", "src/wolfsftp.c:wolfSSH_SFTP_RecvWrite", "src/wolfsftp.c:wolfSSH_SFTP_RecvOpen"]}
