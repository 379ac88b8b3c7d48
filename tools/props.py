#!/usr/bin/env python3
"""Source of /verif/properties.jsonl (one call per property)."""
import json, os
P = []
def p(id, title, statement, quantifier, why, anchors):
    P.append(dict(id=id, title=title, statement=statement, quantifier=quantifier,
                  why_tests_cant=why, anchors=anchors))

p("C01", "Wire field readers never leave the message",
  "Every SSH field reader (boolean, uint32, size, skip, mpint, string reference, copied string, name-list) given a buffer of at least len bytes touches no byte at or beyond len, whatever the index and the bytes; on success the index is moved forward to a position at most len, and the field it returns lies inside the message.",
  "all buffers, all declared lengths up to the buffer size, all starting indices and all field contents",
  "out-of-bounds reads depend on the exact combination of attacker-chosen lengths and offsets (including 32-bit extremes); finitely many inputs cannot cover them",
  ["src/internal.c:GetBoolean", "src/internal.c:GetUint32", "src/internal.c:GetSize", "src/internal.c:GetSkip", "src/internal.c:GetMpint", "src/internal.c:GetStringRef", "src/internal.c:GetString", "src/internal.c:GetNameListRaw"])
p("C02", "Wire encodings round-trip",
  "A uint32, a string or a sequence of such fields written with the library's encoders and placed anywhere inside a message is read back unchanged by the matching reader, which stops exactly at the end of the field.",
  "all field values, all surrounding bytes, all positions",
  "the law ranges over every value and every surrounding message",
  ["src/misc.c:c32toa", "src/misc.c:ato32", "src/internal.c:GetUint32", "src/internal.c:GetStringRef"])
p("C03", "mpint canonicalisation keeps the number",
  "Turning any big-endian magnitude into the SSH mpint form removes redundant leading zeros, adds one zero byte exactly when the top bit is set, denotes the same integer, is accepted by the mpint reader, and is idempotent; the mpint reader refuses every negative number.",
  "all byte strings (key-exchange secrets, public values)",
  "leading-zero cases occur with probability 2^-8 per value; tests of key exchange hit them rarely and never all lengths",
  ["src/internal.c:CreateMpint", "src/internal.c:GetMpint"])
p("C04", "Name lists are read in order, bounded, and unknown names are dropped",
  "Reading a comma-separated name-list yields the identifiers of its known names in order (plus an unknown marker if the first name is unknown), never more than the capacity given, and refuses lists beyond the size or count limits.",
  "all byte strings offered as a name-list and all capacities",
  "the parser is driven by unconstrained peer bytes of unbounded shape",
  ["src/internal.c:GetNameListRaw", "src/internal.c:GetNameList", "src/internal.c:NameToId"])
p("C05", "Algorithm negotiation picks the client's first common choice, and both peers agree",
  "The negotiated algorithm is in both offers and no earlier entry of the client's offer is in the server's; client and server computing it independently obtain the same result; negotiation fails only if the offers share nothing.",
  "all pairs of offer lists",
  "all pairs of lists of any length; downgrade bugs hide in orderings tests do not list",
  ["src/internal.c:MatchIdLists", "src/internal.c:DoKexInit"])
p("C06", "Server processes no connection-protocol message before authentication",
  "On a server, whatever sequence of packets, API calls and would-block results has happened, a channel or global-request message is acted upon only if authentication has been granted and accept has produced the success message (or has told the application that it could not); a grant is for a credential bound to this session; authentication messages are refused afterwards.",
  "all histories of received packets, accept calls and I/O outcomes",
  "an authentication bypass is one unexpected history among infinitely many",
  ["src/internal.c:IsMessageAllowedServer", "src/internal.c:DoPacket", "src/ssh.c:wolfSSH_accept"])
p("C07", "Client processes no connection-protocol message before the server accepted it",
  "On a client, channel and global-request messages are acted upon only after the server reported authentication success; messages that only a client may send are always refused.",
  "all histories of received packets, connect calls and I/O outcomes",
  "ranges over every message order a malicious server can produce",
  ["src/internal.c:IsMessageAllowedClient", "src/ssh.c:wolfSSH_connect"])
p("C08", "Key exchange messages only in the expected order",
  "While the peer is in key exchange no second KEXINIT is acted upon and, when a specific message is awaited, no other transport key-exchange message is acted upon; outside key exchange the only key-exchange message acted upon is KEXINIT.",
  "all states and all message numbers",
  "strict ordering must hold for every injected message at every point (Terrapin-like attacks)",
  ["src/internal.c:IsMessageAllowedServer", "src/internal.c:IsMessageAllowedClient", "src/internal.c:DoKexInit", "src/internal.c:DoNewKeys"])
p("C09", "A user is authenticated only if the callback accepted the credential and any key signature verified",
  "The server marks the user authenticated only in a request for which the application's authentication callback returned success and, for public-key requests, the signature verified under the offered key over the session identifier and the request; a key offer without signature never authenticates.",
  "all request messages, all callback behaviours, all histories",
  "requires reasoning about every combination of method, parse error, callback verdict and signature result",
  ["src/internal.c:DoUserAuthRequest", "src/internal.c:DoUserAuthRequestPassword", "src/internal.c:DoUserAuthRequestPublicKey", "src/internal.c:DoUserAuthRequestNone", "src/internal.c:DoUserAuthInfoResponse"])
p("C10", "Authentication failures are limited",
  "Per connection the server never answers more than the configured maximum number of counted authentication failures; reaching it disconnects.",
  "all histories of authentication requests, all limits",
  "brute-force limits must hold for every interleaving of methods",
  ["src/internal.c:CountUserAuthFailure", "src/internal.c:SendUserAuthFailureCount", "src/internal.c:DoUserAuthRequest", "src/ssh.c:wolfSSH_SetMaxAuthAttempts"])
p("C11", "The user name is fixed by the first authentication request",
  "Once a request named a user, any later request naming a different user disconnects and authenticates nobody; the authenticated user is the one named first.",
  "all histories of authentication requests",
  "user confusion needs multi-request histories",
  ["src/internal.c:DoUserAuthRequest"])
p("C12", "Buffer growth and shrinking keep unread bytes",
  "Growing, compacting, appending to or shrinking an I/O buffer preserves exactly the unread bytes in order, keeps index <= length <= capacity, and makes the requested room available; a forced shrink discards everything.",
  "all buffer states reachable by any sequence of operations and all sizes",
  "aliasing and off-by-one errors in memmove/realloc code depend on unbounded state histories",
  ["src/internal.c:GrowBuffer", "src/internal.c:ShrinkBuffer", "src/internal.c:AppendBuffer", "src/internal.c:BufferInit"])
p("C13", "Receive window accounting is exact",
  "For each channel, at every moment, bytes still allowed to the peer plus bytes stored (stdout not yet credited, stderr unread) equal the advertised window size; in-window data always fits in the buffer and out-of-window data is refused without changing the channel.",
  "all interleavings of peer data, stderr data, reads of any size, rekeys and send outcomes",
  "window leaks stall connections only after long histories; overflow needs an adversarial history",
  ["src/internal.c:ChannelPutData", "src/internal.c:DoChannelData", "src/internal.c:DoChannelExtendedData", "src/internal.c:ChannelCreditWindow", "src/internal.c:SendPendingChannelWindowAdjust", "src/ssh.c:_UpdateChannelWindow", "src/ssh.c:_ChannelReadExt"])
p("C14", "Window credit reaches the peer exactly once and never during rekey",
  "While the transport has not failed for good, no byte of credit is announced twice, so the peer's view of the window never exceeds the local one; towards a peer that keeps to its window every byte of credit is announced in exactly one window-adjust or is still owed. None is announced while key exchange is in progress, and what is owed is announced when it ends.",
  "all interleavings of reads, rekeys and send failures",
  "double or lost credit appears only under particular would-block/rekey interleavings",
  ["src/internal.c:ChannelCreditWindow", "src/internal.c:SendPendingChannelWindowAdjust", "src/internal.c:SendChannelWindowAdjust"])
p("C15", "Sent channel data respects the peer's window and packet size",
  "Channel data and stderr packets never exceed the peer's maximum packet size, their total never exceeds the window the peer granted, none is produced by a call made while a rekey is in progress, and every accepted byte is the next byte of the caller's buffer.",
  "all sequences of send calls, window adjusts and I/O outcomes",
  "flow-control violations need long histories with particular window values",
  ["src/internal.c:SendChannelData", "src/internal.c:SendChannelExtendedData", "src/internal.c:DoChannelWindowAdjust"])
p("C16", "A send that reports n bytes really queued n bytes",
  "When a channel send returns n > 0, exactly the first n bytes given were put into one data packet placed on the output queue.",
  "all states, including output already pending and blocked",
  "the failing schedule requires a would-block at one exact point",
  ["src/internal.c:SendChannelData", "src/internal.c:wolfSSH_SendPacket"])
p("C17", "Window adjust never wraps the peer window",
  "A window-adjust that would push the window past 2^32-1 is rejected and leaves it unchanged; otherwise the window grows by exactly the amount.",
  "all windows and all amounts",
  "needs exact 32-bit boundary behaviour for all pairs",
  ["src/internal.c:DoChannelWindowAdjust"])
p("C18", "Local channel numbers are unique and lookups find the right channel",
  "Whatever channels are opened and closed by either side, no two live channels share a local number, a lookup by local number finds the channel with that number and no other, and closing one channel leaves all others in place.",
  "all histories of channel opens, confirmations, failures and closes",
  "identifier reuse depends on unbounded open/close histories, including counter wrap",
  ["src/internal.c:ChannelNew", "src/internal.c:ChannelFind", "src/internal.c:ChannelAppend", "src/internal.c:ChannelRemove"])
p("C19", "Stream reads return the peer's bytes in order, without loss or duplication",
  "The concatenation of what the reads took, followed by what is still buffered, equals the concatenation of the data packets accepted on that channel, for every split of reads and packets; stream and stderr reads return exactly what they take, the next unread bytes; peeking changes nothing.",
  "all interleavings of data packets and reads of any size, with any send outcome for window adjusts",
  "reordering or loss appears only for particular read sizes against particular packet sizes and compaction points",
  ["src/ssh.c:wolfSSH_stream_read", "src/ssh.c:_ChannelRead", "src/ssh.c:_UpdateChannelWindow", "src/internal.c:ChannelPutData"])
p("C20", "Outgoing packets are well formed",
  "Every packet put on the wire has a length field equal to its content, at least four bytes of padding, at most one block more padding than needed, a total that is a multiple of the cipher block size, and it fits the space reserved for it.",
  "all payload sizes, block sizes, MAC sizes and cipher modes",
  "padding arithmetic has to hold at every residue and size",
  ["src/internal.c:PreparePacket", "src/internal.c:BundlePacket"])
p("C21", "Packets survive the transport round trip",
  "With matching keys, the receiver recovers from a sent packet exactly the payload sent, consumes exactly the bytes of that packet, and both sides' packet sequence numbers stay equal; this holds for whole streams of packets.",
  "all payload streams, both cipher modes, all keys (abstract inverse cipher and MAC functions)",
  "desynchronisation bugs depend on packet history and sizes",
  ["src/internal.c:BundlePacket", "src/internal.c:DoReceive", "src/internal.c:DoPacket"])
p("C22", "A packet is acted upon only if its MAC verified",
  "Under encryption no byte of a received packet reaches a message handler unless the integrity check over that packet and its sequence number succeeded, and any packet announcing more than the maximum size is refused before being read in full.",
  "all byte streams from the network",
  "ranges over all corrupted inputs",
  ["src/internal.c:DoReceive", "src/internal.c:VerifyMac", "src/internal.c:DecryptAead"])
p("C23", "Reception does not depend on how the network splits the stream",
  "The sequence of packets acted upon is the same however the transport fragments the byte stream and wherever it reports would-block.",
  "all byte streams and all fragmentations/would-block schedules",
  "the number of fragmentations is exponential in the stream length",
  ["src/internal.c:GetInputData", "src/internal.c:GetInputLine", "src/internal.c:DoReceive", "src/internal.c:ReceiveData"])
p("C24", "Output queue bytes are transmitted in order, exactly once",
  "Whatever partial writes and would-block results the transport reports, the bytes handed to it are exactly the queued bytes in order with no loss or duplication, and the queue is empty when sending reports success.",
  "all queue contents and all schedules of partial writes / would-block",
  "schedules are unbounded",
  ["src/internal.c:wolfSSH_SendPacket"])
p("C25", "Packet sequence numbers",
  "Each packet produced (received and consumed) increments its direction's sequence number by one modulo 2^32, and a rekey does not reset it; byte and message counters restart at a rekey.",
  "all histories of packets and rekeys",
  "wrap and reset behaviour needs unbounded histories",
  ["src/internal.c:BundlePacket", "src/internal.c:DoPacket", "src/internal.c:SendNewKeys", "src/internal.c:DoNewKeys"])
p("C26", "AES-GCM nonces do not repeat under one key",
  "Under one key the nonce changes with every packet and does not repeat within 2^64 packets; the fixed part never changes.",
  "all initial IVs, all packet counts",
  "2^64 states; carry propagation through eight bytes cannot be enumerated",
  ["src/internal.c:AeadIncrementExpIv", "src/internal.c:EncryptAead", "src/internal.c:DecryptAead"])
p("C27", "The peer's version line is bounded and validated",
  "A server accepts as version only a first line starting with the SSH-2.0 prefix; a client skips at most a fixed number of other lines; no line longer than the limit is accepted; parsing consumes exactly through the line terminator.",
  "all byte streams sent before key exchange",
  "unbounded pre-authentication input",
  ["src/internal.c:DoProtoId", "src/internal.c:GetInputLine"])
p("C28", "Group exchange only chooses safe groups",
  "The server's group is within the client's requested window and the library's limits, is the smallest acceptable one at least as large as preferred if there is one and otherwise the largest acceptable; it fails only when none fits. The client's request triple is always ordered min <= preferred <= max.",
  "all request triples (all 32-bit values)",
  "three unconstrained 32-bit numbers",
  ["src/internal.c:SelectKexDhGexGroup", "src/internal.c:SendKexDhGexRequest", "src/internal.c:DoKexDhGexRequest"])
p("C29", "Server path resolution is canonical and bounded",
  "Resolving any client path gives an absolute path without empty, '.' or '..' components, equal to the textual POSIX resolution of the request (relative requests against the default directory), always NUL-terminated within the output buffer, or an error when it does not fit.",
  "all request strings, all canonical default paths, all output sizes",
  "path traversal bugs live in unusual component sequences",
  ["src/ssh.c:wolfSSH_RealPath"])
p("C30", "SFTP confinement cannot be escaped by any path text",
  "With a confinement directory configured, every path the SFTP server hands to the file system is that directory or textually inside it, component-wise (symbolic links excluded).",
  "all request strings, all confinement directories",
  "quantifies over all traversal strings",
  ["src/wolfsftp.c:GetAndCleanPath", "src/wolfsftp.c:wolfSSH_SFTP_SetConfinePath"])
p("C31", "Rekey thresholds fire once and before exhaustion",
  "The high-water callback is invoked when the byte or message counter of a direction reaches its threshold, at most once per key epoch, and re-armed by new keys.",
  "all packet histories and thresholds",
  "thresholds are 10^9 bytes / 2^31 messages",
  ["src/internal.c:HighwaterCheck", "src/internal.c:wolfSSH_SendPacket", "src/internal.c:DoPacket"])
p("C32", "The session identifier never changes",
  "The session identifier is the exchange hash of the first key exchange and is not altered by any later one.",
  "all histories of key exchanges",
  "multi-rekey histories",
  ["src/internal.c:DoKexDhReply", "src/internal.c:KeyAgree", "src/internal.c:SendKexDhReply"])
p("C33", "accept/connect succeed only after the full handshake, for every blocking schedule",
  "A call to accept (connect) that returns success implies version exchange, key exchange, user authentication and channel setup all completed; resuming after would-block neither skips nor repeats a handshake message.",
  "all schedules of would-block results and packets across repeated calls",
  "resumption states times schedules is unbounded",
  ["src/ssh.c:wolfSSH_accept", "src/ssh.c:wolfSSH_connect"])
p("C34", "Channel requests get exactly the reply they ask for",
  "A channel request with want-reply gets exactly one success or failure addressed to the requester's channel, success exactly when the request was understood and allowed; without want-reply, and for the kinds RFC 4254 says are never answered (window-change, exit-status, exit-signal), nothing is sent.",
  "all request messages and callback verdicts",
  "ranges over all request contents",
  ["src/internal.c:DoChannelRequest", "src/internal.c:SendChannelSuccess"])
p("C35", "Packet parsing cannot read or write outside the received packet",
  "For every decrypted packet content and padding byte, splitting it into payload and padding stays inside the received bytes or is refused, with no 32-bit wrap.",
  "all packet lengths, padding lengths and buffer states",
  "adversarial length arithmetic",
  ["src/internal.c:DoPacket"])
p("C36", "Remote-forward requests bind only what the application accepted",
  "A tcpip-forward request is granted only if the application's forwarding callback accepted it; for port 0 the granted port is the one the callback returned and lies in 1..65535; replies are sent exactly when requested.",
  "all requests and all callback results",
  "all 32-bit ports and callback return values",
  ["src/internal.c:DoGlobalRequestFwd", "src/internal.c:DoGlobalRequest"])
p("C37", "A failed channel read takes no data",
  "wolfSSH_ChannelRead and wolfSSH_ChannelIdRead return the bytes they take from the channel; if they report an error, the data is still there for the next read.",
  "all channel states, read sizes and send outcomes for the window adjust that follows",
  "the loss needs the window-adjust threshold and a would-block in the same call",
  ["src/ssh.c:_ChannelRead", "src/ssh.c:_UpdateChannelWindow", "src/ssh.c:wolfSSH_ChannelIdRead", "src/ssh.c:wolfSSH_ChannelRead"])
p("C38", "No channel data follows EOF",
  "Once an EOF for a channel has been put on the output queue, no data or stderr message for that channel is put there.",
  "all sequences of sends, EOFs and I/O outcomes",
  "the failing schedule requires a would-block at the EOF itself",
  ["src/internal.c:SendChannelEof", "src/internal.c:SendChannelData"])

p("C40", "A client uses new keys only after the host proved its identity in that exchange",
  "A client puts keys in use, in either direction and at every rekeying, only if in that very key exchange the application's host key callback accepted a key and the server's signature by that key over that exchange's hash verified.",
  "all histories of packets, calls, callback answers and I/O outcomes",
  "must hold for every order of messages, rekeyings started by either side, retries after would-block",
  ["src/internal.c:DoKexDhReply", "src/internal.c:DoNewKeys", "src/internal.c:SendNewKeys", "src/internal.c:IsMessageAllowedClient"])
p("C41", "Keyboard-interactive answers are judged only after prompts",
  "The application is asked to judge keyboard-interactive responses at most as often as prompts were sent to the client; the responses come from the user whose request started the exchange and are as many as the last prompt message asked for.",
  "all histories of authentication messages and callback verdicts",
  "needs the callback to decline to set up prompts and a client that answers anyway",
  ["src/internal.c:DoUserAuthInfoResponse", "src/internal.c:DoUserAuthRequest", "src/internal.c:SendUserAuthKeyboardRequest"])
p("C42", "The authentication callback is asked exactly about what the client presented",
  "Every time the server's authentication callback is called, the user name is the connection's fixed user name and the credential (password, new password, public key blob, algorithm, responses) is the one in the message being processed.",
  "all histories of authentication messages and callback verdicts",
  "ranges over all request contents, including malformed and overlapping length fields",
  ["src/internal.c:DoUserAuthRequest", "src/internal.c:DoUserAuthRequestPassword", "src/internal.c:DoUserAuthRequestPublicKey", "src/internal.c:DoUserAuthInfoResponse"])
p("C43", "Keys in use come from the key agreement of the current exchange",
  "Each key exchange agrees on keys at most once, and the keys put in use for sending and for receiving are those of the agreement made since the peer's latest KEXINIT - never stale, never uninitialised.",
  "all histories of packets, calls and I/O outcomes, including failed negotiations",
  "the failing history needs a rekeying that fails in negotiation, and an application that goes on",
  ["src/internal.c:DoNewKeys", "src/internal.c:SendNewKeys", "src/internal.c:SendKexDhReply", "src/internal.c:DoKexInit"])
p("C45", "The handshake record is never used after it was released",
  "No sequence of packets and calls makes the library dereference the per-exchange handshake record when there is none (allocations succeeding).",
  "all histories of packets, calls and I/O outcomes",
  "the record comes and goes with every rekeying and blocked send",
  ["src/internal.c:DoPacket", "src/internal.c:SendNewKeys", "src/internal.c:SendKexDhInit", "src/internal.c:DoNewKeys"])
p("C39", "A client accepts a group-exchange group only after checking it",
  "Whatever the server sends, the client goes on with a group only if the prime lies in the size window the client asked for (and has at least 2048 bits), is odd, passed both primality tests (itself and (p-1)/2), and the generator is between 2 and p-2; otherwise nothing of the message is kept. No read leaves the message.",
  "all messages, all configured windows, all answers of the primality tests",
  "the message is chosen by the peer: lengths, leading zeros and values in every combination",
  ["src/internal.c:DoKexDhGexGroup", "src/internal.c:ValidateKexDhGexGroup"])
p("C44", "Client and server hash the same transcript, and the transcript binds the exchange",
  "For every kind of key exchange, if each end received what the other sent and both hold the same secret, both compute the exchange hash over the same bytes, which are the RFC 4253 section 8 (RFC 4419 section 3) encoding of versions, KEXINITs, host key, group, public values and secret. Conversely, if both hashed the same bytes they agree on all of these, whoever sits between them.",
  "all version strings, KEXINIT payloads, host keys, public values, secrets, group-exchange windows and tables",
  "leading zeros, set top bits and empty fields appear with small probability and only for some values",
  ["src/internal.c:DoKexInit", "src/internal.c:DoKexDhReply", "src/internal.c:SendKexDhReply", "src/internal.c:SendKexGetSigningKey", "src/internal.c:SendKexDhInit", "src/internal.c:DoKexDhInit", "src/internal.c:CreateMpint"])
p("C46", "Session keys are the RFC 4253 keys and match at both ends",
  "Each derived IV, cipher key and MAC key is the prefix of K1 || K2 || ... of RFC 4253 7.2 for its letter, for all key sizes and hash sizes, over the secret as it was encoded in the exchange hash; what one end uses to send is what the other uses to receive.",
  "all secrets, hashes, session ids, key sizes, hash functions of any digest size",
  "block boundaries, leading zeros and top bits of the secret",
  ["src/internal.c:GenerateKey", "src/internal.c:GenerateKeys", "src/internal.c:CreateMpint"])

p("C47", "The application is told of a channel request once, with the request's own contents",
  "A well-formed shell, exec, subsystem, pty-req or window-change request runs the application's callback for that type once, with the command or sizes the request carries; a malformed request runs none; the command read back from a channel is that of its last well-formed exec or subsystem request; the terminal sizes, terminal modes and exit status the session keeps are those of the well-formed pty-req, window-change or exit-status request, and no other request changes them.",
  "all request messages, channel states and callbacks",
  "ranges over all request contents and the history of earlier requests on the channel",
  ["src/internal.c:DoChannelRequest", "src/internal.c:GetStringAlloc", "src/ssh.c:wolfSSH_GetSessionCommand"])

p("C48", "The SFTP server serves the requests in the byte stream, in order, whatever the timing",
  "Whatever bytes the peer sends and however the transport splits, delays or interrupts receiving and sending, the server touches nothing outside its buffers, serves exactly the complete requests in the input, in order and one at a time, and sends exactly their replies, in order; two runs on the same input differ only in how far they are; no request is lost.",
  "all inputs, all schedules of partial reads and writes, suspensions and errors, all system answers",
  "partial reads and writes at every byte boundary cannot be enumerated",
  ["src/wolfsftp.c:wolfSSH_SFTP_read", "src/wolfsftp.c:wolfSSH_SFTP_buffer_read", "src/wolfsftp.c:wolfSSH_SFTP_buffer_send", "src/wolfsftp.c:SFTP_GetHeader"])
p("C49", "An SFTP handle means one open file or directory until it is closed",
  "Every handle the SFTP server gives out is new in the session; while it has not been closed, every request naming it works on the descriptor that was opened for it and on no other; a handle that was never given out, or was closed, reaches no file.",
  "all histories of SFTP requests, file system answers and allocation failures, up to 2^64 requests",
  "needs all interleavings of opens, closes and uses, with forged and stale handles",
  ["src/wolfsftp.c:wolfSSH_SFTP_RecvOpen", "src/wolfsftp.c:wolfSSH_SFTP_RecvOpenDir", "src/wolfsftp.c:wolfSSH_SFTP_RecvClose", "src/wolfsftp.c:SFTP_FindFileHandle", "src/wolfsftp.c:SFTP_HandleIdDecode"])
p("C50", "SFTP descriptors are bounded, never used after close and never leaked",
  "At most 64 files and 64 directories are open at once; every read, write, close or attribute call on a descriptor happens while it is open; when the session is freed everything opened has been closed exactly once.",
  "all histories of SFTP requests, file system answers and allocation failures",
  "leaks and double closes show only on failing paths in long histories",
  ["src/wolfsftp.c:SFTP_AddFileHandle", "src/wolfsftp.c:SFTP_RemoveFileHandle", "src/wolfsftp.c:wolfSSH_SFTP_RecvOpen", "src/wolfsftp.c:wolfSSH_SFTP_FreeAll", "src/wolfsftp.c:wolfSSH_SFTP_free"])
p("C51", "An SFTP WRITE changes exactly the bytes it names",
  "A WRITE at an offset changes the file behind its handle as a prefix of the data at that offset, the whole of it when OK is answered, and no other file, however the system splits the writes.",
  "all offsets below 2^64, data, handles and sequences of short or failing system writes",
  "short writes and offsets that cross 2^32 are rare",
  ["src/wolfsftp.c:wolfSSH_SFTP_RecvWrite"])
p("C52", "An SFTP READ returns exactly what the system read",
  "A READ of at most 32768 bytes asks the system once, for that many bytes at that offset of the file behind the handle, and answers with exactly those bytes, with EOF if there are none, with failure if the system failed.",
  "all offsets, lengths, handles and system answers",
  "ranges over 64-bit offsets and all system answers",
  ["src/wolfsftp.c:wolfSSH_SFTP_RecvRead"])

p("C53", "SFTP attribute requests read and change the file they name",
  "STAT, LSTAT and FSTAT ask the system once for the attributes of the file named and answer with them; SETSTAT and FSETSTAT change the mode and times of that file to the values given and answer OK only if everything asked for was set.",
  "all attribute blocks, paths, handles, configurations and system answers, after any history",
  "attribute blocks have 2^32 flag words and optional fields; applying a wrong field, or none, passes most tests",
  ["src/wolfsftp.c:SFTP_ParseAttributes_buffer", "src/wolfsftp.c:SFTP_SetFileAttributes", "src/wolfsftp.c:SFTP_SetFileAttributesHandle", "src/wolfsftp.c:wolfSSH_SFTP_RecvSTAT", "src/wolfsftp.c:wolfSSH_SFTP_RecvLSTAT", "src/wolfsftp.c:wolfSSH_SFTP_RecvFSTAT", "src/wolfsftp.c:wolfSSH_SFTP_RecvSetSTAT", "src/wolfsftp.c:wolfSSH_SFTP_RecvFSetSTAT"])
p("C54", "Every SFTP request is answered by one well-formed reply with its id",
  "A reply is a well-formed message of a kind that belongs to the request and carries the request's id; every well-formed request gets one when memory suffices; a request without reply changed nothing in the file system.",
  "all requests, histories, system answers and allocation failures",
  "a missing reply or wrong id hangs the client only on rare failing paths",
  ["src/wolfsftp.c:wolfSSH_SFTP_read", "src/wolfsftp.c:wolfSSH_SFTP_CreateStatus", "src/wolfsftp.c:SFTP_CreatePacket"])
p("C55", "An SFTP directory listing is exactly what the system reports for that directory",
  "A READDIR on a handle given out for a directory is answered with the entries the system reports for it, each once and with the attributes of the file it names; once they have been sent, further requests on that handle are answered with EOF.",
  "all directories, entry names and attributes, configurations, histories, system answers and allocation failures",
  "an entry lost, repeated or paired with another file's attributes shows only for particular directories, name lengths and histories",
  ["src/wolfsftp.c:wolfSSH_SFTP_RecvReadDir", "src/wolfsftp.c:wolfSSH_SFTPNAME_readdir", "src/wolfsftp.c:SFTP_GetAttributes"])
p("C56", "SFTP path requests act on exactly the file named and report what happened",
  "OPEN, OPENDIR, REMOVE, RMDIR, MKDIR and RENAME resolve the path against the start directory, and, if the configuration allows the result, perform the one operation asked for on it, with the flags and mode asked for, and report its outcome; a path that is not allowed is refused, and nothing is done for it.",
  "all paths, flags, attribute blocks, configurations, histories and system answers",
  "a swapped argument, wrong flag or wrong status shows only for particular paths, flags and failures",
  ["src/wolfsftp.c:wolfSSH_SFTP_RecvOpen", "src/wolfsftp.c:wolfSSH_SFTP_RecvOpenDir", "src/wolfsftp.c:wolfSSH_SFTP_RecvRemove", "src/wolfsftp.c:wolfSSH_SFTP_RecvRMDIR", "src/wolfsftp.c:wolfSSH_SFTP_RecvMKDIR", "src/wolfsftp.c:wolfSSH_SFTP_RecvRename"])

p("C57", "Receiving over SCP stays inside the destination directory",
  "Whatever the peer sends while files are received with the default callback, directories are entered, and files and directories created, only inside the directory that the destination names: through names without slash that are not '.' or '..', that were found not to be symbolic links just before, and going up only out of directories entered before.",
  "all byte streams, their splitting into reads, system answers and destinations",
  "an escape needs one particular name, nesting or failure out of unboundedly many sessions",
  ["src/wolfscp.c:DoScpSink", "src/wolfscp.c:wsScpRecvCallback", "src/wolfscp.c:GetScpFileName", "src/wolfscp.c:ParseScpCommand", "src/wolfscp.c:wolfSSH_SCP_from"])
p("C58", "A file received over SCP has exactly the bytes sent for it",
  "From the confirmation of a file header on, exactly the next announced number of bytes of the channel are written to the file opened under its name, in order; then its times are set if given and it is closed, and it is confirmed only if that worked. Streams are used only while open, and none is open when the request has ended or was aborted.",
  "all histories, sizes, splittings into reads, would-blocks and system answers",
  "lost, repeated or misplaced bytes depend on how the network splits the data",
  ["src/wolfscp.c:ReceiveScpFile", "src/wolfscp.c:DoScpSink", "src/wolfscp.c:wsScpRecvCallback"])
p("C59", "SCP control messages are read exactly as the protocol writes them",
  "The receiver never reads outside a control message. Every proper message is accepted and gives the mode, size, name and times it states; anything else is refused.",
  "all byte strings as messages",
  "numeric overflow, missing fields and odd separators cannot be enumerated",
  ["src/wolfscp.c:GetScpFileMode", "src/wolfscp.c:GetScpFileSize", "src/wolfscp.c:GetScpFileName", "src/wolfscp.c:GetScpTimestamp", "src/wolfscp.c:ScpParseUInt64", "src/wolfscp.c:ReceiveScpMessage"])
p("C60", "An SCP upload leaves exactly what was sent",
  "When a sender offers any sequence of files and directories, waiting for each confirmation as the protocol has it, and the system calls work, the receiver confirms everything and ends, and exactly the files and directories sent are there: in the same places, with the same names, contents and times, the first one under the destination's name.",
  "all file trees, contents and sizes below 2^32, all splittings into reads, all pauses",
  "nesting, sizes and splittings are unbounded, and mistakes show only where two meet",
  ["src/wolfscp.c:DoScpSink", "src/wolfscp.c:ReceiveScpMessage", "src/wolfscp.c:ReceiveScpFile", "src/wolfscp.c:ReceiveScpConfirmation", "src/wolfscp.c:SendScpConfirmation", "src/wolfscp.c:wsScpRecvCallback"])
p("C61", "Sending over SCP says exactly what the callback offers, in turn",
  "Whatever the send callback answers and however the channel behaves, the sender says in every turn exactly what the answers call for: control messages with the name, mode, size and times given, the data of each file in order and exactly once, and its end. A new turn begins only when the peer has confirmed. When the answers offer files and directories and the sender ends, everything was sent, in the form a receiver takes.",
  "all callbacks, answers, splittings into sends, pauses and failures, and all peers",
  "a byte sent twice or lost after a partial send depends on the schedule",
  ["src/wolfscp.c:DoScpSource", "src/wolfscp.c:SendScpFileHeader", "src/wolfscp.c:SendScpTimestamp", "src/wolfscp.c:SendScpEnterDirectory", "src/wolfscp.c:SendScpExitDirectory", "src/wolfscp.c:SendScpConfirmation", "src/wolfscp.c:ReceiveScpConfirmation"])
p("C62", "An SCP upload is stored at the path given",
  "'scp -t path' stores what is sent first in the parent directory of the path under its last component; it is refused just if that directory cannot be opened.",
  "all destination paths, preceding options and system answers",
  "path cleaning is a chain of index loops whose mistakes show for particular paths only",
  ["src/wolfscp.c:ParseScpCommand", "src/wolfscp.c:ScpCheckForRename", "src/wolfscp.c:ParseBasePathHelper", "src/internal.c:wolfSSH_CleanPath"])
p("C63", "Downloading over SCP sends the file tree as it is",
  "When a file, or a directory with all that is in it, is at the path asked for and does not change, what the default callback sends is the control messages and the whole contents of just the files and directories there, nested and in the order in which they are listed; when the sender is done it has sent them all.",
  "all file trees, paths, splittings of reads and sends, pauses and failures",
  "the walk keeps a stack of open directories and one path buffer; a mistake shows for particular shapes and names only",
  ["src/wolfscp.c:wsScpSendCallback", "src/wolfscp.c:ScpProcessEntry", "src/wolfscp.c:ScpPushDir", "src/wolfscp.c:ScpPopDir", "src/wolfscp.c:FindNextDirEntry", "src/wolfscp.c:DoScpSource"])
p("C64", "An SCP download touches only what is in the tree asked for, and follows no link",
  "Whatever the file system answers, the default send callback examines and opens only the path asked for and names listed in directories it has opened, each after it was found not to be a symbolic link; for a recursive download the same holds of the path asked for.",
  "all answers of the file system, also changing ones, all paths and all schedules",
  "a file outside the tree is reached only with particular names or a particular race",
  ["src/wolfscp.c:wsScpSendCallback", "src/wolfscp.c:ScpProcessEntry", "src/wolfscp.c:ScpPushDir", "src/wolfscp.c:ScpPopDir", "src/wolfscp.c:GetFileStats"])
p("C65", "An SCP download closes what it opens and survives a lost connection",
  "Whatever the file system answers and whenever the connection fails, the sender does not run into undefined behaviour, has at most one file open at a time, and when it is done every file and directory it opened is closed.",
  "all answers of the file system, all schedules and all points at which the connection fails",
  "the stream is closed early when the last part is read, so what a failure does depends on when it happens",
  ["src/wolfscp.c:DoScpSource", "src/wolfscp.c:wsScpSendCallback", "src/wolfscp.c:ScpProcessEntry", "src/wolfscp.c:ScpPopDir", "src/wolfscp.c:ScpSendCtxFreeDirs"])
p("C66", "The daemon's configuration file means what it says",
  "Once wolfsshd has loaded its configuration file, every user is governed by the text: each setting has the value of the last directive with its keyword among the global ones and those of the first Match block all of whose criteria (user, one of the groups) the user meets, or its default; a file with an unknown keyword, a wrong value or a Match criterion other than User and Group is refused, and a well-formed one is loaded.",
  "all texts, users and sets of groups",
  "a setting silently not applied, or applied to the wrong users, shows only for particular texts and users; lines are cut by a buffer and keywords compared by prefix",
  ["apps/wolfsshd/configuration.c:ConfigLoad", "apps/wolfsshd/configuration.c:ParseConfigLine", "apps/wolfsshd/configuration.c:HandleConfigOption", "apps/wolfsshd/configuration.c:HandleMatch", "apps/wolfsshd/configuration.c:wolfSSHD_ConfigCopy", "apps/wolfsshd/configuration.c:wolfSSHD_GetUserConf"])
p("C67", "Include stands for the text of the file it names",
  "An included file's directives count as if they stood there, what follows the Include outside of Match blocks is global and governs every user, a pattern stands for the files of the directory it matches, in string order, a missing file or directory is an error, and files that include one another in a circle are refused.",
  "all texts, file names, users and sets of groups; all circles of files",
  "what an Include does to the blocks around it shows only for particular combinations of files",
  ["apps/wolfsshd/configuration.c:HandleInclude", "apps/wolfsshd/configuration.c:ConfigLoad", "apps/wolfsshd/configuration.c:HandleMatch"])

p("C68", "A key is accepted exactly when authorized_keys lists it",
  "wolfsshd accepts an offered plain key exactly when some line of the user's authorized_keys file that is not a comment names a known key type followed by that key in base 64.",
  "all file contents, keys, base 64 decoders and sizes of the line buffer",
  "the file is any text; which lines shadow or fake others depends on lengths and on what stands above them",
  ["apps/wolfsshd/auth.c:SearchKeysFile", "apps/wolfsshd/auth.c:CheckAuthKeysLine"])
p("C69", "AuthorizedKeysFile names the file it spells out",
  "%u, %h and %% in AuthorizedKeysFile stand for the user, the home directory and a percent sign; a relative result is taken under the home directory, none means .ssh/authorized_keys, other escapes and results of 80 bytes or more are refused. An absolute pattern with %u never gives two users the same file.",
  "all patterns, users and home directories",
  "tests try a few patterns; that no two users share a file is about all pairs of names",
  ["apps/wolfsshd/auth.c:ResolveAuthKeysPath", "apps/wolfsshd/auth.c:ExpandAuthKeysTokens", "apps/wolfsshd/auth.c:IsAbsoluteAuthKeysPath"])
p("C70", "A trusted file that is opened could not have been written by anyone else",
  "Under StrictModes a file is opened exactly when the path is a regular file and no link, the opened file is that file, belongs to the given owner or root, is not writable (for private files: nor readable) by group or others, and every directory above it is not writable by them or is sticky, whatever other processes do between the checks.",
  "all paths, all answers of the file system to each call, in any state others leave it",
  "races between the checks and the open cannot be scheduled by a test",
  ["apps/wolfsshd/auth.c:wolfSSHD_OpenSecureFile"])
p("C71", "The restrictions of a user certificate are enforced",
  "An OpenSSH certificate is used only by a user among its principals, from its start until before its end, and, if it has a source-address list, from an address in one of the listed networks, all of which must be well formed.",
  "all principal regions, users, times, address lists, peers and address parsers",
  "the regions are attacker-chosen bytes and the lists have no bound",
  ["apps/wolfsshd/auth.c:OsshCertCheckPrincipal", "apps/wolfsshd/auth.c:OsshCertCheckValidity", "apps/wolfsshd/auth.c:OsshSourceAddrMatch", "apps/wolfsshd/auth.c:OsshPrefixMatch", "apps/wolfsshd/auth.c:OsshCertCheckSourceAddress"])
p("C72", "The name in an X.509 certificate must be the user's",
  "A certificate name user@domain lets exactly that user in, and, if realms are configured, only with a domain that is one of them up to case.",
  "all names, users and realm lists",
  "prefixes, missing domains and separators make infinitely many near misses",
  ["apps/wolfsshd/auth.c:MatchUPNToUser"])
p("C73", "A password logs in exactly the user it belongs to, and only three may be tried",
  "The daemon accepts a password exactly when the account exists, the settings that govern the user permit password logins (for root: PermitRootLogin, for an empty password: PermitEmptyPasswords), and the system's hash of the password is the stored one, which locked accounts have none of. On one connection at most three wrong passwords are checked, whoever they are for, and the third ends it.",
  "all names, passwords, settings, account data bases, crypt functions, and histories of attempts on a connection",
  "the account data base, the settings and the interleaving of attempts are unbounded; a bypass is one input among them",
  ["apps/wolfsshd/auth.c:RequestAuthentication", "apps/wolfsshd/auth.c:CheckPasswordUnix", "apps/wolfsshd/auth.c:CheckPasswordHashUnix", "apps/wolfsshd/auth.c:DoCheckUser", "apps/wolfsshd/auth.c:wolfSSHD_AuthGetUserConf"])
p("C74", "A key logs in exactly the users whose files or certificates say so",
  "The daemon accepts a public key exactly when the settings that govern the user permit it (for root: PermitRootLogin, with a forced command where one is demanded), and the key is listed in the user's key file, which under StrictModes must be trusted; or it is a certificate of a listed CA for that user, now and from this address; or an X.509 certificate that names the user, where no key file is set. A key never uses up a password attempt.",
  "all names, keys, certificates' restrictions, settings, key files, file system answers and account data bases",
  "it joins the decisions of C66 and C68 to C72, each over unbounded data",
  ["apps/wolfsshd/auth.c:RequestAuthentication", "apps/wolfsshd/auth.c:CheckPublicKeyUnix", "apps/wolfsshd/auth.c:SearchForPubKey", "apps/wolfsshd/auth.c:CAKeysFileDiffers"])
p("C75", "A refused password does not tell whether the account exists",
  "Every refused password is hashed at least once, for unknown, forbidden and locked accounts with the scheme and parameters the system's accounts use, with salts that hold nothing of the system's salts and digests; and what the peer sees of its attempts is the same for a name with and without an account.",
  "all names, passwords, settings, shadow files and account data bases",
  "a difference in cost or outcome is a relation between two runs; tests look at one",
  ["apps/wolfsshd/auth.c:DoFakePasswordCheck", "apps/wolfsshd/auth.c:GetFakeHashFromTemplate", "apps/wolfsshd/auth.c:AddShadowLineToFakeHashCache", "apps/wolfsshd/auth.c:wolfSSHD_AuthInit", "apps/wolfsshd/auth.c:RequestAuthentication"])
p("C76", "A session has its user's privileges and no others, for good",
  "Whatever serves a logged-in user (the program of a shell or exec session, SFTP, SCP) runs with all of the user's real, effective and saved ids and exactly the user's groups, confined to ChrootDirectory if one is set, whatever system calls fail on the way; a user other than root can never get other ids, groups or another root; and a connection process that goes on after a failure has not kept root.",
  "all accounts, settings, requests, start states of the daemon and outcomes of every system call",
  "a failed drop of privileges occurs only when a call fails at the wrong moment, and leaves no trace in a passing test",
  ["apps/wolfsshd/auth.c:wolfSSHD_AuthRaisePermissions", "apps/wolfsshd/auth.c:wolfSSHD_AuthReducePermissionsUser", "apps/wolfsshd/auth.c:wolfSSHD_AuthReducePermissions", "apps/wolfsshd/auth.c:wolfSSHD_AuthSetGroups", "apps/wolfsshd/wolfsshd.c:SetupChroot", "apps/wolfsshd/wolfsshd.c:SHELL_Subsystem", "apps/wolfsshd/wolfsshd.c:SFTP_Subsystem", "apps/wolfsshd/wolfsshd.c:SCP_Subsystem"])
p("C77", "A forced command is the only thing that runs",
  "With ForceCommand set nothing but that command runs for the user (internal-sftp standing for SFTP); a certificate's force-command binds likewise, unless ForceCommand replaces it; root limited to forced commands gets file transfer only if that is the command; and without a forced command exactly what the client asked for runs, through the user's login shell.",
  "all settings, certificates, session requests and accounts",
  "the ways to ask for a session multiply with the ways to restrict it; one forgotten pair is a bypass",
  ["apps/wolfsshd/wolfsshd.c:HandleConnection", "apps/wolfsshd/wolfsshd.c:GetEffectiveForcedCmd", "apps/wolfsshd/wolfsshd.c:GetCertForcedCmd", "apps/wolfsshd/wolfsshd.c:IsRootTransferBlocked", "apps/wolfsshd/wolfsshd.c:SHELL_Subsystem", "apps/wolfsshd/wolfsshd.c:UserAuthResult"])
p("C78", "A program's output reaches the client whole, in order and on its own stream",
  "What wolfsshd sends on a shell or exec session's stdout and stderr streams is at every moment a beginning of what the program wrote there, however reads, partial sends, full windows, full sockets and key exchanges interleave; and when the session ends without a failure of the connection all of it has been sent.",
  "all outputs, all schedules of the loop and all answers of the system and the connection",
  "loss and mixing depend on which send was cut short when, and on what errno an unrelated call left",
  ["apps/wolfsshd/wolfsshd.c:SHELL_Subsystem", "apps/wolfsshd/wolfsshd.c:SHELL_FlushOut", "src/internal.c:SendChannelData", "src/internal.c:DoChannelEof"])
p("C79", "A client's input reaches the program whole and in order",
  "What a session's program gets on its stdin is at every moment a beginning of what the client sent; it has got all of it when its stdin is closed for the client's EOF, and what the client sent before it fell silent is passed on.",
  "all inputs and schedules of the loop, and all answers of the system and the connection",
  "the loss needs input and a full window in the same instant; the stall needs silence after it",
  ["apps/wolfsshd/wolfsshd.c:SHELL_Subsystem", "src/ssh.c:wolfSSH_stream_peek", "src/ssh.c:wolfSSH_worker", "src/ssh.c:wolfSSH_ChannelIdRead"])

p("C80", "Only certificates their authority signed are accepted, and as they read",
  "A server accepts an OpenSSH certificate offered under a certificate algorithm's name exactly when it is a whole certificate for a key of that type, made for users, whose signature over everything before it verifies under the authority key inside it, and whose critical options are force-command and source-address at most, each once and not empty. The application is shown the certified key, the authority, the principals, the validity and the restrictions that are in it. No two certificates share what the authority signs.",
  "all byte strings a client can offer, all names, and all behaviours of the signature primitives",
  "acceptance is an equivalence over all byte strings; a parser slip shows only on inputs nobody wrote down",
  ["src/ossh.c:OsshCertParse", "src/ossh.c:OsshCertCheckType", "src/ossh.c:OsshCertCheckOptions", "src/ossh.c:OsshCertVerifySignature"])

p("C81", "A certificate logs in only the holder of the certified key, with the application's consent",
  "A request with an OpenSSH certificate lets the user in only if the certificate is acceptable and of an enabled type, the application's callback was shown that certificate and accepted it, and the request, together with the session identifier, is signed by the certified key with an algorithm of that key. The callback is not asked about other certificates; a request without a signature lets nobody in.",
  "all requests, session identifiers, answers of the application's callbacks, and behaviours of the signature primitives",
  "the requests that must be refused are all but a few of an unbounded set",
  ["src/internal.c:DoUserAuthRequestPublicKey", "src/ossh.c:OsshCertParse"])

p("C82", "A successful Get leaves the remote file's contents",
  "When wolfSSH_SFTP_Get, not resuming and not interrupted, returns success, the server having answered each READ with some of what is in the file from that offset on or with end of file where nothing is, the local file is byte for byte the remote file, whatever was in it before and in whatever pieces the data came.",
  "all files below 2^64 bytes, servers (sizes of the pieces they return, handles), request numbers, earlier local contents, local write behaviours, and schedules of partial sends, partial reads and notices",
  "the number of READs and the ways the stream cuts requests and replies are unbounded",
  ["src/wolfsftp.c:wolfSSH_SFTP_Get", "src/wolfsftp.c:wolfSSH_SFTP_SendReadPacket", "src/wolfsftp.c:wolfSSH_SFTP_Open", "src/wolfsftp.c:wolfSSH_SFTP_Close"])

p("C83", "A resumed Get completes the file",
  "After any history of Gets of the same file to the same local file on a session, interrupted any number of times, failed or completed, a Get that resumes, is not interrupted and returns success leaves the local file equal to the remote file; and one that is interrupted leaves a beginning of it.",
  "all histories of Gets of one file to one local file, all interruption points, failures, chunkings and schedules",
  "the histories are unbounded and each may be cut anywhere",
  ["src/wolfsftp.c:wolfSSH_SFTP_Get", "src/wolfsftp.c:wolfSSH_SFTP_SaveOfst", "src/wolfsftp.c:wolfSSH_SFTP_GetOfst", "src/wolfsftp.c:wolfSSH_SFTP_Interrupt"])

p("C84", "A successful Put leaves the local file's contents on the server",
  "When wolfSSH_SFTP_Put, not resuming and not interrupted, returns success, a server that truncates on open as asked and carries out the writes it confirms has exactly the local file's contents in the remote file; an interrupted Put leaves a beginning of it.",
  "all local files below 2^64 bytes, sizes of local reads, handles, earlier remote contents, answers of the server, and schedules of partial sends, partial reads, notices and failures",
  "the number of WRITEs, their answers and the schedules are unbounded",
  ["src/wolfsftp.c:wolfSSH_SFTP_Put", "src/wolfsftp.c:wolfSSH_SFTP_SendWritePacket", "src/wolfsftp.c:wolfSSH_SFTP_Open", "src/wolfsftp.c:wolfSSH_SFTP_Close"])

p("C85", "A resumed Put completes the remote file",
  "When a Put was interrupted at an offset, the remote file being what it had sent, and the Put is resumed, is not interrupted and returns success, the remote file equals the local file.",
  "all local files, saved offsets, servers and schedules",
  "the offset and what the server holds at it range over all files and interruption points",
  ["src/wolfsftp.c:wolfSSH_SFTP_Put", "src/wolfsftp.c:wolfSSH_SFTP_GetOfst", "src/wolfsftp.c:wolfSSH_SFTP_Open"])

p("C86", "The client presents only what the server offered and the application gave",
  "During user authentication the client asks its application for a password or a key only when the server's last failure message lists that method, and for answers only to the server's own prompts, shown as sent; every message it sends is the initial \"none\" request, a keyboard-interactive request the server listed, or carries in the form of RFC 4252/4256 what the application gave in that same step; a private key signs nothing but this user's public-key request in this session, with the first algorithm of the server's latest server-sig-algs that fits the key (never SHA-1), and at most once per connection; at most three keyboard-interactive requests are made; and no message makes it read outside the message.",
  "all histories of EXT_INFO, failure, success and prompt messages with any bytes, all answers of the application and of the crypto library, every user name and session identifier",
  "the server's messages are arbitrary bytes and what may be sent depends on the whole history",
  ["src/internal.c:SendUserAuthRequest", "src/internal.c:DoUserAuthFailure", "src/internal.c:DoUserAuthInfoRequest", "src/internal.c:SendUserAuthKeyboardResponse", "src/internal.c:PrepareUserAuthRequestPublicKey", "src/internal.c:BuildUserAuthRequestPublicKey", "src/internal.c:DoExtInfo"])

p("C87", "A wolfSSH server accepts what a wolfSSH client presents",
  "When the server lists a method the client has a credential for, the client sends the request, and a server in any open state of its connection with the same session identifier, whose application accepts the credential, logs in exactly that user with exactly that password or key.",
  "all client histories, all server histories, user names, passwords, RSA, ECDSA, Ed25519 and ML-DSA keys, failure messages of up to three methods",
  "client and server are each covered by unit tests only on fixed credentials and histories; agreement must hold for every pair of states",
  ["src/internal.c:SendUserAuthRequest", "src/internal.c:DoUserAuthRequest", "src/internal.c:DoUserAuthRequestPassword", "src/internal.c:DoUserAuthRequestPublicKey"])

p("C88", "The client's authentication messages fit their packet buffer",
  "Every message the client sends during user authentication, whatever the server sent and the application gave, is written inside the space reserved for its packet although some size estimates are short (by eight bytes for keyboard-interactive, five for RSA): on an encrypted connection the call fails only if the random source or the cipher fails, and otherwise queues one well-formed protected packet with that message after what was already waiting.",
  "all histories of messages from the server, answers of the application, user names, keys, signature sizes, cipher suites and states of the output queue",
  "a write past the buffer shows up only for particular sizes of name, key and queue, and need not crash",
  ["src/internal.c:SendUserAuthRequest", "src/internal.c:PrepareUserAuthRequestRsa", "src/internal.c:PrepareUserAuthRequestEcc", "src/internal.c:SendUserAuthKeyboardResponse", "src/internal.c:PreparePacket", "src/internal.c:BundlePacket"])

p("C89", "OpenSSH private key files are read as they are written",
  "A private key in OpenSSH's own format is accepted exactly when it has that format's layout (magic, one key, two equal check numbers, the fields of an RSA, ECDSA or Ed25519 key, a comment, and padding that counts up when the section is a multiple of eight long) and the crypto library takes its values; the type reported and the values handed to the library are the ones in the file, no file can be read as two different keys, and no read leaves the buffer whatever the file contains. Reading the text form gives the caller exactly the bytes encoded between the markers and the name of the key's type.",
  "all files and texts, all keys of those types, all sizes of the caller's buffer, all answers of the crypto library and of the base 64 decoder",
  "tests read a few files written by ssh-keygen; they cannot rule out another file that is misread, or a length field that leads outside the buffer",
  ["src/ossh.c:GetOpenSshKey", "src/ossh.c:GetOpenSshKeyRsa", "src/ossh.c:GetOpenSshKeyEcc", "src/ossh.c:GetOpenSshKeyEd25519", "src/ossh.c:IdentifyOpenSshKey", "src/internal.c:WS_StripOpenSshPem", "src/ssh.c:DoOpenSshKey", "src/port.c:wstrnstr"])
p("C90", "An encrypted key file is never taken for a plain one",
  "A private key file that says its keys are encrypted is refused, as the library has no way to ask for the pass phrase, instead of its encrypted bytes being used as a key.",
  "all files in OpenSSH's format",
  "whether the encrypted bytes look like a key depends on the cipher text, which tests cannot enumerate",
  ["src/ossh.c:GetOpenSshKey"])

p("C91", "A directory listing is what the server sent",
  "A list returned by wolfSSH_SFTP_LS has exactly the entries (names, long names and attributes) of the replies the server sent to the listing's own requests, none missing and none made up, each reply's entries from last to first; the requests sent are REALPATH, OPENDIR, as many READDIR as there were replies and CLOSE, and no reply makes the client read outside of it.",
  "all directories, all numbers and sizes of replies, all entries and attributes, and everything a server could send",
  "the replies come from another program, in any number and with any contents",
  ["src/wolfsftp.c:wolfSSH_SFTP_LS", "src/wolfsftp.c:wolfSSH_SFTP_DoName", "src/wolfsftp.c:wolfSSH_SFTP_ReadDir", "src/wolfsftp.c:wolfSSH_SFTP_GetHandle", "src/wolfsftp.c:wolfSSH_SFTP_Close", "src/wolfsftp.c:SFTP_ParseAttributes_buffer"])

p("C92", "A directory listing is never silently cut short",
  "wolfSSH_SFTP_LS returns a list only when the server has said that there are no more entries; when reading the directory fails half way, or the connection is lost, it returns NULL.",
  "all directories, all ways of dividing them into replies and all points at which reading can fail or the connection end",
  "a failure can come after any number of replies and at any byte",
  ["src/wolfsftp.c:wolfSSH_SFTP_LS", "src/wolfsftp.c:wolfSSH_SFTP_DoName"])

p("C93", "Client and server agree on what is in a directory",
  "When wolfSSH_SFTP_LS is used against this library's server, the list it returns has every entry the server's system reports for the directory, in the system's order, each with the attributes lstat() gave for that file.",
  "all directories whose reply fits 1 MiB and whose names fit the server's buffers, all file systems, request numbers and earlier histories of the session",
  "client and server are tested with a few directories, while the two must agree on the layout and the order of any number of entries with any names and attributes",
  ["src/wolfsftp.c:wolfSSH_SFTP_LS", "src/wolfsftp.c:wolfSSH_SFTP_DoName", "src/wolfsftp.c:wolfSSH_SFTP_RecvReadDir", "src/wolfsftp.c:wolfSSH_SFTP_RecvOpenDir", "src/wolfsftp.c:wolfSSH_SFTP_RecvRealPath"])

p("C94", "A file fetched from this server is the server's file",
  "When wolfSSH_SFTP_Get fetches a file from this library's server and returns success, the local file has exactly the bytes the server's system reads from that file, if that file does not change meanwhile.",
  "all files, all sizes of the pieces the server's system returns, all schedules of the client's stream, all earlier histories of the server's session",
  "client and server are tested on a few files, while handle, offsets, lengths and the end of file must agree between the two for every file and every way reads come up short",
  ["src/wolfsftp.c:wolfSSH_SFTP_Get", "src/wolfsftp.c:wolfSSH_SFTP_SendReadPacket", "src/wolfsftp.c:wolfSSH_SFTP_RecvRead", "src/wolfsftp.c:wolfSSH_SFTP_RecvOpen"])

p("C95", "A file stored on this server is the client's file",
  "When wolfSSH_SFTP_Put stores a file on this library's server and returns success, the server's file has exactly the bytes of the local file.",
  "all files, all ways the server's system cuts writes short, all schedules of the client's stream, all earlier histories of the server's session",
  "client and server are tested on a few files, while handle, offsets and lengths must agree between the two for every file and every sequence of short writes",
  ["src/wolfsftp.c:wolfSSH_SFTP_Put", "src/wolfsftp.c:wolfSSH_SFTP_SendWritePacket", "src/wolfsftp.c:wolfSSH_SFTP_RecvWrite", "src/wolfsftp.c:wolfSSH_SFTP_RecvOpen"])

if __name__ == "__main__":
    out = os.path.join(os.path.dirname(__file__), "..", "properties.jsonl")
    with open(out, "w") as f:
        for x in P:
            f.write(json.dumps(x) + "\n")
    print(len(P))
