# A Rocq (Coq 8.16.1) model of wolfSSH and what is proved about it

The library is C. It is read as text and transcribed, function by function,
into total computable Gallina functions. No part of /repo is built or run.

## Conventions

* A byte is an `N` (values below 256 when a theorem needs it, said in the
  theorem). A `word32` is an `N`; every place where the C code can wrap is
  written with an explicit `mod 2^32` (`w32`).
* A C buffer is a `list N`. A read outside it is a distinct result (`Oob`),
  so "does not read out of bounds" is a theorem and not an artefact.
* Return codes are constructors of one enumeration (`Base.v`).
* External code (cryptography, the transport callbacks, application callbacks,
  the file system) appears as function arguments or as recorded outcomes
  (oracles), always universally quantified in the theorems.
* Loops are structural or use fuel computed from the input; fuel exhaustion is
  its own result and theorems exclude it.
* Memory allocation is assumed to succeed (except where a definition says
  otherwise). Data races are outside the model (the library is
  single-threaded per session).
* Default build configuration unless a comment says otherwise (server and
  client, SFTP, SCP, forwarding, POSIX file system).

Each subsystem has `XModel.v` (the transcription, with citations), `XSpec.v`
when the property needs its own vocabulary, `XProofs.v` (lemmas) and
`XProps.v` (the theorems, a non-vacuity example next to each, and
`Print Assumptions`).

## Plan per property

| id | model | proof idea |
|----|-------|------------|
| C01 | field readers, `internal.c` 4387-4694 | case analysis with explicit `Oob` result, `lia` |
| C02 | `c32toa`/`ato32`, string encoders + readers | round trip by computation on base-256 digits |
| C03 | `CreateMpint`, `GetMpint` | induction over the leading zeros; value of a big-endian list |
| C04 | `GetNameListRaw` | refinement to "split on comma, map, filter" |
| C05 | `MatchIdLists` | list induction against the definition "first of client in server" |
| C06 | `IsMessageAllowedServer`, accept states | invariant over all histories of a state machine |
| C07 | `IsMessageAllowedClient`, connect states | same |
| C08 | both filters | case analysis over all states and message numbers |
| C09 | `DoUserAuthRequest*` | case analysis with callback and verification oracles; invariant over histories |
| C10 | `CountUserAuthFailure` and its callers | invariant over histories |
| C11 | `DoUserAuthRequest` | invariant over histories |
| C12 | `BufferInit/GrowBuffer/ShrinkBuffer/AppendBuffer` | refinement to the abstract unread byte sequence |
| C13 | channel window functions | invariant over all interleavings |
| C14 | window credit functions | invariant with a ghost "announced to peer" counter |
| C15 | `SendChannelData`, `SendChannelExtendedData`, `DoChannelWindowAdjust` | invariant with ghost totals |
| C16 | `SendChannelData` | direct; expected to fail for one schedule (then `_refuted` + `_partial`) |
| C17 | `DoChannelWindowAdjust` | arithmetic |
| C18 | channel list functions | invariant (NoDup of ids) |
| C19 | read functions | refinement to a FIFO |
| C20 | `PreparePacket`, `BundlePacket` | arithmetic on padding |
| C21 | `BundlePacket` + `DoReceive` | round trip with abstract cipher/MAC |
| C22 | `DoReceive` | case analysis |
| C23 | `GetInputData`, `DoReceive` | simulation between schedules |
| C24 | `wolfSSH_SendPacket` | induction over the schedule |
| C25 | counters | invariant |
| C26 | `AeadIncrementExpIv` | big-endian counter value is incremented modulo 2^64 |
| C27 | `GetInputLine`, `DoProtoId` | case analysis, induction on lines |
| C28 | `SelectKexDhGexGroup`, `SendKexDhGexRequest` | arithmetic |
| C29 | `wolfSSH_RealPath` | refinement to a component-stack normaliser |
| C30 | `GetAndCleanPath` | prefix on strings iff prefix on components |
| C31 | `HighwaterCheck` | invariant over histories |
| C32 | session id assignment | invariant over histories |
| C33 | `wolfSSH_accept`, `wolfSSH_connect` | invariant over schedules |
| C34 | `DoChannelRequest` | case analysis |
| C35 | `DoPacket` | arithmetic with explicit wraps |
| C36 | `DoGlobalRequestFwd` | case analysis |
| C37 | `_ChannelRead`, `_UpdateChannelWindow` | case analysis; refuted when the window adjust blocks |
| C38 | `SendChannelEof`, data senders | invariant over the log of queued messages |
| C39 | `DoKexDhGexGroup`, `ValidateKexDhGexGroup` | case analysis with primality oracles |
| C40 | `DoKexDhReply` | invariant over handshake histories |
| C41 | keyboard-interactive handlers | invariant over histories of authentication messages |
| C42 | all authentication handlers | invariant relating callback calls to messages |
| C43 | `SendNewKeys`, `DoNewKeys`, `GenerateKeys` | invariant over handshake histories |
| C44 | exchange hash at both ends | equality and injectivity of the encodings |
| C45 | handshake record life time | invariant over handshake histories |
| C46 | `GenerateKey(s)` | induction over the blocks of the expansion |
| C47 | `DoChannelRequest` callbacks; sizes, modes and exit status kept | case analysis; refuted for malformed exec and subsystem |
| C48 | `wolfSSH_SFTP_read` and its buffers | invariant over all schedules: replies sent are those of the requests received |
| C49 | handle tables, every request handler | invariant over histories linking handles given out, entries and descriptors |
| C50 | same, with `wolfSSH_SFTP_FreeAll` | counting opens and closes over histories |
| C51 | `wolfSSH_SFTP_RecvWrite` | induction over the write loop, effect on an abstract file |
| C52 | `wolfSSH_SFTP_RecvRead` | case analysis |
| C53 | attribute reading and writing, STAT and SETSTAT families | round trip; exact call lists; refuted for size and owner |
| C54 | every request handler's reply | case analysis of the dispatcher; "always a reply" refuted |
| C55 | `wolfSSH_SFTP_RecvReadDir` | induction over the entries; refuted for long names |
| C56 | the path-taking request handlers | C29's resolution plus exact call lists and replies |
| C57 | SCP receiver and its default callback (`DoScpSink`, `wsScpRecvCallback`, command and destination parsing) | invariant over every event sequence; a spec that replays the system calls; refuted for some destinations |
| C58 | same | invariant over every event sequence: stream life cycle, content equals the bytes after the header |
| C59 | the SCP control message parsers | soundness and completeness against a grammar, no read outside the message |
| C60 | same as C57, with a sender that waits for each confirmation | induction over a file tree, for every fragmentation; fragmentation independence refuted without the waiting |
| C61 | SCP sender (`DoScpSource`, header builders) | invariant over every callback and send behaviour; what counts as a confirmation refuted |
| C63 | the default send callback over a fixed file tree | invariant relating its directory stack to the rest of the tree, for every schedule |
| C64 | the default send callback over any system | invariant over its calls: names listed, links checked; refuted for names with a backslash |
| C65 | the same, and the sender | invariant: what is open is what the context holds; refuted for a lost connection and for growing files |
| C62 | `wolfSSH_CleanPath`, `ScpCheckForRename`, `ParseScpCommand` | index loops against path components; refuted for relative destinations |
| C66 | `configuration.c` of `wolfsshd`: reading, directives, Match blocks, `GetUserConf` | refinement to a meaning of the text in lines and words, by induction over the lines; refuted for long lines and keyword prefixes |
| C67 | the same with Include | induction on the depth for circles; an Include anywhere equals its text in place, line by line, cursor included; patterns by uniqueness of ordered lists; refuted for a Match block in the included file and for a name without the star's part |
| C68 | `SearchKeysFile`, `CheckAuthKeysLine` of `wolfsshd`, with `fgets` and `strtok_r` | refinement to lines and fields; refuted for long lines and unreadable lines |
| C69 | `ResolveAuthKeysPath`, `ExpandAuthKeysTokens` | algebraic: pattern of pieces to their meanings; injectivity in the user |
| C70 | `wolfSSHD_OpenSecureFile`, every system answer free | equivalence, induction over the directories of the path |
| C71 | `OsshCertCheckPrincipal/Validity/SourceAddress` | induction over the region and the list; prefix match as division |
| C72 | `MatchUPNToUser` | equivalence with a grammar of names and realms |
| C73 | `RequestAuthentication` with `CheckPasswordUnix`, `DoCheckUser` | equivalence with a statement of who may log in; induction over the attempts of a connection; refuted for passwords with NUL |
| C74 | `RequestAuthentication` with `CheckPublicKeyUnix` | equivalence built on C68 to C72; refuted for StrictModes in Match blocks |
| C75 | `DoFakePasswordCheck`, the cache of fake hashes | crypt calls as output of the model; non-interference for salts and digests; refuted for the count of attempts |
| C76 | permission functions, `SetupChroot`, the session functions up to where they serve | POSIX credentials as state, every call may fail; invariants over the calls; refuted for the relay's groups, uid -1 and relative directories |
| C77 | `HandleConnection`'s dispatch, `SHELL_Subsystem` up to `execv` | case analysis over requests and restrictions; refuted for SFTP and SCP under ForceCommand |
| C78 | `SHELL_Subsystem`'s loop, `SHELL_FlushOut` and the reads after the loop | invariant over turns of the loop with every answer of the system and the connection an input; refuted for a stale errno, a long rest of stderr and a half-closed client |
| C79 | the receiving part of the same loop | invariant over turns; refuted for data that comes while output waits: lost at EOF, and a stall proved for every number of turns |
| C80 | reading and checking of OpenSSH user certificates (`src/ossh.c`), byte by byte | each reader is proved equivalent to a field of the layout, so acceptance is an equivalence with a grammar of certificates; injectivity of that grammar |
| C81 | the certificate branch of the public key request | case analysis of the request, on top of C80 and of the signature lemma of C09 |
| C82 | `wolfSSH_SFTP_Get` with STAT, OPEN, READ and CLOSE as a machine that sends and receives in pieces of any size (`SftpClientModel.v`) | invariant tying the bytes sent and unread to the list of requests and replies, by induction over the schedule; the requests sent determine the server's replies because the framing is injective; refuted for a length word in two pieces and for fclose |
| C83 | the table of saved offsets, and the same machine started again and again | invariant over histories: the first entry with the names is zero or the length of the local file, which is a beginning of the remote one; refuted for plain Gets in between |
| C84 | `wolfSSH_SFTP_Put` with OPEN, WRITE and CLOSE, same machine | same invariant, with the server's file as ghost state; refuted for refused WRITEs, read errors and failures |
| C85 | Put from a saved offset | the invariant of C84 generalised to any start; refuted (the file is truncated first) |
| C86 | the client's half of user authentication: EXT_INFO, FAILURE, SUCCESS and INFO_REQUEST handlers, the choice of method, all request builders; application and signing primitives as oracles | a log of what is asked, signed and sent; step lemma and invariant (user, session id, announced algorithms, key used) by induction over the history; messages described by the field grammar of the server's specification |
| C87 | the models of C86 and C09 composed; key pairs of every kind in `AuthKeysSpec` | forward evaluation of the client's step, then the acceptance theorems of C09 on the very bytes it sent |
| C88 | the models of C86 and C20 composed | estimate and message lengths compared for each kind of request by computing both; C20's packet lemma generalised to estimates short by up to a block less three bytes |
| C89 | private key files: `GetOpenSshKey` and its readers (`src/ossh.c`), the text markers (`src/internal.c`, `src/port.c`) and `DoOpenSshKey` (`src/ssh.c`), byte by byte | each reader is proved equivalent to a field of the layout, so acceptance is an equivalence with a grammar of files; the search for the marker is proved by induction to find the first one |
| C90 | the same model | refuted by a file that names a cipher; the positive part follows from C89's equivalence and the injectivity of the layout |
| C91 | `wolfSSH_SFTP_LS` with RealPath, OpenDir, GetHandle, ReadDir, Close and the reader of NAME replies on the session's stream of bytes (`SftpListModel.v`; blocking, sends taken, no allocation failure) | the reader of NAME replies is shown equivalent to the layout; induction over the batches for an honest server, over the loop for any server |
| C92 | the same model | refuted by a server that fails after two batches; the positive part by cutting an honest conversation at any byte |
| C93 | the models of C55 and C91 together | C55's completeness and EOF theorems give the server's replies, which are messages in the sense of C91; the two reversals cancel |
| C94 | the models of C52 and C82 together (`SftpGetProps.v`) | every reply of the server is a message; READ's are what C82 expects of an honest server, by C52_read, as the handle is live until CLOSE; then C82 |
| C95 | the models of C51 and C84 together (`SftpPutProps.v`), the server's file as bytes | the server's calls for a WRITE amount to one write of all its bytes at its offset, contents and length, by C51_write; so the server is one in the sense of C84 |

## Trusted base

* Coq 8.16.1's kernel (with its `vm_compute` evaluator) and the standard
  library. No axiom is used: `Print Assumptions` follows every property theorem in the
  `*Props*.v` files and answers "Closed under the global context" each time.
  A scan of the loaded libraries also lists
  `Coq.ssr.ssrunder.Under_rel.*`; these are module parameters of the standard
  library, loaded by `lia`'s preprocessing (`ZifyBool` loads `ssreflect`). No
  theorem depends on them.
* The transcription from C to Gallina, done by hand. Each definition cites the
  lines it transcribes. The tables in `NameTable.v` (algorithm names) and
  `DhTable.v` (built-in groups) are generated from the C source by
  `tools/gen_names.py` and `tools/gen_groups.py`; the generated files are
  committed.
* The statements: `*Spec.v` and the theorem statements in `*Props*.v`.

## What is modelled

| module | code |
|--------|------|
| `WireModel` | field readers and writers: `misc.c` 74-98, `internal.c` 4387-4582, 5691-5732 |
| `NegoModel`, `NameTable` | name lists, KEXINIT parsing, negotiation, algorithm list setters: `internal.c` 3578-3714, 4584-5570, 13236-13432 |
| `BufModel` | growing buffers: `internal.c` 4031-4151, 12003-12040 |
| `PacketModel` | binary packets in and out: `internal.c` 4154-4193, 4328-4384, 12109-12160, 12360-12399, 12440-12956, 13086-13233 |
| `IoModel` | flushing, version line, high water: `internal.c` 581-619, 4203-4319, 12959-13056, `port.c` 840-856 |
| `ChanModel` | channels and flow control: `internal.c` 3717-4028, 7626-7710, 10888-11340, 11909-12106, 19819-20555, `ssh.c` 1183-1345, 3514-3600, 3682-3990, 4040-4061 |
| `AuthModel` | server side of user authentication: `internal.c` 8391-8936, 9106-9288, 9652-10473, 17285-17373, 19568-19690, `ssh.c` 1726-1753, 3121-3157 |
| `HsModel` | message filters, dispatch, key exchange order, accept, connect, worker: `ssh.c` 559-1101, 1165-1180, 3390-3463, `internal.c` 544-909, 4262-4319, 5273-5678, 5881-5940, 7221-8025, 8229-8290, 12109-12957, 13324-13486, 15584-16685 |
| `KexModel`, `DhTable` | group exchange, exchange hash, key derivation: `internal.c` 622-660, 3117-3345, 5592-5672, 5894-5940, 7221-7450, 7768-8030, 13695-14525, 15584-16685 |
| `PathModel` | SFTP paths: `ssh.c` 4623-4709, `port.c` 863-888, `wolfsftp.c` 1459-1545, 1952-2029, 3754-3800, 8991-9122 |
| `ReqModel` | channel and global requests: `internal.c` 10709-10884, 11606-11836, 19742-19816, 21146-21189 |
| `SftpModel` | SFTP server: framing, dispatcher, handles and all request handlers: `wolfsftp.c` 432-1130, 1600-4230, 5685-5800, 10215-10300 |
| `ScpModel` | receiving over SCP: command, control messages, receiver, default receive callback, path cleaning: `wolfscp.c` 216-360, 885-925, 1035-1990, 2139-2178, 2381-2682, `internal.c` 21256-21410 |
| `ScpSrcModel` | sending over SCP: control messages, sender, default send callback: `wolfscp.c` 362-880, 905-911, 1887-1986, 2183-2216, 2711-3170, 3317-3560 |

The subsystems are modelled separately and joined by arguments: what one layer
asks of another (can this message be queued, what did the callback answer, is
this signature valid) is a universally quantified argument of the layer that
asks. `HsModel` uses `AuthModel` and `NegoModel` directly; `ReqModel` uses
`ChanModel` and `WireModel`.

## What is not modelled

* Cryptography: ciphers, MACs, hashes, Diffie-Hellman, signatures and
  primality tests are function arguments with at most the laws the theorem
  states (a cipher deciphers what it enciphered, a hash has a fixed length).
* Memory: allocation failure (except where a definition says so), freeing,
  scrubbing, aliasing; data races; integer types other than where wraps are
  written out.
* X.509 certificates, post-quantum hybrids beyond the layout of
  their exchange hash, of the SFTP client all but Get, Put, LS and what they use, of the client's user
  authentication certificates, TPM and the agent, the agent itself, terminal emulation, key generation, keys in PEM, DER and SSH public format and ML-DSA keys, of the
  `wolfsshd` application all but its configuration, key files, login decision, the start of sessions and the relay of their data, Windows and embedded ports.
* The file system: its calls are recorded and its answers quantified over.

## Findings

Where a property is false of the code, the theorem whose name ends in
`_refuted` proves so with a concrete run, and the property is `partial`:

* C05: a list whose first name is unknown keeps that unknown entry, unknown
  names an endpoint itself advertises can match each other, and both RSA
  certificate names share one number (`NegoProps.v`).
* C06: when the authentication success message blocks and the application
  calls the worker, further authentication requests are still processed.
* C07: a client acts on USERAUTH_INFO_RESPONSE, a message only clients send.
* C16: data is reported sent though nothing was queued, when older output
  could not be written first.
* C18: `wolfSSH_ChannelExit` closes the channel found by the peer's number,
  which can be another channel.
* C23: bytes that arrive in the same read as the version line are discarded.
* C29: `wolfSSH_RealPath` with a one-byte buffer writes the second byte.
* C30: listing the confinement directory fetches the attributes of its parent.
* C33: CHANNEL_SUCCESS before the channel open is confirmed completes
  `wolfSSH_connect`.
* C37: a read loses the bytes it took when the window adjust blocks.
* C38: an EOF whose sending blocked is forgotten, and data can follow it.
* C41: after the application declines to prompt, an answer message with no
  answers is still put to it.
* C43: a server that goes on after a failed rekey negotiation and then gets
  NEWKEYS installs keys no exchange agreed on.
* C47: a malformed exec or subsystem request runs the callback with the
  command an earlier request left on the channel, or none.

* C57: the name taken from the destination is not checked; "scp -r -t x.."
  enters "x", makes what is sent ".." and climbs out of it.
* C59: the byte after a mode, the last field of a time message and what follows
  an "E" are not looked at.
* C61: data on the error stream, or an empty data packet, while a confirmation
  is awaited counts as a confirmation (`ReceiveScpConfirmation`).
* C63: leaving a directory whose name has a backslash, `ScpPopDir` cuts the path
  at the backslash; the entries that follow are looked up in another directory.
  It also searches the bytes after the terminator, so a context that is used
  again without being cleared goes wrong in the same way.
* C64: with such a name the entries that follow are opened below a path that was
  never checked for links.
* C65: when a send fails while the last part of a file is in the buffer, the
  stream, closed and set to NULL when that part was read, is closed again
  (`DoScpSource`, 803-812). The stream of a file that grew is not closed; neither
  is one when the peer refuses the file's header.
* C66: `fgets` cuts lines at 159 bytes and the rest is parsed as a line: the
  end of a long comment can be a directive. Keywords are recognised by prefix:
  `HostKeyAlgorithms x` sets the host key file to `Algorithms`. Only the first
  word of `AuthorizedKeysFile` is used, and text after a value is ignored.
* C67: a Match block copies the global settings when it is read; with an
  Include, global directives can follow a block, and its users do not get them:
  `PasswordAuthentication no` after such an Include is not in force for them.
  Include patterns: `a*` does not include a file `a`, and `ab*ba` includes
  `aba`; a star as the first byte is not seen (`Include *.conf` reads a file of
  that name), and `/x*` looks in the current directory.
* C68: `fgets` cuts lines of authorized_keys at the buffer's size: the end of a
  long comment can be a key line. One malformed line stops the search, so that
  keys below it are refused.
* C71: a source-address list may end in a comma, and is cut at a NUL byte
  within an entry.
* C73: passwords are cut at the first NUL byte, after the check for empty
  passwords: a password of one NUL opens an account without a password
  although PermitEmptyPasswords is no.
* C74: StrictModes in a Match block has no effect; the global value decides.
* C75: three wrong passwords end the connection if the account exists, and do
  not if it does not.
* C76: the process that relays the data of a shell session gives up its ids but
  keeps the daemon's supplementary groups, and is not confined by
  ChrootDirectory. An account with uid or gid 4294967295 keeps the daemon's
  ids, as `setreuid(-1, -1)` changes nothing. A relative ChrootDirectory is
  entered and then looked up again from inside.
* C77: ForceCommand is not applied to SFTP and SCP, except for root with
  `PermitRootLogin forced-commands-only`. A login shell of 80 bytes or more is
  cut and the shortened path is executed. A NUL in a certificate's
  force-command ends it.
* C78: at the end of a program's stderr the daemon looks at `errno`, which
  read(2) does not set there; after a `select` interrupted by SIGCHLD it is
  EINTR and the loop is left, after which one read of at most 32768 bytes is
  all that is still sent of stdout (`C78_refuted`). stderr is drained by one
  read as well (`C78_stderr_refuted`). A client that sends EOF and goes on
  reading is answered by EOF, after which the program's next output ends in an
  error, SIGINT for the program and the end of the session (`C78_eof_refuted`).
* C79: data of the client that arrives while output waits for the window or
  the socket is not passed on. If EOF follows, stdin is closed and the data is
  lost (`C79_closed_refuted`); if nothing follows, the loop turns without
  waiting and reads neither it nor the program's output, until the client sends
  more (`C79_stalls`). A short write to stdin drops the rest of the buffer.
* C80: a certificate's signature may name any algorithm if the authority's key
  is Ed25519 or ECDSA, and bytes after the signature's and the authority key's
  fields are ignored, so a certificate's bytes can be changed without its
  signature breaking (`C80_strict_refuted`). The authority's ECDSA point is
  imported without naming its curve, and no size is asked of an authority's
  RSA key, while 2048 bits are of a user's.
* C82: `wolfSSH_SFTP_SendReadPacket` reads the four length bytes of a DATA
  reply with one `wolfSSH_stream_read` and takes 0 to 3 bytes for all four;
  the rest is what was on the stack. The contents of the file are then parsed
  as replies. A file can be made so that Get succeeds with wrong contents.
  A reply to READ with nothing in it counts as end of file, whatever its type
  and number. The result of `fclose` is ignored.
* C83: `wolfSSH_SFTP_SaveOfst` takes the first free entry and does not replace
  one with the same names; `wolfSSH_SFTP_GetOfst` finds the older one. Get
  interrupted at 1, plain Get interrupted at 2, resumed Get: the file is
  corrupt and the result success. Offset 0, a full table and long names are
  lost silently (the file is then fetched from the start, which is safe). An
  interrupt that comes when a Get is over stops the next one.
* C84: Put answers a refused WRITE, a local read error and lack of memory by
  closing, and then returns the result of CLOSE: success.
* C85: Put opens with FXF_TRUNC also when it resumes, so that the part sent
  before is replaced by zeros.
* SFTP client, not stated as properties: STATUS OK as the answer to OPEN gives
  a handle of 256 zeros; STAT succeeds on attributes that do not parse; CLOSE
  does not look at the number of the reply; OPEN gives up on notices that
  should be retried, and its caller then starts it again from scratch.
* C86: the list of algorithms a key may sign with comes only from EXT_INFO
  (server-sig-algs). A server that does not send it can never be given a public
  key: `PrepareUserAuthRequestPublicKey` fails with WS_MATCH_KEY_ALGO_E.
* C86: a second public-key attempt on a connection always ends it with
  WS_INVALID_ALGO_ID (`userAuthPkDone`), also when the first was refused and the
  application has another key. The partial-success flag is not looked at.
* C86: the RSA, ECDSA and Ed25519 cases of the preparation do not check that the
  private key the application gave is of the type it named; the key object is a
  union. The model takes such a key as one that does not load.
* C88: the size estimate of a keyboard-interactive request is eight bytes short
  (the two empty strings are not counted) and that of an RSA request five (the
  key type is counted where the signature algorithm's name is written). Both are
  absorbed by the two blocks PreparePacket reserves for padding, as proved; with
  the unencrypted block size of eight the first would not be.
* C90: the reader of OpenSSH private key files skips the name of the cipher and
  of the key derivation. An encrypted file is turned away only because the two
  check numbers in it differ, so with chance 1 in 2^32 its cipher text is read on.
* C89: the public key in front of an OpenSSH private key, the curve's name in an
  ECDSA key, the second copy of the point in an Ed25519 key, and the padding of a
  section whose length is not a multiple of eight are not compared with anything.
* C92: `wolfSSH_SFTP_LS` takes every reply without names for the end of the
  directory: a failure status, a reply with the wrong number, a malformed or an
  empty NAME. If CLOSE then succeeds the entries read so far are returned and
  nothing tells the caller that there were more. An empty directory and a failure
  both give NULL (`C91_empty`), and CLOSE's reply is not checked for its number.
* C93: the server sends a whole directory in one NAME reply and the client
  refuses replies of more than 1 MiB, so a directory whose listing is larger cannot
  be listed by this client from this server.
* C95: with a full disk on the server, a WRITE is answered with a failure and
  `wolfSSH_SFTP_Put` returns success (`C95_refuted`, both sides' models run on each
  other's bytes); this is C84's finding with this library's server.
* C60: a read for the sender's confirmation that returns more bytes loses them.
* C62: a relative destination "foo" is split into the directory "f" and the
  name "oo"; ':' in the last component splits there; an existing directory as
  destination ("/tmp", also "/tmp/", whose slash is cleaned away) is taken for
  a file to be made in its parent; "/" is refused.

Found on the way and outside the listed properties (each is visible in the
model at the definition named):

* A FIFO or socket in a recursive SCP download is announced as a file with the
  size of the file before it, and then the transfer is aborted
  (`process_entry`, KOther).
* SCP control messages longer than 1023 bytes are cut and lose their newline
  (`msg_file`, `msg_dir`); a short send of one is fatal (`say`). Sizes are cut to
  32 bits (`w32` in `single_file`).

* A reserve request that wraps 32 bits reports success without room
  (`GrowBuffer`, `C12_wrapped_request`).
* `wolfSSH_SendPacket` checks the transport's count against the whole length
  and not against what was shown to it; a transport that over-reports makes
  the queue skip bytes (C24 assumes it does not).
* An empty data packet is refused when the receive buffer is full (C13).
* After a transport failure the same window credit can be announced twice
  (C14).
* A client's group-exchange maximum of 2^31 or more makes every group be
  refused (`ValidateKexDhGexGroup`, a signed comparison).
* A directory entry whose path does not fit 256 bytes ends the listing
  silently (`PathModel.readdir_path`).
* A server accepts USERAUTH_REQUEST without SERVICE_REQUEST; a client accepts
  USERAUTH_SUCCESS before it sent a request (`HsModel`).
* After reaching the failure limit the failure message is still sent, and a
  worker call could process further packets (`HsModel`, `AuthModel`).
* A public-key offer (no signature) is never counted as a failure
  (`AuthModel`).
* Bytes after a public-key signature shift the region that is verified
  (`AuthModel.DoUserAuthRequestPublicKey`).
* Environment requests are parsed, cut to 31 bytes and dropped; a shell, exec
  or subsystem request ends `wolfSSH_accept`'s wait even when it was refused
  (`ReqModel.handle`).
* The success reply to tcpip-forward always carries a port; RFC 4254 has it
  only for port 0 (`ReqModel.DoGlobalRequestFwd`).
* OPEN_FAILURE removes an established channel, and a second OPEN_CONFIRMATION
  resets the peer's window (`ChanModel`).

* SFTP server: requests with an unknown handle (READDIR, FSTAT), an over-long
  path (OPEN, OPENDIR, MKDIR), a READ over 32768 bytes or a malformed body get
  no reply at all; a zero-length READ is answered with EOF; after a bad packet
  length the reader does not resynchronise; a failed allocation of an OPENDIR
  reply leaves the directory open (until the session is freed) under a handle
  the client never learns (`SftpModel`).
* SFTP server: SETSTAT and FSETSTAT answer OK for a size or an owner without
  applying it. READDIR stops for good at an entry whose path is 256 bytes or
  longer, and the entries after it are never listed (C55). A handler that fails
  without a reply while `ssh->error` holds a non-fatal code leaves the request
  in place, and it may be processed again (modelled as the end of the session).
  After a partial send of VERSION the whole message is sent again.
* SCP receiver: an empty data packet while a message is awaited counts as a
  message of the last type: right after a file it opens, and so empties, the
  file again; at the start it opens the destination's name. A confirmation
  read takes up to 1024 bytes and looks at the first, so messages sent without
  waiting are lost; stderr data, or a read interrupted by a key exchange,
  counts as a positive confirmation. A header of 1023 bytes without newline
  stalls the receiver. Times of a directory are given to the next file, and
  modes of files are not applied. Text
  after the destination's " -" is read as further options. The stream of a
  file is never closed when the connection ends in the middle of it. On a
  client, `wolfSSH_SCP_from` writes into the caller's string (`ScpModel`).

## Wrong programs

`seeded/LOG.jsonl` has one line per deliberate edit of the model, made in a
scratch copy, with the theorems that then failed to build and those that were
tightened because an edit had survived.
