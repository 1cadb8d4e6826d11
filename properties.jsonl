{"id": "C01", "title": "Request admission rule", "statement": "FuseRequest::new / CuseRequest::new accept a received buffer exactly when it holds at least the 40-byte request header, the request id in it is nonzero and the length field in it does not exceed the buffer length (capped at u32::MAX); otherwise the error is UnexpectedEof (too short), InvalidRequestId (id 0) or UnexpectedEof (length field too big), tested in that order. A user would also expect an accepted request to have a length field of at least 40; that part is examined and is false of the code (an accepted request whose length field is below 40 makes body() panic).", "quantifier": "every byte buffer of every length, both byte orders", "why_tests_cant": "the buffer contents and lengths are unbounded; tests pick a few", "anchors": ["fuse/server.rs: Request::new, Request::body, Request::as_bytes, FuseRequest::new, CuseRequest::new"]}
{"id": "C02", "title": "Decoding never reads outside the message", "statement": "For every accepted request and every typed request conversion (TryFrom<FuseRequest>/TryFrom<CuseRequest>) other than ForgetRequest, the conversion returns a value or an error, never panics, and every byte it or the accessors of the result read lies inside the message: the 40-byte header and the rest of the announced header.len bytes. In a buffer aligned to 8 bytes every reference to a struct that the conversion makes is aligned.", "quantifier": "every accepted buffer, every protocol minor version, every opcode and every typed conversion (including conversions applied to the wrong opcode)", "why_tests_cant": "out-of-bounds reads through raw pointers are silent; only adversarial length fields and truncated bodies trigger them", "anchors": ["fuse/server/decode.rs: RequestDecoder", "fuse/operations/*.rs: TryFrom impls"]}
{"id": "C03", "title": "BATCH_FORGET stays inside the message", "statement": "Decoding a BATCH_FORGET request and iterating its items reads only bytes of that message. False of the code for counts of 2^28 or more (32-bit multiplication count*16 wraps); holds for all smaller counts.", "quantifier": "every BATCH_FORGET message, all 2^32 counts", "why_tests_cant": "needs a count of at least 2^28, no unit test does this and the failure is undefined behaviour rather than a visible error", "anchors": ["fuse/operations/forget.rs: ForgetRequest::try_from, ForgetRequestItems"]}
{"id": "C04", "title": "Decoding ignores bytes after the message", "statement": "Two accepted buffers that agree on the message (the first max(40, header.len) bytes) decode to the same result, whatever bytes follow (a receive buffer is reused, so stale bytes of earlier requests follow each message).", "quantifier": "every accepted buffer, every pair of suffixes, every typed conversion", "why_tests_cant": "information leak between requests depends on buffer history", "anchors": ["fuse/server.rs: Request::as_bytes", "fuse/server/decode.rs: RequestDecoder"]}
{"id": "C05", "title": "Wrong-opcode conversions are rejected", "statement": "Applying a typed conversion to a request whose opcode is not one the type accepts returns OpcodeMismatch, whatever the rest of the message holds.", "quantifier": "every accepted buffer, every conversion, every 32-bit opcode", "why_tests_cant": "2^32 opcodes times all bodies", "anchors": ["fuse/server/decode.rs: expect_opcode", "fuse/operations/*.rs"]}
{"id": "C06", "title": "Decoded names are valid names", "statement": "Every node name obtained from a decoded request (LOOKUP, CREATE, LINK, MKDIR, MKNOD, RENAME, RENAME2, RMDIR, SYMLINK, UNLINK) is nonempty and contains neither NUL nor '/', and is exactly the bytes of the message up to the terminating NUL; xattr names and symlink targets contain no NUL.", "quantifier": "every message accepted as one of these types", "why_tests_cant": "path-traversal safety must hold for every byte string a client can send", "anchors": ["fuse/server/decode.rs: next_node_name, next_cstr"]}
{"id": "C07", "title": "Fixed-format requests decode to what was encoded", "statement": "For ACCESS, BMAP, COPY_FILE_RANGE, FALLOCATE, FLUSH, FSYNC, FSYNCDIR, GETATTR, INTERRUPT, LISTXATTR, LSEEK, OPEN, OPENDIR, POLL, READ, READDIR, READDIRPLUS, READLINK, RELEASE, RELEASEDIR, STATFS: a message built from field values according to the kernel's wire layout for the negotiated protocol version is accepted and every accessor returns the value that was encoded.", "quantifier": "all field values in the range of their C types, all protocol minor versions 0..36 (layout changes at 7.8, 7.9), both byte orders, any bytes after the fixed part", "why_tests_cant": "per-field offsets and version-dependent layouts; 64-bit domains", "anchors": ["fuse/operations/{access,bmap,copy_file_range,fallocate,flush,fsync,fsyncdir,getattr,interrupt,lseek,open,opendir,poll,read,readdir,readdirplus,readlink,release,releasedir,statfs}.rs", "fuse/internal/compat.rs"]}
{"id": "C08", "title": "Name-carrying requests decode to what was encoded", "statement": "For LOOKUP, CREATE, LINK, MKDIR, MKNOD, RENAME, RENAME2, RMDIR, UNLINK, REMOVEXATTR, GETXATTR: a message built by the wire layout from in-range fields and valid names is accepted and the accessors return those fields and names. A SYMLINK request carries the name of the link, then its target; it should be delivered as these, but the code takes the first string for the target and the second for the name: they are exchanged, and if there is a slash in the target the request is refused with a node name error. The statement is also false of the code for the mode of a CREATE request before protocol 7.12, which is dropped; everything else in that request is delivered.", "quantifier": "all names of any length, all field values, all minor versions (layout change at 7.12)", "why_tests_cant": "unbounded names, several variable-length fields in one message", "anchors": ["fuse/operations/{lookup,create,link,mkdir,mknod,rename,rmdir,symlink,unlink,removexattr,getxattr}.rs"]}
{"id": "C09", "title": "SETXATTR delivers exactly the value written", "statement": "A SETXATTR message with name n and value v decodes to name n and value v with both the short and the extended (FUSE_SETXATTR_EXT) header. False of the code for the empty name (the cursor is not advanced past the NUL, so the value is shifted by one byte); holds for every nonempty name.", "quantifier": "all names, all values, both header formats", "why_tests_cant": "data corruption on one degenerate input class, value lengths unbounded", "anchors": ["fuse/operations/setxattr.rs", "fuse/server/decode.rs: next_cstr"]}
{"id": "C10", "title": "WRITE delivers exactly the bytes written", "statement": "A WRITE message built with any data decodes (FUSE and CUSE, before and after 7.9) to exactly that data, offset, handle and flags; a message whose size field exceeds the bytes present is rejected with UnexpectedEof.", "quantifier": "all data lengths and contents, all minor versions, FUSE and CUSE", "why_tests_cant": "unbounded payloads; value() recomputes the payload position from the header rather than remembering it", "anchors": ["fuse/operations/write.rs: WriteRequest::try_from, WriteRequest::value"]}
{"id": "C11", "title": "SETATTR exposes exactly the requested changes", "statement": "Each optional attribute of a SETATTR request is reported as present exactly when its flag bit is set, with the encoded value; conversion fails with TimestampOverflow exactly when a flagged timestamp has more than 999,999,999 nanoseconds; unflagged fields never influence any reported attribute.", "quantifier": "all 2^32 flag words and all field values", "why_tests_cant": "2^32 flag combinations", "anchors": ["fuse/operations/setattr.rs"]}
{"id": "C12", "title": "IOCTL input is delivered and read in order", "statement": "An IOCTL message decodes to its command, argument, output length and input bytes; reading the input in any sequence of read sizes yields the input split in order without loss or duplication, and a read longer than what is left fails and consumes nothing. A typed read (read_array, read_transmute) after any reads is defined exactly if the cursor is aligned for the type, and then returns the bytes at the cursor; in an aligned buffer this is so if the sizes read before are multiples of the alignment (refuted otherwise).", "quantifier": "all inputs, all sequences of reads", "why_tests_cant": "all read schedules", "anchors": ["fuse/operations/ioctl.rs: IoctlRequest, IoctlInputReader", "fuse/operations/ioctl.rs: read_array, read_transmute"]}
{"id": "C13", "title": "FORGET items are exactly the encoded ones", "statement": "FORGET yields its single (node id, lookup count) item and BATCH_FORGET yields exactly the encoded items with a nonzero node id, in order, with their counts.", "quantifier": "all item lists whose size fits the message (count below 2^28)", "why_tests_cant": "unbounded lists", "anchors": ["fuse/operations/forget.rs"]}
{"id": "C14", "title": "Truncated requests are rejected", "statement": "If a message is a valid encoding of a request, then the same message cut short anywhere inside its encoded body (length field adjusted) is rejected with UnexpectedEof (never accepted with made-up data). A SYMLINK request whose target has a slash, which is refused anyway (C08), may be rejected for the slash instead.", "quantifier": "every request type, every cut position, all field values", "why_tests_cant": "all cut positions times all messages", "anchors": ["fuse/server/decode.rs: consume, next_sized, next_bytes, next_node_name, next_cstr"]}
{"id": "C15", "title": "Missing node ids are rejected", "statement": "Every FUSE request type that exposes a node id fails with MissingNodeId when that id is 0 (and the message is otherwise well formed; for SYMLINK, and the target has no slash, see C08), and every successfully decoded one exposes a nonzero node id. For CUSE requests the header's node id is irrelevant. The CUSE part is false for POLL, which insists on a nonzero node id.", "quantifier": "every message of every type", "why_tests_cant": "all messages", "anchors": ["fuse/server/decode.rs: node_id", "fuse/operations/*.rs", "fuse/operations/poll.rs"]}
{"id": "C16", "title": "Lock requests decode to the kernel's range", "statement": "GETLK/SETLK/SETLKW expose exactly the set of byte offsets the kernel's inclusive [start,end] (end = i64::MAX meaning to end of file) describes, the lock type number, owner and pid. A range with end+1 = start is rejected as empty. A reversed range (end+1 < start) is not rejected but decoded as the bytes end+1 to start-1.", "quantifier": "all 64-bit start/end pairs and all lock types", "why_tests_cant": "128-bit input space with boundary cases at i64::MAX and wraparound", "anchors": ["fuse/lock.rs", "fuse/operations/{getlk,setlk}.rs"]}
{"id": "C17", "title": "INIT request decoding per protocol version", "statement": "An INIT message decodes according to its own version: (major != 7 or minor < 6) exposes only the version; 7.6..7.35 exposes max_readahead and the low 32 flags; 7.36 and later exposes all 64 flag bits. No flag bit is invented or lost.", "quantifier": "all versions, all 64-bit flag words", "why_tests_cant": "all flags and versions", "anchors": ["fuse/operations/fuse_init.rs: FuseInitRequest", "fuse/operations/cuse_init.rs"]}
{"id": "C18", "title": "Reply framing", "statement": "Every reply handed to the socket consists of a 16-byte header whose length field equals the total number of bytes sent, whose unique field is the id of the request being replied to and whose error field is 0 for success, followed by exactly the payload bytes of the reply object, in order.", "quantifier": "every payload and every split of it into up to four chunks, all request ids", "why_tests_cant": "unbounded payloads", "anchors": ["fuse/server.rs: ReplySender::send_0..send_4, FuseReplySender, CuseReplySender", "fuse/io.rs: SendBuf"]}
{"id": "C19", "title": "Oversized replies are refused, not truncated", "statement": "If header plus payload exceed u32::MAX bytes the sender returns ReplyTooBig with the true total (saturating) and sends nothing; otherwise it makes exactly one send call.", "quantifier": "all payload length combinations including sums that overflow", "why_tests_cant": "needs payloads above 4 GiB", "anchors": ["fuse/server.rs: ReplySender::send_1..send_4"]}
{"id": "C20", "title": "Error replies carry a negative errno", "statement": "Replying with an error sends exactly 16 bytes with the error value as given; errors made from OS errno values are always in -65535..-1, equal to minus the errno (Linux: any u16 errno; FreeBSD: clamped).", "quantifier": "all errno values", "why_tests_cant": "sign and range errors on rare errno values", "anchors": ["fuse/server.rs: err", "fuse/os/linux.rs: fuse_error", "fuse/os/freebsd.rs: fuse_error"]}
{"id": "C21", "title": "Version-dependent reply layouts", "statement": "Replies carrying attributes, directory entries, filesystem statistics and INIT results have the byte length the client's protocol version expects (attr 96/104 and entry 120/128 before/after 7.9, statfs 48/80 before/after 7.4, INIT 8/24/64 at 7.5 and 7.23) and are a prefix of the current layout.", "quantifier": "all minor versions and all reply values", "why_tests_cant": "versions times values", "anchors": ["fuse/kernel_traits.rs", "fuse/operations/create.rs: CreateResponse"]}
{"id": "C22", "title": "Attribute and entry replies carry the values set", "statement": "The bytes of an attribute/entry reply, read according to the kernel's struct layout, give back the node id, size, times, mode, owner, timeouts and generation the server set.", "quantifier": "all attribute values, all durations", "why_tests_cant": "many fields with 64-bit domains", "anchors": ["fuse/entry.rs", "fuse/node_attr.rs", "fuse/internal/timestamp.rs", "fuse/unix_time.rs", "fuse/file_mode.rs"]}
{"id": "C23", "title": "Directory listing buffer round trip (READDIR)", "statement": "Whatever sequence of entries is pushed into a ReaddirEntriesWriter over an 8-byte aligned buffer, iterating the resulting listing yields exactly the entries whose push succeeded, in order, with the same node id, offset, type and name; each record starts at a multiple of 8 and the total never exceeds the buffer nor 65535 bytes; a failed push changes nothing. The safe API also accepts buffers that are not aligned; for these writing is undefined behaviour (examined, refuted by a witness).", "quantifier": "all 8-byte aligned buffers of any length and content, all push sequences, all name lengths", "why_tests_cant": "unbounded sequences; unsafe pointer writes", "anchors": ["fuse/operations/readdir.rs", "fuse/internal/dirent.rs"]}
{"id": "C24", "title": "Directory listing buffer round trip (READDIRPLUS)", "statement": "Same as for READDIR for ReaddirplusEntriesWriter, including the attributes of each entry. The entry's advertised type should be the DT_* code of its mode; the code stores the unshifted mode bits (examined, false).", "quantifier": "all 8-byte aligned buffers, all push sequences", "why_tests_cant": "unbounded sequences; unsafe pointer writes", "anchors": ["fuse/operations/readdirplus.rs", "fuse/internal/dirent.rs"]}
{"id": "C25", "title": "Extended attribute name list round trip", "statement": "Whatever names are pushed into a ListxattrNamesWriter, the resulting list contains exactly the names whose push succeeded, in order; it never exceeds the buffer nor XATTR_LIST_MAX; a failed push changes nothing and happens exactly when the name does not fit.", "quantifier": "all buffers, all push sequences of all names", "why_tests_cant": "unbounded sequences", "anchors": ["fuse/operations/listxattr.rs"]}
{"id": "C26", "title": "IOCTL replies and retries", "statement": "An ioctl reply carries the result code and output bytes; a retry reply carries the RETRY flag and exactly the input and output slices in order with their counts; IoctlRetry/IoctlRetryBuf never hold more than 256 slices in total, refuse exactly when the limit would be exceeded and keep their contents unchanged on refusal.", "quantifier": "all slice lists and add sequences", "why_tests_cant": "unbounded add sequences", "anchors": ["fuse/operations/ioctl.rs: IoctlResponse, IoctlRetry, IoctlRetryBuf"]}
{"id": "C27", "title": "SendBuf preserves content", "statement": "The chunks a socket sees from a SendBuf, concatenated, are the bytes given to it, its len() is the total length, at most 5 chunks, and mapping the chunks into caller storage maps exactly each chunk in order.", "quantifier": "all chunk contents, all arities 1..5, all storage sizes", "why_tests_cant": "unbounded contents", "anchors": ["fuse/io.rs: SendBuf"]}
{"id": "C28", "title": "Notification framing", "statement": "A notification sent to the kernel has unique 0, the notify code in the error field, and the length field equal to the number of bytes sent; names are NUL-terminated and namelen excludes the NUL; optional offset/size map to the kernel's conventions (none -> -1 / 0, too large -> i64::MAX). The length claim is false for names that make the message exceed u32::MAX (unchecked cast).", "quantifier": "all notifications, all name lengths", "why_tests_cant": "names above 4 GiB; all field values", "anchors": ["fuse/notify.rs"]}
{"id": "C29", "title": "Version negotiation", "statement": "For a client version (major, minor) the server answers with major 7 and minor min(minor, 36) if major is 7, and otherwise with the latest version it knows and no session; the negotiated minor never exceeds either side's.", "quantifier": "all pairs of 32-bit versions", "why_tests_cant": "2^64 version pairs", "anchors": ["fuse/server.rs: negotiate_version, fuse_handshake, cuse_handshake"]}
{"id": "C30", "title": "Handshake terminates with the first acceptable INIT", "statement": "For every sequence of messages the client may send during connect: each INIT with a foreign major gets exactly one reply with the server's latest version and the handshake continues; the first INIT with major 7 gets exactly one reply, the init callback is called exactly once and on that request only, and connect returns a connection with the negotiated layout; any receive, decode or send error ends connect with that error. All replies echo the request id they answer.", "quantifier": "all client message sequences (any length), all callback behaviours", "why_tests_cant": "unbounded histories", "anchors": ["fuse/server.rs: FuseConnection::connect, CuseConnection::connect"]}
{"id": "C31", "title": "Feature flags are never granted unasked", "statement": "The flags a FuseServer/CuseServer builder returns in the INIT reply are exactly the intersection of those the client offered and those the server was configured with (plus big-writes when a large max_write is configured); all 64 bits survive the two-word encoding.", "quantifier": "all 64-bit flag pairs", "why_tests_cant": "2^128 combinations", "anchors": ["fuse/server.rs: FuseServer, CuseServer", "fuse/operations/fuse_init.rs: FuseInitResponse::set_flags"]}
{"id": "C32", "title": "Receive buffer is large enough", "statement": "After a handshake recv_buf_len is at least 8192 and, on targets whose usize can hold max_write plus 4096 (all 64-bit ones), at least max_write plus 4096, so every WRITE request of up to max_write bytes (80 header bytes plus data) fits, and computing it never overflows. On 32-bit targets the computation saturates and the largest max_write values are not covered (refuted by a witness).", "quantifier": "all 32-bit max_write values", "why_tests_cant": "boundary near usize/u32 overflow", "anchors": ["fuse/server.rs: recv_buf_len"]}
{"id": "C33", "title": "Dispatch is total and routes by opcode", "statement": "FuseHandlers::dispatch and CuseHandlers::dispatch call exactly one handler for every request: the one documented for its opcode, or unimplemented() for all other opcodes (INIT included).", "quantifier": "all 2^32 opcodes", "why_tests_cant": "all opcodes", "anchors": ["fuse/server.rs: FuseHandlers::dispatch, CuseHandlers::dispatch"]}
{"id": "C34", "title": "Default handlers", "statement": "A server that only implements unimplemented() by replying ENOSYS sends exactly one reply to every request except FORGET, BATCH_FORGET and INTERRUPT, to which it sends none.", "quantifier": "all opcodes, all request histories", "why_tests_cant": "all histories", "anchors": ["fuse/server.rs: FuseHandlers, CuseHandlers defaults"]}
{"id": "C35", "title": "Serve loop processes every message once, in order", "statement": "fuse_serve_local dispatches each received message exactly once in arrival order and stops only when the connection is closed (Ok) or at the first receive or request error, which it returns; later messages are not consumed. cuse_serve_local never returns Ok.", "quantifier": "all receive histories", "why_tests_cant": "unbounded histories", "anchors": ["fuse/server.rs: fuse_serve_local, cuse_serve_local"]}
{"id": "C36", "title": "Session layout follows the INIT reply", "statement": "The layout used to decode requests and format replies after the handshake has the negotiated minor version and uses the extended SETXATTR format exactly when the INIT reply granted FUSE_SETXATTR_EXT (the reply carries flags from protocol 7.5 on; before that a callback granting the flag changes the layout although the client is not told, refuted by a witness); FuseLayout::new/CuseLayout::new reject foreign majors and minors above 36.", "quantifier": "all INIT replies", "why_tests_cant": "all flag words", "anchors": ["fuse/server.rs: FuseLayout, CuseLayout"]}
{"id": "C37", "title": "Cache timeouts round trip with saturation", "statement": "Setting a cache timeout and reading it back gives the same duration whenever its seconds fit in i64; longer durations saturate to i64::MAX seconds and 0 nanoseconds; nanoseconds sent to the kernel are always below 10^9.", "quantifier": "all durations", "why_tests_cant": "64-bit seconds", "anchors": ["fuse/internal/timestamp.rs", "fuse/entry.rs", "fuse-vfs/fuse-vfs.rs: split_duration"]}
{"id": "C38", "title": "Timestamps are normalised", "statement": "UnixTime values always have nanoseconds below 10^9, constructors return None exactly for larger values, and attribute timestamps read back as set including times before 1970; order on UnixTime is chronological.", "quantifier": "all i64 seconds and u32 nanoseconds", "why_tests_cant": "negative seconds and boundaries", "anchors": ["fuse/unix_time.rs", "fuse/node_attr.rs"]}
{"id": "C39", "title": "File modes and types", "statement": "FileType::from_mode inverts the type bits of a mode: Some(t) exactly when the type bits of the mode are those of t; permissions() and type bits partition the low 16 bits apart from the setuid/setgid/sticky bits.", "quantifier": "all 32-bit modes", "why_tests_cant": "2^32 modes", "anchors": ["fuse/file_mode.rs"]}
{"id": "C40", "title": "Node names and device names from bytes", "statement": "NodeName::from_bytes accepts exactly nonempty byte strings without NUL and '/', and reports Empty, or the kind of the first offending byte; CuseDeviceName accepts exactly nonempty strings without NUL; NodeId::new accepts exactly nonzero values.", "quantifier": "all byte strings", "why_tests_cant": "unbounded strings", "anchors": ["fuse/node_name.rs", "fuse/cuse.rs", "fuse/node_id.rs"]}
{"id": "C41", "title": "Mount data string", "statement": "mount_data returns None exactly when the option text plus NUL does not fit the buffer; otherwise the result is one NUL-terminated comma-separated list in which each configured option occurs exactly once with its value, in the fixed order, nothing else, and no subtype can inject an extra option.", "quantifier": "all option settings, all subtype strings, all buffer sizes", "why_tests_cant": "all combinations and sizes", "anchors": ["fuse/os/linux.rs: mount_data, write_mount_data, BufWriter, FuseSubtype"]}
{"id": "C42", "title": "Socket receive retries only transient errors", "statement": "For every sequence of results of read(2), recv returns the first success, or the first error that is neither EINTR nor ENOENT, mapping ENODEV to ConnectionClosed for sockets where that means clean shutdown; no message is dropped.", "quantifier": "all kernel result histories", "why_tests_cant": "unbounded histories", "anchors": ["fuse-libc/io/socket.rs: Socket::recv, check_recv_err", "fuse-linux/socket.rs"]}
{"id": "C43", "title": "Socket send is all or nothing", "statement": "For every sequence of results of writev(2), send retries exactly on EINTR, returns Ok only if one writev accepted the whole message, maps ENOENT to NotFound, any other error to Other, and a short write to Other(EIO).", "quantifier": "all kernel result histories, all messages", "why_tests_cant": "unbounded histories", "anchors": ["fuse-libc/io/socket.rs: Socket::send, check_send_err", "fuse-linux/socket.rs"]}
{"id": "C44", "title": "Mount helper does not leak and completes options", "statement": "mount() passes a mount string containing fd, rootmode, user_id and group_id (explicit values win over detected ones); on every failure path after the device was opened the descriptor is closed exactly once, and on success it is left open and owned by the returned socket.", "quantifier": "all option settings and all system call outcomes", "why_tests_cant": "failure paths of system calls", "anchors": ["fuse-libc/os/linux.rs: mount", "fuse-linux/fuse-linux.rs: mount"]}
{"id": "C45", "title": "VFS lookup counts follow the protocol", "statement": "In fuse_vfs::Filesystem a node stays resolvable as long as the client holds more lookups than it has forgotten, and the root is always resolvable. False of the code in two ways: a FORGET of n lookups only subtracts one, and a FORGET of the root removes it. What holds: a node is resolvable exactly while (successful lookups) - (forget items naming it) counted since last absent is positive.", "quantifier": "all histories of lookups and forgets", "why_tests_cant": "unbounded histories", "anchors": ["fuse-vfs/fuse-vfs.rs: NodeMap"]}
{"id": "C46", "title": "VFS handles are unique and live until released", "statement": "Handles returned by open/opendir are nonzero and distinct among all handles ever returned (fewer than 2^64 opens); a file handle resolves to what was opened until a successful release of it and never afterwards; directory handles likewise and the two kinds never alias.", "quantifier": "all histories of open/opendir/release/releasedir", "why_tests_cant": "unbounded histories", "anchors": ["fuse-vfs/fuse-vfs.rs: HandlesMap"]}
{"id": "C47", "title": "VFS answers every well-formed request exactly once", "statement": "Filesystem::dispatch sends exactly one reply, carrying the request's id, for every well-formed supported request other than FORGET/BATCH_FORGET (which get none), provided the reply size is within limits; a malformed request produces an error return and no reply; unsupported opcodes return None and no reply.", "quantifier": "all requests, all user node behaviours, all filesystem states", "why_tests_cant": "all behaviours of user code", "anchors": ["fuse-vfs/fuse-vfs.rs: Filesystem::dispatch and handlers"]}
{"id": "C48", "title": "Static directory pagination is complete", "statement": "Reading a StaticDirectoryHandle by repeated readdir (or readdirplus) calls, each starting at the offset of the last entry received, until an empty page, yields every entry exactly once, in order, provided each page size fits the next entry and the page buffer is 8-byte aligned. Without these two provisos it is false: a page too small for the next entry looks like the end, and writing to an unaligned page is undefined behaviour (both refuted by witnesses).", "quantifier": "all entry lists, all page size sequences", "why_tests_cant": "unbounded lists and page sizes", "anchors": ["fuse-vfs/fuse-vfs.rs: StaticDirectoryHandle"]}
{"id": "C49", "title": "VFS lookup is visible before its reply", "statement": "Once a client has received a successful LOOKUP reply for a node, requests on that node resolve, in every interleaving of server threads. False of the code: the node is registered only after the reply is sent. Holds for a single-threaded server.", "quantifier": "all interleavings of server threads", "why_tests_cant": "needs a specific schedule between send and map insertion", "anchors": ["fuse-vfs/fuse-vfs.rs: Filesystem::lookup, NodeMap::add"]}
{"id": "C50", "title": "Threaded serve loop keeps serving after bad requests", "statement": "serve_fuse/serve_cuse worker threads keep serving after any number of non-fatal request errors until a fatal error or connection close. False of the code: errors go to a bounded channel whose receiver is only returned after all workers exit, so a worker that meets more errors than fit blocks for ever; at most two malformed messages per thread are ever received, the functions never return once more errors were made than there are threads, and serve_cuse, whose workers each end with an error, never returns after a single malformed message. Holds as long as the number of errors does not exceed the number of threads: then every worker can always go on, and after the connection is closed serve_fuse returns within a bounded number of steps.", "quantifier": "all schedules of workers, all message histories", "why_tests_cant": "deadlock only after more bad requests than threads; schedule dependent", "anchors": ["fuse-std/fuse-std.rs: serve_fuse, serve_cuse, is_fatal_error"]}
{"id": "C51", "title": "Threaded serve loop handles each message once", "statement": "In every interleaving of workers each message received from the socket is dispatched by exactly one worker exactly once (or reported as one error), and serve_fuse returns only after every worker has stopped.", "quantifier": "all schedules, all histories, all thread counts", "why_tests_cant": "all interleavings", "anchors": ["fuse-std/fuse-std.rs: serve_fuse, serve_cuse", "fuse/server.rs: fuse_serve_local"]}
{"id": "C52", "title": "Attributes read back as set", "statement": "After any sequence of setter calls on a NodeAttr, every getter returns the value passed to the last call of its setter, or zero/false if there was none, and node_id() returns the id given to new(); setters never change other attributes.", "quantifier": "all sequences of setter calls", "why_tests_cant": "all interleavings of 13 setters, flag bits sharing one word", "anchors": ["fuse/node_attr.rs", "fuse/internal/bitflags.rs"]}
{"id": "C53", "title": "FreeBSD mount passes well-formed name/value pairs", "statement": "On FreeBSD mount() never indexes outside its fixed array of 12 vectors; nmount receives an even number of NUL-terminated strings that read as fstype=fusefs, from=/dev/fuse, fspath=the target, fd=the opened descriptor in decimal, and default_permissions and the subtype exactly when configured; the descriptor is closed exactly when nmount fails, and otherwise owned by the returned socket.", "quantifier": "all targets, options, flags and system call outcomes", "why_tests_cant": "needs a FreeBSD host and failing system calls; all descriptor values", "anchors": ["fuse-libc/os/freebsd.rs: mount, fmt_raw_fd", "fuse/os/freebsd.rs: MountOptions, FuseSubtype"]}
{"id": "C54", "title": "VFS replies say what user code returned", "statement": "Every request a fuse-vfs handler answers by calling user code is answered with exactly what that code returned for the addressed node or handle (attributes, entry, timeouts, handle flags, data, byte count, statistics, or its error code); a node id or handle that is not in the tables is answered INVALID_ARGUMENT, a node that is no directory NOT_DIRECTORY, a node or handle without the needed trait NOT_SUPPORTED, each without calling further user code; the tables change only as the request says: LOOKUP counts one lookup, OPEN/OPENDIR add the fresh handle the reply carries, RELEASE/RELEASEDIR drop it. The default listxattr answers a size query with an empty reply instead of the 8-byte size struct the client expects (refuted part).", "quantifier": "all requests, states, user code and protocol versions", "why_tests_cant": "arbitrary user code and states", "anchors": ["fuse-vfs/fuse-vfs.rs: FuseHandlers for VFS, Node, Directory, File, Symlink, handle traits"]}
{"id": "C55", "title": "Receive buffers are aligned, long enough and freed as allocated", "statement": "AlignedBuf::with_capacity(n) yields a slice of exactly max(n, FUSE_MIN_READ_BUFFER) bytes, aligned to 8 bytes, that lies inside the allocated memory, and drop frees it with the layout it was allocated with; it panics exactly when that size is not a valid allocation size or the allocator fails. serve_fuse/serve_cuse allocate one such buffer of at least conn.recv_buf_len() bytes per thread before the first thread is spawned.", "quantifier": "all capacities, thread counts and allocators that honour the layout", "why_tests_cant": "all sizes including ones that overflow isize", "anchors": ["fuse-std/fuse-std.rs: AlignedBuf, serve_fuse, serve_cuse"]}
{"id": "C56", "title": "The hello-world file system answers what its tree says, from handshake to reply", "statement": "examples/helloworld: after a handshake with any 7.x client the session uses the smaller minor version and 8192-byte receive buffers. From then on, in every interleaving of the worker threads, each well-formed request that fits the buffer is answered by exactly one reply carrying its own unique id and saying what the tree (root directory 1, hello.txt = node 100 with 14 bytes) has to say: attributes, entry, handle 1001/1002, contents, listing, ENOENT, EINVAL or ENOSYS; FORGET, BATCH_FORGET and INTERRUPT get no reply. Any accepted request leads to at most one reply, to itself; a request of a type the file system decodes that is malformed makes the handler panic without a reply. Not guaranteed (each refuted by a witness): that a READ returns at most the bytes asked for, that a READDIR with fewer than 40 bytes is answered (it panics), and that READDIR is defined when the Vec<u8> buffer is not 8-byte aligned.", "quantifier": "all 7.x clients, all protocol minors, all client operations with all field values, trailing bytes and buffer contents, all interleavings of any number of threads", "why_tests_cant": "all field values, versions and interleavings; malformed requests cannot be sent through a kernel", "anchors": ["examples/helloworld/helloworld.rs", "fuse-std/fuse-std.rs: serve_fuse", "fuse/server.rs: FuseServer::connect, FuseHandlers"]}
{"id": "C57", "title": "The request header reports what the client put there", "statement": "Every message of a client - any opcode, known or not, any body - whose length field is its size and whose unique id is nonzero is accepted, and RequestHeader reports its unique id, length, opcode, node id (None for 0), user id, group id and process id (None for 0) exactly as sent; body() is exactly the bytes after the header, without what follows the message in the buffer. Whatever the bytes of an accepted message, every accessor is defined and the ids it shows are nonzero, except request_len, which is undefined for a length field of 0.", "quantifier": "all headers, opcodes, bodies, trailing bytes, both byte orders", "why_tests_cant": "all values of seven header fields; undefined behaviour does not show up as a test failure", "anchors": ["fuse/fuse.rs:178-266", "fuse/server.rs:348-401"]}
{"id": "C58", "title": "Debug output of a request is one line, complete and cannot be spoofed", "statement": "Printing a decoded request with {:?} gives its type name and its fields under their names on one line of printable ASCII; {:#?} gives the same with one field per line, and no byte of a name, path or value adds a newline or a control character. The text is faithful: two decoded requests that print the same - by {:?} or by {:#?} - are of the same type and every accessor returns the same. A printed string ends at its first unescaped quote and what precedes stands for exactly its bytes. A FuseRequest or CuseRequest that was accepted but not decoded prints its header fields and its body, and two of them that print the same agree in both, provided the length field covers the header; for 1 to 39 printing panics and for 0 it is undefined behaviour.", "quantifier": "all messages, request types, protocol versions, lock constants of the supported targets, both byte orders", "why_tests_cant": "the tests print a few requests with zero values; that no byte string forges or hides a field needs all strings", "anchors": ["fuse/internal/debug.rs:17-69", "fuse/server.rs:458-465", "fuse/server.rs:515-522", "fuse/fuse.rs:254-266", "fuse/operations/setattr.rs:151-168"]}
{"id": "C59", "title": "Flag sets are sets of bits", "statement": "In each flag set type every named flag is a single bit of the word, two names of a type never share a bit, and the name printed for a bit is the name of its flag. get reports whether the bit is set; set and set_to change that bit and no other, unknown bits included; union and intersection work bit by bit. Iterating over a set for printing yields exactly its bits in increasing order, each once, and nothing is lost: the union of what is listed is the set.", "quantifier": "all flag types, all flags, all words", "why_tests_cant": "2^32 or 2^64 words per type, all sequences of changes", "anchors": ["fuse/internal/bitflags.rs:17-186"]}
{"id": "C60", "title": "Mount options are what the last calls set", "statement": "Whatever sequence of setters a program calls on fresh MountOptions, each accessor returns the value of the last call that set its option and the documented default if there was none; calls for other options have no influence, an empty source cannot be set, and an empty subtype or one with a comma counts as none. Mount data made from such options, as the kernel reads it, holds exactly the options that are set, each once and with its value. Mounting with them opens the device and passes mount(2) the source, type and flags that were set last (defaults /dev/fuse, fuse, fuse, nosuid|nodev); on FreeBSD the nmount(2) list has default_permissions and subtype= exactly if they are set, and the flags default to nosuid.", "quantifier": "all sequences of setter calls with arguments of their types, both mount implementations on Linux, FreeBSD, all outcomes of the system calls", "why_tests_cant": "the tests set one option each on fresh options (and do not compile: two use an undefined variable); interference between setters needs all sequences", "anchors": ["fuse/os/linux.rs:404-709", "fuse/os/freebsd.rs:210-248", "fuse-linux/fuse-linux.rs:81-154", "fuse-libc/os/linux.rs:42-118", "fuse-libc/os/freebsd.rs:36-124"]}
{"id": "C61", "title": "Debug output of replies, notifications, listings and options is readable and loses nothing", "statement": "Printing a NodeAttr, Entry, StatfsResponse, FuseInitResponse, CuseInitResponse, CreateResponse, IoctlResponse, ResponseHeader, notification, directory entry or MountOptions made with the API never panics. The text is the type name followed by the fields in the order of the declaration; no name or other byte string in it can add a control character or a line, and only durations contain non-ASCII characters. Two values whose {:?} or {:#?} texts are equal are equal, so would be sent as the same bytes (FuseInitResponse: up to the version, which is not printed). A buffer of directory entries or attribute names prints as the list of exactly those entries whose push succeeded. The result of an ioctl reply reads back as the last one set.", "quantifier": "all values that can be made by constructors and any sequence of setters, both layouts of the text, all buffers and pushes", "why_tests_cant": "two tests print one value each; that no two values share a text, and that no name breaks the layout, needs all of them", "anchors": ["fuse/node_attr.rs:291-310", "fuse/entry.rs:121-130", "fuse/operations/statfs.rs:153-166", "fuse/operations/fuse_init.rs:214-225", "fuse/operations/cuse_init.rs:156-170", "fuse/operations/create.rs:174-182", "fuse/operations/ioctl.rs:334-438", "fuse/fuse.rs:273-359", "fuse/notify.rs:155-308", "fuse/operations/readdir.rs:160-194", "fuse/operations/readdirplus.rs:154-187", "fuse/operations/listxattr.rs:87-93", "fuse/os/linux.rs:611-630", "fuse/os/freebsd.rs:251-258"]}
{"id": "C62", "title": "Linux accepts the replies, and no client waits for ever", "statement": "The device /dev/fuse of Linux completes the waiting operation with the error or data of the reply, for every reply whose type is the one the operation expects, with no more data than was asked for and an error number below 512; it refuses messages whose id is not waiting, acknowledges replies to INTERRUPT without completing anything, and breaks the operation (I/O error, EINVAL to the server) if the data does not fit. The error conversion of this library can produce error numbers of 512 and more: Linux refuses those and the operation waits for ever. Notifications take effect as named; names of more than 1024 bytes are refused. With fuse-vfs and user code that reports such errors and stays within the requested sizes, in every interleaving of handlers no reply is refused or breaks its operation, an operation waits only while its handler has not sent the reply, and when all handlers have returned no operation waits. Node types that keep the provided listxattr are not such code: a size query breaks. The hello-world example completes every operation that leaves room for the file; a READ of fewer bytes than the file has breaks and the handler panics.", "quantifier": "all operations, replies, protocol versions, ids and sets of waiting operations; all user file systems and all interleavings of their handlers", "why_tests_cant": "the tests compare bytes with expected bytes; whether a kernel accepts them depends on the operation and the sizes in the request, and waiting for ever shows only over whole sessions", "anchors": ["fuse/server.rs:542-760", "fuse/os/linux.rs", "fuse/notify.rs:155-308", "fuse-vfs/fuse-vfs.rs:85-130", "fuse-vfs/fuse-vfs.rs:484-960", "examples/helloworld/helloworld.rs"]}
{"id": "C63", "title": "Linux and the server agree on the session, and every request arrives as sent", "statement": "When a FUSE handshake succeeds, Linux accepts the INIT reply and starts a session of exactly the version the connection uses, acts on the flags of the first 32 that were both offered and configured, and takes over max_write, max_background, congestion threshold, read-ahead and time granularity as configured (within Linux's own limits); the receive buffer of the connection is one its device accepts. From then on every request that Linux may send in that session reaches the handlers unchanged and in order, header and content, until the file system is unmounted and serving ends without an error. Only SETXATTR and IOCTL requests longer than the buffer do not arrive; Linux fails those, none is cut short. Exceptions: SYMLINK requests arrive with name and target exchanged, and are refused if the target has a slash (C08); flags beyond the first 32 count only if INIT_EXT (bit 30) is configured too; granting MAX_PAGES limits requests to one page; a callback of its own that grants SETXATTR_EXT to a client before 7.6 makes the server misread SETXATTR.", "quantifier": "all server options or init callbacks, all INIT requests of any 7.x version, all sequences of requests of any types and sizes within Linux's limits, all contents of the receive buffer", "why_tests_cant": "the interop tests run against one kernel version with a few options; the agreement depends on version, flags, options and request sizes together", "anchors": ["fuse/server.rs:1271-1330", "fuse/server.rs:1487-1596", "fuse/server.rs:1614-1623", "fuse/operations/fuse_init.rs:60-226", "fuse/server.rs:240-283"]}
{"id": "C64", "title": "Linux and a CUSE server agree on the device and the session", "statement": "For every device name of at most 4087 bytes that is accepted, Linux accepts the CUSE_INIT reply of a server; if the client speaks 7.11 or later and the name is not only whitespace, the device appears with the given numbers, under the given name without the whitespace around it, with max_read and max_write as configured (at least a page), and with unrestricted ioctl iff offered and enabled. The session has the version of the connection, the receive buffer is one the device accepts, and every request Linux may send reaches the handlers unchanged and in order; only IOCTL requests longer than the buffer fail in the client. A name of whitespace is accepted by this library, but no device appears.", "quantifier": "all names, numbers and options, all CUSE_INIT requests of any 7.x version, all sequences of requests within Linux's limits, all contents of the receive buffer", "why_tests_cant": "the interop tests start one device with one name; whether a device appears depends on the bytes of the name and on the kernel", "anchors": ["fuse/server.rs:1129-1187", "fuse/server.rs:1390-1486", "fuse/server.rs:1599-1608", "fuse/operations/cuse_init.rs:60-175", "fuse/cuse.rs:60-100"]}
{"id": "C65", "title": "A panic in user code harms only its own request, except in release and in the worker pool", "statement": "If user code called by fuse-vfs panics, the nodes, handles and replies of all other requests are what they would be if the panicking handler were merely slow: a held id still resolves, no request is answered twice, and as long as no release or releasedir panics, no other handler is stopped. A panic in release or releasedir, however, makes every later request that names a handle go unanswered; whoever does not use the handles can still go on. The only other way to poison a lock is a counter that overflows with overflow checks on: once some node has been looked up 2^64 times, every later request that names a node goes unanswered. In serve_fuse and serve_cuse a panicking handler does not disturb the other workers, but its worker is lost for ever: after as many panics as threads nothing is received any more although receiving never failed, and the serve function never returns normally but panics once every worker has ended, so that reported errors are lost.", "quantifier": "all user code, all interleavings of any number of handlers with panics at any call, all numbers of threads, all messages", "why_tests_cant": "no test lets user code panic; the effect depends on which lock is held at that moment and shows only in later requests", "anchors": ["fuse-vfs/fuse-vfs.rs:484-982", "fuse-vfs/fuse-vfs.rs:815-870", "fuse-std/fuse-std.rs:112-148", "fuse-std/fuse-std.rs:167-203", "fuse/server.rs:1599-1623"]}
{"id": "C66", "title": "A request changes only what it names", "statement": "Whatever other requests do at the same time, the handler of a well-formed request to fuse-vfs looks up only the node the request names and uses only the handle it names. Nodes are registered only by LOOKUP and forgotten only by FORGET and BATCH_FORGET, and those change only the ids in their items; handles are given out only by OPEN and OPENDIR, and RELEASE and RELEASEDIR release only the handle they name. All other requests leave the tables of nodes and handles as they are. A malformed request does nothing at all. Exceptions: requests that name a handle work with any node id; a handle stays in use if the reply that gives it out could not be sent; the nodes listed in a READDIRPLUS reply are not registered although the client counts them as looked up.", "quantifier": "all file systems, all requests, all interleavings of any number of handlers", "why_tests_cant": "that nothing else changes is a statement about all other ids and handles, under all interleavings", "anchors": ["fuse-vfs/fuse-vfs.rs:484-870", "fuse-vfs/fuse-vfs.rs:905-1058"]}
{"id": "C67", "title": "Names as text", "statement": "NodeName::as_str and DeviceName::as_str succeed exactly if the bytes of the name are the UTF-8 encoding of some text, and then return the same bytes; otherwise the error reports how many bytes from the start are whole characters. A name made from a string is accepted unless the string is empty or contains U+0000 (or '/', for node names), and then reads back as that string; the error names the first such character. A node name is made from any bytes by the same rule and reads back as those bytes. Comparing a name with a str or a byte slice, in either order, compares the bytes. The order of names is total and agrees with equality, a proper prefix comes first, and names that are text are ordered by their code points.", "quantifier": "all byte strings and all sequences of code points", "why_tests_cant": "UTF-8 validity and the order are statements about all byte strings, including truncated, overlong and surrogate encodings", "anchors": ["fuse/node_name.rs:40-178", "fuse/cuse.rs:40-146"]}
{"id": "C68", "title": "What a client was told of it can use", "statement": "Whatever fuse-vfs does at the same time: if a client has read node id n in the replies to more LOOKUP requests (whose handlers have returned) than it gave up in FORGET and BATCH_FORGET requests, then the handler of any request that looks for node n finds a node registered under n. The root is found as long as the client never forgets it. A handle read in the reply to OPEN or OPENDIR leads to exactly the object that this request opened until a RELEASE or RELEASEDIR of it arrives, and the first one to arrive releases that object. Exception: after all lookups of n were given up in one FORGET item the old node stays; if the file system then reuses n for another object, requests still reach the old one.", "quantifier": "all file systems, all genuine requests, all interleavings of any number of handlers", "why_tests_cant": "depends on all histories of lookups, forgets, opens and releases and on the scheduling of the handlers", "anchors": ["fuse-vfs/fuse-vfs.rs:484-870", "fuse-vfs/fuse-vfs.rs:905-1058"]}
{"id": "C69", "title": "Structs in memory", "statement": "On targets that align u64 to 4 and to 8 bytes alike, every struct of the protocol (the 64 of fuse/kernel.rs, the older layouts, IoctlSlice) has no padding: the bytes that as_bytes exposes are its integers one after the other, new() is all zeroes, and a struct after the header of a request in a buffer aligned to 8 is aligned. The header and the struct of every kind of request, in the layout its protocol version calls for, have the fields of the kernel's in the same places under the same names, so a message made of these structs is accepted and understood as the operation (SYMLINK: see C08). What is sent of every reply, directory entry and notification is its struct with each value in the field of its name; where older versions of the protocol cut a reply short a field begins. Every accessor reads the field the source names, and fields read through the struct of an older layout are at the same place in the newer ones. A WRITE request of a session from 7.9 on holds all of the write_msg to which a reference is made. Exception: before 7.9 it can be shorter than a write_msg.", "quantifier": "all structs, all values of their fields, both alignments of u64, both byte orders, all requests and replies", "why_tests_cant": "padding differs between targets, and tests run on one; a struct that happens to be padded with zeroes looks right", "anchors": ["fuse/kernel.rs:233-1749", "fuse/internal/compat.rs:34-349", "fuse/operations/write.rs:33-179", "fuse/operations/fuse_init.rs:34-46", "fuse/operations/ioctl.rs:406-410"]}
{"id": "C70", "title": "A client that walks a tree sees this tree", "statement": "A program serves a tree of files, directories and symbolic links through the traits of fuse-vfs: the directories are listed by StaticDirectoryHandle, everything not needed is as provided. Whatever other requests are handled at the same time, in whatever order: GETATTR, LOOKUP, READLINK, OPEN, OPENDIR, GETXATTR and LISTXATTR for a node that the client holds (looked up and not given up) and READ, READDIR, READDIRPLUS and WRITE for an open handle are answered as the tree says. A client that starts at the root or at any node it holds, reads attributes, opens and lists directories page by page, looks up every name it was told, reads files piece by piece to the end and links, while nobody gives up the nodes on its way or releases its handles, gets exactly the names in order, contents, targets and attributes of this part of the tree. Such a walk is always possible until the 64 bit counters of the server run out.", "quantifier": "all trees (with hard links), all histories before and during the walk, all interleavings of the handlers, all page and read sizes, both byte orders, all minor versions", "why_tests_cant": "tests fix one tree and one order of requests; the answer depends on the tables shared by all handlers, on paging, and on what others do between the requests of the client", "anchors": ["fuse-vfs/fuse-vfs.rs:85-1194"]}
{"id": "C71", "title": "A whole ioctl call does what the handler says", "statement": "An ioctl call on a file or a CUSE device, from the system call to its return, through the request, any number of retries and the final reply: the handler sees, in every round, the command, the argument and exactly the bytes of the caller's memory that the command or the slices of its last retry name, in their order; the reader of the input returns, for reads of the lengths of the slices, the content of each slice; the output is stored at the output slices, piece by piece; the call returns what the handler returned (ENOSYS as ENOTTY). Memory that neither the command nor a retry named does not change. Without the permission for unrestricted ioctls there is one request, and a retry fails the call. Output that is longer than the room, input that does not fit the receive buffer, slices longer than the pages of the session and unmapped memory fail the call and change nothing. The ranges and pointers a server adds to a retry are those the caller is asked for, in order, up to 256.", "quantifier": "all handlers (functions of the requests before), all memories, all commands, arguments and sequences of retries, FUSE and CUSE, both byte orders", "why_tests_cant": "the number of rounds and the layout of the memory are unbounded; the interop tests make one ioctl without a retry", "anchors": ["fuse/operations/ioctl.rs:30-125", "fuse/operations/ioctl.rs:228-283", "fuse/operations/ioctl.rs:285-570"]}
{"id": "C72", "title": "Programs see what the server said", "statement": "What a program on Linux gets from a reply, after the checks the kernel makes on accepted replies, is what the server said with its calls. LOOKUP, MKNOD, MKDIR, SYMLINK, LINK, CREATE, GETATTR and SETATTR: stat(2) shows for every attribute the value set last, names and attributes stay valid for the durations set; the call fails with EIO exactly if the file type is none (or not the one asked for), the size is no loff_t or the node id is the root's. READDIR and READDIRPLUS: a program with room for n entries gets the first n entries pushed, with their names, nodes and offsets; through READDIRPLUS the type is always unknown, every entry but \".\" and \"..\" is looked up and an unusable node is given back. A static directory of fuse-vfs read by any sequence of getdents calls, by READDIR or READDIRPLUS as the kernel likes, shows every entry once and in order. LISTXATTR, WRITE, GETLK, LSEEK, READLINK give what was said, or the error Linux gives to values that make no sense. Refuted for two values the API accepts: a name of more than 1024 bytes hides itself and all entries after it behind EIO, an empty attribute name fails the whole list.", "quantifier": "all sequences of setter calls and pushes, buffers, versions from 7.9 on, sizes of the program's buffer, sequences of getdents calls, both byte orders", "why_tests_cant": "the number of entries, calls and values is unbounded, and the interop tests list one entry with a short name", "anchors": ["fuse/entry.rs:30-130", "fuse/node_attr.rs:30-300", "fuse/operations/readdir.rs:110-311", "fuse/operations/readdirplus.rs:100-295", "fuse/operations/listxattr.rs:120-209", "fuse/kernel_traits.rs:20-109", "fuse-vfs/fuse-vfs.rs:960-1194"]}
{"id": "C73", "title": "Reading and writing files", "statement": "What a pread or pwrite call on a file of FUSE or on a CUSE device returns (opened for direct I/O) is what the server's handlers were asked and answered: they get the file handle, the offset and the data of the call, cut into requests in any way Linux may cut it, and nothing else; the program gets the bytes and counts they answered; a short answer ends the call, an error is returned if nothing was transferred before, and more data or a larger count than asked for is EIO. Hence a server that keeps a file in memory is a file: any sequence of reads and writes returns what POSIX says, including holes and reads past the end, and leaves this content.", "quantifier": "all handlers with state, sequences of calls, offsets and lengths up to the range of loff_t, ways of cutting, versions of the protocol, FUSE and CUSE, both byte orders", "why_tests_cant": "the number of calls, states and ways of cutting is unbounded; the tests of the repository send one READ and one WRITE of fixed content", "anchors": ["fuse/operations/read.rs:29-125", "fuse/operations/write.rs:25-218", "fuse/server.rs:680-760"]}
{"id": "C74", "title": "Extended attributes", "statement": "A server that keeps the extended attributes of a file in a list, written with the requests and responses of this crate, gives programs on Linux what xattr(7) says: any sequence of setxattr, getxattr, listxattr and removexattr calls returns what a map of names to values returns, with the sizes for calls without room, ERANGE for too little room, the errors for XATTR_CREATE and XATTR_REPLACE, and E2BIG for values that do not fit a request of the session.", "quantifier": "all sequences of calls, names, values, sizes and flags, initial attributes, sessions and versions, with and without the fields of 7.33, both byte orders", "why_tests_cant": "the number of calls and attributes is unbounded; the tests of the repository send single requests of fixed content", "anchors": ["fuse/operations/setxattr.rs:20-127", "fuse/operations/getxattr.rs:20-76", "fuse/operations/listxattr.rs:20-209", "fuse/operations/removexattr.rs:20-64"]}
{"id": "C75", "title": "System calls do what the handlers say", "statement": "For lookups, stat, statfs, chmod, chown, truncate and utimens, readlink, access, mkdir, mknod, unlink, rmdir, rename, link, creating, opening and closing files and directories, POSIX locks, SEEK_DATA and SEEK_HOLE, fallocate, copy_file_range, fsync, FIBMAP and poll on a FUSE file system mounted on Linux: any sequence of calls runs as if the program had called the server's handlers directly, but for those operations that the handlers said they do not implement (ENOSYS) and that the kernel does not ask for again. Each handler is asked exactly what the program said (names, modes, the attributes to change and no others, ranges of locks, flags), its state changes once per call, and the program gets the node, attributes, handle, target, lock, offset, numbers of blocks or error the handler said; EIO only if that makes no sense to the kernel (wrong file type, a size, range or target that is too large, the id of the root). There are two exceptions. Making symbolic links: name and target are exchanged, and a target with a slash is never answered. Polling: the handler is not told which open file of the node is meant.", "quantifier": "all handlers and their states, all sequences of calls and their arguments, all sessions since protocol 7.12, all ids of requests, both byte orders", "why_tests_cant": "the tests of the crate look at single requests or at single operations on a mounted file system with fixed arguments; that nothing is lost or added between a system call and a handler for any arguments, any handler and any sequence is a statement about all of them", "anchors": ["fuse/server.rs", "fuse/server/decode.rs", "fuse/operations/lookup.rs", "fuse/operations/setattr.rs", "fuse/operations/mknod.rs", "fuse/operations/rename.rs", "fuse/operations/create.rs", "fuse/operations/symlink.rs", "fuse/operations/getlk.rs", "fuse/entry.rs", "fuse/node_attr.rs", "fuse/operations/statfs.rs", "fuse/operations/release.rs", "fuse/operations/flush.rs", "fuse/operations/poll.rs", "fuse/operations/bmap.rs"]}
{"id": "C76", "title": "Handlers a file system leaves out", "statement": "A file system implements some of the methods of FuseHandlers and leaves the others as the trait provides them; its unimplemented method answers ENOSYS. Mounted on Linux, any sequence of system calls reaches the methods it has as if they were called directly, with what the programs said. The calls whose methods it left out have fixed results, whatever else happens: access is granted, flush, fsync and closing succeed, files and directories can be opened (without a handle), fallocate is not supported, renaming with flags is invalid, creating files, SEEK_DATA and SEEK_HOLE and copy_file_range go on with other requests, poll sees a file that never blocks, FIBMAP sees holes, and all other calls fail with ENOSYS. Each operation of the first kind reaches unimplemented at most once for the whole mount.", "quantifier": "all choices of implemented methods, all handlers and their states, all sequences of calls and their arguments, all sessions since protocol 7.12, both byte orders", "why_tests_cant": "which method a request reaches depends on the choice of methods, of which there are 2^44, and what a program sees depends on the whole sequence of calls before", "anchors": ["fuse/server.rs:827-1112", "fuse/server.rs:832-887", "examples/helloworld/helloworld.rs:63-65"]}
{"id": "C77", "title": "Names, nodes and data together", "statement": "On a FUSE file system mounted on Linux, any sequence of system calls on names and nodes, of reads and of writes (direct input and output, cut into requests in any way) runs as if the program had called the handlers directly: each handler is asked exactly what the program said, once, in order, and the program gets what it said. A file system kept in memory and written with this API therefore behaves as POSIX says: files are made, found, renamed and unlinked, data written is read back by every open file of the same node whatever else is done meanwhile (also after the last name is gone), stat shows the size, truncation cuts or fills with zeros, and reading or writing a node that is not there fails with ENOENT.", "quantifier": "all sequences of calls, reads and writes with all arguments, all handlers that answer reads and writes with data, counts or errors, all ways of cutting reads and writes into requests, all sessions since protocol 7.12, both byte orders", "why_tests_cant": "what is read depends on all writes, truncations and renames before and on how each was cut into requests", "anchors": ["fuse/operations/read.rs", "fuse/operations/write.rs", "fuse/operations/setattr.rs", "fuse/operations/lookup.rs", "fuse/operations/mknod.rs", "fuse/server.rs"]}
{"id": "C78", "title": "Listing a directory that changes", "statement": "A server keeps the entries of a directory in the order of their offsets and answers READDIR and READDIRPLUS with the entries behind the offset of the request, pushed until one does not fit. A program on Linux lists the directory by any number of getdents calls, with room for any number of entries, each starting at the offset of the last entry seen; the kernel sends READDIR or READDIRPLUS as it likes; between the calls the directory changes in any way. No call fails, no offset is seen twice, the offsets grow, every entry seen was in the directory at the time of the call, with its name and node, and when a call finds the end everything that was there during all calls has been seen. The nodes that the kernel learns by READDIRPLUS are those of the entries. A directory that does not change is seen as it is, in order, after at most as many calls as it has entries.", "quantifier": "all directories with valid names of up to 1024 bytes and all changes between the calls, all numbers and sizes of calls, both kinds of requests in any mixture, all sessions since protocol 7.12, all aligned buffers, both byte orders", "why_tests_cant": "what is seen depends on where each page ends and on what was changed meanwhile", "anchors": ["fuse/operations/readdir.rs:230-290", "fuse/operations/readdirplus.rs:215-275", "fuse/internal/dirent.rs"]}
{"id": "C79", "title": "Programs that use a CUSE device", "statement": "A program opens and closes a character device that a CUSE driver made with this library provides, reads from it, writes to it and makes ioctl calls on it, in any order and any number of times; the handlers of the driver keep a state and answer whatever belongs to the request. Every call returns, and the final state of the driver is, what it would be if the program had called the handlers directly: they get the flags, handles, offsets and data of the calls and node 1; an ioctl handler gets the memory it asked for, and what it returns is stored where it said. A driver without OPEN is asked once, and never told of closing. No call stays without an answer; an ioctl that does not end asks for memory again and again, which a driver that is not trusted with the memory of its clients cannot do: there every call ends. poll(2) is the exception: such a request is never answered, since the decoder asks for a node id that requests to devices do not have (see C15).", "quantifier": "all drivers with any state, all sequences of calls with any handles, offsets, data, commands, arguments and memory, all sessions since protocol 7.12, both byte orders", "why_tests_cant": "states of drivers and sequences of calls are unbounded; tests need a kernel with CUSE", "anchors": ["fuse/operations/open.rs", "fuse/operations/release.rs", "fuse/operations/read.rs", "fuse/operations/write.rs", "fuse/operations/ioctl.rs", "fuse/operations/poll.rs", "fuse/server.rs"]}
{"id": "C80", "title": "From the handshake to the calls of programs", "statement": "A server built with any options answers the INIT request of any Linux since 7.12, and Linux takes the reply: afterwards both sides use the same version and formats, writes are as large as configured (at least 4096 bytes), and any program's system calls in this session, on names, nodes and data, return what they would if the program called the handlers directly; with the file system in memory they return what its specification says. A CUSE driver with any name that is not blank comes up in the same way, with the sizes configured for reads and writes and unrestricted ioctls exactly if both sides want them, and programs use it as if they called its handlers.", "quantifier": "all sequences of builder calls with all values, all INIT requests since 7.12 with all flags, all handlers with any state, all sequences of calls, both byte orders, 64-bit machines", "why_tests_cant": "options, flags, states and sequences of calls combine; a size that does not fit the buffer of the server shows only in a later request", "anchors": ["fuse/server.rs", "fuse/operations/fuse_init.rs", "fuse/operations/cuse_init.rs"]}
{"id": "C81", "title": "Many requests at once", "statement": "Requests arrive while others are worked on. Any number of threads of a server read them, each into its own buffer, whatever it held before; handlers are called in any order, and replies are written in any order. At any time it is as if the requests had been served one after the other, in the order in which they were decided: the state of the server is that of serving them so, and every client that has a result has the one of its own request; so a request that returned before another one arrived comes before it. No request gets stuck or is lost, no reply is refused by the device, and once no more requests arrive all get their results, whatever is done next. So programs that make system calls at the same time get the results of handlers called once per call, one after the other. Handlers are taken to decide at one point in time; interrupts and requests without a reply are not part of this.", "quantifier": "all programs with any state that can answer one request (shown for all handlers of C75), all numbers of requests and threads, all arrivals and orders of reading, handling and writing, both byte orders", "why_tests_cant": "the orders in which threads go on are too many to try, and depend on the scheduler", "anchors": ["fuse-std/fuse-std.rs", "fuse/server.rs", "fuse/server/decode.rs"]}
{"id": "C82", "title": "Record locks", "statement": "A lock server written with the library keeps a list of locks and answers GETLK, SETLK and FLUSH. Programs that use fcntl(2) on the file system get what the manual says, for the bytes that are locked: F_SETLK fails with EAGAIN if and only if another owner has a byte of the range locked and one of the two locks is for writing, and otherwise the bytes of the range, and no others, change; unlocking always works; F_GETLK reports no lock if there is none in the way, and otherwise one that is; close(2) drops all locks of the owner on the file. So locks exclude each other. The same holds for programs that make these calls at the same time, with any number of threads of the server, for some order of the calls.", "quantifier": "all sequences of lock calls on any nodes, of any owners, for all ranges of bytes including those to the end of the file, all sessions since protocol 7.12, all interleavings, both byte orders", "why_tests_cant": "ranges are split and joined in ways that depend on all earlier calls, and an error of one byte in the ends of ranges shows only when locks touch", "anchors": ["fuse/lock.rs", "fuse/operations/getlk.rs", "fuse/operations/setlk.rs", "fuse/operations/flush.rs"]}
{"id": "C83", "title": "Requests that wait, and interrupts", "statement": "A server may answer a request when another one comes, with the id that it has kept. A lock server does so for F_SETLKW. Whatever programs do, at any time locks exclude each other and a program waits only while a lock of another owner is in its way: as soon as its lock can be given it is, and the call returns. A signal for a program that waits arrives at the server as an INTERRUPT with the id of the waiting request; that call, and no other, returns as interrupted (ERESTARTSYS in Linux), and no lock changes. Every call returns at most once, and with the result that fcntl(2) says. The server can always do its part: all requests are decoded and all replies accepted by the device.", "quantifier": "all sequences of F_SETLK, F_SETLKW, close and signals, of any number of programs, for all ranges and owners, all sessions since protocol 7.12, both byte orders", "why_tests_cant": "which programs wait depends on all earlier calls; a lost wake-up shows only as a program that hangs", "anchors": ["fuse/operations/interrupt.rs", "fuse/operations/setlk.rs", "fuse/lock.rs", "fuse/server.rs"]}
{"id": "C84", "title": "Programs that sleep in poll", "statement": "A server written with the library answers POLL with the events of the node that the program wants, keeps the poll handle, and sends a poll notification for each handle it keeps when the node becomes ready for other events. Whatever programs and the server do, no program sleeps in poll(2) though there is something for it. poll(2) returns at once if there is something. When a node changes, those who sleep and now have something wake up, are told what it is, and nobody else wakes up. The server can always do its part: all requests are decoded, and all replies and notifications are accepted by the device.", "quantifier": "all sequences of poll(2) calls and changes, of any number of programs, nodes, open files and events, all sessions, both byte orders", "why_tests_cant": "a lost wake-up shows only as a program that hangs, after a particular order of calls and changes", "anchors": ["fuse/operations/poll.rs", "fuse/notify.rs", "fuse/server.rs"]}
{"id": "C85", "title": "Names that Linux remembers", "statement": "A server written with the library answers LOOKUP with the node of the name and the time that Linux may remember it (Entry::set_cache_timeout); names change at the server, which may send InvalidateEntry. A program that looks up a name finds the node that the server has now, or the name has changed with Linux not told, not longer ago than the time the server gave (at most i64::MAX seconds). A name for which the server was asked is found again without a request for that time, unless an InvalidateEntry for that name is sent; invalidating other names, and other lookups, do not matter. A name that nobody has looked up for that time is asked for again, and the node that the server has now is found.", "quantifier": "all sequences of lookups, changes with and without notification, and times that pass, all directories, names, nodes and timeouts, all sessions, both byte orders", "why_tests_cant": "stale names show only at particular times after particular changes; the timeouts are given in two parts and are cut off at a limit", "anchors": ["fuse/entry.rs", "fuse/operations/lookup.rs", "fuse/notify.rs"]}
{"id": "C86", "title": "Attributes that Linux remembers", "statement": "A server written with the library answers GETATTR with the size of the file and the time that Linux may remember it (attr_valid and attr_valid_nsec); files change at the server, which may send InvalidateInode. stat(2) reports the size that the server has now, or the file has changed with Linux not told, not longer ago than the time the server gave. A size for which the server was asked is reported again without a request for that time, unless an InvalidateInode for that node is sent; notifications for other nodes and other calls do not matter. When nobody has asked for that time the server is asked again.", "quantifier": "all sequences of stat(2), changes with and without notification, and times that pass, all nodes, sizes and timeouts, all sessions, both byte orders", "why_tests_cant": "stale sizes show only at particular times after particular changes", "anchors": ["fuse/operations/getattr.rs", "fuse/node_attr.rs", "fuse/notify.rs"]}
