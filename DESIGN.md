# Formal model of rust-fuse in Rocq: design

The source under study is `/repo` (jmillikin/rust-fuse at a pinned commit): the
crates `fuse`, `fuse-libc`, `fuse-linux`, `fuse-std`, `fuse-vfs` and the example
`examples/helloworld`.  The model is in `rocq/theories`, the English properties
in `properties.jsonl`, their status in `MANIFEST.json`.

## How the model is built

* Bytes are `Coq.Init.Byte.byte`; a message, buffer or reply is `list byte`.
* Machine integers are `N` (or `Z` for signed ones).  Where the code wraps,
  saturates or casts, the model does so explicitly.  `usize` is 64 bits unless
  a definition takes `usize_max` / `isize_max` as an argument.
* The code reads C structs in native byte order.  The model is parametric in
  the byte order (class `Endian`), so theorems hold for both.
* A computation has type `out A`: `Ret a`, `Fail e` (the Rust `Err`), `Panic`
  or `Ub`.  A raw pointer read outside its memory, an unaligned typed read or
  write and a zero put into a `NonZero` type are `Ub`; so "never panics" and "never
  undefined" are statements that are proved (or refuted), not assumptions.
  Every raw read of the decoder goes through `rd` or `mem_read`, which yield
  `Ub` if they leave the memory; every reference to a struct goes through
  `d_cast`, which yields `Ub` if its offset is misaligned (the receive buffer
  itself starts at a multiple of 8).
* `&mut` becomes state passing.  User callbacks (handlers, init callbacks,
  VFS nodes) and the kernel (socket results, system call results) are
  arbitrary functions or lists that theorems quantify over.
* Concurrency (fuse-std, fuse-vfs) is a small-step transition system; theorems
  are about all reachable states / all interleavings.

Every definition cites the file and lines it models.

## Files

| files | content |
|-------|---------|
| `Base` | bytes, integers, C struct fields, lemmas about them |
| `Kernel` | constants of fuse/kernel.rs |
| `CoreModel` | node ids, names, modes, times, versions, locks: fuse/{node_id,node_name,file_mode,file_type,time,version,lock}.rs |
| `DecodeModel`, `OpsModel` | `Request`, the decoder cursor, every `TryFrom` and every accessor of the request types |
| `DecodeSpec`, `WireSpec` | specification: what may be read; the client's encoder of every request for every version |
| `DecodeProofs`, `OpsSafety`, `OpsCut`, `OpsRoundTrip` | proofs |
| `PropDecode` | C01-C17 |
| `PropHeader` | C57 |
| `ReplyModel`, `ListingModel` | reply objects, reply senders, `SendBuf`, notifications, `NodeAttr`/`Entry`, directory and xattr listing writers |
| `ReplySpec`, `ReplyProofs` | what a client reads; proofs |
| `PropReply`, `PropListing`, `PropValues` | C18-C22, C26-C28; C23-C25; C37-C40, C52 |
| `ServerModel`, `ServerSpec`, `PropServer` | handshake, builders, dispatch, serve loops; C29-C36 |
| `HostModel`, `HostSpec`, `PropHost` | mount options, sockets, mount helpers (libc, linux-syscall, FreeBSD); C41-C44, C53 |
| `VfsModel`, `VfsSpec`, `VfsRun`, `VfsProofs` | fuse-vfs: tables, handlers, static directory; their transition system |
| `PropTables`, `PropStatic`, `PropVfs`, `PropAnswers` | C45, C46; C48; C47, C49; C54 |
| `ThreadModel`, `PropThreads` | fuse-std: worker pool, buffers; C50, C51, C55 |
| `PanicModel`, `PropPanic` | panics of user code: lock poisoning in fuse-vfs, lost workers in fuse-std; C65 |
| `PropFootprint` | what a request to fuse-vfs can change; C66 |
| `NamesModel`, `PropNames` | names as strings: `as_str`, `new`, comparisons and order; `core::str::from_utf8`; C67 |
| `PropHeld` | what a client of fuse-vfs was told of it can use; C68 |
| `LayoutModel`, `PropLayout` | the structs field by field, `repr(C)`, `as_bytes`; C69 |
| `PropTree` | a tree served through fuse-vfs and a client that walks it; C70 |
| `IoctlSpec`, `PropIoctl` | what Linux does during an ioctl system call; whole calls, with retries; C71 |
| `TakenSpec`, `PropTaken` | what Linux makes of accepted replies: its checks, stat, getdents; C72 |
| `FileSpec`, `PropFile` | one request from Linux through the server and back; whole pread and pwrite calls; a file in memory; C73 |
| `XattrSpec`, `PropXattr` | whole calls for extended attributes; C74 |
| `CallSpec`, `PropCalls` | system calls on names, nodes and open files; a tree in memory; C75 |
| `PropMissing` | file systems that leave out methods of `FuseHandlers`, and what Linux does about ENOSYS; C76 |
| `PropDisk` | programs that use names, nodes and data together; a file system in memory; C77 |
| `PropDir` | directories listed by programs while they change; C78 |
| `PropCuse` | programs that use a CUSE device; C79 |
| `PropStart` | from the handshake to the calls of programs; C80 |
| `PropBusy` | servers that work on many requests at once; C81 |
| `PropLocks` | record locks of programs; C82 |
| `PropWait` | requests that are answered later, and interrupts; C83 |
| `PropNotify` | calls that build notifications, in any order; C28 |
| `PropPoll` | programs that sleep in poll; C84 |
| `PropCache` | names that Linux remembers; C85 |
| `PropAttrs` | attributes that Linux remembers; C86 |
| `FlagsModel`, `PropFlags` | the 19 flag set types; C59 |
| `OptionsModel`, `PropOptions` | accessors and setters of the mount option types, programs that call them; C60 |
| `DebugModel`, `DebugProofs`, `DebugRead`, `PropDebug` | the builders of `core::fmt` and every `Debug` implementation of the requests; C58 |
| `ShowModel`, `ShowProofs`, `PropShow` | the accessors and `Debug` implementations of replies, notifications, listings, headers and mount options; C61 |
| `DeviceSpec`, `PropDevice` | what the FUSE device of Linux does with a message written to it; C62 |
| `ClientSpec`, `PropClient` | what Linux takes from the INIT replies, the requests it then sends and what a read of the device returns; C63, C64 |
| `RepoTests` | the unit tests of /repo as examples: same messages, same assertions |
| `InteropTests` | the texts expected by the interop tests of /repo, from messages laid out by hand as Linux does; they check the specification of the wire format as much as the model |
| `HelloModel`, `PropHello` | examples/helloworld on top of all of the above; C56 |

`Prop*` files hold the theorems named in MANIFEST.json, an `Example` named
`<theorem>_example` with a concrete case for each, and `Print Assumptions`.

## Plan per property

| id | what is modelled | how it is proved |
|----|------------------|------------------|
| C01 | `Request::new`, `as_bytes`, `body` | case analysis against a declarative rule; refutation of "accepted implies len>=40" |
| C02 | decoder cursor, every `TryFrom` as a program over the cursor with `Ub`/`Panic` outcomes | invariant of the cursor (consumed <= header_len <= length), then every conversion |
| C03 | `ForgetRequest::try_from`, items iterator, 32-bit wrap | refutation with a witness; positive theorem for count < 2^28 |
| C04 | same programs | conversion result is a function of `take header.len buf` |
| C05 | same programs | case analysis |
| C06 | `next_node_name`, `next_cstr` | induction on the scan |
| C07-C13 | every conversion and its accessors | independent wire encoder (`WireSpec`), round trip theorem per type; C09 empty-name refutation |
| C14 | same | prefix lemma per type |
| C15 | same | case analysis; CUSE POLL refutation |
| C16 | `LockRange::decode`, `Lock::decode/encode` | characterised as a set of offsets |
| C17 | `FuseInitRequest`, `CuseInitRequest` | round trip by version; bit lemmas for the two flag words |
| C18-C20 | `ReplySender`, `SendBuf`, `Error` conversion | sent bytes = header ++ payload, for all payloads |
| C21-C22 | reply objects | prefix/length lemmas; parse-back against independent layouts |
| C23-C25 | buffer writers and iterators | induction over push sequences, parser correctness |
| C26-C28 | ioctl replies, SendBuf, notifications | induction over add sequences; framing |
| C29-C32 | negotiation, connect loops, builders, `recv_buf_len` | induction over client message sequence |
| C33-C36 | dispatch, default handlers, serve loops, layouts | decision tables; induction over histories |
| C37-C40, C52 | value types | arithmetic and bit lemmas; induction over setter sequences |
| C41 | mount option writer | parse-back, fits-iff, no injection |
| C42-C44, C53 | sockets and mount helpers | induction over kernel result lists; trace of system calls |
| C45-C49, C54 | fuse-vfs maps, dispatch, static directory | refinement to counters / histories; interleaving refutation |
| C50-C51, C55 | fuse-std worker pool, buffers | transition system, invariants, termination measure; reachable-deadlock refutation |
| C56 | examples/helloworld | composition of the theorems above with an abstract description of the tree |
| C57 | `RequestHeader` | equations of `Request_new` and the field lemmas of the wire format |
| C58 | `Debug` of requests | one layout function for both forms; unique readability by induction on the tree; reader of literals |
| C59 | `fuse/internal/bitflags.rs` and its 19 users | bit lemmas over any flag and any bits; enumeration of the tables |
| C60 | setters, accessors, `MountSource::new`, `FuseSubtype::new`, `From`, on top of C41, C44, C53 | induction over the sequence of calls |
| C61 | `Debug` of everything a server sends, and of mount options | C58's layout and readability, invariants of the values the API can make |
| C62 | Linux's `fuse_dev_do_write` as a specification, on top of C18-C28, C47, C56 | case analysis over operations and replies; invariant relating the handlers of fuse-vfs to the operations that wait, for every interleaving |
| C63, C64 | Linux's side of a session as a specification, on top of C05-C17, C29-C36, C57, C62 | inversion of the handshake, a bound on the length of every request, induction over the requests served |
| C65 | user code that panics in any call, poisoned locks, workers that unwind | simulation by histories without panics, in which the panicking handler is merely slow; invariant of the poisoned lock |
| C66 | the actions of a handler on nodes and handles, as observed in histories | syntactic bound on all actions of a handler, carried along every history |
| C67 | `NodeName` and `DeviceName` as strings, against the definition of UTF-8 and dictionary order | induction on the text; the scanner of the model is the inverse of the encoder |
| C68 | what the client read in replies, against what handlers find later | accounting of lookups told and given up per request, carried along every history; a program logic for what precedes each action |
| C69 | structs in memory, on both kinds of targets | induction over types for structs without padding, a computed check that every struct is one; equations between accessors and fields |
| C70 | a client walking a tree served through fuse-vfs, among other requests | an invariant of the node table (what is registered under an id is what the tree has there), the program logic of C68 per handler, induction over the walk; for the converse induction over the tree with C54 per request |
| C71 | ioctl calls from the system call to its return | the device, the decoder (C63) and the replies (C26, C62) composed round by round; induction over the rounds |
| C72 | what programs see of replies | the readers of `ReplySpec` (C22-C25) related to those of Linux; induction over the listing and over the getdents calls |
| C73, C74 | reading and writing files, extended attributes | one exchange (from C63, C57, C18-C22, C62) related to a call of the handler; induction over the requests of a call, then over the calls |
| C75 | system calls and handlers | one exchange per call (C73) with C72 for the results; induction over the calls |
| C76 | left-out methods and ENOSYS | the dispatch (C33) turned into a handler per call, then C75; an invariant between what the kernel remembers and what was noted |
| C77 | names, nodes and data | C73 and C75 combined: only requests of its type matter to an operation; laws of the data of a node, an invariant of the file system |
| C78 | listing a changing directory | one page by C72; the place reached separates what was seen from what comes, in every directory in order |
| C79 | programs on a CUSE device | one request by the exchange lemma of C73, with the answers of C26, C75; induction over rounds of an ioctl and over calls |
| C80 | from the handshake to the calls | composition of C63/C64 (what both sides agree on) with C77 and C79 |
| C81 | many requests at once | invariant over interleavings: the results are those of `exchange` in the order of decisions; ids of waiting requests are distinct; a measure for termination |
| C82 | record locks | the table of a lock server refines a function from bytes to locks; then C75 and C81 |
| C83 | requests that wait, interrupts | invariant: the server and the programs agree on who waits, and everybody who waits is blocked |
| C84 | programs that sleep in poll | invariant: whoever sleeps has nothing to do and will be told |
| C85 | names that Linux remembers | invariant: what is remembered is so, or changed silently and expires in time |
| C86 | attributes that Linux remembers | the same invariant for sizes |

## Trusted base

* The Coq 8.16.1 kernel (including its virtual machine, used by `vm_compute`
  in examples and witnesses).
* The hand translation of the Rust source to the model.
* That the Rust compiler lays out `repr(C)` structs by the rules written down
  in `LayoutModel`, with `u64` aligned to 4 or 8.  The offsets that the rest of
  the model has as numbers follow from them (C69).
* The specification files: `WireSpec`, `DecodeSpec`, `ReplySpec`, `ServerSpec`,
  `HostSpec`, `VfsSpec`, `DeviceSpec`, `ClientSpec`, `IoctlSpec`, `TakenSpec`, `FileSpec`, `XattrSpec`, `CallSpec` and the `Specification` parts of the `Prop*` files.

Axioms: none.  `Print Assumptions` reports "Closed under the global context"
for every theorem named in MANIFEST.json.  The library `Coq.ssr.ssrunder` is
loaded by `ZifyBool` and contains the module type parameters
`Under_rel.*`; no theorem uses them.

## What is not modelled, and what is assumed

* `fuse/client.rs`, `fuse/kernel.rs` beyond the constants and layouts used,
  Bazel.  Of the `Debug` implementations those of requests and what they
  contain, of replies, notifications, listings and mount options are modelled,
  not those of errors.
* `Debug`: the builders of `core::fmt`, `PadAdapter` and the formatting of
  integers are modelled after the standard library; a `CStr` prints as
  `escape_ascii` of its bytes; a `Duration` prints as in core::time, with the
  micro sign in UTF-8.
* `core::str::from_utf8` is modelled from its documentation (`NamesModel`); of its
  error only `valid_up_to` is kept. A `str` is given by its bytes.
* `core::fmt` of integers (used for mount options) is trusted to be decimal or
  octal digits (`show`).
* Sockets: one call of `recv` gives one whole message, cut to the buffer; one
  call of `send` takes one whole message.  The sockets of fuse-libc and
  fuse-linux are modelled down to the system calls (C42, C43).
* `DeviceSpec`, `ClientSpec`, `IoctlSpec`, `TakenSpec`, `FileSpec`, `XattrSpec` and `CallSpec` are written from knowledge of Linux (fs/fuse), which is not in
  this sandbox.  They leave out splice, retrieve and store notifications, and
  the caches of the kernel.
  `ClientSpec` has pages of 4096 bytes and takes the limits of unprivileged
  mounts on max_background as not reached.
* Init callbacks are arbitrary functions to sequences of setter calls, with
  state.  They do not keep references.
* fuse-vfs: user code is an arbitrary function of the user's state that
  returns; other parts of the program may change that state at any time.
  Panics of user code are added in `PanicModel` (C65); panics while a value of
  the user is dropped and `panic = "abort"` are left out.  Trait objects are
  identified with the object they point to.  Hash maps are finite functions.
  `attributes_mut` is used through the setters only.
* fuse-std: the socket gives each message to one worker, dispatch returns (or
  panics, C65),
  spawning a thread does not fail, the allocator honours layouts.
* Linux mount: an explicit `fuse_device_fd` option is overwritten by `mount`.
* examples/helloworld: the address of the `Vec<u8>` is a parameter; mounting
  is not part of C56 (see C44, C53).

## Findings

Each is proved as a theorem whose name ends in `_refuted`, unless another name
is given.

| where | what | theorem |
|-------|------|---------|
| fuse/server.rs `Request::new` | a request announcing fewer than 40 bytes is accepted; `body()` panics; announcing 0 bytes is undefined behaviour in `request_len()` | `C01_min_length_refuted`, `C01_zero_length_refuted` |
| fuse/server.rs `Debug` of `FuseRequest` and `CuseRequest` | printing an accepted request panics if it announces 1 to 39 bytes, and is undefined behaviour if it announces 0 | `C58_raw_defined` |
| operations/forget.rs | BATCH_FORGET count * 16 wraps at 2^32: reads outside the message | `C03_batch_overflow_refuted` |
| operations/create.rs | CREATE before 7.12 loses the mode | `C08_create_mode_refuted` |
| operations/symlink.rs | SYMLINK carries the name, then the target; the code reads the target first: name and target are exchanged, and a target with a slash (any absolute path) is refused. The interop test of the repository expects the exchanged names (fuse/operations/symlink/symlink_interop_test.rs:104-127) | `C08_symlink_refuted`, `C08_symlink_path_refuted`, `C08_symlink`; what programs see of it: `C75_symlink_refuted` |
| operations/setxattr.rs | empty name: the value is shifted by one byte | `C09_empty_name_refuted` |
| operations/poll.rs | CUSE POLL needs a node id, which CUSE clients do not send | `C15_cuse_poll_refuted`, `C79_poll_refuted` |
| operations/poll.rs | `PollRequest` does not expose the handle of the open file: what a poll sees cannot depend on the open file | `C75_poll_refuted` |
| fuse/lock.rs | a reversed range is decoded, not rejected | `C16_getlk`, `C16_setlk` |
| operations/ioctl.rs `read_transmute` | after a read of a size that is not a multiple of its alignment the reference is misaligned; the condition is not documented | `C12_transmute`, `C12_transmute_refuted` |
| operations/readdir.rs | writing entries to an unaligned buffer is undefined behaviour, reachable from safe code | `C23_unaligned_refuted` |
| operations/readdirplus.rs | the type of an entry is the unshifted mode | `C24_type_refuted` |
| fuse/notify.rs | the length of a notification is truncated to 32 bits; it may be 0 in a `NonZeroU32` | `C28_length_refuted`, `C28_zero_length_refuted` |
| fuse/server.rs `recv_buf_len` | on 32-bit targets it saturates below what max_write needs | `C32_32bit_refuted` |
| fuse/server.rs | a callback granting SETXATTR_EXT to a client before 7.5 changes the layout although the client is not told | `C36_old_client_refuted` |
| fuse/server.rs `FuseServer` | flags of the second word are granted without INIT_EXT, and Linux ignores them | `C63_high_flags_refuted` |
| fuse/operations/fuse_init.rs | there is no setter for max_pages: granting MAX_PAGES limits requests to one page | `C63_max_pages_refuted` |
| fuse/server.rs | with the default max_write a SETXATTR of more than 8 KiB never arrives (E2BIG) | `C63_end_to_end_example` |
| fuse/cuse.rs `DeviceName` | a name of whitespace is accepted, but Linux makes no device; whitespace around a name is dropped | `C64_name_refuted` |
| fuse/operations/fuse_init.rs `Debug` | the version of a `FuseInitResponse` is not printed | `C61_init_refuted` |
| fuse/entry.rs | `attributes_mut` can replace the attributes by those of another node: the entry then has two ids, of which `Debug` prints one | `C61_entry_refuted` |
| fuse/operations/readdirplus.rs `Debug` | a `ReaddirplusEntry` prints as `ReaddirEntry` | `C61_shape` (`thing_title`) |
| fuse-libc, fuse-linux | a CUSE socket made by `from_raw_fd` treats ENODEV differently from one made by `open` | `C42_cuse_refuted` |
| fuse-vfs FORGET | the lookup count in the request is ignored; the root can be forgotten | `C45_leak_refuted`, `C45_root_refuted` |
| fuse-vfs static directory | a page too small for the next entry looks like the end; an unaligned page is undefined behaviour | `C48_small_page_refuted`, `C48_unaligned_refuted` |
| fuse-vfs LOOKUP | the reply is sent before the node is registered | `C49_refuted` |
| fuse-vfs default listxattr | a size query is answered with an empty reply | `C54_default_listxattr_refuted`; on Linux the operation fails with an I/O error and `dispatch` returns an error: `C62_default_listxattr_refuted` |
| `Error::from_errno` on Linux | an error number of 512 or more is refused by Linux, and the operation keeps waiting | `C62_errno` |
| fuse-std | workers block for ever on the error channel, whose receiver is returned only after they ended | `C50_refuted`, `C50_limit`, `C50_many_errors`, `C50_cuse_never_returns` |
| fuse-vfs RELEASE | user code runs with the handle table locked: if it panics, every later request that names a handle goes unanswered | `C65_release_refuted`, `C65_release_panics` |
| fuse-vfs LOOKUP | with overflow checks, the 2^64th lookup of a node panics with the node table locked: every later request that names a node goes unanswered | `C65_lookups_overflow` |
| fuse-std | a panicking handler costs a worker; after as many panics as threads nothing is served any more, and the reported errors are lost | `C65_pool_refuted`, `C65_capacity` |
| fuse-vfs READ, WRITE, READDIR, RELEASE, … | the node id of a request that names a handle is not compared with the handle | `C66_wrong_node_refuted` |
| fuse-vfs OPEN, OPENDIR | a handle whose reply could not be sent stays in the table for ever | `C66_lost_open_refuted` |
| fuse-vfs READDIRPLUS | the listed nodes are not registered; the client is told of nodes that do not resolve | `C66_readdirplus_refuted` |
| fuse-vfs NodeMap::add | a node that stayed after a FORGET of several lookups (C45) is kept when its id is registered again for another object | `C68_stale_refuted` |
| WRITE before 7.9 | a reference to a `write_msg` (80 bytes) is made to a message that can be shorter (65) | `C69_write_msg_refuted` |
| long names in listings | a `NodeName` has no greatest length and `try_push` takes it, but Linux answers EIO to a listing at a name of more than 1024 bytes: this entry and all after it cannot be listed | `C72_long_name_refuted`, `C72_listing` |
| empty names of extended attributes | `ListxattrNamesWriter::try_push` takes an empty name, but Linux answers EIO to the whole list | `C72_empty_xattr_refuted` |
| types in READDIRPLUS listings | the type bits of the mode are not shifted (see `C24_type_refuted`), so that programs always see DT_UNKNOWN | `C72_type_refuted`, `C72_readdirplus` |
| examples/helloworld | READ ignores offset and size; READDIR with fewer than 40 bytes and any malformed request panic; unaligned `Vec<u8>` | `C56_read_refuted`, `C56_readdir_refuted`, `C56_unaligned_refuted`, `C56_malformed`; on Linux a READ of fewer than 14 bytes fails with an I/O error and the handler panics: `C62_hello_read_refuted` |

Seen while reading, not stated as theorems: SYMLINK with an empty target is
refused with the error for an empty name; `NodeName` has no length limit; the kernel ignores `flags2` in an
INIT reply without INIT_EXT; the uninitialised memory of `AlignedBuf` is
exposed as a slice.

## Testing the theorems

`seeded/LOG.jsonl` lists deliberately wrong edits of model definitions made in
a copy outside this repository, and which theorems failed for each.
`proofs_failed` are the proofs that no longer go through (at most twelve),
`theorems_failed` the theorems of MANIFEST.json among them or proved from them
(at most forty).  From C82 on there are also wrong programs that use the library.
