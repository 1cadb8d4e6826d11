{
 "claims": [
  {
   "property": "C01",
   "status": "proved",
   "theorems": [
    "C01_admission",
    "C01_accepted_only",
    "C01_body",
    "C01_min_length_refuted",
    "C01_zero_length_refuted"
   ],
   "note": "The admission rule is proved for all buffers. The expected minimum length of 40 is refuted by a witness: body() panics and request_len() is undefined behaviour for such a request."
  },
  {
   "property": "C02",
   "status": "proved",
   "theorems": [
    "C02_no_read_outside"
   ],
   "note": "Reads outside the buffer and references to misaligned structs are the outcome Ub, panics are Panic; decoding is run both on the buffer and on the message alone."
  },
  {
   "property": "C03",
   "status": "proved",
   "theorems": [
    "C03_forget_inside",
    "C03_batch_overflow_refuted"
   ],
   "note": "Proved below 2^28 items; refuted by a witness with count 2^28."
  },
  {
   "property": "C04",
   "status": "proved",
   "theorems": [
    "C04_ignores_rest"
   ],
   "note": "All conversions, including ForgetRequest."
  },
  {
   "property": "C05",
   "status": "proved",
   "theorems": [
    "C05_opcode"
   ],
   "note": ""
  },
  {
   "property": "C06",
   "status": "proved",
   "theorems": [
    "C06_names"
   ],
   "note": "Names, and that they are the NUL-terminated bytes of the message at the documented offset."
  },
  {
   "property": "C07",
   "status": "proved",
   "theorems": [
    "C07_fixed"
   ],
   "note": "Against the independent encoder in WireSpec.v."
  },
  {
   "property": "C08",
   "status": "proved",
   "theorems": [
    "C08_named",
    "C08_symlink",
    "C08_symlink_refuted",
    "C08_symlink_path_refuted",
    "C08_create_old",
    "C08_create_mode_refuted"
   ],
   "note": "SYMLINK exchanges name and target and CREATE before 7.12 loses the mode (refuted; C08_symlink says what is delivered instead); all else proved."
  },
  {
   "property": "C09",
   "status": "proved",
   "theorems": [
    "C09_setxattr",
    "C09_empty_name_refuted"
   ],
   "note": "Proved for nonempty names; refuted for the empty name."
  },
  {
   "property": "C10",
   "status": "proved",
   "theorems": [
    "C10_write",
    "C14_truncated"
   ],
   "note": "C14_truncated covers size fields beyond the bytes present."
  },
  {
   "property": "C11",
   "status": "proved",
   "theorems": [
    "C11_setattr"
   ],
   "note": ""
  },
  {
   "property": "C12",
   "status": "proved",
   "theorems": [
    "C12_ioctl",
    "C12_reader",
    "C12_transmute",
    "C12_input_aligned",
    "C12_transmute_refuted"
   ],
   "note": "A reference to a misaligned struct is the outcome Ub."
  },
  {
   "property": "C13",
   "status": "proved",
   "theorems": [
    "C13_forget"
   ],
   "note": ""
  },
  {
   "property": "C14",
   "status": "proved",
   "theorems": [
    "C14_truncated"
   ],
   "note": "For SYMLINK with a slash in the target the error can be that of the slash (C08)."
  },
  {
   "property": "C15",
   "status": "proved",
   "theorems": [
    "C15_missing",
    "C15_nonzero",
    "C15_cuse",
    "C15_cuse_poll_refuted"
   ],
   "note": "CUSE POLL with node id 0 is rejected (refuted)."
  },
  {
   "property": "C16",
   "status": "proved",
   "theorems": [
    "C16_getlk",
    "C16_setlk",
    "C16_end"
   ],
   "note": ""
  },
  {
   "property": "C17",
   "status": "proved",
   "theorems": [
    "C17_init"
   ],
   "note": ""
  },
  {
   "property": "C18",
   "status": "proved",
   "theorems": [
    "C18_reply_framing",
    "C18_payload"
   ],
   "note": ""
  },
  {
   "property": "C19",
   "status": "proved",
   "theorems": [
    "C19_too_big",
    "C19_answers"
   ],
   "note": ""
  },
  {
   "property": "C20",
   "status": "proved",
   "theorems": [
    "C20_error_reply",
    "C20_linux_error",
    "C20_freebsd_error",
    "C20_errno_reaches_client"
   ],
   "note": ""
  },
  {
   "property": "C21",
   "status": "proved",
   "theorems": [
    "C21_reply_sizes",
    "C21_prefix_of_latest"
   ],
   "note": ""
  },
  {
   "property": "C22",
   "status": "proved",
   "theorems": [
    "C22_attr_reply",
    "C22_entry_reply",
    "C22_create_reply",
    "C22_statfs_reply",
    "C22_init_reply",
    "C22_cuse_init_reply",
    "C22_small_replies",
    "C22_create_default"
   ],
   "note": "For every sequence of setter calls; durations above i64::MAX seconds are capped and lose their nanoseconds."
  },
  {
   "property": "C26",
   "status": "proved",
   "theorems": [
    "C26_ioctl_reply",
    "C26_retry_limit",
    "C26_retry_reply",
    "C26_retry_buf",
    "C26_ioctl_default"
   ],
   "note": ""
  },
  {
   "property": "C27",
   "status": "proved",
   "theorems": [
    "C27_content",
    "C27_map"
   ],
   "note": ""
  },
  {
   "property": "C28",
   "status": "proved",
   "theorems": [
    "C28_delete",
    "C28_invalidate_entry",
    "C28_invalidate_inode",
    "C28_poll",
    "C28_length_refuted",
    "C28_zero_length_refuted",
    "C28_inode_default",
    "C28_inode_calls"
   ],
   "note": "Framing proved for messages up to u32::MAX bytes; the length claim is refuted by witnesses beyond that."
  },
  {
   "property": "C23",
   "status": "proved",
   "theorems": [
    "C23_readdir",
    "C23_failed_push",
    "C23_unaligned_refuted"
   ],
   "note": "Proved for 8-byte aligned buffers; for other buffers, which the safe API accepts, writing is undefined behaviour (refuted by a witness)."
  },
  {
   "property": "C24",
   "status": "proved",
   "theorems": [
    "C24_readdirplus",
    "C24_type_refuted"
   ],
   "note": "Everything but the type; the type is refuted by a witness."
  },
  {
   "property": "C25",
   "status": "proved",
   "theorems": [
    "C25_names",
    "C25_failed_push"
   ],
   "note": ""
  },
  {
   "property": "C29",
   "status": "proved",
   "theorems": [
    "C29_fuse",
    "C29_cuse"
   ],
   "note": ""
  },
  {
   "property": "C30",
   "status": "proved",
   "theorems": [
    "C30_fuse",
    "C30_cuse",
    "C30_cuse_name_too_big",
    "C30_callback_once",
    "C30_ids"
   ],
   "note": "Over all sequences of receive and send results; callbacks are arbitrary sequences of setter calls with state."
  },
  {
   "property": "C31",
   "status": "proved",
   "theorems": [
    "C31_fuse_server",
    "C31_bits",
    "C31_cuse"
   ],
   "note": ""
  },
  {
   "property": "C32",
   "status": "proved",
   "theorems": [
    "C32_fuse",
    "C32_cuse",
    "C32_32bit_refuted"
   ],
   "note": ""
  },
  {
   "property": "C33",
   "status": "proved",
   "theorems": [
    "C33_fuse",
    "C33_cuse"
   ],
   "note": ""
  },
  {
   "property": "C34",
   "status": "proved",
   "theorems": [
    "C34_request",
    "C34_cuse_request",
    "C34_session"
   ],
   "note": ""
  },
  {
   "property": "C35",
   "status": "proved",
   "theorems": [
    "C35_fuse",
    "C35_cuse"
   ],
   "note": ""
  },
  {
   "property": "C36",
   "status": "proved",
   "theorems": [
    "C36_session",
    "C36_fuse_layout",
    "C36_cuse_layout",
    "C36_old_client_refuted"
   ],
   "note": ""
  },
  {
   "property": "C37",
   "status": "proved",
   "theorems": [
    "C37_entry",
    "C37_vfs"
   ],
   "note": ""
  },
  {
   "property": "C38",
   "status": "proved",
   "theorems": [
    "C38_normalised",
    "C38_new",
    "C38_order",
    "C38_attributes",
    "C38_epoch"
   ],
   "note": ""
  },
  {
   "property": "C39",
   "status": "proved",
   "theorems": [
    "C39_from_mode",
    "C39_as_mode",
    "C39_partition"
   ],
   "note": ""
  },
  {
   "property": "C40",
   "status": "proved",
   "theorems": [
    "C40_node_name",
    "C40_device_name",
    "C40_node_id"
   ],
   "note": ""
  },
  {
   "property": "C52",
   "status": "proved",
   "theorems": [
    "C52_attributes"
   ],
   "note": ""
  },
  {
   "property": "C41",
   "status": "proved",
   "theorems": [
    "C41_fits",
    "C41_numbers",
    "C41_kernel",
    "C41_default"
   ],
   "note": "The kernel-side parser is the specification; a comma in a subtype is refused by the constructor."
  },
  {
   "property": "C42",
   "status": "proved",
   "theorems": [
    "C42_recv",
    "C42_nothing_lost",
    "C42_shutdown",
    "C42_cuse_refuted"
   ],
   "note": "C42_cuse_refuted records that a CUSE socket made by from_raw_fd treats ENODEV differently from one made by open."
  },
  {
   "property": "C43",
   "status": "proved",
   "theorems": [
    "C43_send"
   ],
   "note": ""
  },
  {
   "property": "C44",
   "status": "proved",
   "theorems": [
    "C44_mount",
    "C44_descriptors",
    "C44_options"
   ],
   "note": "Both the libc and the linux-syscall variant."
  },
  {
   "property": "C53",
   "status": "proved",
   "theorems": [
    "C53_freebsd",
    "C53_subtype"
   ],
   "note": ""
  },
  {
   "property": "C45",
   "status": "proved",
   "theorems": [
    "C45_resolves",
    "C45_held",
    "C45_root",
    "C45_leak_refuted",
    "C45_root_refuted"
   ],
   "note": "The protocol count itself is refuted in the two ways the statement names."
  },
  {
   "property": "C46",
   "status": "proved",
   "theorems": [
    "C46_unique",
    "C46_live",
    "C46_kinds"
   ],
   "note": ""
  },
  {
   "property": "C47",
   "status": "proved",
   "theorems": [
    "C47_unsupported",
    "C47_malformed",
    "C47_forget",
    "C47_one_reply",
    "C47_exactly_one",
    "C47_terminates",
    "C47_no_panic"
   ],
   "note": "In every interleaving of handlers; user code is arbitrary but returns."
  },
  {
   "property": "C48",
   "status": "proved",
   "theorems": [
    "C48_readdir_page",
    "C48_readdirplus_page",
    "C48_fresh",
    "C48_readdir",
    "C48_readdirplus",
    "C48_readdir_ends",
    "C48_readdirplus_ends",
    "C48_small_page_refuted",
    "C48_unaligned_refuted"
   ],
   "note": "For 8-byte aligned page buffers; the code allocates a Vec<u8>, for which alignment is not promised (refuted by a witness), and a page too small for the next entry looks like the end (refuted by a witness)."
  },
  {
   "property": "C49",
   "status": "proved",
   "theorems": [
    "C49_refuted",
    "C49_returned",
    "C49_sequential"
   ],
   "note": "The claim for any interleaving is refuted; what holds is proved."
  },
  {
   "property": "C54",
   "status": "proved",
   "theorems": [
    "C54_deterministic",
    "C54_unknown_node",
    "C54_unknown_handle",
    "C54_missing_trait",
    "C54_user_error",
    "C54_getattr",
    "C54_lookup_found",
    "C54_lookup_not_found",
    "C54_open",
    "C54_opendir",
    "C54_data",
    "C54_write",
    "C54_statfs",
    "C54_release",
    "C54_releasedir",
    "C54_defaults",
    "C54_default_listxattr_refuted",
    "C54_size",
    "C54_errnos",
    "C54_new_results"
   ],
   "note": "C54_default_listxattr_refuted is the refuted part the statement names. Handlers run alone here; C47 and C49 cover interleavings."
  },
  {
   "property": "C50",
   "status": "proved",
   "theorems": [
    "C50_refuted",
    "C50_stuck",
    "C50_limit",
    "C50_deadlock",
    "C50_many_errors",
    "C50_cuse_never_returns",
    "C50_serves",
    "C50_unmount"
   ],
   "note": "The first sentence of the statement is refuted for every number of threads; the rest is proved."
  },
  {
   "property": "C51",
   "status": "proved",
   "theorems": [
    "C51_threads",
    "C51_once",
    "C51_ends",
    "C51_returns",
    "C51_local"
   ],
   "note": "The socket gives each message to one worker."
  },
  {
   "property": "C55",
   "status": "proved",
   "theorems": [
    "C55_buffers",
    "C55_new",
    "C55_start"
   ],
   "note": "Memory is uninitialised in the code; the model gives it arbitrary contents."
  },
  {
   "property": "C56",
   "status": "proved",
   "theorems": [
    "C56_answers",
    "C56_malformed",
    "C56_any_request",
    "C56_connects",
    "C56_session",
    "C56_read_refuted",
    "C56_readdir_refuted",
    "C56_unaligned_refuted",
    "C56_errnos"
   ],
   "note": "The three refuted theorems are the parts the statement says are not guaranteed. The handler panics if its reply cannot be sent (part of C56_answers)."
  },
  {
   "property": "C57",
   "status": "proved",
   "theorems": [
    "C57_header",
    "C57_defined"
   ],
   "note": ""
  },
  {
   "property": "C58",
   "status": "proved",
   "theorems": [
    "C58_shape",
    "C58_faithful",
    "C58_literal",
    "C58_raw_defined",
    "C58_raw_faithful",
    "C58_lock_modes",
    "C58_opcodes",
    "C58_whence",
    "C58_numbers",
    "C58_time_text",
    "C58_texts"
   ],
   "note": "The panic and the undefined behaviour the statement names are part of C58_raw_defined."
  },
  {
   "property": "C59",
   "status": "proved",
   "theorems": [
    "C59_named",
    "C59_get",
    "C59_change",
    "C59_combine",
    "C59_listed"
   ],
   "note": ""
  },
  {
   "property": "C60",
   "status": "proved",
   "theorems": [
    "C60_accessors",
    "C60_kernel",
    "C60_mount",
    "C60_freebsd"
   ],
   "note": ""
  },
  {
   "property": "C61",
   "status": "proved",
   "theorems": [
    "C61_shape",
    "C61_attr",
    "C61_entry",
    "C61_create",
    "C61_statfs",
    "C61_cuse_init",
    "C61_init",
    "C61_ioctl",
    "C61_ioctl_result",
    "C61_header",
    "C61_header_values",
    "C61_notification",
    "C61_notification_values",
    "C61_texts",
    "C61_notify_codes",
    "C61_init_values",
    "C61_cuse_init_values",
    "C61_options",
    "C61_freebsd_options",
    "C61_values",
    "C61_readdir",
    "C61_readdir_same",
    "C61_readdirplus",
    "C61_readdirplus_entry",
    "C61_names",
    "C61_names_same",
    "C61_init_refuted",
    "C61_entry_refuted"
   ],
   "note": "The two _refuted theorems record what the text does not show: the version of FuseInitResponse, and the second id of an entry whose attributes were replaced through attributes_mut."
  },
  {
   "property": "C62",
   "status": "proved",
   "theorems": [
    "C62_verdict",
    "C62_accepted",
    "C62_oversized",
    "C62_size_query",
    "C62_errno",
    "C62_interrupt",
    "C62_forgotten",
    "C62_notifications",
    "C62_vfs_session",
    "C62_vfs_drained",
    "C62_default_listxattr_refuted",
    "C62_hello",
    "C62_hello_read_refuted"
   ],
   "note": "The behaviour of Linux is a specification (DeviceSpec), written without access to its source. The refuted parts are those the statement names."
  },
  {
   "property": "C63",
   "status": "proved",
   "theorems": [
    "C63_session",
    "C63_server",
    "C63_end_to_end",
    "C63_high_flags_refuted",
    "C63_max_pages_refuted",
    "C63_old_client_refuted"
   ],
   "note": "The behaviour of Linux is a specification (ClientSpec, DeviceSpec), written without access to its source. CREATE is covered from 7.12 on. The refuted theorems are the exceptions the statement names."
  },
  {
   "property": "C64",
   "status": "proved",
   "theorems": [
    "C64_server",
    "C64_end_to_end",
    "C64_name_refuted",
    "C64_old_version_refuted"
   ],
   "note": "The behaviour of Linux is a specification (ClientSpec, DeviceSpec), written without access to its source."
  },
  {
   "property": "C65",
   "status": "proved",
   "theorems": [
    "C65_contained",
    "C65_held",
    "C65_one_reply",
    "C65_isolated",
    "C65_release_panics",
    "C65_release_refuted",
    "C65_goes_on",
    "C65_user_call",
    "C65_lookups_overflow",
    "C65_pool",
    "C65_capacity",
    "C65_scope",
    "C65_waits",
    "C65_pool_refuted"
   ],
   "note": "The refuted theorems are the exceptions the statement names."
  },
  {
   "property": "C66",
   "status": "proved",
   "theorems": [
    "C66_touches",
    "C66_malformed",
    "C66_unchanged",
    "C66_wrong_node_refuted",
    "C66_lost_open_refuted",
    "C66_readdirplus_refuted"
   ],
   "note": "The refuted theorems are the exceptions the statement names."
  },
  {
   "property": "C67",
   "status": "proved",
   "theorems": [
    "C67_as_str",
    "C67_new",
    "C67_try_from",
    "C67_equal",
    "C67_order",
    "C67_text_order"
   ],
   "note": "core::str::from_utf8 is modelled; of its error only valid_up_to."
  },
  {
   "property": "C68",
   "status": "proved",
   "theorems": [
    "C68_node",
    "C68_root",
    "C68_file",
    "C68_dir",
    "C68_stale_refuted"
   ],
   "note": "The refuted theorem is the exception the statement names; a LOOKUP whose handler has not returned yet is C49_refuted."
  },
  {
   "property": "C69",
   "status": "proved",
   "theorems": [
    "C69_no_padding",
    "C69_sizes",
    "C69_new",
    "C69_aligned",
    "C69_request",
    "C69_request_understood",
    "C69_reply",
    "C69_small_replies",
    "C69_compat_prefix",
    "C69_accessors",
    "C69_optional_accessors",
    "C69_versions_agree",
    "C69_write_msg",
    "C69_write_msg_refuted"
   ],
   "note": "The rules of repr(C) are modelled. The refuted theorem is the exception the statement names."
  },
  {
   "property": "C70",
   "status": "proved",
   "theorems": [
    "C70_answers",
    "C70_answers_open",
    "C70_sees",
    "C70_possible"
   ],
   "note": "The client waits until the handler has returned before it goes on; without that C49_refuted is possible."
  },
  {
   "property": "C71",
   "status": "proved",
   "theorems": [
    "C71_ioctl",
    "C71_memory",
    "C71_restricted",
    "C71_reader",
    "C71_output",
    "C71_places"
   ],
   "note": "What Linux does is a specification (IoctlSpec), for 64-bit processes and pages of 4096 bytes, written without access to its source."
  },
  {
   "property": "C72",
   "status": "proved",
   "theorems": [
    "C72_lookup",
    "C72_created",
    "C72_create",
    "C72_getattr",
    "C72_readdir",
    "C72_readdirplus",
    "C72_listing",
    "C72_listing_ends",
    "C72_listxattr",
    "C72_files",
    "C72_readlink",
    "C72_long_name_refuted",
    "C72_empty_xattr_refuted",
    "C72_type_refuted"
   ],
   "note": "What Linux does with accepted replies is a specification (TakenSpec), written without access to its source; its caches are left out."
  },
  {
   "property": "C73",
   "status": "proved",
   "theorems": [
    "C73_pwrite",
    "C73_pread",
    "C73_memory_file"
   ],
   "note": "How Linux cuts calls into requests is a specification (FileSpec), written without access to its source; the page cache is left out."
  },
  {
   "property": "C74",
   "status": "proved",
   "theorems": [
    "C74_xattrs"
   ],
   "note": "The calls on Linux are a specification (XattrSpec); the server of the theorem is written with the functions of the model."
  },
  {
   "property": "C75",
   "status": "proved",
   "theorems": [
    "C75_call",
    "C75_calls",
    "C75_tree",
    "C75_symlink_refuted",
    "C75_poll_refuted"
   ],
   "note": "How Linux makes requests of calls and results of replies is a specification (CallSpec), written without access to its source; its caches are left out. The refuted theorems are the exceptions the statement names."
  },
  {
   "property": "C76",
   "status": "proved",
   "theorems": [
    "C76_call",
    "C76_calls",
    "C76_missing",
    "C76_once"
   ],
   "note": "What Linux does about operations that are not implemented is a specification (CallSpec), written without access to its source."
  },
  {
   "property": "C77",
   "status": "proved",
   "theorems": [
    "C77_steps",
    "C77_disk",
    "C77_read_back"
   ],
   "note": "How Linux makes requests of calls is a specification (CallSpec, FileSpec), written without access to its source; its caches are left out."
  },
  {
   "property": "C78",
   "status": "proved",
   "theorems": [
    "C78_changing",
    "C78_listing"
   ],
   "note": "How Linux lists directories is a specification (TakenSpec, DeviceSpec), written without access to its source; its cache of directories is left out. That READDIRPLUS shows no types is C24_type_refuted."
  },
  {
   "property": "C79",
   "status": "proved",
   "theorems": [
    "C79_device",
    "C79_ends",
    "C79_poll_refuted"
   ],
   "note": "What Linux does with calls on CUSE devices is a specification (FileSpec, CallSpec, IoctlSpec), written without access to its source. The statement says what is refuted: poll."
  },
  {
   "property": "C80",
   "status": "proved",
   "theorems": [
    "C80_file_system",
    "C80_device"
   ],
   "note": "What Linux does is a specification (ClientSpec, CallSpec, FileSpec, IoctlSpec), written without access to its source."
  },
  {
   "property": "C81",
   "status": "proved",
   "theorems": [
    "C81_in_turn",
    "C81_goes_on",
    "C81_worker",
    "C81_ends",
    "C81_calls"
   ],
   "note": "How threads share the work is a transition system that allows more than the threads of fuse-std; what the device does is a specification (DeviceSpec, FileSpec). A handler is one step."
  },
  {
   "property": "C82",
   "status": "proved",
   "theorems": [
    "C82_locks",
    "C82_busy",
    "C82_excluding"
   ],
   "note": "The lock server is a program written for the library; what Linux does with the calls is a specification (CallSpec, DeviceSpec). Locks are given for bytes, without ranges."
  },
  {
   "property": "C83",
   "status": "proved",
   "theorems": [
    "C83_waits",
    "C83_steps"
   ],
   "note": "The lock server is a program written for the library, with one thread; what Linux does, also with signals, is a specification (CallSpec, DeviceSpec), written without access to its source."
  },
  {
   "property": "C84",
   "status": "proved",
   "theorems": [
    "C84_sleeps",
    "C84_steps"
   ],
   "note": "The server is a program written for the library; what Linux does, also with notifications, is a specification (CallSpec, DeviceSpec), written without access to its source."
  },
  {
   "property": "C85",
   "status": "proved",
   "theorems": [
    "C85_finds",
    "C85_remembers",
    "C85_expires"
   ],
   "note": "The server is a program written for the library; what Linux does with names, times and notifications is a specification (TakenSpec, DeviceSpec, PropCache), written without access to its source. Names that do not exist are not remembered."
  },
  {
   "property": "C86",
   "status": "proved",
   "theorems": [
    "C86_stats",
    "C86_remembers",
    "C86_expires"
   ],
   "note": "The server is a program written for the library; what Linux does with attributes, times and notifications is a specification (TakenSpec, DeviceSpec, PropAttrs), written without access to its source."
  }
 ]
}