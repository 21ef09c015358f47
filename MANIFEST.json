{
 "claims": [
  {
   "property": "C01",
   "status": "proved",
   "theorems": [
    "C01_request_roundtrip"
   ],
   "note": ""
  },
  {
   "property": "C02",
   "status": "proved",
   "theorems": [
    "C02_reply_roundtrip"
   ],
   "note": ""
  },
  {
   "property": "C03",
   "status": "proved",
   "theorems": [
    "C03_dir_roundtrip"
   ],
   "note": ""
  },
  {
   "property": "C04",
   "status": "proved",
   "theorems": [
    "C04_request_layout",
    "C04_reply_layout",
    "C04_dir_layout"
   ],
   "note": ""
  },
  {
   "property": "C05",
   "status": "proved",
   "theorems": [
    "C05_unique_split",
    "C05_unique_stream"
   ],
   "note": ""
  },
  {
   "property": "C06",
   "status": "partial",
   "theorems": [
    "C06_overlong_refuted",
    "C06_request_overlong_partial",
    "C06_reply_overlong"
   ],
   "note": "False of the code: a walk with a 65536-byte name is encoded with a wrapped count and decodes without error to a different walk (C06_overlong_refuted, witness in C06_case). The partial theorem covers every request except walks with such a name; C06_reply_overlong covers every reply."
  },
  {
   "property": "C07",
   "status": "proved",
   "theorems": [
    "C07_request_trailing",
    "C07_reply_trailing"
   ],
   "note": ""
  },
  {
   "property": "C08",
   "status": "partial",
   "theorems": [
    "C08_truncated_refuted",
    "C08_request_cut_at_field_partial",
    "C08_reply_cut_at_field_partial",
    "C08_request_cut_in_string_partial",
    "C08_reply_cut_in_string_partial",
    "C08_write_cut_in_data"
   ],
   "note": "False of the code: bytes.Buffer.Read returns short reads without error, so a message cut inside an integer is accepted (C08_truncated_refuted); a Twrite cut inside its data is never rejected (C08_write_cut_in_data). Proved: cuts at field boundaries and inside the characters of any string are rejected."
  },
  {
   "property": "C09",
   "status": "partial",
   "theorems": [
    "C09_decoders_crash_refuted",
    "C09_decoders_never_crash_partial",
    "C09_write_crashes_iff",
    "C09_wstat_crashes_iff",
    "C09_rread_crashes_iff",
    "C09_rstat_crashes_iff"
   ],
   "note": "False of the code for the kinds with a data block (C09_decoders_crash_refuted); proved for every other kind and for directory records, and the four crash conditions are characterised exactly (…_crashes_iff)."
  },
  {
   "property": "C10",
   "status": "partial",
   "theorems": [
    "C10_data_refuted",
    "C10_request_strings",
    "C10_reply_strings",
    "C10_write_data_partial",
    "C10_wstat_data_partial",
    "C10_rread_data_partial",
    "C10_rstat_data_partial"
   ],
   "note": "False of the code (C10_data_refuted): the block may consist of memory behind the message. Proved: strings always come from the message; the data decoders are characterised completely, in particular the block is from the message when the count is honest."
  },
  {
   "property": "C11",
   "status": "partial",
   "theorems": [
    "C11_canonical_refuted",
    "C11_request_canonical_prefix_partial",
    "C11_reply_canonical_prefix_partial"
   ],
   "note": "False of the code (C11_canonical_refuted). Proved: accepted bytes are a prefix of the canonical encoding of the decoded message, at most 7 bytes short unless there is a data block."
  },
  {
   "property": "C12",
   "status": "proved",
   "theorems": [
    "C12_generated_roundtrip",
    "C12_generated_stat_roundtrip",
    "C12_request_encoders_are_generated",
    "C12_reply_encoders_are_generated",
    "C12_request_decoders_are_generated",
    "C12_reply_decoders_are_generated",
    "C12_dir_codec_is_generated"
   ],
   "note": "The generator is modelled by the meaning of the code it emits per field (Gen.v), the generated functions are transcribed statement by statement (Codec.v)."
  },
  {
   "property": "C13",
   "status": "proved",
   "theorems": [
    "C13_header_overhead"
   ],
   "note": ""
  },
  {
   "property": "C14",
   "status": "proved",
   "theorems": [
    "C14_replies_in_order",
    "C14_every_request_answered",
    "C14_replies_are_frames",
    "C14_wellformed_requests"
   ],
   "note": "Completeness (every frame answered) assumes that no 7-byte header is cut by the transport (see C19), no write failure and no crash (see C20); the ordering theorem assumes nothing."
  },
  {
   "property": "C15",
   "status": "proved",
   "theorems": [
    "C15_reply_kind",
    "C15_unknown_types"
   ],
   "note": ""
  },
  {
   "property": "C16",
   "status": "proved",
   "theorems": [
    "C16_nothing_before_version"
   ],
   "note": ""
  },
  {
   "property": "C17",
   "status": "partial",
   "theorems": [
    "C17_failed_version_refuted",
    "C17_any_version_opens",
    "C17_no_version_no_session_partial"
   ],
   "note": "False of the code: Versioned is set before the file server is asked (C17_failed_version_refuted, C17_any_version_opens). Proved: without any Tversion everything is refused."
  },
  {
   "property": "C18",
   "status": "partial",
   "theorems": [
    "C18_malformed_refuted",
    "C18_decoding_errors_ignored",
    "C18_unknown_type_no_effect_partial"
   ],
   "note": "False of the code: the decoding error is ignored and the method is called with what was decoded (C18_malformed_refuted, C18_decoding_errors_ignored). Proved: messages of unknown type have no effect."
  },
  {
   "property": "C19",
   "status": "partial",
   "theorems": [
    "C19_segmentation_refuted",
    "C19_segmentation_partial"
   ],
   "note": "False of the code when a 7-byte header arrives in two reads (C19_segmentation_refuted). Proved for all segmentations that do not cut a header."
  },
  {
   "property": "C20",
   "status": "partial",
   "theorems": [
    "C20_crash_refuted",
    "C20_crash_cause",
    "C20_no_crash_partial"
   ],
   "note": "False of the code: a Twrite or Twstat whose count exceeds the message plus spare memory panics (C20_crash_refuted). Proved: this is the only cause (C20_crash_cause); clients whose writes/wstats are well formed cannot crash it."
  },
  {
   "property": "C21",
   "status": "partial",
   "theorems": [
    "C21_undersized_refuted",
    "C21_truncated_refuted",
    "C21_msize_refuted",
    "C21_honest_sizes_partial"
   ],
   "note": "False of the code in all three parts (three refutations). Proved: streams of complete messages with honest sizes are cut exactly at the size fields."
  },
  {
   "property": "C22",
   "status": "proved",
   "theorems": [
    "C22_rpc_transparent"
   ],
   "note": ""
  },
  {
   "property": "C23",
   "status": "proved",
   "theorems": [
    "C23_untouched",
    "C23_as_if_alone",
    "C23_all_histories",
    "C23_own_files",
    "C23_crash_refuted"
   ],
   "note": "For every interleaving at the granularity of single file-system and table operations, as long as the process lives. A panic in one connection ends the process (C23_crash_refuted)."
  },
  {
   "property": "C24",
   "status": "proved",
   "theorems": [
    "C24_tags_unique"
   ],
   "note": ""
  },
  {
   "property": "C25",
   "status": "proved",
   "theorems": [
    "C25_right_caller",
    "C25_no_crash"
   ],
   "note": "For a client with a Trace function (without one see C30)."
  },
  {
   "property": "C26",
   "status": "proved",
   "theorems": [
    "C26_calls_complete"
   ],
   "note": "For a client with a Trace function (without one see C30); callers do not hoard tags with GetTag. Termination measure: exactly 12 steps per call."
  },
  {
   "property": "C27",
   "status": "partial",
   "theorems": [
    "C27_fid_sequence",
    "C27_fids_distinct_partial",
    "C27_nofid_refuted",
    "C27_reuse_refuted"
   ],
   "note": "False of the code: the 64-bit counter is cut to 32 bits, so NOFID is handed out by call 4294967294 and fids repeat after 2^32 calls (two refutations). Proved: the exact sequence, and distinctness up to 4294967293 calls."
  },
  {
   "property": "C28",
   "status": "partial",
   "theorems": [
    "C28_lost_connection_refuted",
    "C28_crash_or_hang",
    "C28_no_connection_hangs",
    "C28_no_invented_reply_partial"
   ],
   "note": "False of the code: the receiver dereferences nil when the channel is closed (C28_lost_connection_refuted); proved that the process can then only die (within four steps) or hang, and that no reply is invented."
  },
  {
   "property": "C29",
   "status": "partial",
   "theorems": [
    "C29_hostile_crash_refuted",
    "C29_hostile_wedge_refuted",
    "C29_wedged_for_ever",
    "C29_hostile_reply_refuted",
    "C29_reply_decoding_partial",
    "C29_crash_iff",
    "C29_doomed_iff",
    "C29_doomed_stays",
    "C29_one_call_partial",
    "C29_reply_accepted"
   ],
   "note": "False of the code in three ways (refutations: panic on unknown tag, hang on a repeated tag, panic on a lying count). Proved: exactly when it crashes, and that any packet completes at most the one call that holds its tag."
  },
  {
   "property": "C30",
   "status": "partial",
   "theorems": [
    "C30_tracing_refuted",
    "C30_untraced_never_completes",
    "C30_untraced_crash",
    "C30_untraced_doomed",
    "C30_same_otherwise_partial"
   ],
   "note": "False of the code: two Trace calls are not guarded (C30_tracing_refuted). Proved: the clients behave the same except that the one without Trace crashes on the first reply."
  },
  {
   "property": "C31",
   "status": "proved",
   "theorems": [
    "C31_fid_validity"
   ],
   "note": ""
  },
  {
   "property": "C32",
   "status": "proved",
   "theorems": [
    "C32_walk",
    "C32_clone"
   ],
   "note": "A walk onto a newfid that is already in use (and is not fid itself) is refused and changes nothing; walks without elements are C32_clone."
  },
  {
   "property": "C33",
   "status": "proved",
   "theorems": [
    "C33_attach"
   ],
   "note": ""
  },
  {
   "property": "C34",
   "status": "partial",
   "theorems": [
    "C34_confined_partial",
    "C34_default_root",
    "C34_walk_refuted",
    "C34_create_refuted"
   ],
   "note": "False of the code: \"..\" in a walk or create leaves the exported directory (C34_walk_refuted, C34_create_refuted). Proved: every history without \"..\" in walks, creates and absolute new names, and without a relative rename of the root fid, stays inside; with the default root \"/\" every history does."
  },
  {
   "property": "C35",
   "status": "partial",
   "theorems": [
    "C35_rename_partial",
    "C35_rename_refuted"
   ],
   "note": "False of the code: an absolute new name with \"..\" (C35_rename_refuted; the root itself can also be renamed out by a relative name, rename_root_leaves in UfsRefute.v). Proved for all histories of careful requests (defined in UfsSpec.v)."
  },
  {
   "property": "C36",
   "status": "partial",
   "theorems": [
    "C36_independent_partial",
    "C36_shared_refuted"
   ],
   "note": "False of the code: a clone of an open fid shares the open file, and clunking one closes it for the other (C36_shared_refuted). Proved: a request changes the table entry of no other fid; without clones of open fids it touches no open file of another fid."
  },
  {
   "property": "C37",
   "status": "proved",
   "theorems": [
    "C37_file_read",
    "C37_bounded"
   ],
   "note": ""
  },
  {
   "property": "C38",
   "status": "partial",
   "theorems": [
    "C38_dir_reads_partial",
    "C38_one_read",
    "C38_no_overflow",
    "C38_record_decodes",
    "C38_small_count_refuted"
   ],
   "note": "False of the code for a count smaller than an entry: the reply is empty although the directory is not finished, and the entry is lost (C38_small_count_refuted). Proved when every count has room for each entry."
  },
  {
   "property": "C39",
   "status": "proved",
   "theorems": [
    "C39_keep_all",
    "C39_undecodable"
   ],
   "note": ""
  },
  {
   "property": "C40",
   "status": "partial",
   "theorems": [
    "C40_prefix_partial",
    "C40_single_partial",
    "C40_atomic_refuted"
   ],
   "note": "False of the code: mode and owner given: the mode is changed, then the request is refused (C40_atomic_refuted). Proved: what was changed is a prefix of the attributes given; with at most one attribute given it is all or nothing."
  },
  {
   "property": "C41",
   "status": "partial",
   "theorems": [
    "C41_values_partial",
    "C41_times_refuted",
    "C41_mode_refuted"
   ],
   "note": "False of the code: setting only the modification time sets the access time to 2^32-1 (C41_times_refuted); mode bits above 0777 are dropped (C41_mode_refuted). Proved: exactly which calls are made with which values."
  },
  {
   "property": "C42",
   "status": "proved",
   "theorems": [
    "C42_remove"
   ],
   "note": ""
  },
  {
   "property": "C43",
   "status": "proved",
   "theorems": [
    "C43_flags",
    "C43_open"
   ],
   "note": ""
  },
  {
   "property": "C44",
   "status": "proved",
   "theorems": [
    "C44_agree",
    "C44_other_fields",
    "C44_stat"
   ],
   "note": "The qid path is the inode number whenever FileInfo.Sys is a *syscall.Stat_t, as package os makes it on Unix."
  },
  {
   "property": "C45",
   "status": "proved",
   "theorems": [
    "C45_read_after_writes",
    "C45_write",
    "C45_empty_world"
   ],
   "note": "On the operating system of MemOS.v, for requests that do not truncate the file. Every other answer of the operating system is covered by C37_file_read and C45_write only at the level of calls."
  },
  {
   "property": "C46",
   "status": "partial",
   "theorems": [
    "C46_create_partial",
    "C46_new_name_partial",
    "C46_existing_name",
    "C46_existing_refuted"
   ],
   "note": "False of the code: create over an existing name truncates it, and with DMDIR reports success although nothing was made (C46_existing_refuted, C46_existing_name). Proved: the calls made for every operating system; on MemOS.v, what a create of a new name does."
  },
  {
   "property": "C47",
   "status": "partial",
   "theorems": [
    "C47_closed_partial",
    "C47_leak_refuted"
   ],
   "note": "False of the code: opening an open fid again loses the first file (C47_leak_refuted); a file shared by a clone is closed twice. Proved for histories without reopening, reattaching, walking onto or cloning an open fid, and creates that fail after opening: every file is closed exactly once or still held."
  },
  {
   "property": "C48",
   "status": "proved",
   "theorems": [
    "C48_transparent",
    "C48_step"
   ],
   "note": ""
  },
  {
   "property": "C49",
   "status": "proved",
   "theorems": [
    "C49_backoff"
   ],
   "note": ""
  },
  {
   "property": "C50",
   "status": "partial",
   "theorems": [
    "C50_shutdown_partial",
    "C50_shutdown_any_order",
    "C50_double_serve_refuted"
   ],
   "note": "Proved for the listeners whose most recent Serve has not returned, every history and iteration order; a listener served by two Serve calls at once is missed after one returns (C50_double_serve_refuted)."
  },
  {
   "property": "C51",
   "status": "partial",
   "theorems": [
    "C51_lock_partial",
    "C51_attach_refuted"
   ],
   "note": "False of the code for attach, which stores without the lock (C51_attach_refuted). Proved for all other methods."
  },
  {
   "property": "C52",
   "status": "partial",
   "theorems": [
    "C52_client_framing_partial",
    "C52_split_header_refuted"
   ],
   "note": "False of the code when a 7-byte header arrives in two reads (C52_split_header_refuted). Proved for all segmentations that do not cut a header."
  },
  {
   "property": "C53",
   "status": "proved",
   "theorems": [
    "C53_end_to_end"
   ],
   "note": "For a client with a Trace function (without one see C30)."
  },
  {
   "property": "C54",
   "status": "partial",
   "theorems": [
    "C54_panic_partial",
    "C54_negative_count_refuted"
   ],
   "note": "False of the code: a read of an open file with a negative count panics (C54_negative_count_refuted). Proved: this is the only case, if the operating system does not report more bytes than asked for."
  },
  {
   "property": "C55",
   "status": "partial",
   "theorems": [
    "C55_version_partial",
    "C55_reset_refuted"
   ],
   "note": "False of the code: Rversion does not touch the table (C55_version_partial, C55_reset_refuted)."
  },
  {
   "property": "C56",
   "status": "proved",
   "theorems": [
    "C56_generated"
   ],
   "note": ""
  },
  {
   "property": "C57",
   "status": "proved",
   "theorems": [
    "C57_parsed",
    "C57_marshal_request",
    "C57_marshal_reply",
    "C57_marshal_dir",
    "C57_unmarshal_request",
    "C57_unmarshal_reply",
    "C57_unmarshal_dir",
    "C57_any_request",
    "C57_any_reply",
    "C57_any_dir",
    "C57_server_stub",
    "C57_server_error",
    "C57_call",
    "C57_call_error"
   ],
   "note": "Relative to the interpreter of GoSyntax.v and GoSem.v (a subset of Go; the message structs and constants of protocol.go are tables in it, compared with the text of protocol.go by C67_tables)."
  },
  {
   "property": "C58",
   "status": "partial",
   "theorems": [
    "C58_version_partial",
    "C58_unknown_refuted"
   ],
   "note": "False of the code: a version other than 9P2000 is answered with Rerror (C58_unknown_refuted), where version(5) asks for Rversion with \"unknown\" or a version the server speaks. Proved: the exact answer; the message size is always accepted as proposed, whatever it is."
  },
  {
   "property": "C59",
   "status": "proved",
   "theorems": [
    "C59_follows",
    "C59_not_over_directory"
   ],
   "note": ""
  },
  {
   "property": "C60",
   "status": "proved",
   "theorems": [
    "C60_program",
    "C60_request",
    "C60_text"
   ],
   "note": "Relative to the parser and machine of GoSyntax.v and GoRun.v and to the meaning of the library in UfsRun.v. One method call at a time per connection, -debug=0."
  },
  {
   "property": "C61",
   "status": "proved",
   "theorems": [
    "C61_program",
    "C61_dispatch",
    "C61_session",
    "C61_no_connection",
    "C61_one_ending"
   ],
   "note": "Relative to the parser and machine of GoSyntax.v and GoRun.v and to the meaning of the library in ServerRun.v; the generated Srv functions are those of Stubs.v (C57). One connection at a time; the trace function changes nothing."
  },
  {
   "property": "C62",
   "status": "proved",
   "theorems": [
    "C62_track",
    "C62_shutdown",
    "C62_serve",
    "C62_new_listener"
   ],
   "note": "Relative to the parser and machine of GoSyntax.v and GoRun.v and to the meaning of the library in ListenerRun.v. Each function runs alone (the model of C50 says what holds for histories of such calls)."
  },
  {
   "property": "C63",
   "status": "proved",
   "theorems": [
    "C63_program",
    "C63_debug"
   ],
   "note": "Relative to the parser and machine of GoSyntax.v and GoRun.v and to the meaning of fmt and log in GoFmt.v and DebugRun.v."
  },
  {
   "property": "C64",
   "status": "proved",
   "theorems": [
    "C64_new_fails",
    "C64_new",
    "C64_gettag",
    "C64_getfid",
    "C64_client"
   ],
   "note": "Relative to the parser and machine of GoSyntax.v and GoRun.v and to the meaning of the library and of channels in ClientRun.v. One inclusion: every execution of the text is one of the model. Callers are those of genout.go (C57); byte slices are values; what is traced or printed is not looked at; ToNet is set; one option stands for all options."
  },
  {
   "property": "C65",
   "status": "proved",
   "theorems": [
    "C65_replies",
    "C65_reads",
    "C65_tags",
    "C65_fids",
    "C65_honest"
   ],
   "note": "Executions of the text as in C64."
  },
  {
   "property": "C66",
   "status": "partial",
   "theorems": [
    "C66_lost_connection_refuted",
    "C66_hostile_crash_refuted",
    "C66_untraced_refuted",
    "C66_write_refuted",
    "C66_hostile_wedge_refuted",
    "C66_wedged",
    "C66_lives_partial"
   ],
   "note": "False: the end of the connection, a failing write, a reply to no request and any reply without a trace function kill the process; a reply sent twice blocks the receiver for ever (refutations are executions of the text). Proved: it lives at servers that answer once and with the tag."
  },
  {
   "property": "C67",
   "status": "proved",
   "theorems": [
    "C67_parsed",
    "C67_constants",
    "C67_names",
    "C67_layouts",
    "C67_stat",
    "C67_model",
    "C67_tables"
   ],
   "note": "The numbers and layouts to compare with are in ProtocolSpec.v, written down from the manual."
  },
  {
   "property": "C68",
   "status": "proved",
   "theorems": [
    "C68_generated",
    "C68_parsed"
   ],
   "note": "Relative to the parser and machine of GoSyntax.v and GoRun.v and to the meaning of reflect, text/template, fmt, bytes.Buffer, flag and ioutil in GenRun.v. The flag -d has its default."
  },
  {
   "property": "C69",
   "status": "proved",
   "theorems": [
    "C69_main",
    "C69_only",
    "C69_never_returns",
    "C69_apart"
   ],
   "note": "Relative to the parser and machine of GoSyntax.v and GoRun.v and to the meaning of flag, net, log, sync and time in DaemonRun.v. The goroutines of the connections are not run (C61 does). A command line that flag.Parse rejects is not covered."
  },
  {
   "property": "C70",
   "status": "proved",
   "theorems": [
    "C70_text",
    "C70_model",
    "C70_as_alone",
    "C70_ends",
    "C70_replies",
    "C70_crash_refuted"
   ],
   "note": "Relative to the parser and machine of GoSyntax.v and GoRun.v and to the library of UfsRun.v; memory is separate for each connection (C69_apart), -debug=0. The requests arrive from outside (C61 is about how they get there). A panic in one connection ends the process (C70_crash_refuted)."
  },
  {
   "property": "C71",
   "status": "proved",
   "theorems": [
    "C71_write",
    "C71_read",
    "C71_linearizable",
    "C71_after"
   ],
   "note": "As C70, with the operating system of MemOS.v (no hard or symbolic links, no permissions; a call of it is atomic). Reads of directories take several calls and are not covered."
  },
  {
   "property": "C72",
   "status": "partial",
   "theorems": [
    "C72_race",
    "C72_safe",
    "C72_progress",
    "C72_mutex",
    "C72_held",
    "C72_history",
    "C72_set",
    "C72_shutdown",
    "C72_shutdown_end",
    "C72_serving",
    "C72_serve_end",
    "C72_after_refuted"
   ],
   "note": "All but the last sentence is proved, from the text, for every interleaving. The last sentence is false of the code: a Serve that has started but not yet taken l.mu is not stopped by a Shutdown (C72_after_refuted)."
  },
  {
   "property": "C73",
   "status": "proved",
   "theorems": [
    "C73_serial",
    "C73_alive",
    "C73_fitting"
   ],
   "note": "From the texts of client.go and server.go. Writes of the server are assumed to succeed; a failing write of the client sends nothing; what the server does after the client process has gone is left out."
  },
  {
   "property": "C74",
   "status": "proved",
   "theorems": [
    "C74_live",
    "C74_moves"
   ],
   "note": "From the texts of client.go and server.go, in the setting of C73. That what can happen by itself also comes to an end is C75. GetTag is left out: tags taken with it are never given back, so enough of them block every call."
  },
  {
   "property": "C75",
   "status": "proved",
   "theorems": [
    "C75_ends",
    "C75_finite",
    "C75_stopped",
    "C75_returns"
   ],
   "note": "From the texts of client.go and server.go, in the setting of C73 and C74. A write of the client may fail at any time and a header that arrives in pieces makes the client give up (LEof without any failure), so LFatal and LEof are among the outcomes of C75_stopped."
  },
  {
   "property": "C76",
   "status": "proved",
   "theorems": [
    "C76_alive",
    "C76_returns",
    "C76_finite",
    "C76_stopped",
    "C76_pieces_refuted"
   ],
   "note": "From the texts of client.go and server.go, in the setting of C73 to C75. The condition that no read ends inside a header is part of the property; C76_pieces_refuted shows that it is needed. GetTag is left out of the part about returning, as in C74."
  },
  {
   "property": "C77",
   "status": "proved",
   "theorems": [
    "C77_answers",
    "C77_serial",
    "C77_alive",
    "C77_returns",
    "C77_stopped",
    "C77_minus_refuted",
    "C77_long_refuted"
   ],
   "note": "C73, C74 and C76 for the file server of filesystem.go (model Ufs.v, which C60 links to the text). Conditions on the operating system: decent in UfsFits.v; on the requests: modest. C77_minus_refuted and C77_long_refuted show that the latter are needed."
  },
  {
   "property": "C78",
   "status": "proved",
   "theorems": [
    "C78_read_after_write",
    "C78_sequence",
    "C78_directory_refuted",
    "C78_mem"
   ],
   "note": "For the file server of filesystem.go (model Ufs.v, which C60 links to the text) and operating systems with keeps in UfsStored.v; C78_mem: MemOS.v is one. The exception for directories is part of the statement: the file server goes by the QID it stored when it walked to the file; C78_directory_refuted shows that it is needed."
  },
  {
   "property": "C79",
   "status": "proved",
   "theorems": [
    "C79_answers",
    "C79_serial",
    "C79_alive",
    "C79_returns",
    "C79_stopped",
    "C79_read_after_write",
    "C79_exists"
   ],
   "note": "C77 and C78 for any NineServer whose methods do what the text of filesystem.go does (runs_text in UfsText.v; C79_exists: there is one). The file server has its own memory, apart from that of server.go: the two share no variables. Without the flag -debug (with it: C80); IOunit is 8192 as in NewUFS."
  },
  {
   "property": "C80",
   "status": "proved",
   "theorems": [
    "C80_answers",
    "C80_lines",
    "C80_serial",
    "C80_alive",
    "C80_returns",
    "C80_stopped",
    "C80_read_after_write"
   ],
   "note": "Any NineServer inside the wrapper debugfs (Debugfs.v, which C63 compares with the text of debug.go); in C80_read_after_write it runs the text of filesystem.go. With the text of debug.go in the joint run: C81."
  },
  {
   "property": "C81",
   "status": "proved",
   "theorems": [
    "C81_answers",
    "C81_log",
    "C81_serial",
    "C81_alive",
    "C81_returns",
    "C81_stopped",
    "C81_read_after_write",
    "C81_exists"
   ],
   "note": "For any NineServers whose methods do what the texts of filesystem.go (runs_text) and debug.go (runs_debug in DebugText.v) do; C79_exists and C81_exists: there are some. The wrapper has its own memory, apart from those of the file server and of server.go; calls from one to the other pass values, as in C60 to C63. The start (wraps) is a DebugFileServer around a new FileServer; that every connection gets its own when the flag is set: C69."
  }
 ]
}