#!/usr/bin/env python3
"""Writes MANIFEST.json: collects the theorems named Cnn_* from rocq/theories/Props*.v and the
status and note of each property from the table below."""
import json, re, glob, os
root = os.path.join(os.path.dirname(os.path.abspath(__file__)), '..')
thms = {}
for f in sorted(glob.glob(root + '/rocq/theories/Props*.v')):
    for m in re.finditer(r'^(?:Theorem|Corollary) ((C\d\d)_\w+)', open(f).read(), re.M):
        thms.setdefault(m[2], []).append(m[1])
notes = {
 'C01': ('proved', ''),
 'C02': ('proved', ''),
 'C03': ('proved', ''),
 'C04': ('proved', ''),
 'C05': ('proved', ''),
 'C06': ('partial', 'False of the code: a walk with a 65536-byte name is encoded with a wrapped count and decodes without error to a different walk (C06_overlong_refuted, witness in C06_case). The partial theorem covers every request except walks with such a name; C06_reply_overlong covers every reply.'),
 'C07': ('proved', ''),
 'C08': ('partial', 'False of the code: bytes.Buffer.Read returns short reads without error, so a message cut inside an integer is accepted (C08_truncated_refuted); a Twrite cut inside its data is never rejected (C08_write_cut_in_data). Proved: cuts at field boundaries and inside the characters of any string are rejected.'),
 'C09': ('partial', 'False of the code for the kinds with a data block (C09_decoders_crash_refuted); proved for every other kind and for directory records, and the four crash conditions are characterised exactly (…_crashes_iff).'),
 'C10': ('partial', 'False of the code (C10_data_refuted): the block may consist of memory behind the message. Proved: strings always come from the message; the data decoders are characterised completely, in particular the block is from the message when the count is honest.'),
 'C11': ('partial', 'False of the code (C11_canonical_refuted). Proved: accepted bytes are a prefix of the canonical encoding of the decoded message, at most 7 bytes short unless there is a data block.'),
 'C12': ('proved', 'The generator is modelled by the meaning of the code it emits per field (Gen.v), the generated functions are transcribed statement by statement (Codec.v).'),
 'C13': ('proved', ''),
 'C14': ('proved', 'Completeness (every frame answered) assumes that no 7-byte header is cut by the transport (see C19), no write failure and no crash (see C20); the ordering theorem assumes nothing.'),
 'C15': ('proved', ''),
 'C16': ('proved', ''),
 'C17': ('partial', 'False of the code: Versioned is set before the file server is asked (C17_failed_version_refuted, C17_any_version_opens). Proved: without any Tversion everything is refused.'),
 'C18': ('partial', 'False of the code: the decoding error is ignored and the method is called with what was decoded (C18_malformed_refuted, C18_decoding_errors_ignored). Proved: messages of unknown type have no effect.'),
 'C19': ('partial', 'False of the code when a 7-byte header arrives in two reads (C19_segmentation_refuted). Proved for all segmentations that do not cut a header.'),
 'C20': ('partial', 'False of the code: a Twrite or Twstat whose count exceeds the message plus spare memory panics (C20_crash_refuted). Proved: this is the only cause (C20_crash_cause); clients whose writes/wstats are well formed cannot crash it.'),
 'C21': ('partial', 'False of the code in all three parts (three refutations). Proved: streams of complete messages with honest sizes are cut exactly at the size fields.'),
 'C22': ('proved', ''),
 'C24': ('proved', ''),
 'C25': ('proved', 'For a client with a Trace function (without one see C30).'),
 'C26': ('proved', 'For a client with a Trace function (without one see C30); callers do not hoard tags with GetTag. Termination measure: exactly 12 steps per call.'),
 'C27': ('partial', 'False of the code: the 64-bit counter is cut to 32 bits, so NOFID is handed out by call 4294967294 and fids repeat after 2^32 calls (two refutations). Proved: the exact sequence, and distinctness up to 4294967293 calls.'),
 'C28': ('partial', 'False of the code: the receiver dereferences nil when the channel is closed (C28_lost_connection_refuted); proved that the process can then only die (within four steps) or hang, and that no reply is invented.'),
 'C29': ('partial', 'False of the code in three ways (refutations: panic on unknown tag, hang on a repeated tag, panic on a lying count). Proved: exactly when it crashes, and that any packet completes at most the one call that holds its tag.'),
 'C30': ('partial', 'False of the code: two Trace calls are not guarded (C30_tracing_refuted). Proved: the clients behave the same except that the one without Trace crashes on the first reply.'),
 'C52': ('partial', 'False of the code when a 7-byte header arrives in two reads (C52_split_header_refuted). Proved for all segmentations that do not cut a header.'),
 'C53': ('proved', 'For a client with a Trace function (without one see C30).'),
 'C31': ('proved', ''),
 'C32': ('proved', 'A walk onto a newfid that is already in use (and is not fid itself) is refused and changes nothing; walks without elements are C32_clone.'),
 'C33': ('proved', ''),
 'C34': ('partial', 'False of the code: ".." in a walk or create leaves the exported directory (C34_walk_refuted, C34_create_refuted). Proved: every history without ".." in walks, creates and absolute new names, and without a relative rename of the root fid, stays inside; with the default root "/" every history does.'),
 'C35': ('partial', 'False of the code: an absolute new name with ".." (C35_rename_refuted; the root itself can also be renamed out by a relative name, rename_root_leaves in UfsRefute.v). Proved for all histories of careful requests (defined in UfsSpec.v).'),
 'C36': ('partial', 'False of the code: a clone of an open fid shares the open file, and clunking one closes it for the other (C36_shared_refuted). Proved: a request changes the table entry of no other fid; without clones of open fids it touches no open file of another fid.'),
 'C37': ('proved', ''),
 'C38': ('partial', 'False of the code for a count smaller than an entry: the reply is empty although the directory is not finished, and the entry is lost (C38_small_count_refuted). Proved when every count has room for each entry.'),
 'C39': ('proved', ''),
 'C40': ('partial', 'False of the code: mode and owner given: the mode is changed, then the request is refused (C40_atomic_refuted). Proved: what was changed is a prefix of the attributes given; with at most one attribute given it is all or nothing.'),
 'C41': ('partial', 'False of the code: setting only the modification time sets the access time to 2^32-1 (C41_times_refuted); mode bits above 0777 are dropped (C41_mode_refuted). Proved: exactly which calls are made with which values.'),
 'C42': ('proved', ''),
 'C43': ('proved', ''),
 'C44': ('proved', 'The qid path is the inode number whenever FileInfo.Sys is a *syscall.Stat_t, as package os makes it on Unix.'),
 'C45': ('proved', 'On the operating system of MemOS.v, for requests that do not truncate the file. Every other answer of the operating system is covered by C37_file_read and C45_write only at the level of calls.'),
 'C46': ('partial', 'False of the code: create over an existing name truncates it, and with DMDIR reports success although nothing was made (C46_existing_refuted, C46_existing_name). Proved: the calls made for every operating system; on MemOS.v, what a create of a new name does.'),
 'C47': ('partial', 'False of the code: opening an open fid again loses the first file (C47_leak_refuted); a file shared by a clone is closed twice. Proved for histories without reopening, reattaching, walking onto or cloning an open fid, and creates that fail after opening: every file is closed exactly once or still held.'),
 'C51': ('partial', 'False of the code for attach, which stores without the lock (C51_attach_refuted). Proved for all other methods.'),
 'C54': ('partial', 'False of the code: a read of an open file with a negative count panics (C54_negative_count_refuted). Proved: this is the only case, if the operating system does not report more bytes than asked for.'),
 'C55': ('partial', 'False of the code: Rversion does not touch the table (C55_version_partial, C55_reset_refuted).'),
 'C49': ('proved', ''),
 'C58': ('partial', 'False of the code: a version other than 9P2000 is answered with Rerror (C58_unknown_refuted), where version(5) asks for Rversion with "unknown" or a version the server speaks. Proved: the exact answer; the message size is always accepted as proposed, whatever it is.'),
 'C59': ('proved', ''),
 'C56': ('proved', ''),
 'C60': ('proved', 'Relative to the parser and machine of GoSyntax.v and GoRun.v and to the meaning of the library in UfsRun.v. One method call at a time per connection, -debug=0.'),
 'C61': ('proved', 'Relative to the parser and machine of GoSyntax.v and GoRun.v and to the meaning of the library in ServerRun.v; the generated Srv functions are those of Stubs.v (C57). One connection at a time; the trace function changes nothing.'),
 'C62': ('proved', 'Relative to the parser and machine of GoSyntax.v and GoRun.v and to the meaning of the library in ListenerRun.v. Each function runs alone (the model of C50 says what holds for histories of such calls).'),
 'C63': ('proved', 'Relative to the parser and machine of GoSyntax.v and GoRun.v and to the meaning of fmt and log in GoFmt.v and DebugRun.v.'),
 'C64': ('proved', 'Relative to the parser and machine of GoSyntax.v and GoRun.v and to the meaning of the library and of channels in ClientRun.v. One inclusion: every execution of the text is one of the model. Callers are those of genout.go (C57); byte slices are values; what is traced or printed is not looked at; ToNet is set; one option stands for all options.'),
 'C65': ('proved', 'Executions of the text as in C64.'),
 'C66': ('partial', 'False: the end of the connection, a failing write, a reply to no request and any reply without a trace function kill the process; a reply sent twice blocks the receiver for ever (refutations are executions of the text). Proved: it lives at servers that answer once and with the tag.'),
 'C67': ('proved', 'The numbers and layouts to compare with are in ProtocolSpec.v, written down from the manual.'),
 'C68': ('proved', 'Relative to the parser and machine of GoSyntax.v and GoRun.v and to the meaning of reflect, text/template, fmt, bytes.Buffer, flag and ioutil in GenRun.v. The flag -d has its default.'),
 'C69': ('proved', 'Relative to the parser and machine of GoSyntax.v and GoRun.v and to the meaning of flag, net, log, sync and time in DaemonRun.v. The goroutines of the connections are not run (C61 does). A command line that flag.Parse rejects is not covered.'),
 'C70': ('proved', 'Relative to the parser and machine of GoSyntax.v and GoRun.v and to the library of UfsRun.v; memory is separate for each connection (C69_apart), -debug=0. The requests arrive from outside (C61 is about how they get there). A panic in one connection ends the process (C70_crash_refuted).'),
 'C71': ('proved', 'As C70, with the operating system of MemOS.v (no hard or symbolic links, no permissions; a call of it is atomic). Reads of directories take several calls and are not covered.'),
 'C72': ('partial', 'All but the last sentence is proved, from the text, for every interleaving. The last sentence is false of the code: a Serve that has started but not yet taken l.mu is not stopped by a Shutdown (C72_after_refuted).'),
 'C73': ('proved', 'From the texts of client.go and server.go. Writes of the server are assumed to succeed; a failing write of the client sends nothing; what the server does after the client process has gone is left out.'),
 'C74': ('proved', 'From the texts of client.go and server.go, in the setting of C73. That what can happen by itself also comes to an end is C75. GetTag is left out: tags taken with it are never given back, so enough of them block every call.'),
 'C75': ('proved', 'From the texts of client.go and server.go, in the setting of C73 and C74. A write of the client may fail at any time and a header that arrives in pieces makes the client give up (LEof without any failure), so LFatal and LEof are among the outcomes of C75_stopped.'),
 'C76': ('proved', 'From the texts of client.go and server.go, in the setting of C73 to C75. The condition that no read ends inside a header is part of the property; C76_pieces_refuted shows that it is needed. GetTag is left out of the part about returning, as in C74.'),
 'C77': ('proved', 'C73, C74 and C76 for the file server of filesystem.go (model Ufs.v, which C60 links to the text). Conditions on the operating system: decent in UfsFits.v; on the requests: modest. C77_minus_refuted and C77_long_refuted show that the latter are needed.'),
 'C78': ('proved', 'For the file server of filesystem.go (model Ufs.v, which C60 links to the text) and operating systems with keeps in UfsStored.v; C78_mem: MemOS.v is one. The exception for directories is part of the statement: the file server goes by the QID it stored when it walked to the file; C78_directory_refuted shows that it is needed.'),
 'C79': ('proved', 'C77 and C78 for any NineServer whose methods do what the text of filesystem.go does (runs_text in UfsText.v; C79_exists: there is one). The file server has its own memory, apart from that of server.go: the two share no variables. Without the flag -debug (with it: C80); IOunit is 8192 as in NewUFS.'),
 'C80': ('proved', 'Any NineServer inside the wrapper debugfs (Debugfs.v, which C63 compares with the text of debug.go); in C80_read_after_write it runs the text of filesystem.go. With the text of debug.go in the joint run: C81.'),
 'C81': ('proved', 'For any NineServers whose methods do what the texts of filesystem.go (runs_text) and debug.go (runs_debug in DebugText.v) do; C79_exists and C81_exists: there are some. The wrapper has its own memory, apart from those of the file server and of server.go; calls from one to the other pass values, as in C60 to C63. The start (wraps) is a DebugFileServer around a new FileServer; that every connection gets its own when the flag is set: C69.'),
 'C57': ('proved', 'Relative to the interpreter of GoSyntax.v and GoSem.v (a subset of Go; the message structs and constants of protocol.go are tables in it, compared with the text of protocol.go by C67_tables).'),
 'C23': ('proved', 'For every interleaving at the granularity of single file-system and table operations, as long as the process lives. A panic in one connection ends the process (C23_crash_refuted).'),
 'C48': ('proved', ''),
 'C50': ('partial', 'Proved for the listeners whose most recent Serve has not returned, every history and iteration order; a listener served by two Serve calls at once is missed after one returns (C50_double_serve_refuted).'),
}
ids = [json.loads(l)['id'] for l in open(root + '/properties.jsonl')]
claims = []
for i in ids:
    st, note = notes.get(i, ('partial', 'not yet proved'))
    claims.append({'property': i, 'status': st, 'theorems': thms.get(i, []), 'note': note})
json.dump({'claims': claims}, open(root + '/MANIFEST.json', 'w'), indent=1, ensure_ascii=False)
