{"id": "C01", "title": "T-message round trip", "statement": "For each of the 12 request kinds, decoding the bytes produced by encoding a request with any tag gives back exactly the same tag and field values, with no error and nothing left over, whatever unrelated memory lies behind the buffer.", "quantifier": "every request kind, tag, field value in the range of its Go type, every string/list shorter than 65536, every data block that fits a 32-bit message", "why_tests_cant": "the space of field values and byte strings is infinite; a test samples literals", "anchors": ["protocol/genout.go: Marshal/UnmarshalT*Pkt"]}
{"id": "C02", "title": "R-message round trip", "statement": "For each of the 13 reply kinds (including Rerror), decoding the bytes produced by encoding a reply with any tag gives back exactly the same tag and field values, with no error and nothing left over.", "quantifier": "every reply kind, tag and field value in range", "why_tests_cant": "same as C01", "anchors": ["protocol/genout.go: Marshal/UnmarshalR*Pkt"]}
{"id": "C03", "title": "Directory record round trip", "statement": "Decoding the bytes of an encoded directory record yields the same record, for every record whose strings are shorter than 65536 bytes, and leaves any following bytes unread.", "quantifier": "every Dir value in range and every byte string that follows it", "why_tests_cant": "infinite domain", "anchors": ["protocol/genout.go: Marshaldir, Unmarshaldir"]}
{"id": "C04", "title": "Encoded bytes are the 9P2000 layout", "statement": "The bytes of every encoded message are exactly those of the 9P2000 manual page: size[4] type[1] tag[2] then the fields in order, integers little-endian, strings with a 2-byte count, data with a 4-byte count, and size[4] is the total length.", "quantifier": "every message kind and field values", "why_tests_cant": "a wrong byte position can hide behind any untested value", "anchors": ["protocol/genout.go: Marshal*Pkt", "protocol/protocol.go: message type constants, *Pkt structs"]}
{"id": "C05", "title": "Distinct messages have distinct encodings; streams are uniquely decodable", "statement": "Two different messages never have the same encoding, and a concatenation of encoded messages can be split back into them in only one way.", "quantifier": "all pairs of messages, all finite streams of messages", "why_tests_cant": "quantifies over pairs and sequences", "anchors": ["protocol/genout.go: Marshal*Pkt", "protocol/server.go: conn.serve (framing)"]}
{"id": "C06", "title": "Over-long strings and lists", "statement": "A string, walk list or stat block longer than 65535 is never encoded so that it decodes to something else without an error (as relied on by callers that never check lengths).", "quantifier": "all strings/lists of any length", "why_tests_cant": "needs inputs above 65535 and a statement about all of them", "anchors": ["protocol/genout.go: emitEncodeString output, MarshalTwalkPkt, MarshalRstatPkt"]}
{"id": "C07", "title": "Trailing bytes are rejected", "statement": "Decoding a correctly encoded message followed by one or more extra bytes reports an error.", "quantifier": "every message kind, every message, every non-empty suffix", "why_tests_cant": "infinite suffixes", "anchors": ["protocol/genout.go: Unmarshal*Pkt 'Packet too long'"]}
{"id": "C08", "title": "Truncated messages are rejected", "statement": "Decoding a strict prefix of a correctly encoded message reports an error.", "quantifier": "every message kind, every message, every strict prefix", "why_tests_cant": "every cut position of every message", "anchors": ["protocol/genout.go: Unmarshal*Pkt b.Read(u[:n])"]}
{"id": "C09", "title": "Decoders never crash", "statement": "No decoder panics on any byte string; the decoders of Rerror, Rversion, ..., i.e. all message kinds, return a value or an error.", "quantifier": "every byte string, every buffer capacity, every message kind", "why_tests_cant": "all byte strings", "anchors": ["protocol/genout.go: Unmarshal*Pkt, b.Bytes()[:l]"]}
{"id": "C10", "title": "Data in a decoded Twrite/Rread/Twstat/Rstat came from the message", "statement": "The data block a decoder hands out consists of bytes that were in the message, never of other memory.", "quantifier": "every byte string and every content of the memory behind the buffer", "why_tests_cant": "depends on memory contents outside the message", "anchors": ["protocol/genout.go: UnmarshalTwritePkt, UnmarshalRreadPkt, UnmarshalTwstatPkt, UnmarshalRstatPkt"]}
{"id": "C11", "title": "Accepted bytes are canonical", "statement": "If a decoder accepts a byte string without error then re-encoding the decoded message gives that same byte string.", "quantifier": "every byte string, every decoder", "why_tests_cant": "all byte strings", "anchors": ["protocol/genout.go: Unmarshal*Pkt"]}
{"id": "C12", "title": "The generator is correct for every struct", "statement": "For every packet struct built from the supported field kinds (8/16/32/64-bit unsigned integers, strings, nested structs, []string, []QID, []byte, []DataCnt16) the encoder and decoder emitted by gen.go are inverse to each other, and the checked-in genout.go functions are what the generator emits for the structs in protocol.go.", "quantifier": "all field lists of any length and nesting, all values", "why_tests_cant": "quantifies over all message definitions, not only the ones in the repo", "anchors": ["protocol/gen.go: emitEncodeInt, emitDecodeInt, emitEncodeString, emitDecodeString, genEncodeSlice, genDecodeSlice, genEncodeStruct, genDecodeStruct", "protocol/genout.go"]}
{"id": "C13", "title": "Header overhead", "statement": "A Twrite of n data bytes is n+23 bytes and an Rread of n data bytes n+11 bytes, so data of at most msize-IOHDRSZ bytes always fits a message of msize bytes.", "quantifier": "every data block and msize", "why_tests_cant": "all sizes", "anchors": ["protocol/protocol.go: IOHDRSZ", "protocol/genout.go: MarshalTwritePkt, MarshalRreadPkt"]}
{"id": "C14", "title": "Exactly one reply per request, in order, with the request's tag", "statement": "The bytes the server writes to a connection are, in order, one well-formed reply per request read, each carrying the tag of its request.", "quantifier": "every file-server implementation, every sequence of requests (well-formed or not) on which it does not panic", "why_tests_cant": "all histories and all server implementations", "anchors": ["protocol/server.go: conn.serve, Dispatch", "protocol/genout.go: Srv*"]}
{"id": "C15", "title": "Reply kind matches the request", "statement": "Every reply is either Rerror or has exactly the type code of the request plus one; requests of unknown or unsupported type get Rerror.", "quantifier": "every request, server state and server implementation", "why_tests_cant": "all message types and states", "anchors": ["protocol/server.go: Dispatch", "protocol/genout.go: Srv*"]}
{"id": "C16", "title": "Nothing before version", "statement": "Until a Tversion has been received on a connection the file server is never called and every request is answered with an Rerror bearing its tag.", "quantifier": "every request sequence, every server implementation", "why_tests_cant": "all histories", "anchors": ["protocol/server.go: Dispatch, Server.Versioned"]}
{"id": "C17", "title": "A failed version negotiation does not open the session", "statement": "If every Tversion so far was refused by the file server, other requests are still refused.", "quantifier": "every request history", "why_tests_cant": "all histories", "anchors": ["protocol/server.go: Dispatch (s.Versioned = true)", "filesystem/filesystem.go: Rversion"]}
{"id": "C18", "title": "Malformed requests have no effect", "statement": "A request whose decoding reports an error is answered with Rerror and does not call the file server.", "quantifier": "every byte string the decoder reports an error for, every server state", "why_tests_cant": "all malformed inputs", "anchors": ["protocol/genout.go: Srv* (ignored err)"]}
{"id": "C19", "title": "Framing is independent of segmentation", "statement": "The server's replies depend only on the bytes received, not on how the transport splits them into reads.", "quantifier": "every byte stream and every split of it into chunks", "why_tests_cant": "all segmentations", "anchors": ["protocol/server.go: conn.serve c.rwc.Read", "protocol/client.go: readNetPackets"]}
{"id": "C20", "title": "No request crashes the server", "statement": "No byte stream from a client makes the connection goroutine panic (which would kill the whole process).", "quantifier": "every byte stream, every server history", "why_tests_cant": "all byte streams", "anchors": ["protocol/server.go: conn.serve", "protocol/genout.go: UnmarshalTwritePkt", "filesystem/filesystem.go: Rread make([]byte, c)"]}
{"id": "C21", "title": "Messages respect the declared and negotiated size", "statement": "The server never acts on a message whose declared size is below the 7-byte header or whose bytes did not all arrive, and never accepts one larger than the msize it returned from Tversion.", "quantifier": "every byte stream and every msize", "why_tests_cant": "all streams", "anchors": ["protocol/server.go: conn.serve io.LimitReader", "filesystem/filesystem.go: Rversion"]}
{"id": "C22", "title": "RPC transparency", "statement": "A client call returns exactly the values (or exactly the error text) that the file server's method returned when invoked with exactly the client's arguments.", "quantifier": "every server implementation and state, each of the 12 calls, all arguments and results within wire limits", "why_tests_cant": "all arguments, results and implementations", "anchors": ["protocol/genout.go: CallT*, Srv*", "protocol/server.go: Dispatch"]}
{"id": "C23", "title": "Connections are isolated", "statement": "Requests on one connection never change which fids are valid on another connection, nor their names, for any interleaving of connections.", "quantifier": "every number of connections and every interleaving of their requests", "why_tests_cant": "all interleavings", "anchors": ["protocol/server.go: newConn", "filesystem/filesystem.go: NewUFS nsCreator"]}
{"id": "C24", "title": "Tags of outstanding calls are unique", "statement": "At every moment two calls that have been assigned a tag and have not received their reply have different tags, each tag is between 1 and 65534, and a free tag is never one of them.", "quantifier": "every schedule of the client's goroutines, every number of callers, every server behaviour including a hostile one", "why_tests_cant": "all interleavings and all server behaviours", "anchors": ["protocol/client.go: NewClient, GetTag, IO"]}
{"id": "C25", "title": "Replies reach the right caller", "statement": "Whatever the order in which the server answers, each caller receives the answer computed for its own request bytes.", "quantifier": "every schedule, every server that answers each request once with its tag in any order, any number of concurrent calls", "why_tests_cant": "all interleavings", "anchors": ["protocol/client.go: IO, readNetPackets", "protocol/genout.go: CallT*"]}
{"id": "C26", "title": "Client calls complete", "statement": "With a server that answers every request, no schedule deadlocks: every finite set of calls runs to completion, even with more calls than tags.", "quantifier": "every schedule, any number of callers, calls and replies", "why_tests_cant": "liveness over all schedules", "anchors": ["protocol/client.go: IO, NewClient"]}
{"id": "C27", "title": "Fids are never reused", "statement": "The fids handed out by a client are pairwise distinct over its lifetime and none of them is NOFID.", "quantifier": "every number of GetFID calls, from any number of goroutines", "why_tests_cant": "needs more than 2^32 calls to see it fail", "anchors": ["protocol/client.go: GetFID"]}
{"id": "C28", "title": "A lost connection fails calls cleanly", "statement": "When the server closes the connection, outstanding and later calls return an error rather than hanging or crashing the process.", "quantifier": "every schedule and every moment of disconnection", "why_tests_cant": "all crash points", "anchors": ["protocol/client.go: readNetPackets, IO"]}
{"id": "C29", "title": "A hostile server cannot crash or wedge the client", "statement": "A reply with an unknown, reserved or already-used tag, or a short reply, is ignored or fails one call; it does not panic or block the client.", "quantifier": "every byte stream from the server", "why_tests_cant": "all byte streams", "anchors": ["protocol/client.go: IO (panics, rrr.Reply <- r.b)", "protocol/genout.go: CallT* bb[4]"]}
{"id": "C30", "title": "Tracing is optional", "statement": "A client built without a Trace function behaves as one built with it.", "quantifier": "every schedule and server", "why_tests_cant": "all schedules", "anchors": ["protocol/client.go: IO line 163, 165"]}
{"id": "C31", "title": "Fid validity follows the history", "statement": "A fid names a file exactly when the most recent successful introducing request (attach, or a complete walk to it) came after the last clunk or remove of it; every request on a fid that is not valid is refused and changes nothing.", "quantifier": "every request history, every operating-system behaviour", "why_tests_cant": "all histories", "anchors": ["filesystem/filesystem.go: getFile, Rattach, Rwalk, clunk, Rclunk, Rremove"]}
{"id": "C32", "title": "Walk semantics", "statement": "A walk returns one qid per element that could be walked, errors if the first cannot, and introduces newfid exactly when all elements could be walked; otherwise no fid changes.", "quantifier": "every fid table, path list and operating-system behaviour", "why_tests_cant": "all histories and paths", "anchors": ["filesystem/filesystem.go: Rwalk"]}
{"id": "C33", "title": "Attach stays inside the root", "statement": "The file an attach names is the exported root or lies below it, whatever aname contains.", "quantifier": "every exported root and every aname", "why_tests_cant": "all strings, including ../ sequences", "anchors": ["filesystem/filesystem.go: Rattach path.Join"]}
{"id": "C34", "title": "Walk and create stay inside the root", "statement": "Every path the server passes to the operating system lies inside the exported root.", "quantifier": "every request history, every element and name", "why_tests_cant": "all strings and histories", "anchors": ["filesystem/filesystem.go: Rwalk, Rcreate"]}
{"id": "C35", "title": "Rename stays inside the root", "statement": "A rename request cannot move a file outside the exported root.", "quantifier": "every name in a wstat request", "why_tests_cant": "all strings", "anchors": ["filesystem/filesystem.go: Rwstat"]}
{"id": "C36", "title": "Fids are independent", "statement": "Clunking, opening or renaming through one fid does not change what another fid refers to or whether it can be read.", "quantifier": "every history and pair of fids", "why_tests_cant": "all histories", "anchors": ["filesystem/filesystem.go: Rwalk nf := *f, clunk, Rwstat"]}
{"id": "C37", "title": "Reads return at most what was asked, from the right place", "statement": "A successful file read of count c at offset o returns at most c bytes, being the operating system's bytes at o; it has no effect on the fid table.", "quantifier": "every offset, count and file", "why_tests_cant": "all offsets and counts", "anchors": ["filesystem/filesystem.go: Rread"]}
{"id": "C38", "title": "Directory reads enumerate every entry once", "statement": "Reading a directory from offset 0 until an empty reply yields each entry exactly once, in order, as a complete directory record.", "quantifier": "every directory and every count", "why_tests_cant": "all directories", "anchors": ["filesystem/filesystem.go: Rread directory branch", "filesystem/filesystem_unix.go: resetDir"]}
{"id": "C39", "title": "Don't-care wstat is only a sync", "statement": "A wstat whose fields are all 'don't touch' (or whose record does not decode) modifies nothing; at most the open file is synced.", "quantifier": "every fid table and OS behaviour", "why_tests_cant": "all states", "anchors": ["filesystem/filesystem.go: Rwstat"]}
{"id": "C40", "title": "wstat is all or nothing", "statement": "A wstat that returns an error has changed nothing.", "quantifier": "every record, state and OS behaviour", "why_tests_cant": "all failure points", "anchors": ["filesystem/filesystem.go: Rwstat"]}
{"id": "C41", "title": "wstat changes only the fields given", "statement": "A wstat changes only the attributes whose fields are not 'don't touch', to exactly the values given.", "quantifier": "every record", "why_tests_cant": "all field combinations", "anchors": ["filesystem/filesystem.go: Rwstat (Chtimes)"]}
{"id": "C42", "title": "Remove always forgets the fid", "statement": "After a remove request the fid is invalid whether or not the file could be removed, and the operating system was asked to remove exactly the fid's file, after closing it.", "quantifier": "every state and OS behaviour", "why_tests_cant": "all OS failures", "anchors": ["filesystem/filesystem.go: Rremove, clunk"]}
{"id": "C43", "title": "Open modes", "statement": "The access mode passed to the operating system is read-only, write-only or read-write exactly as the two low bits of the 9P mode say (execute = read), plus truncation exactly when OTRUNC is set, and nothing else.", "quantifier": "all modes", "why_tests_cant": "whole domain, and interaction with create flags", "anchors": ["filesystem/ninep.go: modeToUnixFlags", "filesystem/filesystem.go: Ropen, Rcreate"]}
{"id": "C44", "title": "Qid and mode agree with the file", "statement": "The directory bit of a qid, the DMDIR bit of the mode in a stat and the operating system's notion of directory always agree; the qid path is the inode number; permission bits are copied.", "quantifier": "every file-info value", "why_tests_cant": "all metadata values", "anchors": ["filesystem/ninep.go: dirToQIDType, dirTo9p2000Mode, dirTo9p2000Dir", "filesystem/ninep_unix.go: fileInfoToQID"]}
{"id": "C45", "title": "Read after write", "statement": "Data written through one fid is what a later read of the same range through any fid on the same file returns, and other bytes are unchanged.", "quantifier": "all files, offsets, data blocks and histories of writes", "why_tests_cant": "all histories", "anchors": ["filesystem/filesystem.go: Rwrite, Rread"]}
{"id": "C46", "title": "Create creates", "statement": "A successful create leaves a new file (or, with DMDIR, a directory) of that name, the fid refers to it, and creating over an existing name is refused.", "quantifier": "all names, permissions and file-system states", "why_tests_cant": "all states", "anchors": ["filesystem/filesystem.go: Rcreate"]}
{"id": "C47", "title": "Every opened file is closed", "statement": "Every operating-system file the server opens for a fid is closed once the fid is clunked or removed.", "quantifier": "every history", "why_tests_cant": "all histories", "anchors": ["filesystem/filesystem.go: Ropen, Rcreate, Rwalk, clunk"]}
{"id": "C48", "title": "Debug wrapper is transparent", "statement": "A server wrapped in the debug server gives the same replies and leaves the same state as the server itself.", "quantifier": "every wrapped server implementation and request history", "why_tests_cant": "all implementations", "anchors": ["pkg/debugfs/debug.go: DebugFileServer"]}
{"id": "C49", "title": "Accept back-off", "statement": "After k consecutive temporary accept errors the server waits min(5ms*2^(k-1), 1s); a success resets the delay; a permanent error stops the loop.", "quantifier": "every sequence of accept outcomes", "why_tests_cant": "all sequences", "anchors": ["protocol/server.go: Listener.Serve"]}
{"id": "C50", "title": "Shutdown closes every active listener", "statement": "Shutdown closes each listener being served exactly once, forgets them all and returns the first close error, in whatever order the map is iterated.", "quantifier": "every set of listeners, every iteration order, every history of serve/stop/shutdown", "why_tests_cant": "all iteration orders", "anchors": ["protocol/server.go: trackListener, closeListenersLocked, Shutdown"]}
{"id": "C51", "title": "The fid table is only touched under its lock", "statement": "Every access to the fid table made by a file-server method happens while its mutex is held, and the mutex is released on every return path.", "quantifier": "every method, every path through it", "why_tests_cant": "all paths", "anchors": ["filesystem/filesystem.go: all methods using e.files, e.mu"]}
{"id": "C52", "title": "The client cuts the reply stream at the message boundaries", "statement": "However the transport splits a stream of complete replies, the client's reader passes on exactly these replies, in order.", "quantifier": "every sequence of replies, every segmentation by the transport", "why_tests_cant": "all segmentations of all streams", "anchors": ["protocol/client.go: readNetPackets"]}
{"id": "C53", "title": "A call returns what the file server answered", "statement": "With any number of concurrent callers and any order of answers, what a client call returns to its caller (reply fields, or error text) is what the remote file server returned for exactly this request.", "quantifier": "every schedule, every file server, every request and reply that fits the wire format", "why_tests_cant": "all schedules and answers", "anchors": ["protocol/client.go: IO, readNetPackets", "protocol/genout.go: CallT*, Srv*"]}
{"id": "C54", "title": "The file server never panics", "statement": "No request, whatever its fields, makes a method of the file server panic.", "quantifier": "every fid table, request and operating-system behaviour", "why_tests_cant": "all requests in all states with all answers of the operating system; the theorem characterises the panicking requests exactly", "anchors": ["filesystem/filesystem.go: Rread, Rwstat and all other methods"]}
{"id": "C55", "title": "Tversion starts a new session", "statement": "After a successful Tversion no fid of the connection is valid any more (as version(5) demands).", "quantifier": "every history", "why_tests_cant": "all histories", "anchors": ["filesystem/filesystem.go: Rversion"]}
{"id": "C56", "title": "genout.go is the generator's output", "statement": "The code generator, run on the message types of protocol.go, writes exactly the committed file protocol/genout.go.", "quantifier": "every byte of the file", "why_tests_cant": "no test runs the generator; the equality holds for the model of every function of gen.go", "anchors": ["protocol/gen.go: main, genMsgRPC, msfunc, usfunc, genEncodeStruct, genDecodeStruct", "protocol/genout.go"]}
{"id": "C57", "title": "The text of genout.go does what the protocol says", "statement": "Parsed and run as Go code, the Marshal functions of genout.go produce the wire layout of intro(5), the Unmarshal functions invert it, a server stub calls the file server's method with the decoded fields and encodes its answer, and a client stub returns what the file server answered.", "quantifier": "every message, every tag, every buffer, every file server, every behaviour of the memory management of bytes.Buffer", "why_tests_cant": "all messages and buffers; tests run a few", "anchors": ["protocol/genout.go: every function"]}
{"id": "C58", "title": "Version negotiation", "statement": "A Tversion is answered by Rversion; for 9P2000 with the same version and a message size not larger than proposed, for an unknown version with one the server speaks or \"unknown\".", "quantifier": "every version string, message size and state", "why_tests_cant": "all strings", "anchors": ["filesystem/filesystem.go: Rversion"]}
{"id": "C59", "title": "A fid follows its file when it is renamed", "statement": "After a wstat that renamed the file, the fid denotes the new name, also if a later part of the wstat failed; other fids are untouched; nothing is renamed over an existing directory.", "quantifier": "every fid table, wstat record and operating-system behaviour", "why_tests_cant": "all failures at all points", "anchors": ["filesystem/filesystem.go: Rwstat"]}
{"id": "C60", "title": "The text of package ufs does what its model does", "statement": "Parsed and run statement by statement, the Go text of filesystem/*.go makes a file server that answers every sequence of requests, calls the operating system, takes its lock and panics exactly as the model of the file server does; nothing in the text is left uninterpreted.", "quantifier": "every sequence of requests, every behaviour of the operating system, every root and user", "why_tests_cant": "all sequences and all operating-system behaviours; tests run a few requests on one file system", "anchors": ["filesystem/filesystem.go: every method of FileServer, getFile, clunk, stat, NewUFS", "filesystem/ninep.go", "filesystem/ninep_unix.go", "filesystem/filesystem_unix.go"]}
{"id": "C61", "title": "The text of server.go serves a connection as its model does", "statement": "Parsed and run statement by statement, the Go text of Accept, newConn, conn.serve and Dispatch reads requests from a connection, calls the file server, writes the replies, closes the connection and panics exactly as the model of the server does; it changes nothing else in memory, and nothing in the text is left uninterpreted.", "quantifier": "every file server, every sequence of network reads and write failures, every message buffer and type byte, every memory", "why_tests_cant": "all chunkings of the input, all failures and all file servers; tests use one connection and one file server", "anchors": ["protocol/server.go: newConn, Accept, conn.serve, Dispatch, logf, String", "protocol/protocol.go: RPCNames"]}
{"id": "C62", "title": "The text of server.go runs a listener as its model does", "statement": "Parsed and run statement by statement, the Go text of NewListener, Serve, trackListener, closeListenersLocked and Shutdown accepts, backs off, starts connections, keeps the set of listeners, closes them, returns errors and takes its lock exactly as the model of the listener does.", "quantifier": "every sequence of results of Accept, every set of listeners and order of iteration, every result of Close, every list of options", "why_tests_cant": "all sequences of errors and all iteration orders of a map; tests see one", "anchors": ["protocol/server.go: NewListener, Serve, trackListener, closeListenersLocked, Shutdown"]}
{"id": "C63", "title": "The text of package debugfs does what its model does", "statement": "Parsed and run statement by statement, every method of the Go text of pkg/debugfs logs the lines, calls the wrapped server and returns the results that the model says.", "quantifier": "every wrapped file server, every request, every state", "why_tests_cant": "all requests and all answers of the wrapped server; there are no tests of the log lines", "anchors": ["pkg/debugfs/debug.go: every method"]}
{"id": "C64", "title": "The text of client.go does what its model does", "statement": "Parsed and run statement by statement, with its goroutines interleaved in any way, the Go text of NewClient, GetTag, GetFID, IO and readNetPackets makes a client as the model says, and every execution of it (calls, packets written and read, replies delivered, tags and fids handed out, end of the process) is an execution of the model of the client; no goroutine ever gets to something that is not interpreted.", "quantifier": "every interleaving of the goroutines, any number of callers, every sequence of network reads, every failing write, every memory", "why_tests_cant": "all schedules of three goroutines and any number of callers; a test sees one of them", "anchors": ["protocol/client.go: NewClient, GetTag, GetFID, IO, readNetPackets"]}
{"id": "C65", "title": "What the running text of client.go shows: replies, tags, fids", "statement": "In every execution of the text of client.go, a reply given to a call is a packet read before, the call was started once before and has only this reply; packets are read in order; GetTag never returns the same tag twice and GetFID counts up modulo 2^32. At a server that answers requests at most once and with their tag, in any order, the process stays alive and every call gets an answer to its own request.", "quantifier": "every interleaving, any callers, every behaviour of the server (the last part: every such server)", "why_tests_cant": "all schedules and all servers", "anchors": ["protocol/client.go: IO, readNetPackets, GetTag, GetFID"]}
{"id": "C66", "title": "The running text of client.go survives its server and network", "statement": "The process of a client made by NewClient does not die, and every waiting call can still be answered, whatever the server sends, when the connection ends, when a write fails, and when no trace function is set.", "quantifier": "every interleaving, every network and server", "why_tests_cant": "needs the hostile packet or the failure at the right moment", "anchors": ["protocol/client.go: IO, readNetPackets"]}
{"id": "C67", "title": "protocol.go declares 9P2000", "statement": "The message types, tags, fids, modes and bits that the text of protocol.go declares are the numbers of 9P2000; RPCNames gives every message type its name; the struct of every message has the fields the manual lists, with their widths and in their order; so have qids and directory entries.", "quantifier": "every constant and every message of the protocol", "why_tests_cant": "a client and server built from the same wrong table agree with each other in every test", "anchors": ["protocol/protocol.go"]}
{"id": "C68", "title": "go run gen.go writes genout.go", "statement": "The Go text of gen.go, parsed and run statement by statement with the struct types in the text of protocol.go behind reflect, writes one file, genout.go, with exactly the contents of the file in the repository, and reports nothing.", "quantifier": "the whole program run (no input); every statement executed is interpreted", "why_tests_cant": "no test runs the generator; a stale or edited genout.go compiles and passes", "anchors": ["protocol/gen.go: main", "protocol/genout.go", "protocol/protocol.go"]}
{"id": "C69", "title": "The program ufs as a process", "statement": "The Go text of cmd/ufs, run with any command line: the package variables are initialised, the flags parsed, the address given is listened on once; if that fails the process ends with a message. Otherwise it starts exactly one goroutine per accepted connection, each with its own conn, Server and file server rooted at the flag root and without fids (and its own debug wrapper iff -debug is not 0), none of which shares a cell with another; it ends only when Accept fails for good, and then with that error, after closing the listener. main never returns.", "quantifier": "every command line, every outcome of net.Listen, every sequence of results of Accept", "why_tests_cant": "no test runs main; sharing of state between connections shows only under the right interleaving", "anchors": ["cmd/ufs/ufs.go: main", "filesystem/filesystem.go: NewUFS", "protocol/server.go: NewListener, Serve, newConn", "pkg/debugfs/debug.go"]}
{"id": "C70", "title": "The text of the file server under all interleavings of its connections", "statement": "When the goroutines of any number of connections run the Go text of package ufs step by step in any order, with a shared operating system that may answer anything, then what they show (connections, requests, calls with their answers, replies, panics, in one order) is an execution of the model of C23, and every execution of the model is one of the text. Every connection has, between two requests, a history of its own (so that all claims about histories hold for it), never waits for another one and comes to the end of every request by finitely many steps of its own.", "quantifier": "every number of connections, every interleaving at the granularity of single machine steps, every behaviour of the operating system", "why_tests_cant": "all interleavings and all behaviours of the operating system", "anchors": ["filesystem/filesystem.go", "filesystem/ninep.go", "protocol/server.go: newConn, serve"]}
{"id": "C71", "title": "Reads and writes through several connections are linearizable", "statement": "When any number of connections, served by the Go text of package ufs in any interleaving, work on one file system, every answered Twrite has written all of its bytes by exactly one call of the operating system between request and reply, every answered Tread of a file has got its bytes by exactly one such call, and the bytes are, from any moment on since which the file was not truncated, those of the last covering writes of all connections in the order of these calls. A read asked for after a write was answered returns what was written if nothing else changed the file in between.", "quantifier": "every number of connections, every interleaving of machine steps, every well-formed file system of MemOS.v, every offset below 2^64", "why_tests_cant": "all interleavings of several connections on one file", "anchors": ["filesystem/filesystem.go: Rread, Rwrite", "protocol/server.go: newConn, serve"]}
{"id": "C72", "title": "Serve and Shutdown of one Listener by many goroutines", "statement": "When any number of goroutines run the Go text of Listener.Serve and Listener.Shutdown on one Listener, step by step in any order, l.listeners and the map are touched only by the goroutine that holds l.mu; nobody panics, and everybody comes to l.mu, to a call of the network or of time, or to the end; l.mu is never held while accepting or sleeping. The calls take effect one after the other in the order in which l.mu is released: Shutdown closes every listener being served once and returns the first error, Serve waits, starts connections and returns as for one goroutine, after its listener is no longer tracked and is closed. After a Shutdown has returned, no connection is started by a Serve that began before it, on a listener that has not been closed (false: a Serve that has not reached l.mu goes on).", "quantifier": "every number of goroutines, every interleaving of machine steps, every result of Accept and Close, every order of the map", "why_tests_cant": "all interleavings of the goroutines", "anchors": ["protocol/server.go: Listener, trackListener, closeListenersLocked, Serve, Accept, Shutdown, logf"]}
{"id": "C73", "title": "Client and server together, from their texts: calls are answered as if made one after another", "statement": "Let a Client made by NewClient (with a trace function) and the goroutine that a Listener has started for its connection run from the Go texts of client.go and server.go, step by step, with a network between them that delivers the bytes of each direction in order, but late, in pieces of any size, and may fail. Then the requests that have been written belong to different calls, and the packets that the client has read are the answers of the file server to the first of these requests, taken one after another in the order of writing; every call that returns gets the decoded answer to its own request; a call that starts after another has returned comes after it in that order. As long as the connection has not ended, the client's process lives.", "quantifier": "every file server whose answers fit into messages, every number of concurrent calls with arguments that fit, every interleaving of the machine steps of both sides and of the network, every way of cutting the byte streams, every failure of reads and of client writes", "why_tests_cant": "all interleavings of two concurrent programs and all ways to cut and delay the streams", "anchors": ["protocol/client.go: NewClient, readNetPackets, IO", "protocol/server.go: Accept, serve, readNetPackets, Dispatch, logf", "protocol/genout.go: CallT*, SrvR*"]}
{"id": "C74", "title": "Client and server together, from their texts: no deadlock", "statement": "Let a Client and the goroutine that serves its connection run from the Go texts of client.go and server.go as in C73, with any number of calls in progress. As long as the client's process lives and some started call has not returned, something can happen without a new call and without a new failure: a step of one of the client's goroutines, a step of the server, the arrival of bytes, or the client finding the end of a connection that the server has closed.", "quantifier": "every file server whose answers fit into messages, every number of concurrent calls with arguments that fit, every reachable joint state (any interleaving, any cutting of the streams, earlier failures of reads and of client writes included), without uses of GetTag", "why_tests_cant": "the absence of a deadlock over all interleavings of four goroutines and a network", "anchors": ["protocol/client.go: NewClient, readNetPackets, IO", "protocol/server.go: Accept, serve, readNetPackets, Dispatch, logf", "protocol/genout.go: CallT*, SrvR*"]}
{"id": "C75", "title": "Client and server together, from their texts: they come to a stop, and then the calls have returned", "statement": "Let a Client and the goroutine that serves its connection run from the Go texts of client.go and server.go as in C73. From no reachable state can things go on forever without a new call: every sequence of steps of the client's goroutines, of the server and of the network is finite. When such a sequence cannot be continued, every started call has returned, unless the client has seen the end of the connection or a write of it has failed; and from every reachable state there is such a sequence after which all calls have returned or the client's process has died.", "quantifier": "every file server (for the part about returning: whose answers fit into messages), every number of concurrent calls with arguments that fit, every reachable joint state (any interleaving, any cutting of the streams, earlier failures of reads and of client writes included), every sequence of own steps of any length; for returning, without uses of GetTag", "why_tests_cant": "termination over all schedules of four goroutines and a network", "anchors": ["protocol/client.go: NewClient, readNetPackets, IO", "protocol/server.go: Accept, serve, readNetPackets, Dispatch, logf", "protocol/genout.go: CallT*, SrvR*"]}
{"id": "C76", "title": "Client and server together, from their texts: without failures every call returns", "statement": "Let a Client and the goroutine that serves its connection run from the Go texts of client.go and server.go as in C73, where no write fails, the connection is not cut, the file server does not panic, and no read on either side ends inside the first seven bytes of a message. Then the client never finds the end of the connection and never dies, the server keeps serving with the connection open; whatever happens without new calls is finite, and when nothing more can happen every started call has returned; from every such state it is possible to get there. Without the condition on where reads end the claim is false: three bytes of an answer make the client give up (C76_pieces_refuted).", "quantifier": "every file server that does not panic and whose answers fit into messages, every number of concurrent calls with arguments that fit, every interleaving of all goroutines, every cutting of the streams outside the headers, executions of any length; for returning, without uses of GetTag", "why_tests_cant": "that a concurrent call always returns is a statement about all schedules and all ways the network cuts the streams", "anchors": ["protocol/client.go: NewClient, readNetPackets, IO", "protocol/server.go: Accept, serve, readNetPackets, Dispatch, logf", "protocol/genout.go: CallT*, SrvR*"]}
{"id": "C77", "title": "A client and the file server together: no call is lost, every answer fits, every call returns", "statement": "Let a Client and the goroutine that serves its connection run from the Go texts of client.go and server.go as in C73 to C76, where the server serves the file server of filesystem.go on an operating system whose error texts, file names and inode numbers fit into 9P fields and whose ReadAt reads no more than it was asked for. Let the calls have arguments that fit, version texts and walk names of less than 65000 bytes, and read counts that are not negative. Then the file server answers every sequence of such requests without a panic and every answer fits into a message; so every call that returns gets the answer to its own request in one sequential order of all requests, and without failures the client lives, the server goes on serving and every call returns. Both conditions on the requests are needed: a read with a negative count makes the server panic (C77_minus_refuted), and the answer to a version request with a text of 65530 bytes does not fit into a message (C77_long_refuted).", "quantifier": "every such operating system (any state, any deterministic behaviour), every configuration with an IOunit below 2^32, every number of concurrent calls, every interleaving, every cutting of the streams (for returning: outside the headers), executions of any length", "why_tests_cant": "all sequences of requests against all behaviours of an operating system, over all schedules of client, server and network", "anchors": ["filesystem/filesystem.go: FileServer", "protocol/client.go: NewClient, readNetPackets, IO", "protocol/server.go: Accept, serve, readNetPackets, Dispatch", "protocol/genout.go: CallT*, SrvR*"]}
{"id": "C78", "title": "What one call has written, a later call reads, through client, network and file server", "statement": "Let a Client and the goroutine that serves its connection run from the Go texts of client.go and server.go, with the file server of filesystem.go on an operating system that keeps the contents of open files. A call writes d at an offset of a fid and returns without an error; after that another call reads at most as many bytes at the same offset of the same fid and returns without an error. If every other call made before the read returned is a read, stat, flush or version, an attach of another fid, a walk other than from the fid to itself, or had returned before the write was made, then the read returns the beginning of d, unless the file server takes the fid for a directory (which can happen: C78_directory_refuted). In the order in which the server answers: a read of an open file returns what the writes to it so far have left.", "quantifier": "every such operating system, every configuration, every number of concurrent calls, every interleaving and cutting of the streams, executions of any length, any history before the write", "why_tests_cant": "all histories and schedules of client, server and network, and all operating systems that keep what is written", "anchors": ["protocol/client.go: NewClient, readNetPackets, IO", "protocol/server.go: Accept, serve, readNetPackets, Dispatch", "filesystem/filesystem.go: Rwrite, Rread, Rstat, Rflush", "protocol/genout.go: CallTwrite, CallTread"]}
{"id": "C79", "title": "Client, server and file server together, all from their texts", "statement": "Let a Client, the goroutine that serves its connection and the methods of FileServer all run from the Go texts of client.go, server.go and filesystem.go, the file server beginning with what the function literal in NewUFS makes. Under the conditions of C77 on the operating system and the requests: the text of filesystem.go answers every sequence of requests without a panic and with answers that fit; every call that returns gets the answer of the text to its own request in one sequential order of all requests that respects the time; without failures the client lives, the server goes on serving and every call returns; and what one call has written a later call reads, as in C78. Such a file server exists for every operating system and configuration.", "quantifier": "every such operating system (any state, any deterministic behaviour), every root and user name, every number of concurrent calls, every interleaving, every cutting of the streams (for returning: outside the headers), executions of any length", "why_tests_cant": "all sequences of requests against all behaviours of an operating system, over all schedules of client, server and network, for the texts themselves", "anchors": ["filesystem/filesystem.go: NewUFS, FileServer", "protocol/client.go: NewClient, readNetPackets, IO", "protocol/server.go: Accept, serve, readNetPackets, Dispatch", "protocol/genout.go: CallT*, SrvR*"]}
{"id": "C80", "title": "Client and server together with the debug wrapper", "statement": "Let the file server be wrapped in debugfs.DebugFileServer, as NewUFS does when the flag -debug is set, and let a Client and the goroutine that serves its connection run from the Go texts of client.go and server.go. Then every sequence of requests gets exactly the answers that the file server gives without the wrapper, and the file server comes to the same state; two lines are logged for every request that reaches it, after those already there. Every call that returns gets the answer of the unwrapped file server to its own request in one sequential order of all requests that respects the time; if the unwrapped file server answers without a panic and with answers that fit, then without failures the client lives, the server goes on serving and every call returns; and with the text of filesystem.go inside, what one call has written a later call reads, as in C78.", "quantifier": "every file server (any state), every log before, every number of concurrent calls, every interleaving, every cutting of the streams (for returning: outside the headers), executions of any length", "why_tests_cant": "that the debug option changes no answer and loses no call is a statement about all pairs of runs, over all schedules and all file servers", "anchors": ["pkg/debugfs/debug.go: DebugFileServer", "protocol/client.go: NewClient, readNetPackets, IO", "protocol/server.go: Accept, serve, readNetPackets, Dispatch", "filesystem/filesystem.go: NewUFS, FileServer"]}
{"id": "C81", "title": "Client, server, debug wrapper and file server together, all from their texts", "statement": "Let a Client, the goroutine that serves its connection, the methods of DebugFileServer and those of the FileServer inside it all run from the Go texts of client.go, server.go, debug.go and filesystem.go, as with the flag -debug. Under the conditions of C77 on the operating system and the requests: every sequence of requests is answered without a panic, with answers that fit and are those of the file server without the wrapper; the log grows by two lines for every request; every call that returns gets the answer of the text of filesystem.go to its own request in one sequential order of all requests that respects the time; without failures the client lives, the server goes on serving and every call returns; and what one call has written a later call reads, as in C78. Such a wrapper exists around every file server.", "quantifier": "every such operating system (any state, any deterministic behaviour), every root and user name, every log before, every number of concurrent calls, every interleaving, every cutting of the streams (for returning: outside the headers), executions of any length", "why_tests_cant": "all sequences of requests against all behaviours of an operating system, over all schedules of client, server and network, for the four texts themselves", "anchors": ["pkg/debugfs/debug.go: DebugFileServer", "filesystem/filesystem.go: NewUFS, FileServer", "protocol/client.go: NewClient, readNetPackets, IO", "protocol/server.go: Accept, serve, readNetPackets, Dispatch", "protocol/genout.go: CallT*, SrvR*"]}
