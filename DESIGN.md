# Formal model of Harvey-OS/ninep in Rocq (Coq 8.16.1)

The properties are in `properties.jsonl` (C01...), their status in `MANIFEST.json`,
the development in `rocq/theories`, seeded-bug experiments in `seeded/LOG.jsonl`.

## Layers

| layer | file(s) | models |
|---|---|---|
| bytes, little-endian, decimal | `Base.v` | Go integer/byte conversions used everywhere |
| `bytes.Buffer` | `GoBuf.v` | Read (short reads!), Next, Len, `Bytes()[:l]` (reslice into capacity, panic beyond it) |
| codec | `CodecPrim.v`, `Types.v`, `Codec.v` | every `Marshal*`/`Unmarshal*` of protocol/genout.go, ServerError |
| stubs | `StubPrim.v`, `Stubs.v` | every `Srv*` and both halves of every `CallT*` function of protocol/genout.go |
| wire spec | `Msgs.v`, `CodecSpec.v` | independent statement of the 9P2000 layouts |
| generator | `Gen.v`, `GenEq.v` | protocol/gen.go: schema -> encoder/decoder; equality with `Codec.v` |
| generator, as text | `GenText.v`, `GenoutText.v` | protocol/gen.go function by function, producing text; the text of genout.go |
| Go subset | `GoSyntax.v`, `GoSem.v` | lexer, parser and interpreter for the part of Go in which genout.go is written |
| Go machine | `GoText.v`, `GoRun.v`, `GoFmt.v`, `GoProg.v`, `GoWp.v` | the text of the hand-written files; a small-step machine for the part of Go they are written in, fmt, and a calculus for running it symbolically |
| ufs, as text | `UfsRun.v` | memory, operating system and library for running the text of package ufs on that machine |
| server, listener, debugfs, as text | `ServerRun.v`, `ListenerRun.v`, `DebugRun.v` | the same for server.go (a connection; a listener) and debug.go |
| client, as text | `ClientRun.v`, `ClientRunExec.v` | channels, goroutines and callers for running the text of client.go on that machine, in any interleaving; the same by computation |
| generator, run as text | `GenGoText.v`, `GenRun.v`, `ProtocolSpec.v` | gen.go on that machine, with reflect and text/template; the numbers and layouts of 9P2000 |
| server | `Server.v`, `ServerSpec.v` | Dispatch, conn.serve; what a connection should answer |
| listener | `Listener.v`, `ListenerSpec.v` | Serve (accept loop), trackListener, closeListenersLocked, Shutdown |
| client | `Rpc.v`, `Client.v`, `ClientSpec.v` | NewClient, GetTag, GetFID, IO, readNetPackets as a transition system |
| paths | `GoPath.v`, `PathSpec.v` | path.Clean/Join/Dir/Split, filepath.IsAbs of the Go library |
| ufs | `Ufs.v`, `UfsSpec.v` | filesystem/*.go over an arbitrary operating system (tree of OS calls) |
| connections | `Conns.v` | newConn/nsCreator: several connections in one process, any interleaving |
| debugfs | `Debugfs.v` | pkg/debugfs |
| in-memory OS | `MemOS.v`, `MemSpec.v` | not in /repo: one concrete OS, used for contents (C45, C46) and for witnesses |

Proofs are in `*Lemmas*.v`, `GenThm.v`, `GenInv.v`, `MsgThm.v`; witnesses in `ServerWitness.v`, `ClientWitness.v`,
`UfsRefute.v`. Property theorems are in `Props*.v`: each is closed by `exact <lemma>` and followed by `Print Assumptions`
and by an `Example Cnn_case` with concrete values.

A property that is false of the code has a theorem `Cnn_..._refuted` (the negation of the full claim, proved from a
concrete run) and theorems that say what holds instead (`..._partial`, or an exact characterisation).

## Per property

Codec (for all field values within the Go types, all byte strings, all memory behind the buffer):

* C01-C03 round trips. Proved once for the generic generator codec by induction over the field list (`GenThm.v`), lifted
  to each message by an equality between the transcribed function and the generic one (`GenEq.v`).
* C04 layout: `CodecSpec` states the layouts with `le`, independently of the transcribed shifts and masks.
* C05 unique decodability of single messages and of streams: from C01/C02/C04.
* C06 over-long strings: refuted (length wraps mod 2^16 and decodes without error), exact condition proved.
* C07 trailing bytes are rejected: for every message kind.
* C08 truncation: refuted (bytes.Buffer.Read returns short counts without error; the scratch array keeps stale bytes); the
  cuts that are rejected are proved.
* C09/C10 panics and foreign memory in the four decoders with a data block: refuted, with exact conditions; proved for the rest.
* C11 canonical: accepted bytes are a prefix of the canonical encoding; equality refuted.
* C12 the generator: every schema (any field list), and the 26 structs of the repo are instances.
* C13 size arithmetic of Tread/Twrite/Rread headers.
* C56 the model of gen.go (text in, text out), evaluated on the structs of protocol.go, gives genout.go byte for byte.
* C67 the text of protocol.go is parsed inside Coq; constants and structs are read off and compared with a table of 9P2000
  (`ProtocolSpec.v`), with the numbers in `Types.v` and with the tables in `GoSem.v`. C68 the text of gen.go is run on the machine
  of `GoRun.v`, a closed computation (`GenRun.v`, `GenRunThm.v`): its output is genout.go. With C68, C56 is about a transcription
  that is no longer needed for the link from gen.go to genout.go; `Gen.v` and C12 say what the generator does for other structs.
* C57 the text of genout.go is parsed inside Coq (`GenoutProg.v`) and every one of its functions is run symbolically by the
  interpreter (`Genout*.v`, partly written by `tools/sem.py`): it does what `Codec.v`/`Stubs.v` say, hence what C01-C11 say.

* C60 the same for package ufs, with a machine instead of an interpreter (pointers, maps, defer, closures). The text is run
  symbolically, method by method (`UfsRunLemmas.v`, `UfsRunThm*.v`), beside the model in `Ufs.v`, from any memory that holds a
  file server (`holds`); a new one is made by running the function literal in NewUFS. The machine stops with `Stuck` at
  anything it does not understand, so that the theorem also says that nothing was skipped. Doing this proof showed that the
  model looked at the number of bytes read before the error of ReadAt; the code does it the other way round (now corrected).
* C61, C62 the same for server.go: Dispatch on any buffer, a connection from Accept to Close (induction over the network
  events, `ServerRunLemmas.v`), the functions of a Listener (`ListenerRunLemmas.v`; Serve by induction over the results of Accept,
  Shutdown over the order of iteration). C63 the same for debug.go (`DebugRunLemmas.v`), with fmt.Sprintf in `GoFmt.v`.
* C69 the same for the whole process of cmd/ufs (`DaemonRun*.v`): package variables, flags, NewUFS, NewListener, Serve, newConn in
  one run, by induction over the results of Accept. It says which memory each connection owns (`has_own`) and that these are
  disjoint, which C23 and C70 assume when they give each connection a memory of its own.
* C70 the text of package ufs for several connections. `look` in `ConnsRun.v` is one step of a goroutine; `t_runs` lets any of them take the
  next one. C60 holds for every operating system, so it holds for one that plays back a list of answers; from that follows, step by
  step, that text and model ask for the same things (`agree`, `agree_look` in `ConnsRunLemmas.v`), without running the text
  symbolically again. Both inclusions and the end of every request come from it (`ConnsRunThm.v`, `ConnsRunThm2.v`).
* C71 reads and writes on several connections (`LinSpec.v`, `LinThm.v`). In an execution of C70 a request, the calls made for it and its
  reply are found again as an execution of the model's method (`answered_exec`); such an execution of Rread or Rwrite has exactly one
  call that touches the file. What the calls of all connections do to one node of `MemOS.v` is an induction over the execution
  (`stretch_data`), so the linearization points are these calls. That a call of the operating system is atomic is an assumption
  (POSIX says so of pread and pwrite on regular files).
* C72 the Listener's goroutines. `one`/`cwp` in `LisRunLemmas.v` is a small logic of what a goroutine knows of memory while it holds l.mu
  and while it does not; `LisRunText.v` follows the text through it (loops by an invariant or by induction over the keys);
  soundness (`act_step`, `run_step`) gives an execution of the model `LisConc.v` with the same events, and of that an invariant says
  what each goroutine has done so far (`looks`, `inv` in `LisConcLemmas.v`). `history` lists the critical sections in the order
  of their ends and is shown to be a history in the sense of C50. The two executions in `LisRunExec.v` are computed.
* C73 client and server together. `NetRun.v` puts the client of C64-C66 and the server goroutine of C61 beside each other with two byte
  streams. A side may take a step only if that step is possible, with the same outcome, whatever bytes come later (`more_net`,
  `more_in`); so reading waits for data. `NetThm.v` keeps the invariant that the server has run on a beginning of what was written and the client has
  read a beginning of what the server has put out; `accepted_serves` (from the proof of C61) says what the server's output is;
  `NetModel.v` has what the client model guarantees when every packet read answers an earlier write (`causal`, which is itself proved by
  induction over the joint execution, `net_causal`). The case runs both texts by computation (`NetCase.v`, `NetStore.v`).
* C74 no deadlock. `moves` (`NetLive.v`) are the joint steps that nobody has to bring about: no new call, no failure. `NetWait.v` follows the
  server's text once more in a world where a read that finds nothing stops the run; so a server that cannot go on has answered every complete
  packet that has arrived (`waits` in `NetWait2.v`; `eats` and `hungry` in `NetEats.v`). `client_can` (`NetClient.v`) goes through the
  phases of `related`: a client that cannot go on has its reader waiting for bytes and its sender waiting for a call or a tag. If both wait and nothing
  is under way, as many packets were read as written (`net_live`), so no tag is in use and no call is waiting.
* C75 termination. Each goroutine of the client gets a number for where it is in its loop (`ClientRank.v`, over the phases of `related`), which goes
  down with every request it makes unless something of higher order goes down: the steps that calls still need until they are written, then what
  has arrived and is not yet read (`rank_step` in `ClientRank3.v`). The server's number is how many steps it takes until it waits (`NetWait.v`). `live_ends`
  (`NetEnds.v`) puts them together with the bytes under way into one lexicographic order; between two requests `leads` is itself an
  inductive measure. `NetEnds2.v` combines this with C74.
* C76 without failures. `wstep` (`NetWell.v`) is `jstep` without a failing write of the client (`failing`), and with pieces that do not end inside a header
  (`cut` in `NetTidy.v`: whole messages, then nothing or the beginning of a message with its seven bytes; u and d are what has arrived on either side). The measure of C75
  carries a flag for a client that has seen no failure (`calm` in `ClientRank.v`); `well_step` (`ClientWell.v`) shows that such a client stays so when its reads succeed,
  and `uniform_fed` (`NetWell.v`) that they do: a step that is possible whatever arrives later reads bytes that are there, and a client that had read less than a packet could not
  tell two futures apart (`undecided`). The server: `server_stays` (`NetStays.v`), as the stream it reads is one of whole requests. `NetWell2.v` combines this with C74 and C75.
* C77 client and file server. C73 to C76 are for requests of a kind K (`proper_calls`, `fitting_from`, `answering`; K may be everything): the file server must answer such requests without a panic,
  with answers that fit. `UfsFits.v` shows that the file server of filesystem.go does so: K is `modest` (version text and walk names below 65000 bytes, no negative read count), the operating system
  is `decent` (error texts below 65536 bytes, names and user names together below 65000, inode numbers of 64 bits, ReadAt returns at most what was asked for). `wpp` is the logic for the programs of
  `Ufs.v` under these conditions, `fine_table` the invariant of the fids. Case in `NetUfsCase.v`: `mended` makes any operating system decent (EOVERFLOW for what does not fit), here the one of `MemOS.v`.
* C78 what is written is what is read. The operating system `keeps` contents (`UfsStored.v`: a successful WriteAt applies `write_at` to the contents of the handle, a successful ReadAt returns a
  `slice` of them, and Lstat, Stat, Readdir, ReadAt, Seek and Sync change nothing); `sequence` follows the contents through a sequence of requests. C73 was strengthened for this: the request number k in
  the stream is the one that its caller made, and fits. `NetStored.v`: by the order of C73 the write is answered before the read, and what lies between them leaves the fid alone (`looks`: read, stat, flush,
  version, attach of another fid, walk other than from the fid to itself), as a call that had returned before the write was made was answered before it. The exception for directories is needed (`NetOddCase.v`). Left out: other calls that change something while the two are made.
* C79 all three texts. `runs_text` (`UfsText.v`): a NineServer whose states hold a memory of the program (`view`) and whose methods do what the text of filesystem.go, run by the machine of C60, does on it; `fresh_server`: the
  memory that the function literal in NewUFS leaves. By C60 it gives the same answers as the model (`same_answers`), so that C73 to C78 apply to it. C79_exists makes one: the number of steps of a
  method is found by search (`ConstructiveEpsilon` of the standard library, no axiom), as C60 shows that the text ends. The memory of the file server is apart from that of server.go. Case in `NetTextCase.v`.
* C80 with the flag -debug. `NetAlike.v`: file servers that are `alike` (C48) give the same answers to every sequence of requests, so that the conditions of C73 to C79 (`fitting_from`, `answering`) carry over from the file
  server to the same one inside `debugfs`; the conclusions speak of the answers without the wrapper. The wrapper is the one of `Debugfs.v`, compared with the text of debug.go by C63. Case in `NetChatty.v`: the calls of C79_case, with the log.
* C81 all four texts. `runs_debug` (`DebugText.v`) is for debug.go what `runs_text` is for filesystem.go. C63 was strengthened for this: a method of the wrapper leaves the DebugFileServer as it was, so that the next
  one can be run on the memory it leaves. `text_alike`: it behaves like the wrapper of `Debugfs.v`, so that C80 applies (`NetFour.v`). `debug_server` is such a wrapper, made as in C79. Case in `NetFour.v`: all four texts are run.
* C64 the same for client.go, whose goroutines run at the same time: a state is a list of machines, a memory and the callers;
  `tstep` lets any one of them go on by one step. Between two requests that others can see or disturb, a machine only
  computes (`leads`, proved by symbolic execution in `ClientRunText.v`); with that, a relation between states of the text and of
  the model (`related` in `ClientRunSim.v`) is kept by every step (`ClientRunSim2.v`-`ClientRunSim6.v`).
* C65 what the labels of an execution show, proved in the model (`ClientHist.v`) and carried over. C66 refutations are
  executions of the text found by computation (`ClientRunExec.v`, `ClientRunCases.v`).

Server (for an arbitrary NineServer over an arbitrary state type, any chunking of the input, any write failures):

* C14-C16, C22: induction over the events of a connection (`ServerLemmas*.v`).
* C17, C18, C20, C21: refuted with witnesses on a small counting server, with the conditions under which they hold.
* C19: refuted (7-byte header read is not retried); proved when headers are not split.
* C23: `Conns.v`. Every connection in every interleaving has a history of its own, so everything about the file server in
  PropsUfs.v holds for it; a panic is the only way one connection can hurt another (C23_crash_refuted).
* C48: `Debugfs.v`; a relation between two servers that give the same answers is carried through Dispatch and serve
  (`serve_alike`), which also gives the log lines.
* C49, C50 listener: recursion over accept outcomes; Shutdown for any iteration order of the map.

Client (labelled transition system of the sender, reader and receiver goroutines, any number of callers, arbitrary network):

* C24, C25, C27: invariants. C26: a decreasing measure and a no-stuck-state lemma. C28-C30: refuted, with what holds.
* C52 framing; C53 client + server + any file server: what a call returns is what the file server answered.

File server (for every behaviour of the operating system, unless MemOS is named; induction over request histories):

* C31 validity of fids is a function of the history (`valid` in UfsSpec.v) and invalid fids cause an error and no OS call.
* C32 walks: which lookups are made and what the table is afterwards. C33-C35 confinement: Clean is modelled as the byte
  loop of the Go library, `inside` is stated over path components (PathSpec.v). `..` in walks and creates leaves the exported
  directory (refuted); proved for requests without it, and for the default root.
* C36, C47 open files: refuted for clones of open fids/reopened fids; proved for the other histories.
* C37, C38 reads: exact calls and bounds; enumeration of directories, refuted for small counts.  The field oflow stays empty
  (C38_no_overflow), so two wrong programs in the log that differ only when it is not are the same program.
* C39-C41 wstat: the calls made and their order; atomicity and "only what is given" refuted, prefixes proved.
* C42 remove, C43 open flags, C44 qid/mode/stat, C46 create, C55 version: exact semantics of each method.
* C58 version negotiation, C59 renaming: what the reply says and what is moved where, and what the code does not check.
* C45 read after write: on MemOS, any sequence of requests on any fids in between.
* C51 lock discipline: over the event traces. C54 panics: exactly when.

## Trusted base

* The kernel of Coq 8.16.1. `Print Assumptions` stands below every property theorem; all of them are
  "Closed under the global context": no axiom is used, neither ours nor of the standard library. (Loading
  the `lia`/`ssr` parts of the standard library brings the constants of Coq.ssr.ssrunder into the
  environment; no theorem depends on them.)
* The transcription of the Go code into Gallina, done by hand except `Codec.v` and `Stubs.v`: these were
  produced from protocol/genout.go by `tools/transcribe.py`, statement by statement, and read through.
  C12 gives an independent check of them: they equal what the model of the generator emits. C57 checks them against the
  text itself: what is then trusted for genout.go is `GenoutText.v` (the bytes of the file, written by `tools/text.py`), the
  parser and interpreter (`GoSyntax.v`, `GoSem.v`) and the tables of types and constants of protocol.go at the top of `GoSem.v`.
* For C60: `GoText.v` (the bytes of the files, written by `tools/text2.py`), the parser, the machine (`GoRun.v`, whose header
  lists its simplifications; a panic ends a method at once, deferred calls are not run then), and `library` in `UfsRun.v`.
  With C60 the hand transcription `Ufs.v` is no longer trusted for what C31-C47, C51, C54, C55, C58, C59 say.
* For C61-C63 the same, with the library in `ServerRun.v`, `ListenerRun.v`, `DebugRun.v` and fmt in `GoFmt.v`. `Server.v`,
  `Listener.v` and `Debugfs.v` are then no longer trusted for single functions and connections. For C72: `th_step`, `t_step` and `lib`
  in `LisRun.v` (sync.Mutex, Accept, Close, Sleep with arbitrary results, range over a map in any order, sequentially consistent memory). For C70: `look`, `th_step`, `t_step` in `ConnsRun.v` and the library of C60. For C73 to C79: `sstep`, `jstep`, `connected` in `NetRun.v`, `moves` in `NetLive.v`, `wstep`, `failing`, `cut` in `NetWell.v`, `ClientWell.v`, `NetTidy.v` for C76: the network keeps the order of bytes and
  invents none; writes of the server succeed; a failing write of the client sends nothing; what the server does after the client process is gone is left out.
* For C69 the same, with the library in `DaemonRun.v`: package flag (what the command line gives for a name, else the default), net.Listen
  and Accept (arbitrary outcomes), log.Fatal (ends the process).
* For C68 the same, with the library in `GenRun.v`: reflect (types are places in a table made from protocol.go), text/template (text
  with {{.Field}} and {{.Field.Field}}), fmt.Sprintf. For C67 the table in `ProtocolSpec.v`.
* For C64-C66 the same, with `lib`, `lib_new` (library), `lstep`, `ldie` (what a goroutine and the network do with a channel, a
  read, a write, log.Fatalf) and `tstep` (interleaving) in `ClientRun.v`. Simplifications: ToNet and FromNet are set; one option
  stands for the options of NewClient; what is traced or printed is not looked at, only whether Trace is nil; callers are the
  steps `t_start`, `t_enqueue`, `t_deliver`, which is what a generated CallT function does (C57). One statement of a
  goroutine is a step of the machine and goroutines share memory sequentially consistently.
* The meaning given to Go's library: bytes.Buffer (`GoBuf.v`), io.Copy/LimitReader and net.Conn reads
  (`Server.v`), channels as blocking queues (`Client.v`), package path (`GoPath.v`), the list of os calls and the shape of
  their answers (`Ufs.v`). For C45 and C46_new_name also what `MemOS.v` says about files: no symbolic links, no permission
  checks, time stands still.

## What is modelled and what is not

| source | modelled | not modelled |
|---|---|---|
| protocol/genout.go | everything | |
| protocol/gen.go | everything, twice: emission for every field kind as the meaning of the emitted code (`Gen.v`), and as text (`GenText.v`) | in these two, writing the file, and reflection is a table of the struct types; both are in `GenRun.v` (C68), except for the flag -d |
| protocol/protocol.go, types.go | constants, packet structs, NineServer | |
| protocol/server.go | everything (NewListener options are arbitrary functions on the Listener) | what a trace function does |
| protocol/client.go | NewClient, GetTag, GetFID, readNetPackets, IO, Trace being nil or not | String, the text of traces, the finalizer under `if false` in GetTag |
| protocol/pprof.go | | profiling server |
| filesystem/filesystem.go, ninep.go, *_unix.go | every method and helper, nsCreator | the flags -root, -user, -debug are a configuration record (C60); C69 runs NewUFS with any flags |
| filesystem/*_windows.go | | not compiled on Unix (and filesystem_windows.go refers to types that do not exist) |
| pkg/debugfs | every method | time stamps of log lines |
| cmd/ufs | everything (C69) | what flag.Parse does with a command line it rejects |

Beyond that not in the model: real time (only the sleep durations of the accept loop), memory exhaustion, TCP itself, data
races at the level of the Go memory model (C51 is about lock discipline in traces). Byte slices are values: aliasing
between a request buffer and a slice a server keeps is not represented (`StubPrim.v` says where this matters).
