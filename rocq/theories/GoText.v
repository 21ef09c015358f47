(** The text of hand-written files of /repo, byte for byte, cut before every function (written by tools/text2.py). *)
From Verif Require Import Base.

(** * protocol/protocol.go *)
(* protocol/protocol.go:1-343 *)
Definition protocol_0 : bytes := str "// Package protocol implements the 9p protocol using the stubs.

//go:generate go run gen.go

package protocol

import ""bytes""

// 9P2000 message types
const (
	Tversion MType = 100 + iota
	Rversion
	Tauth
	Rauth
	Tattach
	Rattach
	Terror
	Rerror
	Tflush
	Rflush
	Twalk
	Rwalk
	Topen
	Ropen
	Tcreate
	Rcreate
	Tread
	Rread
	Twrite
	Rwrite
	Tclunk
	Rclunk
	Tremove
	Rremove
	Tstat
	Rstat
	Twstat
	Rwstat
	Tlast
)

const (
	MSIZE   = 2*1048576 + IOHDRSZ // default message size (1048576+IOHdrSz)
	IOHDRSZ = 24                  // the non-data size of the Twrite messages
	PORT    = 564                 // default port for 9P file servers
	NumFID  = 1 << 16
	QIDLen  = 13
)

// QID types
const (
	QTDIR     = 0x80 // directories
	QTAPPEND  = 0x40 // append only files
	QTEXCL    = 0x20 // exclusive use files
	QTMOUNT   = 0x10 // mounted channel
	QTAUTH    = 0x08 // authentication file
	QTTMP     = 0x04 // non-backed-up file
	QTSYMLINK = 0x02 // symbolic link (Unix, 9P2000.u)
	QTLINK    = 0x01 // hard link (Unix, 9P2000.u)
	QTFILE    = 0x00
)

// Flags for the mode field in Topen and Tcreate messages
const (
	OREAD   = 0x0    // open read-only
	OWRITE  = 0x1    // open write-only
	ORDWR   = 0x2    // open read-write
	OEXEC   = 0x3    // execute (== read but check execute permission)
	OTRUNC  = 0x10   // or'ed in (except for exec), truncate file first
	OCEXEC  = 0x20   // or'ed in, close on exec
	ORCLOSE = 0x40   // or'ed in, remove on close
	OAPPEND = 0x80   // or'ed in, append only
	OEXCL   = 0x1000 // or'ed in, exclusive client use
)

// File modes
const (
	DMDIR    = 0x80000000 // mode bit for directories
	DMAPPEND = 0x40000000 // mode bit for append only files
	DMEXCL   = 0x20000000 // mode bit for exclusive use files
	DMMOUNT  = 0x10000000 // mode bit for mounted channel
	DMAUTH   = 0x08000000 // mode bit for authentication file
	DMTMP    = 0x04000000 // mode bit for non-backed-up file
	DMREAD   = 0x4        // mode bit for read permission
	DMWRITE  = 0x2        // mode bit for write permission
	DMEXEC   = 0x1        // mode bit for execute permission
)

const (
	NOTAG Tag = 0xFFFF     // no tag specified
	NOFID FID = 0xFFFFFFFF // no fid specified
	// We reserve tag NOTAG and tag 0. 0 is a troublesome value to pass
	// around, since it is also a default value and using it can hide errors
	// in the code.
	NumTags = 1<<16 - 2
)

// Error values
const (
	EPERM   = 1
	ENOENT  = 2
	EIO     = 5
	EACCES  = 13
	EEXIST  = 17
	ENOTDIR = 20
	EINVAL  = 22
)

// Types contained in 9p messages.
type (
	MType      uint8
	Mode       uint8
	NumEntries uint16
	Tag        uint16
	FID        uint32
	MaxSize    uint32
	Count      int32
	Perm       uint32
	Offset     uint64
	Data       []byte
	// Some []byte fields are encoded with a 16-bit length, e.g. stat data.
	// We use this type to tag such fields. The parameters are still []byte,
	// this was just the only way I could think of to make the stub generator do the right
	// thing.
	DataCnt16 byte // []byte with a 16-bit count.
)

// Error represents a 9P2000 error
type Error struct {
	Err string
}

// File identifier
type QID struct {
	Type    uint8  // type of the file (high 8 bits of the mode)
	Version uint32 // version number for the path
	Path    uint64 // server's unique identification of the file
}

// Dir describes a file
type Dir struct {
	Type    uint16
	Dev     uint32
	QID     QID    // file's QID
	Mode    uint32 // permissions and flags
	Atime   uint32 // last access time in seconds
	Mtime   uint32 // last modified time in seconds
	Length  uint64 // file length in bytes
	Name    string // file name
	User    string // owner name
	Group   string // group name
	ModUser string // name of the last user that modified the file
}

type Dispatcher func(s *Server, b *bytes.Buffer, t MType) error

// N.B. In all packets, the wire order is assumed to be the order in which you
// put struct members.
// In an earlier version of this code we got really fancy and made it so you
// could have identically named fields in the R and T packets. It's only an issue
// in a trivial number of packets so we place the burden on you, the user, to make
// the names different. Also, you can't name struct members with the same names as the
// type. Sorry. But it keeps gen.go so much simpler.

type TversionPkt struct {
	TMsize   MaxSize
	TVersion string
}

type RversionPkt struct {
	RMsize   MaxSize
	RVersion string
}

type TattachPkt struct {
	SFID  FID
	AFID  FID
	Uname string
	Aname string
}

type RattachPkt struct {
	QID QID
}

type TflushPkt struct {
	OTag Tag
}

type RflushPkt struct {
}

type TwalkPkt struct {
	SFID   FID
	NewFID FID
	Paths  []string
}

type RwalkPkt struct {
	QIDs []QID
}

type TopenPkt struct {
	OFID  FID
	Omode Mode
}

type RopenPkt struct {
	OQID   QID
	IOUnit MaxSize
}

type TcreatePkt struct {
	OFID       FID
	Name       string
	CreatePerm Perm
	Omode      Mode
}

type RcreatePkt struct {
	OQID   QID
	IOUnit MaxSize
}

type TclunkPkt struct {
	OFID FID
}

type RclunkPkt struct {
}

type TremovePkt struct {
	OFID FID
}

type RremovePkt struct {
}

type TstatPkt struct {
	OFID FID
}

type RstatPkt struct {
	B []DataCnt16
}

type TwstatPkt struct {
	OFID FID
	B    []DataCnt16
}

type RwstatPkt struct {
}

type TreadPkt struct {
	OFID FID
	Off  Offset
	Len  Count
}

type RreadPkt struct {
	Data []byte
}

type TwritePkt struct {
	OFID FID
	Off  Offset
	Data []byte
}

type RwritePkt struct {
	RLen Count
}

type RerrorPkt struct {
	Error string
}

type DirPkt struct {
	D Dir
}

type RPCCall struct {
	b     []byte
	Reply chan []byte
}

type RPCReply struct {
	b []byte
}

/* rpc servers */
type ClientOpt func(*Client) error
type ListenerOpt func(*Listener) error
type Tracer func(string, ...interface{})

type NineServer interface {
	Rversion(MaxSize, string) (MaxSize, string, error)
	Rattach(FID, FID, string, string) (QID, error)
	Rwalk(FID, FID, []string) ([]QID, error)
	Ropen(FID, Mode) (QID, MaxSize, error)
	Rcreate(FID, string, Perm, Mode) (QID, MaxSize, error)
	Rstat(FID) ([]byte, error)
	Rwstat(FID, []byte) error
	Rclunk(FID) error
	Rremove(FID) error
	Rread(FID, Offset, Count) ([]byte, error)
	Rwrite(FID, Offset, []byte) (Count, error)
	Rflush(Otag Tag) error
}

var (
	RPCNames = map[MType]string{
		Tversion: ""Tversion"",
		Rversion: ""Rversion"",
		Tauth:    ""Tauth"",
		Rauth:    ""Rauth"",
		Tattach:  ""Tattach"",
		Rattach:  ""Rattach"",
		Terror:   ""Terror"",
		Rerror:   ""Rerror"",
		Tflush:   ""Tflush"",
		Rflush:   ""Rflush"",
		Twalk:    ""Twalk"",
		Rwalk:    ""Rwalk"",
		Topen:    ""Topen"",
		Ropen:    ""Ropen"",
		Tcreate:  ""Tcreate"",
		Rcreate:  ""Rcreate"",
		Tread:    ""Tread"",
		Rread:    ""Rread"",
		Twrite:   ""Twrite"",
		Rwrite:   ""Rwrite"",
		Tclunk:   ""Tclunk"",
		Rclunk:   ""Rclunk"",
		Tremove:  ""Tremove"",
		Rremove:  ""Rremove"",
		Tstat:    ""Tstat"",
		Rstat:    ""Rstat"",
		Twstat:   ""Twstat"",
		Rwstat:   ""Rwstat"",
	}
)
".
Definition protocol_text : list bytes := [protocol_0].

(** * protocol/server.go *)
(* protocol/server.go:1-66 *)
Definition server_0 : bytes := str "// Copyright 2012 The Ninep Authors.  All rights reserved.
// Use of this source code is governed by a BSD-style
// license that can be found in the LICENSE file.
// This code is imported from the old ninep repo,
// with some changes.

package protocol

import (
	""bytes""
	""fmt""
	""io""
	""net""
	""sync""
	""time""
)

const DefaultAddr = "":5640""

type NsCreator func() NineServer

type Listener struct {
	nsCreator NsCreator

	// TCP address to listen on, default is DefaultAddr
	Addr string

	// Trace function for logging
	Trace Tracer

	// mu guards below
	mu sync.Mutex

	listeners map[net.Listener]struct{}
}

// Server is a 9p server.
// For now it's extremely serial. But we will use a chan for replies to ensure that
// we can go to a more concurrent one later.
type Server struct {
	NS NineServer
	D  Dispatcher

	// Versioned is set to true on the first call to Tversion
	Versioned bool
}

type conn struct {
	listener *Listener

	// server on which the connection arrived.
	server *Server

	// rwc is the underlying network connection.
	rwc net.Conn

	// remoteAddr is rwc.RemoteAddr().String(). See note in net/http/server.go.
	remoteAddr string

	// replies
	replies chan RPCReply

	// dead is set to true when we finish reading packets.
	dead bool
}

".
(* protocol/server.go:67-80 *)
Definition server_1 : bytes := str "func NewListener(nsCreator NsCreator, opts ...ListenerOpt) (*Listener, error) {
	l := &Listener{
		nsCreator: nsCreator,
	}

	for _, o := range opts {
		if err := o(l); err != nil {
			return nil, err
		}
	}

	return l, nil
}

".
(* protocol/server.go:81-95 *)
Definition server_2 : bytes := str "func (l *Listener) newConn(rwc net.Conn) (*conn, error) {
	ns := l.nsCreator()
	server := &Server{NS: ns, D: Dispatch}

	c := &conn{
		server:   server,
		listener: l,
		rwc:      rwc,
		replies:  make(chan RPCReply, NumTags),
	}

	return c, nil
}

// trackListener from http.Server
".
(* protocol/server.go:96-111 *)
Definition server_3 : bytes := str "func (l *Listener) trackListener(ln net.Listener, add bool) {
	l.mu.Lock()
	defer l.mu.Unlock()

	if l.listeners == nil {
		l.listeners = make(map[net.Listener]struct{})
	}

	if add {
		l.listeners[ln] = struct{}{}
	} else {
		delete(l.listeners, ln)
	}
}

// closeListenersLocked from http.Server
".
(* protocol/server.go:112-124 *)
Definition server_4 : bytes := str "func (l *Listener) closeListenersLocked() error {
	var err error
	for ln := range l.listeners {
		if cerr := ln.Close(); cerr != nil && err == nil {
			err = cerr
		}
		delete(l.listeners, ln)
	}
	return err
}

// Serve accepts incoming connections on the Listener and calls e.Accept on
// each connection.
".
(* protocol/server.go:125-161 *)
Definition server_5 : bytes := str "func (l *Listener) Serve(ln net.Listener) error {
	defer ln.Close()

	var tempDelay time.Duration // how long to sleep on accept failure

	l.trackListener(ln, true)
	defer l.trackListener(ln, false)

	// from http.Server.Serve
	for {
		conn, err := ln.Accept()
		if err != nil {
			if ne, ok := err.(net.Error); ok && ne.Temporary() {
				if tempDelay == 0 {
					tempDelay = 5 * time.Millisecond
				} else {
					tempDelay *= 2
				}
				if max := 1 * time.Second; tempDelay > max {
					tempDelay = max
				}
				l.logf(""ufs: Accept error: %v; retrying in %v"", err, tempDelay)
				time.Sleep(tempDelay)
				continue
			}
			return err
		}
		tempDelay = 0

		if err := l.Accept(conn); err != nil {
			return err
		}
	}
}

// Accept a new connection, typically called via Serve but may be called
// directly if there's a connection from an exotic listener.
".
(* protocol/server.go:162-173 *)
Definition server_6 : bytes := str "func (l *Listener) Accept(conn net.Conn) error {
	c, err := l.newConn(conn)
	if err != nil {
		return err
	}

	go c.serve()
	return nil
}

// Shutdown closes all active listeners. It does not close all active
// connections but probably should.
".
(* protocol/server.go:174-180 *)
Definition server_7 : bytes := str "func (l *Listener) Shutdown() error {
	l.mu.Lock()
	defer l.mu.Unlock()

	return l.closeListenersLocked()
}

".
(* protocol/server.go:181-185 *)
Definition server_8 : bytes := str "func (l *Listener) String() string {
	// TODO
	return """"
}

".
(* protocol/server.go:186-191 *)
Definition server_9 : bytes := str "func (l *Listener) logf(format string, args ...interface{}) {
	if l.Trace != nil {
		l.Trace(format, args...)
	}
}

".
(* protocol/server.go:192-195 *)
Definition server_10 : bytes := str "func (c *conn) String() string {
	return fmt.Sprintf(""Dead %v %d replies pending"", c.dead, len(c.replies))
}

".
(* protocol/server.go:196-200 *)
Definition server_11 : bytes := str "func (c *conn) logf(format string, args ...interface{}) {
	// prepend some info about the conn
	c.listener.logf(""[%v] ""+format, append([]interface{}{c.remoteAddr}, args...)...)
}

".
(* protocol/server.go:201-250 *)
Definition server_12 : bytes := str "func (c *conn) serve() {
	if c.rwc == nil {
		c.dead = true
		return
	}

	c.remoteAddr = c.rwc.RemoteAddr().String()

	defer c.rwc.Close()

	c.logf(""Starting readNetPackets"")

	for !c.dead {
		l := make([]byte, 7)
		if n, err := c.rwc.Read(l); err != nil || n < 7 {
			c.logf(""readNetPackets: short read: %v"", err)
			c.dead = true
			return
		}
		sz := int64(l[0]) + int64(l[1])<<8 + int64(l[2])<<16 + int64(l[3])<<24
		t := MType(l[4])
		b := bytes.NewBuffer(l[5:])
		r := io.LimitReader(c.rwc, sz-7)
		if _, err := io.Copy(b, r); err != nil {
			c.logf(""readNetPackets: short read: %v"", err)
			c.dead = true
			return
		}
		c.logf(""readNetPackets: got %v, len %d, sending to IO"", RPCNames[MType(l[4])], b.Len())
		//panic(fmt.Sprintf(""packet is %v"", b.Bytes()[:]))
		//panic(fmt.Sprintf(""s is %v"", s))
		if err := c.server.D(c.server, b, t); err != nil {
			c.logf(""%v: %v"", RPCNames[MType(l[4])], err)
		}
		c.logf(""readNetPackets: Write %v back"", b)
		amt, err := c.rwc.Write(b.Bytes())
		if err != nil {
			c.logf(""readNetPackets: write error: %v"", err)
			c.dead = true
			return
		}
		c.logf(""Returned %v amt %v"", b, amt)
	}
}

// Dispatch dispatches request to different functions.
// It's also the the first place we try to establish server semantics.
// We could do this with interface assertions and such a la rsc/fuse
// but most people I talked do disliked that. So we don't. If you want
// to make things optional, just define the ones you want to implement in this case.
".
(* protocol/server.go:251-295 *)
Definition server_13 : bytes := str "func Dispatch(s *Server, b *bytes.Buffer, t MType) error {
	switch t {
	case Tversion:
		s.Versioned = true
	default:
		if !s.Versioned {
			m := fmt.Sprintf(""Dispatch: %v not allowed before Tversion"", RPCNames[t])
			// Yuck. Provide helper.
			d := b.Bytes()
			MarshalRerrorPkt(b, Tag(d[0])|Tag(d[1])<<8, m)
			return fmt.Errorf(""Dispatch: %v not allowed before Tversion"", RPCNames[t])
		}
	}

	switch t {
	case Tversion:
		return s.SrvRversion(b)
	case Tattach:
		return s.SrvRattach(b)
	case Tflush:
		return s.SrvRflush(b)
	case Twalk:
		return s.SrvRwalk(b)
	case Topen:
		return s.SrvRopen(b)
	case Tcreate:
		return s.SrvRcreate(b)
	case Tclunk:
		return s.SrvRclunk(b)
	case Tstat:
		return s.SrvRstat(b)
	case Twstat:
		return s.SrvRwstat(b)
	case Tremove:
		return s.SrvRremove(b)
	case Tread:
		return s.SrvRread(b)
	case Twrite:
		return s.SrvRwrite(b)
	}

	// This has been tested by removing Attach from the switch.
	ServerError(b, fmt.Sprintf(""Dispatch: %v not supported"", RPCNames[t]))
	return nil
}
".
Definition server_text : list bytes := [server_0; server_1; server_2; server_3; server_4; server_5; server_6; server_7; server_8; server_9; server_10; server_11; server_12; server_13].

(** * protocol/client.go *)
(* protocol/client.go:1-37 *)
Definition client_0 : bytes := str "// Copyright 2012 The Ninep Authors.  All rights reserved.
// Use of this source code is governed by a BSD-style
// license that can be found in the LICENSE file.
// This code is imported from the old ninep repo,
// with some changes.

package protocol

import (
	""bytes""
	""fmt""
	""io""
	""log""
	""runtime""
	""sync/atomic""
)

// Client implements a 9p client. It has a chan containing all tags,
// a scalar FID which is incremented to provide new FIDS (all FIDS for a given
// client are unique), an array of MaxTag-2 RPC structs, a ReadWriteCloser
// for IO, and two channels for a server goroutine: one down which RPCalls are
// pushed and another from which RPCReplys return.
// Once a client is marked Dead all further requests to it will fail.
// The ToNet/FromNet are separate so we can use io.Pipe for testing.
type Client struct {
	Tags       chan Tag
	FID        uint64
	RPC        []*RPCCall
	ToNet      io.WriteCloser
	FromNet    io.ReadCloser
	FromClient chan *RPCCall
	FromServer chan *RPCReply
	Msize      uint32
	Dead       bool
	Trace      Tracer
}

".
(* protocol/client.go:38-59 *)
Definition client_1 : bytes := str "func NewClient(opts ...ClientOpt) (*Client, error) {
	var c = &Client{}

	c.Tags = make(chan Tag, NumTags)
	for i := 1; i < int(NOTAG); i++ {
		c.Tags <- Tag(i)
	}
	c.FID = 1
	c.RPC = make([]*RPCCall, NumTags)
	for _, o := range opts {
		if err := o(c); err != nil {
			return nil, err
		}
	}
	c.FromClient = make(chan *RPCCall, NumTags)
	c.FromServer = make(chan *RPCReply)
	go c.IO()
	go c.readNetPackets()
	return c, nil
}

// GetTag gets a tag to be used to identify a message.
".
(* protocol/client.go:60-72 *)
Definition client_2 : bytes := str "func (c *Client) GetTag() Tag {
	t := <-c.Tags
	if false {
		runtime.SetFinalizer(&t, func(t *Tag) {
			c.Tags <- *t
		})
	}
	return t
}

// GetFID gets a fid to be used to identify a resource for a 9p client.
// For a given lifetime of a 9p client, FIDS are unique (i.e. not reused as in
// many 9p client libraries).
".
(* protocol/client.go:73-76 *)
Definition client_3 : bytes := str "func (c *Client) GetFID() FID {
	return FID(atomic.AddUint64(&c.FID, 1))
}

".
(* protocol/client.go:77-122 *)
Definition client_4 : bytes := str "func (c *Client) readNetPackets() {
	if c.FromNet == nil {
		if c.Trace != nil {
			c.Trace(""c.FromNet is nil, marking dead"")
		}
		c.Dead = true
		return
	}
	defer c.FromNet.Close()
	defer close(c.FromServer)
	if c.Trace != nil {
		c.Trace(""Starting readNetPackets"")
	}
	for !c.Dead {
		l := make([]byte, 7)
		if c.Trace != nil {
			c.Trace(""Before read"")
		}

		if n, err := c.FromNet.Read(l); err != nil || n < 7 {
			log.Printf(""readNetPackets: short read: %v"", err)
			c.Dead = true
			return
		}
		if c.Trace != nil {
			c.Trace(""Server reads %v"", l)
		}
		s := int64(l[0]) + int64(l[1])<<8 + int64(l[2])<<16 + int64(l[3])<<24
		b := bytes.NewBuffer(l)
		r := io.LimitReader(c.FromNet, s-7)
		if _, err := io.Copy(b, r); err != nil {
			log.Printf(""readNetPackets: short read: %v"", err)
			c.Dead = true
			return
		}
		if c.Trace != nil {
			c.Trace(""readNetPackets: got %v, len %d, sending to IO"", RPCNames[MType(l[4])], b.Len())
		}
		c.FromServer <- &RPCReply{b: b.Bytes()}
	}
	if c.Trace != nil {
		c.Trace(""Client %v is all done"", c)
	}

}

".
(* protocol/client.go:123-170 *)
Definition client_5 : bytes := str "func (c *Client) IO() {
	go func() {
		for {
			r := <-c.FromClient
			t := <-c.Tags
			if c.Trace != nil {
				c.Trace(fmt.Sprintf(""Tag for request is %v"", t))
			}
			r.b[5] = uint8(t)
			r.b[6] = uint8(t >> 8)
			if c.Trace != nil {
				c.Trace(fmt.Sprintf(""Tag for request is %v"", t))
			}
			c.RPC[int(t)-1] = r
			if c.Trace != nil {
				c.Trace(""Write %v to ToNet"", r.b)
			}
			if _, err := c.ToNet.Write(r.b); err != nil {
				c.Dead = true
				log.Fatalf(""Write to server: %v"", err)
				return
			}
		}
	}()

	for {
		r := <-c.FromServer
		if c.Trace != nil {
			c.Trace(""Read %v FromServer"", r.b)
		}
		t := Tag(r.b[5]) | Tag(r.b[6])<<8
		if c.Trace != nil {
			c.Trace(fmt.Sprintf(""Tag for reply is %v"", t))
		}
		if t < 1 {
			panic(fmt.Sprintf(""tag %d < 1"", t))
		}
		if int(t-1) >= len(c.RPC) {
			panic(fmt.Sprintf(""tag %d >= len(c.RPC) %d"", t, len(c.RPC)))
		}
		c.Trace(""RPC %v "", c.RPC[t-1])
		rrr := c.RPC[t-1]
		c.Trace(""rrr %v "", rrr)
		rrr.Reply <- r.b
		c.Tags <- t
	}
}

".
(* protocol/client.go:171-175 *)
Definition client_6 : bytes := str "func (c *Client) String() string {
	z := map[bool]string{false: ""Alive"", true: ""Dead""}
	return fmt.Sprintf(""%v tags available, Msize %v, %v FromNet %v ToNet %v"", len(c.Tags), c.Msize, z[c.Dead],
		c.FromNet, c.ToNet)
}
".
Definition client_text : list bytes := [client_0; client_1; client_2; client_3; client_4; client_5; client_6].

(** * filesystem/filesystem.go *)
(* filesystem/filesystem.go:1-48 *)
Definition filesystem_0 : bytes := str "// Copyright 2009 The Ninep Authors.  All rights reserved.
// Use of this source code is governed by a BSD-style
// license that can be found in the LICENSE file.

package ufs

import (
	""bytes""
	""flag""
	""fmt""
	""io""
	""log""
	""os""
	""path""
	""path/filepath""
	""sync""
	""time""

	""github.com/Harvey-OS/ninep/pkg/debugfs""
	""github.com/Harvey-OS/ninep/protocol""
)

type file struct {
	protocol.QID
	fullName string
	file     *os.File
	// We can't know how big a serialized dentry is until we serialize it.
	// At that point it might be too big. We save it here if that happens,
	// and on the next directory read we start with that.
	oflow []byte
}

type FileServer struct {
	root      *file
	rootPath  string
	Versioned bool
	IOunit    protocol.MaxSize

	// mu guards below
	mu    sync.Mutex
	files map[protocol.FID]*file
}

var (
	debug = flag.Int(""debug"", 0, ""print debug messages"")
	root  = flag.String(""root"", ""/"", ""Set the root for all attaches"")
)

".
(* filesystem/filesystem.go:49-62 *)
Definition filesystem_1 : bytes := str "func stat(s string) (*protocol.Dir, protocol.QID, error) {
	var q protocol.QID
	st, err := os.Lstat(s)
	if err != nil {
		return nil, q, fmt.Errorf(""does not exist"")
	}
	d, err := dirTo9p2000Dir(st)
	if err != nil {
		return nil, q, nil
	}
	q = fileInfoToQID(st)
	return d, q, nil
}

".
(* filesystem/filesystem.go:63-70 *)
Definition filesystem_2 : bytes := str "func (e *FileServer) Rversion(msize protocol.MaxSize, version string) (protocol.MaxSize, string, error) {
	if version != ""9P2000"" {
		return 0, """", fmt.Errorf(""%v not supported; only 9P2000"", version)
	}
	e.Versioned = true
	return msize, version, nil
}

".
(* filesystem/filesystem.go:71-81 *)
Definition filesystem_3 : bytes := str "func (e *FileServer) getFile(fid protocol.FID) (*file, error) {
	e.mu.Lock()
	defer e.mu.Unlock()
	f, ok := e.files[fid]
	if !ok {
		return nil, fmt.Errorf(""does not exist"")
	}

	return f, nil
}

".
(* filesystem/filesystem.go:82-99 *)
Definition filesystem_4 : bytes := str "func (e *FileServer) Rattach(fid protocol.FID, afid protocol.FID, uname string, aname string) (protocol.QID, error) {
	if afid != protocol.NOFID {
		return protocol.QID{}, fmt.Errorf(""We don't do auth attach"")
	}
	// There should be no .. or other such junk in the Aname. Clean it up anyway.
	aname = path.Join(""/"", aname)
	aname = path.Join(e.rootPath, aname)
	st, err := os.Stat(aname)
	if err != nil {
		return protocol.QID{}, err
	}
	r := &file{fullName: aname}
	r.QID = fileInfoToQID(st)
	e.files[fid] = r
	e.root = r
	return r.QID, nil
}

".
(* filesystem/filesystem.go:100-103 *)
Definition filesystem_5 : bytes := str "func (e *FileServer) Rflush(o protocol.Tag) error {
	return nil
}

".
(* filesystem/filesystem.go:104-163 *)
Definition filesystem_6 : bytes := str "func (e *FileServer) Rwalk(fid protocol.FID, newfid protocol.FID, paths []string) ([]protocol.QID, error) {
	e.mu.Lock()
	f, ok := e.files[fid]
	e.mu.Unlock()
	if !ok {
		return nil, fmt.Errorf(""does not exist"")
	}
	if len(paths) == 0 {
		e.mu.Lock()
		defer e.mu.Unlock()
		_, ok := e.files[newfid]
		if ok {
			return nil, fmt.Errorf(""FID in use: clone walk, fid %d newfid %d"", fid, newfid)
		}
		nf := *f
		e.files[newfid] = &nf
		return []protocol.QID{}, nil
	}
	p := f.fullName
	q := make([]protocol.QID, len(paths))

	var i int
	for i = range paths {
		p = path.Join(p, paths[i])
		st, err := os.Lstat(p)
		if err != nil {
			// From the RFC: If the first element cannot be walked for any
			// reason, Rerror is returned. Otherwise, the walk will return an
			// Rwalk message containing nwqid qids corresponding, in order, to
			// the files that are visited by the nwqid successful elementwise
			// walks; nwqid is therefore either nwname or the index of the
			// first elementwise walk that failed. The value of nwqid cannot be
			// zero unless nwname is zero. Also, nwqid will always be less than
			// or equal to nwname. Only if it is equal, however, will newfid be
			// affected, in which case newfid will represent the file reached
			// by the final elementwise walk requested in the message.
			//
			// to sum up: if any walks have succeeded, you return the QIDS for
			// one more than the last successful walk
			if i == 0 {
				return nil, fmt.Errorf(""file does not exist"")
			}
			// we only get here if i is > 0 and less than nwname,
			// so the i should be safe.
			return q[:i], nil
		}
		q[i] = fileInfoToQID(st)
	}
	e.mu.Lock()
	defer e.mu.Unlock()
	// this is quite unlikely, which is why we don't bother checking for it first.
	if fid != newfid {
		if _, ok := e.files[newfid]; ok {
			return nil, fmt.Errorf(""FID in use: walk to %v, fid %v, newfid %v"", paths, fid, newfid)
		}
	}
	e.files[newfid] = &file{fullName: p, QID: q[i]}
	return q, nil
}

".
(* filesystem/filesystem.go:164-179 *)
Definition filesystem_7 : bytes := str "func (e *FileServer) Ropen(fid protocol.FID, mode protocol.Mode) (protocol.QID, protocol.MaxSize, error) {
	e.mu.Lock()
	f, ok := e.files[fid]
	e.mu.Unlock()
	if !ok {
		return protocol.QID{}, 0, fmt.Errorf(""does not exist"")
	}

	var err error
	f.file, err = os.OpenFile(f.fullName, modeToUnixFlags(mode), 0)
	if err != nil {
		return protocol.QID{}, 0, err
	}

	return f.QID, e.IOunit, nil
}
".
(* filesystem/filesystem.go:180-215 *)
Definition filesystem_8 : bytes := str "func (e *FileServer) Rcreate(fid protocol.FID, name string, perm protocol.Perm, mode protocol.Mode) (protocol.QID, protocol.MaxSize, error) {
	f, err := e.getFile(fid)
	if err != nil {
		return protocol.QID{}, 0, err
	}
	if f.file != nil {
		return protocol.QID{}, 0, fmt.Errorf(""FID already open"")
	}
	n := path.Join(f.fullName, name)
	if perm&protocol.Perm(protocol.DMDIR) != 0 {
		p := os.FileMode(int(perm) & 0777)
		err := os.Mkdir(n, p)
		_, q, err := stat(n)
		if err != nil {
			return protocol.QID{}, 0, err
		}
		f.fullName = n
		f.QID = q
		return q, 8000, err
	}

	m := modeToUnixFlags(mode) | os.O_CREATE | os.O_TRUNC
	p := os.FileMode(perm) & 0777
	of, err := os.OpenFile(n, m, p)
	if err != nil {
		return protocol.QID{}, 0, err
	}
	_, q, err := stat(n)
	if err != nil {
		return protocol.QID{}, 0, err
	}
	f.fullName = n
	f.QID = q
	f.file = of
	return q, 8000, err
}
".
(* filesystem/filesystem.go:216-220 *)
Definition filesystem_9 : bytes := str "func (e *FileServer) Rclunk(fid protocol.FID) error {
	_, err := e.clunk(fid)
	return err
}

".
(* filesystem/filesystem.go:221-237 *)
Definition filesystem_10 : bytes := str "func (e *FileServer) Rstat(fid protocol.FID) ([]byte, error) {
	f, err := e.getFile(fid)
	if err != nil {
		return []byte{}, err
	}
	st, err := os.Lstat(f.fullName)
	if err != nil {
		return []byte{}, fmt.Errorf(""ENOENT"")
	}
	d, err := dirTo9p2000Dir(st)
	if err != nil {
		return []byte{}, nil
	}
	var b bytes.Buffer
	protocol.Marshaldir(&b, *d)
	return b.Bytes(), nil
}
".
(* filesystem/filesystem.go:238-335 *)
Definition filesystem_11 : bytes := str "func (e *FileServer) Rwstat(fid protocol.FID, b []byte) error {
	var changed bool
	f, err := e.getFile(fid)
	if err != nil {
		return err
	}
	dir, err := protocol.Unmarshaldir(bytes.NewBuffer(b))
	if err != nil {
		return err
	}
	if dir.Mode != 0xFFFFFFFF {
		changed = true
		mode := dir.Mode & 0777
		if err := os.Chmod(f.fullName, os.FileMode(mode)); err != nil {
			return err
		}
	}

	// Try to find local uid, gid by name.
	if dir.User != """" || dir.Group != """" {
		return fmt.Errorf(""Permission denied"")
		changed = true
	}

	/*
		if uid != ninep.NOUID || gid != ninep.NOUID {
			changed = true
			e := os.Chown(fid.path, int(uid), int(gid))
			if e != nil {
				req.RespondError(toError(e))
				return
			}
		}
	*/

	if dir.Name != """" {
		changed = true
		// If we path.Join dir.Name to / before adding it to
		// the fid path, that ensures nobody gets to walk out of the
		// root of this server.
		newname := path.Join(path.Dir(f.fullName), path.Join(""/"", dir.Name))

		// absolute renaming. Ufs can do this, so let's support it.
		// We'll allow an absolute path in the Name and, if it is,
		// we will make it relative to root. This is a gigantic performance
		// improvement in systems that allow it.
		if filepath.IsAbs(dir.Name) {
			newname = path.Join(e.rootPath, dir.Name)
		}

		// If to exists, and to is a directory, we can't do the
		// rename, since os.Rename will move from into to.

		st, err := os.Stat(newname)
		if err == nil && st.IsDir() {
			return fmt.Errorf(""is a directory"")
		}
		if err := os.Rename(f.fullName, newname); err != nil {
			return err
		}
		f.fullName = newname
	}

	if dir.Length != 0xFFFFFFFFFFFFFFFF {
		changed = true
		if err := os.Truncate(f.fullName, int64(dir.Length)); err != nil {
			return err
		}
	}

	// If either mtime or atime need to be changed, then
	// we must change both.
	if dir.Mtime != ^uint32(0) || dir.Atime != ^uint32(0) {
		changed = true
		mt, at := time.Unix(int64(dir.Mtime), 0), time.Unix(int64(dir.Atime), 0)
		if cmt, cat := (dir.Mtime == ^uint32(0)), (dir.Atime == ^uint32(0)); cmt || cat {
			st, err := os.Stat(f.fullName)
			if err != nil {
				return err
			}
			switch cmt {
			case true:
				mt = st.ModTime()
			default:
				//at = atime(st.Sys().(*syscall.Stat_t))
			}
		}
		if err := os.Chtimes(f.fullName, at, mt); err != nil {
			return err
		}
	}

	if !changed && f.file != nil {
		f.file.Sync()
	}
	return nil
}

".
(* filesystem/filesystem.go:336-355 *)
Definition filesystem_12 : bytes := str "func (e *FileServer) clunk(fid protocol.FID) (*file, error) {
	e.mu.Lock()
	defer e.mu.Unlock()
	f, ok := e.files[fid]
	if !ok {
		return nil, fmt.Errorf(""does not exist"")
	}
	delete(e.files, fid)
	// What do we do if we can't close it?
	// All I can think of is to log it.
	if f.file != nil {
		if err := f.file.Close(); err != nil {
			log.Printf(""Close of %v failed: %v"", f.fullName, err)
		}
	}
	return f, nil
}

// Rremove removes the file. The question of whether the file continues to be accessible
// is system dependent.
".
(* filesystem/filesystem.go:356-363 *)
Definition filesystem_13 : bytes := str "func (e *FileServer) Rremove(fid protocol.FID) error {
	f, err := e.clunk(fid)
	if err != nil {
		return err
	}
	return os.Remove(f.fullName)
}

".
(* filesystem/filesystem.go:364-431 *)
Definition filesystem_14 : bytes := str "func (e *FileServer) Rread(fid protocol.FID, o protocol.Offset, c protocol.Count) ([]byte, error) {
	f, err := e.getFile(fid)
	if err != nil {
		return nil, err
	}
	if f.file == nil {
		return nil, fmt.Errorf(""FID not open"")
	}
	if f.QID.Type&protocol.QTDIR != 0 {
		if o == 0 {
			f.oflow = nil
			if err := resetDir(f); err != nil {
				return nil, err
			}
		}

		// We make the assumption that they can always fit at least one
		// directory entry into a read. If that assumption does not hold
		// so many things are broken that we can't fix them here.
		// But we'll drop out of the loop below having returned nothing
		// anyway.
		b := bytes.NewBuffer(f.oflow)
		f.oflow = nil
		pos := 0

		for {
			if b.Len() > int(c) {
				f.oflow = b.Bytes()[pos:]
				return b.Bytes()[:pos], nil
			}
			pos += b.Len()
			st, err := f.file.Readdir(1)
			if err == io.EOF {
				return b.Bytes(), nil
			}
			if err != nil {
				return nil, err
			}

			d9p, err := dirTo9p2000Dir(st[0])
			if err != nil {
				return nil, err
			}
			protocol.Marshaldir(b, *d9p)
			// Seen on linux clients: sometimes the math is wrong and
			// they end up asking for the last element with not enough data.
			// Linux bug or bug with this server? Not sure yet.
			if b.Len() > int(c) {
				log.Printf(""Warning: Server bug? %v, need %d bytes;count is %d: skipping"", d9p, b.Len(), c)
				return nil, nil
			}
			// We're not quite doing the array right.
			// What does work is returning one thing so, for now, do that.
			return b.Bytes(), nil
		}
		return b.Bytes(), nil
	}

	// N.B. even if they ask for 0 bytes on some file systems it is important to pass
	// through a zero byte read (not Unix, of course).
	b := make([]byte, c)
	n, err := f.file.ReadAt(b, int64(o))
	if err != nil && err != io.EOF {
		return nil, err
	}
	return b[:n], nil
}

".
(* filesystem/filesystem.go:432-448 *)
Definition filesystem_15 : bytes := str "func (e *FileServer) Rwrite(fid protocol.FID, o protocol.Offset, b []byte) (protocol.Count, error) {
	f, err := e.getFile(fid)
	if err != nil {
		return -1, err
	}
	if f.file == nil {
		return -1, fmt.Errorf(""FID not open"")
	}

	// N.B. even if they ask for 0 bytes on some file systems it is important to pass
	// through a zero byte write (not Unix, of course). Also, let the underlying file system
	// manage the error if the open mode was wrong. No need to duplicate the logic.

	n, err := f.file.WriteAt(b, int64(o))
	return protocol.Count(n), err
}

".
(* filesystem/filesystem.go:449-468 *)
Definition filesystem_16 : bytes := str "func NewUFS(opts ...protocol.ListenerOpt) (*protocol.Listener, error) {
	nsCreator := func() protocol.NineServer {
		f := &FileServer{}
		f.files = make(map[protocol.FID]*file)
		f.rootPath = *root // for now.
		f.IOunit = 8192
		// any opts for the ufs layer can be added here too ...
		var d protocol.NineServer = f
		if *debug != 0 {
			d = &debugfs.DebugFileServer{FileServer: f}
		}
		return d
	}

	l, err := protocol.NewListener(nsCreator, opts...)
	if err != nil {
		return nil, err
	}
	return l, nil
}
".
Definition filesystem_text : list bytes := [filesystem_0; filesystem_1; filesystem_2; filesystem_3; filesystem_4; filesystem_5; filesystem_6; filesystem_7; filesystem_8; filesystem_9; filesystem_10; filesystem_11; filesystem_12; filesystem_13; filesystem_14; filesystem_15; filesystem_16].

(** * filesystem/filesystem_unix.go *)
(* filesystem/filesystem_unix.go:1-14 *)
Definition filesystem_unix_0 : bytes := str "// Copyright 2012 The Ninep Authors.  All rights reserved.
// Use of this source code is governed by a BSD-style
// license that can be found in the LICENSE file.
// This code is imported from the old ninep repo,
// with some changes.

// +build !windows

package ufs

import ""io""

// resetDir seeks to the beginning of the file so that the file list can be
// read again.
".
(* filesystem/filesystem_unix.go:15-18 *)
Definition filesystem_unix_1 : bytes := str "func resetDir(f *file) error {
	_, err := f.file.Seek(0, io.SeekStart)
	return err
}
".
Definition filesystem_unix_text : list bytes := [filesystem_unix_0; filesystem_unix_1].

(** * filesystem/ninep.go *)
(* filesystem/ninep.go:1-19 *)
Definition ninep_0 : bytes := str "// Copyright 2012 The Ninep Authors.  All rights reserved.
// Use of this source code is governed by a BSD-style
// license that can be found in the LICENSE file.
// This code is imported from the old ninep repo,
// with some changes.

package ufs

import (
	""flag""
	""os""

	""github.com/Harvey-OS/ninep/protocol""
)

var (
	user = flag.String(""user"", ""harvey"", ""Default user name"")
)

".
(* filesystem/ninep.go:20-46 *)
Definition ninep_1 : bytes := str "func modeToUnixFlags(mode protocol.Mode) int {
	ret := int(0)
	switch mode & 3 {
	case protocol.OREAD:
		ret = os.O_RDONLY
		break

	case protocol.ORDWR:
		ret = os.O_RDWR
		break

	case protocol.OWRITE:
		ret = os.O_WRONLY
		break

	case protocol.OEXEC:
		ret = os.O_RDONLY
		break
	}

	if mode&protocol.OTRUNC != 0 {
		ret |= os.O_TRUNC
	}

	return ret
}

".
(* filesystem/ninep.go:47-59 *)
Definition ninep_2 : bytes := str "func dirToQIDType(d os.FileInfo) uint8 {
	ret := uint8(0)
	if d.IsDir() {
		ret |= protocol.QTDIR
	}

	if d.Mode()&os.ModeSymlink != 0 {
		ret |= protocol.QTSYMLINK
	}

	return ret
}

".
(* filesystem/ninep.go:60-67 *)
Definition ninep_3 : bytes := str "func dirTo9p2000Mode(d os.FileInfo) uint32 {
	ret := uint32(d.Mode() & 0777)
	if d.IsDir() {
		ret |= protocol.DMDIR
	}
	return ret
}

".
(* filesystem/ninep.go:68-81 *)
Definition ninep_4 : bytes := str "func dirTo9p2000Dir(fi os.FileInfo) (*protocol.Dir, error) {
	d := &protocol.Dir{}
	d.QID = fileInfoToQID(fi)
	d.Mode = dirTo9p2000Mode(fi)
	// TODO: use info on systems that have it.
	d.Atime = uint32(fi.ModTime().Unix()) // uint32(atime(sysMode).Unix())
	d.Mtime = uint32(fi.ModTime().Unix())
	d.Length = uint64(fi.Size())
	d.Name = fi.Name()
	d.User = *user
	d.Group = *user

	return d, nil
}
".
Definition ninep_text : list bytes := [ninep_0; ninep_1; ninep_2; ninep_3; ninep_4].

(** * filesystem/ninep_unix.go *)
(* filesystem/ninep_unix.go:1-17 *)
Definition ninep_unix_0 : bytes := str "// Copyright 2012 The Ninep Authors.  All rights reserved.
// Use of this source code is governed by a BSD-style
// license that can be found in the LICENSE file.
// This code is imported from the old ninep repo,
// with some changes.

// +build !windows

package ufs

import (
	""os""
	""syscall""

	""github.com/Harvey-OS/ninep/protocol""
)

".
(* filesystem/ninep_unix.go:18-34 *)
Definition ninep_unix_1 : bytes := str "func fileInfoToQID(d os.FileInfo) protocol.QID {
	var qid protocol.QID
	sysif := d.Sys()

	// on systems with inodes, use it.
	if sysif != nil {
		stat := sysif.(*syscall.Stat_t)
		qid.Path = uint64(stat.Ino)
	} else {
		qid.Path = uint64(d.ModTime().UnixNano())
	}

	qid.Version = uint32(d.ModTime().UnixNano() / 1000000)
	qid.Type = dirToQIDType(d)

	return qid
}
".
Definition ninep_unix_text : list bytes := [ninep_unix_0; ninep_unix_1].

(** * pkg/debugfs/debug.go *)
(* pkg/debugfs/debug.go:1-17 *)
Definition debug_0 : bytes := str "// Copyright 2009 The Ninep Authors.  All rights reserved.
// Use of this source code is governed by a BSD-style
// license that can be found in the LICENSE file.

package debugfs

import (
	""bytes""
	""log""

	""github.com/Harvey-OS/ninep/protocol""
)

type DebugFileServer struct {
	FileServer protocol.NineServer
}

".
(* pkg/debugfs/debug.go:18-28 *)
Definition debug_1 : bytes := str "func (dfs *DebugFileServer) Rversion(msize protocol.MaxSize, version string) (protocol.MaxSize, string, error) {
	log.Printf("">>> Tversion %v %v\n"", msize, version)
	msize, version, err := dfs.FileServer.Rversion(msize, version)
	if err == nil {
		log.Printf(""<<< Rversion %v %v\n"", msize, version)
	} else {
		log.Printf(""<<< Error %v\n"", err)
	}
	return msize, version, err
}

".
(* pkg/debugfs/debug.go:29-40 *)
Definition debug_2 : bytes := str "func (dfs *DebugFileServer) Rattach(fid protocol.FID, afid protocol.FID, uname string, aname string) (protocol.QID, error) {
	log.Printf("">>> Tattach fid %v,  afid %v, uname %v, aname %v\n"", fid, afid,
		uname, aname)
	qid, err := dfs.FileServer.Rattach(fid, afid, uname, aname)
	if err == nil {
		log.Printf(""<<< Rattach %v\n"", qid)
	} else {
		log.Printf(""<<< Error %v\n"", err)
	}
	return qid, err
}

".
(* pkg/debugfs/debug.go:41-51 *)
Definition debug_3 : bytes := str "func (dfs *DebugFileServer) Rflush(o protocol.Tag) error {
	log.Printf("">>> Tflush tag %v\n"", o)
	err := dfs.FileServer.Rflush(o)
	if err == nil {
		log.Printf(""<<< Rflush\n"")
	} else {
		log.Printf(""<<< Error %v\n"", err)
	}
	return err
}

".
(* pkg/debugfs/debug.go:52-62 *)
Definition debug_4 : bytes := str "func (dfs *DebugFileServer) Rwalk(fid protocol.FID, newfid protocol.FID, paths []string) ([]protocol.QID, error) {
	log.Printf("">>> Twalk fid %v, newfid %v, paths %v\n"", fid, newfid, paths)
	qid, err := dfs.FileServer.Rwalk(fid, newfid, paths)
	if err == nil {
		log.Printf(""<<< Rwalk %v\n"", qid)
	} else {
		log.Printf(""<<< Error %v\n"", err)
	}
	return qid, err
}

".
(* pkg/debugfs/debug.go:63-73 *)
Definition debug_5 : bytes := str "func (dfs *DebugFileServer) Ropen(fid protocol.FID, mode protocol.Mode) (protocol.QID, protocol.MaxSize, error) {
	log.Printf("">>> Topen fid %v, mode %v\n"", fid, mode)
	qid, iounit, err := dfs.FileServer.Ropen(fid, mode)
	if err == nil {
		log.Printf(""<<< Ropen %v %v\n"", qid, iounit)
	} else {
		log.Printf(""<<< Error %v\n"", err)
	}
	return qid, iounit, err
}

".
(* pkg/debugfs/debug.go:74-85 *)
Definition debug_6 : bytes := str "func (dfs *DebugFileServer) Rcreate(fid protocol.FID, name string, perm protocol.Perm, mode protocol.Mode) (protocol.QID, protocol.MaxSize, error) {
	log.Printf("">>> Tcreate fid %v, name %v, perm %v, mode %v\n"", fid, name,
		perm, mode)
	qid, iounit, err := dfs.FileServer.Rcreate(fid, name, perm, mode)
	if err == nil {
		log.Printf(""<<< Rcreate %v %v\n"", qid, iounit)
	} else {
		log.Printf(""<<< Error %v\n"", err)
	}
	return qid, iounit, err
}

".
(* pkg/debugfs/debug.go:86-96 *)
Definition debug_7 : bytes := str "func (dfs *DebugFileServer) Rclunk(fid protocol.FID) error {
	log.Printf("">>> Tclunk fid %v\n"", fid)
	err := dfs.FileServer.Rclunk(fid)
	if err == nil {
		log.Printf(""<<< Rclunk\n"")
	} else {
		log.Printf(""<<< Error %v\n"", err)
	}
	return err
}

".
(* pkg/debugfs/debug.go:97-108 *)
Definition debug_8 : bytes := str "func (dfs *DebugFileServer) Rstat(fid protocol.FID) ([]byte, error) {
	log.Printf("">>> Tstat fid %v\n"", fid)
	b, err := dfs.FileServer.Rstat(fid)
	if err == nil {
		dir, _ := protocol.Unmarshaldir(bytes.NewBuffer(b))
		log.Printf(""<<< Rstat %v\n"", dir)
	} else {
		log.Printf(""<<< Error %v\n"", err)
	}
	return b, err
}

".
(* pkg/debugfs/debug.go:109-120 *)
Definition debug_9 : bytes := str "func (dfs *DebugFileServer) Rwstat(fid protocol.FID, b []byte) error {
	dir, _ := protocol.Unmarshaldir(bytes.NewBuffer(b))
	log.Printf("">>> Twstat fid %v, %v\n"", fid, dir)
	err := dfs.FileServer.Rwstat(fid, b)
	if err == nil {
		log.Printf(""<<< Rwstat\n"")
	} else {
		log.Printf(""<<< Error %v\n"", err)
	}
	return err
}

".
(* pkg/debugfs/debug.go:121-131 *)
Definition debug_10 : bytes := str "func (dfs *DebugFileServer) Rremove(fid protocol.FID) error {
	log.Printf("">>> Tremove fid %v\n"", fid)
	err := dfs.FileServer.Rremove(fid)
	if err == nil {
		log.Printf(""<<< Rremove\n"")
	} else {
		log.Printf(""<<< Error %v\n"", err)
	}
	return err
}

".
(* pkg/debugfs/debug.go:132-142 *)
Definition debug_11 : bytes := str "func (dfs *DebugFileServer) Rread(fid protocol.FID, o protocol.Offset, c protocol.Count) ([]byte, error) {
	log.Printf("">>> Tread fid %v, off %v, count %v\n"", fid, o, c)
	b, err := dfs.FileServer.Rread(fid, o, c)
	if err == nil {
		log.Printf(""<<< Rread %v\n"", len(b))
	} else {
		log.Printf(""<<< Error %v\n"", err)
	}
	return b, err
}

".
(* pkg/debugfs/debug.go:143-152 *)
Definition debug_12 : bytes := str "func (dfs *DebugFileServer) Rwrite(fid protocol.FID, o protocol.Offset, b []byte) (protocol.Count, error) {
	log.Printf("">>> Twrite fid %v, off %v, count %v\n"", fid, o, len(b))
	c, err := dfs.FileServer.Rwrite(fid, o, b)
	if err == nil {
		log.Printf(""<<< Rwrite %v\n"", c)
	} else {
		log.Printf(""<<< Error %v\n"", err)
	}
	return c, err
}
".
Definition debug_text : list bytes := [debug_0; debug_1; debug_2; debug_3; debug_4; debug_5; debug_6; debug_7; debug_8; debug_9; debug_10; debug_11; debug_12].

(** * cmd/ufs/ufs.go *)
(* cmd/ufs/ufs.go:1-20 *)
Definition ufs_0 : bytes := str "// UFS is a userspace server which exports a filesystem over 9p2000.
//
// By default, it will export / over a TCP on port 5640 under the username
// of ""harvey"".
package main

import (
	""flag""
	""log""
	""net""

	ufs ""github.com/Harvey-OS/ninep/filesystem""
	""github.com/Harvey-OS/ninep/protocol""
)

var (
	ntype = flag.String(""ntype"", ""tcp4"", ""Default network type"")
	naddr = flag.String(""addr"", "":5640"", ""Network address"")
)

".
(* cmd/ufs/ufs.go:21-37 *)
Definition ufs_1 : bytes := str "func main() {
	flag.Parse()

	ln, err := net.Listen(*ntype, *naddr)
	if err != nil {
		log.Fatalf(""Listen failed: %v"", err)
	}

	ufslistener, err := ufs.NewUFS(func(l *protocol.Listener) error {
		l.Trace = nil // log.Printf
		return nil
	})

	if err := ufslistener.Serve(ln); err != nil {
		log.Fatal(err)
	}
}
".
Definition ufs_text : list bytes := [ufs_0; ufs_1].
