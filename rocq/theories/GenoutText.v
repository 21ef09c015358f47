(** The text of protocol/genout.go, byte for byte, cut before every function (written by tools/text.py). *)
From Verif Require Import Base.

(* genout.go:1-7 *)
Definition text_header : bytes := str "
package protocol
import (
""bytes""
""fmt""
_ ""log""
)
".
(* genout.go:8-23 *)
Definition text_MarshalRerrorPkt : bytes := str "func MarshalRerrorPkt (b *bytes.Buffer, t Tag, Error string) {
var l uint64
b.Reset()
b.Write([]byte{0,0,0,0,
uint8(Rerror),
byte(t), byte(t>>8),
	uint8(len(Error)),uint8(len(Error)>>8),
	})
	b.Write([]byte(Error))

{
l = uint64(b.Len())
copy(b.Bytes(), []byte{uint8(l), uint8(l>>8), uint8(l>>16), uint8(l>>24)})
}
return
}
".
(* genout.go:24-50 *)
Definition text_UnmarshalRerrorPkt : bytes := str "func UnmarshalRerrorPkt (b *bytes.Buffer) (Error string,  t Tag, err error) {
var u [8]uint8
var l uint64
if _, err = b.Read(u[:2]); err != nil {
err = fmt.Errorf(""pkt too short for Tag; need 2, have %d"", b.Len())
return
}
l = uint64(u[0]) | uint64(u[1])<<8
t = Tag(l)
	if _, err = b.Read(u[:2]); err != nil {
		err = fmt.Errorf(""pkt too short for uint16: need 2, have %d"", b.Len())
	return
	}
	l = uint64(u[0])
	l |= uint64(u[1])<<8
	if b.Len() < int(l) {
		err = fmt.Errorf(""pkt too short for string: need %d, have %d"", l, b.Len())
	return
	}
	Error = string(b.Bytes()[:l])
	_ = b.Next(int(l))

if b.Len() > 0 {
err = fmt.Errorf(""Packet too long: %d bytes left over after decode"", b.Len())
}
return
}
".
(* genout.go:51-70 *)
Definition text_MarshalRversionPkt : bytes := str "func MarshalRversionPkt (b *bytes.Buffer, t Tag, RMsize MaxSize, RVersion string) {
var l uint64
b.Reset()
b.Write([]byte{0,0,0,0,
uint8(Rversion),
byte(t), byte(t>>8),
	uint8(RMsize>>0),
	uint8(RMsize>>8),
	uint8(RMsize>>16),
	uint8(RMsize>>24),
	uint8(len(RVersion)),uint8(len(RVersion)>>8),
	})
	b.Write([]byte(RVersion))

{
l = uint64(b.Len())
copy(b.Bytes(), []byte{uint8(l), uint8(l>>8), uint8(l>>16), uint8(l>>24)})
}
return
}
".
(* genout.go:71-105 *)
Definition text_UnmarshalRversionPkt : bytes := str "func UnmarshalRversionPkt (b *bytes.Buffer) (RMsize MaxSize, RVersion string,  t Tag, err error) {
var u [8]uint8
var l uint64
if _, err = b.Read(u[:2]); err != nil {
err = fmt.Errorf(""pkt too short for Tag; need 2, have %d"", b.Len())
return
}
l = uint64(u[0]) | uint64(u[1])<<8
t = Tag(l)
	if _, err = b.Read(u[:4]); err != nil {
		err = fmt.Errorf(""pkt too short for uint32: need 4, have %d"", b.Len())
	return
	}
	RMsize = MaxSize(u[0])
	RMsize |= MaxSize(u[1])<<8
	RMsize |= MaxSize(u[2])<<16
	RMsize |= MaxSize(u[3])<<24
	if _, err = b.Read(u[:2]); err != nil {
		err = fmt.Errorf(""pkt too short for uint16: need 2, have %d"", b.Len())
	return
	}
	l = uint64(u[0])
	l |= uint64(u[1])<<8
	if b.Len() < int(l) {
		err = fmt.Errorf(""pkt too short for string: need %d, have %d"", l, b.Len())
	return
	}
	RVersion = string(b.Bytes()[:l])
	_ = b.Next(int(l))

if b.Len() > 0 {
err = fmt.Errorf(""Packet too long: %d bytes left over after decode"", b.Len())
}
return
}
".
(* genout.go:106-125 *)
Definition text_MarshalTversionPkt : bytes := str "func MarshalTversionPkt (b *bytes.Buffer, t Tag, TMsize MaxSize, TVersion string) {
var l uint64
b.Reset()
b.Write([]byte{0,0,0,0,
uint8(Tversion),
byte(t), byte(t>>8),
	uint8(TMsize>>0),
	uint8(TMsize>>8),
	uint8(TMsize>>16),
	uint8(TMsize>>24),
	uint8(len(TVersion)),uint8(len(TVersion)>>8),
	})
	b.Write([]byte(TVersion))

{
l = uint64(b.Len())
copy(b.Bytes(), []byte{uint8(l), uint8(l>>8), uint8(l>>16), uint8(l>>24)})
}
return
}
".
(* genout.go:126-160 *)
Definition text_UnmarshalTversionPkt : bytes := str "func UnmarshalTversionPkt (b *bytes.Buffer) (TMsize MaxSize, TVersion string,  t Tag, err error) {
var u [8]uint8
var l uint64
if _, err = b.Read(u[:2]); err != nil {
err = fmt.Errorf(""pkt too short for Tag; need 2, have %d"", b.Len())
return
}
l = uint64(u[0]) | uint64(u[1])<<8
t = Tag(l)
	if _, err = b.Read(u[:4]); err != nil {
		err = fmt.Errorf(""pkt too short for uint32: need 4, have %d"", b.Len())
	return
	}
	TMsize = MaxSize(u[0])
	TMsize |= MaxSize(u[1])<<8
	TMsize |= MaxSize(u[2])<<16
	TMsize |= MaxSize(u[3])<<24
	if _, err = b.Read(u[:2]); err != nil {
		err = fmt.Errorf(""pkt too short for uint16: need 2, have %d"", b.Len())
	return
	}
	l = uint64(u[0])
	l |= uint64(u[1])<<8
	if b.Len() < int(l) {
		err = fmt.Errorf(""pkt too short for string: need %d, have %d"", l, b.Len())
	return
	}
	TVersion = string(b.Bytes()[:l])
	_ = b.Next(int(l))

if b.Len() > 0 {
err = fmt.Errorf(""Packet too long: %d bytes left over after decode"", b.Len())
}
return
}
".
(* genout.go:161-172 *)
Definition text_SrvRversion : bytes := str "func (s *Server) SrvRversion(b*bytes.Buffer) (err error) {
	TMsize, TVersion,  t, err := UnmarshalTversionPkt(b)
	//if err != nil {
	//}
	if RMsize, RVersion,  err := s.NS.Rversion(TMsize, TVersion); err != nil {
	MarshalRerrorPkt(b, t, fmt.Sprintf(""%v"", err))
} else {
	MarshalRversionPkt(b, t, RMsize, RVersion)
}
	return nil
}

".
(* genout.go:173-192 *)
Definition text_CallTversion : bytes := str "func (c *Client)CallTversion (TMsize MaxSize, TVersion string) (RMsize MaxSize, RVersion string,  err error) {
var b = bytes.Buffer{}
if c.Trace != nil {c.Trace(""%v"", Tversion)}
t := Tag(0)
r := make (chan []byte)
if c.Trace != nil { c.Trace("":tag %v, FID %v"", t, c.FID)}
MarshalTversionPkt(&b, t, TMsize, TVersion)
c.FromClient <- &RPCCall{b: b.Bytes(), Reply: r}
bb := <-r
if MType(bb[4]) == Rerror {
	s, _, err := UnmarshalRerrorPkt(bytes.NewBuffer(bb[5:]))
	if err != nil {
		return RMsize, RVersion,  err
	}
	return RMsize, RVersion,  fmt.Errorf(""%v"", s)
} else {
	RMsize, RVersion,  _, err = UnmarshalRversionPkt(bytes.NewBuffer(bb[5:]))
}
return RMsize, RVersion,  err
}
".
(* genout.go:193-219 *)
Definition text_MarshalRattachPkt : bytes := str "func MarshalRattachPkt (b *bytes.Buffer, t Tag, QID QID) {
var l uint64
b.Reset()
b.Write([]byte{0,0,0,0,
uint8(Rattach),
byte(t), byte(t>>8),
	uint8(QID.Type>>0),
	uint8(QID.Version>>0),
	uint8(QID.Version>>8),
	uint8(QID.Version>>16),
	uint8(QID.Version>>24),
	uint8(QID.Path>>0),
	uint8(QID.Path>>8),
	uint8(QID.Path>>16),
	uint8(QID.Path>>24),
	uint8(QID.Path>>32),
	uint8(QID.Path>>40),
	uint8(QID.Path>>48),
	uint8(QID.Path>>56),
	})

{
l = uint64(b.Len())
copy(b.Bytes(), []byte{uint8(l), uint8(l>>8), uint8(l>>16), uint8(l>>24)})
}
return
}
".
(* genout.go:220-259 *)
Definition text_UnmarshalRattachPkt : bytes := str "func UnmarshalRattachPkt (b *bytes.Buffer) (QID QID,  t Tag, err error) {
var u [8]uint8
var l uint64
if _, err = b.Read(u[:2]); err != nil {
err = fmt.Errorf(""pkt too short for Tag; need 2, have %d"", b.Len())
return
}
l = uint64(u[0]) | uint64(u[1])<<8
t = Tag(l)
	if _, err = b.Read(u[:1]); err != nil {
		err = fmt.Errorf(""pkt too short for uint8: need 1, have %d"", b.Len())
	return
	}
	QID.Type = uint8(u[0])
	if _, err = b.Read(u[:4]); err != nil {
		err = fmt.Errorf(""pkt too short for uint32: need 4, have %d"", b.Len())
	return
	}
	QID.Version = uint32(u[0])
	QID.Version |= uint32(u[1])<<8
	QID.Version |= uint32(u[2])<<16
	QID.Version |= uint32(u[3])<<24
	if _, err = b.Read(u[:8]); err != nil {
		err = fmt.Errorf(""pkt too short for uint64: need 8, have %d"", b.Len())
	return
	}
	QID.Path = uint64(u[0])
	QID.Path |= uint64(u[1])<<8
	QID.Path |= uint64(u[2])<<16
	QID.Path |= uint64(u[3])<<24
	QID.Path |= uint64(u[4])<<32
	QID.Path |= uint64(u[5])<<40
	QID.Path |= uint64(u[6])<<48
	QID.Path |= uint64(u[7])<<56

if b.Len() > 0 {
err = fmt.Errorf(""Packet too long: %d bytes left over after decode"", b.Len())
}
return
}
".
(* genout.go:260-286 *)
Definition text_MarshalTattachPkt : bytes := str "func MarshalTattachPkt (b *bytes.Buffer, t Tag, SFID FID, AFID FID, Uname string, Aname string) {
var l uint64
b.Reset()
b.Write([]byte{0,0,0,0,
uint8(Tattach),
byte(t), byte(t>>8),
	uint8(SFID>>0),
	uint8(SFID>>8),
	uint8(SFID>>16),
	uint8(SFID>>24),
	uint8(AFID>>0),
	uint8(AFID>>8),
	uint8(AFID>>16),
	uint8(AFID>>24),
	uint8(len(Uname)),uint8(len(Uname)>>8),
	})
	b.Write([]byte(Uname))
	b.Write([]byte{	uint8(len(Aname)),uint8(len(Aname)>>8),
	})
	b.Write([]byte(Aname))

{
l = uint64(b.Len())
copy(b.Bytes(), []byte{uint8(l), uint8(l>>8), uint8(l>>16), uint8(l>>24)})
}
return
}
".
(* genout.go:287-341 *)
Definition text_UnmarshalTattachPkt : bytes := str "func UnmarshalTattachPkt (b *bytes.Buffer) (SFID FID, AFID FID, Uname string, Aname string,  t Tag, err error) {
var u [8]uint8
var l uint64
if _, err = b.Read(u[:2]); err != nil {
err = fmt.Errorf(""pkt too short for Tag; need 2, have %d"", b.Len())
return
}
l = uint64(u[0]) | uint64(u[1])<<8
t = Tag(l)
	if _, err = b.Read(u[:4]); err != nil {
		err = fmt.Errorf(""pkt too short for uint32: need 4, have %d"", b.Len())
	return
	}
	SFID = FID(u[0])
	SFID |= FID(u[1])<<8
	SFID |= FID(u[2])<<16
	SFID |= FID(u[3])<<24
	if _, err = b.Read(u[:4]); err != nil {
		err = fmt.Errorf(""pkt too short for uint32: need 4, have %d"", b.Len())
	return
	}
	AFID = FID(u[0])
	AFID |= FID(u[1])<<8
	AFID |= FID(u[2])<<16
	AFID |= FID(u[3])<<24
	if _, err = b.Read(u[:2]); err != nil {
		err = fmt.Errorf(""pkt too short for uint16: need 2, have %d"", b.Len())
	return
	}
	l = uint64(u[0])
	l |= uint64(u[1])<<8
	if b.Len() < int(l) {
		err = fmt.Errorf(""pkt too short for string: need %d, have %d"", l, b.Len())
	return
	}
	Uname = string(b.Bytes()[:l])
	_ = b.Next(int(l))
	if _, err = b.Read(u[:2]); err != nil {
		err = fmt.Errorf(""pkt too short for uint16: need 2, have %d"", b.Len())
	return
	}
	l = uint64(u[0])
	l |= uint64(u[1])<<8
	if b.Len() < int(l) {
		err = fmt.Errorf(""pkt too short for string: need %d, have %d"", l, b.Len())
	return
	}
	Aname = string(b.Bytes()[:l])
	_ = b.Next(int(l))

if b.Len() > 0 {
err = fmt.Errorf(""Packet too long: %d bytes left over after decode"", b.Len())
}
return
}
".
(* genout.go:342-353 *)
Definition text_SrvRattach : bytes := str "func (s *Server) SrvRattach(b*bytes.Buffer) (err error) {
	SFID, AFID, Uname, Aname,  t, err := UnmarshalTattachPkt(b)
	//if err != nil {
	//}
	if QID,  err := s.NS.Rattach(SFID, AFID, Uname, Aname); err != nil {
	MarshalRerrorPkt(b, t, fmt.Sprintf(""%v"", err))
} else {
	MarshalRattachPkt(b, t, QID)
}
	return nil
}

".
(* genout.go:354-373 *)
Definition text_CallTattach : bytes := str "func (c *Client)CallTattach (SFID FID, AFID FID, Uname string, Aname string) (QID QID,  err error) {
var b = bytes.Buffer{}
if c.Trace != nil {c.Trace(""%v"", Tattach)}
t := Tag(0)
r := make (chan []byte)
if c.Trace != nil { c.Trace("":tag %v, FID %v"", t, c.FID)}
MarshalTattachPkt(&b, t, SFID, AFID, Uname, Aname)
c.FromClient <- &RPCCall{b: b.Bytes(), Reply: r}
bb := <-r
if MType(bb[4]) == Rerror {
	s, _, err := UnmarshalRerrorPkt(bytes.NewBuffer(bb[5:]))
	if err != nil {
		return QID,  err
	}
	return QID,  fmt.Errorf(""%v"", s)
} else {
	QID,  _, err = UnmarshalRattachPkt(bytes.NewBuffer(bb[5:]))
}
return QID,  err
}
".
(* genout.go:374-387 *)
Definition text_MarshalRflushPkt : bytes := str "func MarshalRflushPkt (b *bytes.Buffer, t Tag, ) {
var l uint64
b.Reset()
b.Write([]byte{0,0,0,0,
uint8(Rflush),
byte(t), byte(t>>8),
	})

{
l = uint64(b.Len())
copy(b.Bytes(), []byte{uint8(l), uint8(l>>8), uint8(l>>16), uint8(l>>24)})
}
return
}
".
(* genout.go:388-402 *)
Definition text_UnmarshalRflushPkt : bytes := str "func UnmarshalRflushPkt (b *bytes.Buffer) ( t Tag, err error) {
var u [8]uint8
var l uint64
if _, err = b.Read(u[:2]); err != nil {
err = fmt.Errorf(""pkt too short for Tag; need 2, have %d"", b.Len())
return
}
l = uint64(u[0]) | uint64(u[1])<<8
t = Tag(l)

if b.Len() > 0 {
err = fmt.Errorf(""Packet too long: %d bytes left over after decode"", b.Len())
}
return
}
".
(* genout.go:403-418 *)
Definition text_MarshalTflushPkt : bytes := str "func MarshalTflushPkt (b *bytes.Buffer, t Tag, OTag Tag) {
var l uint64
b.Reset()
b.Write([]byte{0,0,0,0,
uint8(Tflush),
byte(t), byte(t>>8),
	uint8(OTag>>0),
	uint8(OTag>>8),
	})

{
l = uint64(b.Len())
copy(b.Bytes(), []byte{uint8(l), uint8(l>>8), uint8(l>>16), uint8(l>>24)})
}
return
}
".
(* genout.go:419-439 *)
Definition text_UnmarshalTflushPkt : bytes := str "func UnmarshalTflushPkt (b *bytes.Buffer) (OTag Tag,  t Tag, err error) {
var u [8]uint8
var l uint64
if _, err = b.Read(u[:2]); err != nil {
err = fmt.Errorf(""pkt too short for Tag; need 2, have %d"", b.Len())
return
}
l = uint64(u[0]) | uint64(u[1])<<8
t = Tag(l)
	if _, err = b.Read(u[:2]); err != nil {
		err = fmt.Errorf(""pkt too short for uint16: need 2, have %d"", b.Len())
	return
	}
	OTag = Tag(u[0])
	OTag |= Tag(u[1])<<8

if b.Len() > 0 {
err = fmt.Errorf(""Packet too long: %d bytes left over after decode"", b.Len())
}
return
}
".
(* genout.go:440-451 *)
Definition text_SrvRflush : bytes := str "func (s *Server) SrvRflush(b*bytes.Buffer) (err error) {
	OTag,  t, err := UnmarshalTflushPkt(b)
	//if err != nil {
	//}
	if  err := s.NS.Rflush(OTag); err != nil {
	MarshalRerrorPkt(b, t, fmt.Sprintf(""%v"", err))
} else {
	MarshalRflushPkt(b, t, )
}
	return nil
}

".
(* genout.go:452-471 *)
Definition text_CallTflush : bytes := str "func (c *Client)CallTflush (OTag Tag) ( err error) {
var b = bytes.Buffer{}
if c.Trace != nil {c.Trace(""%v"", Tflush)}
t := Tag(0)
r := make (chan []byte)
if c.Trace != nil { c.Trace("":tag %v, FID %v"", t, c.FID)}
MarshalTflushPkt(&b, t, OTag)
c.FromClient <- &RPCCall{b: b.Bytes(), Reply: r}
bb := <-r
if MType(bb[4]) == Rerror {
	s, _, err := UnmarshalRerrorPkt(bytes.NewBuffer(bb[5:]))
	if err != nil {
		return  err
	}
	return  fmt.Errorf(""%v"", s)
} else {
	 _, err = UnmarshalRflushPkt(bytes.NewBuffer(bb[5:]))
}
return  err
}
".
(* genout.go:472-503 *)
Definition text_MarshalRwalkPkt : bytes := str "func MarshalRwalkPkt (b *bytes.Buffer, t Tag, QIDs []QID) {
var l uint64
b.Reset()
b.Write([]byte{0,0,0,0,
uint8(Rwalk),
byte(t), byte(t>>8),
	uint8(len(QIDs)>>0),
	uint8(len(QIDs)>>8),
	})
for i := range QIDs {
	b.Write([]byte{	uint8(QIDs[i].Type>>0),
	uint8(QIDs[i].Version>>0),
	uint8(QIDs[i].Version>>8),
	uint8(QIDs[i].Version>>16),
	uint8(QIDs[i].Version>>24),
	uint8(QIDs[i].Path>>0),
	uint8(QIDs[i].Path>>8),
	uint8(QIDs[i].Path>>16),
	uint8(QIDs[i].Path>>24),
	uint8(QIDs[i].Path>>32),
	uint8(QIDs[i].Path>>40),
	uint8(QIDs[i].Path>>48),
	uint8(QIDs[i].Path>>56),
	})
}

{
l = uint64(b.Len())
copy(b.Bytes(), []byte{uint8(l), uint8(l>>8), uint8(l>>16), uint8(l>>24)})
}
return
}
".
(* genout.go:504-552 *)
Definition text_UnmarshalRwalkPkt : bytes := str "func UnmarshalRwalkPkt (b *bytes.Buffer) (QIDs []QID,  t Tag, err error) {
var u [8]uint8
var l uint64
if _, err = b.Read(u[:2]); err != nil {
err = fmt.Errorf(""pkt too short for Tag; need 2, have %d"", b.Len())
return
}
l = uint64(u[0]) | uint64(u[1])<<8
t = Tag(l)
	if _, err = b.Read(u[:2]); err != nil {
		err = fmt.Errorf(""pkt too short for uint16: need 2, have %d"", b.Len())
	return
	}
	l = uint64(u[0])
	l |= uint64(u[1])<<8
	QIDs = make([]QID, l)
for i := range QIDs {
	if _, err = b.Read(u[:1]); err != nil {
		err = fmt.Errorf(""pkt too short for uint8: need 1, have %d"", b.Len())
	return
	}
	QIDs[i].Type = uint8(u[0])
	if _, err = b.Read(u[:4]); err != nil {
		err = fmt.Errorf(""pkt too short for uint32: need 4, have %d"", b.Len())
	return
	}
	QIDs[i].Version = uint32(u[0])
	QIDs[i].Version |= uint32(u[1])<<8
	QIDs[i].Version |= uint32(u[2])<<16
	QIDs[i].Version |= uint32(u[3])<<24
	if _, err = b.Read(u[:8]); err != nil {
		err = fmt.Errorf(""pkt too short for uint64: need 8, have %d"", b.Len())
	return
	}
	QIDs[i].Path = uint64(u[0])
	QIDs[i].Path |= uint64(u[1])<<8
	QIDs[i].Path |= uint64(u[2])<<16
	QIDs[i].Path |= uint64(u[3])<<24
	QIDs[i].Path |= uint64(u[4])<<32
	QIDs[i].Path |= uint64(u[5])<<40
	QIDs[i].Path |= uint64(u[6])<<48
	QIDs[i].Path |= uint64(u[7])<<56
}

if b.Len() > 0 {
err = fmt.Errorf(""Packet too long: %d bytes left over after decode"", b.Len())
}
return
}
".
(* genout.go:553-581 *)
Definition text_MarshalTwalkPkt : bytes := str "func MarshalTwalkPkt (b *bytes.Buffer, t Tag, SFID FID, NewFID FID, Paths []string) {
var l uint64
b.Reset()
b.Write([]byte{0,0,0,0,
uint8(Twalk),
byte(t), byte(t>>8),
	uint8(SFID>>0),
	uint8(SFID>>8),
	uint8(SFID>>16),
	uint8(SFID>>24),
	uint8(NewFID>>0),
	uint8(NewFID>>8),
	uint8(NewFID>>16),
	uint8(NewFID>>24),
	uint8(len(Paths)>>0),
	uint8(len(Paths)>>8),
	})
for i := range Paths {
	b.Write([]byte{	uint8(len(Paths[i])),uint8(len(Paths[i])>>8),
	})
	b.Write([]byte(Paths[i]))
}

{
l = uint64(b.Len())
copy(b.Bytes(), []byte{uint8(l), uint8(l>>8), uint8(l>>16), uint8(l>>24)})
}
return
}
".
(* genout.go:582-633 *)
Definition text_UnmarshalTwalkPkt : bytes := str "func UnmarshalTwalkPkt (b *bytes.Buffer) (SFID FID, NewFID FID, Paths []string,  t Tag, err error) {
var u [8]uint8
var l uint64
if _, err = b.Read(u[:2]); err != nil {
err = fmt.Errorf(""pkt too short for Tag; need 2, have %d"", b.Len())
return
}
l = uint64(u[0]) | uint64(u[1])<<8
t = Tag(l)
	if _, err = b.Read(u[:4]); err != nil {
		err = fmt.Errorf(""pkt too short for uint32: need 4, have %d"", b.Len())
	return
	}
	SFID = FID(u[0])
	SFID |= FID(u[1])<<8
	SFID |= FID(u[2])<<16
	SFID |= FID(u[3])<<24
	if _, err = b.Read(u[:4]); err != nil {
		err = fmt.Errorf(""pkt too short for uint32: need 4, have %d"", b.Len())
	return
	}
	NewFID = FID(u[0])
	NewFID |= FID(u[1])<<8
	NewFID |= FID(u[2])<<16
	NewFID |= FID(u[3])<<24
	if _, err = b.Read(u[:2]); err != nil {
		err = fmt.Errorf(""pkt too short for uint16: need 2, have %d"", b.Len())
	return
	}
	l = uint64(u[0])
	l |= uint64(u[1])<<8
	Paths = make([]string, l)
for i := range Paths {
	if _, err = b.Read(u[:2]); err != nil {
		err = fmt.Errorf(""pkt too short for uint16: need 2, have %d"", b.Len())
	return
	}
	l = uint64(u[0])
	l |= uint64(u[1])<<8
	if b.Len() < int(l) {
		err = fmt.Errorf(""pkt too short for string: need %d, have %d"", l, b.Len())
	return
	}
	Paths[i] = string(b.Bytes()[:l])
	_ = b.Next(int(l))
}

if b.Len() > 0 {
err = fmt.Errorf(""Packet too long: %d bytes left over after decode"", b.Len())
}
return
}
".
(* genout.go:634-645 *)
Definition text_SrvRwalk : bytes := str "func (s *Server) SrvRwalk(b*bytes.Buffer) (err error) {
	SFID, NewFID, Paths,  t, err := UnmarshalTwalkPkt(b)
	//if err != nil {
	//}
	if QIDs,  err := s.NS.Rwalk(SFID, NewFID, Paths); err != nil {
	MarshalRerrorPkt(b, t, fmt.Sprintf(""%v"", err))
} else {
	MarshalRwalkPkt(b, t, QIDs)
}
	return nil
}

".
(* genout.go:646-665 *)
Definition text_CallTwalk : bytes := str "func (c *Client)CallTwalk (SFID FID, NewFID FID, Paths []string) (QIDs []QID,  err error) {
var b = bytes.Buffer{}
if c.Trace != nil {c.Trace(""%v"", Twalk)}
t := Tag(0)
r := make (chan []byte)
if c.Trace != nil { c.Trace("":tag %v, FID %v"", t, c.FID)}
MarshalTwalkPkt(&b, t, SFID, NewFID, Paths)
c.FromClient <- &RPCCall{b: b.Bytes(), Reply: r}
bb := <-r
if MType(bb[4]) == Rerror {
	s, _, err := UnmarshalRerrorPkt(bytes.NewBuffer(bb[5:]))
	if err != nil {
		return QIDs,  err
	}
	return QIDs,  fmt.Errorf(""%v"", s)
} else {
	QIDs,  _, err = UnmarshalRwalkPkt(bytes.NewBuffer(bb[5:]))
}
return QIDs,  err
}
".
(* genout.go:666-696 *)
Definition text_MarshalRopenPkt : bytes := str "func MarshalRopenPkt (b *bytes.Buffer, t Tag, OQID QID, IOUnit MaxSize) {
var l uint64
b.Reset()
b.Write([]byte{0,0,0,0,
uint8(Ropen),
byte(t), byte(t>>8),
	uint8(OQID.Type>>0),
	uint8(OQID.Version>>0),
	uint8(OQID.Version>>8),
	uint8(OQID.Version>>16),
	uint8(OQID.Version>>24),
	uint8(OQID.Path>>0),
	uint8(OQID.Path>>8),
	uint8(OQID.Path>>16),
	uint8(OQID.Path>>24),
	uint8(OQID.Path>>32),
	uint8(OQID.Path>>40),
	uint8(OQID.Path>>48),
	uint8(OQID.Path>>56),
	uint8(IOUnit>>0),
	uint8(IOUnit>>8),
	uint8(IOUnit>>16),
	uint8(IOUnit>>24),
	})

{
l = uint64(b.Len())
copy(b.Bytes(), []byte{uint8(l), uint8(l>>8), uint8(l>>16), uint8(l>>24)})
}
return
}
".
(* genout.go:697-744 *)
Definition text_UnmarshalRopenPkt : bytes := str "func UnmarshalRopenPkt (b *bytes.Buffer) (OQID QID, IOUnit MaxSize,  t Tag, err error) {
var u [8]uint8
var l uint64
if _, err = b.Read(u[:2]); err != nil {
err = fmt.Errorf(""pkt too short for Tag; need 2, have %d"", b.Len())
return
}
l = uint64(u[0]) | uint64(u[1])<<8
t = Tag(l)
	if _, err = b.Read(u[:1]); err != nil {
		err = fmt.Errorf(""pkt too short for uint8: need 1, have %d"", b.Len())
	return
	}
	OQID.Type = uint8(u[0])
	if _, err = b.Read(u[:4]); err != nil {
		err = fmt.Errorf(""pkt too short for uint32: need 4, have %d"", b.Len())
	return
	}
	OQID.Version = uint32(u[0])
	OQID.Version |= uint32(u[1])<<8
	OQID.Version |= uint32(u[2])<<16
	OQID.Version |= uint32(u[3])<<24
	if _, err = b.Read(u[:8]); err != nil {
		err = fmt.Errorf(""pkt too short for uint64: need 8, have %d"", b.Len())
	return
	}
	OQID.Path = uint64(u[0])
	OQID.Path |= uint64(u[1])<<8
	OQID.Path |= uint64(u[2])<<16
	OQID.Path |= uint64(u[3])<<24
	OQID.Path |= uint64(u[4])<<32
	OQID.Path |= uint64(u[5])<<40
	OQID.Path |= uint64(u[6])<<48
	OQID.Path |= uint64(u[7])<<56
	if _, err = b.Read(u[:4]); err != nil {
		err = fmt.Errorf(""pkt too short for uint32: need 4, have %d"", b.Len())
	return
	}
	IOUnit = MaxSize(u[0])
	IOUnit |= MaxSize(u[1])<<8
	IOUnit |= MaxSize(u[2])<<16
	IOUnit |= MaxSize(u[3])<<24

if b.Len() > 0 {
err = fmt.Errorf(""Packet too long: %d bytes left over after decode"", b.Len())
}
return
}
".
(* genout.go:745-763 *)
Definition text_MarshalTopenPkt : bytes := str "func MarshalTopenPkt (b *bytes.Buffer, t Tag, OFID FID, Omode Mode) {
var l uint64
b.Reset()
b.Write([]byte{0,0,0,0,
uint8(Topen),
byte(t), byte(t>>8),
	uint8(OFID>>0),
	uint8(OFID>>8),
	uint8(OFID>>16),
	uint8(OFID>>24),
	uint8(Omode>>0),
	})

{
l = uint64(b.Len())
copy(b.Bytes(), []byte{uint8(l), uint8(l>>8), uint8(l>>16), uint8(l>>24)})
}
return
}
".
(* genout.go:764-791 *)
Definition text_UnmarshalTopenPkt : bytes := str "func UnmarshalTopenPkt (b *bytes.Buffer) (OFID FID, Omode Mode,  t Tag, err error) {
var u [8]uint8
var l uint64
if _, err = b.Read(u[:2]); err != nil {
err = fmt.Errorf(""pkt too short for Tag; need 2, have %d"", b.Len())
return
}
l = uint64(u[0]) | uint64(u[1])<<8
t = Tag(l)
	if _, err = b.Read(u[:4]); err != nil {
		err = fmt.Errorf(""pkt too short for uint32: need 4, have %d"", b.Len())
	return
	}
	OFID = FID(u[0])
	OFID |= FID(u[1])<<8
	OFID |= FID(u[2])<<16
	OFID |= FID(u[3])<<24
	if _, err = b.Read(u[:1]); err != nil {
		err = fmt.Errorf(""pkt too short for uint8: need 1, have %d"", b.Len())
	return
	}
	Omode = Mode(u[0])

if b.Len() > 0 {
err = fmt.Errorf(""Packet too long: %d bytes left over after decode"", b.Len())
}
return
}
".
(* genout.go:792-803 *)
Definition text_SrvRopen : bytes := str "func (s *Server) SrvRopen(b*bytes.Buffer) (err error) {
	OFID, Omode,  t, err := UnmarshalTopenPkt(b)
	//if err != nil {
	//}
	if OQID, IOUnit,  err := s.NS.Ropen(OFID, Omode); err != nil {
	MarshalRerrorPkt(b, t, fmt.Sprintf(""%v"", err))
} else {
	MarshalRopenPkt(b, t, OQID, IOUnit)
}
	return nil
}

".
(* genout.go:804-823 *)
Definition text_CallTopen : bytes := str "func (c *Client)CallTopen (OFID FID, Omode Mode) (OQID QID, IOUnit MaxSize,  err error) {
var b = bytes.Buffer{}
if c.Trace != nil {c.Trace(""%v"", Topen)}
t := Tag(0)
r := make (chan []byte)
if c.Trace != nil { c.Trace("":tag %v, FID %v"", t, c.FID)}
MarshalTopenPkt(&b, t, OFID, Omode)
c.FromClient <- &RPCCall{b: b.Bytes(), Reply: r}
bb := <-r
if MType(bb[4]) == Rerror {
	s, _, err := UnmarshalRerrorPkt(bytes.NewBuffer(bb[5:]))
	if err != nil {
		return OQID, IOUnit,  err
	}
	return OQID, IOUnit,  fmt.Errorf(""%v"", s)
} else {
	OQID, IOUnit,  _, err = UnmarshalRopenPkt(bytes.NewBuffer(bb[5:]))
}
return OQID, IOUnit,  err
}
".
(* genout.go:824-854 *)
Definition text_MarshalRcreatePkt : bytes := str "func MarshalRcreatePkt (b *bytes.Buffer, t Tag, OQID QID, IOUnit MaxSize) {
var l uint64
b.Reset()
b.Write([]byte{0,0,0,0,
uint8(Rcreate),
byte(t), byte(t>>8),
	uint8(OQID.Type>>0),
	uint8(OQID.Version>>0),
	uint8(OQID.Version>>8),
	uint8(OQID.Version>>16),
	uint8(OQID.Version>>24),
	uint8(OQID.Path>>0),
	uint8(OQID.Path>>8),
	uint8(OQID.Path>>16),
	uint8(OQID.Path>>24),
	uint8(OQID.Path>>32),
	uint8(OQID.Path>>40),
	uint8(OQID.Path>>48),
	uint8(OQID.Path>>56),
	uint8(IOUnit>>0),
	uint8(IOUnit>>8),
	uint8(IOUnit>>16),
	uint8(IOUnit>>24),
	})

{
l = uint64(b.Len())
copy(b.Bytes(), []byte{uint8(l), uint8(l>>8), uint8(l>>16), uint8(l>>24)})
}
return
}
".
(* genout.go:855-902 *)
Definition text_UnmarshalRcreatePkt : bytes := str "func UnmarshalRcreatePkt (b *bytes.Buffer) (OQID QID, IOUnit MaxSize,  t Tag, err error) {
var u [8]uint8
var l uint64
if _, err = b.Read(u[:2]); err != nil {
err = fmt.Errorf(""pkt too short for Tag; need 2, have %d"", b.Len())
return
}
l = uint64(u[0]) | uint64(u[1])<<8
t = Tag(l)
	if _, err = b.Read(u[:1]); err != nil {
		err = fmt.Errorf(""pkt too short for uint8: need 1, have %d"", b.Len())
	return
	}
	OQID.Type = uint8(u[0])
	if _, err = b.Read(u[:4]); err != nil {
		err = fmt.Errorf(""pkt too short for uint32: need 4, have %d"", b.Len())
	return
	}
	OQID.Version = uint32(u[0])
	OQID.Version |= uint32(u[1])<<8
	OQID.Version |= uint32(u[2])<<16
	OQID.Version |= uint32(u[3])<<24
	if _, err = b.Read(u[:8]); err != nil {
		err = fmt.Errorf(""pkt too short for uint64: need 8, have %d"", b.Len())
	return
	}
	OQID.Path = uint64(u[0])
	OQID.Path |= uint64(u[1])<<8
	OQID.Path |= uint64(u[2])<<16
	OQID.Path |= uint64(u[3])<<24
	OQID.Path |= uint64(u[4])<<32
	OQID.Path |= uint64(u[5])<<40
	OQID.Path |= uint64(u[6])<<48
	OQID.Path |= uint64(u[7])<<56
	if _, err = b.Read(u[:4]); err != nil {
		err = fmt.Errorf(""pkt too short for uint32: need 4, have %d"", b.Len())
	return
	}
	IOUnit = MaxSize(u[0])
	IOUnit |= MaxSize(u[1])<<8
	IOUnit |= MaxSize(u[2])<<16
	IOUnit |= MaxSize(u[3])<<24

if b.Len() > 0 {
err = fmt.Errorf(""Packet too long: %d bytes left over after decode"", b.Len())
}
return
}
".
(* genout.go:903-928 *)
Definition text_MarshalTcreatePkt : bytes := str "func MarshalTcreatePkt (b *bytes.Buffer, t Tag, OFID FID, Name string, CreatePerm Perm, Omode Mode) {
var l uint64
b.Reset()
b.Write([]byte{0,0,0,0,
uint8(Tcreate),
byte(t), byte(t>>8),
	uint8(OFID>>0),
	uint8(OFID>>8),
	uint8(OFID>>16),
	uint8(OFID>>24),
	uint8(len(Name)),uint8(len(Name)>>8),
	})
	b.Write([]byte(Name))
	b.Write([]byte{	uint8(CreatePerm>>0),
	uint8(CreatePerm>>8),
	uint8(CreatePerm>>16),
	uint8(CreatePerm>>24),
	uint8(Omode>>0),
	})

{
l = uint64(b.Len())
copy(b.Bytes(), []byte{uint8(l), uint8(l>>8), uint8(l>>16), uint8(l>>24)})
}
return
}
".
(* genout.go:929-976 *)
Definition text_UnmarshalTcreatePkt : bytes := str "func UnmarshalTcreatePkt (b *bytes.Buffer) (OFID FID, Name string, CreatePerm Perm, Omode Mode,  t Tag, err error) {
var u [8]uint8
var l uint64
if _, err = b.Read(u[:2]); err != nil {
err = fmt.Errorf(""pkt too short for Tag; need 2, have %d"", b.Len())
return
}
l = uint64(u[0]) | uint64(u[1])<<8
t = Tag(l)
	if _, err = b.Read(u[:4]); err != nil {
		err = fmt.Errorf(""pkt too short for uint32: need 4, have %d"", b.Len())
	return
	}
	OFID = FID(u[0])
	OFID |= FID(u[1])<<8
	OFID |= FID(u[2])<<16
	OFID |= FID(u[3])<<24
	if _, err = b.Read(u[:2]); err != nil {
		err = fmt.Errorf(""pkt too short for uint16: need 2, have %d"", b.Len())
	return
	}
	l = uint64(u[0])
	l |= uint64(u[1])<<8
	if b.Len() < int(l) {
		err = fmt.Errorf(""pkt too short for string: need %d, have %d"", l, b.Len())
	return
	}
	Name = string(b.Bytes()[:l])
	_ = b.Next(int(l))
	if _, err = b.Read(u[:4]); err != nil {
		err = fmt.Errorf(""pkt too short for uint32: need 4, have %d"", b.Len())
	return
	}
	CreatePerm = Perm(u[0])
	CreatePerm |= Perm(u[1])<<8
	CreatePerm |= Perm(u[2])<<16
	CreatePerm |= Perm(u[3])<<24
	if _, err = b.Read(u[:1]); err != nil {
		err = fmt.Errorf(""pkt too short for uint8: need 1, have %d"", b.Len())
	return
	}
	Omode = Mode(u[0])

if b.Len() > 0 {
err = fmt.Errorf(""Packet too long: %d bytes left over after decode"", b.Len())
}
return
}
".
(* genout.go:977-988 *)
Definition text_SrvRcreate : bytes := str "func (s *Server) SrvRcreate(b*bytes.Buffer) (err error) {
	OFID, Name, CreatePerm, Omode,  t, err := UnmarshalTcreatePkt(b)
	//if err != nil {
	//}
	if OQID, IOUnit,  err := s.NS.Rcreate(OFID, Name, CreatePerm, Omode); err != nil {
	MarshalRerrorPkt(b, t, fmt.Sprintf(""%v"", err))
} else {
	MarshalRcreatePkt(b, t, OQID, IOUnit)
}
	return nil
}

".
(* genout.go:989-1008 *)
Definition text_CallTcreate : bytes := str "func (c *Client)CallTcreate (OFID FID, Name string, CreatePerm Perm, Omode Mode) (OQID QID, IOUnit MaxSize,  err error) {
var b = bytes.Buffer{}
if c.Trace != nil {c.Trace(""%v"", Tcreate)}
t := Tag(0)
r := make (chan []byte)
if c.Trace != nil { c.Trace("":tag %v, FID %v"", t, c.FID)}
MarshalTcreatePkt(&b, t, OFID, Name, CreatePerm, Omode)
c.FromClient <- &RPCCall{b: b.Bytes(), Reply: r}
bb := <-r
if MType(bb[4]) == Rerror {
	s, _, err := UnmarshalRerrorPkt(bytes.NewBuffer(bb[5:]))
	if err != nil {
		return OQID, IOUnit,  err
	}
	return OQID, IOUnit,  fmt.Errorf(""%v"", s)
} else {
	OQID, IOUnit,  _, err = UnmarshalRcreatePkt(bytes.NewBuffer(bb[5:]))
}
return OQID, IOUnit,  err
}
".
(* genout.go:1009-1025 *)
Definition text_MarshalRstatPkt : bytes := str "func MarshalRstatPkt (b *bytes.Buffer, t Tag, B []byte) {
var l uint64
b.Reset()
b.Write([]byte{0,0,0,0,
uint8(Rstat),
byte(t), byte(t>>8),
	uint8(len(B)>>0),
	uint8(len(B)>>8),
	})
	b.Write(B)

{
l = uint64(b.Len())
copy(b.Bytes(), []byte{uint8(l), uint8(l>>8), uint8(l>>16), uint8(l>>24)})
}
return
}
".
(* genout.go:1026-1048 *)
Definition text_UnmarshalRstatPkt : bytes := str "func UnmarshalRstatPkt (b *bytes.Buffer) (B []byte,  t Tag, err error) {
var u [8]uint8
var l uint64
if _, err = b.Read(u[:2]); err != nil {
err = fmt.Errorf(""pkt too short for Tag; need 2, have %d"", b.Len())
return
}
l = uint64(u[0]) | uint64(u[1])<<8
t = Tag(l)
	if _, err = b.Read(u[:2]); err != nil {
		err = fmt.Errorf(""pkt too short for uint16: need 2, have %d"", b.Len())
	return
	}
	l = uint64(u[0])
	l |= uint64(u[1])<<8
	B = b.Bytes()[:l]
	_ = b.Next(int(l))

if b.Len() > 0 {
err = fmt.Errorf(""Packet too long: %d bytes left over after decode"", b.Len())
}
return
}
".
(* genout.go:1049-1066 *)
Definition text_MarshalTstatPkt : bytes := str "func MarshalTstatPkt (b *bytes.Buffer, t Tag, OFID FID) {
var l uint64
b.Reset()
b.Write([]byte{0,0,0,0,
uint8(Tstat),
byte(t), byte(t>>8),
	uint8(OFID>>0),
	uint8(OFID>>8),
	uint8(OFID>>16),
	uint8(OFID>>24),
	})

{
l = uint64(b.Len())
copy(b.Bytes(), []byte{uint8(l), uint8(l>>8), uint8(l>>16), uint8(l>>24)})
}
return
}
".
(* genout.go:1067-1089 *)
Definition text_UnmarshalTstatPkt : bytes := str "func UnmarshalTstatPkt (b *bytes.Buffer) (OFID FID,  t Tag, err error) {
var u [8]uint8
var l uint64
if _, err = b.Read(u[:2]); err != nil {
err = fmt.Errorf(""pkt too short for Tag; need 2, have %d"", b.Len())
return
}
l = uint64(u[0]) | uint64(u[1])<<8
t = Tag(l)
	if _, err = b.Read(u[:4]); err != nil {
		err = fmt.Errorf(""pkt too short for uint32: need 4, have %d"", b.Len())
	return
	}
	OFID = FID(u[0])
	OFID |= FID(u[1])<<8
	OFID |= FID(u[2])<<16
	OFID |= FID(u[3])<<24

if b.Len() > 0 {
err = fmt.Errorf(""Packet too long: %d bytes left over after decode"", b.Len())
}
return
}
".
(* genout.go:1090-1101 *)
Definition text_SrvRstat : bytes := str "func (s *Server) SrvRstat(b*bytes.Buffer) (err error) {
	OFID,  t, err := UnmarshalTstatPkt(b)
	//if err != nil {
	//}
	if B,  err := s.NS.Rstat(OFID); err != nil {
	MarshalRerrorPkt(b, t, fmt.Sprintf(""%v"", err))
} else {
	MarshalRstatPkt(b, t, B)
}
	return nil
}

".
(* genout.go:1102-1121 *)
Definition text_CallTstat : bytes := str "func (c *Client)CallTstat (OFID FID) (B []byte,  err error) {
var b = bytes.Buffer{}
if c.Trace != nil {c.Trace(""%v"", Tstat)}
t := Tag(0)
r := make (chan []byte)
if c.Trace != nil { c.Trace("":tag %v, FID %v"", t, c.FID)}
MarshalTstatPkt(&b, t, OFID)
c.FromClient <- &RPCCall{b: b.Bytes(), Reply: r}
bb := <-r
if MType(bb[4]) == Rerror {
	s, _, err := UnmarshalRerrorPkt(bytes.NewBuffer(bb[5:]))
	if err != nil {
		return B,  err
	}
	return B,  fmt.Errorf(""%v"", s)
} else {
	B,  _, err = UnmarshalRstatPkt(bytes.NewBuffer(bb[5:]))
}
return B,  err
}
".
(* genout.go:1122-1135 *)
Definition text_MarshalRwstatPkt : bytes := str "func MarshalRwstatPkt (b *bytes.Buffer, t Tag, ) {
var l uint64
b.Reset()
b.Write([]byte{0,0,0,0,
uint8(Rwstat),
byte(t), byte(t>>8),
	})

{
l = uint64(b.Len())
copy(b.Bytes(), []byte{uint8(l), uint8(l>>8), uint8(l>>16), uint8(l>>24)})
}
return
}
".
(* genout.go:1136-1150 *)
Definition text_UnmarshalRwstatPkt : bytes := str "func UnmarshalRwstatPkt (b *bytes.Buffer) ( t Tag, err error) {
var u [8]uint8
var l uint64
if _, err = b.Read(u[:2]); err != nil {
err = fmt.Errorf(""pkt too short for Tag; need 2, have %d"", b.Len())
return
}
l = uint64(u[0]) | uint64(u[1])<<8
t = Tag(l)

if b.Len() > 0 {
err = fmt.Errorf(""Packet too long: %d bytes left over after decode"", b.Len())
}
return
}
".
(* genout.go:1151-1171 *)
Definition text_MarshalTwstatPkt : bytes := str "func MarshalTwstatPkt (b *bytes.Buffer, t Tag, OFID FID, B []byte) {
var l uint64
b.Reset()
b.Write([]byte{0,0,0,0,
uint8(Twstat),
byte(t), byte(t>>8),
	uint8(OFID>>0),
	uint8(OFID>>8),
	uint8(OFID>>16),
	uint8(OFID>>24),
	uint8(len(B)>>0),
	uint8(len(B)>>8),
	})
	b.Write(B)

{
l = uint64(b.Len())
copy(b.Bytes(), []byte{uint8(l), uint8(l>>8), uint8(l>>16), uint8(l>>24)})
}
return
}
".
(* genout.go:1172-1202 *)
Definition text_UnmarshalTwstatPkt : bytes := str "func UnmarshalTwstatPkt (b *bytes.Buffer) (OFID FID, B []byte,  t Tag, err error) {
var u [8]uint8
var l uint64
if _, err = b.Read(u[:2]); err != nil {
err = fmt.Errorf(""pkt too short for Tag; need 2, have %d"", b.Len())
return
}
l = uint64(u[0]) | uint64(u[1])<<8
t = Tag(l)
	if _, err = b.Read(u[:4]); err != nil {
		err = fmt.Errorf(""pkt too short for uint32: need 4, have %d"", b.Len())
	return
	}
	OFID = FID(u[0])
	OFID |= FID(u[1])<<8
	OFID |= FID(u[2])<<16
	OFID |= FID(u[3])<<24
	if _, err = b.Read(u[:2]); err != nil {
		err = fmt.Errorf(""pkt too short for uint16: need 2, have %d"", b.Len())
	return
	}
	l = uint64(u[0])
	l |= uint64(u[1])<<8
	B = b.Bytes()[:l]
	_ = b.Next(int(l))

if b.Len() > 0 {
err = fmt.Errorf(""Packet too long: %d bytes left over after decode"", b.Len())
}
return
}
".
(* genout.go:1203-1214 *)
Definition text_SrvRwstat : bytes := str "func (s *Server) SrvRwstat(b*bytes.Buffer) (err error) {
	OFID, B,  t, err := UnmarshalTwstatPkt(b)
	//if err != nil {
	//}
	if  err := s.NS.Rwstat(OFID, B); err != nil {
	MarshalRerrorPkt(b, t, fmt.Sprintf(""%v"", err))
} else {
	MarshalRwstatPkt(b, t, )
}
	return nil
}

".
(* genout.go:1215-1234 *)
Definition text_CallTwstat : bytes := str "func (c *Client)CallTwstat (OFID FID, B []byte) ( err error) {
var b = bytes.Buffer{}
if c.Trace != nil {c.Trace(""%v"", Twstat)}
t := Tag(0)
r := make (chan []byte)
if c.Trace != nil { c.Trace("":tag %v, FID %v"", t, c.FID)}
MarshalTwstatPkt(&b, t, OFID, B)
c.FromClient <- &RPCCall{b: b.Bytes(), Reply: r}
bb := <-r
if MType(bb[4]) == Rerror {
	s, _, err := UnmarshalRerrorPkt(bytes.NewBuffer(bb[5:]))
	if err != nil {
		return  err
	}
	return  fmt.Errorf(""%v"", s)
} else {
	 _, err = UnmarshalRwstatPkt(bytes.NewBuffer(bb[5:]))
}
return  err
}
".
(* genout.go:1235-1248 *)
Definition text_MarshalRclunkPkt : bytes := str "func MarshalRclunkPkt (b *bytes.Buffer, t Tag, ) {
var l uint64
b.Reset()
b.Write([]byte{0,0,0,0,
uint8(Rclunk),
byte(t), byte(t>>8),
	})

{
l = uint64(b.Len())
copy(b.Bytes(), []byte{uint8(l), uint8(l>>8), uint8(l>>16), uint8(l>>24)})
}
return
}
".
(* genout.go:1249-1263 *)
Definition text_UnmarshalRclunkPkt : bytes := str "func UnmarshalRclunkPkt (b *bytes.Buffer) ( t Tag, err error) {
var u [8]uint8
var l uint64
if _, err = b.Read(u[:2]); err != nil {
err = fmt.Errorf(""pkt too short for Tag; need 2, have %d"", b.Len())
return
}
l = uint64(u[0]) | uint64(u[1])<<8
t = Tag(l)

if b.Len() > 0 {
err = fmt.Errorf(""Packet too long: %d bytes left over after decode"", b.Len())
}
return
}
".
(* genout.go:1264-1281 *)
Definition text_MarshalTclunkPkt : bytes := str "func MarshalTclunkPkt (b *bytes.Buffer, t Tag, OFID FID) {
var l uint64
b.Reset()
b.Write([]byte{0,0,0,0,
uint8(Tclunk),
byte(t), byte(t>>8),
	uint8(OFID>>0),
	uint8(OFID>>8),
	uint8(OFID>>16),
	uint8(OFID>>24),
	})

{
l = uint64(b.Len())
copy(b.Bytes(), []byte{uint8(l), uint8(l>>8), uint8(l>>16), uint8(l>>24)})
}
return
}
".
(* genout.go:1282-1304 *)
Definition text_UnmarshalTclunkPkt : bytes := str "func UnmarshalTclunkPkt (b *bytes.Buffer) (OFID FID,  t Tag, err error) {
var u [8]uint8
var l uint64
if _, err = b.Read(u[:2]); err != nil {
err = fmt.Errorf(""pkt too short for Tag; need 2, have %d"", b.Len())
return
}
l = uint64(u[0]) | uint64(u[1])<<8
t = Tag(l)
	if _, err = b.Read(u[:4]); err != nil {
		err = fmt.Errorf(""pkt too short for uint32: need 4, have %d"", b.Len())
	return
	}
	OFID = FID(u[0])
	OFID |= FID(u[1])<<8
	OFID |= FID(u[2])<<16
	OFID |= FID(u[3])<<24

if b.Len() > 0 {
err = fmt.Errorf(""Packet too long: %d bytes left over after decode"", b.Len())
}
return
}
".
(* genout.go:1305-1316 *)
Definition text_SrvRclunk : bytes := str "func (s *Server) SrvRclunk(b*bytes.Buffer) (err error) {
	OFID,  t, err := UnmarshalTclunkPkt(b)
	//if err != nil {
	//}
	if  err := s.NS.Rclunk(OFID); err != nil {
	MarshalRerrorPkt(b, t, fmt.Sprintf(""%v"", err))
} else {
	MarshalRclunkPkt(b, t, )
}
	return nil
}

".
(* genout.go:1317-1336 *)
Definition text_CallTclunk : bytes := str "func (c *Client)CallTclunk (OFID FID) ( err error) {
var b = bytes.Buffer{}
if c.Trace != nil {c.Trace(""%v"", Tclunk)}
t := Tag(0)
r := make (chan []byte)
if c.Trace != nil { c.Trace("":tag %v, FID %v"", t, c.FID)}
MarshalTclunkPkt(&b, t, OFID)
c.FromClient <- &RPCCall{b: b.Bytes(), Reply: r}
bb := <-r
if MType(bb[4]) == Rerror {
	s, _, err := UnmarshalRerrorPkt(bytes.NewBuffer(bb[5:]))
	if err != nil {
		return  err
	}
	return  fmt.Errorf(""%v"", s)
} else {
	 _, err = UnmarshalRclunkPkt(bytes.NewBuffer(bb[5:]))
}
return  err
}
".
(* genout.go:1337-1350 *)
Definition text_MarshalRremovePkt : bytes := str "func MarshalRremovePkt (b *bytes.Buffer, t Tag, ) {
var l uint64
b.Reset()
b.Write([]byte{0,0,0,0,
uint8(Rremove),
byte(t), byte(t>>8),
	})

{
l = uint64(b.Len())
copy(b.Bytes(), []byte{uint8(l), uint8(l>>8), uint8(l>>16), uint8(l>>24)})
}
return
}
".
(* genout.go:1351-1365 *)
Definition text_UnmarshalRremovePkt : bytes := str "func UnmarshalRremovePkt (b *bytes.Buffer) ( t Tag, err error) {
var u [8]uint8
var l uint64
if _, err = b.Read(u[:2]); err != nil {
err = fmt.Errorf(""pkt too short for Tag; need 2, have %d"", b.Len())
return
}
l = uint64(u[0]) | uint64(u[1])<<8
t = Tag(l)

if b.Len() > 0 {
err = fmt.Errorf(""Packet too long: %d bytes left over after decode"", b.Len())
}
return
}
".
(* genout.go:1366-1383 *)
Definition text_MarshalTremovePkt : bytes := str "func MarshalTremovePkt (b *bytes.Buffer, t Tag, OFID FID) {
var l uint64
b.Reset()
b.Write([]byte{0,0,0,0,
uint8(Tremove),
byte(t), byte(t>>8),
	uint8(OFID>>0),
	uint8(OFID>>8),
	uint8(OFID>>16),
	uint8(OFID>>24),
	})

{
l = uint64(b.Len())
copy(b.Bytes(), []byte{uint8(l), uint8(l>>8), uint8(l>>16), uint8(l>>24)})
}
return
}
".
(* genout.go:1384-1406 *)
Definition text_UnmarshalTremovePkt : bytes := str "func UnmarshalTremovePkt (b *bytes.Buffer) (OFID FID,  t Tag, err error) {
var u [8]uint8
var l uint64
if _, err = b.Read(u[:2]); err != nil {
err = fmt.Errorf(""pkt too short for Tag; need 2, have %d"", b.Len())
return
}
l = uint64(u[0]) | uint64(u[1])<<8
t = Tag(l)
	if _, err = b.Read(u[:4]); err != nil {
		err = fmt.Errorf(""pkt too short for uint32: need 4, have %d"", b.Len())
	return
	}
	OFID = FID(u[0])
	OFID |= FID(u[1])<<8
	OFID |= FID(u[2])<<16
	OFID |= FID(u[3])<<24

if b.Len() > 0 {
err = fmt.Errorf(""Packet too long: %d bytes left over after decode"", b.Len())
}
return
}
".
(* genout.go:1407-1418 *)
Definition text_SrvRremove : bytes := str "func (s *Server) SrvRremove(b*bytes.Buffer) (err error) {
	OFID,  t, err := UnmarshalTremovePkt(b)
	//if err != nil {
	//}
	if  err := s.NS.Rremove(OFID); err != nil {
	MarshalRerrorPkt(b, t, fmt.Sprintf(""%v"", err))
} else {
	MarshalRremovePkt(b, t, )
}
	return nil
}

".
(* genout.go:1419-1438 *)
Definition text_CallTremove : bytes := str "func (c *Client)CallTremove (OFID FID) ( err error) {
var b = bytes.Buffer{}
if c.Trace != nil {c.Trace(""%v"", Tremove)}
t := Tag(0)
r := make (chan []byte)
if c.Trace != nil { c.Trace("":tag %v, FID %v"", t, c.FID)}
MarshalTremovePkt(&b, t, OFID)
c.FromClient <- &RPCCall{b: b.Bytes(), Reply: r}
bb := <-r
if MType(bb[4]) == Rerror {
	s, _, err := UnmarshalRerrorPkt(bytes.NewBuffer(bb[5:]))
	if err != nil {
		return  err
	}
	return  fmt.Errorf(""%v"", s)
} else {
	 _, err = UnmarshalRremovePkt(bytes.NewBuffer(bb[5:]))
}
return  err
}
".
(* genout.go:1439-1457 *)
Definition text_MarshalRreadPkt : bytes := str "func MarshalRreadPkt (b *bytes.Buffer, t Tag, Data []uint8) {
var l uint64
b.Reset()
b.Write([]byte{0,0,0,0,
uint8(Rread),
byte(t), byte(t>>8),
	uint8(len(Data)>>0),
	uint8(len(Data)>>8),
	uint8(len(Data)>>16),
	uint8(len(Data)>>24),
	})
	b.Write(Data)

{
l = uint64(b.Len())
copy(b.Bytes(), []byte{uint8(l), uint8(l>>8), uint8(l>>16), uint8(l>>24)})
}
return
}
".
(* genout.go:1458-1482 *)
Definition text_UnmarshalRreadPkt : bytes := str "func UnmarshalRreadPkt (b *bytes.Buffer) (Data []uint8,  t Tag, err error) {
var u [8]uint8
var l uint64
if _, err = b.Read(u[:2]); err != nil {
err = fmt.Errorf(""pkt too short for Tag; need 2, have %d"", b.Len())
return
}
l = uint64(u[0]) | uint64(u[1])<<8
t = Tag(l)
	if _, err = b.Read(u[:4]); err != nil {
		err = fmt.Errorf(""pkt too short for uint32: need 4, have %d"", b.Len())
	return
	}
	l = uint64(u[0])
	l |= uint64(u[1])<<8
	l |= uint64(u[2])<<16
	l |= uint64(u[3])<<24
	Data = b.Bytes()[:l]
	_ = b.Next(int(l))

if b.Len() > 0 {
err = fmt.Errorf(""Packet too long: %d bytes left over after decode"", b.Len())
}
return
}
".
(* genout.go:1483-1512 *)
Definition text_MarshalTreadPkt : bytes := str "func MarshalTreadPkt (b *bytes.Buffer, t Tag, OFID FID, Off Offset, Len Count) {
var l uint64
b.Reset()
b.Write([]byte{0,0,0,0,
uint8(Tread),
byte(t), byte(t>>8),
	uint8(OFID>>0),
	uint8(OFID>>8),
	uint8(OFID>>16),
	uint8(OFID>>24),
	uint8(Off>>0),
	uint8(Off>>8),
	uint8(Off>>16),
	uint8(Off>>24),
	uint8(Off>>32),
	uint8(Off>>40),
	uint8(Off>>48),
	uint8(Off>>56),
	uint8(Len>>0),
	uint8(Len>>8),
	uint8(Len>>16),
	uint8(Len>>24),
	})

{
l = uint64(b.Len())
copy(b.Bytes(), []byte{uint8(l), uint8(l>>8), uint8(l>>16), uint8(l>>24)})
}
return
}
".
(* genout.go:1513-1555 *)
Definition text_UnmarshalTreadPkt : bytes := str "func UnmarshalTreadPkt (b *bytes.Buffer) (OFID FID, Off Offset, Len Count,  t Tag, err error) {
var u [8]uint8
var l uint64
if _, err = b.Read(u[:2]); err != nil {
err = fmt.Errorf(""pkt too short for Tag; need 2, have %d"", b.Len())
return
}
l = uint64(u[0]) | uint64(u[1])<<8
t = Tag(l)
	if _, err = b.Read(u[:4]); err != nil {
		err = fmt.Errorf(""pkt too short for uint32: need 4, have %d"", b.Len())
	return
	}
	OFID = FID(u[0])
	OFID |= FID(u[1])<<8
	OFID |= FID(u[2])<<16
	OFID |= FID(u[3])<<24
	if _, err = b.Read(u[:8]); err != nil {
		err = fmt.Errorf(""pkt too short for uint64: need 8, have %d"", b.Len())
	return
	}
	Off = Offset(u[0])
	Off |= Offset(u[1])<<8
	Off |= Offset(u[2])<<16
	Off |= Offset(u[3])<<24
	Off |= Offset(u[4])<<32
	Off |= Offset(u[5])<<40
	Off |= Offset(u[6])<<48
	Off |= Offset(u[7])<<56
	if _, err = b.Read(u[:4]); err != nil {
		err = fmt.Errorf(""pkt too short for uint32: need 4, have %d"", b.Len())
	return
	}
	Len = Count(u[0])
	Len |= Count(u[1])<<8
	Len |= Count(u[2])<<16
	Len |= Count(u[3])<<24

if b.Len() > 0 {
err = fmt.Errorf(""Packet too long: %d bytes left over after decode"", b.Len())
}
return
}
".
(* genout.go:1556-1567 *)
Definition text_SrvRread : bytes := str "func (s *Server) SrvRread(b*bytes.Buffer) (err error) {
	OFID, Off, Len,  t, err := UnmarshalTreadPkt(b)
	//if err != nil {
	//}
	if Data,  err := s.NS.Rread(OFID, Off, Len); err != nil {
	MarshalRerrorPkt(b, t, fmt.Sprintf(""%v"", err))
} else {
	MarshalRreadPkt(b, t, Data)
}
	return nil
}

".
(* genout.go:1568-1587 *)
Definition text_CallTread : bytes := str "func (c *Client)CallTread (OFID FID, Off Offset, Len Count) (Data []uint8,  err error) {
var b = bytes.Buffer{}
if c.Trace != nil {c.Trace(""%v"", Tread)}
t := Tag(0)
r := make (chan []byte)
if c.Trace != nil { c.Trace("":tag %v, FID %v"", t, c.FID)}
MarshalTreadPkt(&b, t, OFID, Off, Len)
c.FromClient <- &RPCCall{b: b.Bytes(), Reply: r}
bb := <-r
if MType(bb[4]) == Rerror {
	s, _, err := UnmarshalRerrorPkt(bytes.NewBuffer(bb[5:]))
	if err != nil {
		return Data,  err
	}
	return Data,  fmt.Errorf(""%v"", s)
} else {
	Data,  _, err = UnmarshalRreadPkt(bytes.NewBuffer(bb[5:]))
}
return Data,  err
}
".
(* genout.go:1588-1605 *)
Definition text_MarshalRwritePkt : bytes := str "func MarshalRwritePkt (b *bytes.Buffer, t Tag, RLen Count) {
var l uint64
b.Reset()
b.Write([]byte{0,0,0,0,
uint8(Rwrite),
byte(t), byte(t>>8),
	uint8(RLen>>0),
	uint8(RLen>>8),
	uint8(RLen>>16),
	uint8(RLen>>24),
	})

{
l = uint64(b.Len())
copy(b.Bytes(), []byte{uint8(l), uint8(l>>8), uint8(l>>16), uint8(l>>24)})
}
return
}
".
(* genout.go:1606-1628 *)
Definition text_UnmarshalRwritePkt : bytes := str "func UnmarshalRwritePkt (b *bytes.Buffer) (RLen Count,  t Tag, err error) {
var u [8]uint8
var l uint64
if _, err = b.Read(u[:2]); err != nil {
err = fmt.Errorf(""pkt too short for Tag; need 2, have %d"", b.Len())
return
}
l = uint64(u[0]) | uint64(u[1])<<8
t = Tag(l)
	if _, err = b.Read(u[:4]); err != nil {
		err = fmt.Errorf(""pkt too short for uint32: need 4, have %d"", b.Len())
	return
	}
	RLen = Count(u[0])
	RLen |= Count(u[1])<<8
	RLen |= Count(u[2])<<16
	RLen |= Count(u[3])<<24

if b.Len() > 0 {
err = fmt.Errorf(""Packet too long: %d bytes left over after decode"", b.Len())
}
return
}
".
(* genout.go:1629-1659 *)
Definition text_MarshalTwritePkt : bytes := str "func MarshalTwritePkt (b *bytes.Buffer, t Tag, OFID FID, Off Offset, Data []uint8) {
var l uint64
b.Reset()
b.Write([]byte{0,0,0,0,
uint8(Twrite),
byte(t), byte(t>>8),
	uint8(OFID>>0),
	uint8(OFID>>8),
	uint8(OFID>>16),
	uint8(OFID>>24),
	uint8(Off>>0),
	uint8(Off>>8),
	uint8(Off>>16),
	uint8(Off>>24),
	uint8(Off>>32),
	uint8(Off>>40),
	uint8(Off>>48),
	uint8(Off>>56),
	uint8(len(Data)>>0),
	uint8(len(Data)>>8),
	uint8(len(Data)>>16),
	uint8(len(Data)>>24),
	})
	b.Write(Data)

{
l = uint64(b.Len())
copy(b.Bytes(), []byte{uint8(l), uint8(l>>8), uint8(l>>16), uint8(l>>24)})
}
return
}
".
(* genout.go:1660-1704 *)
Definition text_UnmarshalTwritePkt : bytes := str "func UnmarshalTwritePkt (b *bytes.Buffer) (OFID FID, Off Offset, Data []uint8,  t Tag, err error) {
var u [8]uint8
var l uint64
if _, err = b.Read(u[:2]); err != nil {
err = fmt.Errorf(""pkt too short for Tag; need 2, have %d"", b.Len())
return
}
l = uint64(u[0]) | uint64(u[1])<<8
t = Tag(l)
	if _, err = b.Read(u[:4]); err != nil {
		err = fmt.Errorf(""pkt too short for uint32: need 4, have %d"", b.Len())
	return
	}
	OFID = FID(u[0])
	OFID |= FID(u[1])<<8
	OFID |= FID(u[2])<<16
	OFID |= FID(u[3])<<24
	if _, err = b.Read(u[:8]); err != nil {
		err = fmt.Errorf(""pkt too short for uint64: need 8, have %d"", b.Len())
	return
	}
	Off = Offset(u[0])
	Off |= Offset(u[1])<<8
	Off |= Offset(u[2])<<16
	Off |= Offset(u[3])<<24
	Off |= Offset(u[4])<<32
	Off |= Offset(u[5])<<40
	Off |= Offset(u[6])<<48
	Off |= Offset(u[7])<<56
	if _, err = b.Read(u[:4]); err != nil {
		err = fmt.Errorf(""pkt too short for uint32: need 4, have %d"", b.Len())
	return
	}
	l = uint64(u[0])
	l |= uint64(u[1])<<8
	l |= uint64(u[2])<<16
	l |= uint64(u[3])<<24
	Data = b.Bytes()[:l]
	_ = b.Next(int(l))

if b.Len() > 0 {
err = fmt.Errorf(""Packet too long: %d bytes left over after decode"", b.Len())
}
return
}
".
(* genout.go:1705-1716 *)
Definition text_SrvRwrite : bytes := str "func (s *Server) SrvRwrite(b*bytes.Buffer) (err error) {
	OFID, Off, Data,  t, err := UnmarshalTwritePkt(b)
	//if err != nil {
	//}
	if RLen,  err := s.NS.Rwrite(OFID, Off, Data); err != nil {
	MarshalRerrorPkt(b, t, fmt.Sprintf(""%v"", err))
} else {
	MarshalRwritePkt(b, t, RLen)
}
	return nil
}

".
(* genout.go:1717-1736 *)
Definition text_CallTwrite : bytes := str "func (c *Client)CallTwrite (OFID FID, Off Offset, Data []uint8) (RLen Count,  err error) {
var b = bytes.Buffer{}
if c.Trace != nil {c.Trace(""%v"", Twrite)}
t := Tag(0)
r := make (chan []byte)
if c.Trace != nil { c.Trace("":tag %v, FID %v"", t, c.FID)}
MarshalTwritePkt(&b, t, OFID, Off, Data)
c.FromClient <- &RPCCall{b: b.Bytes(), Reply: r}
bb := <-r
if MType(bb[4]) == Rerror {
	s, _, err := UnmarshalRerrorPkt(bytes.NewBuffer(bb[5:]))
	if err != nil {
		return RLen,  err
	}
	return RLen,  fmt.Errorf(""%v"", s)
} else {
	RLen,  _, err = UnmarshalRwritePkt(bytes.NewBuffer(bb[5:]))
}
return RLen,  err
}
".
(* genout.go:1737-1745 *)
Definition text_ServerError : bytes := str "func ServerError (b *bytes.Buffer, s string) {
	var u [8]byte
	// This can't really happen. 
	if _, err := b.Read(u[:2]); err != nil {
		return
	}
	t := Tag(uint16(u[0])|uint16(u[1])<<8)
	MarshalRerrorPkt (b, t, s)
}
".
(* genout.go:1746-1805 *)
Definition text_Marshaldir : bytes := str "func Marshaldir (b *bytes.Buffer, D Dir) {
var l uint64
b.Reset()
b.Write([]byte{0,0,})
	b.Write([]byte{	uint8(D.Type>>0),
	uint8(D.Type>>8),
	uint8(D.Dev>>0),
	uint8(D.Dev>>8),
	uint8(D.Dev>>16),
	uint8(D.Dev>>24),
	uint8(D.QID.Type>>0),
	uint8(D.QID.Version>>0),
	uint8(D.QID.Version>>8),
	uint8(D.QID.Version>>16),
	uint8(D.QID.Version>>24),
	uint8(D.QID.Path>>0),
	uint8(D.QID.Path>>8),
	uint8(D.QID.Path>>16),
	uint8(D.QID.Path>>24),
	uint8(D.QID.Path>>32),
	uint8(D.QID.Path>>40),
	uint8(D.QID.Path>>48),
	uint8(D.QID.Path>>56),
	uint8(D.Mode>>0),
	uint8(D.Mode>>8),
	uint8(D.Mode>>16),
	uint8(D.Mode>>24),
	uint8(D.Atime>>0),
	uint8(D.Atime>>8),
	uint8(D.Atime>>16),
	uint8(D.Atime>>24),
	uint8(D.Mtime>>0),
	uint8(D.Mtime>>8),
	uint8(D.Mtime>>16),
	uint8(D.Mtime>>24),
	uint8(D.Length>>0),
	uint8(D.Length>>8),
	uint8(D.Length>>16),
	uint8(D.Length>>24),
	uint8(D.Length>>32),
	uint8(D.Length>>40),
	uint8(D.Length>>48),
	uint8(D.Length>>56),
	uint8(len(D.Name)),uint8(len(D.Name)>>8),
	})
	b.Write([]byte(D.Name))
	b.Write([]byte{	uint8(len(D.User)),uint8(len(D.User)>>8),
	})
	b.Write([]byte(D.User))
	b.Write([]byte{	uint8(len(D.Group)),uint8(len(D.Group)>>8),
	})
	b.Write([]byte(D.Group))
	b.Write([]byte{	uint8(len(D.ModUser)),uint8(len(D.ModUser)>>8),
	})
	b.Write([]byte(D.ModUser))

l = uint64(b.Len()) - 2
copy(b.Bytes(), []byte{uint8(l), uint8(l>>8)})
return
}
".
(* genout.go:1806-1935 *)
Definition text_Unmarshaldir : bytes := str "func Unmarshaldir (b *bytes.Buffer) (D Dir,  err error) {
var u [8]uint8
var l uint64
_ = b.Next(2) // eat the length too
	if _, err = b.Read(u[:2]); err != nil {
		err = fmt.Errorf(""pkt too short for uint16: need 2, have %d"", b.Len())
	return
	}
	D.Type = uint16(u[0])
	D.Type |= uint16(u[1])<<8
	if _, err = b.Read(u[:4]); err != nil {
		err = fmt.Errorf(""pkt too short for uint32: need 4, have %d"", b.Len())
	return
	}
	D.Dev = uint32(u[0])
	D.Dev |= uint32(u[1])<<8
	D.Dev |= uint32(u[2])<<16
	D.Dev |= uint32(u[3])<<24
	if _, err = b.Read(u[:1]); err != nil {
		err = fmt.Errorf(""pkt too short for uint8: need 1, have %d"", b.Len())
	return
	}
	D.QID.Type = uint8(u[0])
	if _, err = b.Read(u[:4]); err != nil {
		err = fmt.Errorf(""pkt too short for uint32: need 4, have %d"", b.Len())
	return
	}
	D.QID.Version = uint32(u[0])
	D.QID.Version |= uint32(u[1])<<8
	D.QID.Version |= uint32(u[2])<<16
	D.QID.Version |= uint32(u[3])<<24
	if _, err = b.Read(u[:8]); err != nil {
		err = fmt.Errorf(""pkt too short for uint64: need 8, have %d"", b.Len())
	return
	}
	D.QID.Path = uint64(u[0])
	D.QID.Path |= uint64(u[1])<<8
	D.QID.Path |= uint64(u[2])<<16
	D.QID.Path |= uint64(u[3])<<24
	D.QID.Path |= uint64(u[4])<<32
	D.QID.Path |= uint64(u[5])<<40
	D.QID.Path |= uint64(u[6])<<48
	D.QID.Path |= uint64(u[7])<<56
	if _, err = b.Read(u[:4]); err != nil {
		err = fmt.Errorf(""pkt too short for uint32: need 4, have %d"", b.Len())
	return
	}
	D.Mode = uint32(u[0])
	D.Mode |= uint32(u[1])<<8
	D.Mode |= uint32(u[2])<<16
	D.Mode |= uint32(u[3])<<24
	if _, err = b.Read(u[:4]); err != nil {
		err = fmt.Errorf(""pkt too short for uint32: need 4, have %d"", b.Len())
	return
	}
	D.Atime = uint32(u[0])
	D.Atime |= uint32(u[1])<<8
	D.Atime |= uint32(u[2])<<16
	D.Atime |= uint32(u[3])<<24
	if _, err = b.Read(u[:4]); err != nil {
		err = fmt.Errorf(""pkt too short for uint32: need 4, have %d"", b.Len())
	return
	}
	D.Mtime = uint32(u[0])
	D.Mtime |= uint32(u[1])<<8
	D.Mtime |= uint32(u[2])<<16
	D.Mtime |= uint32(u[3])<<24
	if _, err = b.Read(u[:8]); err != nil {
		err = fmt.Errorf(""pkt too short for uint64: need 8, have %d"", b.Len())
	return
	}
	D.Length = uint64(u[0])
	D.Length |= uint64(u[1])<<8
	D.Length |= uint64(u[2])<<16
	D.Length |= uint64(u[3])<<24
	D.Length |= uint64(u[4])<<32
	D.Length |= uint64(u[5])<<40
	D.Length |= uint64(u[6])<<48
	D.Length |= uint64(u[7])<<56
	if _, err = b.Read(u[:2]); err != nil {
		err = fmt.Errorf(""pkt too short for uint16: need 2, have %d"", b.Len())
	return
	}
	l = uint64(u[0])
	l |= uint64(u[1])<<8
	if b.Len() < int(l) {
		err = fmt.Errorf(""pkt too short for string: need %d, have %d"", l, b.Len())
	return
	}
	D.Name = string(b.Bytes()[:l])
	_ = b.Next(int(l))
	if _, err = b.Read(u[:2]); err != nil {
		err = fmt.Errorf(""pkt too short for uint16: need 2, have %d"", b.Len())
	return
	}
	l = uint64(u[0])
	l |= uint64(u[1])<<8
	if b.Len() < int(l) {
		err = fmt.Errorf(""pkt too short for string: need %d, have %d"", l, b.Len())
	return
	}
	D.User = string(b.Bytes()[:l])
	_ = b.Next(int(l))
	if _, err = b.Read(u[:2]); err != nil {
		err = fmt.Errorf(""pkt too short for uint16: need 2, have %d"", b.Len())
	return
	}
	l = uint64(u[0])
	l |= uint64(u[1])<<8
	if b.Len() < int(l) {
		err = fmt.Errorf(""pkt too short for string: need %d, have %d"", l, b.Len())
	return
	}
	D.Group = string(b.Bytes()[:l])
	_ = b.Next(int(l))
	if _, err = b.Read(u[:2]); err != nil {
		err = fmt.Errorf(""pkt too short for uint16: need 2, have %d"", b.Len())
	return
	}
	l = uint64(u[0])
	l |= uint64(u[1])<<8
	if b.Len() < int(l) {
		err = fmt.Errorf(""pkt too short for string: need %d, have %d"", l, b.Len())
	return
	}
	D.ModUser = string(b.Bytes()[:l])
	_ = b.Next(int(l))

return
}
".
Definition genout_text : list bytes := [text_header; text_MarshalRerrorPkt; text_UnmarshalRerrorPkt; text_MarshalRversionPkt; text_UnmarshalRversionPkt; text_MarshalTversionPkt; text_UnmarshalTversionPkt; text_SrvRversion; text_CallTversion; text_MarshalRattachPkt; text_UnmarshalRattachPkt; text_MarshalTattachPkt; text_UnmarshalTattachPkt; text_SrvRattach; text_CallTattach; text_MarshalRflushPkt; text_UnmarshalRflushPkt; text_MarshalTflushPkt; text_UnmarshalTflushPkt; text_SrvRflush; text_CallTflush; text_MarshalRwalkPkt; text_UnmarshalRwalkPkt; text_MarshalTwalkPkt; text_UnmarshalTwalkPkt; text_SrvRwalk; text_CallTwalk; text_MarshalRopenPkt; text_UnmarshalRopenPkt; text_MarshalTopenPkt; text_UnmarshalTopenPkt; text_SrvRopen; text_CallTopen; text_MarshalRcreatePkt; text_UnmarshalRcreatePkt; text_MarshalTcreatePkt; text_UnmarshalTcreatePkt; text_SrvRcreate; text_CallTcreate; text_MarshalRstatPkt; text_UnmarshalRstatPkt; text_MarshalTstatPkt; text_UnmarshalTstatPkt; text_SrvRstat; text_CallTstat; text_MarshalRwstatPkt; text_UnmarshalRwstatPkt; text_MarshalTwstatPkt; text_UnmarshalTwstatPkt; text_SrvRwstat; text_CallTwstat; text_MarshalRclunkPkt; text_UnmarshalRclunkPkt; text_MarshalTclunkPkt; text_UnmarshalTclunkPkt; text_SrvRclunk; text_CallTclunk; text_MarshalRremovePkt; text_UnmarshalRremovePkt; text_MarshalTremovePkt; text_UnmarshalTremovePkt; text_SrvRremove; text_CallTremove; text_MarshalRreadPkt; text_UnmarshalRreadPkt; text_MarshalTreadPkt; text_UnmarshalTreadPkt; text_SrvRread; text_CallTread; text_MarshalRwritePkt; text_UnmarshalRwritePkt; text_MarshalTwritePkt; text_UnmarshalTwritePkt; text_SrvRwrite; text_CallTwrite; text_ServerError; text_Marshaldir; text_Unmarshaldir].
