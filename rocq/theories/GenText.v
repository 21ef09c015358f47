(** Model of protocol/gen.go as what it is, a program that prints Go source text.

    Gen.v gives the meaning of what the generator emits; here is the text itself, character by character, so that it
    can be compared with genout.go. *)
From Verif Require Import Base.

(** * What gen.go sees of a type through package reflect *)
Inductive kind := Uint8 | Uint16 | Uint32 | Int32 | Uint64.
(** [GInt name k]: an integer type (Type().Name(), Kind()).  [GSlice tname elem]: a slice type; tname is its %T, and
    elem what the two cases that emit code for elements (gen.go:285-302, 325-340) use. *)
Inductive gotype :=
| GInt (name : bytes) (k : kind)
| GString
| GStruct (name : bytes) (fields : list (bytes * gotype))
| GSlice (tname : bytes) (elem : gotype).
Definition width (k : kind) : nat := match k with Uint8 => 1 | Uint16 => 2 | Uint32 | Int32 => 4 | Uint64 => 8 end.

(** * The emitter, gen.go:48-64.  The buffers are the bytes written so far. *)
Record emitter := mkEmitter { e_Name : bytes; e_MFunc : bytes; MParms : bytes; MList : bytes; MLsep : bytes; MCode : bytes;
  e_UFunc : bytes; UList : bytes; UCode : bytes; URet : bytes; inBWrite : bool }.
Definition set_MCode (e : emitter) (x : bytes) (w : bool) : emitter :=
  mkEmitter (e_Name e) (e_MFunc e) (MParms e) (MList e) (MLsep e) x (e_UFunc e) (UList e) (UCode e) (URet e) w.
(** [e.MCode.WriteString(s)], [e.inBWrite = w] *)
Definition wM (s : bytes) (e : emitter) : emitter := set_MCode e (MCode e ++ s) (inBWrite e).
Definition set_inBWrite (w : bool) (e : emitter) : emitter := set_MCode e (MCode e) w.
(** [e.UCode.WriteString(s)] *)
Definition wU (s : bytes) (e : emitter) : emitter :=
  mkEmitter (e_Name e) (e_MFunc e) (MParms e) (MList e) (MLsep e) (MCode e) (e_UFunc e) (UList e) (UCode e ++ s) (URet e) (inBWrite e).
(** Opening and closing of a b.Write, gen.go:209-212, 229-232 and 283-286, 466-469. *)
Definition open_write (e : emitter) : emitter :=
  if inBWrite e then e else set_inBWrite true (wM (str "	b.Write([]byte{") e).
Definition close_write (e : emitter) : emitter :=
  if inBWrite e then set_inBWrite false (wM (str "	})
") e) else e.
Definition num (i : nat) : bytes := dec (N.of_nat i).

(** gen.go:206-215.  The loop runs l times. *)
Fixpoint encode_int_from (n : bytes) (i l : nat) (e : emitter) : emitter :=
  match l with
  | O => e
  | S l => encode_int_from n (S i) l (wM (str "	uint8(" ++ n ++ str ">>" ++ num (i * 8) ++ str "),
") (open_write e))
  end.
Definition emitEncodeInt (n : bytes) (l : nat) (e : emitter) : emitter := encode_int_from n 0 l e.
(** gen.go:217-225; t: the name of the type *)
Fixpoint decode_int_from (t n : bytes) (i l : nat) (e : emitter) : emitter :=
  match l with
  | O => e
  | S l => decode_int_from t n (S i) l (wU (str "	" ++ n ++ str " |= " ++ t ++ str "(u[" ++ num i ++ str "])<<" ++ num (i * 8) ++ str "
") e)
  end.
Definition emitDecodeInt (t n : bytes) (l : nat) (e : emitter) : emitter :=
  decode_int_from t n 1 (l - 1)
    (wU (str "	" ++ n ++ str " = " ++ t ++ str "(u[0])
")
    (wU (str "	if _, err = b.Read(u[:" ++ num l ++ str "]); err != nil {
		err = fmt.Errorf(""pkt too short for uint" ++ num (l * 8) ++ str ": need " ++ num l ++ str ", have %d"", b.Len())
	return
	}
") e)).
(** gen.go:228-237 *)
Definition emitEncodeString (n : bytes) (e : emitter) : emitter :=
  wM (str "	b.Write([]byte(" ++ n ++ str "))
")
  (set_inBWrite false
  (wM (str "	})
")
  (wM (str "	uint8(len(" ++ n ++ str ")),uint8(len(" ++ n ++ str ")>>8),
")
  (open_write e)))).
(** gen.go:239-245 *)
Definition emitDecodeString (n : bytes) (e : emitter) : emitter :=
  wU (str "	_ = b.Next(int(l))
")
  (wU (str "	" ++ n ++ str " = string(b.Bytes()[:l])
")
  (wU (str "	if b.Len() < int(l) {
		err = fmt.Errorf(""pkt too short for string: need %d, have %d"", l, b.Len())
	return
	}
")
  (emitDecodeInt (str "uint64") (str "l") 2 e))).

Definition same (a b : bytes) : bool := if list_eq_dec Byte.byte_eq_dec a b then true else false.
(** [if n != "" { n = n + "." }], gen.go:371-373, 398-400 *)
Definition dotted (n : bytes) : bytes := match n with [] => [] | _ => n ++ str "." end.
(** gen.go:247-257 (genEncodeStruct), 272-317 (genEncodeSlice), 355-380 (genEncodeData) in one recursion over the type.
    A slice of any other type emits nothing (only the log says so). *)
Fixpoint genEncodeData (v : gotype) (n : bytes) (e : emitter) : emitter :=
  match v with
  | GInt _ k => emitEncodeInt n (width k) e
  | GString => emitEncodeString n e
  | GStruct _ fields =>
      (fix genEncodeStruct (fs : list (bytes * gotype)) (n : bytes) (e : emitter) : emitter :=
         match fs with [] => e | (fn, f) :: fs => genEncodeStruct fs n (genEncodeData f (n ++ fn) e) end) fields (dotted n) e
  | GSlice tname elem =>
      let len := str "len(" ++ n ++ str ")" in
      if same tname (str "[]string") then
        wM (str "}
") (genEncodeData elem (n ++ str "[i]") (wM (str "for i := range " ++ n ++ str " {
") (close_write (emitEncodeInt len 2 e))))
      else if same tname (str "[]protocol.QID") then
        wM (str "}
") (set_inBWrite false (wM (str "	})
") (genEncodeData elem (n ++ str "[i]") (wM (str "for i := range " ++ n ++ str " {
") (close_write (emitEncodeInt len 2 e))))))
      else if same tname (str "[]byte") || same tname (str "[]uint8") then
        wM (str "	b.Write(" ++ n ++ str ")
") (close_write (emitEncodeInt len 4 e))
      else if same tname (str "[]protocol.DataCnt16") then
        wM (str "	b.Write(" ++ n ++ str ")
") (close_write (emitEncodeInt len 2 e))
      else e
  end.
Fixpoint genEncodeStruct (fs : list (bytes * gotype)) (n : bytes) (e : emitter) : emitter :=
  match fs with [] => e | (fn, f) :: fs => genEncodeStruct fs n (genEncodeData f (n ++ fn) e) end.
(** gen.go:259-269, 320-352, 382-408; a slice of any other type emits nothing *)
Fixpoint genDecodeData (v : gotype) (n : bytes) (e : emitter) : emitter :=
  match v with
  | GInt t k => emitDecodeInt t n (width k) e
  | GString => emitDecodeString n e
  | GStruct _ fields =>
      (fix genDecodeStruct (fs : list (bytes * gotype)) (n : bytes) (e : emitter) : emitter :=
         match fs with [] => e | (fn, f) :: fs => genDecodeStruct fs n (genDecodeData f (n ++ fn) e) end) fields (dotted n) e
  | GSlice tname elem =>
      let slice (made : bytes) :=
        wU (str "}
") (genDecodeData elem (n ++ str "[i]") (wU (str "for i := range " ++ n ++ str " {
") (wU (str "	" ++ n ++ str " = make(" ++ made ++ str ", l)
") (emitDecodeInt (str "uint64") (str "l") 2 e)))) in
      let data (k : nat) :=
        wU (str "	_ = b.Next(int(l))
") (wU (str "	" ++ n ++ str " = b.Bytes()[:l]
") (emitDecodeInt (str "uint64") (str "l") k e)) in
      if same tname (str "[]string") then slice (str "[]string")
      else if same tname (str "[]protocol.QID") then slice (str "[]QID")
      else if same tname (str "[]byte") || same tname (str "[]uint8") then data 4%nat
      else if same tname (str "[]protocol.DataCnt16") then data 2%nat
      else e
  end.
Fixpoint genDecodeStruct (fs : list (bytes * gotype)) (n : bytes) (e : emitter) : emitter :=
  match fs with [] => e | (fn, f) :: fs => genDecodeStruct fs n (genDecodeData f (n ++ fn) e) end.

(** gen.go:412-426 *)
Definition tn (f : gotype) : bytes :=
  match f with
  | GInt t _ => t
  | GString => str "string"
  | GStruct name _ => name
  | GSlice tname _ =>
      if same tname (str "[]protocol.QID") then str "[]QID"
      else if same tname (str "[]protocol.DataCnt16") then str "[]byte"
      else tname
  end.
(** gen.go:430-441 *)
Fixpoint genParms (fs : list (bytes * gotype)) (e : emitter) : emitter :=
  match fs with
  | [] => e
  | (fn, f) :: fs => genParms fs (mkEmitter (e_Name e) (e_MFunc e) (MParms e ++ MLsep e ++ fn ++ str " " ++ tn f) (MList e ++ MLsep e ++ fn) (str ", ")
      (MCode e) (e_UFunc e) (UList e) (UCode e) (URet e) (inBWrite e))
  end.
(** gen.go:444-453 *)
Fixpoint genRets (fs : list (bytes * gotype)) (e : emitter) : emitter :=
  match fs with
  | [] => e
  | (fn, f) :: fs => genRets fs (mkEmitter (e_Name e) (e_MFunc e) (MParms e) (MList e) (MLsep e)
      (MCode e) (e_UFunc e) (UList e ++ fn ++ str ", ") (UCode e) (URet e ++ fn ++ str " " ++ tn f ++ str ", ") (inBWrite e))
  end.

(** * The templates, gen.go:78-193 *)
(** gen.go:39-46 *)
Definition header  : bytes :=
  str "
package protocol
import (
""bytes""
""fmt""
_ ""log""
)
".
(** gen.go:80-89 *)
Definition serverError  : bytes :=
  str "func ServerError (b *bytes.Buffer, s string) {
	var u [8]byte
	// This can't really happen. 
	if _, err := b.Read(u[:2]); err != nil {
		return
	}
	t := Tag(uint16(u[0])|uint16(u[1])<<8)
	MarshalRerrorPkt (b, t, s)
}
".
(** gen.go:110-119 *)
Definition msfunc (e : emitter) : bytes :=
  str "func Marshal" ++ e_MFunc e ++ str " (b *bytes.Buffer, " ++ MParms e ++ str ") {
var l uint64
b.Reset()
b.Write([]byte{0,0,})
" ++ MCode e ++ str "
l = uint64(b.Len()) - 2
copy(b.Bytes(), []byte{uint8(l), uint8(l>>8)})
return
}
".
(** gen.go:120-127 *)
Definition usfunc (e : emitter) : bytes :=
  str "func Unmarshal" ++ e_UFunc e ++ str " (b *bytes.Buffer) (" ++ URet e ++ str " err error) {
var u [8]uint8
var l uint64
_ = b.Next(2) // eat the length too
" ++ UCode e ++ str "
return
}
".
(** gen.go:129-142 *)
Definition mfunc (e : emitter) : bytes :=
  str "func Marshal" ++ e_MFunc e ++ str "Pkt (b *bytes.Buffer, t Tag, " ++ MParms e ++ str ") {
var l uint64
b.Reset()
b.Write([]byte{0,0,0,0,
uint8(" ++ e_Name e ++ str "),
byte(t), byte(t>>8),
" ++ MCode e ++ str "
{
l = uint64(b.Len())
copy(b.Bytes(), []byte{uint8(l), uint8(l>>8), uint8(l>>16), uint8(l>>24)})
}
return
}
".
(** gen.go:143-158 *)
Definition ufunc (e : emitter) : bytes :=
  str "func Unmarshal" ++ e_UFunc e ++ str "Pkt (b *bytes.Buffer) (" ++ URet e ++ str " t Tag, err error) {
var u [8]uint8
var l uint64
if _, err = b.Read(u[:2]); err != nil {
err = fmt.Errorf(""pkt too short for Tag; need 2, have %d"", b.Len())
return
}
l = uint64(u[0]) | uint64(u[1])<<8
t = Tag(l)
" ++ UCode e ++ str "
if b.Len() > 0 {
err = fmt.Errorf(""Packet too long: %d bytes left over after decode"", b.Len())
}
return
}
".
(** gen.go:159-170 *)
Definition sfunc (T R : emitter) : bytes :=
  str "func (s *Server) Srv" ++ e_UFunc R ++ str "(b*bytes.Buffer) (err error) {
	" ++ MList T ++ MLsep T ++ str " t, err := Unmarshal" ++ e_MFunc T ++ str "Pkt(b)
	//if err != nil {
	//}
	if " ++ MList R ++ MLsep R ++ str " err := s.NS." ++ e_MFunc R ++ str "(" ++ MList T ++ str "); err != nil {
	MarshalRerrorPkt(b, t, fmt.Sprintf(""%v"", err))
} else {
	Marshal" ++ e_MFunc R ++ str "Pkt(b, t, " ++ MList R ++ str ")
}
	return nil
}
".
(** gen.go:171-192 *)
Definition cfunc (T R : emitter) : bytes :=
  str "
func (c *Client)Call" ++ e_MFunc T ++ str " (" ++ MParms T ++ str ") (" ++ URet R ++ str " err error) {
var b = bytes.Buffer{}
if c.Trace != nil {c.Trace(""%v"", " ++ e_MFunc T ++ str ")}
t := Tag(0)
r := make (chan []byte)
if c.Trace != nil { c.Trace("":tag %v, FID %v"", t, c.FID)}
Marshal" ++ e_MFunc T ++ str "Pkt(&b, t, " ++ MList T ++ str ")
c.FromClient <- &RPCCall{b: b.Bytes(), Reply: r}
bb := <-r
if MType(bb[4]) == Rerror {
	s, _, err := UnmarshalRerrorPkt(bytes.NewBuffer(bb[5:]))
	if err != nil {
		return " ++ UList R ++ str " err
	}
	return " ++ UList R ++ str " fmt.Errorf(""%v"", s)
} else {
	" ++ MList R ++ MLsep R ++ str " _, err = Unmarshal" ++ e_UFunc R ++ str "Pkt(bytes.NewBuffer(bb[5:]))
}
return " ++ UList R ++ str " err
}
".

(** * Generating *)
(** One line of the table packages, gen.go:92-107: n, t, tn, r, rn. *)
Record pack := mkPack { p_n : bytes; p_t : list (bytes * gotype); p_tn : bytes; p_r : list (bytes * gotype); p_rn : bytes }.
(** gen.go:198-204 *)
Definition new_emitter (name func : bytes) (w : bool) : emitter := mkEmitter name func [] [] [] [] func [] [] [] w.
(** gen.go:457-516: everything for one side; the order of the calls does not matter, they write to different buffers *)
Definition side (name func : bytes) (fs : list (bytes * gotype)) : emitter :=
  genRets fs (genParms fs (genDecodeStruct fs [] (close_write (genEncodeStruct fs [] (new_emitter name func true))))).
Definition genMsgRPC (p : pack) : bytes :=
  let T := side (str "T" ++ p_n p) (p_tn p) (p_t p) in
  let R := side (str "R" ++ p_n p) (p_rn p) (p_r p) in
  mfunc R ++ ufunc R ++ (if same (p_n p) (str "error") then [] else mfunc T ++ ufunc T ++ sfunc T R ++ cfunc T R).
(** gen.go:519-556; dirfs: the fields of DirPkt *)
Definition gen_main (packages : list pack) (dirfs : list (bytes * gotype)) : bytes :=
  let dir := genRets dirfs (genParms dirfs (genDecodeStruct dirfs [] (genEncodeStruct dirfs [] (new_emitter (str "dir") (str "dir") false)))) in
  header ++ flat_map genMsgRPC packages ++ serverError ++ msfunc dir ++ usfunc dir.

(** * The types of protocol.go, lines 110-290 *)
(* protocol.go:134-138 *)
Definition QID_type : list (bytes * gotype) :=
  [(str "Type", GInt (str "uint8") Uint8); (str "Version", GInt (str "uint32") Uint32); (str "Path", GInt (str "uint64") Uint64)].
(* protocol.go:141-153 *)
Definition Dir_type : list (bytes * gotype) :=
  [(str "Type", GInt (str "uint16") Uint16); (str "Dev", GInt (str "uint32") Uint32); (str "QID", GStruct (str "QID") QID_type); (str "Mode", GInt (str "uint32") Uint32); (str "Atime", GInt (str "uint32") Uint32); (str "Mtime", GInt (str "uint32") Uint32); (str "Length", GInt (str "uint64") Uint64); (str "Name", GString); (str "User", GString); (str "Group", GString); (str "ModUser", GString)].
(* protocol.go:165-168 *)
Definition TversionPkt_type : list (bytes * gotype) :=
  [(str "TMsize", GInt (str "MaxSize") Uint32); (str "TVersion", GString)].
(* protocol.go:170-173 *)
Definition RversionPkt_type : list (bytes * gotype) :=
  [(str "RMsize", GInt (str "MaxSize") Uint32); (str "RVersion", GString)].
(* protocol.go:175-180 *)
Definition TattachPkt_type : list (bytes * gotype) :=
  [(str "SFID", GInt (str "FID") Uint32); (str "AFID", GInt (str "FID") Uint32); (str "Uname", GString); (str "Aname", GString)].
(* protocol.go:182-184 *)
Definition RattachPkt_type : list (bytes * gotype) :=
  [(str "QID", GStruct (str "QID") QID_type)].
(* protocol.go:186-188 *)
Definition TflushPkt_type : list (bytes * gotype) :=
  [(str "OTag", GInt (str "Tag") Uint16)].
(* protocol.go:190-191 *)
Definition RflushPkt_type : list (bytes * gotype) :=
  [].
(* protocol.go:193-197 *)
Definition TwalkPkt_type : list (bytes * gotype) :=
  [(str "SFID", GInt (str "FID") Uint32); (str "NewFID", GInt (str "FID") Uint32); (str "Paths", GSlice (str "[]string") GString)].
(* protocol.go:199-201 *)
Definition RwalkPkt_type : list (bytes * gotype) :=
  [(str "QIDs", GSlice (str "[]protocol.QID") (GStruct (str "QID") QID_type))].
(* protocol.go:203-206 *)
Definition TopenPkt_type : list (bytes * gotype) :=
  [(str "OFID", GInt (str "FID") Uint32); (str "Omode", GInt (str "Mode") Uint8)].
(* protocol.go:208-211 *)
Definition RopenPkt_type : list (bytes * gotype) :=
  [(str "OQID", GStruct (str "QID") QID_type); (str "IOUnit", GInt (str "MaxSize") Uint32)].
(* protocol.go:213-218 *)
Definition TcreatePkt_type : list (bytes * gotype) :=
  [(str "OFID", GInt (str "FID") Uint32); (str "Name", GString); (str "CreatePerm", GInt (str "Perm") Uint32); (str "Omode", GInt (str "Mode") Uint8)].
(* protocol.go:220-223 *)
Definition RcreatePkt_type : list (bytes * gotype) :=
  [(str "OQID", GStruct (str "QID") QID_type); (str "IOUnit", GInt (str "MaxSize") Uint32)].
(* protocol.go:225-227 *)
Definition TclunkPkt_type : list (bytes * gotype) :=
  [(str "OFID", GInt (str "FID") Uint32)].
(* protocol.go:229-230 *)
Definition RclunkPkt_type : list (bytes * gotype) :=
  [].
(* protocol.go:232-234 *)
Definition TremovePkt_type : list (bytes * gotype) :=
  [(str "OFID", GInt (str "FID") Uint32)].
(* protocol.go:236-237 *)
Definition RremovePkt_type : list (bytes * gotype) :=
  [].
(* protocol.go:239-241 *)
Definition TstatPkt_type : list (bytes * gotype) :=
  [(str "OFID", GInt (str "FID") Uint32)].
(* protocol.go:243-245 *)
Definition RstatPkt_type : list (bytes * gotype) :=
  [(str "B", GSlice (str "[]protocol.DataCnt16") (GInt (str "DataCnt16") Uint8))].
(* protocol.go:247-250 *)
Definition TwstatPkt_type : list (bytes * gotype) :=
  [(str "OFID", GInt (str "FID") Uint32); (str "B", GSlice (str "[]protocol.DataCnt16") (GInt (str "DataCnt16") Uint8))].
(* protocol.go:252-253 *)
Definition RwstatPkt_type : list (bytes * gotype) :=
  [].
(* protocol.go:255-259 *)
Definition TreadPkt_type : list (bytes * gotype) :=
  [(str "OFID", GInt (str "FID") Uint32); (str "Off", GInt (str "Offset") Uint64); (str "Len", GInt (str "Count") Int32)].
(* protocol.go:261-263 *)
Definition RreadPkt_type : list (bytes * gotype) :=
  [(str "Data", GSlice (str "[]uint8") (GInt (str "uint8") Uint8))].
(* protocol.go:265-269 *)
Definition TwritePkt_type : list (bytes * gotype) :=
  [(str "OFID", GInt (str "FID") Uint32); (str "Off", GInt (str "Offset") Uint64); (str "Data", GSlice (str "[]uint8") (GInt (str "uint8") Uint8))].
(* protocol.go:271-273 *)
Definition RwritePkt_type : list (bytes * gotype) :=
  [(str "RLen", GInt (str "Count") Int32)].
(* protocol.go:275-277 *)
Definition RerrorPkt_type : list (bytes * gotype) :=
  [(str "Error", GString)].
(* protocol.go:279-281 *)
Definition DirPkt_type : list (bytes * gotype) :=
  [(str "D", GStruct (str "Dir") Dir_type)].
(** gen.go:92-107 *)
Definition packages : list pack :=
  [mkPack (str "error") RerrorPkt_type (str "Rerror") RerrorPkt_type (str "Rerror");
   mkPack (str "version") TversionPkt_type (str "Tversion") RversionPkt_type (str "Rversion");
   mkPack (str "attach") TattachPkt_type (str "Tattach") RattachPkt_type (str "Rattach");
   mkPack (str "flush") TflushPkt_type (str "Tflush") RflushPkt_type (str "Rflush");
   mkPack (str "walk") TwalkPkt_type (str "Twalk") RwalkPkt_type (str "Rwalk");
   mkPack (str "open") TopenPkt_type (str "Topen") RopenPkt_type (str "Ropen");
   mkPack (str "create") TcreatePkt_type (str "Tcreate") RcreatePkt_type (str "Rcreate");
   mkPack (str "stat") TstatPkt_type (str "Tstat") RstatPkt_type (str "Rstat");
   mkPack (str "wstat") TwstatPkt_type (str "Twstat") RwstatPkt_type (str "Rwstat");
   mkPack (str "clunk") TclunkPkt_type (str "Tclunk") RclunkPkt_type (str "Rclunk");
   mkPack (str "remove") TremovePkt_type (str "Tremove") RremovePkt_type (str "Rremove");
   mkPack (str "read") TreadPkt_type (str "Tread") RreadPkt_type (str "Rread");
   mkPack (str "write") TwritePkt_type (str "Twrite") RwritePkt_type (str "Rwrite")].
