#!/usr/bin/env python3
"""Transcribes /repo/protocol/genout.go (and the struct types and constants of protocol.go)
line by line into Gallina.  Any line of Go it does not recognise exactly is a fatal error, so
nothing in genout.go is silently skipped.  Output: rocq/theories/{Types,Codec,Stubs}.v.
Run by hand; the outputs are committed."""
import re, sys
REPO = "/repo/protocol/"
OUT = sys.argv[1] if len(sys.argv) > 1 else "/verif/rocq/theories/"
go = open(REPO + "genout.go").read().split("\n")
pr = open(REPO + "protocol.go").read().split("\n")

def die(i, msg, src=go):
    sys.exit("line %d: %s: %r" % (i + 1, msg, src[i]))

# ---------------------------------------------------------------- protocol.go
WIDTH = {}
SIGNED = {}
for ln in pr:
    m = re.match(r"^\t(\w+)\s+(u?)int(8|16|32|64)$", ln)
    if m and m.group(1)[0].isupper():
        WIDTH[m.group(1)] = int(m.group(3)); SIGNED[m.group(1)] = m.group(2) == ""
for w in (8, 16, 32, 64):
    WIDTH["uint%d" % w] = w; SIGNED["uint%d" % w] = False

structs = {}; order = []
i = 0
while i < len(pr):
    m = re.match(r"^type (\w+Pkt|QID|Dir) struct \{$", pr[i])
    if m:
        name = m.group(1); fs = []; start = i
        i += 1
        while pr[i] != "}":
            ln = re.sub(r"//.*", "", pr[i]).strip()
            if ln:
                a, b = ln.split()
                fs.append((a, b))
            i += 1
        structs[name] = (fs, start + 1, i + 1); order.append(name)
    i += 1

def coqty(t):
    if t in WIDTH: return "Z" if SIGNED[t] else "N"
    return {"string": "bytes", "[]string": "(list bytes)", "[]byte": "bytes", "[]uint8": "bytes",
            "[]DataCnt16": "bytes", "QID": "QID", "[]QID": "(list QID)", "Dir": "Dir"}[t]
def zero(t):
    if t in WIDTH: return "0%Z" if SIGNED[t] else "0"
    return {"string": "[]", "[]string": "[]", "[]byte": "[]", "[]uint8": "[]", "[]QID": "[]",
            "QID": "zeroQID", "Dir": "zeroDir"}[t]

out = []
w = out.append
w("(** GENERATED by tools/transcribe.py from /repo/protocol/protocol.go. Do not edit. *)")
w("From Verif Require Import Base.\n")
# message types: iota block
i = next(k for k, l in enumerate(pr) if "Tversion MType = 100 + iota" in l)
v = 100; consts = []
w("(** protocol.go:%d-%d message type codes. *)" % (i + 1, i + 29))
while pr[i] != ")":
    n = pr[i].split()[0]
    w("Definition %s : N := %d." % (n + "_t", v)); consts.append((n, v))
    v += 1; i += 1
w("")
def const(name, line_pat, val):
    k = next(k for k, l in enumerate(pr) if re.match(line_pat, l))
    w("(** protocol.go:%d *)" % (k + 1)); w("Definition %s : N := %s." % (name, val))
for pat in [r"^\t(IOHDRSZ) = (\d+) ", r"^\t(NumFID)  = (1 << 16)$", r"^\t(QIDLen)  = (\d+)",
            r"^\t(NOTAG) Tag = (0x\w+)", r"^\t(NOFID) FID = (0x\w+)", r"^\t(NumTags) = (1<<16 - 2)",
            r"^\t(MSIZE)   = (2\*1048576 \+ IOHDRSZ)"]:
    k = next(k for k, l in enumerate(pr) if re.match(pat, l))
    m = re.match(pat, pr[k]); val = eval(m.group(2).replace("1<<16 - 2", "(1<<16) - 2").replace("IOHDRSZ", "24"))
    w("(** protocol.go:%d *)" % (k + 1)); w("Definition %s : N := %d." % (m.group(1), val))
for k, l in enumerate(pr):
    m = re.match(r"^\t((?:QT|O|DM)[A-Z]+)\s*= (0x[0-9a-fA-F]+)", l)
    if m:
        w("(** protocol.go:%d *)" % (k + 1)); w("Definition %s : N := %d." % (m.group(1), int(m.group(2), 16)))
w("")
for s in ["QID", "Dir"] + [o for o in order if o.endswith("Pkt")]:
    fs, a, b = structs[s]
    w("(** protocol.go:%d-%d *)" % (a, b))
    pfx = s[:-3] if s.endswith("Pkt") else s
    body = "; ".join("%s_%s : %s" % (pfx, f, coqty(t)) for f, t in fs)
    w("Record %s := mk%s { %s }." % (s, s, body))
    if s in ("QID", "Dir"):
        w("Definition zero%s : %s := mk%s %s." % (s, s, s, " ".join(zero(t) for f, t in fs)))
w("")
# RPCNames
k0 = next(k for k, l in enumerate(pr) if "RPCNames = map[MType]string{" in l)
k = k0 + 1
w("")
w("(** protocol.go:%d-342 RPCNames; a missing key yields the empty string. *)" % (k0 + 1))
w("Definition RPCNames (t : N) : bytes :=")
while pr[k].strip() != "}":
    m = re.match(r'^\t\t(\w+):\s+"(\w+)",$', pr[k])
    if not m: die(k, "RPCNames", pr)
    w('  if t =? %s_t then str "%s" else' % (m.group(1), m.group(2))); k += 1
w("  [].")
open(OUT + "Types.v", "w").write("\n".join(out) + "\n")

# ---------------------------------------------------------------- genout.go
out = []; w = out.append
w("(** GENERATED by tools/transcribe.py from /repo/protocol/genout.go: every line of every")
w("    Marshal*, Unmarshal* function, in order. Do not edit.")
w("    [u] is the scratch array, [b] the bytes.Buffer, [l] the length variable, [t] the tag;")
w("    named results are let-bound variables starting at their zero value, so an early [return]")
w("    hands back whatever had been assigned by then. *)")
w("From Verif Require Import Base GoBuf CodecPrim Types.")
w("")

VT = {}   # variable -> go type in current function

def fieldtype(expr):
    """type of an expression such as D.QID.Path, QIDs[i].Type, Len"""
    m = re.match(r"^(\w+)(\[i\])?((?:\.\w+)*)$", expr)
    t = VT[m.group(1)]
    if m.group(2): t = t[2:]
    for f in [x for x in m.group(3).split(".") if x]:
        t = dict(structs[t][0])[f]
    return t
def rdexpr(expr):
    """Gallina for reading a Go expression when marshalling"""
    m = re.match(r"^(\w+)(\[i\])?((?:\.\w+)*)$", expr)
    e = m.group(1) + ("_i" if m.group(2) else "")
    t = VT[m.group(1)]
    if m.group(2): t = t[2:]
    for f in [x for x in m.group(3).split(".") if x]:
        e = "(%s_%s %s)" % (t, f, e); t = dict(structs[t][0])[f]
    return e

def byteexpr(x, i):
    x = x.strip()
    if x == "0": return "x00"
    m = re.match(r"^(?:byte|uint8)\(t(?:>>(\d+))?\)$", x)
    if m: return "u8 (N.shiftr t %s)" % (m.group(1) or "0")
    m = re.match(r"^uint8\(([TR]\w+)\)$", x)
    if m and (m.group(1) in dict(consts)): return "u8 %s_t" % m.group(1)
    m = re.match(r"^uint8\(len\(([\w\.\[\]]+)\)(?:>>(\d+))?\)$", x)
    if m:
        f = "glen" if fieldtype(m.group(1)) in ("[]string", "[]QID") else "blen"
        return "u8 (N.shiftr (%s %s) %s)" % (f, rdexpr(m.group(1)), m.group(2) or "0")
    m = re.match(r"^uint8\(([\w\.\[\]]+)>>(\d+)\)$", x)
    if m:
        t = fieldtype(m.group(1))
        if SIGNED[t]: return "u8z (Z.shiftr %s %s)" % (rdexpr(m.group(1)), m.group(2))
        return "u8 (N.shiftr %s %s)" % (rdexpr(m.group(1)), m.group(2))
    die(i, "byte expression " + x)

def parse_write(i):
    """parses b.Write([]byte{ ... }) starting at line i; returns (list of bytes, next line)"""
    txt = go[i].strip()
    assert txt.startswith("b.Write([]byte{")
    txt = txt[len("b.Write([]byte{"):]
    items = []; 
    while True:
        done = txt.strip().endswith("})")
        if done: txt = txt.strip()[:-2]
        for x in re.split(r",(?![^(]*\))", txt):
            if x.strip(): items.append((x, i))
        i += 1
        if done: break
        txt = go[i]
    return [byteexpr(x, k) for x, k in items], i

def marshal(i):
    m = re.match(r"^func Marshal(\w+?)(Pkt)? \(b \*bytes\.Buffer, (?:t Tag, )?(.*)\) \{$", go[i])
    start = i; name = m.group(1); pkt = bool(m.group(2))
    parms = [p.split() for p in m.group(3).split(", ") if p.strip()]
    VT.clear()
    for n, t in parms: VT[n] = t
    if go[i+1] != "var l uint64": die(i+1, "marshal")
    if go[i+2] != "b.Reset()": die(i+2, "marshal")
    i += 3
    parts = []; cur = parts; stack = []
    while True:
        ln = go[i].strip()
        if ln == "": i += 1; continue
        if ln == "{" or ln.startswith("l = uint64(b.Len())"): break
        mm = re.match(r"^for i := range (\w+) \{$", ln)
        if mm:
            stack.append((cur, mm.group(1))); cur = []; i += 1; continue
        if ln == "}":
            inner = cur; cur, v = stack.pop()
            cur.append("flat_map (fun %s_i => %s) %s" % (v, " ++ ".join(inner), v)); i += 1; continue
        if ln.startswith("b.Write([]byte{"):
            its, i = parse_write(i)
            cur.append("[" + ";\n      ".join(its) + "]"); continue
        mm = re.match(r"^b\.Write\(\[\]byte\(([\w\.\[\]]+)\)\)$", ln) or re.match(r"^b\.Write\((\w+)\)$", ln)
        if mm: cur.append(rdexpr(mm.group(1))); i += 1; continue
        die(i, "marshal statement")
    if pkt:
        exp = ["{", "l = uint64(b.Len())",
               "copy(b.Bytes(), []byte{uint8(l), uint8(l>>8), uint8(l>>16), uint8(l>>24)})", "}", "return", "}"]
        fin = "set_len4"
    else:
        exp = ["l = uint64(b.Len()) - 2", "copy(b.Bytes(), []byte{uint8(l), uint8(l>>8)})", "return", "}"]
        fin = "set_len2"
    for k, e in enumerate(exp):
        if go[i+k].strip() != e: die(i+k, "marshal epilogue")
    i += len(exp)
    w("(** genout.go:%d-%d *)" % (start + 1, i))
    args = (["(t : N)"] if pkt else []) + ["(%s : %s)" % (n, coqty(t)) for n, t in parms]
    w("Definition Marshal%s %s : bytes :=" % (name + ("Pkt" if pkt else ""), " ".join(args)))
    w("  %s\n    (%s)." % (fin, "\n     ++ ".join(parts))); w("")
    return i

def errf(ln, i, lsub=None):
    m = re.match(r'^err = fmt\.Errorf\("([^"]*)"((?:, [\w\.\(\)]+)*)\)$', ln)
    if not m: die(i, "Errorf")
    args = [a for a in m.group(2).split(", ") if a]
    segs = m.group(1).split("%d")
    if len(segs) != len(args) + 1: die(i, "Errorf args")
    r = []
    for k, s in enumerate(segs):
        if s: r.append('str "%s"' % s)
        if k < len(args): r.append({"b.Len()": "dec (buf_len b)", "l": "dec l"}[args[k]])
    return " ++ ".join(r)

def unmarshal(i):
    m = re.match(r"^func Unmarshal(\w+?)(Pkt)? \(b \*bytes\.Buffer\) \((.*)\) \{$", go[i])
    start = i; name = m.group(1); pkt = bool(m.group(2))
    rets = [p.split() for p in m.group(3).split(", ") if p.strip()]
    if rets[-1] != ["err", "error"]: die(i, "rets")
    rets = rets[:-1]
    if pkt:
        if rets[-1] != ["t", "Tag"]: die(i, "rets")
        rets = rets[:-1]
    VT.clear()
    for n, t in rets: VT[n] = t
    rec = name + "Pkt" if pkt else "Dir"
    # flat variables for struct-typed results
    def flat(n, t):
        if t in structs:
            r = []
            for f, ft in structs[t][0]: r += flat(n + "_" + f, ft)
            return r
        return [(n, t)]
    def build(n, t):
        if t in structs: return "(mk%s %s)" % (t, " ".join(build(n + "_" + f, ft) for f, ft in structs[t][0]))
        return n
    body = []
    def emit(ind, s): body.append("  " * ind + s)
    if go[i+1] != "var u [8]uint8": die(i+1, "unmarshal")
    if go[i+2] != "var l uint64": die(i+2, "unmarshal")
    i += 3
    if pkt: result = "(mk%s %s)" % (rec, " ".join(build(n, t) for n, t in rets))
    else: result = build("D", "Dir")
    def ret(e): return "URet %s t b %s" % (result, e)
    emit(1, "let u := u_zero in let l := 0 in let t := 0 in")
    allv = [x for n, t in rets for x in flat(n, t)]
    if allv: emit(1, " ".join("let %s := %s in" % (n, zero(t)) for n, t in allv))
    loop = None   # (slice var, element type) while inside a for
    closers = 0
    def fail(e):
        if loop: return "LRet %s b (%s)" % (loop[2], e)
        return ret("(Some (%s))" % e)
    pan = lambda: "LPanic" if loop else "UPanic"
    while True:
        ln = go[i].strip()
        if ln == "": i += 1; continue
        if ln == "_ = b.Next(2) // eat the length too":
            emit(1, "let b := buf_next 2 b in"); i += 1; continue
        mm = re.match(r"^if _, err = b\.Read\(u\[:(\d)\]\); err != nil \{$", ln)
        if mm:
            e = errf(go[i+1].strip(), i+1)
            if go[i+2].strip() != "return" or go[i+3].strip() != "}": die(i+2, "read")
            emit(1, "rd %s u b (fun b => %s) (fun u b =>" % (mm.group(1), fail(e))); closers += 1
            i += 4; continue
        if ln == "l = uint64(u[0]) | uint64(u[1])<<8":
            emit(1, "let l := N.lor (ub u 0) (N.shiftl (ub u 1) 8) in"); i += 1; continue
        if ln == "t = Tag(l)":
            emit(1, "let t := l mod 65536 in"); i += 1; continue
        mm = re.match(r"^([\w\.\[\]]+) (\|?=) (\w+)\(u\[(\d)\]\)(?:<<(\d+))?$", ln)
        if mm:
            lhs, op, ty, k, sh = mm.groups()
            var = lhs.replace("[i]", "_i").replace(".", "_")
            if lhs == "l":
                if ty != "uint64": die(i, "l type")
            elif fieldtype(lhs) != ty: die(i, "conversion type %s vs %s" % (fieldtype(lhs), ty))
            if op == "=" and (sh or k != "0"): die(i, "assign")
            if sh and int(sh) + 8 > WIDTH[ty]: die(i, "shift overflow")
            val = "ub u %s" % k
            if sh: val = "N.shiftl (%s) %s" % (val, sh)
            if SIGNED[ty]: val = "i32 (%s)" % val
            if op == "|=": val = "%s.lor %s (%s)" % ("Z" if SIGNED[ty] else "N", var, val)
            emit(1, "let %s := %s in" % (var, val)); i += 1; continue
        if ln == "if b.Len() < int(l) {":
            e = errf(go[i+1].strip(), i+1)
            if go[i+2].strip() != "return" or go[i+3].strip() != "}": die(i+2, "len")
            emit(1, "if buf_len b <? l then %s else" % fail(e)); i += 4; continue
        mm = re.match(r"^([\w\.\[\]]+) = (string\()?b\.Bytes\(\)\[:l\]\)?$", ln)
        if mm:
            var = mm.group(1).replace("[i]", "_i").replace(".", "_")
            emit(1, "reslice l b %s (fun %s =>" % (pan(), var)); closers += 1; i += 1; continue
        if ln == "_ = b.Next(int(l))":
            emit(1, "let b := buf_next l b in"); i += 1; continue
        mm = re.match(r"^(\w+) = make\(\[\](string|QID), l\)$", ln)
        if mm:
            v, et = mm.groups()
            m2 = re.match(r"^for i := range (\w+) \{$", go[i+1].strip())
            if not m2 or m2.group(1) != v or VT[v] != "[]" + et: die(i+1, "loop")
            saved = closers; closers = 0
            el = build(v + "_i", et)
            emit(1, "for_range %s (N.to_nat l) u b (fun u b => let l := 0 in" % zero(et))
            emit(2, " ".join("let %s := %s in" % (n, zero(t)) for n, t in flat(v + "_i", et)))
            loop = (v, et, el, saved)
            i += 2; continue
        if ln == "}" and loop:
            emit(2, "LNext %s u b" % loop[2] + ")" * closers + ")")
            v, saved = loop[0], loop[3]; loop = None
            emit(1, "UPanic (fun %s b err => %s)" % (v, ret("(Some err)")))
            emit(1, "(fun %s u b =>" % v); closers = saved + 1
            i += 1; continue
        if ln == "if b.Len() > 0 {":
            e = errf(go[i+1].strip(), i+1)
            if [x.strip() for x in go[i+2:i+5]] != ["}", "return", "}"]: die(i+2, "epilogue")
            emit(1, "if 0 <? buf_len b then %s else" % ret("(Some (%s))" % e))
            emit(1, ret("None") + ")" * closers + ".")
            i += 5; break
        if ln == "return" and go[i+1] == "}" and not pkt:
            emit(1, ret("None") + ")" * closers + "."); i += 2; break
        die(i, "unmarshal statement")
    w("(** genout.go:%d-%d *)" % (start + 1, i))
    w("Definition Unmarshal%s (b : buf) : ures %s :=" % (name + ("Pkt" if pkt else ""), rec))
    out.extend(body); w("")
    return i

stub = []; ws = stub.append
ws("(** GENERATED by tools/transcribe.py from /repo/protocol/genout.go: the server stubs Srv*")
ws("    and the client stubs CallT*. Do not edit. *)")
ws("From Verif Require Import Base GoBuf CodecPrim Types Codec StubPrim.\n")

def srv(i):
    m = re.match(r"^func \(s \*Server\) SrvR(\w+)\(b\*bytes\.Buffer\) \(err error\) \{$", go[i])
    n = m.group(1); start = i
    m1 = re.match(r"^\t(.*?),? +t, err := UnmarshalT%sPkt\(b\)$" % n, go[i+1])
    if not m1: die(i+1, "srv")
    tf = [x.strip() for x in m1.group(1).split(",") if x.strip()]
    if tf != [f for f, _ in structs["T%sPkt" % n][0]]: die(i+1, "srv fields")
    if [x.strip() for x in go[i+2:i+4]] != ["//if err != nil {", "//}"]: die(i+2, "srv")
    m2 = re.match(r"^\tif (.*?),?  ?err := s\.NS\.R%s\((.*)\); err != nil \{$" % n, go[i+4])
    if not m2: die(i+4, "srv call")
    rf = [x.strip() for x in m2.group(1).split(",") if x.strip()]
    args = [x.strip() for x in m2.group(2).split(",") if x.strip()]
    if rf != [f for f, _ in structs["R%sPkt" % n][0]]: die(i+4, "srv fields")
    if go[i+5].strip() != 'MarshalRerrorPkt(b, t, fmt.Sprintf("%v", err))': die(i+5, "srv")
    if go[i+6].strip() != "} else {": die(i+6, "srv")
    m3 = re.match(r"^\tMarshalR%sPkt\(b, t, (.*)\)$" % n, go[i+7])
    if not m3: die(i+7, "srv reply")
    ra = [x.strip() for x in m3.group(1).split(",") if x.strip()]
    if [x.strip() for x in go[i+8:i+11]] != ["}", "return nil", "}"]: die(i+8, "srv end")
    ws("(** genout.go:%d-%d; the decoding error is computed and then ignored (the commented-out test). *)" % (start+1, i+11))
    ws("Definition SrvR%s {St} (ns : NineServer St) (s : St) (b : buf) : srvres St :=" % n)
    ws("  match UnmarshalT%sPkt b with" % n)
    ws("  | UPanic => SrvPanic")
    ws("  | URet f t _ _ =>")
    for f in tf: ws("      let %s := T%s_%s f in" % (f, n, f))
    ws("      match ns_R%s ns s %s with" % (n, " ".join(args)))
    ws("      | NSPanic => SrvPanic")
    ws("      | NSErr s err => SrvReply s (MarshalRerrorPkt t err)")
    pat = "r"
    ws("      | NSOk s r =>")
    for f in rf: ws("          let %s := R%s_%s r in" % (f, n, f))
    ws("          SrvReply s (MarshalR%sPkt t %s)" % (n, " ".join(ra)))
    ws("      end\n  end.\n")
    return i + 11

def call(i):
    m = re.match(r"^func \(c \*Client\)CallT(\w+) \((.*)\) \((.*)\) \{$", go[i])
    n = m.group(1); start = i
    parms = [p.split() for p in m.group(2).split(", ") if p.strip()]
    rets = [p.split() for p in m.group(3).split(", ") if p.strip()][:-1]
    exp = ['var b = bytes.Buffer{}', 'if c.Trace != nil {c.Trace("%%v", T%s)}' % n, 't := Tag(0)', 'r := make (chan []byte)',
           'if c.Trace != nil { c.Trace(":tag %v, FID %v", t, c.FID)}',
           'MarshalT%sPkt(&b, t, %s)' % (n, ", ".join(p[0] for p in parms)),
           'c.FromClient <- &RPCCall{b: b.Bytes(), Reply: r}', 'bb := <-r', 'if MType(bb[4]) == Rerror {',
           's, _, err := UnmarshalRerrorPkt(bytes.NewBuffer(bb[5:]))', 'if err != nil {']
    R = "".join(r[0] + ", " for r in rets)
    exp += [('return %s err' % R), '}', 'return %s fmt.Errorf("%%v", s)' % R, '} else {',
            ('%s _, err = UnmarshalR%sPkt(bytes.NewBuffer(bb[5:]))' % (R, n)).strip(), '}', 'return %s err' % R, '}']
    nrm = lambda s: re.sub(r"\s+", " ", s.strip())
    for k, e in enumerate(exp):
        if nrm(go[i+1+k]) != nrm(e): die(i+1+k, "call: expected " + e)
    ws("(** genout.go:%d-%d, first half: the request bytes put on FromClient (tag still 0). *)" % (start+1, i+1+len(exp)))
    ws("Definition CallT%s_request %s : bytes :=" % (n, " ".join("(%s : %s)" % (a, coqty(t)) for a, t in parms)))
    ws("  MarshalT%sPkt 0 %s." % (n, " ".join(a for a, t in parms)))
    ws("(** genout.go:%d-%d, second half: what the call returns for the reply bytes bb, with sp the" % (start+1, i+1+len(exp)))
    ws("    spare capacity behind bb. *)")
    ws("Definition CallT%s_result (bb sp : bytes) : callres R%sPkt :=" % (n, n))
    ws("  let zero := mkR%sPkt %s in" % (n, " ".join(zero(t) for a, t in rets)))
    ws("  match nth_error bb 4 with")
    ws("  | None => CallPanic")
    ws("  | Some ty =>")
    ws("    let b := Buf (skipn 5 bb) sp in")
    ws("    if b2n ty =? Rerror_t then")
    ws("      match UnmarshalRerrorPkt b with")
    ws("      | UPanic => CallPanic")
    ws("      | URet s _ _ (Some err) => CallRet zero (Some err)")
    ws("      | URet s _ _ None => CallRet zero (Some (Rerror_Error s))")
    ws("      end")
    ws("    else")
    ws("      match UnmarshalR%sPkt b with" % n)
    ws("      | UPanic => CallPanic")
    ws("      | URet r _ _ err => CallRet r err")
    ws("      end")
    ws("  end.\n")
    return i + 1 + len(exp)

i = 0
while i < len(go):
    ln = go[i]
    if ln.startswith("func Marshal"): i = marshal(i)
    elif ln.startswith("func Unmarshal"): i = unmarshal(i)
    elif ln.startswith("func (s *Server) SrvR"): i = srv(i)
    elif ln.startswith("func (c *Client)CallT"): i = call(i)
    elif ln.startswith("func ServerError"):
        exp = ["var u [8]byte", "// This can't really happen.", "if _, err := b.Read(u[:2]); err != nil {", "return", "}",
               "t := Tag(uint16(u[0])|uint16(u[1])<<8)", "MarshalRerrorPkt (b, t, s)", "}"]
        for k, e in enumerate(exp):
            if go[i+1+k].strip() != e: die(i+1+k, "ServerError")
        w("(** genout.go:%d-%d; the buffer contents afterwards. *)" % (i+1, i+1+len(exp)))
        w("Definition ServerError (b : buf) (s : bytes) : bytes :=")
        w("  rd 2 u_zero b (fun b => unread b) (fun u b =>")
        w("    let t := N.lor (ub u 0) (N.shiftl (ub u 1) 8) in")
        w("    MarshalRerrorPkt t s).\n")
        i += 1 + len(exp)
    elif ln.strip() in ("", "package protocol", "import (", '"bytes"', '"fmt"', '_ "log"', ")"): i += 1
    else: die(i, "top level")
open(OUT + "Codec.v", "w").write("\n".join(out) + "\n")
open(OUT + "Stubs.v", "w").write("\n".join(stub) + "\n")
