#!/usr/bin/env python3
"""Writes GenoutMarshal.v and GenoutUnmarshal.v: for every Marshal and Unmarshal function of
/repo/protocol/genout.go without a loop, the lemma that running its text computes the function of
Codec.v with the same name."""
import re
src = open('/repo/protocol/genout.go').read()
OUT = '/verif/rocq/theories/'
W = {'uint8': 8, 'Mode': 8, 'Tag': 16, 'FID': 32, 'MaxSize': 32, 'Perm': 32, 'Offset': 64}
def coqty(t):
    return {'Count': 'Z', 'string': 'bytes', '[]byte': 'bytes', '[]uint8': 'bytes', 'QID': 'QID', 'Dir': 'Dir'}.get(t, 'N')
def val(t, x):
    if t in W: return f'VU {W[t]} {x}'
    return {'Count': f'VI 32 {x}', 'string': f'VStr {x}', '[]byte': f'VBytes (Buf {x} [])', '[]uint8': f'VBytes (Buf {x} [])',
            'QID': f'qidv {x}', 'Dir': f'dirv {x}'}[t]
fields = {}
marsh, unm = [], []
for m in re.finditer(r'^func (Marshal(\w+?)(?:Pkt)?) \(b \*bytes\.Buffer, (.*?)\) \{$', src, re.M):
    ps = [p.split() for p in m[3].split(',') if p.strip()]
    fields[m[2]] = [(n, t) for n, t in ps if (n, t) != ('t', 'Tag')]
    marsh.append((m[1], m[2], ps))
head = '(** Written by tools/sem.py: %s. *)\nFrom Verif Require Import Base GoBuf CodecPrim Types Codec GoSyntax GoSem GenoutProg GenoutSem.\n\n'
s = head % 'what the Marshal functions of genout.go write, for all arguments'
for f, x, ps in marsh:
    if x in ('Twalk', 'Rwalk'): continue
    args = '; '.join(val(t, n + "'") for n, t in ps)
    names = ' '.join(f"({n}' : {coqty(t)})" for n, t in ps)
    app = ' '.join(n + "'" for n, t in ps)
    s += f'Definition body_{f} : func := Eval vm_compute in fn (str "{f}").\n'
    s += f'Lemma text_{f} X (W : outside X) call b x {names} :\n  exists sp, call_func W call body_{f} [VBuf; {args}] b x = Ret [] (Buf ({f} {app}) sp) x.\nProof. text_marshal{"_dir" if x == "dir" else ""}. Qed.\n'
open(OUT + 'GenoutMarshal.v', 'w').write(s)
s = head % 'what the Unmarshal functions of genout.go return, for all buffers'
for f, x, ps in marsh:
    if x in ('Twalk', 'Rwalk'): continue
    u = 'Un' + f[0].lower() + f[1:]
    pre = '' if x == 'dir' else x + '_'
    vs = [val(t, '(%sf)' % (('' if x == 'dir' else f'{x}_{n} '))) for n, t in fields[x]]
    vs += ['VErr err'] if x == 'dir' else ['VU 16 t', 'VErr err']
    s += f'Definition body_{u} : func := Eval vm_compute in fn (str "{u}").\n'
    s += f'Lemma text_{u} X (W : outside X) call b x :\n  call_func W call body_{u} [VBuf] b x =\n  match {u} b with UPanic => Panic | URet f t b err => Ret [{"; ".join(vs)}] b x end.\nProof. text_unmarshal. Qed.\n'
open(OUT + 'GenoutUnmarshal.v', 'w').write(s)

# ---- the stubs: GenoutStubs.v
def fval(t, x):
    if t == '[]string': return f'VList (map VStr {x})'
    if t == '[]QID': return f'VList (map qidv {x})'
    return val(t, x)
def zval(t):
    return {'Count': 'VI 32 0', 'string': 'VStr []', '[]byte': 'VBytes (Buf [] [])', '[]uint8': 'VBytes (Buf [] [])', 'QID': 'qidv zeroQID',
            '[]string': 'VList []', '[]QID': 'VList []'}.get(t) or val(t, '0')
def pat(t, x):
    if t == '[]string': return f'VList {x}'
    return {'Count': f'VI _ {x}', 'string': f'VStr {x}', '[]byte': f'VBytes {x}', '[]uint8': f'VBytes {x}'}.get(t) or f'VU _ {x}'
def arg(t, x):
    if t == '[]string': return f'(strings {x})'
    return f'(unread {x})' if t in ('[]byte', '[]uint8') else x
s = '(** Written by tools/sem.py: what the stubs of genout.go do. *)\nFrom Verif Require Import Base GoBuf CodecPrim Types Codec StubPrim Stubs GoSyntax GoSem GenoutProg GenoutSem GenoutMarshal GenoutUnmarshal GenoutWalk GenoutStubSem.\n\n'
s += '(** * The fields of a message as Go values *)\n'
for f, x, ps in marsh:
    if x == 'dir': continue
    s += f'Definition vs_{x} (f : {x}Pkt) : list value := [{"; ".join(fval(t, f"({x}_{n} f)") for n, t in fields[x])}].\n'
s += '\n(** * The functions of Codec.v, by name *)\n'
for f, x, ps in marsh:
    u = 'Un' + f[0].lower() + f[1:]
    if x == 'dir':
        s += f"Lemma run_{f} {{X}} (W : outside X) d D b x : exists sp, run W genout (S d) (str \"{f}\") [VBuf; dirv D] b x = Ret [] (Buf ({f} D) sp) x.\nProof. rewrite (run_one W body_{f}) by (vm_compute; reflexivity). apply text_{f}. Qed.\n"
        s += f"Lemma run_{u} {{X}} (W : outside X) d b x :\n  run W genout (S d) (str \"{u}\") [VBuf] b x = match {u} b with UPanic => Panic | URet f t b err => Ret [dirv f; VErr err] b x end.\nProof. rewrite (run_one W body_{u}) by (vm_compute; reflexivity). apply text_{u}. Qed.\n"
        continue
    proj = ' '.join(f'({x}_{n} f)' for n, t in fields[x])
    s += f"Lemma run_{f} {{X}} (W : outside X) d t f b x : exists sp, run W genout (S d) (str \"{f}\") (VBuf :: VU 16 t :: vs_{x} f) b x = Ret [] (Buf ({f} t {proj}) sp) x.\nProof. rewrite (run_one W body_{f}) by (vm_compute; reflexivity). apply text_{f}. Qed.\n"
    s += f"Lemma run_{u} {{X}} (W : outside X) d b x :\n  run W genout (S d) (str \"{u}\") [VBuf] b x = match {u} b with UPanic => Panic | URet f t b err => Ret (also (vs_{x} f) [VU 16 t; VErr err]) b x end.\nProof. rewrite (run_one W body_{u}) by (vm_compute; reflexivity). apply text_{u}. Qed.\n"
meths = [x for f, x, ps in marsh if x[0] == 'T']
s += '\n(** * The methods of a NineServer as methods of a Go interface value *)\nDefinition ns_method {St} (ns : NineServer St) (name : bytes) (vs : list value) (s : St) : option (list value * St) :=\n'
for T in meths:
    R = 'R' + T[1:]
    ps = fields[T]; vs = [f'a{i}' for i in range(len(ps))]
    s += f'  if beq name (str "{R}") then match vs with [{"; ".join(pat(t, v) for v, (n, t) in zip(vs, ps))}] => nsout vs_{R} [{"; ".join(zval(t) for n, t in fields[R])}] (ns_{R} ns s {" ".join(arg(t, v) for v, (n, t) in zip(vs, ps))}) | _ => None end else\n'
s += '  None.\n'
for T in meths:
    R = 'R' + T[1:]
    ps = fields[T]
    s += f'Lemma method_{R} St (ns : NineServer St) s f :\n  ns_method ns (str "{R}") (vs_{T} f) s = nsout vs_{R} [{"; ".join(zval(t) for n, t in fields[R])}] (ns_{R} ns s {" ".join(f"({T}_{n} f)" for n, t in ps)}).\nProof. {"unfold vs_Twalk. cbn. rewrite strings_map. " if T == "Twalk" else ""}reflexivity. Qed.\n'
s += '\n(** * The server stubs *)\n'
for T in meths:
    R = 'R' + T[1:]
    projR = ' '.join(f'({R}_{n} f)' for n, t in fields[R])
    s += f'''Definition body_Srv{R} : func := Eval vm_compute in fn (str "Srv{R}").
Lemma text_Srv{R} {{St}} (W : outside St) (ns : NineServer St) (HM : method W = ns_method ns) call b s
  (He : forall t e b x, exists sp, call (str "MarshalRerrorPkt") [VBuf; VU 16 t; VStr e] b x = Ret [] (Buf (MarshalRerrorPkt t e) sp) x)
  (Hu : forall b x, call (str "Unmarshal{T}Pkt") [VBuf] b x = match Unmarshal{T}Pkt b with UPanic => Panic | URet f t b err => Ret (also (vs_{T} f) [VU 16 t; VErr err]) b x end)
  (Hm : forall t f b x, exists sp, call (str "Marshal{R}Pkt") (VBuf :: VU 16 t :: vs_{R} f) b x = Ret [] (Buf (Marshal{R}Pkt t {projR}) sp) x) :
  exists sp, call_func W call body_Srv{R} [VBuf] b s = match Srv{R} ns s b with SrvPanic => Panic | SrvReply s out => Ret [VNil] (Buf out sp) s end.
Proof. unfold Srv{R}. srv_text HM He Hu (method_{R} St) Hm. Qed.
Lemma run_Srv{R} {{St}} (W : outside St) (ns : NineServer St) (HM : method W = ns_method ns) d b s :
  exists sp, run W genout (S (S d)) (str "Srv{R}") [VBuf] b s = match Srv{R} ns s b with SrvPanic => Panic | SrvReply s out => Ret [VNil] (Buf out sp) s end.
Proof.
  rewrite (run_one W body_Srv{R}) by (vm_compute; reflexivity). apply (text_Srv{R} W ns HM).
  - intros t e. exact (run_MarshalRerrorPkt W d t (mkRerrorPkt e)).
  - apply run_Unmarshal{T}Pkt.
  - apply run_Marshal{R}Pkt.
Qed.
'''
s += '\n(** * The client stubs *)\n'
for T in meths:
    R = 'R' + T[1:]
    proj = ' '.join(f'({T}_{n} f)' for n, t in fields[T])
    res = f'let \'(bb, x\') := recv W (send W %s x) in\n    match Call{T}_result (unread bb) (spare bb) with CallPanic => Panic | CallRet r err => Ret (also (vs_{R} r) [VErr err]) b\' x\' end'
    s += f'''Definition body_Call{T} : func := Eval vm_compute in fn (str "Call{T}").
Lemma text_Call{T} {{X}} (W : outside X) call f b x M
  (He : forall b x, call (str "UnmarshalRerrorPkt") [VBuf] b x = match UnmarshalRerrorPkt b with UPanic => Panic | URet f t b err => Ret (also (vs_Rerror f) [VU 16 t; VErr err]) b x end)
  (Hu : forall b x, call (str "Unmarshal{R}Pkt") [VBuf] b x = match Unmarshal{R}Pkt b with UPanic => Panic | URet f t b err => Ret (also (vs_{R} f) [VU 16 t; VErr err]) b x end)
  (Hm : forall b x, exists sp, call (str "Marshal{T}Pkt") (VBuf :: VU 16 0 :: vs_{T} f) b x = Ret [] (Buf M sp) x) :
  exists b', call_func W call body_Call{T} (vs_{T} f) b x =
    {res % "M"}.
Proof. unfold Call{T}_result. call_text M He Hu Hm. Qed.
Lemma run_Call{T} {{X}} (W : outside X) d f b x :
  exists b', run W genout (S (S d)) (str "Call{T}") (vs_{T} f) b x =
    {res % f"(Call{T}_request {proj})"}.
Proof.
  rewrite (run_one W body_Call{T}) by (vm_compute; reflexivity). apply text_Call{T}.
  - apply run_UnmarshalRerrorPkt.
  - apply run_Unmarshal{R}Pkt.
  - intros. apply run_Marshal{T}Pkt.
Qed.
'''
open(OUT + 'GenoutStubs.v', 'w').write(s)
