(** Written by tools/sem.py: what the Marshal functions of genout.go write, for all arguments. *)
From Verif Require Import Base GoBuf CodecPrim Types Codec GoSyntax GoSem GenoutProg GenoutSem.

Definition body_MarshalRerrorPkt : func := Eval vm_compute in fn (str "MarshalRerrorPkt").
Lemma text_MarshalRerrorPkt X (W : outside X) call b x (t' : N) (Error' : bytes) :
  exists sp, call_func W call body_MarshalRerrorPkt [VBuf; VU 16 t'; VStr Error'] b x = Ret [] (Buf (MarshalRerrorPkt t' Error') sp) x.
Proof. text_marshal. Qed.
Definition body_MarshalRversionPkt : func := Eval vm_compute in fn (str "MarshalRversionPkt").
Lemma text_MarshalRversionPkt X (W : outside X) call b x (t' : N) (RMsize' : N) (RVersion' : bytes) :
  exists sp, call_func W call body_MarshalRversionPkt [VBuf; VU 16 t'; VU 32 RMsize'; VStr RVersion'] b x = Ret [] (Buf (MarshalRversionPkt t' RMsize' RVersion') sp) x.
Proof. text_marshal. Qed.
Definition body_MarshalTversionPkt : func := Eval vm_compute in fn (str "MarshalTversionPkt").
Lemma text_MarshalTversionPkt X (W : outside X) call b x (t' : N) (TMsize' : N) (TVersion' : bytes) :
  exists sp, call_func W call body_MarshalTversionPkt [VBuf; VU 16 t'; VU 32 TMsize'; VStr TVersion'] b x = Ret [] (Buf (MarshalTversionPkt t' TMsize' TVersion') sp) x.
Proof. text_marshal. Qed.
Definition body_MarshalRattachPkt : func := Eval vm_compute in fn (str "MarshalRattachPkt").
Lemma text_MarshalRattachPkt X (W : outside X) call b x (t' : N) (QID' : QID) :
  exists sp, call_func W call body_MarshalRattachPkt [VBuf; VU 16 t'; qidv QID'] b x = Ret [] (Buf (MarshalRattachPkt t' QID') sp) x.
Proof. text_marshal. Qed.
Definition body_MarshalTattachPkt : func := Eval vm_compute in fn (str "MarshalTattachPkt").
Lemma text_MarshalTattachPkt X (W : outside X) call b x (t' : N) (SFID' : N) (AFID' : N) (Uname' : bytes) (Aname' : bytes) :
  exists sp, call_func W call body_MarshalTattachPkt [VBuf; VU 16 t'; VU 32 SFID'; VU 32 AFID'; VStr Uname'; VStr Aname'] b x = Ret [] (Buf (MarshalTattachPkt t' SFID' AFID' Uname' Aname') sp) x.
Proof. text_marshal. Qed.
Definition body_MarshalRflushPkt : func := Eval vm_compute in fn (str "MarshalRflushPkt").
Lemma text_MarshalRflushPkt X (W : outside X) call b x (t' : N) :
  exists sp, call_func W call body_MarshalRflushPkt [VBuf; VU 16 t'] b x = Ret [] (Buf (MarshalRflushPkt t') sp) x.
Proof. text_marshal. Qed.
Definition body_MarshalTflushPkt : func := Eval vm_compute in fn (str "MarshalTflushPkt").
Lemma text_MarshalTflushPkt X (W : outside X) call b x (t' : N) (OTag' : N) :
  exists sp, call_func W call body_MarshalTflushPkt [VBuf; VU 16 t'; VU 16 OTag'] b x = Ret [] (Buf (MarshalTflushPkt t' OTag') sp) x.
Proof. text_marshal. Qed.
Definition body_MarshalRopenPkt : func := Eval vm_compute in fn (str "MarshalRopenPkt").
Lemma text_MarshalRopenPkt X (W : outside X) call b x (t' : N) (OQID' : QID) (IOUnit' : N) :
  exists sp, call_func W call body_MarshalRopenPkt [VBuf; VU 16 t'; qidv OQID'; VU 32 IOUnit'] b x = Ret [] (Buf (MarshalRopenPkt t' OQID' IOUnit') sp) x.
Proof. text_marshal. Qed.
Definition body_MarshalTopenPkt : func := Eval vm_compute in fn (str "MarshalTopenPkt").
Lemma text_MarshalTopenPkt X (W : outside X) call b x (t' : N) (OFID' : N) (Omode' : N) :
  exists sp, call_func W call body_MarshalTopenPkt [VBuf; VU 16 t'; VU 32 OFID'; VU 8 Omode'] b x = Ret [] (Buf (MarshalTopenPkt t' OFID' Omode') sp) x.
Proof. text_marshal. Qed.
Definition body_MarshalRcreatePkt : func := Eval vm_compute in fn (str "MarshalRcreatePkt").
Lemma text_MarshalRcreatePkt X (W : outside X) call b x (t' : N) (OQID' : QID) (IOUnit' : N) :
  exists sp, call_func W call body_MarshalRcreatePkt [VBuf; VU 16 t'; qidv OQID'; VU 32 IOUnit'] b x = Ret [] (Buf (MarshalRcreatePkt t' OQID' IOUnit') sp) x.
Proof. text_marshal. Qed.
Definition body_MarshalTcreatePkt : func := Eval vm_compute in fn (str "MarshalTcreatePkt").
Lemma text_MarshalTcreatePkt X (W : outside X) call b x (t' : N) (OFID' : N) (Name' : bytes) (CreatePerm' : N) (Omode' : N) :
  exists sp, call_func W call body_MarshalTcreatePkt [VBuf; VU 16 t'; VU 32 OFID'; VStr Name'; VU 32 CreatePerm'; VU 8 Omode'] b x = Ret [] (Buf (MarshalTcreatePkt t' OFID' Name' CreatePerm' Omode') sp) x.
Proof. text_marshal. Qed.
Definition body_MarshalRstatPkt : func := Eval vm_compute in fn (str "MarshalRstatPkt").
Lemma text_MarshalRstatPkt X (W : outside X) call b x (t' : N) (B' : bytes) :
  exists sp, call_func W call body_MarshalRstatPkt [VBuf; VU 16 t'; VBytes (Buf B' [])] b x = Ret [] (Buf (MarshalRstatPkt t' B') sp) x.
Proof. text_marshal. Qed.
Definition body_MarshalTstatPkt : func := Eval vm_compute in fn (str "MarshalTstatPkt").
Lemma text_MarshalTstatPkt X (W : outside X) call b x (t' : N) (OFID' : N) :
  exists sp, call_func W call body_MarshalTstatPkt [VBuf; VU 16 t'; VU 32 OFID'] b x = Ret [] (Buf (MarshalTstatPkt t' OFID') sp) x.
Proof. text_marshal. Qed.
Definition body_MarshalRwstatPkt : func := Eval vm_compute in fn (str "MarshalRwstatPkt").
Lemma text_MarshalRwstatPkt X (W : outside X) call b x (t' : N) :
  exists sp, call_func W call body_MarshalRwstatPkt [VBuf; VU 16 t'] b x = Ret [] (Buf (MarshalRwstatPkt t') sp) x.
Proof. text_marshal. Qed.
Definition body_MarshalTwstatPkt : func := Eval vm_compute in fn (str "MarshalTwstatPkt").
Lemma text_MarshalTwstatPkt X (W : outside X) call b x (t' : N) (OFID' : N) (B' : bytes) :
  exists sp, call_func W call body_MarshalTwstatPkt [VBuf; VU 16 t'; VU 32 OFID'; VBytes (Buf B' [])] b x = Ret [] (Buf (MarshalTwstatPkt t' OFID' B') sp) x.
Proof. text_marshal. Qed.
Definition body_MarshalRclunkPkt : func := Eval vm_compute in fn (str "MarshalRclunkPkt").
Lemma text_MarshalRclunkPkt X (W : outside X) call b x (t' : N) :
  exists sp, call_func W call body_MarshalRclunkPkt [VBuf; VU 16 t'] b x = Ret [] (Buf (MarshalRclunkPkt t') sp) x.
Proof. text_marshal. Qed.
Definition body_MarshalTclunkPkt : func := Eval vm_compute in fn (str "MarshalTclunkPkt").
Lemma text_MarshalTclunkPkt X (W : outside X) call b x (t' : N) (OFID' : N) :
  exists sp, call_func W call body_MarshalTclunkPkt [VBuf; VU 16 t'; VU 32 OFID'] b x = Ret [] (Buf (MarshalTclunkPkt t' OFID') sp) x.
Proof. text_marshal. Qed.
Definition body_MarshalRremovePkt : func := Eval vm_compute in fn (str "MarshalRremovePkt").
Lemma text_MarshalRremovePkt X (W : outside X) call b x (t' : N) :
  exists sp, call_func W call body_MarshalRremovePkt [VBuf; VU 16 t'] b x = Ret [] (Buf (MarshalRremovePkt t') sp) x.
Proof. text_marshal. Qed.
Definition body_MarshalTremovePkt : func := Eval vm_compute in fn (str "MarshalTremovePkt").
Lemma text_MarshalTremovePkt X (W : outside X) call b x (t' : N) (OFID' : N) :
  exists sp, call_func W call body_MarshalTremovePkt [VBuf; VU 16 t'; VU 32 OFID'] b x = Ret [] (Buf (MarshalTremovePkt t' OFID') sp) x.
Proof. text_marshal. Qed.
Definition body_MarshalRreadPkt : func := Eval vm_compute in fn (str "MarshalRreadPkt").
Lemma text_MarshalRreadPkt X (W : outside X) call b x (t' : N) (Data' : bytes) :
  exists sp, call_func W call body_MarshalRreadPkt [VBuf; VU 16 t'; VBytes (Buf Data' [])] b x = Ret [] (Buf (MarshalRreadPkt t' Data') sp) x.
Proof. text_marshal. Qed.
Definition body_MarshalTreadPkt : func := Eval vm_compute in fn (str "MarshalTreadPkt").
Lemma text_MarshalTreadPkt X (W : outside X) call b x (t' : N) (OFID' : N) (Off' : N) (Len' : Z) :
  exists sp, call_func W call body_MarshalTreadPkt [VBuf; VU 16 t'; VU 32 OFID'; VU 64 Off'; VI 32 Len'] b x = Ret [] (Buf (MarshalTreadPkt t' OFID' Off' Len') sp) x.
Proof. text_marshal. Qed.
Definition body_MarshalRwritePkt : func := Eval vm_compute in fn (str "MarshalRwritePkt").
Lemma text_MarshalRwritePkt X (W : outside X) call b x (t' : N) (RLen' : Z) :
  exists sp, call_func W call body_MarshalRwritePkt [VBuf; VU 16 t'; VI 32 RLen'] b x = Ret [] (Buf (MarshalRwritePkt t' RLen') sp) x.
Proof. text_marshal. Qed.
Definition body_MarshalTwritePkt : func := Eval vm_compute in fn (str "MarshalTwritePkt").
Lemma text_MarshalTwritePkt X (W : outside X) call b x (t' : N) (OFID' : N) (Off' : N) (Data' : bytes) :
  exists sp, call_func W call body_MarshalTwritePkt [VBuf; VU 16 t'; VU 32 OFID'; VU 64 Off'; VBytes (Buf Data' [])] b x = Ret [] (Buf (MarshalTwritePkt t' OFID' Off' Data') sp) x.
Proof. text_marshal. Qed.
Definition body_Marshaldir : func := Eval vm_compute in fn (str "Marshaldir").
Lemma text_Marshaldir X (W : outside X) call b x (D' : Dir) :
  exists sp, call_func W call body_Marshaldir [VBuf; dirv D'] b x = Ret [] (Buf (Marshaldir D') sp) x.
Proof. text_marshal_dir. Qed.
