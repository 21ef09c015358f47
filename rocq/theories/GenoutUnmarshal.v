(** Written by tools/sem.py: what the Unmarshal functions of genout.go return, for all buffers. *)
From Verif Require Import Base GoBuf CodecPrim Types Codec GoSyntax GoSem GenoutProg GenoutSem.

Definition body_UnmarshalRerrorPkt : func := Eval vm_compute in fn (str "UnmarshalRerrorPkt").
Lemma text_UnmarshalRerrorPkt X (W : outside X) call b x :
  call_func W call body_UnmarshalRerrorPkt [VBuf] b x =
  match UnmarshalRerrorPkt b with UPanic => Panic | URet f t b err => Ret [VStr (Rerror_Error f); VU 16 t; VErr err] b x end.
Proof. text_unmarshal. Qed.
Definition body_UnmarshalRversionPkt : func := Eval vm_compute in fn (str "UnmarshalRversionPkt").
Lemma text_UnmarshalRversionPkt X (W : outside X) call b x :
  call_func W call body_UnmarshalRversionPkt [VBuf] b x =
  match UnmarshalRversionPkt b with UPanic => Panic | URet f t b err => Ret [VU 32 (Rversion_RMsize f); VStr (Rversion_RVersion f); VU 16 t; VErr err] b x end.
Proof. text_unmarshal. Qed.
Definition body_UnmarshalTversionPkt : func := Eval vm_compute in fn (str "UnmarshalTversionPkt").
Lemma text_UnmarshalTversionPkt X (W : outside X) call b x :
  call_func W call body_UnmarshalTversionPkt [VBuf] b x =
  match UnmarshalTversionPkt b with UPanic => Panic | URet f t b err => Ret [VU 32 (Tversion_TMsize f); VStr (Tversion_TVersion f); VU 16 t; VErr err] b x end.
Proof. text_unmarshal. Qed.
Definition body_UnmarshalRattachPkt : func := Eval vm_compute in fn (str "UnmarshalRattachPkt").
Lemma text_UnmarshalRattachPkt X (W : outside X) call b x :
  call_func W call body_UnmarshalRattachPkt [VBuf] b x =
  match UnmarshalRattachPkt b with UPanic => Panic | URet f t b err => Ret [qidv (Rattach_QID f); VU 16 t; VErr err] b x end.
Proof. text_unmarshal. Qed.
Definition body_UnmarshalTattachPkt : func := Eval vm_compute in fn (str "UnmarshalTattachPkt").
Lemma text_UnmarshalTattachPkt X (W : outside X) call b x :
  call_func W call body_UnmarshalTattachPkt [VBuf] b x =
  match UnmarshalTattachPkt b with UPanic => Panic | URet f t b err => Ret [VU 32 (Tattach_SFID f); VU 32 (Tattach_AFID f); VStr (Tattach_Uname f); VStr (Tattach_Aname f); VU 16 t; VErr err] b x end.
Proof. text_unmarshal. Qed.
Definition body_UnmarshalRflushPkt : func := Eval vm_compute in fn (str "UnmarshalRflushPkt").
Lemma text_UnmarshalRflushPkt X (W : outside X) call b x :
  call_func W call body_UnmarshalRflushPkt [VBuf] b x =
  match UnmarshalRflushPkt b with UPanic => Panic | URet f t b err => Ret [VU 16 t; VErr err] b x end.
Proof. text_unmarshal. Qed.
Definition body_UnmarshalTflushPkt : func := Eval vm_compute in fn (str "UnmarshalTflushPkt").
Lemma text_UnmarshalTflushPkt X (W : outside X) call b x :
  call_func W call body_UnmarshalTflushPkt [VBuf] b x =
  match UnmarshalTflushPkt b with UPanic => Panic | URet f t b err => Ret [VU 16 (Tflush_OTag f); VU 16 t; VErr err] b x end.
Proof. text_unmarshal. Qed.
Definition body_UnmarshalRopenPkt : func := Eval vm_compute in fn (str "UnmarshalRopenPkt").
Lemma text_UnmarshalRopenPkt X (W : outside X) call b x :
  call_func W call body_UnmarshalRopenPkt [VBuf] b x =
  match UnmarshalRopenPkt b with UPanic => Panic | URet f t b err => Ret [qidv (Ropen_OQID f); VU 32 (Ropen_IOUnit f); VU 16 t; VErr err] b x end.
Proof. text_unmarshal. Qed.
Definition body_UnmarshalTopenPkt : func := Eval vm_compute in fn (str "UnmarshalTopenPkt").
Lemma text_UnmarshalTopenPkt X (W : outside X) call b x :
  call_func W call body_UnmarshalTopenPkt [VBuf] b x =
  match UnmarshalTopenPkt b with UPanic => Panic | URet f t b err => Ret [VU 32 (Topen_OFID f); VU 8 (Topen_Omode f); VU 16 t; VErr err] b x end.
Proof. text_unmarshal. Qed.
Definition body_UnmarshalRcreatePkt : func := Eval vm_compute in fn (str "UnmarshalRcreatePkt").
Lemma text_UnmarshalRcreatePkt X (W : outside X) call b x :
  call_func W call body_UnmarshalRcreatePkt [VBuf] b x =
  match UnmarshalRcreatePkt b with UPanic => Panic | URet f t b err => Ret [qidv (Rcreate_OQID f); VU 32 (Rcreate_IOUnit f); VU 16 t; VErr err] b x end.
Proof. text_unmarshal. Qed.
Definition body_UnmarshalTcreatePkt : func := Eval vm_compute in fn (str "UnmarshalTcreatePkt").
Lemma text_UnmarshalTcreatePkt X (W : outside X) call b x :
  call_func W call body_UnmarshalTcreatePkt [VBuf] b x =
  match UnmarshalTcreatePkt b with UPanic => Panic | URet f t b err => Ret [VU 32 (Tcreate_OFID f); VStr (Tcreate_Name f); VU 32 (Tcreate_CreatePerm f); VU 8 (Tcreate_Omode f); VU 16 t; VErr err] b x end.
Proof. text_unmarshal. Qed.
Definition body_UnmarshalRstatPkt : func := Eval vm_compute in fn (str "UnmarshalRstatPkt").
Lemma text_UnmarshalRstatPkt X (W : outside X) call b x :
  call_func W call body_UnmarshalRstatPkt [VBuf] b x =
  match UnmarshalRstatPkt b with UPanic => Panic | URet f t b err => Ret [VBytes (Buf (Rstat_B f) []); VU 16 t; VErr err] b x end.
Proof. text_unmarshal. Qed.
Definition body_UnmarshalTstatPkt : func := Eval vm_compute in fn (str "UnmarshalTstatPkt").
Lemma text_UnmarshalTstatPkt X (W : outside X) call b x :
  call_func W call body_UnmarshalTstatPkt [VBuf] b x =
  match UnmarshalTstatPkt b with UPanic => Panic | URet f t b err => Ret [VU 32 (Tstat_OFID f); VU 16 t; VErr err] b x end.
Proof. text_unmarshal. Qed.
Definition body_UnmarshalRwstatPkt : func := Eval vm_compute in fn (str "UnmarshalRwstatPkt").
Lemma text_UnmarshalRwstatPkt X (W : outside X) call b x :
  call_func W call body_UnmarshalRwstatPkt [VBuf] b x =
  match UnmarshalRwstatPkt b with UPanic => Panic | URet f t b err => Ret [VU 16 t; VErr err] b x end.
Proof. text_unmarshal. Qed.
Definition body_UnmarshalTwstatPkt : func := Eval vm_compute in fn (str "UnmarshalTwstatPkt").
Lemma text_UnmarshalTwstatPkt X (W : outside X) call b x :
  call_func W call body_UnmarshalTwstatPkt [VBuf] b x =
  match UnmarshalTwstatPkt b with UPanic => Panic | URet f t b err => Ret [VU 32 (Twstat_OFID f); VBytes (Buf (Twstat_B f) []); VU 16 t; VErr err] b x end.
Proof. text_unmarshal. Qed.
Definition body_UnmarshalRclunkPkt : func := Eval vm_compute in fn (str "UnmarshalRclunkPkt").
Lemma text_UnmarshalRclunkPkt X (W : outside X) call b x :
  call_func W call body_UnmarshalRclunkPkt [VBuf] b x =
  match UnmarshalRclunkPkt b with UPanic => Panic | URet f t b err => Ret [VU 16 t; VErr err] b x end.
Proof. text_unmarshal. Qed.
Definition body_UnmarshalTclunkPkt : func := Eval vm_compute in fn (str "UnmarshalTclunkPkt").
Lemma text_UnmarshalTclunkPkt X (W : outside X) call b x :
  call_func W call body_UnmarshalTclunkPkt [VBuf] b x =
  match UnmarshalTclunkPkt b with UPanic => Panic | URet f t b err => Ret [VU 32 (Tclunk_OFID f); VU 16 t; VErr err] b x end.
Proof. text_unmarshal. Qed.
Definition body_UnmarshalRremovePkt : func := Eval vm_compute in fn (str "UnmarshalRremovePkt").
Lemma text_UnmarshalRremovePkt X (W : outside X) call b x :
  call_func W call body_UnmarshalRremovePkt [VBuf] b x =
  match UnmarshalRremovePkt b with UPanic => Panic | URet f t b err => Ret [VU 16 t; VErr err] b x end.
Proof. text_unmarshal. Qed.
Definition body_UnmarshalTremovePkt : func := Eval vm_compute in fn (str "UnmarshalTremovePkt").
Lemma text_UnmarshalTremovePkt X (W : outside X) call b x :
  call_func W call body_UnmarshalTremovePkt [VBuf] b x =
  match UnmarshalTremovePkt b with UPanic => Panic | URet f t b err => Ret [VU 32 (Tremove_OFID f); VU 16 t; VErr err] b x end.
Proof. text_unmarshal. Qed.
Definition body_UnmarshalRreadPkt : func := Eval vm_compute in fn (str "UnmarshalRreadPkt").
Lemma text_UnmarshalRreadPkt X (W : outside X) call b x :
  call_func W call body_UnmarshalRreadPkt [VBuf] b x =
  match UnmarshalRreadPkt b with UPanic => Panic | URet f t b err => Ret [VBytes (Buf (Rread_Data f) []); VU 16 t; VErr err] b x end.
Proof. text_unmarshal. Qed.
Definition body_UnmarshalTreadPkt : func := Eval vm_compute in fn (str "UnmarshalTreadPkt").
Lemma text_UnmarshalTreadPkt X (W : outside X) call b x :
  call_func W call body_UnmarshalTreadPkt [VBuf] b x =
  match UnmarshalTreadPkt b with UPanic => Panic | URet f t b err => Ret [VU 32 (Tread_OFID f); VU 64 (Tread_Off f); VI 32 (Tread_Len f); VU 16 t; VErr err] b x end.
Proof. text_unmarshal. Qed.
Definition body_UnmarshalRwritePkt : func := Eval vm_compute in fn (str "UnmarshalRwritePkt").
Lemma text_UnmarshalRwritePkt X (W : outside X) call b x :
  call_func W call body_UnmarshalRwritePkt [VBuf] b x =
  match UnmarshalRwritePkt b with UPanic => Panic | URet f t b err => Ret [VI 32 (Rwrite_RLen f); VU 16 t; VErr err] b x end.
Proof. text_unmarshal. Qed.
Definition body_UnmarshalTwritePkt : func := Eval vm_compute in fn (str "UnmarshalTwritePkt").
Lemma text_UnmarshalTwritePkt X (W : outside X) call b x :
  call_func W call body_UnmarshalTwritePkt [VBuf] b x =
  match UnmarshalTwritePkt b with UPanic => Panic | URet f t b err => Ret [VU 32 (Twrite_OFID f); VU 64 (Twrite_Off f); VBytes (Buf (Twrite_Data f) []); VU 16 t; VErr err] b x end.
Proof. text_unmarshal. Qed.
Definition body_Unmarshaldir : func := Eval vm_compute in fn (str "Unmarshaldir").
Lemma text_Unmarshaldir X (W : outside X) call b x :
  call_func W call body_Unmarshaldir [VBuf] b x =
  match Unmarshaldir b with UPanic => Panic | URet f t b err => Ret [dirv (f); VErr err] b x end.
Proof. text_unmarshal. Qed.
