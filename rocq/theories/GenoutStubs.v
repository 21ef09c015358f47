(** Written by tools/sem.py: what the stubs of genout.go do. *)
From Verif Require Import Base GoBuf CodecPrim Types Codec StubPrim Stubs GoSyntax GoSem GenoutProg GenoutSem GenoutMarshal GenoutUnmarshal GenoutWalk GenoutStubSem.

(** * The fields of a message as Go values *)
Definition vs_Rerror (f : RerrorPkt) : list value := [VStr (Rerror_Error f)].
Definition vs_Rversion (f : RversionPkt) : list value := [VU 32 (Rversion_RMsize f); VStr (Rversion_RVersion f)].
Definition vs_Tversion (f : TversionPkt) : list value := [VU 32 (Tversion_TMsize f); VStr (Tversion_TVersion f)].
Definition vs_Rattach (f : RattachPkt) : list value := [qidv (Rattach_QID f)].
Definition vs_Tattach (f : TattachPkt) : list value := [VU 32 (Tattach_SFID f); VU 32 (Tattach_AFID f); VStr (Tattach_Uname f); VStr (Tattach_Aname f)].
Definition vs_Rflush (f : RflushPkt) : list value := [].
Definition vs_Tflush (f : TflushPkt) : list value := [VU 16 (Tflush_OTag f)].
Definition vs_Rwalk (f : RwalkPkt) : list value := [VList (map qidv (Rwalk_QIDs f))].
Definition vs_Twalk (f : TwalkPkt) : list value := [VU 32 (Twalk_SFID f); VU 32 (Twalk_NewFID f); VList (map VStr (Twalk_Paths f))].
Definition vs_Ropen (f : RopenPkt) : list value := [qidv (Ropen_OQID f); VU 32 (Ropen_IOUnit f)].
Definition vs_Topen (f : TopenPkt) : list value := [VU 32 (Topen_OFID f); VU 8 (Topen_Omode f)].
Definition vs_Rcreate (f : RcreatePkt) : list value := [qidv (Rcreate_OQID f); VU 32 (Rcreate_IOUnit f)].
Definition vs_Tcreate (f : TcreatePkt) : list value := [VU 32 (Tcreate_OFID f); VStr (Tcreate_Name f); VU 32 (Tcreate_CreatePerm f); VU 8 (Tcreate_Omode f)].
Definition vs_Rstat (f : RstatPkt) : list value := [VBytes (Buf (Rstat_B f) [])].
Definition vs_Tstat (f : TstatPkt) : list value := [VU 32 (Tstat_OFID f)].
Definition vs_Rwstat (f : RwstatPkt) : list value := [].
Definition vs_Twstat (f : TwstatPkt) : list value := [VU 32 (Twstat_OFID f); VBytes (Buf (Twstat_B f) [])].
Definition vs_Rclunk (f : RclunkPkt) : list value := [].
Definition vs_Tclunk (f : TclunkPkt) : list value := [VU 32 (Tclunk_OFID f)].
Definition vs_Rremove (f : RremovePkt) : list value := [].
Definition vs_Tremove (f : TremovePkt) : list value := [VU 32 (Tremove_OFID f)].
Definition vs_Rread (f : RreadPkt) : list value := [VBytes (Buf (Rread_Data f) [])].
Definition vs_Tread (f : TreadPkt) : list value := [VU 32 (Tread_OFID f); VU 64 (Tread_Off f); VI 32 (Tread_Len f)].
Definition vs_Rwrite (f : RwritePkt) : list value := [VI 32 (Rwrite_RLen f)].
Definition vs_Twrite (f : TwritePkt) : list value := [VU 32 (Twrite_OFID f); VU 64 (Twrite_Off f); VBytes (Buf (Twrite_Data f) [])].

(** * The functions of Codec.v, by name *)
Lemma run_MarshalRerrorPkt {X} (W : outside X) d t f b x : exists sp, run W genout (S d) (str "MarshalRerrorPkt") (VBuf :: VU 16 t :: vs_Rerror f) b x = Ret [] (Buf (MarshalRerrorPkt t (Rerror_Error f)) sp) x.
Proof. rewrite (run_one W body_MarshalRerrorPkt) by (vm_compute; reflexivity). apply text_MarshalRerrorPkt. Qed.
Lemma run_UnmarshalRerrorPkt {X} (W : outside X) d b x :
  run W genout (S d) (str "UnmarshalRerrorPkt") [VBuf] b x = match UnmarshalRerrorPkt b with UPanic => Panic | URet f t b err => Ret (also (vs_Rerror f) [VU 16 t; VErr err]) b x end.
Proof. rewrite (run_one W body_UnmarshalRerrorPkt) by (vm_compute; reflexivity). apply text_UnmarshalRerrorPkt. Qed.
Lemma run_MarshalRversionPkt {X} (W : outside X) d t f b x : exists sp, run W genout (S d) (str "MarshalRversionPkt") (VBuf :: VU 16 t :: vs_Rversion f) b x = Ret [] (Buf (MarshalRversionPkt t (Rversion_RMsize f) (Rversion_RVersion f)) sp) x.
Proof. rewrite (run_one W body_MarshalRversionPkt) by (vm_compute; reflexivity). apply text_MarshalRversionPkt. Qed.
Lemma run_UnmarshalRversionPkt {X} (W : outside X) d b x :
  run W genout (S d) (str "UnmarshalRversionPkt") [VBuf] b x = match UnmarshalRversionPkt b with UPanic => Panic | URet f t b err => Ret (also (vs_Rversion f) [VU 16 t; VErr err]) b x end.
Proof. rewrite (run_one W body_UnmarshalRversionPkt) by (vm_compute; reflexivity). apply text_UnmarshalRversionPkt. Qed.
Lemma run_MarshalTversionPkt {X} (W : outside X) d t f b x : exists sp, run W genout (S d) (str "MarshalTversionPkt") (VBuf :: VU 16 t :: vs_Tversion f) b x = Ret [] (Buf (MarshalTversionPkt t (Tversion_TMsize f) (Tversion_TVersion f)) sp) x.
Proof. rewrite (run_one W body_MarshalTversionPkt) by (vm_compute; reflexivity). apply text_MarshalTversionPkt. Qed.
Lemma run_UnmarshalTversionPkt {X} (W : outside X) d b x :
  run W genout (S d) (str "UnmarshalTversionPkt") [VBuf] b x = match UnmarshalTversionPkt b with UPanic => Panic | URet f t b err => Ret (also (vs_Tversion f) [VU 16 t; VErr err]) b x end.
Proof. rewrite (run_one W body_UnmarshalTversionPkt) by (vm_compute; reflexivity). apply text_UnmarshalTversionPkt. Qed.
Lemma run_MarshalRattachPkt {X} (W : outside X) d t f b x : exists sp, run W genout (S d) (str "MarshalRattachPkt") (VBuf :: VU 16 t :: vs_Rattach f) b x = Ret [] (Buf (MarshalRattachPkt t (Rattach_QID f)) sp) x.
Proof. rewrite (run_one W body_MarshalRattachPkt) by (vm_compute; reflexivity). apply text_MarshalRattachPkt. Qed.
Lemma run_UnmarshalRattachPkt {X} (W : outside X) d b x :
  run W genout (S d) (str "UnmarshalRattachPkt") [VBuf] b x = match UnmarshalRattachPkt b with UPanic => Panic | URet f t b err => Ret (also (vs_Rattach f) [VU 16 t; VErr err]) b x end.
Proof. rewrite (run_one W body_UnmarshalRattachPkt) by (vm_compute; reflexivity). apply text_UnmarshalRattachPkt. Qed.
Lemma run_MarshalTattachPkt {X} (W : outside X) d t f b x : exists sp, run W genout (S d) (str "MarshalTattachPkt") (VBuf :: VU 16 t :: vs_Tattach f) b x = Ret [] (Buf (MarshalTattachPkt t (Tattach_SFID f) (Tattach_AFID f) (Tattach_Uname f) (Tattach_Aname f)) sp) x.
Proof. rewrite (run_one W body_MarshalTattachPkt) by (vm_compute; reflexivity). apply text_MarshalTattachPkt. Qed.
Lemma run_UnmarshalTattachPkt {X} (W : outside X) d b x :
  run W genout (S d) (str "UnmarshalTattachPkt") [VBuf] b x = match UnmarshalTattachPkt b with UPanic => Panic | URet f t b err => Ret (also (vs_Tattach f) [VU 16 t; VErr err]) b x end.
Proof. rewrite (run_one W body_UnmarshalTattachPkt) by (vm_compute; reflexivity). apply text_UnmarshalTattachPkt. Qed.
Lemma run_MarshalRflushPkt {X} (W : outside X) d t f b x : exists sp, run W genout (S d) (str "MarshalRflushPkt") (VBuf :: VU 16 t :: vs_Rflush f) b x = Ret [] (Buf (MarshalRflushPkt t ) sp) x.
Proof. rewrite (run_one W body_MarshalRflushPkt) by (vm_compute; reflexivity). apply text_MarshalRflushPkt. Qed.
Lemma run_UnmarshalRflushPkt {X} (W : outside X) d b x :
  run W genout (S d) (str "UnmarshalRflushPkt") [VBuf] b x = match UnmarshalRflushPkt b with UPanic => Panic | URet f t b err => Ret (also (vs_Rflush f) [VU 16 t; VErr err]) b x end.
Proof. rewrite (run_one W body_UnmarshalRflushPkt) by (vm_compute; reflexivity). apply text_UnmarshalRflushPkt. Qed.
Lemma run_MarshalTflushPkt {X} (W : outside X) d t f b x : exists sp, run W genout (S d) (str "MarshalTflushPkt") (VBuf :: VU 16 t :: vs_Tflush f) b x = Ret [] (Buf (MarshalTflushPkt t (Tflush_OTag f)) sp) x.
Proof. rewrite (run_one W body_MarshalTflushPkt) by (vm_compute; reflexivity). apply text_MarshalTflushPkt. Qed.
Lemma run_UnmarshalTflushPkt {X} (W : outside X) d b x :
  run W genout (S d) (str "UnmarshalTflushPkt") [VBuf] b x = match UnmarshalTflushPkt b with UPanic => Panic | URet f t b err => Ret (also (vs_Tflush f) [VU 16 t; VErr err]) b x end.
Proof. rewrite (run_one W body_UnmarshalTflushPkt) by (vm_compute; reflexivity). apply text_UnmarshalTflushPkt. Qed.
Lemma run_MarshalRwalkPkt {X} (W : outside X) d t f b x : exists sp, run W genout (S d) (str "MarshalRwalkPkt") (VBuf :: VU 16 t :: vs_Rwalk f) b x = Ret [] (Buf (MarshalRwalkPkt t (Rwalk_QIDs f)) sp) x.
Proof. rewrite (run_one W body_MarshalRwalkPkt) by (vm_compute; reflexivity). apply text_MarshalRwalkPkt. Qed.
Lemma run_UnmarshalRwalkPkt {X} (W : outside X) d b x :
  run W genout (S d) (str "UnmarshalRwalkPkt") [VBuf] b x = match UnmarshalRwalkPkt b with UPanic => Panic | URet f t b err => Ret (also (vs_Rwalk f) [VU 16 t; VErr err]) b x end.
Proof. rewrite (run_one W body_UnmarshalRwalkPkt) by (vm_compute; reflexivity). apply text_UnmarshalRwalkPkt. Qed.
Lemma run_MarshalTwalkPkt {X} (W : outside X) d t f b x : exists sp, run W genout (S d) (str "MarshalTwalkPkt") (VBuf :: VU 16 t :: vs_Twalk f) b x = Ret [] (Buf (MarshalTwalkPkt t (Twalk_SFID f) (Twalk_NewFID f) (Twalk_Paths f)) sp) x.
Proof. rewrite (run_one W body_MarshalTwalkPkt) by (vm_compute; reflexivity). apply text_MarshalTwalkPkt. Qed.
Lemma run_UnmarshalTwalkPkt {X} (W : outside X) d b x :
  run W genout (S d) (str "UnmarshalTwalkPkt") [VBuf] b x = match UnmarshalTwalkPkt b with UPanic => Panic | URet f t b err => Ret (also (vs_Twalk f) [VU 16 t; VErr err]) b x end.
Proof. rewrite (run_one W body_UnmarshalTwalkPkt) by (vm_compute; reflexivity). apply text_UnmarshalTwalkPkt. Qed.
Lemma run_MarshalRopenPkt {X} (W : outside X) d t f b x : exists sp, run W genout (S d) (str "MarshalRopenPkt") (VBuf :: VU 16 t :: vs_Ropen f) b x = Ret [] (Buf (MarshalRopenPkt t (Ropen_OQID f) (Ropen_IOUnit f)) sp) x.
Proof. rewrite (run_one W body_MarshalRopenPkt) by (vm_compute; reflexivity). apply text_MarshalRopenPkt. Qed.
Lemma run_UnmarshalRopenPkt {X} (W : outside X) d b x :
  run W genout (S d) (str "UnmarshalRopenPkt") [VBuf] b x = match UnmarshalRopenPkt b with UPanic => Panic | URet f t b err => Ret (also (vs_Ropen f) [VU 16 t; VErr err]) b x end.
Proof. rewrite (run_one W body_UnmarshalRopenPkt) by (vm_compute; reflexivity). apply text_UnmarshalRopenPkt. Qed.
Lemma run_MarshalTopenPkt {X} (W : outside X) d t f b x : exists sp, run W genout (S d) (str "MarshalTopenPkt") (VBuf :: VU 16 t :: vs_Topen f) b x = Ret [] (Buf (MarshalTopenPkt t (Topen_OFID f) (Topen_Omode f)) sp) x.
Proof. rewrite (run_one W body_MarshalTopenPkt) by (vm_compute; reflexivity). apply text_MarshalTopenPkt. Qed.
Lemma run_UnmarshalTopenPkt {X} (W : outside X) d b x :
  run W genout (S d) (str "UnmarshalTopenPkt") [VBuf] b x = match UnmarshalTopenPkt b with UPanic => Panic | URet f t b err => Ret (also (vs_Topen f) [VU 16 t; VErr err]) b x end.
Proof. rewrite (run_one W body_UnmarshalTopenPkt) by (vm_compute; reflexivity). apply text_UnmarshalTopenPkt. Qed.
Lemma run_MarshalRcreatePkt {X} (W : outside X) d t f b x : exists sp, run W genout (S d) (str "MarshalRcreatePkt") (VBuf :: VU 16 t :: vs_Rcreate f) b x = Ret [] (Buf (MarshalRcreatePkt t (Rcreate_OQID f) (Rcreate_IOUnit f)) sp) x.
Proof. rewrite (run_one W body_MarshalRcreatePkt) by (vm_compute; reflexivity). apply text_MarshalRcreatePkt. Qed.
Lemma run_UnmarshalRcreatePkt {X} (W : outside X) d b x :
  run W genout (S d) (str "UnmarshalRcreatePkt") [VBuf] b x = match UnmarshalRcreatePkt b with UPanic => Panic | URet f t b err => Ret (also (vs_Rcreate f) [VU 16 t; VErr err]) b x end.
Proof. rewrite (run_one W body_UnmarshalRcreatePkt) by (vm_compute; reflexivity). apply text_UnmarshalRcreatePkt. Qed.
Lemma run_MarshalTcreatePkt {X} (W : outside X) d t f b x : exists sp, run W genout (S d) (str "MarshalTcreatePkt") (VBuf :: VU 16 t :: vs_Tcreate f) b x = Ret [] (Buf (MarshalTcreatePkt t (Tcreate_OFID f) (Tcreate_Name f) (Tcreate_CreatePerm f) (Tcreate_Omode f)) sp) x.
Proof. rewrite (run_one W body_MarshalTcreatePkt) by (vm_compute; reflexivity). apply text_MarshalTcreatePkt. Qed.
Lemma run_UnmarshalTcreatePkt {X} (W : outside X) d b x :
  run W genout (S d) (str "UnmarshalTcreatePkt") [VBuf] b x = match UnmarshalTcreatePkt b with UPanic => Panic | URet f t b err => Ret (also (vs_Tcreate f) [VU 16 t; VErr err]) b x end.
Proof. rewrite (run_one W body_UnmarshalTcreatePkt) by (vm_compute; reflexivity). apply text_UnmarshalTcreatePkt. Qed.
Lemma run_MarshalRstatPkt {X} (W : outside X) d t f b x : exists sp, run W genout (S d) (str "MarshalRstatPkt") (VBuf :: VU 16 t :: vs_Rstat f) b x = Ret [] (Buf (MarshalRstatPkt t (Rstat_B f)) sp) x.
Proof. rewrite (run_one W body_MarshalRstatPkt) by (vm_compute; reflexivity). apply text_MarshalRstatPkt. Qed.
Lemma run_UnmarshalRstatPkt {X} (W : outside X) d b x :
  run W genout (S d) (str "UnmarshalRstatPkt") [VBuf] b x = match UnmarshalRstatPkt b with UPanic => Panic | URet f t b err => Ret (also (vs_Rstat f) [VU 16 t; VErr err]) b x end.
Proof. rewrite (run_one W body_UnmarshalRstatPkt) by (vm_compute; reflexivity). apply text_UnmarshalRstatPkt. Qed.
Lemma run_MarshalTstatPkt {X} (W : outside X) d t f b x : exists sp, run W genout (S d) (str "MarshalTstatPkt") (VBuf :: VU 16 t :: vs_Tstat f) b x = Ret [] (Buf (MarshalTstatPkt t (Tstat_OFID f)) sp) x.
Proof. rewrite (run_one W body_MarshalTstatPkt) by (vm_compute; reflexivity). apply text_MarshalTstatPkt. Qed.
Lemma run_UnmarshalTstatPkt {X} (W : outside X) d b x :
  run W genout (S d) (str "UnmarshalTstatPkt") [VBuf] b x = match UnmarshalTstatPkt b with UPanic => Panic | URet f t b err => Ret (also (vs_Tstat f) [VU 16 t; VErr err]) b x end.
Proof. rewrite (run_one W body_UnmarshalTstatPkt) by (vm_compute; reflexivity). apply text_UnmarshalTstatPkt. Qed.
Lemma run_MarshalRwstatPkt {X} (W : outside X) d t f b x : exists sp, run W genout (S d) (str "MarshalRwstatPkt") (VBuf :: VU 16 t :: vs_Rwstat f) b x = Ret [] (Buf (MarshalRwstatPkt t ) sp) x.
Proof. rewrite (run_one W body_MarshalRwstatPkt) by (vm_compute; reflexivity). apply text_MarshalRwstatPkt. Qed.
Lemma run_UnmarshalRwstatPkt {X} (W : outside X) d b x :
  run W genout (S d) (str "UnmarshalRwstatPkt") [VBuf] b x = match UnmarshalRwstatPkt b with UPanic => Panic | URet f t b err => Ret (also (vs_Rwstat f) [VU 16 t; VErr err]) b x end.
Proof. rewrite (run_one W body_UnmarshalRwstatPkt) by (vm_compute; reflexivity). apply text_UnmarshalRwstatPkt. Qed.
Lemma run_MarshalTwstatPkt {X} (W : outside X) d t f b x : exists sp, run W genout (S d) (str "MarshalTwstatPkt") (VBuf :: VU 16 t :: vs_Twstat f) b x = Ret [] (Buf (MarshalTwstatPkt t (Twstat_OFID f) (Twstat_B f)) sp) x.
Proof. rewrite (run_one W body_MarshalTwstatPkt) by (vm_compute; reflexivity). apply text_MarshalTwstatPkt. Qed.
Lemma run_UnmarshalTwstatPkt {X} (W : outside X) d b x :
  run W genout (S d) (str "UnmarshalTwstatPkt") [VBuf] b x = match UnmarshalTwstatPkt b with UPanic => Panic | URet f t b err => Ret (also (vs_Twstat f) [VU 16 t; VErr err]) b x end.
Proof. rewrite (run_one W body_UnmarshalTwstatPkt) by (vm_compute; reflexivity). apply text_UnmarshalTwstatPkt. Qed.
Lemma run_MarshalRclunkPkt {X} (W : outside X) d t f b x : exists sp, run W genout (S d) (str "MarshalRclunkPkt") (VBuf :: VU 16 t :: vs_Rclunk f) b x = Ret [] (Buf (MarshalRclunkPkt t ) sp) x.
Proof. rewrite (run_one W body_MarshalRclunkPkt) by (vm_compute; reflexivity). apply text_MarshalRclunkPkt. Qed.
Lemma run_UnmarshalRclunkPkt {X} (W : outside X) d b x :
  run W genout (S d) (str "UnmarshalRclunkPkt") [VBuf] b x = match UnmarshalRclunkPkt b with UPanic => Panic | URet f t b err => Ret (also (vs_Rclunk f) [VU 16 t; VErr err]) b x end.
Proof. rewrite (run_one W body_UnmarshalRclunkPkt) by (vm_compute; reflexivity). apply text_UnmarshalRclunkPkt. Qed.
Lemma run_MarshalTclunkPkt {X} (W : outside X) d t f b x : exists sp, run W genout (S d) (str "MarshalTclunkPkt") (VBuf :: VU 16 t :: vs_Tclunk f) b x = Ret [] (Buf (MarshalTclunkPkt t (Tclunk_OFID f)) sp) x.
Proof. rewrite (run_one W body_MarshalTclunkPkt) by (vm_compute; reflexivity). apply text_MarshalTclunkPkt. Qed.
Lemma run_UnmarshalTclunkPkt {X} (W : outside X) d b x :
  run W genout (S d) (str "UnmarshalTclunkPkt") [VBuf] b x = match UnmarshalTclunkPkt b with UPanic => Panic | URet f t b err => Ret (also (vs_Tclunk f) [VU 16 t; VErr err]) b x end.
Proof. rewrite (run_one W body_UnmarshalTclunkPkt) by (vm_compute; reflexivity). apply text_UnmarshalTclunkPkt. Qed.
Lemma run_MarshalRremovePkt {X} (W : outside X) d t f b x : exists sp, run W genout (S d) (str "MarshalRremovePkt") (VBuf :: VU 16 t :: vs_Rremove f) b x = Ret [] (Buf (MarshalRremovePkt t ) sp) x.
Proof. rewrite (run_one W body_MarshalRremovePkt) by (vm_compute; reflexivity). apply text_MarshalRremovePkt. Qed.
Lemma run_UnmarshalRremovePkt {X} (W : outside X) d b x :
  run W genout (S d) (str "UnmarshalRremovePkt") [VBuf] b x = match UnmarshalRremovePkt b with UPanic => Panic | URet f t b err => Ret (also (vs_Rremove f) [VU 16 t; VErr err]) b x end.
Proof. rewrite (run_one W body_UnmarshalRremovePkt) by (vm_compute; reflexivity). apply text_UnmarshalRremovePkt. Qed.
Lemma run_MarshalTremovePkt {X} (W : outside X) d t f b x : exists sp, run W genout (S d) (str "MarshalTremovePkt") (VBuf :: VU 16 t :: vs_Tremove f) b x = Ret [] (Buf (MarshalTremovePkt t (Tremove_OFID f)) sp) x.
Proof. rewrite (run_one W body_MarshalTremovePkt) by (vm_compute; reflexivity). apply text_MarshalTremovePkt. Qed.
Lemma run_UnmarshalTremovePkt {X} (W : outside X) d b x :
  run W genout (S d) (str "UnmarshalTremovePkt") [VBuf] b x = match UnmarshalTremovePkt b with UPanic => Panic | URet f t b err => Ret (also (vs_Tremove f) [VU 16 t; VErr err]) b x end.
Proof. rewrite (run_one W body_UnmarshalTremovePkt) by (vm_compute; reflexivity). apply text_UnmarshalTremovePkt. Qed.
Lemma run_MarshalRreadPkt {X} (W : outside X) d t f b x : exists sp, run W genout (S d) (str "MarshalRreadPkt") (VBuf :: VU 16 t :: vs_Rread f) b x = Ret [] (Buf (MarshalRreadPkt t (Rread_Data f)) sp) x.
Proof. rewrite (run_one W body_MarshalRreadPkt) by (vm_compute; reflexivity). apply text_MarshalRreadPkt. Qed.
Lemma run_UnmarshalRreadPkt {X} (W : outside X) d b x :
  run W genout (S d) (str "UnmarshalRreadPkt") [VBuf] b x = match UnmarshalRreadPkt b with UPanic => Panic | URet f t b err => Ret (also (vs_Rread f) [VU 16 t; VErr err]) b x end.
Proof. rewrite (run_one W body_UnmarshalRreadPkt) by (vm_compute; reflexivity). apply text_UnmarshalRreadPkt. Qed.
Lemma run_MarshalTreadPkt {X} (W : outside X) d t f b x : exists sp, run W genout (S d) (str "MarshalTreadPkt") (VBuf :: VU 16 t :: vs_Tread f) b x = Ret [] (Buf (MarshalTreadPkt t (Tread_OFID f) (Tread_Off f) (Tread_Len f)) sp) x.
Proof. rewrite (run_one W body_MarshalTreadPkt) by (vm_compute; reflexivity). apply text_MarshalTreadPkt. Qed.
Lemma run_UnmarshalTreadPkt {X} (W : outside X) d b x :
  run W genout (S d) (str "UnmarshalTreadPkt") [VBuf] b x = match UnmarshalTreadPkt b with UPanic => Panic | URet f t b err => Ret (also (vs_Tread f) [VU 16 t; VErr err]) b x end.
Proof. rewrite (run_one W body_UnmarshalTreadPkt) by (vm_compute; reflexivity). apply text_UnmarshalTreadPkt. Qed.
Lemma run_MarshalRwritePkt {X} (W : outside X) d t f b x : exists sp, run W genout (S d) (str "MarshalRwritePkt") (VBuf :: VU 16 t :: vs_Rwrite f) b x = Ret [] (Buf (MarshalRwritePkt t (Rwrite_RLen f)) sp) x.
Proof. rewrite (run_one W body_MarshalRwritePkt) by (vm_compute; reflexivity). apply text_MarshalRwritePkt. Qed.
Lemma run_UnmarshalRwritePkt {X} (W : outside X) d b x :
  run W genout (S d) (str "UnmarshalRwritePkt") [VBuf] b x = match UnmarshalRwritePkt b with UPanic => Panic | URet f t b err => Ret (also (vs_Rwrite f) [VU 16 t; VErr err]) b x end.
Proof. rewrite (run_one W body_UnmarshalRwritePkt) by (vm_compute; reflexivity). apply text_UnmarshalRwritePkt. Qed.
Lemma run_MarshalTwritePkt {X} (W : outside X) d t f b x : exists sp, run W genout (S d) (str "MarshalTwritePkt") (VBuf :: VU 16 t :: vs_Twrite f) b x = Ret [] (Buf (MarshalTwritePkt t (Twrite_OFID f) (Twrite_Off f) (Twrite_Data f)) sp) x.
Proof. rewrite (run_one W body_MarshalTwritePkt) by (vm_compute; reflexivity). apply text_MarshalTwritePkt. Qed.
Lemma run_UnmarshalTwritePkt {X} (W : outside X) d b x :
  run W genout (S d) (str "UnmarshalTwritePkt") [VBuf] b x = match UnmarshalTwritePkt b with UPanic => Panic | URet f t b err => Ret (also (vs_Twrite f) [VU 16 t; VErr err]) b x end.
Proof. rewrite (run_one W body_UnmarshalTwritePkt) by (vm_compute; reflexivity). apply text_UnmarshalTwritePkt. Qed.
Lemma run_Marshaldir {X} (W : outside X) d D b x : exists sp, run W genout (S d) (str "Marshaldir") [VBuf; dirv D] b x = Ret [] (Buf (Marshaldir D) sp) x.
Proof. rewrite (run_one W body_Marshaldir) by (vm_compute; reflexivity). apply text_Marshaldir. Qed.
Lemma run_Unmarshaldir {X} (W : outside X) d b x :
  run W genout (S d) (str "Unmarshaldir") [VBuf] b x = match Unmarshaldir b with UPanic => Panic | URet f t b err => Ret [dirv f; VErr err] b x end.
Proof. rewrite (run_one W body_Unmarshaldir) by (vm_compute; reflexivity). apply text_Unmarshaldir. Qed.

(** * The methods of a NineServer as methods of a Go interface value *)
Definition ns_method {St} (ns : NineServer St) (name : bytes) (vs : list value) (s : St) : option (list value * St) :=
  if beq name (str "Rversion") then match vs with [VU _ a0; VStr a1] => nsout vs_Rversion [VU 32 0; VStr []] (ns_Rversion ns s a0 a1) | _ => None end else
  if beq name (str "Rattach") then match vs with [VU _ a0; VU _ a1; VStr a2; VStr a3] => nsout vs_Rattach [qidv zeroQID] (ns_Rattach ns s a0 a1 a2 a3) | _ => None end else
  if beq name (str "Rflush") then match vs with [VU _ a0] => nsout vs_Rflush [] (ns_Rflush ns s a0) | _ => None end else
  if beq name (str "Rwalk") then match vs with [VU _ a0; VU _ a1; VList a2] => nsout vs_Rwalk [VList []] (ns_Rwalk ns s a0 a1 (strings a2)) | _ => None end else
  if beq name (str "Ropen") then match vs with [VU _ a0; VU _ a1] => nsout vs_Ropen [qidv zeroQID; VU 32 0] (ns_Ropen ns s a0 a1) | _ => None end else
  if beq name (str "Rcreate") then match vs with [VU _ a0; VStr a1; VU _ a2; VU _ a3] => nsout vs_Rcreate [qidv zeroQID; VU 32 0] (ns_Rcreate ns s a0 a1 a2 a3) | _ => None end else
  if beq name (str "Rstat") then match vs with [VU _ a0] => nsout vs_Rstat [VBytes (Buf [] [])] (ns_Rstat ns s a0) | _ => None end else
  if beq name (str "Rwstat") then match vs with [VU _ a0; VBytes a1] => nsout vs_Rwstat [] (ns_Rwstat ns s a0 (unread a1)) | _ => None end else
  if beq name (str "Rclunk") then match vs with [VU _ a0] => nsout vs_Rclunk [] (ns_Rclunk ns s a0) | _ => None end else
  if beq name (str "Rremove") then match vs with [VU _ a0] => nsout vs_Rremove [] (ns_Rremove ns s a0) | _ => None end else
  if beq name (str "Rread") then match vs with [VU _ a0; VU _ a1; VI _ a2] => nsout vs_Rread [VBytes (Buf [] [])] (ns_Rread ns s a0 a1 a2) | _ => None end else
  if beq name (str "Rwrite") then match vs with [VU _ a0; VU _ a1; VBytes a2] => nsout vs_Rwrite [VI 32 0] (ns_Rwrite ns s a0 a1 (unread a2)) | _ => None end else
  None.
Lemma method_Rversion St (ns : NineServer St) s f :
  ns_method ns (str "Rversion") (vs_Tversion f) s = nsout vs_Rversion [VU 32 0; VStr []] (ns_Rversion ns s (Tversion_TMsize f) (Tversion_TVersion f)).
Proof. reflexivity. Qed.
Lemma method_Rattach St (ns : NineServer St) s f :
  ns_method ns (str "Rattach") (vs_Tattach f) s = nsout vs_Rattach [qidv zeroQID] (ns_Rattach ns s (Tattach_SFID f) (Tattach_AFID f) (Tattach_Uname f) (Tattach_Aname f)).
Proof. reflexivity. Qed.
Lemma method_Rflush St (ns : NineServer St) s f :
  ns_method ns (str "Rflush") (vs_Tflush f) s = nsout vs_Rflush [] (ns_Rflush ns s (Tflush_OTag f)).
Proof. reflexivity. Qed.
Lemma method_Rwalk St (ns : NineServer St) s f :
  ns_method ns (str "Rwalk") (vs_Twalk f) s = nsout vs_Rwalk [VList []] (ns_Rwalk ns s (Twalk_SFID f) (Twalk_NewFID f) (Twalk_Paths f)).
Proof. unfold vs_Twalk. cbn. rewrite strings_map. reflexivity. Qed.
Lemma method_Ropen St (ns : NineServer St) s f :
  ns_method ns (str "Ropen") (vs_Topen f) s = nsout vs_Ropen [qidv zeroQID; VU 32 0] (ns_Ropen ns s (Topen_OFID f) (Topen_Omode f)).
Proof. reflexivity. Qed.
Lemma method_Rcreate St (ns : NineServer St) s f :
  ns_method ns (str "Rcreate") (vs_Tcreate f) s = nsout vs_Rcreate [qidv zeroQID; VU 32 0] (ns_Rcreate ns s (Tcreate_OFID f) (Tcreate_Name f) (Tcreate_CreatePerm f) (Tcreate_Omode f)).
Proof. reflexivity. Qed.
Lemma method_Rstat St (ns : NineServer St) s f :
  ns_method ns (str "Rstat") (vs_Tstat f) s = nsout vs_Rstat [VBytes (Buf [] [])] (ns_Rstat ns s (Tstat_OFID f)).
Proof. reflexivity. Qed.
Lemma method_Rwstat St (ns : NineServer St) s f :
  ns_method ns (str "Rwstat") (vs_Twstat f) s = nsout vs_Rwstat [] (ns_Rwstat ns s (Twstat_OFID f) (Twstat_B f)).
Proof. reflexivity. Qed.
Lemma method_Rclunk St (ns : NineServer St) s f :
  ns_method ns (str "Rclunk") (vs_Tclunk f) s = nsout vs_Rclunk [] (ns_Rclunk ns s (Tclunk_OFID f)).
Proof. reflexivity. Qed.
Lemma method_Rremove St (ns : NineServer St) s f :
  ns_method ns (str "Rremove") (vs_Tremove f) s = nsout vs_Rremove [] (ns_Rremove ns s (Tremove_OFID f)).
Proof. reflexivity. Qed.
Lemma method_Rread St (ns : NineServer St) s f :
  ns_method ns (str "Rread") (vs_Tread f) s = nsout vs_Rread [VBytes (Buf [] [])] (ns_Rread ns s (Tread_OFID f) (Tread_Off f) (Tread_Len f)).
Proof. reflexivity. Qed.
Lemma method_Rwrite St (ns : NineServer St) s f :
  ns_method ns (str "Rwrite") (vs_Twrite f) s = nsout vs_Rwrite [VI 32 0] (ns_Rwrite ns s (Twrite_OFID f) (Twrite_Off f) (Twrite_Data f)).
Proof. reflexivity. Qed.

(** * The server stubs *)
Definition body_SrvRversion : func := Eval vm_compute in fn (str "SrvRversion").
Lemma text_SrvRversion {St} (W : outside St) (ns : NineServer St) (HM : method W = ns_method ns) call b s
  (He : forall t e b x, exists sp, call (str "MarshalRerrorPkt") [VBuf; VU 16 t; VStr e] b x = Ret [] (Buf (MarshalRerrorPkt t e) sp) x)
  (Hu : forall b x, call (str "UnmarshalTversionPkt") [VBuf] b x = match UnmarshalTversionPkt b with UPanic => Panic | URet f t b err => Ret (also (vs_Tversion f) [VU 16 t; VErr err]) b x end)
  (Hm : forall t f b x, exists sp, call (str "MarshalRversionPkt") (VBuf :: VU 16 t :: vs_Rversion f) b x = Ret [] (Buf (MarshalRversionPkt t (Rversion_RMsize f) (Rversion_RVersion f)) sp) x) :
  exists sp, call_func W call body_SrvRversion [VBuf] b s = match SrvRversion ns s b with SrvPanic => Panic | SrvReply s out => Ret [VNil] (Buf out sp) s end.
Proof. unfold SrvRversion. srv_text HM He Hu (method_Rversion St) Hm. Qed.
Lemma run_SrvRversion {St} (W : outside St) (ns : NineServer St) (HM : method W = ns_method ns) d b s :
  exists sp, run W genout (S (S d)) (str "SrvRversion") [VBuf] b s = match SrvRversion ns s b with SrvPanic => Panic | SrvReply s out => Ret [VNil] (Buf out sp) s end.
Proof.
  rewrite (run_one W body_SrvRversion) by (vm_compute; reflexivity). apply (text_SrvRversion W ns HM).
  - intros t e. exact (run_MarshalRerrorPkt W d t (mkRerrorPkt e)).
  - apply run_UnmarshalTversionPkt.
  - apply run_MarshalRversionPkt.
Qed.
Definition body_SrvRattach : func := Eval vm_compute in fn (str "SrvRattach").
Lemma text_SrvRattach {St} (W : outside St) (ns : NineServer St) (HM : method W = ns_method ns) call b s
  (He : forall t e b x, exists sp, call (str "MarshalRerrorPkt") [VBuf; VU 16 t; VStr e] b x = Ret [] (Buf (MarshalRerrorPkt t e) sp) x)
  (Hu : forall b x, call (str "UnmarshalTattachPkt") [VBuf] b x = match UnmarshalTattachPkt b with UPanic => Panic | URet f t b err => Ret (also (vs_Tattach f) [VU 16 t; VErr err]) b x end)
  (Hm : forall t f b x, exists sp, call (str "MarshalRattachPkt") (VBuf :: VU 16 t :: vs_Rattach f) b x = Ret [] (Buf (MarshalRattachPkt t (Rattach_QID f)) sp) x) :
  exists sp, call_func W call body_SrvRattach [VBuf] b s = match SrvRattach ns s b with SrvPanic => Panic | SrvReply s out => Ret [VNil] (Buf out sp) s end.
Proof. unfold SrvRattach. srv_text HM He Hu (method_Rattach St) Hm. Qed.
Lemma run_SrvRattach {St} (W : outside St) (ns : NineServer St) (HM : method W = ns_method ns) d b s :
  exists sp, run W genout (S (S d)) (str "SrvRattach") [VBuf] b s = match SrvRattach ns s b with SrvPanic => Panic | SrvReply s out => Ret [VNil] (Buf out sp) s end.
Proof.
  rewrite (run_one W body_SrvRattach) by (vm_compute; reflexivity). apply (text_SrvRattach W ns HM).
  - intros t e. exact (run_MarshalRerrorPkt W d t (mkRerrorPkt e)).
  - apply run_UnmarshalTattachPkt.
  - apply run_MarshalRattachPkt.
Qed.
Definition body_SrvRflush : func := Eval vm_compute in fn (str "SrvRflush").
Lemma text_SrvRflush {St} (W : outside St) (ns : NineServer St) (HM : method W = ns_method ns) call b s
  (He : forall t e b x, exists sp, call (str "MarshalRerrorPkt") [VBuf; VU 16 t; VStr e] b x = Ret [] (Buf (MarshalRerrorPkt t e) sp) x)
  (Hu : forall b x, call (str "UnmarshalTflushPkt") [VBuf] b x = match UnmarshalTflushPkt b with UPanic => Panic | URet f t b err => Ret (also (vs_Tflush f) [VU 16 t; VErr err]) b x end)
  (Hm : forall t f b x, exists sp, call (str "MarshalRflushPkt") (VBuf :: VU 16 t :: vs_Rflush f) b x = Ret [] (Buf (MarshalRflushPkt t ) sp) x) :
  exists sp, call_func W call body_SrvRflush [VBuf] b s = match SrvRflush ns s b with SrvPanic => Panic | SrvReply s out => Ret [VNil] (Buf out sp) s end.
Proof. unfold SrvRflush. srv_text HM He Hu (method_Rflush St) Hm. Qed.
Lemma run_SrvRflush {St} (W : outside St) (ns : NineServer St) (HM : method W = ns_method ns) d b s :
  exists sp, run W genout (S (S d)) (str "SrvRflush") [VBuf] b s = match SrvRflush ns s b with SrvPanic => Panic | SrvReply s out => Ret [VNil] (Buf out sp) s end.
Proof.
  rewrite (run_one W body_SrvRflush) by (vm_compute; reflexivity). apply (text_SrvRflush W ns HM).
  - intros t e. exact (run_MarshalRerrorPkt W d t (mkRerrorPkt e)).
  - apply run_UnmarshalTflushPkt.
  - apply run_MarshalRflushPkt.
Qed.
Definition body_SrvRwalk : func := Eval vm_compute in fn (str "SrvRwalk").
Lemma text_SrvRwalk {St} (W : outside St) (ns : NineServer St) (HM : method W = ns_method ns) call b s
  (He : forall t e b x, exists sp, call (str "MarshalRerrorPkt") [VBuf; VU 16 t; VStr e] b x = Ret [] (Buf (MarshalRerrorPkt t e) sp) x)
  (Hu : forall b x, call (str "UnmarshalTwalkPkt") [VBuf] b x = match UnmarshalTwalkPkt b with UPanic => Panic | URet f t b err => Ret (also (vs_Twalk f) [VU 16 t; VErr err]) b x end)
  (Hm : forall t f b x, exists sp, call (str "MarshalRwalkPkt") (VBuf :: VU 16 t :: vs_Rwalk f) b x = Ret [] (Buf (MarshalRwalkPkt t (Rwalk_QIDs f)) sp) x) :
  exists sp, call_func W call body_SrvRwalk [VBuf] b s = match SrvRwalk ns s b with SrvPanic => Panic | SrvReply s out => Ret [VNil] (Buf out sp) s end.
Proof. unfold SrvRwalk. srv_text HM He Hu (method_Rwalk St) Hm. Qed.
Lemma run_SrvRwalk {St} (W : outside St) (ns : NineServer St) (HM : method W = ns_method ns) d b s :
  exists sp, run W genout (S (S d)) (str "SrvRwalk") [VBuf] b s = match SrvRwalk ns s b with SrvPanic => Panic | SrvReply s out => Ret [VNil] (Buf out sp) s end.
Proof.
  rewrite (run_one W body_SrvRwalk) by (vm_compute; reflexivity). apply (text_SrvRwalk W ns HM).
  - intros t e. exact (run_MarshalRerrorPkt W d t (mkRerrorPkt e)).
  - apply run_UnmarshalTwalkPkt.
  - apply run_MarshalRwalkPkt.
Qed.
Definition body_SrvRopen : func := Eval vm_compute in fn (str "SrvRopen").
Lemma text_SrvRopen {St} (W : outside St) (ns : NineServer St) (HM : method W = ns_method ns) call b s
  (He : forall t e b x, exists sp, call (str "MarshalRerrorPkt") [VBuf; VU 16 t; VStr e] b x = Ret [] (Buf (MarshalRerrorPkt t e) sp) x)
  (Hu : forall b x, call (str "UnmarshalTopenPkt") [VBuf] b x = match UnmarshalTopenPkt b with UPanic => Panic | URet f t b err => Ret (also (vs_Topen f) [VU 16 t; VErr err]) b x end)
  (Hm : forall t f b x, exists sp, call (str "MarshalRopenPkt") (VBuf :: VU 16 t :: vs_Ropen f) b x = Ret [] (Buf (MarshalRopenPkt t (Ropen_OQID f) (Ropen_IOUnit f)) sp) x) :
  exists sp, call_func W call body_SrvRopen [VBuf] b s = match SrvRopen ns s b with SrvPanic => Panic | SrvReply s out => Ret [VNil] (Buf out sp) s end.
Proof. unfold SrvRopen. srv_text HM He Hu (method_Ropen St) Hm. Qed.
Lemma run_SrvRopen {St} (W : outside St) (ns : NineServer St) (HM : method W = ns_method ns) d b s :
  exists sp, run W genout (S (S d)) (str "SrvRopen") [VBuf] b s = match SrvRopen ns s b with SrvPanic => Panic | SrvReply s out => Ret [VNil] (Buf out sp) s end.
Proof.
  rewrite (run_one W body_SrvRopen) by (vm_compute; reflexivity). apply (text_SrvRopen W ns HM).
  - intros t e. exact (run_MarshalRerrorPkt W d t (mkRerrorPkt e)).
  - apply run_UnmarshalTopenPkt.
  - apply run_MarshalRopenPkt.
Qed.
Definition body_SrvRcreate : func := Eval vm_compute in fn (str "SrvRcreate").
Lemma text_SrvRcreate {St} (W : outside St) (ns : NineServer St) (HM : method W = ns_method ns) call b s
  (He : forall t e b x, exists sp, call (str "MarshalRerrorPkt") [VBuf; VU 16 t; VStr e] b x = Ret [] (Buf (MarshalRerrorPkt t e) sp) x)
  (Hu : forall b x, call (str "UnmarshalTcreatePkt") [VBuf] b x = match UnmarshalTcreatePkt b with UPanic => Panic | URet f t b err => Ret (also (vs_Tcreate f) [VU 16 t; VErr err]) b x end)
  (Hm : forall t f b x, exists sp, call (str "MarshalRcreatePkt") (VBuf :: VU 16 t :: vs_Rcreate f) b x = Ret [] (Buf (MarshalRcreatePkt t (Rcreate_OQID f) (Rcreate_IOUnit f)) sp) x) :
  exists sp, call_func W call body_SrvRcreate [VBuf] b s = match SrvRcreate ns s b with SrvPanic => Panic | SrvReply s out => Ret [VNil] (Buf out sp) s end.
Proof. unfold SrvRcreate. srv_text HM He Hu (method_Rcreate St) Hm. Qed.
Lemma run_SrvRcreate {St} (W : outside St) (ns : NineServer St) (HM : method W = ns_method ns) d b s :
  exists sp, run W genout (S (S d)) (str "SrvRcreate") [VBuf] b s = match SrvRcreate ns s b with SrvPanic => Panic | SrvReply s out => Ret [VNil] (Buf out sp) s end.
Proof.
  rewrite (run_one W body_SrvRcreate) by (vm_compute; reflexivity). apply (text_SrvRcreate W ns HM).
  - intros t e. exact (run_MarshalRerrorPkt W d t (mkRerrorPkt e)).
  - apply run_UnmarshalTcreatePkt.
  - apply run_MarshalRcreatePkt.
Qed.
Definition body_SrvRstat : func := Eval vm_compute in fn (str "SrvRstat").
Lemma text_SrvRstat {St} (W : outside St) (ns : NineServer St) (HM : method W = ns_method ns) call b s
  (He : forall t e b x, exists sp, call (str "MarshalRerrorPkt") [VBuf; VU 16 t; VStr e] b x = Ret [] (Buf (MarshalRerrorPkt t e) sp) x)
  (Hu : forall b x, call (str "UnmarshalTstatPkt") [VBuf] b x = match UnmarshalTstatPkt b with UPanic => Panic | URet f t b err => Ret (also (vs_Tstat f) [VU 16 t; VErr err]) b x end)
  (Hm : forall t f b x, exists sp, call (str "MarshalRstatPkt") (VBuf :: VU 16 t :: vs_Rstat f) b x = Ret [] (Buf (MarshalRstatPkt t (Rstat_B f)) sp) x) :
  exists sp, call_func W call body_SrvRstat [VBuf] b s = match SrvRstat ns s b with SrvPanic => Panic | SrvReply s out => Ret [VNil] (Buf out sp) s end.
Proof. unfold SrvRstat. srv_text HM He Hu (method_Rstat St) Hm. Qed.
Lemma run_SrvRstat {St} (W : outside St) (ns : NineServer St) (HM : method W = ns_method ns) d b s :
  exists sp, run W genout (S (S d)) (str "SrvRstat") [VBuf] b s = match SrvRstat ns s b with SrvPanic => Panic | SrvReply s out => Ret [VNil] (Buf out sp) s end.
Proof.
  rewrite (run_one W body_SrvRstat) by (vm_compute; reflexivity). apply (text_SrvRstat W ns HM).
  - intros t e. exact (run_MarshalRerrorPkt W d t (mkRerrorPkt e)).
  - apply run_UnmarshalTstatPkt.
  - apply run_MarshalRstatPkt.
Qed.
Definition body_SrvRwstat : func := Eval vm_compute in fn (str "SrvRwstat").
Lemma text_SrvRwstat {St} (W : outside St) (ns : NineServer St) (HM : method W = ns_method ns) call b s
  (He : forall t e b x, exists sp, call (str "MarshalRerrorPkt") [VBuf; VU 16 t; VStr e] b x = Ret [] (Buf (MarshalRerrorPkt t e) sp) x)
  (Hu : forall b x, call (str "UnmarshalTwstatPkt") [VBuf] b x = match UnmarshalTwstatPkt b with UPanic => Panic | URet f t b err => Ret (also (vs_Twstat f) [VU 16 t; VErr err]) b x end)
  (Hm : forall t f b x, exists sp, call (str "MarshalRwstatPkt") (VBuf :: VU 16 t :: vs_Rwstat f) b x = Ret [] (Buf (MarshalRwstatPkt t ) sp) x) :
  exists sp, call_func W call body_SrvRwstat [VBuf] b s = match SrvRwstat ns s b with SrvPanic => Panic | SrvReply s out => Ret [VNil] (Buf out sp) s end.
Proof. unfold SrvRwstat. srv_text HM He Hu (method_Rwstat St) Hm. Qed.
Lemma run_SrvRwstat {St} (W : outside St) (ns : NineServer St) (HM : method W = ns_method ns) d b s :
  exists sp, run W genout (S (S d)) (str "SrvRwstat") [VBuf] b s = match SrvRwstat ns s b with SrvPanic => Panic | SrvReply s out => Ret [VNil] (Buf out sp) s end.
Proof.
  rewrite (run_one W body_SrvRwstat) by (vm_compute; reflexivity). apply (text_SrvRwstat W ns HM).
  - intros t e. exact (run_MarshalRerrorPkt W d t (mkRerrorPkt e)).
  - apply run_UnmarshalTwstatPkt.
  - apply run_MarshalRwstatPkt.
Qed.
Definition body_SrvRclunk : func := Eval vm_compute in fn (str "SrvRclunk").
Lemma text_SrvRclunk {St} (W : outside St) (ns : NineServer St) (HM : method W = ns_method ns) call b s
  (He : forall t e b x, exists sp, call (str "MarshalRerrorPkt") [VBuf; VU 16 t; VStr e] b x = Ret [] (Buf (MarshalRerrorPkt t e) sp) x)
  (Hu : forall b x, call (str "UnmarshalTclunkPkt") [VBuf] b x = match UnmarshalTclunkPkt b with UPanic => Panic | URet f t b err => Ret (also (vs_Tclunk f) [VU 16 t; VErr err]) b x end)
  (Hm : forall t f b x, exists sp, call (str "MarshalRclunkPkt") (VBuf :: VU 16 t :: vs_Rclunk f) b x = Ret [] (Buf (MarshalRclunkPkt t ) sp) x) :
  exists sp, call_func W call body_SrvRclunk [VBuf] b s = match SrvRclunk ns s b with SrvPanic => Panic | SrvReply s out => Ret [VNil] (Buf out sp) s end.
Proof. unfold SrvRclunk. srv_text HM He Hu (method_Rclunk St) Hm. Qed.
Lemma run_SrvRclunk {St} (W : outside St) (ns : NineServer St) (HM : method W = ns_method ns) d b s :
  exists sp, run W genout (S (S d)) (str "SrvRclunk") [VBuf] b s = match SrvRclunk ns s b with SrvPanic => Panic | SrvReply s out => Ret [VNil] (Buf out sp) s end.
Proof.
  rewrite (run_one W body_SrvRclunk) by (vm_compute; reflexivity). apply (text_SrvRclunk W ns HM).
  - intros t e. exact (run_MarshalRerrorPkt W d t (mkRerrorPkt e)).
  - apply run_UnmarshalTclunkPkt.
  - apply run_MarshalRclunkPkt.
Qed.
Definition body_SrvRremove : func := Eval vm_compute in fn (str "SrvRremove").
Lemma text_SrvRremove {St} (W : outside St) (ns : NineServer St) (HM : method W = ns_method ns) call b s
  (He : forall t e b x, exists sp, call (str "MarshalRerrorPkt") [VBuf; VU 16 t; VStr e] b x = Ret [] (Buf (MarshalRerrorPkt t e) sp) x)
  (Hu : forall b x, call (str "UnmarshalTremovePkt") [VBuf] b x = match UnmarshalTremovePkt b with UPanic => Panic | URet f t b err => Ret (also (vs_Tremove f) [VU 16 t; VErr err]) b x end)
  (Hm : forall t f b x, exists sp, call (str "MarshalRremovePkt") (VBuf :: VU 16 t :: vs_Rremove f) b x = Ret [] (Buf (MarshalRremovePkt t ) sp) x) :
  exists sp, call_func W call body_SrvRremove [VBuf] b s = match SrvRremove ns s b with SrvPanic => Panic | SrvReply s out => Ret [VNil] (Buf out sp) s end.
Proof. unfold SrvRremove. srv_text HM He Hu (method_Rremove St) Hm. Qed.
Lemma run_SrvRremove {St} (W : outside St) (ns : NineServer St) (HM : method W = ns_method ns) d b s :
  exists sp, run W genout (S (S d)) (str "SrvRremove") [VBuf] b s = match SrvRremove ns s b with SrvPanic => Panic | SrvReply s out => Ret [VNil] (Buf out sp) s end.
Proof.
  rewrite (run_one W body_SrvRremove) by (vm_compute; reflexivity). apply (text_SrvRremove W ns HM).
  - intros t e. exact (run_MarshalRerrorPkt W d t (mkRerrorPkt e)).
  - apply run_UnmarshalTremovePkt.
  - apply run_MarshalRremovePkt.
Qed.
Definition body_SrvRread : func := Eval vm_compute in fn (str "SrvRread").
Lemma text_SrvRread {St} (W : outside St) (ns : NineServer St) (HM : method W = ns_method ns) call b s
  (He : forall t e b x, exists sp, call (str "MarshalRerrorPkt") [VBuf; VU 16 t; VStr e] b x = Ret [] (Buf (MarshalRerrorPkt t e) sp) x)
  (Hu : forall b x, call (str "UnmarshalTreadPkt") [VBuf] b x = match UnmarshalTreadPkt b with UPanic => Panic | URet f t b err => Ret (also (vs_Tread f) [VU 16 t; VErr err]) b x end)
  (Hm : forall t f b x, exists sp, call (str "MarshalRreadPkt") (VBuf :: VU 16 t :: vs_Rread f) b x = Ret [] (Buf (MarshalRreadPkt t (Rread_Data f)) sp) x) :
  exists sp, call_func W call body_SrvRread [VBuf] b s = match SrvRread ns s b with SrvPanic => Panic | SrvReply s out => Ret [VNil] (Buf out sp) s end.
Proof. unfold SrvRread. srv_text HM He Hu (method_Rread St) Hm. Qed.
Lemma run_SrvRread {St} (W : outside St) (ns : NineServer St) (HM : method W = ns_method ns) d b s :
  exists sp, run W genout (S (S d)) (str "SrvRread") [VBuf] b s = match SrvRread ns s b with SrvPanic => Panic | SrvReply s out => Ret [VNil] (Buf out sp) s end.
Proof.
  rewrite (run_one W body_SrvRread) by (vm_compute; reflexivity). apply (text_SrvRread W ns HM).
  - intros t e. exact (run_MarshalRerrorPkt W d t (mkRerrorPkt e)).
  - apply run_UnmarshalTreadPkt.
  - apply run_MarshalRreadPkt.
Qed.
Definition body_SrvRwrite : func := Eval vm_compute in fn (str "SrvRwrite").
Lemma text_SrvRwrite {St} (W : outside St) (ns : NineServer St) (HM : method W = ns_method ns) call b s
  (He : forall t e b x, exists sp, call (str "MarshalRerrorPkt") [VBuf; VU 16 t; VStr e] b x = Ret [] (Buf (MarshalRerrorPkt t e) sp) x)
  (Hu : forall b x, call (str "UnmarshalTwritePkt") [VBuf] b x = match UnmarshalTwritePkt b with UPanic => Panic | URet f t b err => Ret (also (vs_Twrite f) [VU 16 t; VErr err]) b x end)
  (Hm : forall t f b x, exists sp, call (str "MarshalRwritePkt") (VBuf :: VU 16 t :: vs_Rwrite f) b x = Ret [] (Buf (MarshalRwritePkt t (Rwrite_RLen f)) sp) x) :
  exists sp, call_func W call body_SrvRwrite [VBuf] b s = match SrvRwrite ns s b with SrvPanic => Panic | SrvReply s out => Ret [VNil] (Buf out sp) s end.
Proof. unfold SrvRwrite. srv_text HM He Hu (method_Rwrite St) Hm. Qed.
Lemma run_SrvRwrite {St} (W : outside St) (ns : NineServer St) (HM : method W = ns_method ns) d b s :
  exists sp, run W genout (S (S d)) (str "SrvRwrite") [VBuf] b s = match SrvRwrite ns s b with SrvPanic => Panic | SrvReply s out => Ret [VNil] (Buf out sp) s end.
Proof.
  rewrite (run_one W body_SrvRwrite) by (vm_compute; reflexivity). apply (text_SrvRwrite W ns HM).
  - intros t e. exact (run_MarshalRerrorPkt W d t (mkRerrorPkt e)).
  - apply run_UnmarshalTwritePkt.
  - apply run_MarshalRwritePkt.
Qed.

(** * The client stubs *)
Definition body_CallTversion : func := Eval vm_compute in fn (str "CallTversion").
Lemma text_CallTversion {X} (W : outside X) call f b x M
  (He : forall b x, call (str "UnmarshalRerrorPkt") [VBuf] b x = match UnmarshalRerrorPkt b with UPanic => Panic | URet f t b err => Ret (also (vs_Rerror f) [VU 16 t; VErr err]) b x end)
  (Hu : forall b x, call (str "UnmarshalRversionPkt") [VBuf] b x = match UnmarshalRversionPkt b with UPanic => Panic | URet f t b err => Ret (also (vs_Rversion f) [VU 16 t; VErr err]) b x end)
  (Hm : forall b x, exists sp, call (str "MarshalTversionPkt") (VBuf :: VU 16 0 :: vs_Tversion f) b x = Ret [] (Buf M sp) x) :
  exists b', call_func W call body_CallTversion (vs_Tversion f) b x =
    let '(bb, x') := recv W (send W M x) in
    match CallTversion_result (unread bb) (spare bb) with CallPanic => Panic | CallRet r err => Ret (also (vs_Rversion r) [VErr err]) b' x' end.
Proof. unfold CallTversion_result. call_text M He Hu Hm. Qed.
Lemma run_CallTversion {X} (W : outside X) d f b x :
  exists b', run W genout (S (S d)) (str "CallTversion") (vs_Tversion f) b x =
    let '(bb, x') := recv W (send W (CallTversion_request (Tversion_TMsize f) (Tversion_TVersion f)) x) in
    match CallTversion_result (unread bb) (spare bb) with CallPanic => Panic | CallRet r err => Ret (also (vs_Rversion r) [VErr err]) b' x' end.
Proof.
  rewrite (run_one W body_CallTversion) by (vm_compute; reflexivity). apply text_CallTversion.
  - apply run_UnmarshalRerrorPkt.
  - apply run_UnmarshalRversionPkt.
  - intros. apply run_MarshalTversionPkt.
Qed.
Definition body_CallTattach : func := Eval vm_compute in fn (str "CallTattach").
Lemma text_CallTattach {X} (W : outside X) call f b x M
  (He : forall b x, call (str "UnmarshalRerrorPkt") [VBuf] b x = match UnmarshalRerrorPkt b with UPanic => Panic | URet f t b err => Ret (also (vs_Rerror f) [VU 16 t; VErr err]) b x end)
  (Hu : forall b x, call (str "UnmarshalRattachPkt") [VBuf] b x = match UnmarshalRattachPkt b with UPanic => Panic | URet f t b err => Ret (also (vs_Rattach f) [VU 16 t; VErr err]) b x end)
  (Hm : forall b x, exists sp, call (str "MarshalTattachPkt") (VBuf :: VU 16 0 :: vs_Tattach f) b x = Ret [] (Buf M sp) x) :
  exists b', call_func W call body_CallTattach (vs_Tattach f) b x =
    let '(bb, x') := recv W (send W M x) in
    match CallTattach_result (unread bb) (spare bb) with CallPanic => Panic | CallRet r err => Ret (also (vs_Rattach r) [VErr err]) b' x' end.
Proof. unfold CallTattach_result. call_text M He Hu Hm. Qed.
Lemma run_CallTattach {X} (W : outside X) d f b x :
  exists b', run W genout (S (S d)) (str "CallTattach") (vs_Tattach f) b x =
    let '(bb, x') := recv W (send W (CallTattach_request (Tattach_SFID f) (Tattach_AFID f) (Tattach_Uname f) (Tattach_Aname f)) x) in
    match CallTattach_result (unread bb) (spare bb) with CallPanic => Panic | CallRet r err => Ret (also (vs_Rattach r) [VErr err]) b' x' end.
Proof.
  rewrite (run_one W body_CallTattach) by (vm_compute; reflexivity). apply text_CallTattach.
  - apply run_UnmarshalRerrorPkt.
  - apply run_UnmarshalRattachPkt.
  - intros. apply run_MarshalTattachPkt.
Qed.
Definition body_CallTflush : func := Eval vm_compute in fn (str "CallTflush").
Lemma text_CallTflush {X} (W : outside X) call f b x M
  (He : forall b x, call (str "UnmarshalRerrorPkt") [VBuf] b x = match UnmarshalRerrorPkt b with UPanic => Panic | URet f t b err => Ret (also (vs_Rerror f) [VU 16 t; VErr err]) b x end)
  (Hu : forall b x, call (str "UnmarshalRflushPkt") [VBuf] b x = match UnmarshalRflushPkt b with UPanic => Panic | URet f t b err => Ret (also (vs_Rflush f) [VU 16 t; VErr err]) b x end)
  (Hm : forall b x, exists sp, call (str "MarshalTflushPkt") (VBuf :: VU 16 0 :: vs_Tflush f) b x = Ret [] (Buf M sp) x) :
  exists b', call_func W call body_CallTflush (vs_Tflush f) b x =
    let '(bb, x') := recv W (send W M x) in
    match CallTflush_result (unread bb) (spare bb) with CallPanic => Panic | CallRet r err => Ret (also (vs_Rflush r) [VErr err]) b' x' end.
Proof. unfold CallTflush_result. call_text M He Hu Hm. Qed.
Lemma run_CallTflush {X} (W : outside X) d f b x :
  exists b', run W genout (S (S d)) (str "CallTflush") (vs_Tflush f) b x =
    let '(bb, x') := recv W (send W (CallTflush_request (Tflush_OTag f)) x) in
    match CallTflush_result (unread bb) (spare bb) with CallPanic => Panic | CallRet r err => Ret (also (vs_Rflush r) [VErr err]) b' x' end.
Proof.
  rewrite (run_one W body_CallTflush) by (vm_compute; reflexivity). apply text_CallTflush.
  - apply run_UnmarshalRerrorPkt.
  - apply run_UnmarshalRflushPkt.
  - intros. apply run_MarshalTflushPkt.
Qed.
Definition body_CallTwalk : func := Eval vm_compute in fn (str "CallTwalk").
Lemma text_CallTwalk {X} (W : outside X) call f b x M
  (He : forall b x, call (str "UnmarshalRerrorPkt") [VBuf] b x = match UnmarshalRerrorPkt b with UPanic => Panic | URet f t b err => Ret (also (vs_Rerror f) [VU 16 t; VErr err]) b x end)
  (Hu : forall b x, call (str "UnmarshalRwalkPkt") [VBuf] b x = match UnmarshalRwalkPkt b with UPanic => Panic | URet f t b err => Ret (also (vs_Rwalk f) [VU 16 t; VErr err]) b x end)
  (Hm : forall b x, exists sp, call (str "MarshalTwalkPkt") (VBuf :: VU 16 0 :: vs_Twalk f) b x = Ret [] (Buf M sp) x) :
  exists b', call_func W call body_CallTwalk (vs_Twalk f) b x =
    let '(bb, x') := recv W (send W M x) in
    match CallTwalk_result (unread bb) (spare bb) with CallPanic => Panic | CallRet r err => Ret (also (vs_Rwalk r) [VErr err]) b' x' end.
Proof. unfold CallTwalk_result. call_text M He Hu Hm. Qed.
Lemma run_CallTwalk {X} (W : outside X) d f b x :
  exists b', run W genout (S (S d)) (str "CallTwalk") (vs_Twalk f) b x =
    let '(bb, x') := recv W (send W (CallTwalk_request (Twalk_SFID f) (Twalk_NewFID f) (Twalk_Paths f)) x) in
    match CallTwalk_result (unread bb) (spare bb) with CallPanic => Panic | CallRet r err => Ret (also (vs_Rwalk r) [VErr err]) b' x' end.
Proof.
  rewrite (run_one W body_CallTwalk) by (vm_compute; reflexivity). apply text_CallTwalk.
  - apply run_UnmarshalRerrorPkt.
  - apply run_UnmarshalRwalkPkt.
  - intros. apply run_MarshalTwalkPkt.
Qed.
Definition body_CallTopen : func := Eval vm_compute in fn (str "CallTopen").
Lemma text_CallTopen {X} (W : outside X) call f b x M
  (He : forall b x, call (str "UnmarshalRerrorPkt") [VBuf] b x = match UnmarshalRerrorPkt b with UPanic => Panic | URet f t b err => Ret (also (vs_Rerror f) [VU 16 t; VErr err]) b x end)
  (Hu : forall b x, call (str "UnmarshalRopenPkt") [VBuf] b x = match UnmarshalRopenPkt b with UPanic => Panic | URet f t b err => Ret (also (vs_Ropen f) [VU 16 t; VErr err]) b x end)
  (Hm : forall b x, exists sp, call (str "MarshalTopenPkt") (VBuf :: VU 16 0 :: vs_Topen f) b x = Ret [] (Buf M sp) x) :
  exists b', call_func W call body_CallTopen (vs_Topen f) b x =
    let '(bb, x') := recv W (send W M x) in
    match CallTopen_result (unread bb) (spare bb) with CallPanic => Panic | CallRet r err => Ret (also (vs_Ropen r) [VErr err]) b' x' end.
Proof. unfold CallTopen_result. call_text M He Hu Hm. Qed.
Lemma run_CallTopen {X} (W : outside X) d f b x :
  exists b', run W genout (S (S d)) (str "CallTopen") (vs_Topen f) b x =
    let '(bb, x') := recv W (send W (CallTopen_request (Topen_OFID f) (Topen_Omode f)) x) in
    match CallTopen_result (unread bb) (spare bb) with CallPanic => Panic | CallRet r err => Ret (also (vs_Ropen r) [VErr err]) b' x' end.
Proof.
  rewrite (run_one W body_CallTopen) by (vm_compute; reflexivity). apply text_CallTopen.
  - apply run_UnmarshalRerrorPkt.
  - apply run_UnmarshalRopenPkt.
  - intros. apply run_MarshalTopenPkt.
Qed.
Definition body_CallTcreate : func := Eval vm_compute in fn (str "CallTcreate").
Lemma text_CallTcreate {X} (W : outside X) call f b x M
  (He : forall b x, call (str "UnmarshalRerrorPkt") [VBuf] b x = match UnmarshalRerrorPkt b with UPanic => Panic | URet f t b err => Ret (also (vs_Rerror f) [VU 16 t; VErr err]) b x end)
  (Hu : forall b x, call (str "UnmarshalRcreatePkt") [VBuf] b x = match UnmarshalRcreatePkt b with UPanic => Panic | URet f t b err => Ret (also (vs_Rcreate f) [VU 16 t; VErr err]) b x end)
  (Hm : forall b x, exists sp, call (str "MarshalTcreatePkt") (VBuf :: VU 16 0 :: vs_Tcreate f) b x = Ret [] (Buf M sp) x) :
  exists b', call_func W call body_CallTcreate (vs_Tcreate f) b x =
    let '(bb, x') := recv W (send W M x) in
    match CallTcreate_result (unread bb) (spare bb) with CallPanic => Panic | CallRet r err => Ret (also (vs_Rcreate r) [VErr err]) b' x' end.
Proof. unfold CallTcreate_result. call_text M He Hu Hm. Qed.
Lemma run_CallTcreate {X} (W : outside X) d f b x :
  exists b', run W genout (S (S d)) (str "CallTcreate") (vs_Tcreate f) b x =
    let '(bb, x') := recv W (send W (CallTcreate_request (Tcreate_OFID f) (Tcreate_Name f) (Tcreate_CreatePerm f) (Tcreate_Omode f)) x) in
    match CallTcreate_result (unread bb) (spare bb) with CallPanic => Panic | CallRet r err => Ret (also (vs_Rcreate r) [VErr err]) b' x' end.
Proof.
  rewrite (run_one W body_CallTcreate) by (vm_compute; reflexivity). apply text_CallTcreate.
  - apply run_UnmarshalRerrorPkt.
  - apply run_UnmarshalRcreatePkt.
  - intros. apply run_MarshalTcreatePkt.
Qed.
Definition body_CallTstat : func := Eval vm_compute in fn (str "CallTstat").
Lemma text_CallTstat {X} (W : outside X) call f b x M
  (He : forall b x, call (str "UnmarshalRerrorPkt") [VBuf] b x = match UnmarshalRerrorPkt b with UPanic => Panic | URet f t b err => Ret (also (vs_Rerror f) [VU 16 t; VErr err]) b x end)
  (Hu : forall b x, call (str "UnmarshalRstatPkt") [VBuf] b x = match UnmarshalRstatPkt b with UPanic => Panic | URet f t b err => Ret (also (vs_Rstat f) [VU 16 t; VErr err]) b x end)
  (Hm : forall b x, exists sp, call (str "MarshalTstatPkt") (VBuf :: VU 16 0 :: vs_Tstat f) b x = Ret [] (Buf M sp) x) :
  exists b', call_func W call body_CallTstat (vs_Tstat f) b x =
    let '(bb, x') := recv W (send W M x) in
    match CallTstat_result (unread bb) (spare bb) with CallPanic => Panic | CallRet r err => Ret (also (vs_Rstat r) [VErr err]) b' x' end.
Proof. unfold CallTstat_result. call_text M He Hu Hm. Qed.
Lemma run_CallTstat {X} (W : outside X) d f b x :
  exists b', run W genout (S (S d)) (str "CallTstat") (vs_Tstat f) b x =
    let '(bb, x') := recv W (send W (CallTstat_request (Tstat_OFID f)) x) in
    match CallTstat_result (unread bb) (spare bb) with CallPanic => Panic | CallRet r err => Ret (also (vs_Rstat r) [VErr err]) b' x' end.
Proof.
  rewrite (run_one W body_CallTstat) by (vm_compute; reflexivity). apply text_CallTstat.
  - apply run_UnmarshalRerrorPkt.
  - apply run_UnmarshalRstatPkt.
  - intros. apply run_MarshalTstatPkt.
Qed.
Definition body_CallTwstat : func := Eval vm_compute in fn (str "CallTwstat").
Lemma text_CallTwstat {X} (W : outside X) call f b x M
  (He : forall b x, call (str "UnmarshalRerrorPkt") [VBuf] b x = match UnmarshalRerrorPkt b with UPanic => Panic | URet f t b err => Ret (also (vs_Rerror f) [VU 16 t; VErr err]) b x end)
  (Hu : forall b x, call (str "UnmarshalRwstatPkt") [VBuf] b x = match UnmarshalRwstatPkt b with UPanic => Panic | URet f t b err => Ret (also (vs_Rwstat f) [VU 16 t; VErr err]) b x end)
  (Hm : forall b x, exists sp, call (str "MarshalTwstatPkt") (VBuf :: VU 16 0 :: vs_Twstat f) b x = Ret [] (Buf M sp) x) :
  exists b', call_func W call body_CallTwstat (vs_Twstat f) b x =
    let '(bb, x') := recv W (send W M x) in
    match CallTwstat_result (unread bb) (spare bb) with CallPanic => Panic | CallRet r err => Ret (also (vs_Rwstat r) [VErr err]) b' x' end.
Proof. unfold CallTwstat_result. call_text M He Hu Hm. Qed.
Lemma run_CallTwstat {X} (W : outside X) d f b x :
  exists b', run W genout (S (S d)) (str "CallTwstat") (vs_Twstat f) b x =
    let '(bb, x') := recv W (send W (CallTwstat_request (Twstat_OFID f) (Twstat_B f)) x) in
    match CallTwstat_result (unread bb) (spare bb) with CallPanic => Panic | CallRet r err => Ret (also (vs_Rwstat r) [VErr err]) b' x' end.
Proof.
  rewrite (run_one W body_CallTwstat) by (vm_compute; reflexivity). apply text_CallTwstat.
  - apply run_UnmarshalRerrorPkt.
  - apply run_UnmarshalRwstatPkt.
  - intros. apply run_MarshalTwstatPkt.
Qed.
Definition body_CallTclunk : func := Eval vm_compute in fn (str "CallTclunk").
Lemma text_CallTclunk {X} (W : outside X) call f b x M
  (He : forall b x, call (str "UnmarshalRerrorPkt") [VBuf] b x = match UnmarshalRerrorPkt b with UPanic => Panic | URet f t b err => Ret (also (vs_Rerror f) [VU 16 t; VErr err]) b x end)
  (Hu : forall b x, call (str "UnmarshalRclunkPkt") [VBuf] b x = match UnmarshalRclunkPkt b with UPanic => Panic | URet f t b err => Ret (also (vs_Rclunk f) [VU 16 t; VErr err]) b x end)
  (Hm : forall b x, exists sp, call (str "MarshalTclunkPkt") (VBuf :: VU 16 0 :: vs_Tclunk f) b x = Ret [] (Buf M sp) x) :
  exists b', call_func W call body_CallTclunk (vs_Tclunk f) b x =
    let '(bb, x') := recv W (send W M x) in
    match CallTclunk_result (unread bb) (spare bb) with CallPanic => Panic | CallRet r err => Ret (also (vs_Rclunk r) [VErr err]) b' x' end.
Proof. unfold CallTclunk_result. call_text M He Hu Hm. Qed.
Lemma run_CallTclunk {X} (W : outside X) d f b x :
  exists b', run W genout (S (S d)) (str "CallTclunk") (vs_Tclunk f) b x =
    let '(bb, x') := recv W (send W (CallTclunk_request (Tclunk_OFID f)) x) in
    match CallTclunk_result (unread bb) (spare bb) with CallPanic => Panic | CallRet r err => Ret (also (vs_Rclunk r) [VErr err]) b' x' end.
Proof.
  rewrite (run_one W body_CallTclunk) by (vm_compute; reflexivity). apply text_CallTclunk.
  - apply run_UnmarshalRerrorPkt.
  - apply run_UnmarshalRclunkPkt.
  - intros. apply run_MarshalTclunkPkt.
Qed.
Definition body_CallTremove : func := Eval vm_compute in fn (str "CallTremove").
Lemma text_CallTremove {X} (W : outside X) call f b x M
  (He : forall b x, call (str "UnmarshalRerrorPkt") [VBuf] b x = match UnmarshalRerrorPkt b with UPanic => Panic | URet f t b err => Ret (also (vs_Rerror f) [VU 16 t; VErr err]) b x end)
  (Hu : forall b x, call (str "UnmarshalRremovePkt") [VBuf] b x = match UnmarshalRremovePkt b with UPanic => Panic | URet f t b err => Ret (also (vs_Rremove f) [VU 16 t; VErr err]) b x end)
  (Hm : forall b x, exists sp, call (str "MarshalTremovePkt") (VBuf :: VU 16 0 :: vs_Tremove f) b x = Ret [] (Buf M sp) x) :
  exists b', call_func W call body_CallTremove (vs_Tremove f) b x =
    let '(bb, x') := recv W (send W M x) in
    match CallTremove_result (unread bb) (spare bb) with CallPanic => Panic | CallRet r err => Ret (also (vs_Rremove r) [VErr err]) b' x' end.
Proof. unfold CallTremove_result. call_text M He Hu Hm. Qed.
Lemma run_CallTremove {X} (W : outside X) d f b x :
  exists b', run W genout (S (S d)) (str "CallTremove") (vs_Tremove f) b x =
    let '(bb, x') := recv W (send W (CallTremove_request (Tremove_OFID f)) x) in
    match CallTremove_result (unread bb) (spare bb) with CallPanic => Panic | CallRet r err => Ret (also (vs_Rremove r) [VErr err]) b' x' end.
Proof.
  rewrite (run_one W body_CallTremove) by (vm_compute; reflexivity). apply text_CallTremove.
  - apply run_UnmarshalRerrorPkt.
  - apply run_UnmarshalRremovePkt.
  - intros. apply run_MarshalTremovePkt.
Qed.
Definition body_CallTread : func := Eval vm_compute in fn (str "CallTread").
Lemma text_CallTread {X} (W : outside X) call f b x M
  (He : forall b x, call (str "UnmarshalRerrorPkt") [VBuf] b x = match UnmarshalRerrorPkt b with UPanic => Panic | URet f t b err => Ret (also (vs_Rerror f) [VU 16 t; VErr err]) b x end)
  (Hu : forall b x, call (str "UnmarshalRreadPkt") [VBuf] b x = match UnmarshalRreadPkt b with UPanic => Panic | URet f t b err => Ret (also (vs_Rread f) [VU 16 t; VErr err]) b x end)
  (Hm : forall b x, exists sp, call (str "MarshalTreadPkt") (VBuf :: VU 16 0 :: vs_Tread f) b x = Ret [] (Buf M sp) x) :
  exists b', call_func W call body_CallTread (vs_Tread f) b x =
    let '(bb, x') := recv W (send W M x) in
    match CallTread_result (unread bb) (spare bb) with CallPanic => Panic | CallRet r err => Ret (also (vs_Rread r) [VErr err]) b' x' end.
Proof. unfold CallTread_result. call_text M He Hu Hm. Qed.
Lemma run_CallTread {X} (W : outside X) d f b x :
  exists b', run W genout (S (S d)) (str "CallTread") (vs_Tread f) b x =
    let '(bb, x') := recv W (send W (CallTread_request (Tread_OFID f) (Tread_Off f) (Tread_Len f)) x) in
    match CallTread_result (unread bb) (spare bb) with CallPanic => Panic | CallRet r err => Ret (also (vs_Rread r) [VErr err]) b' x' end.
Proof.
  rewrite (run_one W body_CallTread) by (vm_compute; reflexivity). apply text_CallTread.
  - apply run_UnmarshalRerrorPkt.
  - apply run_UnmarshalRreadPkt.
  - intros. apply run_MarshalTreadPkt.
Qed.
Definition body_CallTwrite : func := Eval vm_compute in fn (str "CallTwrite").
Lemma text_CallTwrite {X} (W : outside X) call f b x M
  (He : forall b x, call (str "UnmarshalRerrorPkt") [VBuf] b x = match UnmarshalRerrorPkt b with UPanic => Panic | URet f t b err => Ret (also (vs_Rerror f) [VU 16 t; VErr err]) b x end)
  (Hu : forall b x, call (str "UnmarshalRwritePkt") [VBuf] b x = match UnmarshalRwritePkt b with UPanic => Panic | URet f t b err => Ret (also (vs_Rwrite f) [VU 16 t; VErr err]) b x end)
  (Hm : forall b x, exists sp, call (str "MarshalTwritePkt") (VBuf :: VU 16 0 :: vs_Twrite f) b x = Ret [] (Buf M sp) x) :
  exists b', call_func W call body_CallTwrite (vs_Twrite f) b x =
    let '(bb, x') := recv W (send W M x) in
    match CallTwrite_result (unread bb) (spare bb) with CallPanic => Panic | CallRet r err => Ret (also (vs_Rwrite r) [VErr err]) b' x' end.
Proof. unfold CallTwrite_result. call_text M He Hu Hm. Qed.
Lemma run_CallTwrite {X} (W : outside X) d f b x :
  exists b', run W genout (S (S d)) (str "CallTwrite") (vs_Twrite f) b x =
    let '(bb, x') := recv W (send W (CallTwrite_request (Twrite_OFID f) (Twrite_Off f) (Twrite_Data f)) x) in
    match CallTwrite_result (unread bb) (spare bb) with CallPanic => Panic | CallRet r err => Ret (also (vs_Rwrite r) [VErr err]) b' x' end.
Proof.
  rewrite (run_one W body_CallTwrite) by (vm_compute; reflexivity). apply text_CallTwrite.
  - apply run_UnmarshalRerrorPkt.
  - apply run_UnmarshalRwritePkt.
  - intros. apply run_MarshalTwritePkt.
Qed.
