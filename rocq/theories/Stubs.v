(** GENERATED by tools/transcribe.py from /repo/protocol/genout.go: the server stubs Srv*
    and the client stubs CallT*. Do not edit. *)
From Verif Require Import Base GoBuf CodecPrim Types Codec StubPrim.

(** genout.go:161-171; the decoding error is computed and then ignored (the commented-out test). *)
Definition SrvRversion {St} (ns : NineServer St) (s : St) (b : buf) : srvres St :=
  match UnmarshalTversionPkt b with
  | UPanic => SrvPanic
  | URet f t _ _ =>
      let TMsize := Tversion_TMsize f in
      let TVersion := Tversion_TVersion f in
      match ns_Rversion ns s TMsize TVersion with
      | NSPanic => SrvPanic
      | NSErr s err => SrvReply s (MarshalRerrorPkt t err)
      | NSOk s r =>
          let RMsize := Rversion_RMsize r in
          let RVersion := Rversion_RVersion r in
          SrvReply s (MarshalRversionPkt t RMsize RVersion)
      end
  end.

(** genout.go:173-192, first half: the request bytes put on FromClient (tag still 0). *)
Definition CallTversion_request (TMsize : N) (TVersion : bytes) : bytes :=
  MarshalTversionPkt 0 TMsize TVersion.
(** genout.go:173-192, second half: what the call returns for the reply bytes bb, with sp the
    spare capacity behind bb. *)
Definition CallTversion_result (bb sp : bytes) : callres RversionPkt :=
  let zero := mkRversionPkt 0 [] in
  match nth_error bb 4 with
  | None => CallPanic
  | Some ty =>
    let b := Buf (skipn 5 bb) sp in
    if b2n ty =? Rerror_t then
      match UnmarshalRerrorPkt b with
      | UPanic => CallPanic
      | URet s _ _ (Some err) => CallRet zero (Some err)
      | URet s _ _ None => CallRet zero (Some (Rerror_Error s))
      end
    else
      match UnmarshalRversionPkt b with
      | UPanic => CallPanic
      | URet r _ _ err => CallRet r err
      end
  end.

(** genout.go:342-352; the decoding error is computed and then ignored (the commented-out test). *)
Definition SrvRattach {St} (ns : NineServer St) (s : St) (b : buf) : srvres St :=
  match UnmarshalTattachPkt b with
  | UPanic => SrvPanic
  | URet f t _ _ =>
      let SFID := Tattach_SFID f in
      let AFID := Tattach_AFID f in
      let Uname := Tattach_Uname f in
      let Aname := Tattach_Aname f in
      match ns_Rattach ns s SFID AFID Uname Aname with
      | NSPanic => SrvPanic
      | NSErr s err => SrvReply s (MarshalRerrorPkt t err)
      | NSOk s r =>
          let QID := Rattach_QID r in
          SrvReply s (MarshalRattachPkt t QID)
      end
  end.

(** genout.go:354-373, first half: the request bytes put on FromClient (tag still 0). *)
Definition CallTattach_request (SFID : N) (AFID : N) (Uname : bytes) (Aname : bytes) : bytes :=
  MarshalTattachPkt 0 SFID AFID Uname Aname.
(** genout.go:354-373, second half: what the call returns for the reply bytes bb, with sp the
    spare capacity behind bb. *)
Definition CallTattach_result (bb sp : bytes) : callres RattachPkt :=
  let zero := mkRattachPkt zeroQID in
  match nth_error bb 4 with
  | None => CallPanic
  | Some ty =>
    let b := Buf (skipn 5 bb) sp in
    if b2n ty =? Rerror_t then
      match UnmarshalRerrorPkt b with
      | UPanic => CallPanic
      | URet s _ _ (Some err) => CallRet zero (Some err)
      | URet s _ _ None => CallRet zero (Some (Rerror_Error s))
      end
    else
      match UnmarshalRattachPkt b with
      | UPanic => CallPanic
      | URet r _ _ err => CallRet r err
      end
  end.

(** genout.go:440-450; the decoding error is computed and then ignored (the commented-out test). *)
Definition SrvRflush {St} (ns : NineServer St) (s : St) (b : buf) : srvres St :=
  match UnmarshalTflushPkt b with
  | UPanic => SrvPanic
  | URet f t _ _ =>
      let OTag := Tflush_OTag f in
      match ns_Rflush ns s OTag with
      | NSPanic => SrvPanic
      | NSErr s err => SrvReply s (MarshalRerrorPkt t err)
      | NSOk s r =>
          SrvReply s (MarshalRflushPkt t )
      end
  end.

(** genout.go:452-471, first half: the request bytes put on FromClient (tag still 0). *)
Definition CallTflush_request (OTag : N) : bytes :=
  MarshalTflushPkt 0 OTag.
(** genout.go:452-471, second half: what the call returns for the reply bytes bb, with sp the
    spare capacity behind bb. *)
Definition CallTflush_result (bb sp : bytes) : callres RflushPkt :=
  let zero := mkRflushPkt  in
  match nth_error bb 4 with
  | None => CallPanic
  | Some ty =>
    let b := Buf (skipn 5 bb) sp in
    if b2n ty =? Rerror_t then
      match UnmarshalRerrorPkt b with
      | UPanic => CallPanic
      | URet s _ _ (Some err) => CallRet zero (Some err)
      | URet s _ _ None => CallRet zero (Some (Rerror_Error s))
      end
    else
      match UnmarshalRflushPkt b with
      | UPanic => CallPanic
      | URet r _ _ err => CallRet r err
      end
  end.

(** genout.go:634-644; the decoding error is computed and then ignored (the commented-out test). *)
Definition SrvRwalk {St} (ns : NineServer St) (s : St) (b : buf) : srvres St :=
  match UnmarshalTwalkPkt b with
  | UPanic => SrvPanic
  | URet f t _ _ =>
      let SFID := Twalk_SFID f in
      let NewFID := Twalk_NewFID f in
      let Paths := Twalk_Paths f in
      match ns_Rwalk ns s SFID NewFID Paths with
      | NSPanic => SrvPanic
      | NSErr s err => SrvReply s (MarshalRerrorPkt t err)
      | NSOk s r =>
          let QIDs := Rwalk_QIDs r in
          SrvReply s (MarshalRwalkPkt t QIDs)
      end
  end.

(** genout.go:646-665, first half: the request bytes put on FromClient (tag still 0). *)
Definition CallTwalk_request (SFID : N) (NewFID : N) (Paths : (list bytes)) : bytes :=
  MarshalTwalkPkt 0 SFID NewFID Paths.
(** genout.go:646-665, second half: what the call returns for the reply bytes bb, with sp the
    spare capacity behind bb. *)
Definition CallTwalk_result (bb sp : bytes) : callres RwalkPkt :=
  let zero := mkRwalkPkt [] in
  match nth_error bb 4 with
  | None => CallPanic
  | Some ty =>
    let b := Buf (skipn 5 bb) sp in
    if b2n ty =? Rerror_t then
      match UnmarshalRerrorPkt b with
      | UPanic => CallPanic
      | URet s _ _ (Some err) => CallRet zero (Some err)
      | URet s _ _ None => CallRet zero (Some (Rerror_Error s))
      end
    else
      match UnmarshalRwalkPkt b with
      | UPanic => CallPanic
      | URet r _ _ err => CallRet r err
      end
  end.

(** genout.go:792-802; the decoding error is computed and then ignored (the commented-out test). *)
Definition SrvRopen {St} (ns : NineServer St) (s : St) (b : buf) : srvres St :=
  match UnmarshalTopenPkt b with
  | UPanic => SrvPanic
  | URet f t _ _ =>
      let OFID := Topen_OFID f in
      let Omode := Topen_Omode f in
      match ns_Ropen ns s OFID Omode with
      | NSPanic => SrvPanic
      | NSErr s err => SrvReply s (MarshalRerrorPkt t err)
      | NSOk s r =>
          let OQID := Ropen_OQID r in
          let IOUnit := Ropen_IOUnit r in
          SrvReply s (MarshalRopenPkt t OQID IOUnit)
      end
  end.

(** genout.go:804-823, first half: the request bytes put on FromClient (tag still 0). *)
Definition CallTopen_request (OFID : N) (Omode : N) : bytes :=
  MarshalTopenPkt 0 OFID Omode.
(** genout.go:804-823, second half: what the call returns for the reply bytes bb, with sp the
    spare capacity behind bb. *)
Definition CallTopen_result (bb sp : bytes) : callres RopenPkt :=
  let zero := mkRopenPkt zeroQID 0 in
  match nth_error bb 4 with
  | None => CallPanic
  | Some ty =>
    let b := Buf (skipn 5 bb) sp in
    if b2n ty =? Rerror_t then
      match UnmarshalRerrorPkt b with
      | UPanic => CallPanic
      | URet s _ _ (Some err) => CallRet zero (Some err)
      | URet s _ _ None => CallRet zero (Some (Rerror_Error s))
      end
    else
      match UnmarshalRopenPkt b with
      | UPanic => CallPanic
      | URet r _ _ err => CallRet r err
      end
  end.

(** genout.go:977-987; the decoding error is computed and then ignored (the commented-out test). *)
Definition SrvRcreate {St} (ns : NineServer St) (s : St) (b : buf) : srvres St :=
  match UnmarshalTcreatePkt b with
  | UPanic => SrvPanic
  | URet f t _ _ =>
      let OFID := Tcreate_OFID f in
      let Name := Tcreate_Name f in
      let CreatePerm := Tcreate_CreatePerm f in
      let Omode := Tcreate_Omode f in
      match ns_Rcreate ns s OFID Name CreatePerm Omode with
      | NSPanic => SrvPanic
      | NSErr s err => SrvReply s (MarshalRerrorPkt t err)
      | NSOk s r =>
          let OQID := Rcreate_OQID r in
          let IOUnit := Rcreate_IOUnit r in
          SrvReply s (MarshalRcreatePkt t OQID IOUnit)
      end
  end.

(** genout.go:989-1008, first half: the request bytes put on FromClient (tag still 0). *)
Definition CallTcreate_request (OFID : N) (Name : bytes) (CreatePerm : N) (Omode : N) : bytes :=
  MarshalTcreatePkt 0 OFID Name CreatePerm Omode.
(** genout.go:989-1008, second half: what the call returns for the reply bytes bb, with sp the
    spare capacity behind bb. *)
Definition CallTcreate_result (bb sp : bytes) : callres RcreatePkt :=
  let zero := mkRcreatePkt zeroQID 0 in
  match nth_error bb 4 with
  | None => CallPanic
  | Some ty =>
    let b := Buf (skipn 5 bb) sp in
    if b2n ty =? Rerror_t then
      match UnmarshalRerrorPkt b with
      | UPanic => CallPanic
      | URet s _ _ (Some err) => CallRet zero (Some err)
      | URet s _ _ None => CallRet zero (Some (Rerror_Error s))
      end
    else
      match UnmarshalRcreatePkt b with
      | UPanic => CallPanic
      | URet r _ _ err => CallRet r err
      end
  end.

(** genout.go:1090-1100; the decoding error is computed and then ignored (the commented-out test). *)
Definition SrvRstat {St} (ns : NineServer St) (s : St) (b : buf) : srvres St :=
  match UnmarshalTstatPkt b with
  | UPanic => SrvPanic
  | URet f t _ _ =>
      let OFID := Tstat_OFID f in
      match ns_Rstat ns s OFID with
      | NSPanic => SrvPanic
      | NSErr s err => SrvReply s (MarshalRerrorPkt t err)
      | NSOk s r =>
          let B := Rstat_B r in
          SrvReply s (MarshalRstatPkt t B)
      end
  end.

(** genout.go:1102-1121, first half: the request bytes put on FromClient (tag still 0). *)
Definition CallTstat_request (OFID : N) : bytes :=
  MarshalTstatPkt 0 OFID.
(** genout.go:1102-1121, second half: what the call returns for the reply bytes bb, with sp the
    spare capacity behind bb. *)
Definition CallTstat_result (bb sp : bytes) : callres RstatPkt :=
  let zero := mkRstatPkt [] in
  match nth_error bb 4 with
  | None => CallPanic
  | Some ty =>
    let b := Buf (skipn 5 bb) sp in
    if b2n ty =? Rerror_t then
      match UnmarshalRerrorPkt b with
      | UPanic => CallPanic
      | URet s _ _ (Some err) => CallRet zero (Some err)
      | URet s _ _ None => CallRet zero (Some (Rerror_Error s))
      end
    else
      match UnmarshalRstatPkt b with
      | UPanic => CallPanic
      | URet r _ _ err => CallRet r err
      end
  end.

(** genout.go:1203-1213; the decoding error is computed and then ignored (the commented-out test). *)
Definition SrvRwstat {St} (ns : NineServer St) (s : St) (b : buf) : srvres St :=
  match UnmarshalTwstatPkt b with
  | UPanic => SrvPanic
  | URet f t _ _ =>
      let OFID := Twstat_OFID f in
      let B := Twstat_B f in
      match ns_Rwstat ns s OFID B with
      | NSPanic => SrvPanic
      | NSErr s err => SrvReply s (MarshalRerrorPkt t err)
      | NSOk s r =>
          SrvReply s (MarshalRwstatPkt t )
      end
  end.

(** genout.go:1215-1234, first half: the request bytes put on FromClient (tag still 0). *)
Definition CallTwstat_request (OFID : N) (B : bytes) : bytes :=
  MarshalTwstatPkt 0 OFID B.
(** genout.go:1215-1234, second half: what the call returns for the reply bytes bb, with sp the
    spare capacity behind bb. *)
Definition CallTwstat_result (bb sp : bytes) : callres RwstatPkt :=
  let zero := mkRwstatPkt  in
  match nth_error bb 4 with
  | None => CallPanic
  | Some ty =>
    let b := Buf (skipn 5 bb) sp in
    if b2n ty =? Rerror_t then
      match UnmarshalRerrorPkt b with
      | UPanic => CallPanic
      | URet s _ _ (Some err) => CallRet zero (Some err)
      | URet s _ _ None => CallRet zero (Some (Rerror_Error s))
      end
    else
      match UnmarshalRwstatPkt b with
      | UPanic => CallPanic
      | URet r _ _ err => CallRet r err
      end
  end.

(** genout.go:1305-1315; the decoding error is computed and then ignored (the commented-out test). *)
Definition SrvRclunk {St} (ns : NineServer St) (s : St) (b : buf) : srvres St :=
  match UnmarshalTclunkPkt b with
  | UPanic => SrvPanic
  | URet f t _ _ =>
      let OFID := Tclunk_OFID f in
      match ns_Rclunk ns s OFID with
      | NSPanic => SrvPanic
      | NSErr s err => SrvReply s (MarshalRerrorPkt t err)
      | NSOk s r =>
          SrvReply s (MarshalRclunkPkt t )
      end
  end.

(** genout.go:1317-1336, first half: the request bytes put on FromClient (tag still 0). *)
Definition CallTclunk_request (OFID : N) : bytes :=
  MarshalTclunkPkt 0 OFID.
(** genout.go:1317-1336, second half: what the call returns for the reply bytes bb, with sp the
    spare capacity behind bb. *)
Definition CallTclunk_result (bb sp : bytes) : callres RclunkPkt :=
  let zero := mkRclunkPkt  in
  match nth_error bb 4 with
  | None => CallPanic
  | Some ty =>
    let b := Buf (skipn 5 bb) sp in
    if b2n ty =? Rerror_t then
      match UnmarshalRerrorPkt b with
      | UPanic => CallPanic
      | URet s _ _ (Some err) => CallRet zero (Some err)
      | URet s _ _ None => CallRet zero (Some (Rerror_Error s))
      end
    else
      match UnmarshalRclunkPkt b with
      | UPanic => CallPanic
      | URet r _ _ err => CallRet r err
      end
  end.

(** genout.go:1407-1417; the decoding error is computed and then ignored (the commented-out test). *)
Definition SrvRremove {St} (ns : NineServer St) (s : St) (b : buf) : srvres St :=
  match UnmarshalTremovePkt b with
  | UPanic => SrvPanic
  | URet f t _ _ =>
      let OFID := Tremove_OFID f in
      match ns_Rremove ns s OFID with
      | NSPanic => SrvPanic
      | NSErr s err => SrvReply s (MarshalRerrorPkt t err)
      | NSOk s r =>
          SrvReply s (MarshalRremovePkt t )
      end
  end.

(** genout.go:1419-1438, first half: the request bytes put on FromClient (tag still 0). *)
Definition CallTremove_request (OFID : N) : bytes :=
  MarshalTremovePkt 0 OFID.
(** genout.go:1419-1438, second half: what the call returns for the reply bytes bb, with sp the
    spare capacity behind bb. *)
Definition CallTremove_result (bb sp : bytes) : callres RremovePkt :=
  let zero := mkRremovePkt  in
  match nth_error bb 4 with
  | None => CallPanic
  | Some ty =>
    let b := Buf (skipn 5 bb) sp in
    if b2n ty =? Rerror_t then
      match UnmarshalRerrorPkt b with
      | UPanic => CallPanic
      | URet s _ _ (Some err) => CallRet zero (Some err)
      | URet s _ _ None => CallRet zero (Some (Rerror_Error s))
      end
    else
      match UnmarshalRremovePkt b with
      | UPanic => CallPanic
      | URet r _ _ err => CallRet r err
      end
  end.

(** genout.go:1556-1566; the decoding error is computed and then ignored (the commented-out test). *)
Definition SrvRread {St} (ns : NineServer St) (s : St) (b : buf) : srvres St :=
  match UnmarshalTreadPkt b with
  | UPanic => SrvPanic
  | URet f t _ _ =>
      let OFID := Tread_OFID f in
      let Off := Tread_Off f in
      let Len := Tread_Len f in
      match ns_Rread ns s OFID Off Len with
      | NSPanic => SrvPanic
      | NSErr s err => SrvReply s (MarshalRerrorPkt t err)
      | NSOk s r =>
          let Data := Rread_Data r in
          SrvReply s (MarshalRreadPkt t Data)
      end
  end.

(** genout.go:1568-1587, first half: the request bytes put on FromClient (tag still 0). *)
Definition CallTread_request (OFID : N) (Off : N) (Len : Z) : bytes :=
  MarshalTreadPkt 0 OFID Off Len.
(** genout.go:1568-1587, second half: what the call returns for the reply bytes bb, with sp the
    spare capacity behind bb. *)
Definition CallTread_result (bb sp : bytes) : callres RreadPkt :=
  let zero := mkRreadPkt [] in
  match nth_error bb 4 with
  | None => CallPanic
  | Some ty =>
    let b := Buf (skipn 5 bb) sp in
    if b2n ty =? Rerror_t then
      match UnmarshalRerrorPkt b with
      | UPanic => CallPanic
      | URet s _ _ (Some err) => CallRet zero (Some err)
      | URet s _ _ None => CallRet zero (Some (Rerror_Error s))
      end
    else
      match UnmarshalRreadPkt b with
      | UPanic => CallPanic
      | URet r _ _ err => CallRet r err
      end
  end.

(** genout.go:1705-1715; the decoding error is computed and then ignored (the commented-out test). *)
Definition SrvRwrite {St} (ns : NineServer St) (s : St) (b : buf) : srvres St :=
  match UnmarshalTwritePkt b with
  | UPanic => SrvPanic
  | URet f t _ _ =>
      let OFID := Twrite_OFID f in
      let Off := Twrite_Off f in
      let Data := Twrite_Data f in
      match ns_Rwrite ns s OFID Off Data with
      | NSPanic => SrvPanic
      | NSErr s err => SrvReply s (MarshalRerrorPkt t err)
      | NSOk s r =>
          let RLen := Rwrite_RLen r in
          SrvReply s (MarshalRwritePkt t RLen)
      end
  end.

(** genout.go:1717-1736, first half: the request bytes put on FromClient (tag still 0). *)
Definition CallTwrite_request (OFID : N) (Off : N) (Data : bytes) : bytes :=
  MarshalTwritePkt 0 OFID Off Data.
(** genout.go:1717-1736, second half: what the call returns for the reply bytes bb, with sp the
    spare capacity behind bb. *)
Definition CallTwrite_result (bb sp : bytes) : callres RwritePkt :=
  let zero := mkRwritePkt 0%Z in
  match nth_error bb 4 with
  | None => CallPanic
  | Some ty =>
    let b := Buf (skipn 5 bb) sp in
    if b2n ty =? Rerror_t then
      match UnmarshalRerrorPkt b with
      | UPanic => CallPanic
      | URet s _ _ (Some err) => CallRet zero (Some err)
      | URet s _ _ None => CallRet zero (Some (Rerror_Error s))
      end
    else
      match UnmarshalRwritePkt b with
      | UPanic => CallPanic
      | URet r _ _ err => CallRet r err
      end
  end.

