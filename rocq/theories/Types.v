(** GENERATED by tools/transcribe.py from /repo/protocol/protocol.go. Do not edit. *)
From Verif Require Import Base.

(** protocol.go:11-39 message type codes. *)
Definition Tversion_t : N := 100.
Definition Rversion_t : N := 101.
Definition Tauth_t : N := 102.
Definition Rauth_t : N := 103.
Definition Tattach_t : N := 104.
Definition Rattach_t : N := 105.
Definition Terror_t : N := 106.
Definition Rerror_t : N := 107.
Definition Tflush_t : N := 108.
Definition Rflush_t : N := 109.
Definition Twalk_t : N := 110.
Definition Rwalk_t : N := 111.
Definition Topen_t : N := 112.
Definition Ropen_t : N := 113.
Definition Tcreate_t : N := 114.
Definition Rcreate_t : N := 115.
Definition Tread_t : N := 116.
Definition Rread_t : N := 117.
Definition Twrite_t : N := 118.
Definition Rwrite_t : N := 119.
Definition Tclunk_t : N := 120.
Definition Rclunk_t : N := 121.
Definition Tremove_t : N := 122.
Definition Rremove_t : N := 123.
Definition Tstat_t : N := 124.
Definition Rstat_t : N := 125.
Definition Twstat_t : N := 126.
Definition Rwstat_t : N := 127.
Definition Tlast_t : N := 128.

(** protocol.go:44 *)
Definition IOHDRSZ : N := 24.
(** protocol.go:46 *)
Definition NumFID : N := 65536.
(** protocol.go:47 *)
Definition QIDLen : N := 13.
(** protocol.go:90 *)
Definition NOTAG : N := 65535.
(** protocol.go:91 *)
Definition NOFID : N := 4294967295.
(** protocol.go:95 *)
Definition NumTags : N := 65534.
(** protocol.go:43 *)
Definition MSIZE : N := 2097176.
(** protocol.go:52 *)
Definition QTDIR : N := 128.
(** protocol.go:53 *)
Definition QTAPPEND : N := 64.
(** protocol.go:54 *)
Definition QTEXCL : N := 32.
(** protocol.go:55 *)
Definition QTMOUNT : N := 16.
(** protocol.go:56 *)
Definition QTAUTH : N := 8.
(** protocol.go:57 *)
Definition QTTMP : N := 4.
(** protocol.go:58 *)
Definition QTSYMLINK : N := 2.
(** protocol.go:59 *)
Definition QTLINK : N := 1.
(** protocol.go:60 *)
Definition QTFILE : N := 0.
(** protocol.go:65 *)
Definition OREAD : N := 0.
(** protocol.go:66 *)
Definition OWRITE : N := 1.
(** protocol.go:67 *)
Definition ORDWR : N := 2.
(** protocol.go:68 *)
Definition OEXEC : N := 3.
(** protocol.go:69 *)
Definition OTRUNC : N := 16.
(** protocol.go:70 *)
Definition OCEXEC : N := 32.
(** protocol.go:71 *)
Definition ORCLOSE : N := 64.
(** protocol.go:72 *)
Definition OAPPEND : N := 128.
(** protocol.go:73 *)
Definition OEXCL : N := 4096.
(** protocol.go:78 *)
Definition DMDIR : N := 2147483648.
(** protocol.go:79 *)
Definition DMAPPEND : N := 1073741824.
(** protocol.go:80 *)
Definition DMEXCL : N := 536870912.
(** protocol.go:81 *)
Definition DMMOUNT : N := 268435456.
(** protocol.go:82 *)
Definition DMAUTH : N := 134217728.
(** protocol.go:83 *)
Definition DMTMP : N := 67108864.
(** protocol.go:84 *)
Definition DMREAD : N := 4.
(** protocol.go:85 *)
Definition DMWRITE : N := 2.
(** protocol.go:86 *)
Definition DMEXEC : N := 1.

(** protocol.go:134-138 *)
Record QID := mkQID { QID_Type : N; QID_Version : N; QID_Path : N }.
Definition zeroQID : QID := mkQID 0 0 0.
(** protocol.go:141-153 *)
Record Dir := mkDir { Dir_Type : N; Dir_Dev : N; Dir_QID : QID; Dir_Mode : N; Dir_Atime : N; Dir_Mtime : N; Dir_Length : N; Dir_Name : bytes; Dir_User : bytes; Dir_Group : bytes; Dir_ModUser : bytes }.
Definition zeroDir : Dir := mkDir 0 0 zeroQID 0 0 0 0 [] [] [] [].
(** protocol.go:165-168 *)
Record TversionPkt := mkTversionPkt { Tversion_TMsize : N; Tversion_TVersion : bytes }.
(** protocol.go:170-173 *)
Record RversionPkt := mkRversionPkt { Rversion_RMsize : N; Rversion_RVersion : bytes }.
(** protocol.go:175-180 *)
Record TattachPkt := mkTattachPkt { Tattach_SFID : N; Tattach_AFID : N; Tattach_Uname : bytes; Tattach_Aname : bytes }.
(** protocol.go:182-184 *)
Record RattachPkt := mkRattachPkt { Rattach_QID : QID }.
(** protocol.go:186-188 *)
Record TflushPkt := mkTflushPkt { Tflush_OTag : N }.
(** protocol.go:190-191 *)
Record RflushPkt := mkRflushPkt {  }.
(** protocol.go:193-197 *)
Record TwalkPkt := mkTwalkPkt { Twalk_SFID : N; Twalk_NewFID : N; Twalk_Paths : (list bytes) }.
(** protocol.go:199-201 *)
Record RwalkPkt := mkRwalkPkt { Rwalk_QIDs : (list QID) }.
(** protocol.go:203-206 *)
Record TopenPkt := mkTopenPkt { Topen_OFID : N; Topen_Omode : N }.
(** protocol.go:208-211 *)
Record RopenPkt := mkRopenPkt { Ropen_OQID : QID; Ropen_IOUnit : N }.
(** protocol.go:213-218 *)
Record TcreatePkt := mkTcreatePkt { Tcreate_OFID : N; Tcreate_Name : bytes; Tcreate_CreatePerm : N; Tcreate_Omode : N }.
(** protocol.go:220-223 *)
Record RcreatePkt := mkRcreatePkt { Rcreate_OQID : QID; Rcreate_IOUnit : N }.
(** protocol.go:225-227 *)
Record TclunkPkt := mkTclunkPkt { Tclunk_OFID : N }.
(** protocol.go:229-230 *)
Record RclunkPkt := mkRclunkPkt {  }.
(** protocol.go:232-234 *)
Record TremovePkt := mkTremovePkt { Tremove_OFID : N }.
(** protocol.go:236-237 *)
Record RremovePkt := mkRremovePkt {  }.
(** protocol.go:239-241 *)
Record TstatPkt := mkTstatPkt { Tstat_OFID : N }.
(** protocol.go:243-245 *)
Record RstatPkt := mkRstatPkt { Rstat_B : bytes }.
(** protocol.go:247-250 *)
Record TwstatPkt := mkTwstatPkt { Twstat_OFID : N; Twstat_B : bytes }.
(** protocol.go:252-253 *)
Record RwstatPkt := mkRwstatPkt {  }.
(** protocol.go:255-259 *)
Record TreadPkt := mkTreadPkt { Tread_OFID : N; Tread_Off : N; Tread_Len : Z }.
(** protocol.go:261-263 *)
Record RreadPkt := mkRreadPkt { Rread_Data : bytes }.
(** protocol.go:265-269 *)
Record TwritePkt := mkTwritePkt { Twrite_OFID : N; Twrite_Off : N; Twrite_Data : bytes }.
(** protocol.go:271-273 *)
Record RwritePkt := mkRwritePkt { Rwrite_RLen : Z }.
(** protocol.go:275-277 *)
Record RerrorPkt := mkRerrorPkt { Rerror_Error : bytes }.
(** protocol.go:279-281 *)
Record DirPkt := mkDirPkt { Dir_D : Dir }.


(** protocol.go:313-342 RPCNames; a missing key yields the empty string. *)
Definition RPCNames (t : N) : bytes :=
  if t =? Tversion_t then str "Tversion" else
  if t =? Rversion_t then str "Rversion" else
  if t =? Tauth_t then str "Tauth" else
  if t =? Rauth_t then str "Rauth" else
  if t =? Tattach_t then str "Tattach" else
  if t =? Rattach_t then str "Rattach" else
  if t =? Terror_t then str "Terror" else
  if t =? Rerror_t then str "Rerror" else
  if t =? Tflush_t then str "Tflush" else
  if t =? Rflush_t then str "Rflush" else
  if t =? Twalk_t then str "Twalk" else
  if t =? Rwalk_t then str "Rwalk" else
  if t =? Topen_t then str "Topen" else
  if t =? Ropen_t then str "Ropen" else
  if t =? Tcreate_t then str "Tcreate" else
  if t =? Rcreate_t then str "Rcreate" else
  if t =? Tread_t then str "Tread" else
  if t =? Rread_t then str "Rread" else
  if t =? Twrite_t then str "Twrite" else
  if t =? Rwrite_t then str "Rwrite" else
  if t =? Tclunk_t then str "Tclunk" else
  if t =? Rclunk_t then str "Rclunk" else
  if t =? Tremove_t then str "Tremove" else
  if t =? Rremove_t then str "Rremove" else
  if t =? Tstat_t then str "Tstat" else
  if t =? Rstat_t then str "Rstat" else
  if t =? Twstat_t then str "Twstat" else
  if t =? Rwstat_t then str "Rwstat" else
  [].
