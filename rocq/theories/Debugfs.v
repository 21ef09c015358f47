(** Model of pkg/debugfs/debug.go: a NineServer that logs every request and reply of another one. *)
From Verif Require Import Base GoBuf CodecPrim Types Codec StubPrim Ufs.

(** * fmt's %v *)
Definition decz (z : Z) : bytes := if (z <? 0)%Z then str "-" ++ dec (Z.to_N (- z)) else dec (Z.to_N z).
Definition v_QID (q : QID) : bytes := str "{" ++ spaced [dec (QID_Type q); dec (QID_Version q); dec (QID_Path q)] ++ str "}".
Definition v_list (l : list bytes) : bytes := str "[" ++ spaced l ++ str "]".
Definition v_Dir (d : Dir) : bytes :=
  str "{" ++ spaced [dec (Dir_Type d); dec (Dir_Dev d); v_QID (Dir_QID d); dec (Dir_Mode d); dec (Dir_Atime d); dec (Dir_Mtime d);
                     dec (Dir_Length d); Dir_Name d; Dir_User d; Dir_Group d; Dir_ModUser d] ++ str "}".

(** * The wrapper *)
(** The state: that of the wrapped server (field FileServer, debug.go:14-16) and the lines logged so far.
    Simplification: log lines without time stamp and final newline. *)
Section Debug.
Variable St : Type.
Variable ns : NineServer St.
Definition dstate : Type := St * list bytes.
(** Every method is: log the request, call the same method of the wrapped server, log the reply (by what a successful
    reply prints) or the error, return what it returned. *)
Definition wrap {A} (request : bytes) (call : St -> nsres St A) (reply : A -> bytes) (d : dstate) : nsres dstate A :=
  let (s, log) := d in
  let log := log ++ [request] in
  match call s with
  | NSOk s r => NSOk (s, log ++ [reply r]) r
  | NSErr s e => NSErr (s, log ++ [str "<<< Error " ++ e]) e
  | NSPanic => NSPanic
  end.
(** debug.go:18-27 *)
Definition d_Rversion (d : dstate) (msize : N) (version : bytes) :=
  wrap (str ">>> Tversion " ++ dec msize ++ str " " ++ version) (fun s => ns_Rversion ns s msize version)
       (fun r => str "<<< Rversion " ++ dec (Rversion_RMsize r) ++ str " " ++ Rversion_RVersion r) d.
(** debug.go:29-39 *)
Definition d_Rattach (d : dstate) (fid afid : N) (uname aname : bytes) :=
  wrap (str ">>> Tattach fid " ++ dec fid ++ str ",  afid " ++ dec afid ++ str ", uname " ++ uname ++ str ", aname " ++ aname)
       (fun s => ns_Rattach ns s fid afid uname aname) (fun r => str "<<< Rattach " ++ v_QID (Rattach_QID r)) d.
(** debug.go:41-50 *)
Definition d_Rflush (d : dstate) (o : N) :=
  wrap (str ">>> Tflush tag " ++ dec o) (fun s => ns_Rflush ns s o) (fun _ => str "<<< Rflush") d.
(** debug.go:52-61 *)
Definition d_Rwalk (d : dstate) (fid newfid : N) (paths : list bytes) :=
  wrap (str ">>> Twalk fid " ++ dec fid ++ str ", newfid " ++ dec newfid ++ str ", paths " ++ v_list paths)
       (fun s => ns_Rwalk ns s fid newfid paths) (fun r => str "<<< Rwalk " ++ v_list (map v_QID (Rwalk_QIDs r))) d.
(** debug.go:63-72 *)
Definition d_Ropen (d : dstate) (fid mode : N) :=
  wrap (str ">>> Topen fid " ++ dec fid ++ str ", mode " ++ dec mode) (fun s => ns_Ropen ns s fid mode)
       (fun r => str "<<< Ropen " ++ v_QID (Ropen_OQID r) ++ str " " ++ dec (Ropen_IOUnit r)) d.
(** debug.go:74-84 *)
Definition d_Rcreate (d : dstate) (fid : N) (name : bytes) (perm mode : N) :=
  wrap (str ">>> Tcreate fid " ++ dec fid ++ str ", name " ++ name ++ str ", perm " ++ dec perm ++ str ", mode " ++ dec mode)
       (fun s => ns_Rcreate ns s fid name perm mode)
       (fun r => str "<<< Rcreate " ++ v_QID (Rcreate_OQID r) ++ str " " ++ dec (Rcreate_IOUnit r)) d.
(** debug.go:86-95 *)
Definition d_Rclunk (d : dstate) (fid : N) :=
  wrap (str ">>> Tclunk fid " ++ dec fid) (fun s => ns_Rclunk ns s fid) (fun _ => str "<<< Rclunk") d.
(** debug.go:97-107.  Unmarshaldir reads from its own buffer over b; whether there is spare memory behind b makes no
    difference (Unmarshaldir_spare in UfsLemmas4.v), and if it panicked, so would the method. *)
Definition d_Rstat (d : dstate) (fid : N) : nsres dstate RstatPkt :=
  let (s, log) := d in
  let log := log ++ [str ">>> Tstat fid " ++ dec fid] in
  match ns_Rstat ns s fid with
  | NSPanic => NSPanic
  | NSOk s r =>
      match Unmarshaldir (Buf (Rstat_B r) []) with
      | UPanic => NSPanic
      | URet dir _ _ _ => NSOk (s, log ++ [str "<<< Rstat " ++ v_Dir dir]) r
      end
  | NSErr s e => NSErr (s, log ++ [str "<<< Error " ++ e]) e
  end.
(** debug.go:109-119 *)
Definition d_Rwstat (d : dstate) (fid : N) (b : bytes) : nsres dstate RwstatPkt :=
  match Unmarshaldir (Buf b []) with
  | UPanic => NSPanic
  | URet dir _ _ _ =>
      wrap (str ">>> Twstat fid " ++ dec fid ++ str ", " ++ v_Dir dir) (fun s => ns_Rwstat ns s fid b) (fun _ => str "<<< Rwstat") d
  end.
(** debug.go:121-130 *)
Definition d_Rremove (d : dstate) (fid : N) :=
  wrap (str ">>> Tremove fid " ++ dec fid) (fun s => ns_Rremove ns s fid) (fun _ => str "<<< Rremove") d.
(** debug.go:132-141 *)
Definition d_Rread (d : dstate) (fid o : N) (c : Z) :=
  wrap (str ">>> Tread fid " ++ dec fid ++ str ", off " ++ dec o ++ str ", count " ++ decz c) (fun s => ns_Rread ns s fid o c)
       (fun r => str "<<< Rread " ++ dec (blen (Rread_Data r))) d.
(** debug.go:143-152 *)
Definition d_Rwrite (d : dstate) (fid o : N) (b : bytes) :=
  wrap (str ">>> Twrite fid " ++ dec fid ++ str ", off " ++ dec o ++ str ", count " ++ dec (blen b)) (fun s => ns_Rwrite ns s fid o b)
       (fun r => str "<<< Rwrite " ++ decz (Rwrite_RLen r)) d.
Definition debugfs : NineServer dstate :=
  mkNineServer dstate d_Rversion d_Rattach d_Rwalk d_Ropen d_Rcreate d_Rstat d_Rwstat d_Rclunk d_Rremove d_Rread d_Rwrite d_Rflush.
End Debug.
