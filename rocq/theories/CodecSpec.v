(** The 9P2000 message layouts, written down from the protocol manual (intro(5), stat(5)) and
    independent of how the code produces or consumes them.  A message is
        size[4] type[1] tag[2] field field ...
    with all integers little-endian, strings as count[2] bytes, and size counting itself. *)
From Verif Require Import Base Types Msgs.

Definition text (s : bytes) : bytes := le 2 (blen s) ++ s.
Definition blob (w : nat) (d : bytes) : bytes := le w (blen d) ++ d.
Definition count32 (z : Z) : bytes := le 4 (Z.to_N (z mod 4294967296)).
Definition qid13 (q : QID) : list bytes := [le 1 (QID_Type q); le 4 (QID_Version q); le 8 (QID_Path q)].
Definition frame (ty tag : N) (fields : list bytes) : bytes :=
  let payload := concat fields in
  le 4 (4 + 1 + 2 + blen payload) ++ le 1 ty ++ le 2 tag ++ payload.

(** Tversion msize[4] version[s]; Tattach fid[4] afid[4] uname[s] aname[s]; Tflush oldtag[2];
    Twalk fid[4] newfid[4] nwname[2] nwname*(wname[s]); Topen fid[4] mode[1];
    Tcreate fid[4] name[s] perm[4] mode[1]; Tread fid[4] offset[8] count[4];
    Twrite fid[4] offset[8] count[4] data[count]; Tclunk fid[4]; Tremove fid[4]; Tstat fid[4];
    Twstat fid[4] stat[n] *)
Definition wireT (m : tmsg) : N * list bytes :=
  match m with
  | MTversion (mkTversionPkt msize version) => (100, [le 4 msize; text version])
  | MTattach (mkTattachPkt fid afid uname aname) => (104, [le 4 fid; le 4 afid; text uname; text aname])
  | MTflush (mkTflushPkt oldtag) => (108, [le 2 oldtag])
  | MTwalk (mkTwalkPkt fid newfid names) =>
      (110, [le 4 fid; le 4 newfid; le 2 (blen names) ++ flat_map text names])
  | MTopen (mkTopenPkt fid mode) => (112, [le 4 fid; le 1 mode])
  | MTcreate (mkTcreatePkt fid name perm mode) => (114, [le 4 fid; text name; le 4 perm; le 1 mode])
  | MTread (mkTreadPkt fid offset count) => (116, [le 4 fid; le 8 offset; count32 count])
  | MTwrite (mkTwritePkt fid offset data) => (118, [le 4 fid; le 8 offset; blob 4 data])
  | MTclunk (mkTclunkPkt fid) => (120, [le 4 fid])
  | MTremove (mkTremovePkt fid) => (122, [le 4 fid])
  | MTstat (mkTstatPkt fid) => (124, [le 4 fid])
  | MTwstat (mkTwstatPkt fid stat) => (126, [le 4 fid; blob 2 stat])
  end.
(** Rversion msize[4] version[s]; Rattach qid[13]; Rerror ename[s]; Rflush; Rwalk nwqid[2] nwqid*(qid[13]);
    Ropen qid[13] iounit[4]; Rcreate qid[13] iounit[4]; Rread count[4] data[count]; Rwrite count[4];
    Rclunk; Rremove; Rstat stat[n]; Rwstat *)
Definition wireR (m : rmsg) : N * list bytes :=
  match m with
  | MRversion (mkRversionPkt msize version) => (101, [le 4 msize; text version])
  | MRattach (mkRattachPkt q) => (105, qid13 q)
  | MRerror (mkRerrorPkt ename) => (107, [text ename])
  | MRflush _ => (109, [])
  | MRwalk (mkRwalkPkt qids) => (111, [le 2 (blen qids) ++ flat_map (fun q => concat (qid13 q)) qids])
  | MRopen (mkRopenPkt q iounit) => (113, qid13 q ++ [le 4 iounit])
  | MRcreate (mkRcreatePkt q iounit) => (115, qid13 q ++ [le 4 iounit])
  | MRread (mkRreadPkt data) => (117, [blob 4 data])
  | MRwrite (mkRwritePkt count) => (119, [count32 count])
  | MRclunk _ => (121, [])
  | MRremove _ => (123, [])
  | MRstat (mkRstatPkt stat) => (125, [blob 2 stat])
  | MRwstat _ => (127, [])
  end.
(** stat(5): size[2] type[2] dev[4] qid[13] mode[4] atime[4] mtime[4] length[8] name[s] uid[s] gid[s] muid[s] *)
Definition wireDir (d : Dir) : list bytes :=
  [le 2 (Dir_Type d); le 4 (Dir_Dev d)] ++ qid13 (Dir_QID d)
  ++ [le 4 (Dir_Mode d); le 4 (Dir_Atime d); le 4 (Dir_Mtime d); le 8 (Dir_Length d);
      text (Dir_Name d); text (Dir_User d); text (Dir_Group d); text (Dir_ModUser d)].

(** Values that the fields can carry: what the Go types can hold, and lengths that fit the
    count on the wire. *)
Definition u8n (n : N) := n < 256.
Definition u16n (n : N) := n < 65536.
Definition u32n (n : N) := n < 4294967296.
Definition u64n (n : N) := n < 18446744073709551616.
Definition short (s : bytes) := blen s < 65536.
Definition fitsQID (q : QID) := u8n (QID_Type q) /\ u32n (QID_Version q) /\ u64n (QID_Path q).
Definition fitsDir (d : Dir) :=
  u16n (Dir_Type d) /\ u32n (Dir_Dev d) /\ fitsQID (Dir_QID d) /\ u32n (Dir_Mode d) /\
  u32n (Dir_Atime d) /\ u32n (Dir_Mtime d) /\ u64n (Dir_Length d) /\
  short (Dir_Name d) /\ short (Dir_User d) /\ short (Dir_Group d) /\ short (Dir_ModUser d).
Definition fitsT (m : tmsg) : Prop :=
  match m with
  | MTversion p => u32n (Tversion_TMsize p) /\ short (Tversion_TVersion p)
  | MTattach p => u32n (Tattach_SFID p) /\ u32n (Tattach_AFID p) /\ short (Tattach_Uname p) /\ short (Tattach_Aname p)
  | MTflush p => u16n (Tflush_OTag p)
  | MTwalk p => u32n (Twalk_SFID p) /\ u32n (Twalk_NewFID p) /\ u16n (blen (Twalk_Paths p)) /\ Forall short (Twalk_Paths p)
  | MTopen p => u32n (Topen_OFID p) /\ u8n (Topen_Omode p)
  | MTcreate p => u32n (Tcreate_OFID p) /\ short (Tcreate_Name p) /\ u32n (Tcreate_CreatePerm p) /\ u8n (Tcreate_Omode p)
  | MTread p => u32n (Tread_OFID p) /\ u64n (Tread_Off p) /\ in_i32 (Tread_Len p)
  | MTwrite p => u32n (Twrite_OFID p) /\ u64n (Twrite_Off p) /\ u32n (blen (Twrite_Data p))
  | MTclunk p => u32n (Tclunk_OFID p)
  | MTremove p => u32n (Tremove_OFID p)
  | MTstat p => u32n (Tstat_OFID p)
  | MTwstat p => u32n (Twstat_OFID p) /\ short (Twstat_B p)
  end.
Definition fitsR (m : rmsg) : Prop :=
  match m with
  | MRversion p => u32n (Rversion_RMsize p) /\ short (Rversion_RVersion p)
  | MRattach p => fitsQID (Rattach_QID p)
  | MRerror p => short (Rerror_Error p)
  | MRwalk p => u16n (blen (Rwalk_QIDs p)) /\ Forall fitsQID (Rwalk_QIDs p)
  | MRopen p => fitsQID (Ropen_OQID p) /\ u32n (Ropen_IOUnit p)
  | MRcreate p => fitsQID (Rcreate_OQID p) /\ u32n (Rcreate_IOUnit p)
  | MRread p => u32n (blen (Rread_Data p))
  | MRwrite p => in_i32 (Rwrite_RLen p)
  | MRstat p => short (Rstat_B p)
  | MRflush _ | MRclunk _ | MRremove _ | MRwstat _ => True
  end.

(** All strings of a message (not the byte-slice fields). *)
Definition stringsT (m : tmsg) : list bytes :=
  match m with
  | MTversion p => [Tversion_TVersion p]
  | MTattach p => [Tattach_Uname p; Tattach_Aname p]
  | MTwalk p => Twalk_Paths p
  | MTcreate p => [Tcreate_Name p]
  | _ => []
  end.
Definition stringsR (m : rmsg) : list bytes :=
  match m with
  | MRversion p => [Rversion_RVersion p]
  | MRerror p => [Rerror_Error p]
  | _ => []
  end.

(** Integer fields within the range of their Go types; no condition on lengths. *)
Definition machineT (m : tmsg) : Prop :=
  match m with
  | MTversion p => u32n (Tversion_TMsize p)
  | MTattach p => u32n (Tattach_SFID p) /\ u32n (Tattach_AFID p)
  | MTflush p => u16n (Tflush_OTag p)
  | MTwalk p => u32n (Twalk_SFID p) /\ u32n (Twalk_NewFID p)
  | MTopen p => u32n (Topen_OFID p) /\ u8n (Topen_Omode p)
  | MTcreate p => u32n (Tcreate_OFID p) /\ u32n (Tcreate_CreatePerm p) /\ u8n (Tcreate_Omode p)
  | MTread p => u32n (Tread_OFID p) /\ u64n (Tread_Off p) /\ in_i32 (Tread_Len p)
  | MTwrite p => u32n (Twrite_OFID p) /\ u64n (Twrite_Off p)
  | MTclunk p => u32n (Tclunk_OFID p)
  | MTremove p => u32n (Tremove_OFID p)
  | MTstat p => u32n (Tstat_OFID p)
  | MTwstat p => u32n (Twstat_OFID p)
  end.
Definition machineR (m : rmsg) : Prop :=
  match m with
  | MRversion p => u32n (Rversion_RMsize p)
  | MRattach p => fitsQID (Rattach_QID p)
  | MRwalk p => Forall fitsQID (Rwalk_QIDs p)
  | MRopen p => fitsQID (Ropen_OQID p) /\ u32n (Ropen_IOUnit p)
  | MRcreate p => fitsQID (Rcreate_OQID p) /\ u32n (Rcreate_IOUnit p)
  | MRwrite p => in_i32 (Rwrite_RLen p)
  | MRerror _ | MRread _ | MRstat _ | MRflush _ | MRclunk _ | MRremove _ | MRwstat _ => True
  end.

(** For every string of a request or reply: the bytes between the tag and its first character,
    and its characters. *)
Fixpoint walk_cuts (pre : bytes) (names : list bytes) : list (bytes * bytes) :=
  match names with
  | [] => []
  | s :: names => (pre ++ le 2 (blen s), s) :: walk_cuts (pre ++ text s) names
  end.
Definition string_cutsT (m : tmsg) : list (bytes * bytes) :=
  match m with
  | MTversion (mkTversionPkt a s) => [(le 4 a ++ le 2 (blen s), s)]
  | MTattach (mkTattachPkt a b s s') =>
      [(le 4 a ++ le 4 b ++ le 2 (blen s), s); (le 4 a ++ le 4 b ++ text s ++ le 2 (blen s'), s')]
  | MTwalk (mkTwalkPkt a b ss) => walk_cuts (le 4 a ++ le 4 b ++ le 2 (blen ss)) ss
  | MTcreate (mkTcreatePkt a s p o) => [(le 4 a ++ le 2 (blen s), s)]
  | _ => []
  end.
Definition string_cutsR (m : rmsg) : list (bytes * bytes) :=
  match m with
  | MRversion (mkRversionPkt a s) => [(le 4 a ++ le 2 (blen s), s)]
  | MRerror (mkRerrorPkt s) => [(le 2 (blen s), s)]
  | _ => []
  end.

(** Requests and replies that carry a block of data or a stat record. *)
Definition has_dataT (ty : N) : bool := (ty =? 118) || (ty =? 126).
Definition has_dataR (ty : N) : bool := (ty =? 117) || (ty =? 125).

(** Any message. *)
Inductive msg := MT (m : tmsg) | MR (m : rmsg).
Definition wireM (m : msg) := match m with MT m => wireT m | MR m => wireR m end.
Definition fitsM (m : msg) := match m with MT m => fitsT m | MR m => fitsR m end.
Definition marshalM (t : N) (m : msg) := match m with MT m => marshalT t m | MR m => marshalR t m end.
