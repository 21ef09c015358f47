(** The message types as Gallina sums, and the table from message type to codec function. *)
From Verif Require Import Base GoBuf CodecPrim Types Codec Gen.

Inductive tmsg :=
| MTversion (p : TversionPkt) | MTattach (p : TattachPkt) | MTflush (p : TflushPkt)
| MTwalk (p : TwalkPkt) | MTopen (p : TopenPkt) | MTcreate (p : TcreatePkt)
| MTread (p : TreadPkt) | MTwrite (p : TwritePkt) | MTclunk (p : TclunkPkt)
| MTremove (p : TremovePkt) | MTstat (p : TstatPkt) | MTwstat (p : TwstatPkt).

Inductive rmsg :=
| MRversion (p : RversionPkt) | MRattach (p : RattachPkt) | MRerror (p : RerrorPkt)
| MRflush (p : RflushPkt) | MRwalk (p : RwalkPkt) | MRopen (p : RopenPkt)
| MRcreate (p : RcreatePkt) | MRread (p : RreadPkt) | MRwrite (p : RwritePkt)
| MRclunk (p : RclunkPkt) | MRremove (p : RremovePkt) | MRstat (p : RstatPkt)
| MRwstat (p : RwstatPkt).

(** Message type code of a message. *)
Definition ttype (m : tmsg) : N :=
  match m with
  | MTversion _ => Tversion_t | MTattach _ => Tattach_t | MTflush _ => Tflush_t
  | MTwalk _ => Twalk_t | MTopen _ => Topen_t | MTcreate _ => Tcreate_t
  | MTread _ => Tread_t | MTwrite _ => Twrite_t | MTclunk _ => Tclunk_t
  | MTremove _ => Tremove_t | MTstat _ => Tstat_t | MTwstat _ => Twstat_t
  end.
Definition rtype (m : rmsg) : N :=
  match m with
  | MRversion _ => Rversion_t | MRattach _ => Rattach_t | MRerror _ => Rerror_t
  | MRflush _ => Rflush_t | MRwalk _ => Rwalk_t | MRopen _ => Ropen_t
  | MRcreate _ => Rcreate_t | MRread _ => Rread_t | MRwrite _ => Rwrite_t
  | MRclunk _ => Rclunk_t | MRremove _ => Rremove_t | MRstat _ => Rstat_t
  | MRwstat _ => Rwstat_t
  end.

(** The Marshal function for each message (genout.go). *)
Definition marshalT (t : N) (m : tmsg) : bytes :=
  match m with
  | MTversion (mkTversionPkt a b) => MarshalTversionPkt t a b
  | MTattach (mkTattachPkt a b c d) => MarshalTattachPkt t a b c d
  | MTflush (mkTflushPkt a) => MarshalTflushPkt t a
  | MTwalk (mkTwalkPkt a b c) => MarshalTwalkPkt t a b c
  | MTopen (mkTopenPkt a b) => MarshalTopenPkt t a b
  | MTcreate (mkTcreatePkt a b c d) => MarshalTcreatePkt t a b c d
  | MTread (mkTreadPkt a b c) => MarshalTreadPkt t a b c
  | MTwrite (mkTwritePkt a b c) => MarshalTwritePkt t a b c
  | MTclunk (mkTclunkPkt a) => MarshalTclunkPkt t a
  | MTremove (mkTremovePkt a) => MarshalTremovePkt t a
  | MTstat (mkTstatPkt a) => MarshalTstatPkt t a
  | MTwstat (mkTwstatPkt a b) => MarshalTwstatPkt t a b
  end.
Definition marshalR (t : N) (m : rmsg) : bytes :=
  match m with
  | MRversion (mkRversionPkt a b) => MarshalRversionPkt t a b
  | MRattach (mkRattachPkt a) => MarshalRattachPkt t a
  | MRerror (mkRerrorPkt a) => MarshalRerrorPkt t a
  | MRflush _ => MarshalRflushPkt t
  | MRwalk (mkRwalkPkt a) => MarshalRwalkPkt t a
  | MRopen (mkRopenPkt a b) => MarshalRopenPkt t a b
  | MRcreate (mkRcreatePkt a b) => MarshalRcreatePkt t a b
  | MRread (mkRreadPkt a) => MarshalRreadPkt t a
  | MRwrite (mkRwritePkt a) => MarshalRwritePkt t a
  | MRclunk _ => MarshalRclunkPkt t
  | MRremove _ => MarshalRremovePkt t
  | MRstat (mkRstatPkt a) => MarshalRstatPkt t a
  | MRwstat _ => MarshalRwstatPkt t
  end.

(** The Unmarshal function for each T message type: the one the server stub for that type calls
    (genout.go Srv* via server.go:262-289).  [None]: no such stub. *)
Definition unmarshalT (ty : N) (b : buf) : option (ures tmsg) :=
  if ty =? Tversion_t then Some (umap MTversion (UnmarshalTversionPkt b)) else
  if ty =? Tattach_t then Some (umap MTattach (UnmarshalTattachPkt b)) else
  if ty =? Tflush_t then Some (umap MTflush (UnmarshalTflushPkt b)) else
  if ty =? Twalk_t then Some (umap MTwalk (UnmarshalTwalkPkt b)) else
  if ty =? Topen_t then Some (umap MTopen (UnmarshalTopenPkt b)) else
  if ty =? Tcreate_t then Some (umap MTcreate (UnmarshalTcreatePkt b)) else
  if ty =? Tread_t then Some (umap MTread (UnmarshalTreadPkt b)) else
  if ty =? Twrite_t then Some (umap MTwrite (UnmarshalTwritePkt b)) else
  if ty =? Tclunk_t then Some (umap MTclunk (UnmarshalTclunkPkt b)) else
  if ty =? Tremove_t then Some (umap MTremove (UnmarshalTremovePkt b)) else
  if ty =? Tstat_t then Some (umap MTstat (UnmarshalTstatPkt b)) else
  if ty =? Twstat_t then Some (umap MTwstat (UnmarshalTwstatPkt b)) else None.
Definition unmarshalR (ty : N) (b : buf) : option (ures rmsg) :=
  if ty =? Rversion_t then Some (umap MRversion (UnmarshalRversionPkt b)) else
  if ty =? Rattach_t then Some (umap MRattach (UnmarshalRattachPkt b)) else
  if ty =? Rerror_t then Some (umap MRerror (UnmarshalRerrorPkt b)) else
  if ty =? Rflush_t then Some (umap MRflush (UnmarshalRflushPkt b)) else
  if ty =? Rwalk_t then Some (umap MRwalk (UnmarshalRwalkPkt b)) else
  if ty =? Ropen_t then Some (umap MRopen (UnmarshalRopenPkt b)) else
  if ty =? Rcreate_t then Some (umap MRcreate (UnmarshalRcreatePkt b)) else
  if ty =? Rread_t then Some (umap MRread (UnmarshalRreadPkt b)) else
  if ty =? Rwrite_t then Some (umap MRwrite (UnmarshalRwritePkt b)) else
  if ty =? Rclunk_t then Some (umap MRclunk (UnmarshalRclunkPkt b)) else
  if ty =? Rremove_t then Some (umap MRremove (UnmarshalRremovePkt b)) else
  if ty =? Rstat_t then Some (umap MRstat (UnmarshalRstatPkt b)) else
  if ty =? Rwstat_t then Some (umap MRwstat (UnmarshalRwstatPkt b)) else None.

(** * Field lists and schemas, in declaration order (protocol.go:165-281) *)
Definition schQID : list leaf0 := [LInt 1; LInt 4; LInt 8].
Definition valsQID (q : QID) : list v0 := [VI (QID_Type q); VI (QID_Version q); VI (QID_Path q)].
Definition schDir : list leaf :=
  [L0 (LInt 2); L0 (LInt 4)] ++ map L0 schQID
  ++ [L0 (LInt 4); L0 (LInt 4); L0 (LInt 4); L0 (LInt 8); L0 LStr; L0 LStr; L0 LStr; L0 LStr].
Definition valsDir (d : Dir) : list val :=
  [V0 (VI (Dir_Type d)); V0 (VI (Dir_Dev d))] ++ map V0 (valsQID (Dir_QID d))
  ++ [V0 (VI (Dir_Mode d)); V0 (VI (Dir_Atime d)); V0 (VI (Dir_Mtime d)); V0 (VI (Dir_Length d));
      V0 (VS (Dir_Name d)); V0 (VS (Dir_User d)); V0 (VS (Dir_Group d)); V0 (VS (Dir_ModUser d))].

Definition schT (ty : N) : list leaf :=
  if ty =? Tversion_t then [L0 (LInt 4); L0 LStr] else
  if ty =? Tattach_t then [L0 (LInt 4); L0 (LInt 4); L0 LStr; L0 LStr] else
  if ty =? Tflush_t then [L0 (LInt 2)] else
  if ty =? Twalk_t then [L0 (LInt 4); L0 (LInt 4); LSlice [LStr]] else
  if ty =? Topen_t then [L0 (LInt 4); L0 (LInt 1)] else
  if ty =? Tcreate_t then [L0 (LInt 4); L0 LStr; L0 (LInt 4); L0 (LInt 1)] else
  if ty =? Tread_t then [L0 (LInt 4); L0 (LInt 8); L0 LCount] else
  if ty =? Twrite_t then [L0 (LInt 4); L0 (LInt 8); LData 4] else
  if ty =? Tclunk_t then [L0 (LInt 4)] else
  if ty =? Tremove_t then [L0 (LInt 4)] else
  if ty =? Tstat_t then [L0 (LInt 4)] else
  if ty =? Twstat_t then [L0 (LInt 4); LData 2] else [].
Definition valsT (m : tmsg) : list val :=
  match m with
  | MTversion p => [V0 (VI (Tversion_TMsize p)); V0 (VS (Tversion_TVersion p))]
  | MTattach p => [V0 (VI (Tattach_SFID p)); V0 (VI (Tattach_AFID p)); V0 (VS (Tattach_Uname p)); V0 (VS (Tattach_Aname p))]
  | MTflush p => [V0 (VI (Tflush_OTag p))]
  | MTwalk p => [V0 (VI (Twalk_SFID p)); V0 (VI (Twalk_NewFID p)); VSl (map (fun s => [VS s]) (Twalk_Paths p))]
  | MTopen p => [V0 (VI (Topen_OFID p)); V0 (VI (Topen_Omode p))]
  | MTcreate p => [V0 (VI (Tcreate_OFID p)); V0 (VS (Tcreate_Name p)); V0 (VI (Tcreate_CreatePerm p)); V0 (VI (Tcreate_Omode p))]
  | MTread p => [V0 (VI (Tread_OFID p)); V0 (VI (Tread_Off p)); V0 (VC (Tread_Len p))]
  | MTwrite p => [V0 (VI (Twrite_OFID p)); V0 (VI (Twrite_Off p)); VD (Twrite_Data p)]
  | MTclunk p => [V0 (VI (Tclunk_OFID p))]
  | MTremove p => [V0 (VI (Tremove_OFID p))]
  | MTstat p => [V0 (VI (Tstat_OFID p))]
  | MTwstat p => [V0 (VI (Twstat_OFID p)); VD (Twstat_B p)]
  end.
Definition schR (ty : N) : list leaf :=
  if ty =? Rversion_t then [L0 (LInt 4); L0 LStr] else
  if ty =? Rattach_t then map L0 schQID else
  if ty =? Rerror_t then [L0 LStr] else
  if ty =? Rflush_t then [] else
  if ty =? Rwalk_t then [LSlice schQID] else
  if ty =? Ropen_t then map L0 schQID ++ [L0 (LInt 4)] else
  if ty =? Rcreate_t then map L0 schQID ++ [L0 (LInt 4)] else
  if ty =? Rread_t then [LData 4] else
  if ty =? Rwrite_t then [L0 LCount] else
  if ty =? Rstat_t then [LData 2] else [].
Definition valsR (m : rmsg) : list val :=
  match m with
  | MRversion p => [V0 (VI (Rversion_RMsize p)); V0 (VS (Rversion_RVersion p))]
  | MRattach p => map V0 (valsQID (Rattach_QID p))
  | MRerror p => [V0 (VS (Rerror_Error p))]
  | MRflush _ => []
  | MRwalk p => [VSl (map valsQID (Rwalk_QIDs p))]
  | MRopen p => map V0 (valsQID (Ropen_OQID p)) ++ [V0 (VI (Ropen_IOUnit p))]
  | MRcreate p => map V0 (valsQID (Rcreate_OQID p)) ++ [V0 (VI (Rcreate_IOUnit p))]
  | MRread p => [VD (Rread_Data p)]
  | MRwrite p => [V0 (VC (Rwrite_RLen p))]
  | MRclunk _ => []
  | MRremove _ => []
  | MRstat p => [VD (Rstat_B p)]
  | MRwstat _ => []
  end.
