(** What a 9P server does, seen at the level of messages; independent of buffers and loops. *)
From Verif Require Import Base GoBuf CodecPrim Types Msgs StubPrim CodecSpec Server.

(** The method of the file server that answers a request, with the request's fields as arguments. *)
Definition nsmap {St A B} (f : A -> B) (r : nsres St A) : nsres St B :=
  match r with NSOk s a => NSOk s (f a) | NSErr s e => NSErr s e | NSPanic => NSPanic end.
Definition invoke {St} (ns : NineServer St) (s : St) (m : tmsg) : nsres St rmsg :=
  match m with
  | MTversion (mkTversionPkt msize version) => nsmap MRversion (ns_Rversion ns s msize version)
  | MTattach (mkTattachPkt fid afid uname aname) => nsmap MRattach (ns_Rattach ns s fid afid uname aname)
  | MTflush (mkTflushPkt oldtag) => nsmap MRflush (ns_Rflush ns s oldtag)
  | MTwalk (mkTwalkPkt fid newfid names) => nsmap MRwalk (ns_Rwalk ns s fid newfid names)
  | MTopen (mkTopenPkt fid mode) => nsmap MRopen (ns_Ropen ns s fid mode)
  | MTcreate (mkTcreatePkt fid name perm mode) => nsmap MRcreate (ns_Rcreate ns s fid name perm mode)
  | MTread (mkTreadPkt fid offset count) => nsmap MRread (ns_Rread ns s fid offset count)
  | MTwrite (mkTwritePkt fid offset data) => nsmap MRwrite (ns_Rwrite ns s fid offset data)
  | MTclunk (mkTclunkPkt fid) => nsmap MRclunk (ns_Rclunk ns s fid)
  | MTremove (mkTremovePkt fid) => nsmap MRremove (ns_Rremove ns s fid)
  | MTstat (mkTstatPkt fid) => nsmap MRstat (ns_Rstat ns s fid)
  | MTwstat (mkTwstatPkt fid stat) => nsmap MRwstat (ns_Rwstat ns s fid stat)
  end.

(** The answer to one request: before the first version request everything else is refused;
    afterwards the file server decides, and its errors become Rerror. None: it crashed. *)
Definition is_version (m : tmsg) : bool := match m with MTversion _ => true | _ => false end.
Definition answer {St} (ns : NineServer St) (opened : bool) (s : St) (m : tmsg) : option (bool * St * rmsg) :=
  if opened || is_version m then
    match invoke ns s m with
    | NSOk s r => Some (true, s, r)
    | NSErr s e => Some (true, s, MRerror (mkRerrorPkt e))
    | NSPanic => None
    end
  else Some (false, s, MRerror (mkRerrorPkt (str "Dispatch: " ++ RPCNames (fst (wireT m)) ++ str " not allowed before Tversion"))).
Fixpoint answers {St} (ns : NineServer St) (opened : bool) (s : St) (reqs : list (N * tmsg))
  : option (list (N * rmsg) * (bool * St)) :=
  match reqs with
  | [] => Some ([], (opened, s))
  | (tag, m) :: reqs =>
      match answer ns opened s m with
      | None => None
      | Some (opened, s, r) =>
          match answers ns opened s reqs with
          | None => None
          | Some (rs, st) => Some ((tag, r) :: rs, st)
          end
      end
  end.

(** * Raw frames *)
(** A byte stream cut into frames as the size fields say: type, tag, and the bytes after the
    tag. A size below 7 counts as 7; at the end of the stream a frame may be cut short after its header;
    fewer than 7 bytes at the end are dropped. *)
Record rframe := mkFrame { f_type : N; f_tag : N; f_body : bytes }.
Inductive frames_of : bytes -> list rframe -> Prop :=
| fr_end bs : (List.length bs < 7)%nat -> frames_of bs []
| fr_cons size ty tag rest fs :
    size < 4294967296 -> ty < 256 -> tag < 65536 ->
    frames_of (skipn (N.to_nat (size - 7)) rest) fs ->
    frames_of (le 4 size ++ le 1 ty ++ le 2 tag ++ rest)
              (mkFrame ty tag (firstn (N.to_nat (size - 7)) rest) :: fs).

(** [o] is a reply to frame [f]. *)
Definition reply_to (f : rframe) (o : bytes) : Prop :=
  exists r, o = marshalR (f_tag f) r /\ (rtype r = f_type f + 1 \/ rtype r = 107).

(** The request types a 9P server knows (9P2000 without authentication). *)
Definition request_types : list N := [100; 104; 108; 110; 112; 114; 116; 118; 120; 122; 124; 126].

(** * Segmentation *)
(** Positions in the stream where a header starts, and where the transport cut the stream. *)
Inductive header_at (bs : bytes) : nat -> Prop :=
| ha_0 : header_at bs 0
| ha_next o : header_at bs o -> (o + 7 <= List.length bs)%nat ->
    header_at bs (o + Nat.max 7 (N.to_nat (unle (firstn 4 (skipn o bs))))).
Definition cut_at (cs : list bytes) (p : nat) : Prop :=
  exists l1 l2, cs = l1 ++ l2 /\ p = List.length (concat l1).
(** No header is cut. *)
Definition headers_whole (cs : list bytes) : Prop :=
  forall o p, header_at (concat cs) o -> cut_at cs p -> (o + 7 <= List.length (concat cs))%nat -> ~ (o < p < o + 7)%nat.

(** One reply per frame, in order; if a write failed, the last one may be cut off. *)
Inductive replies : list rframe -> list bytes -> Prop :=
| rp_nil : replies [] []
| rp_cut f o k : reply_to f o -> replies [f] [firstn k o]
| rp_cons f o fs os : reply_to f o -> replies fs os -> replies (f :: fs) (o :: os).

(** The bytes that arrive before a read error. *)
Fixpoint received (evs : list rev) : bytes :=
  match evs with
  | [] | RdErr :: _ => []
  | Chunk c :: r => c ++ received r
  end.

(** A transport delivers no empty chunks. *)
Definition nonempty (cs : list bytes) := Forall (fun c => c <> []) cs.

(** A stream made of complete messages only, each with a size field that counts all its bytes. *)
Inductive strict_frames : bytes -> list rframe -> Prop :=
| sf_end : strict_frames [] []
| sf_cons size ty tag body rest fs :
    7 <= size < 4294967296 -> ty < 256 -> tag < 65536 -> blen body = size - 7 ->
    strict_frames rest fs ->
    strict_frames (le 4 size ++ le 1 ty ++ le 2 tag ++ body ++ rest) (mkFrame ty tag body :: fs).
(** The bytes of a request of any type with an honest size. *)
Definition raw (ty tag : N) (body : bytes) : bytes := le 4 (7 + blen body) ++ le 1 ty ++ le 2 tag ++ body.
(** A request as it goes over the wire, and the requests that can. *)
Definition enc_req (x : N * tmsg) : bytes := marshalT (fst x) (snd x).
Definition ok_req (x : N * tmsg) : Prop := fst x < 65536 /\ fitsT (snd x) /\ blen (enc_req x) < 4294967296.

(** The answer to anything before the first version request. *)
Definition refusal (f : rframe) : bytes :=
  marshalR (f_tag f) (MRerror (mkRerrorPkt (str "Dispatch: " ++ RPCNames (f_type f) ++ str " not allowed before Tversion"))).
(** The Go zero value that a call returns beside an error. *)
Definition zero_reply (m : tmsg) : rmsg :=
  match m with
  | MTversion _ => MRversion (mkRversionPkt 0 [])
  | MTattach _ => MRattach (mkRattachPkt (mkQID 0 0 0))
  | MTflush _ => MRflush mkRflushPkt
  | MTwalk _ => MRwalk (mkRwalkPkt [])
  | MTopen _ => MRopen (mkRopenPkt (mkQID 0 0 0) 0)
  | MTcreate _ => MRcreate (mkRcreatePkt (mkQID 0 0 0) 0)
  | MTread _ => MRread (mkRreadPkt [])
  | MTwrite _ => MRwrite (mkRwritePkt 0)
  | MTclunk _ => MRclunk mkRclunkPkt
  | MTremove _ => MRremove mkRremovePkt
  | MTstat _ => MRstat (mkRstatPkt [])
  | MTwstat _ => MRwstat mkRwstatPkt
  end.
