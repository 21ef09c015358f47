(** Running the text of package ufs: the memory, the operating system and the library functions it asks for. *)
From Verif Require Import Base GoBuf CodecPrim Types Codec Msgs StubPrim GoPath GoSyntax GoRun GoFmt GoProg Ufs.

(** * Go values of the types of package protocol *)
Definition v_qid (q : QID) : value :=
  VStruct (str "QID") [(str "Type", VU 8 (QID_Type q)); (str "Version", VU 32 (QID_Version q)); (str "Path", VU 64 (QID_Path q))].
Definition v_dir (d : Dir) : value :=
  VStruct (str "Dir") [(str "Type", VU 16 (Dir_Type d)); (str "Dev", VU 32 (Dir_Dev d)); (str "QID", v_qid (Dir_QID d)); (str "Mode", VU 32 (Dir_Mode d));
    (str "Atime", VU 32 (Dir_Atime d)); (str "Mtime", VU 32 (Dir_Mtime d)); (str "Length", VU 64 (Dir_Length d));
    (str "Name", VStr (Dir_Name d)); (str "User", VStr (Dir_User d)); (str "Group", VStr (Dir_Group d)); (str "ModUser", VStr (Dir_ModUser d))].
Definition qid_of (v : value) : option QID :=
  match v with VStruct _ [(_, VU _ a); (_, VU _ b); (_, VU _ c)] => Some (mkQID a b c) | _ => None end.
Definition dir_of (v : value) : option Dir :=
  match v with
  | VStruct _ [(_, VU _ a); (_, VU _ b); (_, q); (_, VU _ d); (_, VU _ e); (_, VU _ f); (_, VU _ g); (_, VStr h); (_, VStr i); (_, VStr j); (_, VStr k)] =>
      match qid_of q with Some q => Some (mkDir a b q d e f g h i j k) | None => None end
  | _ => None
  end.

(** * The world *)
(** Cells by address, the next free address, is the mutex held, the operating system; what the operating system was asked so far. *)
Record store (W : Type) := mkStore { heap : N -> option value; next : N; locked : bool; osw : W; calls_made : list event }.
Arguments mkStore {W}. Arguments heap {W}. Arguments next {W}. Arguments locked {W}. Arguments osw {W}. Arguments calls_made {W}.
Definition hset (h : N -> option value) (a : N) (v : value) : N -> option value := fun x => if x =? a then Some v else h x.
Definition kset (m : N -> option value) (k : N) (v : option value) : N -> option value := fun x => if x =? k then v else m x.

(** What a library function does: answer, put a value into a new cell and answer with a pointer to it, change a cell, make a call
    of the operating system (the answer may also be put into an array), panic. *)
Inductive lib :=
| LAns (vs : list value) | LNew (v : value) (ans : N -> value) | LSet (a : N) (v : value) (vs : list value)
| LOs (o : op) (enc : ret_of o -> list value)
| LRead (a : N) (o : op) (enc : ret_of o -> list value * bytes)
| LLock (b : bool) | LPanic | LStuck.
Definition err_v (e : option oserr) : value := match e with Some e => VErr e | None => VNil end.
Definition e_info (r : oserr + FileInfo) : list value := match r with inl e => [VNil; VErr e] | inr fi => [VFI fi; VNil] end.
Definition e_infos (r : oserr + FileInfo) : list value := match r with inl e => [VNil; VErr e] | inr fi => [VList [VFI fi]; VNil] end.
Definition e_file (r : oserr + handle) : list value := match r with inl e => [VNil; VErr e] | inr h => [VFile h; VNil] end.
Definition e_err (r : option oserr) : list value := [err_v r].
(** The contents of a []byte that is not in an array. *)
Definition bytes_v (v : value) : option bytes := match v with VBytes b => Some b | VNil => Some [] | _ => None end.

(** Functions and methods of other packages.  Buffers are those of GoBuf.v, without spare capacity, which no function of this
    package can see; Marshaldir and Unmarshaldir are those of Codec.v (that genout.go computes them is C57). *)
Definition library {W} (f : bytes) (args : list value) (s : store W) : lib :=
  let is x := beq f x in
  match args with
  | VPtr t a p :: rest =>
      if is (str "sync.Mutex.Lock") then LLock true
      else if is (str "sync.Mutex.Unlock") then LLock false
      else match heap s a with
      | Some (VBuf b) =>
          if is (str "bytes.Buffer.Len") then LAns [VI 64 (Z.of_N (buf_len b))]
          else if is (str "bytes.Buffer.Bytes") then LAns [VBytes (unread b)]
          else if is (str "Marshaldir") then match rest with [d] => match dir_of d with Some d => LSet a (VBuf (Buf (Marshaldir d) [])) [] | None => LStuck end | _ => LStuck end
          else if is (str "Unmarshaldir") then
            match Unmarshaldir b with
            | UPanic => LPanic
            | URet d _ b e => LSet a (VBuf b) [v_dir d; match e with Some e => VErr (OSErr e) | None => VNil end]
            end
          else LStuck
      | _ => LStuck
      end
  | [VFI fi] =>
      if is (str "os.FileInfo.Sys") then LAns [match fi_Sys fi with Some i => VObj (str "Stat_t") i | None => VNil end]
      else if is (str "os.FileInfo.Mode") then LAns [VU 32 (fi_Mode fi)]
      else if is (str "os.FileInfo.IsDir") then LAns [VBool (IsDir fi)]
      else if is (str "os.FileInfo.ModTime") then LAns [VTime (fi_ModTime fi)]
      else if is (str "os.FileInfo.Size") then LAns [VI 64 (fi_Size fi)]
      else if is (str "os.FileInfo.Name") then LAns [VStr (fi_Name fi)]
      else LStuck
  | [VTime t] =>
      if is (str "time.Time.Unix") then LAns [VI 64 (t_sec t)] else if is (str "time.Time.UnixNano") then LAns [VI 64 (UnixNano t)] else LStuck
  | VFile h :: rest =>
      if is (str "os.File.Sync") then LOs (OSync h) e_err
      else if is (str "os.File.Close") then LOs (OClose h) e_err
      else if is (str "os.File.Seek") then
        match rest with [VC Z0; VC Z0] => LOs (OSeek h) (fun r => [VI 64 0; err_v r]) | _ => LStuck end
      else if is (str "os.File.Readdir") then match rest with [VC (Zpos xH)] => LOs (OReaddir h) e_infos | _ => LStuck end
      else if is (str "os.File.ReadAt") then
        match rest with
        | [VSl a 0 n; VI _ off] => LRead a (OReadAt h n off) (fun r => ([VI 64 (Z.of_N (blen (fst r))); err_v (snd r)], fst r))
        | _ => LStuck
        end
      else if is (str "os.File.WriteAt") then
        match rest with
        | [VBytes b; VI _ off] => LOs (OWriteAt h b off) (fun r => [VI 64 (fst r); err_v (snd r)])
        | _ => LStuck
        end
      else LStuck
  | VStr p :: rest =>
      if is (str "os.Lstat") then LOs (OLstat p) e_info
      else if is (str "os.Stat") then LOs (OStat p) e_info
      else if is (str "os.OpenFile") then
        match rest with
        | [VI _ fl; VU _ perm] => LOs (OOpen p (Z.to_N fl) perm) e_file
        | [VI _ fl; VC z] => LOs (OOpen p (Z.to_N fl) (const_n z)) e_file
        | _ => LStuck
        end
      else if is (str "os.Mkdir") then match rest with [VU _ perm] => LOs (OMkdir p perm) e_err | _ => LStuck end
      else if is (str "os.Chmod") then match rest with [VU _ mode] => LOs (OChmod p mode) e_err | _ => LStuck end
      else if is (str "os.Rename") then match rest with [VStr q] => LOs (ORename p q) e_err | _ => LStuck end
      else if is (str "os.Truncate") then match rest with [VI _ n] => LOs (OTruncate p n) e_err | _ => LStuck end
      else if is (str "os.Chtimes") then match rest with [VTime a; VTime m] => LOs (OChtimes p a m) e_err | _ => LStuck end
      else if is (str "os.Remove") then LOs (ORemove p) e_err
      else if is (str "path.Join") then match rest with [VStr q] => LAns [VStr (Join p q)] | _ => LStuck end
      else if is (str "path.Dir") then LAns [VStr (Dirname p)]
      else if is (str "filepath.IsAbs") then LAns [VBool (IsAbs p)]
      else if is (str "fmt.Errorf") then match format p rest with Some t => LAns [VErr (OSErr t)] | None => LStuck end
      else if is (str "log.Printf") then LAns []
      else if is (str "assert") then
        (* x.( *syscall.Stat_t ) *)
        match rest with
        | [VObj k i] => if beq p (str "*syscall.Stat_t") && beq k (str "Stat_t") then LAns [VStruct (str "syscall.Stat_t") [(str "Ino", VU 64 i)]] else LPanic
        | _ => LPanic
        end
      else LStuck
  | VI w z :: rest =>
      if is (str "time.Unix") then match rest with [VC Z0] => LAns [VTime (mkTime z 0)] | _ => LStuck end
      else if is (str "makebytes") then LNew (VArr (repeat x00 (Z.to_nat z))) (fun a => VSl a 0 (Z.to_N z))
      else LStuck
  | [v] =>
      if is (str "bytes.NewBuffer") then match bytes_v v with Some b => LNew (VBuf (Buf b [])) (fun a => VPtr (str "bytes.Buffer") a []) | None => LStuck end else LStuck
  | _ => LStuck
  end.

(** * Running *)
(** Where things are: the FileServer, its map of files, the string behind the -user flag. *)
Record layout := mkLayout { a_fs : N; a_files : N; a_user : N; a_root : N; a_debug : N }.
(** The outcome of a run: the values returned, or a panic; None: not yet finished, or beyond what is covered. *)
Inductive outcome := Returned (vs : list value) | Panicked.
Section Run.
Context {W : Type} (h : os W) (L : layout).
(** One request. *)
Inductive reply := Answer (vs : list value) (s : store W) | Crash | NoAnswer.
Definition with_heap (s : store W) (hp : N -> option value) : store W := mkStore hp (next s) (locked s) (osw s) (calls_made s).
Definition new_cell (s : store W) (v : value) : store W := mkStore (hset (heap s) (next s) v) (next s + 1) (locked s) (osw s) (calls_made s).
Definition os_call (s : store W) (o : op) : ret_of o * store W :=
  let (x, w) := h o (osw s) in (x, mkStore (heap s) (next s) (locked s) w (calls_made s ++ [Ev o x])).
Definition serve_req (r : req) (s : store W) : reply :=
  match r with
  | RNew v => Answer [VPtr (type_of v) (next s) []] (new_cell s v)
  | RMapNew d => Answer [VPtr [] (next s) []] (new_cell s (VMap d (fun _ => None)))
  | RLoad a p => match heap s a with Some v => match get_path p v with Some x => Answer [x] s | None => NoAnswer end | None => NoAnswer end
  | RStore a p v => match heap s a with Some w => match set_path p v w with Some w => Answer [] (with_heap s (hset (heap s) a w)) | None => NoAnswer end | None => NoAnswer end
  | RMapGet a k =>
      match heap s a with
      | Some (VMap d m) => Answer (match m k with Some v => [v; VBool true] | None => [d; VBool false] end) s
      | _ => NoAnswer
      end
  | RMapSet a k v => match heap s a with Some (VMap d m) => Answer [] (with_heap s (hset (heap s) a (VMap d (kset m k (Some v))))) | _ => NoAnswer end
  | RMapDel a k => match heap s a with Some (VMap d m) => Answer [] (with_heap s (hset (heap s) a (VMap d (kset m k None)))) | _ => NoAnswer end
  | RVar x => if beq x (str "user") then Answer [VPtr (str "string") (a_user L) []] s
              else if beq x (str "root") then Answer [VPtr (str "string") (a_root L) []] s
              else if beq x (str "debug") then Answer [VPtr (str "int") (a_debug L) []] s else NoAnswer
  | RExt f args =>
      match library f args s with
      | LAns vs => Answer vs s
      | LNew v ans => Answer [ans (next s)] (new_cell s v)
      | LSet a v vs => Answer vs (with_heap s (hset (heap s) a v))
      | LOs o enc => let (x, s) := os_call s o in Answer (enc x) s
      | LRead a o enc =>
          let (x, s) := os_call s o in
          let (vs, b) := enc x in
          match heap s a with Some (VArr z) => Answer vs (with_heap s (hset (heap s) a (VArr (overlay z b)))) | _ => NoAnswer end
      | LLock b =>
          (* locking a mutex that is held would wait for ever; unlocking one that is not is a fatal error *)
          if Bool.eqb b (locked s) then NoAnswer
          else Answer [] (mkStore (heap s) (next s) b (osw s) (calls_made s ++ [if b then Ev OLock tt else Ev OUnlock tt]))
      | LPanic => Crash
      | LStuck => NoAnswer
      end
  | _ => NoAnswer
  end.
Fixpoint run (n : nat) (m : machine) (s : store W) : option (outcome * store W) :=
  match n with
  | O => None
  | S n =>
    match step ufs_program m with
    | Next m => run n m s
    | Branch b m m' => run n (if b then m else m') s
    | Split [] m _ => run n m s
    | Split (v :: l) _ m => run n (m v l) s
    | Maybe (Some v) m => run n (m v) s
    | Maybe None _ => Some (Panicked, s)
    | Ask r m => match serve_req r s with Answer vs s => run n (resume m vs) s | Crash => Some (Panicked, s) | NoAnswer => None end
    | GoRun.Ret vs => Some (Returned vs, s)
    | GoRun.Panic => Some (Panicked, s)
    | Stuck _ => None
    end
  end.
End Run.
(** A call of a function or method of the program. *)
Definition start (f : bytes) (recv : list value) (args : list value) : machine := mkM (CApply (FUser f recv) false Now args) [] [] [].
(** * Requests and replies as Go values *)
Definition v_strings (l : list bytes) : list value := map VStr l.
(** The method of FileServer that a request is for, with its arguments. *)
Definition method_call (m : tmsg) : bytes * list value :=
  match m with
  | MTversion (mkTversionPkt a b) => (str "FileServer.Rversion", [VU 32 a; VStr b])
  | MTattach (mkTattachPkt a b d e) => (str "FileServer.Rattach", [VU 32 a; VU 32 b; VStr d; VStr e])
  | MTflush (mkTflushPkt a) => (str "FileServer.Rflush", [VU 16 a])
  | MTwalk (mkTwalkPkt a b d) => (str "FileServer.Rwalk", [VU 32 a; VU 32 b; VList (v_strings d)])
  | MTopen (mkTopenPkt a b) => (str "FileServer.Ropen", [VU 32 a; VU 8 b])
  | MTcreate (mkTcreatePkt a b d e) => (str "FileServer.Rcreate", [VU 32 a; VStr b; VU 32 d; VU 8 e])
  | MTread (mkTreadPkt a b d) => (str "FileServer.Rread", [VU 32 a; VU 64 b; VI 32 d])
  | MTwrite (mkTwritePkt a b d) => (str "FileServer.Rwrite", [VU 32 a; VU 64 b; VBytes d])
  | MTclunk (mkTclunkPkt a) => (str "FileServer.Rclunk", [VU 32 a])
  | MTremove (mkTremovePkt a) => (str "FileServer.Rremove", [VU 32 a])
  | MTstat (mkTstatPkt a) => (str "FileServer.Rstat", [VU 32 a])
  | MTwstat (mkTwstatPkt a b) => (str "FileServer.Rwstat", [VU 32 a; VBytes b])
  end.
(** The bytes of a []byte. *)
Definition contents {W} (s : store W) (v : value) : option bytes :=
  match v with
  | VSl a o n => match heap s a with Some (VArr b) => Some (firstn (N.to_nat n) (skipn (N.to_nat o) b)) | _ => None end
  | v => bytes_v v
  end.
Fixpoint qids_of (vs : list value) : option (list QID) :=
  match vs with [] => Some [] | v :: vs => match qid_of v, qids_of vs with Some q, Some l => Some (q :: l) | _, _ => None end end.
(** What the values returned say: an error (the last of them, unless nil), or the reply. *)
Definition reply_of {W} (s : store W) (m : tmsg) (vs : list value) : option (answerOf rmsg) :=
  match last vs VNil with
  | VErr e => Some (inl (err_text e))
  | VNil =>
      match m, vs with
      | MTversion _, [VU _ a; VStr b; _] => Some (inr (MRversion (mkRversionPkt a b)))
      | MTattach _, [q; _] => match qid_of q with Some q => Some (inr (MRattach (mkRattachPkt q))) | None => None end
      | MTflush _, [_] => Some (inr (MRflush mkRflushPkt))
      | MTwalk _, [VList l; _] => match qids_of l with Some l => Some (inr (MRwalk (mkRwalkPkt l))) | None => None end
      | MTopen _, [q; VU _ n; _] => match qid_of q with Some q => Some (inr (MRopen (mkRopenPkt q n))) | None => None end
      | MTcreate _, [q; VU _ n; _] => match qid_of q with Some q => Some (inr (MRcreate (mkRcreatePkt q n))) | None => None end
      | MTcreate _, [q; VC z; _] => match qid_of q with Some q => Some (inr (MRcreate (mkRcreatePkt q (const_n z)))) | None => None end
      | MTread _, [b; _] => match contents s b with Some b => Some (inr (MRread (mkRreadPkt b))) | None => None end
      | MTwrite _, [VI _ n; _] => Some (inr (MRwrite (mkRwritePkt n)))
      | MTclunk _, [_] => Some (inr (MRclunk mkRclunkPkt))
      | MTremove _, [_] => Some (inr (MRremove mkRremovePkt))
      | MTstat _, [b; _] => match contents s b with Some b => Some (inr (MRstat (mkRstatPkt b))) | None => None end
      | MTwstat _, [_] => Some (inr (MRwstat mkRwstatPkt))
      | _, _ => None
      end
  | _ => None
  end.
(** A request put to a FileServer. *)
Definition request (L : layout) (m : tmsg) : machine := start (fst (method_call m)) [VPtr (str "FileServer") (a_fs L) []] (snd (method_call m)).

(** * The memory of a FileServer *)
(** The struct FileServer and an entry of its map. *)
Definition v_fs (root ver : value) (c : config) (L : layout) : value :=
  VStruct (str "FileServer") [(str "root", root); (str "rootPath", VStr (rootPath c)); (str "Versioned", ver); (str "IOunit", VU 32 (IOunit c));
    (str "mu", VStruct (str "sync.Mutex") []); (str "files", VPtr [] (a_files L) [])].
Definition v_file (f : Ufs.file) (oflow : value) : value :=
  VStruct (str "file") [(str "QID", v_qid (f_QID f)); (str "fullName", VStr (f_fullName f));
    (str "file", match f_file f with Some h => VFile h | None => VNil end); (str "oflow", oflow)].
(** The store holds a FileServer with settings c and the table u of fids; its mutex is not held.  Every fid has a struct file of its own. *)
Record holds {W} (c : config) (L : layout) (s : store W) (u : table) : Prop := {
  h_fs : exists root ver, heap s (a_fs L) = Some (v_fs root ver c L);
  h_user : heap s (a_user L) = Some (VStr (user c));
  h_files : exists t, heap s (a_files L) = Some (VMap VNil t) /\
    (forall fid, match t fid, u fid with
       | None, None => True
       | Some v, Some f => exists a o, v = VPtr (str "file") a [] /\ heap s a = Some (v_file f o) /\ bytes_v o = Some (f_oflow f)
       | _, _ => False
       end) /\
    (forall fid fid' a, t fid = Some (VPtr (str "file") a []) -> t fid' = Some (VPtr (str "file") a []) -> fid = fid');
  h_next : forall a, next s <= a -> heap s a = None;
  h_free : locked s = false }.
(** Operations other than those on the map, which the text does on its memory. *)
Definition external (e : event) : bool := match ev_op e with OGet _ | OPut _ _ | ODel _ | OSet _ _ => false | _ => true end.
(** The outcome of the text is the result r of the model. *)
Definition same_result {W} (m : tmsg) (r : option (answerOf rmsg)) (out : outcome) (s : store W) : Prop :=
  match r, out with
  | Some a, Returned vs => reply_of s m vs = Some a
  | None, Panicked => True
  | _, _ => False
  end.
