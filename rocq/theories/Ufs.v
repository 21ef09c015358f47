(** Model of filesystem/filesystem.go, ninep.go, ninep_unix.go and filesystem_unix.go: the file server ufs.

    A method is a program that acts on the fid table (under e.mu) and calls the operating system.  Every operation is
    recorded, so that statements about which calls are made, with which arguments and in which order, can be
    made; nothing is assumed about what the operating system answers. *)
From Verif Require Import Base GoBuf CodecPrim Types Codec Msgs StubPrim GoPath.

(** * Go's time and file information *)
(** int64(x) of a uint64 x. *)
Definition i64 (n : N) : Z :=
  let m := Z.of_N (n mod 18446744073709551616) in
  if (m <? 9223372036854775808)%Z then m else (m - 18446744073709551616)%Z.
(** uint64(z), uint32(z) of a signed integer z; int64 arithmetic wraps. *)
Definition u64_of_z (z : Z) : N := Z.to_N (z mod 18446744073709551616).
Definition wrap64 (z : Z) : Z := i64 (u64_of_z z).

(** time.Time: seconds since 1970 and nanoseconds within the second.  time.Unix(s, 0) is (s, 0). *)
Record time := mkTime { t_sec : Z; t_nsec : N }.
(** Time.UnixNano: (sec*1e9 + nsec) in int64 arithmetic. *)
Definition UnixNano (t : time) : Z := wrap64 (t_sec t * 1000000000 + Z.of_N (t_nsec t)).

(** os.FileInfo as os.Lstat, os.Stat and File.Readdir return it.  Mode is os.FileMode (32 bits); Sys is the inode number
    from *syscall.Stat_t, or nil. *)
Record FileInfo := mkFI { fi_Mode : N; fi_Name : bytes; fi_Size : Z; fi_ModTime : time; fi_Sys : option N }.
(** os.ModeDir, os.ModeSymlink; FileInfo.IsDir of package os is Mode().IsDir(). *)
Definition ModeDir : N := 2147483648.
Definition ModeSymlink : N := 134217728.
Definition IsDir (fi : FileInfo) : bool := negb (N.land (fi_Mode fi) ModeDir =? 0).

(** Errors of package os: io.EOF, which the server tells apart, or any other, given by its text. *)
Inductive oserr := EOF | OSErr (text : bytes).
Definition err_text (e : oserr) : bytes := match e with EOF => str "EOF" | OSErr t => t end.

(** * The operations *)
(** An *os.File, by a number. *)
Definition handle := N.
(** filesystem.go:23-31 *)
Record file := mkFile { f_QID : QID; f_fullName : bytes; f_file : option handle; f_oflow : bytes }.

Inductive op :=
(* e.mu.Lock(), e.mu.Unlock() *)
| OLock | OUnlock
(* f, ok := e.files[fid]; e.files[fid] = &f; delete(e.files, fid) *)
| OGet (fid : N) | OPut (fid : N) (f : file) | ODel (fid : N)
(* assignment to fields of *f, for the f that was found under fid *)
| OSet (fid : N) (f : file)
| OLstat (p : bytes) | OStat (p : bytes) | OOpen (p : bytes) (flags perm : N) | OMkdir (p : bytes) (perm : N)
| OChmod (p : bytes) (mode : N) | ORename (p p' : bytes) | OTruncate (p : bytes) (len : Z) | OChtimes (p : bytes) (at_ mt : time)
| ORemove (p : bytes)
(* methods of *os.File: Readdir(1), ReadAt(b, off) with len(b) = n, WriteAt(b, off), Seek(0, SeekStart), Sync, Close *)
| OReaddir (h : handle) | OReadAt (h : handle) (n : N) (off : Z) | OWriteAt (h : handle) (b : bytes) (off : Z)
| OSeek (h : handle) | OSync (h : handle) | OClose (h : handle).

(** What an operation answers.  ReadAt: the bytes it put into b and the error; WriteAt: the number of bytes written and
    the error; Readdir(1): one FileInfo or an error (never an empty slice without error). *)
Definition ret_of (o : op) : Type :=
  match o with
  | OLock | OUnlock | OPut _ _ | ODel _ | OSet _ _ => unit
  | OGet _ => option file
  | OLstat _ | OStat _ | OReaddir _ => oserr + FileInfo
  | OOpen _ _ _ => oserr + handle
  | OReadAt _ _ _ => bytes * option oserr
  | OWriteAt _ _ _ => Z * option oserr
  | OMkdir _ _ | OChmod _ _ | ORename _ _ | OTruncate _ _ | OChtimes _ _ _ | ORemove _ | OSeek _ | OSync _ | OClose _ => option oserr
  end.

(** Programs. *)
Inductive prog (A : Type) :=
| Ret (a : A)
| Call (o : op) (k : ret_of o -> prog A)
| Panic.
Arguments Ret {A}. Arguments Call {A}. Arguments Panic {A}.
Fixpoint bind {A B} (p : prog A) (k : A -> prog B) : prog B :=
  match p with
  | Ret a => k a
  | Call o c => Call o (fun x => bind (c x) k)
  | Panic => Panic
  end.
Notation "x <-- o ;; k" := (Call o (fun x => k)) (at level 61, right associativity).
Notation "o ;;; k" := (Call o (fun _ => k)) (at level 61, right associativity).
Notation "x <~ p ;; k" := (bind p (fun x => k)) (at level 61, right associativity).

(** * Conversions *)
(** O_RDONLY, O_WRONLY, O_RDWR, O_CREATE, O_TRUNC of package os on Linux. *)
Definition O_RDONLY : N := 0.
Definition O_WRONLY : N := 1.
Definition O_RDWR : N := 2.
Definition O_CREATE : N := 64.
Definition O_TRUNC : N := 512.

(** ninep.go:20-45 *)
Definition modeToUnixFlags (mode : N) : N :=
  let m := N.land mode 3 in
  let ret := if m =? OREAD then O_RDONLY else
             if m =? ORDWR then O_RDWR else
             if m =? OWRITE then O_WRONLY else
             if m =? OEXEC then O_RDONLY else 0 in
  if negb (N.land mode OTRUNC =? 0) then N.lor ret O_TRUNC else ret.
(** ninep.go:47-58 *)
Definition dirToQIDType (d : FileInfo) : N :=
  let ret := 0 in
  let ret := if IsDir d then N.lor ret QTDIR else ret in
  if negb (N.land (fi_Mode d) ModeSymlink =? 0) then N.lor ret QTSYMLINK else ret.
(** ninep.go:60-66 (0777 is 511) *)
Definition dirTo9p2000Mode (d : FileInfo) : N :=
  let ret := N.land (fi_Mode d) 511 in
  if IsDir d then N.lor ret DMDIR else ret.
(** ninep_unix.go:18-34; / truncates towards zero *)
Definition fileInfoToQID (d : FileInfo) : QID :=
  let path := match fi_Sys d with Some ino => ino | None => u64_of_z (UnixNano (fi_ModTime d)) end in
  mkQID (dirToQIDType d) (u32_of_z (Z.quot (UnixNano (fi_ModTime d)) 1000000)) path.
(** ninep.go:68-81; user: the -user flag (ninep.go:17).  It never fails. *)
Definition dirTo9p2000Dir (user : bytes) (fi : FileInfo) : Dir :=
  mkDir 0 0 (fileInfoToQID fi) (dirTo9p2000Mode fi) (u32_of_z (t_sec (fi_ModTime fi))) (u32_of_z (t_sec (fi_ModTime fi)))
        (u64_of_z (fi_Size fi)) (fi_Name fi) user user [].

(** * The methods *)
(** The settings: filesystem.go:33-38 and 449-456 (rootPath, IOunit), ninep.go:17 (user).
    Not in the model, because no method ever reads them: the fields root and Versioned of FileServer. *)
Record config := mkConfig { rootPath : bytes; user : bytes; IOunit : N }.

(** The result of a method: an error text or the values of the reply. *)
Definition answerOf (A : Type) : Type := bytes + A.
Definition fail {A} (e : bytes) : prog (answerOf A) := Ret (inl e).
Definition ok {A} (a : A) : prog (answerOf A) := Ret (inr a).

Section Methods.
Variable c : config.

(** filesystem.go:49-61, without the Dir, which no caller uses *)
Definition stat_ (s : bytes) : prog (answerOf QID) :=
  st <-- OLstat s ;;
  match st with
  | inl _ => fail (str "does not exist")
  | inr st => ok (fileInfoToQID st)
  end.

(** filesystem.go:63-69 *)
Definition Rversion_ (msize : N) (version : bytes) : prog (answerOf RversionPkt) :=
  if list_eq_dec Byte.byte_eq_dec version (str "9P2000")
  then ok (mkRversionPkt msize version)
  else fail (version ++ str " not supported; only 9P2000").

(** filesystem.go:71-80 *)
Definition getFile (fid : N) : prog (answerOf file) :=
  OLock ;;;
  f <-- OGet fid ;;
  OUnlock ;;;
  match f with
  | None => fail (str "does not exist")
  | Some f => ok f
  end.

(** filesystem.go:82-98 *)
Definition Rattach_ (fid afid : N) (uname aname : bytes) : prog (answerOf RattachPkt) :=
  if negb (afid =? NOFID) then fail (str "We don't do auth attach") else
  let aname := Join (str "/") aname in
  let aname := Join (rootPath c) aname in
  st <-- OStat aname ;;
  match st with
  | inl e => fail (err_text e)
  | inr st =>
      let r := mkFile (fileInfoToQID st) aname None [] in
      OPut fid r ;;;
      ok (mkRattachPkt (f_QID r))
  end.

(** filesystem.go:100-102 *)
Definition Rflush_ (o : N) : prog (answerOf RflushPkt) := ok mkRflushPkt.

(** filesystem.go:124-148, the loop of Rwalk from path p on; q: the qids of the elements walked so far. *)
Inductive walked := WFail (q : list QID) | WAll (p : bytes) (q : list QID).
Fixpoint walk_loop (p : bytes) (paths : list bytes) (q : list QID) : prog walked :=
  match paths with
  | [] => Ret (WAll p q)
  | e :: paths =>
      let p := Join p e in
      st <-- OLstat p ;;
      match st with
      | inl _ => Ret (WFail q)
      | inr st => walk_loop p paths (q ++ [fileInfoToQID st])
      end
  end.
(** fmt's %v of a []string *)
Fixpoint spaced (l : list bytes) : bytes := match l with [] => [] | [e] => e | e :: l => e ++ str " " ++ spaced l end.
(** filesystem.go:104-162 *)
Definition Rwalk_ (fid newfid : N) (paths : list bytes) : prog (answerOf RwalkPkt) :=
  OLock ;;;
  f <-- OGet fid ;;
  OUnlock ;;;
  match f with
  | None => fail (str "does not exist")
  | Some f =>
      match paths with
      | [] =>
          OLock ;;;
          g <-- OGet newfid ;;
          match g with
          | Some _ => OUnlock ;;; fail (str "FID in use: clone walk, fid " ++ dec fid ++ str " newfid " ++ dec newfid)
          | None => OPut newfid f ;;; OUnlock ;;; ok (mkRwalkPkt [])
          end
      | _ =>
          w <~ walk_loop (f_fullName f) paths [] ;;
          match w with
          | WFail q =>
              match q with
              | [] => fail (str "file does not exist")
              | _ => ok (mkRwalkPkt q)
              end
          | WAll p q =>
              OLock ;;;
              let store := OPut newfid (mkFile (last q zeroQID) p None []) ;;; OUnlock ;;; ok (mkRwalkPkt q) in
              if negb (fid =? newfid) then
                g <-- OGet newfid ;;
                match g with
                | Some _ => OUnlock ;;; fail (str "FID in use: walk to [" ++ spaced paths ++ str "], fid " ++ dec fid ++ str ", newfid " ++ dec newfid)
                | None => store
                end
              else store
          end
      end
  end.

(** filesystem.go:164-179; os.OpenFile returns a nil file with an error *)
Definition Ropen_ (fid mode : N) : prog (answerOf RopenPkt) :=
  OLock ;;;
  f <-- OGet fid ;;
  OUnlock ;;;
  match f with
  | None => fail (str "does not exist")
  | Some f =>
      r <-- OOpen (f_fullName f) (modeToUnixFlags mode) 0 ;;
      match r with
      | inl e => OSet fid (mkFile (f_QID f) (f_fullName f) None (f_oflow f)) ;;; fail (err_text e)
      | inr h => OSet fid (mkFile (f_QID f) (f_fullName f) (Some h) (f_oflow f)) ;;; ok (mkRopenPkt (f_QID f) (IOunit c))
      end
  end.

(** filesystem.go:180-215.  The error of Mkdir is overwritten by the one of stat. *)
Definition Rcreate_ (fid : N) (name : bytes) (perm mode : N) : prog (answerOf RcreatePkt) :=
  f <~ getFile fid ;;
  match f with
  | inl e => fail e
  | inr f =>
      match f_file f with
      | Some _ => fail (str "FID already open")
      | None =>
          let n := Join (f_fullName f) name in
          if negb (N.land perm DMDIR =? 0) then
            _ <-- OMkdir n (N.land perm 511) ;;
            q <~ stat_ n ;;
            match q with
            | inl e => fail e
            | inr q => OSet fid (mkFile q n (f_file f) (f_oflow f)) ;;; ok (mkRcreatePkt q 8000)
            end
          else
            let m := N.lor (N.lor (modeToUnixFlags mode) O_CREATE) O_TRUNC in
            of <-- OOpen n m (N.land perm 511) ;;
            match of with
            | inl e => fail (err_text e)
            | inr of =>
                q <~ stat_ n ;;
                match q with
                | inl e => fail e
                | inr q => OSet fid (mkFile q n (Some of) (f_oflow f)) ;;; ok (mkRcreatePkt q 8000)
                end
            end
      end
  end.

(** filesystem.go:336-352.  The error of Close goes to the log. *)
Definition clunk (fid : N) : prog (answerOf file) :=
  OLock ;;;
  f <-- OGet fid ;;
  match f with
  | None => OUnlock ;;; fail (str "does not exist")
  | Some f =>
      ODel fid ;;;
      match f_file f with
      | Some h => _ <-- OClose h ;; OUnlock ;;; ok f
      | None => OUnlock ;;; ok f
      end
  end.
(** filesystem.go:216-219 *)
Definition Rclunk_ (fid : N) : prog (answerOf RclunkPkt) :=
  f <~ clunk fid ;;
  match f with inl e => fail e | inr _ => ok mkRclunkPkt end.
(** filesystem.go:356-362 *)
Definition Rremove_ (fid : N) : prog (answerOf RremovePkt) :=
  f <~ clunk fid ;;
  match f with
  | inl e => fail e
  | inr f =>
      r <-- ORemove (f_fullName f) ;;
      match r with Some e => fail (err_text e) | None => ok mkRremovePkt end
  end.

(** filesystem.go:221-237 *)
Definition Rstat_ (fid : N) : prog (answerOf RstatPkt) :=
  f <~ getFile fid ;;
  match f with
  | inl e => fail e
  | inr f =>
      st <-- OLstat (f_fullName f) ;;
      match st with
      | inl _ => fail (str "ENOENT")
      | inr st => ok (mkRstatPkt (Marshaldir (dirTo9p2000Dir (user c) st)))
      end
  end.

(** [if cond { o; if err != nil { return err } }], continuing with k. *)
Definition when {A} (cond : bool) (p : prog (answerOf unit)) (k : prog (answerOf A)) : prog (answerOf A) :=
  if cond then r <~ p ;; match r with inl e => fail e | inr _ => k end else k.
Definition try_ (r : option oserr) : prog (answerOf unit) := match r with Some e => fail (err_text e) | None => ok tt end.

Definition dontcare32 : N := 4294967295.
Definition dontcare64 : N := 18446744073709551615.
Definition is_nil (b : bytes) : bool := match b with [] => true | _ => false end.

(** filesystem.go:268-299: the new name; on success f.fullName is the new name *)
Definition new_name (full name : bytes) : bytes :=
  if IsAbs name then Join (rootPath c) name else Join (Dirname full) (Join (str "/") name).
Definition wstat_rename (fid : N) (f : file) (d : Dir) : prog (answerOf file) :=
  if is_nil (Dir_Name d) then ok f else
  let newname := new_name (f_fullName f) (Dir_Name d) in
  st <-- OStat newname ;;
  if match st with inr st => IsDir st | inl _ => false end then fail (str "is a directory") else
  r <-- ORename (f_fullName f) newname ;;
  match r with
  | Some e => fail (err_text e)
  | None => let f := mkFile (f_QID f) newname (f_file f) (f_oflow f) in OSet fid f ;;; ok f
  end.
(** filesystem.go:308-329 *)
Definition wstat_times (f : file) (d : Dir) : prog (answerOf unit) :=
  let mt := mkTime (Z.of_N (Dir_Mtime d)) 0 in
  let at_ := mkTime (Z.of_N (Dir_Atime d)) 0 in
  let cmt := Dir_Mtime d =? dontcare32 in
  let cat := Dir_Atime d =? dontcare32 in
  if cmt || cat then
    st <-- OStat (f_fullName f) ;;
    match st with
    | inl e => fail (err_text e)
    | inr st =>
        let mt := if cmt then fi_ModTime st else mt in
        r <-- OChtimes (f_fullName f) at_ mt ;; try_ r
    end
  else r <-- OChtimes (f_fullName f) at_ mt ;; try_ r.
(** filesystem.go:238-334.  The record is decoded from a slice of the request buffer; Unmarshaldir never looks past
    its end (Unmarshaldir_spare in UfsLemmas4.v), so the capacity behind it does not matter. *)
Definition Rwstat_ (fid : N) (b : bytes) : prog (answerOf RwstatPkt) :=
  f <~ getFile fid ;;
  match f with
  | inl e => fail e
  | inr f =>
      match Unmarshaldir (Buf b []) with
      | UPanic => Panic
      | URet _ _ _ (Some err) => fail err
      | URet d _ _ None =>
          let chmod := negb (Dir_Mode d =? dontcare32) in
          let rename := negb (is_nil (Dir_Name d)) in
          let trunc := negb (Dir_Length d =? dontcare64) in
          let times := negb (Dir_Mtime d =? dontcare32) || negb (Dir_Atime d =? dontcare32) in
          when chmod (r <-- OChmod (f_fullName f) (N.land (Dir_Mode d) 511) ;; try_ r) (
          if negb (is_nil (Dir_User d)) || negb (is_nil (Dir_Group d)) then fail (str "Permission denied") else
          f <~ wstat_rename fid f d ;;
          match f with
          | inl e => fail e
          | inr f =>
              when trunc (r <-- OTruncate (f_fullName f) (i64 (Dir_Length d)) ;; try_ r) (
              when times (wstat_times f d) (
              if negb (chmod || rename || trunc || times) then
                match f_file f with
                | Some h => _ <-- OSync h ;; ok mkRwstatPkt
                | None => ok mkRwstatPkt
                end
              else ok mkRwstatPkt))
          end)
      end
  end.

(** filesystem.go:364-430.  In the directory branch the loop is left in its first turn on every path.
    Simplification: a file whose qid says directory is read with Readdir, whatever the handle is; what that answers
    is up to the operating system, as everything else. *)
Definition Rread_ (fid o : N) (count : Z) : prog (answerOf RreadPkt) :=
  f <~ getFile fid ;;
  match f with
  | inl e => fail e
  | inr f =>
      match f_file f with
      | None => fail (str "FID not open")
      | Some h =>
          let setflow (fl : bytes) := OSet fid (mkFile (f_QID f) (f_fullName f) (f_file f) fl) in
          if negb (N.land (QID_Type (f_QID f)) QTDIR =? 0) then
            let entry (b : bytes) :=
              setflow [] ;;;
              if (count <? Z.of_N (blen b))%Z then setflow b ;;; ok (mkRreadPkt [])
              else
                st <-- OReaddir h ;;
                match st with
                | inl EOF => ok (mkRreadPkt b)
                | inl e => fail (err_text e)
                | inr st =>
                    let b := Marshaldir (dirTo9p2000Dir (user c) st) in (* Marshaldir resets the buffer *)
                    if (count <? Z.of_N (blen b))%Z then ok (mkRreadPkt []) else ok (mkRreadPkt b)
                end in
            if o =? 0 then
              setflow [] ;;;
              r <-- OSeek h ;;
              match r with
              | Some e => fail (err_text e)
              | None => entry []
              end
            else entry (f_oflow f)
          else if (count <? 0)%Z then Panic (* make([]byte, c) *)
          else
            r <-- OReadAt h (Z.to_N count) (i64 o) ;;
            let (b, err) := r in
            match err with
            | None | Some EOF => if (count <? Z.of_N (blen b))%Z then Panic (* b[:n] with n beyond its end *) else ok (mkRreadPkt b)
            | Some e => fail (err_text e)
            end
      end
  end.

(** filesystem.go:432-447; Count(n) keeps the low 32 bits *)
Definition Rwrite_ (fid o : N) (b : bytes) : prog (answerOf RwritePkt) :=
  f <~ getFile fid ;;
  match f with
  | inl e => fail e
  | inr f =>
      match f_file f with
      | None => fail (str "FID not open")
      | Some h =>
          r <-- OWriteAt h b (i64 o) ;;
          let (n, err) := r in
          match err with
          | Some e => fail (err_text e)
          | None => ok (mkRwritePkt (i32 (u32_of_z n)))
          end
      end
  end.

(** The method that answers a request. *)
Definition wrapR {A} (f : A -> rmsg) (p : prog (answerOf A)) : prog (answerOf rmsg) :=
  r <~ p ;; Ret (match r with inl e => inl e | inr a => inr (f a) end).
Definition method (m : tmsg) : prog (answerOf rmsg) :=
  match m with
  | MTversion (mkTversionPkt a b) => wrapR MRversion (Rversion_ a b)
  | MTattach (mkTattachPkt a b d e) => wrapR MRattach (Rattach_ a b d e)
  | MTflush (mkTflushPkt a) => wrapR MRflush (Rflush_ a)
  | MTwalk (mkTwalkPkt a b d) => wrapR MRwalk (Rwalk_ a b d)
  | MTopen (mkTopenPkt a b) => wrapR MRopen (Ropen_ a b)
  | MTcreate (mkTcreatePkt a b d e) => wrapR MRcreate (Rcreate_ a b d e)
  | MTread (mkTreadPkt a b d) => wrapR MRread (Rread_ a b d)
  | MTwrite (mkTwritePkt a b d) => wrapR MRwrite (Rwrite_ a b d)
  | MTclunk (mkTclunkPkt a) => wrapR MRclunk (Rclunk_ a)
  | MTremove (mkTremovePkt a) => wrapR MRremove (Rremove_ a)
  | MTstat (mkTstatPkt a) => wrapR MRstat (Rstat_ a)
  | MTwstat (mkTwstatPkt a b) => wrapR MRwstat (Rwstat_ a b)
  end.
End Methods.

(** * Running a method *)
(** The fid table.  A method is run to its end before the next request on the same connection is looked at
    (server.go:213-243), and every connection has its own FileServer (filesystem.go:450-461), so nothing else touches the
    table meanwhile. *)
Definition table := N -> option file.
Definition set_fid (u : table) (fid : N) (f : option file) : table := fun x => if x =? fid then f else u x.
(** The entry f points to is the one in the table, as long as it is there. *)
Definition poke (u : table) (fid : N) (f : file) : table :=
  match u fid with Some _ => set_fid u fid (Some f) | None => u end.
(** Effect of an operation on the table; the operating system does not see it. *)
Definition effect (o : op) (u : table) : table :=
  match o with
  | OPut fid f => set_fid u fid (Some f)
  | ODel fid => set_fid u fid None
  | OSet fid f => poke u fid f
  | _ => u
  end.
(** What the operation may answer: looking up a fid answers what is in the table, everything else is free. *)
Definition allowed (u : table) (o : op) : ret_of o -> Prop :=
  match o return ret_of o -> Prop with OGet fid => fun x => x = u fid | _ => fun _ => True end.
Record event := Ev { ev_op : op; ev_ret : ret_of ev_op }.
(** [exec p u tr r u']: from table u, program p can do the operations tr (with their answers), and end with result r
    (None: it panicked) and table u'. *)
Fixpoint exec {A} (p : prog A) (u : table) (tr : list event) (r : option A) (u' : table) : Prop :=
  match p with
  | Ret a => tr = [] /\ r = Some a /\ u' = u
  | Panic => tr = [] /\ r = None /\ u' = u
  | Call o k => exists x tr', tr = Ev o x :: tr' /\ allowed u o x /\ exec (k x) (effect o u) tr' r u'
  end.

(** An operating system given by a function: the state of the world and a call determine the answer and the next
    state.  Table operations are answered by the table. *)
Definition os (W : Type) := forall o : op, W -> ret_of o * W.
Definition answer_op {W} (h : os W) (u : table) (o : op) (w : W) : ret_of o * W :=
  match o return ret_of o * W with
  | OLock => (tt, w) | OUnlock => (tt, w) | OGet fid => (u fid, w) | OPut fid f => (tt, w) | ODel fid => (tt, w) | OSet fid f => (tt, w)
  | o => h o w
  end.
Fixpoint run_prog {A W} (h : os W) (p : prog A) (u : table) (w : W) : option A * table * W * list event :=
  match p with
  | Ret a => (Some a, u, w, [])
  | Panic => (None, u, w, [])
  | Call o k =>
      let (x, w) := answer_op h u o w in
      let '(r, u, w, tr) := run_prog h (k x) (effect o u) w in (r, u, w, Ev o x :: tr)
  end.

(** The file server as a NineServer (filesystem.go:449-461), on a given operating system. *)
Definition to_ns {W A} (h : os W) (p : prog (answerOf A)) (s : table * W) : nsres (table * W) A :=
  let '(r, u, w, _) := run_prog h p (fst s) (snd s) in
  match r with
  | None => NSPanic
  | Some (inl e) => NSErr (u, w) e
  | Some (inr a) => NSOk (u, w) a
  end.
Definition ufs {W} (c : config) (h : os W) : NineServer (table * W) :=
  mkNineServer (table * W)
    (fun s a b => to_ns h (Rversion_ a b) s)
    (fun s a b d e => to_ns h (Rattach_ c a b d e) s)
    (fun s a b d => to_ns h (Rwalk_ a b d) s)
    (fun s a b => to_ns h (Ropen_ c a b) s)
    (fun s a b d e => to_ns h (Rcreate_ a b d e) s)
    (fun s a => to_ns h (Rstat_ c a) s)
    (fun s a b => to_ns h (Rwstat_ c a b) s)
    (fun s a => to_ns h (Rclunk_ a) s)
    (fun s a => to_ns h (Rremove_ a) s)
    (fun s a b d => to_ns h (Rread_ c a b d) s)
    (fun s a b d => to_ns h (Rwrite_ a b d) s)
    (fun s a => to_ns h (Rflush_ a) s).
(** filesystem.go:451-453: no fids. *)
Definition no_fids : table := fun _ => None.
