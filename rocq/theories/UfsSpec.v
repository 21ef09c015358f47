(** What is said about the file server: histories of requests, which fids are valid after them, the calls made to the
    operating system. *)
From Verif Require Import Base GoBuf CodecPrim Types Codec Msgs StubPrim GoPath PathSpec Ufs.

(** * Histories of one connection *)
(** One request: the table it started from, the request, what it did, how it ended (None: panic), the table it left. *)
Record step := mkStep { s_pre : table; s_req : tmsg; s_tr : list event; s_res : option (answerOf rmsg); s_post : table }.
(** Any sequence of requests on a new connection, with any answers of the operating system.  (A history may go on after a
    panic, which a real process does not; statements about all histories only get stronger by that.) *)
Inductive hist (c : config) : list step -> table -> Prop :=
| h_nil : hist c [] no_fids
| h_snoc h u m tr r u' : hist c h u -> exec (method c m) u tr r u' -> hist c (h ++ [mkStep u m tr r u']) u'.

(** * Fids *)
(** The fid a request is about; it must be valid. *)
Definition subject (m : tmsg) : option N :=
  match m with
  | MTversion _ | MTattach _ | MTflush _ => None
  | MTwalk p => Some (Twalk_SFID p) | MTopen p => Some (Topen_OFID p) | MTcreate p => Some (Tcreate_OFID p)
  | MTread p => Some (Tread_OFID p) | MTwrite p => Some (Twrite_OFID p) | MTclunk p => Some (Tclunk_OFID p)
  | MTremove p => Some (Tremove_OFID p) | MTstat p => Some (Tstat_OFID p) | MTwstat p => Some (Twstat_OFID p)
  end.
(** A successful attach, or a walk that got through all names, makes a fid valid; a clunk or remove request makes it
    invalid. *)
Definition introduces (m : tmsg) (r : option (answerOf rmsg)) : option N :=
  match m, r with
  | MTattach p, Some (inr _) => Some (Tattach_SFID p)
  | MTwalk p, Some (inr (MRwalk q)) =>
      if Nat.eqb (List.length (Rwalk_QIDs q)) (List.length (Twalk_Paths p)) then Some (Twalk_NewFID p) else None
  | _, _ => None
  end.
Definition forgets (m : tmsg) : option N :=
  match m with MTclunk p => Some (Tclunk_OFID p) | MTremove p => Some (Tremove_OFID p) | _ => None end.
Definition names_fid (o : option N) (fid : N) : bool := match o with Some x => fid =? x | None => false end.
(** Valid after the history (latest request last). *)
Definition valid_step (fid : N) (b : bool) (s : step) : bool :=
  if names_fid (introduces (s_req s) (s_res s)) fid then true
  else if names_fid (forgets (s_req s)) fid then false else b.
Definition valid (h : list step) (fid : N) : bool := fold_left (valid_step fid) h false.

(** * Calls to the operating system *)
Definition is_table (o : op) : bool :=
  match o with OLock | OUnlock | OGet _ | OPut _ _ | ODel _ | OSet _ _ => true | _ => false end.
Definition calls (tr : list event) : list event := filter (fun e => negb (is_table (ev_op e))) tr.
(** The file names a call is given. *)
Definition paths_of (o : op) : list bytes :=
  match o with
  | OLstat p | OStat p | OOpen p _ _ | OMkdir p _ | OChmod p _ | OTruncate p _ | OChtimes p _ _ | ORemove p => [p]
  | ORename p p' => [p; p']
  | _ => []
  end.
(** Calls that can change a file system. *)
Definition mutates (o : op) : bool :=
  match o with
  | OMkdir _ _ | OChmod _ _ | ORename _ _ | OTruncate _ _ | OChtimes _ _ _ | ORemove _ | OWriteAt _ _ _ => true
  | OOpen _ flags _ => negb (N.land flags O_TRUNC =? 0) || negb (N.land flags O_CREATE =? 0)
  | _ => false
  end.
(** The call was answered without an error. *)
Definition succeeded (e : event) : bool :=
  match e with
  | Ev o x => match o return ret_of o -> bool with
    | OLstat _ | OStat _ | OReaddir _ => fun x => match x with inr _ => true | _ => false end
    | OOpen _ _ _ => fun x => match x with inr _ => true | _ => false end
    | OReadAt _ _ _ => fun x => match snd x with None => true | _ => false end
    | OWriteAt _ _ _ => fun x => match snd x with None => true | _ => false end
    | OMkdir _ _ | OChmod _ _ | ORename _ _ | OTruncate _ _ | OChtimes _ _ _ | ORemove _ | OSeek _ | OSync _ | OClose _ =>
        fun x => match x with None => true | _ => false end
    | _ => fun _ => true
    end x
  end.
(** Calls that did change the file system. *)
Definition changes (tr : list event) : list event := filter (fun e => mutates (ev_op e) && succeeded e) tr.

(** * Open files *)
(** The open file of a fid. *)
Definition held (u : table) (fid : N) : option handle := match u fid with Some f => f_file f | None => None end.
(** The open file a call works on. *)
Definition handle_of (o : op) : option handle :=
  match o with
  | OReaddir h | OReadAt h _ _ | OWriteAt h _ _ | OSeek h | OSync h | OClose h => Some h
  | _ => None
  end.
(** The files opened and closed, in order. *)
Definition opens1 (e : event) : list handle :=
  match e with
  | Ev o x => match o return ret_of o -> list handle with
    | OOpen _ _ _ => fun x => match x with inr h => [h] | inl _ => [] end
    | _ => fun _ => []
    end x
  end.
Definition closes1 (e : event) : list handle := match ev_op e with OClose h => [h] | _ => [] end.
Definition opens (tr : list event) : list handle := flat_map opens1 tr.
Definition closes (tr : list event) : list handle := flat_map closes1 tr.
(** Everything that was done in a history. *)
Definition trace (h : list step) : list event := flat_map s_tr h.
(** Every successful open yields another *os.File. *)
Definition distinct_files (h : list step) : Prop := NoDup (opens (trace h)).
(** The only fid whose entry a request may change. *)
Definition affected (m : tmsg) : option N :=
  match m with
  | MTattach p => Some (Tattach_SFID p)
  | MTwalk p => Some (Twalk_NewFID p)
  | _ => subject m
  end.
(** Not a clone of an open fid. *)
Definition no_open_clone (s : step) : Prop :=
  match s_req s with MTwalk p => Twalk_Paths p = [] -> held (s_pre s) (Twalk_SFID p) = None | _ => True end.
(** The requests after which no open file is lost: no fid that is open is opened again, attached again, walked onto
    itself or cloned, and no create fails after it opened the file. *)
Definition tidy (s : step) : Prop :=
  match s_req s with
  | MTattach p => held (s_pre s) (Tattach_SFID p) = None
  | MTwalk p => (Twalk_Paths p = [] \/ Twalk_NewFID p = Twalk_SFID p) -> held (s_pre s) (Twalk_SFID p) = None
  | MTopen p => held (s_pre s) (Topen_OFID p) = None
  | MTcreate _ => opens (s_tr s) <> [] -> exists a, s_res s = Some (inr a)
  | _ => True
  end.

(** * Attributes *)
(** The values of a wstat that mean: leave it alone. *)
Definition keep32 : N := 4294967295.
Definition keep64 : N := 18446744073709551615.
Inductive attr := AMode | AName | ALength | ATimes.
(** The attributes a wstat record gives, in the order in which the server looks at them. *)
Definition given (d : Dir) : list attr :=
  (if Dir_Mode d =? keep32 then [] else [AMode]) ++
  (match Dir_Name d with [] => [] | _ => [AName] end) ++
  (if Dir_Length d =? keep64 then [] else [ALength]) ++
  (if (Dir_Mtime d =? keep32) && (Dir_Atime d =? keep32) then [] else [ATimes]).
Definition attr_of (o : op) : option attr :=
  match o with
  | OChmod _ _ => Some AMode | ORename _ _ => Some AName | OTruncate _ _ => Some ALength | OChtimes _ _ _ => Some ATimes
  | _ => None
  end.
(** The attributes that were changed. *)
Definition changed (tr : list event) : list (option attr) := map (fun e => attr_of (ev_op e)) (changes tr).

(** The name a file has after a wstat that succeeded. *)
Definition name_after (c : config) (f : file) (d : Dir) : bytes :=
  match Dir_Name d with
  | [] => f_fullName f
  | n => if IsAbs n then Join (rootPath c) n else Join (Dirname (f_fullName f)) (Join (str "/") n)
  end.
(** What a wstat with record d may ask of the operating system: only attributes the record gives, with these values (the
    mode loses all but its nine low bits; an access time is always set).  tr: everything done for this request. *)
Definition wstat_call (c : config) (f : file) (d : Dir) (tr : list event) (o : op) : Prop :=
  match o with
  | OChmod p m => p = f_fullName f /\ Dir_Mode d <> keep32 /\ m = N.land (Dir_Mode d) 511
  | ORename p p' => p = f_fullName f /\ Dir_Name d <> [] /\ p' = name_after c f d
  | OTruncate p n => p = name_after c f d /\ Dir_Length d <> keep64 /\ n = i64 (Dir_Length d)
  | OChtimes p at_ mt =>
      p = name_after c f d /\ (Dir_Mtime d <> keep32 \/ Dir_Atime d <> keep32) /\ at_ = mkTime (Z.of_N (Dir_Atime d)) 0 /\
      (if Dir_Mtime d =? keep32 then exists fi, In (Ev (OStat p) (inr fi)) tr /\ mt = fi_ModTime fi
       else mt = mkTime (Z.of_N (Dir_Mtime d)) 0)
  | OStat p => p = name_after c f d
  | OSync h => f_file f = Some h /\ given d = []
  | _ => False
  end.

(** The file was renamed. *)
Definition is_rename (e : event) : bool :=
  match e with
  | Ev o x => match o return ret_of o -> bool with ORename _ _ => fun x => match x with None => true | Some _ => false end | _ => fun _ => false end x
  end.
Definition renamed (tr : list event) : bool := existsb is_rename tr.
(** What the operating system answered to Stat. *)
Definition stat1 (e : event) : list (oserr + FileInfo) :=
  match e with
  | Ev o x => match o return ret_of o -> list (oserr + FileInfo) with OStat _ => fun x => [x] | _ => fun _ => [] end x
  end.
Definition stats (tr : list event) : list (oserr + FileInfo) := flat_map stat1 tr.

(** * Directory reading *)
(** What is sent for one answer of Readdir, when there is room for n bytes. *)
Definition entry_reply (name : bytes) (n : Z) (y : oserr + FileInfo) : answerOf rmsg :=
  match y with
  | inl EOF => inr (MRread (mkRreadPkt []))
  | inl e => inl (err_text e)
  | inr fi => let b := Marshaldir (dirTo9p2000Dir name fi) in inr (MRread (mkRreadPkt (if (Z.of_N (blen b) <=? n)%Z then b else [])))
  end.
(** Requests one after another. *)
Fixpoint chain (c : config) (u : table) (ss : list step) : Prop :=
  match ss with
  | [] => True
  | s :: ss => s_pre s = u /\ exec (method c (s_req s)) u (s_tr s) (s_res s) (s_post s) /\ chain c (s_post s) ss
  end.
(** Reads of fid: the first at offset 0, the others elsewhere. *)
Fixpoint dir_reads (fid : N) (start : bool) (ss : list step) : Prop :=
  match ss with
  | [] => True
  | s :: ss =>
      (exists o n, s_req s = MTread (mkTreadPkt fid o n) /\ (if start then o = 0 else o <> 0)) /\ dir_reads fid false ss
  end.
Definition count_of (s : step) : Z := match s_req s with MTread p => Tread_Len p | _ => 0%Z end.
(** What the operating system answered to Readdir, and whether it could rewind the directory. *)
Definition entry1 (e : event) : list (oserr + FileInfo) :=
  match e with
  | Ev o x => match o return ret_of o -> list (oserr + FileInfo) with OReaddir _ => fun x => [x] | _ => fun _ => [] end x
  end.
Definition entries (tr : list event) : list (oserr + FileInfo) := flat_map entry1 tr.
Definition rewound (tr : list event) : Prop := forall h x, In (Ev (OSeek h) x) tr -> x = None.

(** * Names *)
(** The exported directory. *)
Definition export (c : config) : bytes := Join (rootPath c) (str "/").
(** Walking elements one by one. *)
Definition path_to (p : bytes) (els : list bytes) : bytes := fold_left Join els p.
(** The lookups of a walk that reached the files [infos]. *)
Fixpoint lookups (p : bytes) (els : list bytes) (infos : list FileInfo) : list event :=
  match els, infos with
  | e :: els, fi :: infos => Ev (OLstat (Join p e)) (inr fi) :: lookups (Join p e) els infos
  | _, _ => []
  end.

(** The requests that do not try to leave the exported directory: no ".." in the names of a walk or create or in an
    absolute new name, and no relative new name for the exported directory itself (s_pre: the fid table before the
    request). *)
Definition careful (c : config) (s : step) : Prop :=
  match s_req s with
  | MTwalk p => Forall no_dotdot (Twalk_Paths p)
  | MTcreate p => no_dotdot (Tcreate_Name p)
  | MTwstat p =>
      forall d t rest, Unmarshaldir (Buf (Twstat_B p) []) = URet d t rest None -> Dir_Name d <> [] ->
        if IsAbs (Dir_Name d) then no_dotdot (Dir_Name d)
        else forall f, s_pre s (Twstat_OFID p) = Some f -> strictly_inside (export c) (f_fullName f)
  | _ => True
  end.

(** * Locking *)
(** A table access needs the lock; taking it twice or releasing it twice is wrong (None). *)
Definition touches_table (o : op) : bool := match o with OGet _ | OPut _ _ | ODel _ => true | _ => false end.
Fixpoint lock_state (held : bool) (tr : list event) : option bool :=
  match tr with
  | [] => Some held
  | e :: tr =>
      match ev_op e with
      | OLock => if held then None else lock_state true tr
      | OUnlock => if held then lock_state false tr else None
      | o => if touches_table o && negb held then None else lock_state held tr
      end
  end.
(** Every access under the lock, and the lock free at the end. *)
Definition disciplined (tr : list event) : Prop := lock_state false tr = Some false.
