(** A small operating system: files in memory.  This is no part of /repo.  It stands for what package os documents about
    ReadAt, WriteAt, OpenFile and so on, where a property is about file contents, and it makes concrete runs of
    the file server possible.
    Simplifications: no symbolic links, no permission checks, and time stands still. *)
From Verif Require Import Base GoBuf CodecPrim Types Codec Msgs StubPrim GoPath PathSpec Ufs UfsSpec.

Record node := mkNode { n_dir : bool; n_mode : N; n_data : bytes; n_mtime : time; n_atime : time }.
(** An open file: the node, whether it may be read and written, the directory entries still to be delivered. *)
Record ofile := mkOfile { o_ino : N; o_read : bool; o_write : bool; o_left : option (list bytes) }.
(** Names (clean paths) of nodes; nodes without a name stay, as they may be open. *)
Record world := mkWorld { w_names : list (bytes * N); w_nodes : N -> node; w_next : N; w_files : handle -> option ofile; w_nexth : handle; w_now : time }.

Definition upd {A} (f : N -> A) (k : N) (v : A) : N -> A := fun x => if x =? k then v else f x.
Fixpoint find_name (l : list (bytes * N)) (p : bytes) : option N :=
  match l with [] => None | (q, i) :: l => if bytes_eqb p q then Some i else find_name l p end.
Definition lookup (w : world) (p : bytes) : option N := find_name (w_names w) p.
Definition base (p : bytes) : bytes := last (names p) (str "/").
Definition info (w : world) (p : bytes) (i : N) : FileInfo :=
  let n := w_nodes w i in
  mkFI (N.lor (n_mode n) (if n_dir n then ModeDir else 0)) (base p) (Z.of_N (blen (n_data n))) (n_mtime n) (Some i).

(** The bytes after writing b at offset off; a gap is filled with zeroes.  Writing nothing changes nothing: File.WriteAt
    then makes no system call. *)
Definition write_at (d : bytes) (off : nat) (b : bytes) : bytes :=
  match b with
  | [] => d
  | _ => firstn off d ++ repeat x00 (off - List.length d) ++ b ++ skipn (off + List.length b) d
  end.
Definition resize (d : bytes) (n : nat) : bytes := firstn n d ++ repeat x00 (n - List.length d).
(** n bytes from offset off, as far as there are any. *)
Definition slice (d : bytes) (off n : nat) : bytes := firstn n (skipn off d).

Definition set_names (w : world) l := mkWorld l (w_nodes w) (w_next w) (w_files w) (w_nexth w) (w_now w).
Definition set_node (w : world) i n := mkWorld (w_names w) (upd (w_nodes w) i n) (w_next w) (w_files w) (w_nexth w) (w_now w).
Definition set_data (w : world) i d :=
  let n := w_nodes w i in set_node w i (mkNode (n_dir n) (n_mode n) d (w_now w) (n_atime n)).
Definition set_file (w : world) h f := mkWorld (w_names w) (w_nodes w) (w_next w) (upd (w_files w) h f) (w_nexth w) (w_now w).
Definition add_node (w : world) p n :=
  mkWorld ((p, w_next w) :: w_names w) (upd (w_nodes w) (w_next w) n) (w_next w + 1) (w_files w) (w_nexth w) (w_now w).
Definition open_ (w : world) i (flags : N) : handle * world :=
  let acc := N.land flags 3 in
  (w_nexth w, mkWorld (w_names w) (w_nodes w) (w_next w)
     (upd (w_files w) (w_nexth w) (Some (mkOfile i (negb (acc =? 1)) (negb (acc =? 0)) None))) (w_nexth w + 1) (w_now w)).
Definition is_dir (w : world) (p : bytes) : bool := match lookup w p with Some i => n_dir (w_nodes w i) | None => false end.
Definition under (d p : bytes) : bool := bytes_eqb (firstn (List.length d + 1) p) (d ++ [slash]).
Definition children (w : world) (i : N) : list bytes :=
  let dirs := map fst (filter (fun q => snd q =? i) (w_names w)) in
  filter (fun p => existsb (fun d => bytes_eqb (Dirname p) d && negb (bytes_eqb p d)) dirs) (map fst (w_names w)).

Definition noent := OSErr (str "no such file or directory").
Definition exist := OSErr (str "file exists").
Definition isdir := OSErr (str "is a directory").
Definition notdir := OSErr (str "not a directory").
Definition inval := OSErr (str "invalid argument").
Definition badf := OSErr (str "bad file descriptor").
Definition notempty := OSErr (str "directory not empty").
Definition os_closed := OSErr (str "file already closed").

Definition os_open (w : world) (p : bytes) (flags perm : N) : (oserr + handle) * world :=
  match lookup w p with
  | Some i =>
      if n_dir (w_nodes w i) && negb (flags =? 0) then (inl isdir, w) else
      let w := if negb (N.land flags O_TRUNC =? 0) then set_data w i [] else w in
      let (h, w) := open_ w i flags in (inr h, w)
  | None =>
      if N.land flags O_CREATE =? 0 then (inl noent, w) else
      if negb (is_dir w (Dirname p)) then (inl noent, w) else
      let i := w_next w in
      let (h, w) := open_ (add_node w p (mkNode false perm [] (w_now w) (w_now w))) i flags in (inr h, w)
  end.
Definition os_mkdir (w : world) (p : bytes) (perm : N) : option oserr * world :=
  match lookup w p with
  | Some _ => (Some exist, w)
  | None => if negb (is_dir w (Dirname p)) then (Some noent, w) else (None, add_node w p (mkNode true perm [] (w_now w) (w_now w)))
  end.
Definition moved (p p' q : bytes) : bytes :=
  if bytes_eqb q p then p' else if under p q then p' ++ skipn (List.length p) q else q.
Definition os_rename (w : world) (p p' : bytes) : option oserr * world :=
  match lookup w p with
  | None => (Some noent, w)
  | Some i =>
      if bytes_eqb p p' then (None, w) else
      if under p p' then (Some inval, w) else
      if negb (is_dir w (Dirname p')) then (Some noent, w) else
      if is_dir w p' then (Some exist, w) else
      if match lookup w p' with Some _ => n_dir (w_nodes w i) | None => false end then (Some notdir, w) else
      (None, set_names w (map (fun q => (moved p p' (fst q), snd q)) (filter (fun q => negb (bytes_eqb (fst q) p')) (w_names w))))
  end.
Definition os_remove (w : world) (p : bytes) : option oserr * world :=
  match lookup w p with
  | None => (Some noent, w)
  | Some i => if existsb (fun q => under p (fst q)) (w_names w) then (Some notempty, w)
              else (None, set_names w (filter (fun q => negb (bytes_eqb (fst q) p)) (w_names w)))
  end.
Definition on_node (w : world) (p : bytes) (f : node -> node) : option oserr * world :=
  match lookup w p with None => (Some noent, w) | Some i => (None, set_node w i (f (w_nodes w i))) end.
Definition os_truncate (w : world) (p : bytes) (n : Z) : option oserr * world :=
  match lookup w p with
  | None => (Some noent, w)
  | Some i => if (n <? 0)%Z then (Some inval, w) else if n_dir (w_nodes w i) then (Some isdir, w)
              else (None, set_data w i (resize (n_data (w_nodes w i)) (Z.to_nat n)))
  end.
Definition os_readdir (w : world) (h : handle) : (oserr + FileInfo) * world :=
  match w_files w h with
  | None => (inl os_closed, w)
  | Some f =>
      if negb (n_dir (w_nodes w (o_ino f))) then (inl notdir, w) else
      match match o_left f with Some l => l | None => children w (o_ino f) end with
      | [] => (inl EOF, set_file w h (Some (mkOfile (o_ino f) (o_read f) (o_write f) (Some []))))
      | p :: l =>
          let w' := set_file w h (Some (mkOfile (o_ino f) (o_read f) (o_write f) (Some l))) in
          match lookup w p with Some i => (inr (info w p i), w') | None => (inl noent, w') end
      end
  end.
Definition os_readat (w : world) (h : handle) (n : N) (off : Z) : (bytes * option oserr) * world :=
  match w_files w h with
  | None => (([], Some os_closed), w)
  | Some f =>
      if negb (o_read f) then (([], Some badf), w) else
      if n_dir (w_nodes w (o_ino f)) then (([], Some isdir), w) else
      if (off <? 0)%Z then (([], Some inval), w) else
      let b := slice (n_data (w_nodes w (o_ino f))) (Z.to_nat off) (N.to_nat n) in
      ((b, if blen b <? n then Some EOF else None), w)
  end.
Definition os_writeat (w : world) (h : handle) (b : bytes) (off : Z) : (Z * option oserr) * world :=
  match w_files w h with
  | None => ((0%Z, Some os_closed), w)
  | Some f =>
      if negb (o_write f) then ((0%Z, Some badf), w) else
      if (off <? 0)%Z then ((0%Z, Some inval), w) else
      ((Z.of_N (blen b), None), set_data w (o_ino f) (write_at (n_data (w_nodes w (o_ino f))) (Z.to_nat off) b))
  end.
Definition with_file (w : world) (h : handle) (w' : world) : option oserr * world :=
  match w_files w h with None => (Some os_closed, w) | Some _ => (None, w') end.

Definition mem_os : os world := fun o w =>
  match o return ret_of o * world with
  | OLock => (tt, w) | OUnlock => (tt, w) | OGet _ => (None, w) | OPut _ _ => (tt, w) | ODel _ => (tt, w) | OSet _ _ => (tt, w)
  | OLstat p | OStat p => (match lookup w p with Some i => inr (info w p i) | None => inl noent end, w)
  | OOpen p flags perm => os_open w p flags perm
  | OMkdir p perm => os_mkdir w p perm
  | OChmod p mode => on_node w p (fun n => mkNode (n_dir n) mode (n_data n) (n_mtime n) (n_atime n))
  | ORename p p' => os_rename w p p'
  | OTruncate p n => os_truncate w p n
  | OChtimes p at_ mt => on_node w p (fun n => mkNode (n_dir n) (n_mode n) (n_data n) mt at_)
  | ORemove p => os_remove w p
  | OReaddir h => os_readdir w h
  | OReadAt h n off => os_readat w h n off
  | OWriteAt h b off => os_writeat w h b off
  | OSeek h => match w_files w h with
               | None => (Some os_closed, w)
               | Some f => (None, set_file w h (Some (mkOfile (o_ino f) (o_read f) (o_write f) None)))
               end
  | OSync h => with_file w h w
  | OClose h => with_file w h (set_file w h None)
  end.

(** An empty file system with the directories / and /srv. *)
Definition empty_world : world :=
  let d := mkNode true 493 [] (mkTime 1000 0) (mkTime 1000 0) in
  mkWorld [(str "/srv", 2); (str "/", 1)] (fun _ => d) 3 (fun _ => None) 100 (mkTime 2000 0).

(** Requests one after another. *)
Definition run1 (c : config) (m : tmsg) (s : table * world) : option (answerOf rmsg) * (table * world) * list event :=
  let '(r, u, w, tr) := run_prog mem_os (method c m) (fst s) (snd s) in (r, (u, w), tr).
Fixpoint run_all (c : config) (ms : list tmsg) (s : table * world) : list (option (answerOf rmsg)) * (table * world) :=
  match ms with
  | [] => ([], s)
  | m :: ms => let '(r, s, _) := run1 c m s in let (rs, s) := run_all c ms s in (r :: rs, s)
  end.
(** The same, as a history. *)
Fixpoint steps (c : config) (ms : list tmsg) (s : table * world) : list step :=
  match ms with
  | [] => []
  | m :: ms => let '(r, s', tr) := run1 c m s in mkStep (fst s) m tr r (fst s') :: steps c ms s'
  end.
Fixpoint last_state (c : config) (ms : list tmsg) (s : table * world) : table * world :=
  match ms with
  | [] => s
  | m :: ms => let '(_, s', _) := run1 c m s in last_state c ms s'
  end.
