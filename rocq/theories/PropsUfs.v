(** Properties C31-C47, C51, C54 and C55: the file server. *)
From Verif Require Import Base GoBuf CodecPrim Types Codec Msgs StubPrim CodecSpec CodecLemmas GoPath PathSpec Ufs UfsSpec UfsLemmas UfsLemmas2 UfsLemmas3 UfsLemmas4 UfsLemmas5 UfsLemmas6 UfsLemmas7 MemOS MemSpec MemLemmas UfsRefute.

(** * C31 *)
Theorem C31_fid_validity : forall c h u, hist c h u ->
  (forall fid, u fid <> None <-> valid h fid = true) /\
  (forall m fid tr r u', subject m = Some fid -> valid h fid = false -> exec (method c m) u tr r u' ->
     (exists e, r = Some (inl e)) /\ u' = u /\ calls tr = []).
Proof. exact fid_validity. Qed.
Print Assumptions C31_fid_validity.
Example C31_case : (* a walk that fails does not make its fid valid; a removed fid is not valid, its file gone or not *)
  let h := steps c0 (make_a ++ [walk 1 3 [str "b"]; walk 1 4 [str "a"]; walk 1 5 []; remove 2; remove 1]) s0 in
  map (valid h) [1; 2; 3; 4; 5] = [false; false; false; true; true].
Proof. vm_compute. reflexivity. Qed.

(** * C32 *)
Theorem C32_walk : forall c fid newfid els u f tr r u', u fid = Some f ->
  exec (method c (MTwalk (mkTwalkPkt fid newfid els))) u tr r u' -> els <> [] ->
  exists infos,
    ((List.length infos < List.length els)%nat /\
       (exists e, calls tr = lookups (f_fullName f) els infos ++ [Ev (OLstat (path_to (f_fullName f) (firstn (S (List.length infos)) els))) (inl e)]) /\
       r = Some (match infos with [] => inl (str "file does not exist") | _ => inr (MRwalk (mkRwalkPkt (map fileInfoToQID infos))) end) /\
       u' = u)
    \/ (List.length infos = List.length els /\ calls tr = lookups (f_fullName f) els infos /\
       (if (negb (fid =? newfid) && is_some (u newfid))%bool
        then (exists e, r = Some (inl e)) /\ u' = u
        else r = Some (inr (MRwalk (mkRwalkPkt (map fileInfoToQID infos)))) /\
             u' newfid = Some (mkFile (last (map fileInfoToQID infos) zeroQID) (path_to (f_fullName f) els) None []) /\
             forall x, x <> newfid -> u' x = u x)).
Proof. exact walk_semantics. Qed.
Print Assumptions C32_walk.
Theorem C32_clone : forall c fid newfid u f tr r u', u fid = Some f ->
  exec (method c (MTwalk (mkTwalkPkt fid newfid []))) u tr r u' ->
  calls tr = [] /\
  (if is_some (u newfid) then (exists e, r = Some (inl e)) /\ u' = u
   else r = Some (inr (MRwalk (mkRwalkPkt []))) /\ u' newfid = Some f /\ forall x, x <> newfid -> u' x = u x).
Proof. exact clone_semantics. Qed.
Print Assumptions C32_clone.
Example C32_case : (* two directories, a file; complete, partial and failing walks *)
  let ms := [attach 1; walk 1 2 []; create 2 (str "d") (DMDIR + 493) OREAD; create 2 (str "f") 420 OREAD] in
  let rs := skipn 4 (replies (ms ++ [walk 1 3 [str "d"; str "f"]; walk 1 4 [str "d"; str "g"; str "h"]; walk 1 5 [str "x"]; walk 1 3 [str "d"]])) in
  map (fun r => match r with Some (inr (MRwalk q)) => Some (map QID_Path (Rwalk_QIDs q)) | _ => None end) rs
    = [Some [3; 4]; Some [3]; None; None] /\
  map (fst (after (ms ++ [walk 1 4 [str "d"; str "g"; str "h"]]))) [3; 4] = [None; None].
Proof. vm_compute. split; reflexivity. Qed.

(** * C33 *)
Theorem C33_attach : forall c fid afid uname aname u tr r u',
  exec (method c (MTattach (mkTattachPkt fid afid uname aname))) u tr r u' ->
  (forall e p, In e tr -> In p (paths_of (ev_op e)) -> inside (export c) p) /\
  (u' = u \/ exists f, u' = set_fid u fid (Some f) /\ inside (export c) (f_fullName f)).
Proof. exact attach_confined. Qed.
Print Assumptions C33_attach.
Example C33_case :
  let n a := all_paths (trace (steps c0 [MTattach (mkTattachPkt 1 NOFID [] a)] s0)) in
  (n (str "../../etc"), n (str "/a/../../b/./c"), n (str ""), n (str "..")) = ([str "/srv/etc"], [str "/srv/b/c"], [str "/srv"], [str "/srv"]).
Proof. vm_compute. reflexivity. Qed.

(** * C34 *)
Theorem C34_confined_partial : forall c h u, hist c h u -> Forall (careful c) h ->
  (forall fid f, u fid = Some f -> inside (export c) (f_fullName f)) /\
  (forall s e p, In s h -> In e (s_tr s) -> In p (paths_of (ev_op e)) -> inside (export c) p).
Proof. exact confined. Qed.
Print Assumptions C34_confined_partial.
(** With the default exported directory, whatever the requests are. *)
Theorem C34_default_root : forall c h u, rootPath c = str "/" -> hist c h u ->
  forall s e p, In s h -> In e (s_tr s) -> In p (paths_of (ev_op e)) -> inside (export c) p.
Proof. exact confined_default. Qed.
Print Assumptions C34_default_root.
Theorem C34_walk_refuted : ~ (forall c h u, hist c h u ->
  forall s e p, In s h -> In e (s_tr s) -> In p (paths_of (ev_op e)) -> inside (export c) p).
Proof. exact walk_leaves. Qed.
Print Assumptions C34_walk_refuted.
Theorem C34_create_refuted : ~ (forall c h u, hist c h u -> forall s e p, In s h -> In e (s_tr s) -> In p (paths_of (ev_op e)) ->
  (forall q, s_req s <> MTwalk q) -> inside (export c) p).
Proof. exact create_leaves. Qed.
Print Assumptions C34_create_refuted.
Example C34_case : (* names with odd but harmless elements *)
  let ms := make_a ++ [walk 1 3 [str "."; str ""; str "a"]; walk 1 4 [str "...b"]] in
  all_paths (trace (steps c0 ms s0)) = [str "/srv"; str "/srv/a"; str "/srv/a"; str "/srv"; str "/srv"; str "/srv/a"; str "/srv/...b"] /\
  no_dotdot (str "...b").
Proof. split; [vm_compute; reflexivity|]. intros [H|[]]. discriminate. Qed.

(** * C35 *)
Theorem C35_rename_partial : forall c h u, hist c h u -> Forall (careful c) h ->
  forall s e p p', In s h -> In e (s_tr s) -> ev_op e = ORename p p' -> inside (export c) p /\ inside (export c) p'.
Proof. exact confined_rename. Qed.
Print Assumptions C35_rename_partial.
Theorem C35_rename_refuted : ~ (forall c h u fid b tr r u', hist c h u ->
  exec (method c (MTwstat (mkTwstatPkt fid b))) u tr r u' ->
  forall p p', In (p, p') (renames tr) -> inside (export c) p -> inside (export c) p').
Proof. exact rename_leaves. Qed.
Print Assumptions C35_rename_refuted.
Example C35_case : (* relative names cannot climb out of the file's directory, absolute ones start at the exported directory *)
  renames (trace (steps c0 (make_a ++ [wstat 2 (rename_to (str "../../b"))]) s0)) = [(str "/srv/a", str "/srv/b")] /\
  renames (trace (steps c0 (make_a ++ [wstat 2 (rename_to (str "/b"))]) s0)) = [(str "/srv/a", str "/srv/b")].
Proof. vm_compute. split; reflexivity. Qed.

(** * C36 *)
Theorem C36_independent_partial : forall c h u m tr r u', hist c h u -> exec (method c m) u tr r u' ->
  (forall x, affected m <> Some x -> u' x = u x) /\
  (distinct_files h -> Forall no_open_clone h ->
   forall x k e, subject m <> Some x -> held u x = Some k -> In e tr -> handle_of (ev_op e) <> Some k).
Proof. exact independent. Qed.
Print Assumptions C36_independent_partial.
Theorem C36_shared_refuted : ~ (forall c h u m tr r u' x k, hist c h u -> distinct_files h ->
  exec (method c m) u tr r u' -> affected m <> Some x -> held u x = Some k -> ~ In k (closes tr)).
Proof. exact shared_file. Qed.
Print Assumptions C36_shared_refuted.
Example C36_case : (* two fids on the same file, each with its own open file; the other survives a remove *)
  replies (make_a ++ [walk 1 3 [str "a"]; open 3 OREAD; remove 2; read 3 1 100]) =
  replies (make_a ++ [walk 1 3 [str "a"]; open 3 OREAD; remove 2]) ++ [Some (inr (MRread (mkRreadPkt (str "ello"))))].
Proof. vm_compute. reflexivity. Qed.

(** * C37 *)
Theorem C37_file_read : forall c fid o n f u tr b u', u fid = Some f -> N.land (QID_Type (f_QID f)) QTDIR = 0 ->
  exec (method c (MTread (mkTreadPkt fid o n))) u tr (Some (inr (MRread (mkRreadPkt b)))) u' ->
  (Z.of_N (blen b) <= n)%Z /\ u' = u /\
  exists h e, f_file f = Some h /\ calls tr = [Ev (OReadAt h (Z.to_N n) (i64 o)) (b, e)] /\ (e = None \/ e = Some EOF).
Proof. exact file_read. Qed.
Print Assumptions C37_file_read.
(** Also for directories. *)
Theorem C37_bounded : forall c fid o n u tr b u', (0 <= n)%Z ->
  exec (method c (MTread (mkTreadPkt fid o n))) u tr (Some (inr (MRread (mkRreadPkt b)))) u' ->
  (Z.of_N (blen b) <= n)%Z /\
  exists f, u fid = Some f /\ f_file f <> None /\
    (u' fid = Some f \/ exists fl, u' fid = Some (mkFile (f_QID f) (f_fullName f) (f_file f) fl)) /\ forall x, x <> fid -> u' x = u x.
Proof. exact read_bounded. Qed.
Print Assumptions C37_bounded.
Example C37_case :
  skipn 4 (replies (make_a ++ [read 2 1 3; read 2 4 100; read 2 5 1; read 2 77 1; read 2 0 0])) =
  map (fun b => Some (inr (MRread (mkRreadPkt b)))) [str "ell"; str "o"; []; []; []].
Proof. vm_compute. reflexivity. Qed.

(** * C38 *)
Theorem C38_dir_reads_partial : forall c fid f h infos, f_file f = Some h -> negb (N.land (QID_Type (f_QID f)) QTDIR =? 0) = true ->
  forall ss u start g,
  u fid = Some g -> f_QID g = f_QID f -> f_file g = f_file f -> (start = true \/ f_oflow g = []) ->
  chain c u ss -> dir_reads fid start ss -> Forall (fun s => rewound (s_tr s)) ss ->
  Forall (fun s => (0 <= count_of s)%Z /\ forall fi, In fi infos -> (Z.of_N (blen (Marshaldir (dirTo9p2000Dir (user c) fi))) <= count_of s)%Z) ss ->
  entries (flat_map s_tr ss) = map inr infos ++ [inl EOF] ->
  map s_res ss = map (fun fi => Some (inr (MRread (mkRreadPkt (Marshaldir (dirTo9p2000Dir (user c) fi)))))) infos ++ [Some (inr (MRread (mkRreadPkt [])))].
Proof. exact dir_read_chain. Qed.
Print Assumptions C38_dir_reads_partial.
(** One read, for any count and any answers of the operating system: at most one entry is fetched, and it is sent if it
    fits; it is lost if it does not.  The code keeps an overflow buffer for such an entry, but never puts anything into it. *)
Theorem C38_one_read : forall c h u fid o n f k tr r u', hist c h u -> u fid = Some f -> f_file f = Some k -> N.land (QID_Type (f_QID f)) QTDIR <> 0 ->
  exec (method c (MTread (mkTreadPkt fid o n))) u tr r u' ->
  (forall x, u' x = u x) /\
  ((exists e, o = 0 /\ calls tr = [Ev (OSeek k) (Some e)] /\ r = Some (inl (err_text e))) \/
   exists rest, calls tr = (if o =? 0 then [Ev (OSeek k) None] else []) ++ rest /\
     if (n <? 0)%Z then rest = [] /\ r = Some (inr (MRread (mkRreadPkt [])))
     else exists y, rest = [Ev (OReaddir k) y] /\ r = Some (entry_reply (user c) n y)).
Proof. exact dir_read_exact. Qed.
Print Assumptions C38_one_read.
Theorem C38_no_overflow : forall c h u fid f, hist c h u -> u fid = Some f -> f_oflow f = [].
Proof. intros c h u fid f H. exact (never_overflow c h u H fid f). Qed.
Print Assumptions C38_no_overflow.
(** Every record is complete: it decodes to the description of the entry. *)
Theorem C38_record_decodes : forall d, fitsDir d -> Unmarshaldir (Buf (Marshaldir d) []) = URet d 0 (Buf [] []) None.
Proof. exact Marshaldir_decodes. Qed.
Print Assumptions C38_record_decodes.
Theorem C38_small_count_refuted : ~ (forall c fid f h u ss, u fid = Some f -> f_file f = Some h ->
  negb (N.land (QID_Type (f_QID f)) QTDIR =? 0) = true -> chain c u ss -> dir_reads fid true ss -> Forall (fun s => rewound (s_tr s)) ss ->
  Forall (fun s => (0 <= count_of s)%Z) ss -> last (map s_res ss) None = Some (inr (MRread (mkRreadPkt []))) ->
  In (inl EOF) (entries (flat_map s_tr ss))).
Proof. exact small_count. Qed.
Print Assumptions C38_small_count_refuted.
Example C38_case : (* two entries, read one by one, then again from the start *)
  let ms := make_a ++ [walk 1 3 []; create 3 (str "b") (DMDIR + 493) OREAD; open 1 OREAD] in
  map (fun r => match r with Some (inr (MRread p)) => match Unmarshaldir (Buf (Rread_Data p) []) with URet d _ _ None => Some (Dir_Name d, Dir_Length d) | _ => None end | _ => None end)
    (skipn 7 (replies (ms ++ [read 1 0 8192; read 1 1 8192; read 1 1 8192; read 1 0 8192]))) =
  [Some (str "b", 0); Some (str "a", 5); None; Some (str "b", 0)].
Proof. vm_compute. reflexivity. Qed.

(** * C39 *)
Theorem C39_keep_all : forall c fid b u f d t rest tr r u', u fid = Some f ->
  Unmarshaldir (Buf b []) = URet d t rest None -> given d = [] -> Dir_User d = [] -> Dir_Group d = [] ->
  exec (method c (MTwstat (mkTwstatPkt fid b))) u tr r u' ->
  u' = u /\ r = Some (inr (MRwstat mkRwstatPkt)) /\
  map (fun e => ev_op e) (calls tr) = match f_file f with Some h => [OSync h] | None => [] end.
Proof. exact wstat_keep_all. Qed.
Print Assumptions C39_keep_all.
Theorem C39_undecodable : forall c fid b u f d t rest err tr r u', u fid = Some f ->
  Unmarshaldir (Buf b []) = URet d t rest (Some err) ->
  exec (method c (MTwstat (mkTwstatPkt fid b))) u tr r u' -> calls tr = [] /\ u' = u /\ r = Some (inl err).
Proof. exact wstat_undecodable. Qed.
Print Assumptions C39_undecodable.
Example C39_case : given keep_all = [] /\
  map (fun e => ev_op e) (calls (snd (run1 c0 (wstat 2 keep_all) (after make_a)))) = [OSync 100] /\
  map (fun e => ev_op e) (calls (snd (run1 c0 (wstat 1 keep_all) (after make_a)))) = [].
Proof. vm_compute. repeat split. Qed.

(** * C40 *)
(** The attributes that were changed are the first k of those given, in the order mode, name, length, times; all of them
    if and only if the wstat succeeded. *)
Theorem C40_prefix_partial : forall c fid b u f d t rest tr r u', u fid = Some f -> Unmarshaldir (Buf b []) = URet d t rest None ->
  exec (method c (MTwstat (mkTwstatPkt fid b))) u tr r u' ->
  (exists k, changed tr = map Some (firstn k (given d))) /\
  (forall a, r = Some (inr a) -> changed tr = map Some (given d) /\ Dir_User d = [] /\ Dir_Group d = []).
Proof. exact wstat_prefix. Qed.
Print Assumptions C40_prefix_partial.
Theorem C40_single_partial : forall c fid b u f d t rest tr r u', u fid = Some f -> Unmarshaldir (Buf b []) = URet d t rest None ->
  exec (method c (MTwstat (mkTwstatPkt fid b))) u tr r u' ->
  (List.length (given d) <= 1)%nat -> Dir_User d = [] -> Dir_Group d = [] ->
  (forall a, r <> Some (inr a)) -> changes tr = [].
Proof. exact wstat_single. Qed.
Print Assumptions C40_single_partial.
Theorem C40_atomic_refuted : ~ (forall c fid b u tr e u',
  exec (method c (MTwstat (mkTwstatPkt fid b))) u tr (Some (inl e)) u' -> changes tr = []).
Proof. exact half_done. Qed.
Print Assumptions C40_atomic_refuted.
Example C40_case : (* mode, name and length given; the new name is in a directory that does not exist *)
  let d := rec_ 384 keep32 keep32 2 (str "/no/b") [] in
  let '(r, s', tr) := run1 c0 (wstat 2 d) (after make_a) in
  given d = [AMode; AName; ALength] /\ changed tr = [Some AMode] /\ r = Some (inl (str "no such file or directory")) /\
  n_mode (w_nodes (snd s') 3) = 384 /\ data (snd s') 3 = str "hello".
Proof. vm_compute. repeat split. Qed.

(** * C41 *)
Theorem C41_values_partial : forall c fid b u f d t rest tr r u', u fid = Some f -> Unmarshaldir (Buf b []) = URet d t rest None ->
  exec (method c (MTwstat (mkTwstatPkt fid b))) u tr r u' ->
  forall e, In e (calls tr) -> wstat_call c f d tr (ev_op e).
Proof. exact wstat_values. Qed.
Print Assumptions C41_values_partial.
Theorem C41_times_refuted : ~ (forall c fid b d t rest s r s' tr i, wf (snd s) ->
  Unmarshaldir (Buf b []) = URet d t rest None -> Dir_Atime d = keep32 ->
  run1 c (MTwstat (mkTwstatPkt fid b)) s = (r, s', tr) -> n_atime (w_nodes (snd s') i) = n_atime (w_nodes (snd s) i)).
Proof. exact mtime_touches_atime. Qed.
Print Assumptions C41_times_refuted.
Theorem C41_mode_refuted : ~ (forall c fid b d t rest u tr r u' p m, Unmarshaldir (Buf b []) = URet d t rest None ->
  exec (method c (MTwstat (mkTwstatPkt fid b))) u tr r u' -> In (OChmod p m) (map (fun e => ev_op e) tr) -> m = Dir_Mode d).
Proof. exact mode_bits_lost. Qed.
Print Assumptions C41_mode_refuted.
Example C41_case : (* name, length and both times at once *)
  let '(_, s', tr) := run1 c0 (wstat 2 (rec_ keep32 77 88 2 (str "b") [])) (after make_a) in
  changed tr = [Some AName; Some ALength; Some ATimes] /\ lookup (snd s') (str "/srv/a") = None /\ lookup (snd s') (str "/srv/b") = Some 3 /\
  w_nodes (snd s') 3 = mkNode false 420 (str "he") (mkTime 88 0) (mkTime 77 0).
Proof. vm_compute. repeat split. Qed.

(** * C42 *)
Theorem C42_remove : forall c fid u tr r u', exec (method c (MTremove (mkTremovePkt fid))) u tr r u' ->
  u' fid = None /\ (forall x, x <> fid -> u' x = u x) /\
  forall f, u fid = Some f -> exists x,
    map (fun e => ev_op e) (calls tr) = (match f_file f with Some h => [OClose h] | None => [] end) ++ [ORemove (f_fullName f)] /\
    last (calls tr) (Ev OLock tt) = Ev (ORemove (f_fullName f)) x /\
    r = Some (match x with None => inr (MRremove mkRremovePkt) | Some e => inl (err_text e) end).
Proof. exact remove_semantics. Qed.
Print Assumptions C42_remove.
Example C42_case : (* the root cannot be removed, as it is not empty; its fid is gone all the same *)
  skipn 4 (replies (make_a ++ [remove 1; stat 1; remove 2; stat 2])) =
  [Some (inl (str "directory not empty")); Some (inl (str "does not exist")); Some (inr (MRremove mkRremovePkt)); Some (inl (str "does not exist"))] /\
  lookup (snd (after (make_a ++ [remove 2]))) (str "/srv/a") = None.
Proof. vm_compute. split; reflexivity. Qed.

(** * C43 *)
Theorem C43_flags : forall mode,
  modeToUnixFlags mode = (match N.land mode 3 with 1 => O_WRONLY | 2 => O_RDWR | _ => O_RDONLY end) + (if N.testbit mode 4 then O_TRUNC else 0).
Proof. exact modeToUnixFlags_spec. Qed.
Print Assumptions C43_flags.
Theorem C43_open : forall c fid mode u tr r u', exec (method c (MTopen (mkTopenPkt fid mode))) u tr r u' ->
  forall f, u fid = Some f ->
  (exists e, calls tr = [Ev (OOpen (f_fullName f) (modeToUnixFlags mode) 0) (inl e)] /\ r = Some (inl (err_text e)) /\ held u' fid = None) \/
  (exists h, calls tr = [Ev (OOpen (f_fullName f) (modeToUnixFlags mode) 0) (inr h)] /\
     r = Some (inr (MRopen (mkRopenPkt (f_QID f) (IOunit c)))) /\
     u' fid = Some (mkFile (f_QID f) (f_fullName f) (Some h) (f_oflow f))).
Proof. exact open_semantics. Qed.
Print Assumptions C43_open.
Example C43_case : (* write-only with truncation; a mode with other bits set *)
  map modeToUnixFlags [0; 1; 2; 3; 17; 64 + 2] = [0; 1; 2; 0; 513; 2] /\
  skipn 5 (replies (make_a ++ [walk 1 3 [str "a"]; open 3 (OWRITE + OTRUNC); read 3 0 10; write 3 0 (str "x"); read 2 0 10])) =
  [Some (inr (MRopen (mkRopenPkt (mkQID 0 2000000 3) 8192))); Some (inl (str "bad file descriptor"));
   Some (inr (MRwrite (mkRwritePkt 1))); Some (inr (MRread (mkRreadPkt (str "x"))))].
Proof. vm_compute. split; reflexivity. Qed.

(** * C44 *)
Theorem C44_agree : forall fi name,
  let d := dirTo9p2000Dir name fi in
  N.testbit (QID_Type (fileInfoToQID fi)) 7 = IsDir fi /\ N.testbit (Dir_Mode d) 31 = IsDir fi /\
  Dir_QID d = fileInfoToQID fi /\ (forall ino, fi_Sys fi = Some ino -> QID_Path (fileInfoToQID fi) = ino) /\
  (forall i, i < 9 -> N.testbit (Dir_Mode d) i = N.testbit (fi_Mode fi) i) /\
  (forall i, 9 <= i -> i <> 31 -> N.testbit (Dir_Mode d) i = false) /\ Dir_Name d = fi_Name fi /\ Dir_Length d = u64_of_z (fi_Size fi).
Proof. exact info_agrees. Qed.
Print Assumptions C44_agree.
(** The other fields: the owner is the one given by -user; times are in seconds, modulo 2^32. *)
Theorem C44_other_fields : forall fi name, let d := dirTo9p2000Dir name fi in
  Dir_User d = name /\ Dir_Group d = name /\ Dir_ModUser d = [] /\ Dir_Type d = 0 /\ Dir_Dev d = 0 /\
  Z.of_N (Dir_Mtime d) = (t_sec (fi_ModTime fi) mod 2 ^ 32)%Z /\ Dir_Atime d = Dir_Mtime d.
Proof. exact stat_fields. Qed.
Print Assumptions C44_other_fields.
(** And this is what a stat request returns. *)
Theorem C44_stat : forall c fid u tr r u', exec (method c (MTstat (mkTstatPkt fid))) u tr r u' ->
  u' = u /\ forall f, u fid = Some f ->
  (exists e, calls tr = [Ev (OLstat (f_fullName f)) (inl e)] /\ r = Some (inl (str "ENOENT"))) \/
  (exists fi, calls tr = [Ev (OLstat (f_fullName f)) (inr fi)] /\
     r = Some (inr (MRstat (mkRstatPkt (Marshaldir (dirTo9p2000Dir (user c) fi)))))).
Proof. exact stat_semantics. Qed.
Print Assumptions C44_stat.
Example C44_case : (* setuid directory 0755, inode 77 *)
  let fi := mkFI (ModeDir + 8388608 + 493) (str "d") 4096 (mkTime 1234 5000000) (Some 77) in
  fileInfoToQID fi = mkQID 128 1234005 77 /\ Dir_Mode (dirTo9p2000Dir (str "u") fi) = DMDIR + 493.
Proof. vm_compute. split; reflexivity. Qed.

(** * C45 *)
(** Start anywhere (wf: node and file numbers in use are below the next free ones), do any requests ms that do not
    truncate node i, then read: every byte is that of the last write that covers it, or the old one. *)
Theorem C45_read_after_writes : forall c ms s i fid o n b s2 tr f, wf (snd s) -> i < w_next (snd s) -> undisturbed c ms s i ->
  let s1 := last_state c ms s in
  fst s1 fid = Some f -> N.land (QID_Type (f_QID f)) QTDIR = 0 -> node_of s1 fid = Some i -> o < 18446744073709551616 ->
  run1 c (MTread (mkTreadPkt fid o n)) s1 = (Some (inr (MRread (mkRreadPkt b))), s2, tr) ->
  let old := data (snd s) i in
  List.length b = Nat.min (Z.to_nat n) (size_after (writes c ms s i) (List.length old) - N.to_nat o) /\
  (forall k, (k < List.length b)%nat -> nth k b x00 = byte_after (writes c ms s i) (N.to_nat o + k) (nth (N.to_nat o + k) old x00)) /\
  s2 = s1.
Proof. exact read_after_writes. Qed.
Print Assumptions C45_read_after_writes.
(** A write does what it says or nothing at all. *)
Theorem C45_write : forall c fid o b s r s' tr, o < 18446744073709551616 ->
  run1 c (MTwrite (mkTwritePkt fid o b)) s = (r, s', tr) ->
  (exists a i, r = Some (inr a) /\ node_of s fid = Some i /\ a = MRwrite (mkRwritePkt (i32 (u32_of_z (Z.of_N (blen b))))) /\
     fst s' = fst s /\ snd s' = set_data (snd s) i (write_at (data (snd s) i) (N.to_nat o) b))
  \/ (exists e, r = Some (inl e) /\ s' = s).
Proof. exact write_contents. Qed.
Print Assumptions C45_write.
Theorem C45_empty_world : wf empty_world.
Proof. exact wf_empty. Qed.
Print Assumptions C45_empty_world.
Example C45_case : (* two fids, overlapping writes, a gap, and a failing write *)
  let ms := [walk 1 3 [str "a"]; open 3 ORDWR; write 3 3 (str "LO, world"); walk 1 4 [str "a"]; open 4 OREAD; write 4 0 (str "no"); write 2 14 (str "!")] in
  writes c0 ms (after make_a) 3 = [(3%nat, str "LO, world"); (14%nat, str "!")] /\
  last (replies (make_a ++ ms ++ [read 4 1 100])) None = Some (inr (MRread (mkRreadPkt (str "elLO, world" ++ [x00; x00] ++ str "!")))).
Proof. vm_compute. split; reflexivity. Qed.

(** * C46 *)
Theorem C46_create_partial : forall c fid name perm mode u tr a u',
  exec (method c (MTcreate (mkTcreatePkt fid name perm mode))) u tr (Some (inr a)) u' ->
  exists f fi, u fid = Some f /\ f_file f = None /\ let n := Join (f_fullName f) name in
    a = MRcreate (mkRcreatePkt (fileInfoToQID fi) 8000) /\
    if N.land perm DMDIR =? 0 then
      exists h flags, N.land flags O_CREATE = O_CREATE /\ N.land flags O_TRUNC = O_TRUNC /\ N.land flags 3 = N.land (modeToUnixFlags mode) 3 /\
        calls tr = [Ev (OOpen n flags (N.land perm 511)) (inr h); Ev (OLstat n) (inr fi)] /\
        u' = set_fid u fid (Some (mkFile (fileInfoToQID fi) n (Some h) (f_oflow f)))
    else
      exists x, calls tr = [Ev (OMkdir n (N.land perm 511)) x; Ev (OLstat n) (inr fi)] /\
        u' = set_fid u fid (Some (mkFile (fileInfoToQID fi) n None (f_oflow f))).
Proof. exact create_semantics. Qed.
Print Assumptions C46_create_partial.
(** On the operating system of MemOS.v, for a name that does not exist. *)
Theorem C46_new_name_partial : forall c fid name perm mode (s : table * world) a s' tr f, fst s fid = Some f ->
  run1 c (MTcreate (mkTcreatePkt fid name perm mode)) s = (Some (inr a), s', tr) ->
  let n := Join (f_fullName f) name in lookup (snd s) n = None ->
  let i := w_next (snd s) in
  lookup (snd s') n = Some i /\ (forall q, q <> n -> lookup (snd s') q = lookup (snd s) q) /\
  n_dir (w_nodes (snd s') i) = negb (N.land perm DMDIR =? 0) /\ n_mode (w_nodes (snd s') i) = N.land perm 511 /\ data (snd s') i = [] /\
  (exists g, fst s' fid = Some g /\ f_fullName g = n /\ QID_Path (f_QID g) = i /\ f_file f = None /\
     a = MRcreate (mkRcreatePkt (f_QID g) 8000)) /\
  node_of s' fid = (if N.land perm DMDIR =? 0 then Some i else None) /\
  is_dir (snd s) (Dirname n) = true.
Proof. exact create_new. Qed.
Print Assumptions C46_new_name_partial.
(** For a name that exists: the file loses its contents, or nothing happens although success is reported. *)
Theorem C46_existing_name : forall c fid name perm mode (s : table * world) a s' tr f i, fst s fid = Some f ->
  run1 c (MTcreate (mkTcreatePkt fid name perm mode)) s = (Some (inr a), s', tr) ->
  lookup (snd s) (Join (f_fullName f) name) = Some i ->
  if N.land perm DMDIR =? 0 then data (snd s') i = [] /\ (forall q, lookup (snd s') q = lookup (snd s) q) /\ n_dir (w_nodes (snd s) i) = false
  else snd s' = snd s.
Proof. exact create_over. Qed.
Print Assumptions C46_existing_name.
Theorem C46_existing_refuted : ~ (forall c fid name perm mode (s : table * world) r s' tr f i, wf (snd s) -> fst s fid = Some f ->
  lookup (snd s) (Join (f_fullName f) name) = Some i ->
  run1 c (MTcreate (mkTcreatePkt fid name perm mode)) s = (r, s', tr) -> exists e, r = Some (inl e)).
Proof. exact create_over_existing. Qed.
Print Assumptions C46_existing_refuted.
Example C46_case :
  let ms := [attach 1; walk 1 2 []; create 2 (str "d") (DMDIR + 493) OREAD; create 2 (str "f") 420 OWRITE] in
  map (lookup (snd (after ms))) [str "/srv"; str "/srv/d"; str "/srv/d/f"] = [Some 2; Some 3; Some 4] /\ node_of (after ms) 2 = Some 4.
Proof. vm_compute. split; reflexivity. Qed.
Example C46_refuted_case : (* a directory over a file: success, but still a file *)
  exists q, nth 4 (replies (make_a ++ [create 1 (str "a") (DMDIR + 493) OREAD])) None = Some (inr (MRcreate (mkRcreatePkt q 8000))) /\ QID_Type q = 0.
Proof. exact mkdir_over_file. Qed.

(** * C47 *)
Theorem C47_closed_partial : forall c h u, hist c h u -> distinct_files h -> Forall tidy h ->
  NoDup (closes (trace h)) /\
  forall k, In k (opens (trace h)) <->
    ((exists fid, held u fid = Some k) \/ In k (closes (trace h))) /\
    ~ ((exists fid, held u fid = Some k) /\ In k (closes (trace h))).
Proof. exact all_closed. Qed.
Print Assumptions C47_closed_partial.
Theorem C47_leak_refuted : ~ (forall c h u, hist c h u -> distinct_files h ->
  forall k, In k (opens (trace h)) -> (exists fid, held u fid = Some k) \/ In k (closes (trace h))).
Proof. exact reopen_leaks. Qed.
Print Assumptions C47_leak_refuted.
Example C47_case : (* three opened, two closed, one still held *)
  let ms := make_a ++ [walk 1 3 [str "a"]; open 3 OREAD; open 1 OREAD; remove 2; clunk_ 3] in
  opens (trace (steps c0 ms s0)) = [100; 101; 102] /\ closes (trace (steps c0 ms s0)) = [100; 101] /\ held (fst (after ms)) 1 = Some 102.
Proof. vm_compute. repeat split. Qed.
Example C47_refuted_case : closes (trace (steps c0 (share ++ [clunk_ 1; clunk_ 2]) s0)) = [100; 100].
Proof. exact closed_twice. Qed.

(** * C51 *)
Theorem C51_lock_partial : forall c m u tr r u', exec (method c m) u tr r u' -> (forall p, m <> MTattach p) -> disciplined tr.
Proof. exact lock_discipline. Qed.
Print Assumptions C51_lock_partial.
Theorem C51_attach_refuted : ~ (forall c m u tr r u', exec (method c m) u tr r u' -> disciplined tr).
Proof. exact attach_unlocked. Qed.
Print Assumptions C51_attach_refuted.
Example C51_case : (* a clunk of an open fid, and a clone onto a fid in use *)
  map (fun e => match ev_op e with OLock => 1 | OUnlock => 2 | o => if touches_table o then 3 else 4 end) (snd (run1 c0 (clunk_ 2) (after make_a))) = [1; 3; 3; 4; 2] /\
  map (fun e => match ev_op e with OLock => 1 | OUnlock => 2 | o => if touches_table o then 3 else 4 end) (snd (run1 c0 (walk 1 2 []) (after make_a))) = [1; 3; 2; 1; 3; 2].
Proof. vm_compute. split; reflexivity. Qed.

(** * C54 *)
(** A request panics exactly when it is a read of an open file with a negative count (or the operating system claims to
    have read more than there was room for). *)
Theorem C54_panic_partial : forall c m u tr r u', exec (method c m) u tr r u' -> (r = None <-> bad_read u m tr).
Proof. exact panic_iff. Qed.
Print Assumptions C54_panic_partial.
Theorem C54_negative_count_refuted : ~ (forall c h u m tr r u', hist c h u -> exec (method c m) u tr r u' -> r <> None).
Proof. exact negative_count. Qed.
Print Assumptions C54_negative_count_refuted.
Example C54_case : (* the wstat record is cut short: an error, no panic; the count is -1: a panic *)
  let short := MTwstat (mkTwstatPkt 2 (firstn 20 (Marshaldir keep_all))) in
  map (fun r => match r with None => true | _ => false end) (replies (make_a ++ [short; read 2 0 (-1)])) = [false; false; false; false; false; true].
Proof. vm_compute. reflexivity. Qed.

(** * C55 *)
Theorem C55_version_partial : forall c msize v u tr r u', exec (method c (MTversion (mkTversionPkt msize v))) u tr r u' -> u' = u /\ tr = [].
Proof. exact version_keeps. Qed.
Print Assumptions C55_version_partial.
Theorem C55_reset_refuted : ~ (forall c h u msize tr a u', hist c h u ->
  exec (method c (MTversion (mkTversionPkt msize (str "9P2000")))) u tr (Some (inr a)) u' -> forall fid, u' fid = None).
Proof. exact version_keeps_fids. Qed.
Print Assumptions C55_reset_refuted.
Example C55_case : skipn 4 (replies (make_a ++ [MTversion (mkTversionPkt 8192 (str "9P2000")); read 2 0 5])) =
  [Some (inr (MRversion (mkRversionPkt 8192 (str "9P2000")))); Some (inr (MRread (mkRreadPkt (str "hello"))))].
Proof. vm_compute. reflexivity. Qed.

(** * C58 *)
Theorem C58_version_partial : forall c msize v u tr r u', exec (method c (MTversion (mkTversionPkt msize v))) u tr r u' ->
  u' = u /\ tr = [] /\
  (v = str "9P2000" -> r = Some (inr (MRversion (mkRversionPkt msize v)))) /\
  (v <> str "9P2000" -> r = Some (inl (v ++ str " not supported; only 9P2000"))).
Proof. exact version_reply. Qed.
Print Assumptions C58_version_partial.
Theorem C58_unknown_refuted : ~ (forall c msize v u tr r u', exec (method c (MTversion (mkTversionPkt msize v))) u tr r u' ->
  exists m' v', r = Some (inr (MRversion (mkRversionPkt m' v')))).
Proof. exact version_unknown. Qed.
Print Assumptions C58_unknown_refuted.
Example C58_case : replies [MTversion (mkTversionPkt 131072 (str "9P2000")); MTversion (mkTversionPkt 0 (str "9P2000")); MTversion (mkTversionPkt 8192 (str "9P2000.L"))] =
  [Some (inr (MRversion (mkRversionPkt 131072 (str "9P2000")))); Some (inr (MRversion (mkRversionPkt 0 (str "9P2000"))));
   Some (inl (str "9P2000.L not supported; only 9P2000"))].
Proof. vm_compute. reflexivity. Qed.

(** * C59 *)
(** Also if the wstat fails afterwards. *)
Theorem C59_follows : forall c fid b u f d t rest tr r u', u fid = Some f -> Unmarshaldir (Buf b []) = URet d t rest None ->
  exec (method c (MTwstat (mkTwstatPkt fid b))) u tr r u' ->
  (forall x, x <> fid -> u' x = u x) /\
  u' fid = Some (mkFile (f_QID f) (if renamed tr then name_after c f d else f_fullName f) (f_file f) (f_oflow f)) /\
  (forall a, r = Some (inr a) -> renamed tr = negb (is_nil (Dir_Name d))).
Proof. exact rename_follows. Qed.
Print Assumptions C59_follows.
Theorem C59_not_over_directory : forall c fid b u f d t rest tr r u' fi, u fid = Some f -> Unmarshaldir (Buf b []) = URet d t rest None ->
  exec (method c (MTwstat (mkTwstatPkt fid b))) u tr r u' -> Dir_Name d <> [] -> hd_error (stats tr) = Some (inr fi) -> IsDir fi = true ->
  r = Some (inl (str "is a directory")) /\ u' = u /\ forall p p', ~ In (ORename p p') (map (fun e => ev_op e) tr).
Proof. exact rename_over_dir. Qed.
Print Assumptions C59_not_over_directory.
Example C59_case : (* renamed, then found under the new name through the same fid; the old name is free *)
  skipn 4 (map (fun r => match r with Some (inr (MRstat p)) => match Unmarshaldir (Buf (Rstat_B p) []) with URet d _ _ None => inr (Dir_Name d) | _ => inl [] end | Some (inl e) => inl e | _ => inr [] end)
    (replies (make_a ++ [wstat 2 (rename_to (str "b")); stat 2; walk 1 3 [str "a"]; walk 1 4 []; create 4 (str "d") (DMDIR + 493) OREAD; wstat 2 (rename_to (str "d"))]))) =
  [inr []; inr (str "b"); inl (str "file does not exist"); inr []; inr []; inl (str "is a directory")].
Proof. vm_compute. reflexivity. Qed.
