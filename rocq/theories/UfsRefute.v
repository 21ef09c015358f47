(** Runs of the file server on the operating system of MemOS.v that show which claims do not hold. *)
From Verif Require Import Base GoBuf CodecPrim Types Codec Msgs StubPrim CodecSpec CodecLemmas GoPath PathSpec Ufs UfsSpec UfsLemmas UfsLemmas3 UfsLemmas5 UfsLemmas6 MemOS MemSpec MemLemmas.

(** * Requests *)
Definition c0 : config := mkConfig (str "/srv") (str "harvey") 8192.
Definition s0 : table * world := (no_fids, empty_world).
Definition attach (fid : N) : tmsg := MTattach (mkTattachPkt fid NOFID (str "harvey") []).
Definition walk (fid newfid : N) (els : list bytes) : tmsg := MTwalk (mkTwalkPkt fid newfid els).
Definition open (fid mode : N) : tmsg := MTopen (mkTopenPkt fid mode).
Definition create (fid : N) (name : bytes) (perm mode : N) : tmsg := MTcreate (mkTcreatePkt fid name perm mode).
Definition read (fid off : N) (count : Z) : tmsg := MTread (mkTreadPkt fid off count).
Definition write (fid off : N) (b : bytes) : tmsg := MTwrite (mkTwritePkt fid off b).
Definition clunk_ (fid : N) : tmsg := MTclunk (mkTclunkPkt fid).
Definition remove (fid : N) : tmsg := MTremove (mkTremovePkt fid).
Definition stat (fid : N) : tmsg := MTstat (mkTstatPkt fid).
Definition wstat (fid : N) (d : Dir) : tmsg := MTwstat (mkTwstatPkt fid (Marshaldir d)).
(** A wstat record: mode, access time, modification time, length, name, user. *)
Definition rec_ (mode atime mtime len : N) (name user : bytes) : Dir := mkDir 0 0 zeroQID mode atime mtime len name user [] [].
Definition keep_all : Dir := rec_ keep32 keep32 keep32 keep64 [] [].
Definition rename_to (n : bytes) : Dir := rec_ keep32 keep32 keep32 keep64 n [].
(** A file /srv/a that contains "hello"; fid 1 is the root, fid 2 the file, open. *)
Definition make_a : list tmsg := [attach 1; walk 1 2 []; create 2 (str "a") 420 ORDWR; write 2 0 (str "hello")].
Definition after (ms : list tmsg) : table * world := last_state c0 ms s0.
Definition replies (ms : list tmsg) : list (option (answerOf rmsg)) := fst (run_all c0 ms s0).

(** * Looking at runs *)
Definition all_paths (tr : list event) : list bytes := flat_map (fun e => paths_of (ev_op e)) tr.
Lemma path_seen h p : existsb (bytes_eqb p) (all_paths (trace h)) = true ->
  exists s e, In s h /\ In e (s_tr s) /\ In p (paths_of (ev_op e)).
Proof.
  intros H. apply existsb_exists in H as [q [Hq E]]. destruct (bytes_eqb_spec p q); [subst q|discriminate].
  apply in_flat_map in Hq as [e [He Hp]]. apply in_flat_map in He as [s [Hs He]]. exists s, e. auto.
Qed.
Lemma demo_hist ms : hist c0 (steps c0 ms s0) (fst (after ms)).
Proof. apply mem_hist. Qed.
Lemma demo_exec ms m : let '(r, s', tr) := run1 c0 m (after ms) in exec (method c0 m) (fst (after ms)) tr r (fst s').
Proof. destruct (run1 c0 m (after ms)) as [[r s'] tr] eqn:E. apply run1_spec in E. apply E. Qed.
Lemma not_inside root p : firstn (List.length (names root)) (names p) <> names root -> ~ inside root p.
Proof. intros H [_ (ns & _ & E)]. apply H. rewrite E, firstn_app, firstn_all, Nat.sub_diag. apply app_nil_r. Qed.

(** * Confinement *)
Definition full_confinement : Prop := forall c h u, hist c h u ->
  forall s e p, In s h -> In e (s_tr s) -> In p (paths_of (ev_op e)) -> inside (export c) p.
Definition leave : list tmsg := [attach 1; walk 1 2 [str ".."]].
Lemma walk_leaves : ~ full_confinement.
Proof.
  intros F. destruct (path_seen (steps c0 leave s0) (str "/")) as (s & e & Hs & He & Hp); [vm_compute; reflexivity|].
  pose proof (F _ _ _ (demo_hist leave) s e _ Hs He Hp) as X. revert X. apply not_inside. vm_compute. discriminate.
Qed.
(** Also for create. *)
Definition leave_create : list tmsg := [attach 1; create 1 (str "../x") 420 ORDWR].
Lemma create_leaves : ~ (forall c h u, hist c h u -> forall s e p, In s h -> In e (s_tr s) -> In p (paths_of (ev_op e)) ->
  (forall q, s_req s <> MTwalk q) -> inside (export c) p).
Proof.
  intros F. destruct (path_seen (steps c0 leave_create s0) (str "/x")) as (s & e & Hs & He & Hp); [vm_compute; reflexivity|].
  pose proof (F _ _ _ (demo_hist leave_create) s e _ Hs He Hp) as X.
  assert (Hn : forall q, s_req s <> MTwalk q) by (cbn in Hs; destruct Hs as [<-|[<-|[]]]; discriminate).
  specialize (X Hn). revert X. apply not_inside. vm_compute. discriminate.
Qed.
(** Both arguments of a successful rename. *)
Definition rename1 (e : event) : list (bytes * bytes) :=
  match e with Ev o x => match o return ret_of o -> list (bytes * bytes) with ORename p p' => fun x => match x with None => [(p, p')] | _ => [] end | _ => fun _ => [] end x end.
Definition renames (tr : list event) : list (bytes * bytes) := flat_map rename1 tr.
(** A file renamed by a request that starts inside stays inside. *)
Definition full_rename : Prop := forall c h u fid b tr r u', hist c h u ->
  exec (method c (MTwstat (mkTwstatPkt fid b))) u tr r u' ->
  forall p p', In (p, p') (renames tr) -> inside (export c) p -> inside (export c) p'.
Definition a_out : Dir := rename_to (str "/../x").
Lemma rename_leaves : ~ full_rename.
Proof.
  intros F. pose proof (demo_exec make_a (wstat 2 a_out)) as X. destruct (run1 c0 (wstat 2 a_out) (after make_a)) as [[r s'] tr] eqn:E.
  assert (Hr : renames tr = [(str "/srv/a", str "/x")]).
  { apply (f_equal (fun x => renames (snd x))) in E. cbn [snd] in E. rewrite <- E. vm_compute. reflexivity. }
  assert (Hi : inside (export c0) (str "/srv/a")).
  { split; [reflexivity|]. exists [str "a"]. split; [|vm_compute; reflexivity]. constructor; [|constructor].
    split; [discriminate|]. split; [discriminate|]. split; [discriminate|]. intros [H|[]]. discriminate. }
  pose proof (F _ _ _ _ _ _ _ _ (demo_hist make_a) X (str "/srv/a") (str "/x")) as Y. rewrite Hr in Y. specialize (Y (or_introl eq_refl) Hi).
  revert Y. apply not_inside. vm_compute. discriminate.
Qed.
(** Also by a relative name, if the fid is the exported directory: the rename takes the directory itself out. *)
Lemma rename_root_leaves : renames (trace (steps c0 [attach 1; wstat 1 (rename_to (str "x"))] s0)) = [(str "/srv", str "/x")].
Proof. vm_compute. reflexivity. Qed.

(** * Independence *)
(** No request closes the open file of another fid. *)
Definition full_independence : Prop := forall c h u m tr r u' x k, hist c h u -> distinct_files h ->
  exec (method c m) u tr r u' -> affected m <> Some x -> held u x = Some k -> ~ In k (closes tr).
Definition share : list tmsg := [attach 1; open 1 OREAD; walk 1 2 []].
Lemma shared_file : ~ full_independence.
Proof.
  intros F. pose proof (demo_exec share (clunk_ 1)) as X. destruct (run1 c0 (clunk_ 1) (after share)) as [[r s'] tr] eqn:E.
  assert (Hc : closes tr = [100]).
  { apply (f_equal (fun x => closes (snd x))) in E. cbn [snd] in E. rewrite <- E. vm_compute. reflexivity. }
  apply (F _ _ _ _ _ _ _ 2 100 (demo_hist share)) in X.
  - apply X. rewrite Hc. left. reflexivity.
  - unfold distinct_files. replace (opens (trace (steps c0 share s0))) with [100] by (vm_compute; reflexivity). constructor; [intros []|constructor].
  - discriminate.
  - vm_compute. reflexivity.
Qed.
(** Fid 2 can then no longer be read. *)
Lemma shared_file_dead : replies (share ++ [read 2 0 8192; clunk_ 1; read 2 0 8192]) =
  replies share ++ [Some (inr (MRread (mkRreadPkt []))); Some (inr (MRclunk mkRclunkPkt)); Some (inl (str "file already closed"))].
Proof. vm_compute. reflexivity. Qed.

(** * Directories *)
(** Reading from offset 0 until an empty reply gets to the end of the directory. *)
Definition full_dir_reads : Prop := forall c fid f h u ss, u fid = Some f -> f_file f = Some h ->
  negb (N.land (QID_Type (f_QID f)) QTDIR =? 0) = true -> chain c u ss -> dir_reads fid true ss -> Forall (fun s => rewound (s_tr s)) ss ->
  Forall (fun s => (0 <= count_of s)%Z) ss -> last (map s_res ss) None = Some (inr (MRread (mkRreadPkt []))) ->
  In (inl EOF) (entries (flat_map s_tr ss)).
Definition open_dir : list tmsg := make_a ++ [open 1 OREAD].
Lemma small_count : ~ full_dir_reads.
Proof.
  intros F. pose proof (demo_exec open_dir (read 1 0 10)) as X. destruct (run1 c0 (read 1 0 10) (after open_dir)) as [[r s'] tr] eqn:E.
  assert (Hc : map (fun x => match x with inl EOF => true | _ => false end) (entries tr) = [false]).
  { apply (f_equal (fun x => map (fun x => match x with inl EOF => true | _ => false end) (entries (snd x)))) in E. cbn [snd] in E. rewrite <- E. vm_compute. reflexivity. }
  assert (Hr : r = Some (inr (MRread (mkRreadPkt [])))).
  { apply (f_equal (fun x => fst (fst x))) in E. cbn [fst] in E. rewrite <- E. vm_compute. reflexivity. }
  assert (Hw : flat_map (fun e => match e with Ev o x => match o return ret_of o -> list (option oserr) with OSeek _ => fun x => [x] | _ => fun _ => [] end x end) tr = [None]).
  { apply (f_equal (fun x => flat_map (fun e => match e with Ev o x => match o return ret_of o -> list (option oserr) with OSeek _ => fun x => [x] | _ => fun _ => [] end x end) (snd x))) in E. cbn [snd] in E. rewrite <- E. vm_compute. reflexivity. }
  clear E. set (st := mkStep (fst (after open_dir)) (read 1 0 10) tr r (fst s')).
  destruct (fst (after open_dir) 1) as [f|] eqn:Ef; [|vm_compute in Ef; discriminate].
  assert (Hf : f_file f = Some 101) by (apply (f_equal (fun o => match o with Some f => f_file f | None => None end)) in Ef; cbv beta iota in Ef; rewrite <- Ef; vm_compute; reflexivity).
  assert (Hq : QID_Type (f_QID f) = 128) by (apply (f_equal (fun o => match o with Some f => QID_Type (f_QID f) | None => 0 end)) in Ef; cbv beta iota in Ef; rewrite <- Ef; vm_compute; reflexivity).
  assert (Y : In (inl EOF) (entries (flat_map s_tr [st]))).
  { apply (F c0 1 f 101 (fst (after open_dir))); [exact Ef|exact Hf|rewrite Hq; reflexivity| | | | |].
    - cbn [chain st s_pre s_req s_tr s_res s_post]. split; [reflexivity|]. split; [exact X|exact I].
    - cbn [dir_reads]. split; [exists 0, 10%Z; split; reflexivity|exact I].
    - constructor; [|constructor]. cbn [st s_tr]. intros h x Hx.
      assert (Z : In x [None]). { rewrite <- Hw. apply in_flat_map. exists (Ev (OSeek h) x). split; [exact Hx|left; reflexivity]. }
      destruct Z as [<-|[]]. reflexivity.
    - constructor; [|constructor]. cbn. lia.
    - cbn. rewrite Hr. reflexivity. }
  cbn [flat_map st s_tr] in Y. rewrite app_nil_r in Y.
  apply (in_map (fun x => match x with inl EOF => true | _ => false end)) in Y. rewrite Hc in Y. destruct Y as [Y|[]]. discriminate Y.
Qed.
(** The entry is lost, also for later reads. *)
Lemma entry_lost : replies (open_dir ++ [read 1 0 10; read 1 10 8192]) =
  replies open_dir ++ [Some (inr (MRread (mkRreadPkt []))); Some (inr (MRread (mkRreadPkt [])))].
Proof. vm_compute. reflexivity. Qed.

(** * Attributes *)
Definition full_atomic : Prop := forall c fid b u tr e u',
  exec (method c (MTwstat (mkTwstatPkt fid b))) u tr (Some (inl e)) u' -> changes tr = [].
Definition mode_and_user : Dir := rec_ 384 keep32 keep32 keep64 [] (str "bob").
Lemma half_done : ~ full_atomic.
Proof.
  intros F. pose proof (demo_exec make_a (wstat 2 mode_and_user)) as X. destruct (run1 c0 (wstat 2 mode_and_user) (after make_a)) as [[r s'] tr] eqn:E.
  assert (Hr : r = Some (inl (str "Permission denied"))).
  { apply (f_equal (fun x => fst (fst x))) in E. cbn [fst] in E. rewrite <- E. vm_compute. reflexivity. }
  assert (Hc : List.length (changes tr) = 1%nat).
  { apply (f_equal (fun x => List.length (changes (snd x)))) in E. cbn [snd] in E. rewrite <- E. vm_compute. reflexivity. }
  subst r. apply F in X. rewrite X in Hc. discriminate.
Qed.
(** An access time that is not to be touched stays. *)
Definition full_times : Prop := forall c fid b d t rest s r s' tr i, wf (snd s) ->
  Unmarshaldir (Buf b []) = URet d t rest None -> Dir_Atime d = keep32 ->
  run1 c (MTwstat (mkTwstatPkt fid b)) s = (r, s', tr) -> n_atime (w_nodes (snd s') i) = n_atime (w_nodes (snd s) i).
Definition only_mtime : Dir := rec_ keep32 keep32 1234 keep64 [] [].
Lemma wf_after ms : wf (snd (after ms)).
Proof.
  unfold after. assert (W : wf (snd s0)) by apply wf_empty. revert W. generalize s0. induction ms as [|m ms IH]; intros s W; [exact W|].
  cbn [last_state]. destruct (run1 c0 m s) as [[r s'] tr] eqn:E. apply IH. apply run1_spec in E as [_ E]. apply follows_wf in E; [apply E|exact W].
Qed.
Lemma mtime_touches_atime : ~ full_times.
Proof.
  intros F. destruct (run1 c0 (wstat 2 only_mtime) (after make_a)) as [[r s'] tr] eqn:E.
  assert (Ed : exists d t rest, Unmarshaldir (Buf (Marshaldir only_mtime) []) = URet d t rest None /\ Dir_Atime d = keep32).
  { vm_compute. repeat eexists. }
  destruct Ed as (d & t & rest & Ed & Ha).
  pose proof (F c0 2 _ d t rest _ _ _ _ 3 (wf_after make_a) Ed Ha E) as X.
  apply (f_equal (fun x => n_atime (w_nodes (snd (snd (fst x))) 3))) in E. cbn [fst snd] in E. rewrite <- E in X. vm_compute in X. discriminate.
Qed.
(** A mode is set as given. *)
Definition full_mode : Prop := forall c fid b d t rest u tr r u' p m, Unmarshaldir (Buf b []) = URet d t rest None ->
  exec (method c (MTwstat (mkTwstatPkt fid b))) u tr r u' -> In (OChmod p m) (map (fun e => ev_op e) tr) -> m = Dir_Mode d.
Definition append_mode : Dir := rec_ (1073741824 + 420) keep32 keep32 keep64 [] []. (* DMAPPEND|0644 *)
Lemma mode_bits_lost : ~ full_mode.
Proof.
  intros F. pose proof (demo_exec make_a (wstat 2 append_mode)) as X. destruct (run1 c0 (wstat 2 append_mode) (after make_a)) as [[r s'] tr] eqn:E.
  assert (Hr : map (fun e => ev_op e) (calls tr) = [OChmod (str "/srv/a") 420]).
  { apply (f_equal (fun x => map (fun e => ev_op e) (calls (snd x)))) in E. cbn [snd] in E. rewrite <- E. vm_compute. reflexivity. }
  assert (Ed : exists d t rest, Unmarshaldir (Buf (Marshaldir append_mode) []) = URet d t rest None /\ Dir_Mode d = 1073741824 + 420).
  { vm_compute. repeat eexists. }
  destruct Ed as (d & t & rest & Ed & Ha).
  assert (Y : 420 = Dir_Mode d).
  { eapply F; [exact Ed|exact X|]. assert (Hin : In (OChmod (str "/srv/a") 420) (map (fun e => ev_op e) (calls tr))) by (rewrite Hr; left; reflexivity).
    apply in_map_iff in Hin as [e [He Hin]]. rewrite <- He. apply in_map. apply filter_In in Hin. apply Hin. }
  rewrite Ha in Y. discriminate.
Qed.

(** * Create *)
Definition full_create : Prop := forall c fid name perm mode (s : table * world) r s' tr f i, wf (snd s) -> fst s fid = Some f ->
  lookup (snd s) (Join (f_fullName f) name) = Some i ->
  run1 c (MTcreate (mkTcreatePkt fid name perm mode)) s = (r, s', tr) -> exists e, r = Some (inl e).
Lemma create_over_existing : ~ full_create.
Proof.
  intros F. destruct (run1 c0 (create 1 (str "a") 420 ORDWR) (after make_a)) as [[r s'] tr] eqn:E.
  destruct (fst (after make_a) 1) as [f|] eqn:Ef; [|vm_compute in Ef; discriminate].
  assert (Hf : f_fullName f = str "/srv") by (apply (f_equal (fun o => match o with Some f => f_fullName f | None => [] end)) in Ef; cbv beta iota in Ef; rewrite <- Ef; vm_compute; reflexivity).
  destruct (F c0 1 (str "a") 420 ORDWR (after make_a) r s' tr f 3 (wf_after make_a) Ef) as [e X]; [rewrite Hf; vm_compute; reflexivity|exact E|].
  apply (f_equal (fun x => match fst (fst x) with Some (inr _) => true | _ => false end)) in E. cbn [fst] in E. rewrite X in E. vm_compute in E. discriminate.
Qed.
(** The old contents are gone; and a directory "created" over a file is no directory. *)
Lemma create_truncates : data (snd (after make_a)) 3 = str "hello" /\ data (snd (after (make_a ++ [create 1 (str "a") 420 ORDWR]))) 3 = [].
Proof. vm_compute. split; reflexivity. Qed.
Lemma mkdir_over_file : exists q, nth 4 (replies (make_a ++ [create 1 (str "a") (DMDIR + 493) OREAD])) None = Some (inr (MRcreate (mkRcreatePkt q 8000))) /\ QID_Type q = 0.
Proof. eexists. vm_compute. split; reflexivity. Qed.

(** * Open files *)
Definition full_closed : Prop := forall c h u, hist c h u -> distinct_files h ->
  forall k, In k (opens (trace h)) -> (exists fid, held u fid = Some k) \/ In k (closes (trace h)).
Lemma untouched_fid c x : forall ms s, Forall (fun m => affected m <> Some x) ms -> fst (last_state c ms s) x = fst s x.
Proof.
  induction ms as [|m ms IH]; intros s H; [reflexivity|]. inversion_clear H as [|? ? H1 H2]. cbn [last_state].
  destruct (run1 c m s) as [[r s'] tr] eqn:E. rewrite IH by exact H2. apply run1_spec in E as [E _]. eapply frame; [exact E|exact H1].
Qed.
Definition twice : list tmsg := [attach 1; open 1 OREAD; open 1 OREAD; clunk_ 1].
Lemma reopen_leaks : ~ full_closed.
Proof.
  intros F. assert (Ho : opens (trace (steps c0 twice s0)) = [100; 101]) by (vm_compute; reflexivity).
  destruct (F _ _ _ (demo_hist twice)) with (k := 100) as [[fid H]|H].
  - unfold distinct_files. rewrite Ho. constructor; [intros [X|[]]; discriminate|]. constructor; [intros []|constructor].
  - rewrite Ho. left. reflexivity.
  - unfold held in H. destruct (fst (after twice) fid) as [f|] eqn:E; [|discriminate].
    destruct (N.eq_dec fid 1) as [->|Hn]; [vm_compute in E; discriminate|].
    unfold after in E. rewrite untouched_fid in E; [discriminate|]. repeat (apply Forall_cons || apply Forall_nil); intros X; injection X as X; congruence.
  - replace (closes (trace (steps c0 twice s0))) with [101] in H by (vm_compute; reflexivity). destruct H as [H|[]]. discriminate.
Qed.

(** A clone shares the open file, and each of the two fids closes it. *)
Lemma closed_twice : closes (trace (steps c0 (share ++ [clunk_ 1; clunk_ 2]) s0)) = [100; 100].
Proof. vm_compute. reflexivity. Qed.

(** * Locking *)
Lemma attach_unlocked : ~ (forall c m u tr r u', exec (method c m) u tr r u' -> disciplined tr).
Proof.
  intros F. pose proof (demo_exec [] (attach 1)) as X. destruct (run1 c0 (attach 1) (after [])) as [[r s'] tr] eqn:E.
  assert (Hc : lock_state false tr = None).
  { apply (f_equal (fun x => lock_state false (snd x))) in E. cbn [snd] in E. rewrite <- E. vm_compute. reflexivity. }
  apply F in X. unfold disciplined in X. rewrite Hc in X. discriminate.
Qed.

(** * Panics *)
Lemma negative_count : ~ (forall c h u m tr r u', hist c h u -> exec (method c m) u tr r u' -> r <> None).
Proof.
  intros F. pose proof (demo_exec make_a (read 2 0 (-1))) as X. destruct (run1 c0 (read 2 0 (-1)) (after make_a)) as [[r s'] tr] eqn:E.
  assert (Hr : r = None) by (apply (f_equal (fun x => fst (fst x))) in E; cbn [fst] in E; rewrite <- E; vm_compute; reflexivity).
  exact (F _ _ _ _ _ _ _ (demo_hist make_a) X Hr).
Qed.

(** * Version *)
Definition full_version : Prop := forall c h u msize tr a u', hist c h u ->
  exec (method c (MTversion (mkTversionPkt msize (str "9P2000")))) u tr (Some (inr a)) u' -> forall fid, u' fid = None.
Lemma version_keeps_fids : ~ full_version.
Proof.
  intros F. pose proof (demo_exec [attach 1] (MTversion (mkTversionPkt 8192 (str "9P2000")))) as X.
  destruct (run1 c0 (MTversion (mkTversionPkt 8192 (str "9P2000"))) (after [attach 1])) as [[r s'] tr] eqn:E.
  assert (Hr : r = Some (inr (MRversion (mkRversionPkt 8192 (str "9P2000"))))) by (apply (f_equal (fun x => fst (fst x))) in E; cbn [fst] in E; rewrite <- E; vm_compute; reflexivity).
  subst r. pose proof (F _ _ _ _ _ _ _ (demo_hist [attach 1]) X 1) as Y. apply version_keeps in X as [X _]. rewrite X in Y. vm_compute in Y. discriminate.
Qed.
