(** Property C78: what one call has written, another call reads: client.go and server.go from their texts, the file server of filesystem.go, and an operating system that
    keeps the contents of open files. *)
From Verif Require Import Base GoBuf CodecPrim Types Codec Msgs CodecSpec StubPrim Server ServerSpec Rpc GoSyntax Ufs UfsSpec MemOS GoRun GoFmt GoProg GoWp
  ServerRun Client ClientSpec ClientRun ClientRunSim ClientHist ClientRunThm NetRun NetLemmas NetThm2 NetCase NetStore UfsFits UfsStored NetUfsCase NetStored NetStoredCase NetOddCase.
From Verif Require ServerWitness.

(** Any number of calls at the same time, in any execution: call cw has written d at offset o of the fid and has returned without an error; then call cr is made, reads at most as
    many bytes at the same place, and returns without an error.  Every other call that was made before cr returned is a read, stat, flush or version,
    an attach or walk that does not move the fid ([looks]), or had returned before cw was made.
    Then cr returns the beginning of d; or the file server takes the fid for a directory. *)
Theorem C78_read_after_write : forall W c (h : os W) content w E remote srn crn opt C n0 l n cw cr fid o d k rw rr a b l1 l2 l3 l4 sp sp',
  keeps h content -> decent c h -> (forall j, e_write E j = None) -> connected (ufs c h) E remote srn crn opt C true true (no_fids, w) n0 ->
  jsteps (ufs c h) E remote srn crn opt C n0 l n -> proper_calls modest l ->
  let mw := MTwrite (mkTwritePkt fid o d) in let mr := MTread (mkTreadPkt fid o k) in
  fitsT mw -> fitsT mr -> (Z.to_nat k <= List.length d)%nat ->
  l = l1 ++ LDone cw rw :: l2 -> In (LStart cw (call_request mw)) l -> call_result mw rw sp = CallRet (MRwrite a) None ->
  l = l3 ++ LDone cr rr :: l4 -> In (LStart cr (call_request mr)) l -> call_result mr rr sp' = CallRet (MRread (mkRreadPkt b)) None ->
  starts cr l1 = [] ->
  (forall c' q, In (LStart c' q) l3 -> c' <> cw -> c' <> cr -> (exists m, q = call_request m /\ fitsT m /\ looks fid m) \/ exists lx r ly, l = lx ++ LDone c' r :: ly /\ starts cw lx = []) ->
  b = firstn (Z.to_nat k) d \/
  exists reqs more reps u w' f, writes l = map enc_req (reqs ++ more) /\ Forall ok_req (reqs ++ more) /\ answers (ufs c h) false (no_fids, w) reqs = Some (reps, (true, (u, w'))) /\
    u fid = Some f /\ N.land (QID_Type (f_QID f)) QTDIR <> 0.
Proof.
  intros W c h content w E remote srn crn opt C n0 l n cw cr fid o d k rw rr a b l1 l2 l3 l4 sp sp' HK HD HE HC.
  exact (stored c h content HK HD w E remote srn crn opt C HE n0 HC l n cw cr fid o d k rw rr a b l1 l2 l3 l4 sp sp').
Qed.
Print Assumptions C78_read_after_write.
(** In the order in which the requests are answered (C77_serial): a read of a fid that is open on file hd returns what the writes to it have left, each applied in turn. *)
Theorem C78_sequence : forall W c (h : os W) content fid hd reqs u w d t o n reps st b, keeps h content ->
  (exists f, u fid = Some f /\ f_file f = Some hd /\ N.land (QID_Type (f_QID f)) QTDIR = 0) -> content w hd = Some d ->
  Forall (fun y => looks fid (snd y) \/ exists o b, snd y = MTwrite (mkTwritePkt fid o b)) reqs ->
  answers (ufs c h) true (u, w) (reqs ++ [(t, MTread (mkTreadPkt fid o n))]) = Some (reps ++ [(t, MRread (mkRreadPkt b))], st) ->
  (forall k t p a, nth_error reqs k = Some (t, MTwrite p) -> nth_error reps k = Some a -> exists z, snd a = MRwrite z) ->
  b = MemOS.slice (fold_left (fun d m => match m with MTwrite (mkTwritePkt _ o b) => write_at d (Z.to_nat (i64 o)) b | _ => d end) (map snd reqs) d) (Z.to_nat (i64 o)) (Z.to_nat n).
Proof. intros W c h content fid hd reqs u w d t o n reps st b HK. exact (sequence c h content HK fid hd reqs u w d t o n reps st b). Qed.
Print Assumptions C78_sequence.
(** The exception is needed: an operating system that keeps what is written to a file, but says of the file that it is a directory. *)
Theorem C78_directory_refuted : ~ (forall W c (h : os W) content w E remote srn crn opt C n0 l n cw cr fid o d k rw rr a b l1 l2 l3 l4 sp sp',
  keeps h content -> decent c h -> (forall j, e_write E j = None) -> connected (ufs c h) E remote srn crn opt C true true (no_fids, w) n0 ->
  jsteps (ufs c h) E remote srn crn opt C n0 l n -> proper_calls modest l ->
  let mw := MTwrite (mkTwritePkt fid o d) in let mr := MTread (mkTreadPkt fid o k) in
  fitsT mw -> fitsT mr -> (Z.to_nat k <= List.length d)%nat ->
  l = l1 ++ LDone cw rw :: l2 -> In (LStart cw (call_request mw)) l -> call_result mw rw sp = CallRet (MRwrite a) None ->
  l = l3 ++ LDone cr rr :: l4 -> In (LStart cr (call_request mr)) l -> call_result mr rr sp' = CallRet (MRread (mkRreadPkt b)) None ->
  starts cr l1 = [] ->
  (forall c' q, In (LStart c' q) l3 -> c' <> cw -> c' <> cr -> (exists m, q = call_request m /\ fitsT m /\ looks fid m) \/ exists lx r ly, l = lx ++ LDone c' r :: ly /\ starts cw lx = []) ->
  b = firstn (Z.to_nat k) d).
Proof.
  intros H. destruct odd_case as (n0 & l & n & l1 & l2 & l3 & l4 & H1 & H2 & H3 & H4 & H5 & H6 & H7 & H8 & H9). destruct s_fits as (F1 & F2 & F3 & _).
  assert (X : [] = firstn 3 (str "hello")); [|discriminate X].
  exact (H bytes srv_cfg odd_os (fun w _ => Some w) [] ServerWitness.quiet net_addr 0 0 (first_opt true true) 1 n0 l n 3%nat 4%nat 5 0 (str "hello") 3%Z (marshalR 4 r_write) (marshalR 5 o_read) (mkRwritePkt 5) []
    l1 l2 l3 l4 [] [] odd_keeps odd_decent (fun _ => eq_refl) H1 H2 H3 F1 F2 ltac:(vm_compute; auto) H4 H5 F3 H6 H7 o_result H8 H9).
Qed.
Print Assumptions C78_directory_refuted.
(** The operating system of MemOS.v is one of those. *)
Theorem C78_mem : forall c, keeps (mended c mem_os) (fun w hd => option_map (fun f => n_data (w_nodes w (o_ino f))) (w_files w hd)).
Proof. exact mem_keeps. Qed.
Print Assumptions C78_mem.
(** On it: after version, attach and create a write, with a stat at the same time; the stat returns while a read is under way. *)
Example C78_case :
  decent srv_cfg (mended srv_cfg mem_os) /\ fitsT m_write /\ fitsT m_read3 /\
  call_result m_write (marshalR 4 r_write) [] = CallRet (MRwrite (mkRwritePkt 5)) None /\ call_result m_read3 (marshalR 6 r_read3) [] = CallRet (MRread (mkRreadPkt (str "hel"))) None /\
  exists n0 l n l1 l2 l3 l4, connected (ufs srv_cfg (mended srv_cfg mem_os)) ServerWitness.quiet net_addr 0 0 (first_opt true true) 1 true true (no_fids, empty_world) n0 /\
    jsteps (ufs srv_cfg (mended srv_cfg mem_os)) ServerWitness.quiet net_addr 0 0 (first_opt true true) 1 n0 l n /\ proper_calls modest l /\
    l = l1 ++ LDone 3 (marshalR 4 r_write) :: l2 /\ In (LStart 3 (call_request m_write)) l /\
    l = l3 ++ LDone 4 (marshalR 6 r_read3) :: l4 /\ In (LStart 4 (call_request m_read3)) l /\ starts 4 l1 = [] /\
    (forall c' q, In (LStart c' q) l3 -> c' <> 3%nat -> c' <> 4%nat -> (exists m, q = call_request m /\ fitsT m /\ looks 5 m) \/ exists lx r ly, l = lx ++ LDone c' r :: ly /\ starts 3 lx = []).
Proof. destruct s_fits as (H1 & H2 & H3 & H4). split; [exact srv_decent|]. split; [exact H1|]. split; [exact H2|]. split; [exact H3|]. split; [exact H4|]. exact stored_case. Qed.
