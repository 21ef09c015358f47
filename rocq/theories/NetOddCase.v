(** A file that the operating system takes for a directory: what is written is not what is read. *)
From Verif Require Import Base GoBuf CodecPrim CodecLemmas Types Codec Msgs CodecSpec StubPrim Stubs GoPath Server ServerSpec ServerWitness Rpc GoSyntax Ufs UfsSpec MemOS GoRun GoFmt GoProg GoWp
  ServerRun ServerRunLemmas Client ClientSpec ClientRun ClientRunLemmas ClientRunSim ClientRunNew ClientHist ClientRunThm ClientRunExec ClientWell
  NetRun NetLemmas NetCase NetStore NetClient NetLive NetLiveCase NetEnds NetEnds2 NetEndsCase NetTidy NetStays NetWell NetWellCase UfsFits UfsStored NetUfsCase NetStored NetStoredCase.
Local Opaque NumTags all_tags.

(** One file; Stat says that it is a directory, and Readdir finds nothing in it. *)
Definition odd_info : FileInfo := mkFI ModeDir (str "odd") 0 (mkTime 1 0) (Some 7).
Definition odd_os : os bytes := fun o w =>
  match o return ret_of o * bytes with
  | OLock | OUnlock | OPut _ _ | ODel _ | OSet _ _ => (tt, w)
  | OGet _ => (None, w)
  | OLstat _ | OStat _ => (inr odd_info, w)
  | OReaddir _ => (inl EOF, w)
  | OOpen _ _ _ => (inr 0, w)
  | OReadAt _ n off => ((MemOS.slice w (Z.to_nat off) (N.to_nat n), None), w)
  | OWriteAt _ b off => ((Z.of_N (blen b), None), write_at w (Z.to_nat off) b)
  | OMkdir _ _ | OChmod _ _ | ORename _ _ | OTruncate _ _ | OChtimes _ _ _ | ORemove _ | OSeek _ | OSync _ | OClose _ => (None, w)
  end.
Lemma odd_keeps : keeps odd_os (fun w _ => Some w).
Proof.
  split.
  - intros hd b off w k w' H. cbn in H. injection H as <- <-. eauto.
  - intros hd n off w b e w' H _. cbn in H. injection H as <- <- <-. eauto.
  - intros o w hd H. destruct o; try discriminate H; reflexivity.
Qed.
Lemma odd_decent : decent srv_cfg odd_os.
Proof.
  split; [reflexivity|]. intros o w. destruct o; cbn [odd_os fst fine]; try exact Logic.I; try (split; reflexivity); try reflexivity.
  cbn [fst snd]. split; [|exact Logic.I]. unfold blen, MemOS.slice. rewrite firstn_length. lia.
Qed.
Definition odd : NineServer (table * bytes) := ufs srv_cfg odd_os.
Definition odd0 : table * bytes := (no_fids, []).
(** The listener accepts the connection. *)
Definition o_before : memory (cworld (table * bytes)) := mkMem (first_cells new_listener) 2 (mkCW [] [] true odd0 0 [] []).
Definition o_accept : option (ending * memory (cworld (table * bytes))) :=
  run protocol_program (ServerRun.outside odd ServerWitness.quiet net_addr 0) (N.to_nat 3000) (start (str "Listener.Accept") [VPtr (str "Listener") 1 []] [VObj (str "net.Conn") 0]) o_before.
Definition o_net_of (r : option (ending * memory (cworld (table * bytes)))) : option (@net (table * bytes)) :=
  match r with
  | Some (Returned [VNil], s) => match w_started (GoWp.rest s) with [(f, vs)] => Some (mkNet (first_state true true []) [] (Some (goroutine (f, vs))) s [] false) | _ => None end
  | _ => None
  end.
Definition o_first : option (@net (table * bytes)) := o_net_of o_accept.
Lemma o_net_of_some r n : o_net_of r = Some n -> exists s f vs, r = Some (Returned [VNil], s) /\ w_started (GoWp.rest s) = [(f, vs)] /\ n = mkNet (first_state true true []) [] (Some (goroutine (f, vs))) s [] false.
Proof.
  unfold o_net_of. generalize (first_state true true []). intros g.
  destruct r as [[[[|[] [|]]| |] s]|]; intros H; try discriminate H. destruct (w_started (GoWp.rest s)) as [|[f vs] [|]] eqn:Es; try discriminate H.
  injection H as <-. exists s, f, vs. auto.
Qed.
Lemma o_accept_ends out s : o_accept = Some (out, s) ->
  ends protocol_program (ServerRun.outside odd ServerWitness.quiet net_addr 0) (start (str "Listener.Accept") [VPtr (str "Listener") 1 []] [VObj (str "net.Conn") 0]) o_before out s.
Proof. intros E. exists (N.to_nat 3000). exact E. Qed.
Lemma o_connected n : o_first = Some n -> connected odd ServerWitness.quiet net_addr 0 0 (first_opt true true) 1 true true odd0 n.
Proof.
  intros H. apply o_net_of_some in H. destruct H as (s & f & vs & E & Es & ->). apply o_accept_ends in E.
  split; [apply first_opened|]. split; [|split; [reflexivity|split; reflexivity]]. cbn [n_server n_mem]. exists (goroutine (f, vs)). split; [reflexivity|].
  exists 0, [], (VObj (str "Tracer") 0), VNil, 1, 0, o_before, f, vs.
  split; [right; exists 0; reflexivity|]. split; [reflexivity|]. split; [reflexivity|]. split; [discriminate|]. split; [reflexivity|]. split; [reflexivity|].
  do 6 (split; [reflexivity|]). split; [exact E|]. split; [exact Es|reflexivity].
Qed.
(** version, attach, open, write, read. *)
Definition m_open : tmsg := MTopen (mkTopenPkt 5 2).
Definition o_attach : rmsg := MRattach (mkRattachPkt (mkQID 128 1000 7)).
Definition o_open : rmsg := MRopen (mkRopenPkt (mkQID 128 1000 7) 8192).
Definition o_read : rmsg := MRread (mkRreadPkt []).
Definition o_call (c : nat) (m : tmsg) : list jact :=
  [JCall (AStart c (call_request m)); JCall (AEnqueue c); JClient 2 2000; JUp 1000; JServer 9000; JDown 1000;
   JClient 1 2000; JCall (AMeet 1 0); JClient 0 600; JCall (ADeliver 0 c); JClient 0 600; JClient 1 600].
Definition o_acts : list jact :=
  [JClient 0 300; JClient 1 300; JServer 400] ++ o_call 0 NetStore.m_version ++ o_call 1 m_attach ++ o_call 2 m_open ++ o_call 3 NetStore.m_write ++ o_call 4 m_read3.
Definition o_seen : list lbl := u_call 0 1 NetStore.m_version r_version ++ u_call 1 2 m_attach o_attach ++ u_call 2 3 m_open o_open ++ u_call 3 4 NetStore.m_write r_write ++ u_call 4 5 m_read3 o_read.
Lemma o_computed : match o_first with
  | Some n0 => match jexec odd ServerWitness.quiet net_addr 0 0 (first_opt true true) 1 o_acts n0 with Some (ls, _) => seen ls = o_seen | None => False end
  | None => False
  end.
Proof. vm_compute. reflexivity. Qed.
Lemma o_run : exists n0 l n, connected odd ServerWitness.quiet net_addr 0 0 (first_opt true true) 1 true true odd0 n0 /\
  jsteps odd ServerWitness.quiet net_addr 0 0 (first_opt true true) 1 n0 l n /\ seen l = o_seen.
Proof.
  pose proof o_computed as H. destruct o_first as [n0|] eqn:E; [|contradiction]. apply o_connected in E.
  destruct (jexec_reaches _ _ _ _ _ _ _ o_acts n0 (fun ls _ => seen ls = o_seen) H) as (l & n & R & S). exists n0, l, n. auto.
Qed.
Lemma o_starts c q : In (LStart c q) o_seen -> In (c, q) [(0%nat, call_request NetStore.m_version); (1%nat, call_request m_attach); (2%nat, call_request m_open); (3%nat, call_request NetStore.m_write);
  (4%nat, call_request m_read3)].
Proof.
  unfold o_seen, u_call. cbn [app In]. intros Hy.
  repeat match goal with H : _ \/ _ |- _ => destruct H as [H|H] | H : False |- _ => destruct H | H : _ = LStart _ _ |- _ => discriminate H end.
  all: pose proof (f_equal (fun y => match y with LStart _ z => z | _ => q end) Hy) as Hq; pose proof (f_equal (fun y => match y with LStart z _ => z | _ => c end) Hy) as Hc; cbv beta iota in Hq, Hc; rewrite <- Hq, <- Hc; auto 10.
Qed.
Lemma odd_case : exists n0 l n l1 l2 l3 l4, connected odd ServerWitness.quiet net_addr 0 0 (first_opt true true) 1 true true odd0 n0 /\
  jsteps odd ServerWitness.quiet net_addr 0 0 (first_opt true true) 1 n0 l n /\ proper_calls modest l /\
  l = l1 ++ LDone 3 (marshalR 4 r_write) :: l2 /\ In (LStart 3 (call_request NetStore.m_write)) l /\
  l = l3 ++ LDone 4 (marshalR 5 o_read) :: l4 /\ In (LStart 4 (call_request m_read3)) l /\ starts 4 l1 = [] /\
  (forall c' q, In (LStart c' q) l3 -> c' <> 3%nat -> c' <> 4%nat -> (exists m, q = call_request m /\ fitsT m /\ looks 5 m) \/ exists lx r ly, l = lx ++ LDone c' r :: ly /\ starts 3 lx = []).
Proof.
  destruct o_run as (n0 & l & n & H1 & H2 & H3).
  destruct (done_split l 3 (marshalR 4 r_write) (firstn 15 o_seen) (skipn 16 o_seen)) as (l1 & l2 & E1 & S1); [rewrite H3; reflexivity|].
  destruct (done_split l 4 (marshalR 5 o_read) (firstn 19 o_seen) []) as (l3 & l4 & E3 & S3); [rewrite H3; reflexivity|].
  exists n0, l, n, l1, l2, l3, l4. split; [exact H1|]. split; [exact H2|]. split; [|split; [exact E1|split; [|split; [exact E3|split; [|split]]]]].
  - intros c q Hi. apply start_seen in Hi. rewrite H3 in Hi. apply o_starts in Hi.
    assert (X : exists m, In m [NetStore.m_version; m_attach; m_open; NetStore.m_write; m_read3] /\ q = call_request m).
    { cbn [In] in Hi. repeat (destruct Hi as [Hi|Hi]; [pose proof (f_equal snd Hi) as Hq; cbn [snd] in Hq; rewrite <- Hq; eexists; split; [|reflexivity]; cbn [In]; auto 10|]). destruct Hi. }
    destruct X as (m & Hm & ->). exists m. split; [reflexivity|].
    repeat (destruct Hm as [<-|Hm]; [split; [vm_compute; repeat split; first [reflexivity | discriminate]|split; [vm_compute; reflexivity|vm_compute; first [exact Logic.I | reflexivity | discriminate]]]|]). destruct Hm.
  - apply seen_start. rewrite H3. unfold o_seen, u_call. cbn [app In]. auto 20.
  - apply seen_start. rewrite H3. unfold o_seen, u_call. cbn [app In]. auto 30.
  - rewrite <- starts_seen, S1. reflexivity.
  - intros c' q Hi N3 N4. apply start_seen in Hi. assert (Hj : In (LStart c' q) o_seen).
    { rewrite S3 in Hi. rewrite <- (firstn_skipn 19 o_seen). apply in_app_iff. left. exact Hi. }
    apply o_starts in Hj. cbn [In] in Hj. destruct Hj as [Hj|[Hj|[Hj|[Hj|[Hj|[]]]]]]; pose proof (f_equal fst Hj) as Hc; cbn [fst] in Hc.
    + right. destruct (done_split l 0 (marshalR 1 r_version) (firstn 3 o_seen) (skipn 4 o_seen)) as (lx & ly & E0 & S0); [rewrite H3; reflexivity|]. subst c'. exists lx, (marshalR 1 r_version), ly. split; [exact E0|]. rewrite <- starts_seen, S0. reflexivity.
    + right. destruct (done_split l 1 (marshalR 2 o_attach) (firstn 7 o_seen) (skipn 8 o_seen)) as (lx & ly & E0 & S0); [rewrite H3; reflexivity|]. subst c'. exists lx, (marshalR 2 o_attach), ly. split; [exact E0|]. rewrite <- starts_seen, S0. reflexivity.
    + right. destruct (done_split l 2 (marshalR 3 o_open) (firstn 11 o_seen) (skipn 12 o_seen)) as (lx & ly & E0 & S0); [rewrite H3; reflexivity|]. subst c'. exists lx, (marshalR 3 o_open), ly. split; [exact E0|]. rewrite <- starts_seen, S0. reflexivity.
    + destruct N3. auto.
    + destruct N4. auto.
Qed.
Lemma o_result : call_result m_read3 (marshalR 5 o_read) [] = CallRet (MRread (mkRreadPkt [])) None.
Proof. vm_compute. reflexivity. Qed.
