(** Property C77: a client and a server that run from the texts of client.go and server.go, where the server serves the file server of filesystem.go. *)
From Verif Require Import Base GoBuf CodecPrim Types Codec Msgs CodecSpec StubPrim Server ServerSpec Rpc GoSyntax Ufs UfsSpec MemOS GoRun GoFmt GoProg GoWp
  ServerRun Client ClientSpec ClientRun ClientRunSim ClientHist ClientRunThm NetRun NetLemmas NetThm2 NetCase NetStore NetClient NetLive NetLiveCase NetEnds2 NetTidy NetStays NetWell NetWell2 NetWellCase
  UfsFits NetUfsCase.
From Verif Require ServerWitness.

(** What C73 to C76 ask of a file server: the one of filesystem.go answers every sequence of requests without a panic, and every answer fits into a message.  The
    operating system answers with texts, names and numbers that fit ([decent]), and the requests are [modest]. *)
Theorem C77_answers : forall W c (h : os W) w reqs, decent c h ->
  Forall (fun y => ok_req y /\ modest (snd y)) reqs ->
  exists reps st, answers (ufs c h) false (no_fids, w) reqs = Some (reps, st) /\ Forall fits_rep reps.
Proof. intros W c h w reqs Hd Hr. exact (ufs_answers c h Hd reqs false no_fids w Hr no_fids_fine). Qed.
Print Assumptions C77_answers.
(** Every call returns the answer that the file server gives to its own request in one order of all the requests, and this order respects the time. *)
Theorem C77_serial : forall W c (h : os W) w E remote srn crn opt C n0 l n,
  (forall j, e_write E j = None) -> decent c h -> connected (ufs c h) E remote srn crn opt C true true (no_fids, w) n0 ->
  jsteps (ufs c h) E remote srn crn opt C n0 l n -> proper_calls modest l ->
  exists reqs cs reps st, writes l = map enc_req reqs /\ Forall (ok_in modest) reqs /\ NoDup cs /\ List.length cs = List.length reqs /\
    answers (ufs c h) false (no_fids, w) (firstn (List.length (reads l)) reqs) = Some (reps, st) /\ reads l = map enc_rep reps /\
    (forall la lb k c, l = la ++ lb -> nth_error cs k = Some c -> (k < List.length (writes la))%nat -> exists t m, nth_error reqs k = Some (t, m) /\ starts c la = [call_request m]) /\
    (forall l1 c r l2, l = l1 ++ LDone c r :: l2 -> exists k t m a, nth_error cs k = Some c /\ nth_error reqs k = Some (t, m) /\ nth_error reps k = Some (t, a) /\
       r = marshalR t a /\ (forall sp, call_result m r sp = returns m a) /\
       exists la y lb, l1 = la ++ LWrite y (marshalT t m) :: lb /\ List.length (writes la) = k /\ starts c la = [call_request m]) /\
    (forall l1 c r l2 k k' c', l = l1 ++ LDone c r :: l2 -> nth_error cs k = Some c -> nth_error cs k' = Some c' -> starts c' l1 = [] -> (k < k')%nat).
Proof. intros W c h w E remote srn crn opt C n0 l n HE HD HC. exact (net_serial (ufs c h) E remote srn crn opt C HE (no_fids, w) (ufs_fitting c h w HD) n0 HC l n). Qed.
Print Assumptions C77_serial.
(** When no write fails, the connection is not cut and no read ends inside the first seven bytes of a message: the client lives, the server goes on serving ... *)
Theorem C77_alive : forall W c (h : os W) w E remote srn crn opt C n0 l n u d,
  (forall j, e_write E j = None) -> decent c h -> connected (ufs c h) E remote srn crn opt C true true (no_fids, w) n0 ->
  wsteps (ufs c h) E remote srn crn opt C cut n0 l n u d -> proper_calls modest l ->
  g_dead (n_client n) = false /\ ~ In LEof l /\ ~ In LFatal l /\ n_end n = false /\ n_server n <> None /\ w_open (GoWp.rest (n_mem n)) = true.
Proof. intros W c h w E remote srn crn opt C n0 l n u d HE HD HC. exact (well_alive (ufs c h) E remote srn crn opt C HE (no_fids, w) (ufs_fitting c h w HD) (ufs_answering c h w HD) n0 HC l n u d). Qed.
Print Assumptions C77_alive.
(** ... from every such state one can go on to where every call has returned ... *)
Theorem C77_returns : forall W c (h : os W) w E remote srn crn opt C n0 l n u d,
  (forall j, e_write E j = None) -> decent c h -> connected (ufs c h) E remote srn crn opt C true true (no_fids, w) n0 ->
  wsteps (ufs c h) E remote srn crn opt C cut n0 l n u d -> proper_calls modest l -> (forall t, ~ In (LTag t) l) ->
  exists l' n' u' d', wmoves (ufs c h) E remote srn crn opt C cut n u d l' n' u' d' /\ forall c q, In (LStart c q) (l ++ l') -> exists r, In (LDone c r) (l ++ l').
Proof. intros W c h w E remote srn crn opt C n0 l n u d HE HD HC. exact (well_returns (ufs c h) E remote srn crn opt C HE (no_fids, w) (ufs_fitting c h w HD) (ufs_answering c h w HD) n0 HC l n u d). Qed.
Print Assumptions C77_returns.
(** ... and when nothing more can happen by itself, every call has returned. *)
Theorem C77_stopped : forall W c (h : os W) w E remote srn crn opt C n0 l n u d l' n' u' d',
  (forall j, e_write E j = None) -> decent c h -> connected (ufs c h) E remote srn crn opt C true true (no_fids, w) n0 ->
  wsteps (ufs c h) E remote srn crn opt C cut n0 l n u d -> proper_calls modest l -> (forall t, ~ In (LTag t) l) ->
  wmoves (ufs c h) E remote srn crn opt C cut n u d l' n' u' d' -> (forall l2 n2 u2 d2, wstep (ufs c h) E remote srn crn opt C cut n' u' d' l2 n2 u2 d2 -> exists a, In a l2 /\ ~ own a) ->
  forall c q, In (LStart c q) (l ++ l') -> exists r, In (LDone c r) (l ++ l').
Proof. intros W c h w E remote srn crn opt C n0 l n u d l' n' u' d' HE HD HC. exact (well_stopped (ufs c h) E remote srn crn opt C HE (no_fids, w) (ufs_fitting c h w HD) (ufs_answering c h w HD) n0 HC l n u d l' n' u' d'). Qed.
Print Assumptions C77_stopped.
(** Requests that are not modest: a read with a negative count makes the file server panic ... *)
Theorem C77_minus_refuted : ~ (forall W c (h : os W) w reqs, decent c h -> Forall ok_req reqs -> answers (ufs c h) false (no_fids, w) reqs <> None).
Proof. intros H. exact (H world srv_cfg (mended srv_cfg mem_os) empty_world minus_reqs srv_decent minus_ok minus_panics). Qed.
Print Assumptions C77_minus_refuted.
(** ... and the answer to a version request with a long text does not fit into a message. *)
Theorem C77_long_refuted : ~ (forall W c (h : os W) w reqs reps st, decent c h -> Forall ok_req reqs -> answers (ufs c h) false (no_fids, w) reqs = Some (reps, st) -> Forall fits_rep reps).
Proof. intros H. destruct long_answer as (reps & st & H1 & H2). exact (H2 (H world srv_cfg (mended srv_cfg mem_os) empty_world _ reps st srv_decent long_ok H1)). Qed.
Print Assumptions C77_long_refuted.
(** The file server on the small operating system of MemOS.v, with one directory /srv to serve: version, attach and create one after another, then a write and a read at
    the same time.  First the state when a part of the write has arrived, then the rest by itself: the read returns what was written. *)
Example C77_case :
  (forall j, e_write ServerWitness.quiet j = None) /\ decent srv_cfg (mended srv_cfg mem_os) /\
  exists n0 l n u d l' n' u' d', connected (ufs srv_cfg (mended srv_cfg mem_os)) ServerWitness.quiet net_addr 0 0 (first_opt true true) 1 true true (no_fids, empty_world) n0 /\
    wsteps (ufs srv_cfg (mended srv_cfg mem_os)) ServerWitness.quiet net_addr 0 0 (first_opt true true) 1 cut n0 l n u d /\ proper_calls modest l /\ (forall t, ~ In (LTag t) l) /\
    seen l = u_call 0 1 m_version r_version ++ u_call 1 2 m_attach r_attach ++ u_call 2 3 m_create r_create ++
      [LStart 4 (call_request m_read); LStart 3 (call_request m_write); LWrite 0 (marshalT 4 m_write); LWrite 0 (marshalT 5 m_read)] /\
    wmoves (ufs srv_cfg (mended srv_cfg mem_os)) ServerWitness.quiet net_addr 0 0 (first_opt true true) 1 cut n u d l' n' u' d' /\
    seen l' = [LRead (marshalR 4 (MRwrite (mkRwritePkt 5))); LDone 3 (marshalR 4 (MRwrite (mkRwritePkt 5)));
               LRead (marshalR 5 (MRread (mkRreadPkt (str "hello")))); LDone 4 (marshalR 5 (MRread (mkRreadPkt (str "hello"))))].
Proof. split; [reflexivity|]. split; [exact srv_decent|]. exact u_goes_on. Qed.
