(** Property C79: client, server and file server together, all three from their texts: client.go, server.go and filesystem.go. *)
From Verif Require Import Base GoBuf CodecPrim Types Codec Msgs CodecSpec StubPrim Server ServerSpec Rpc GoSyntax Ufs UfsSpec MemOS UfsRun UfsText GoRun GoFmt GoProg GoWp
  ServerRun Client ClientSpec ClientRun ClientRunSim ClientHist ClientRunThm NetRun NetLemmas NetThm2 NetCase NetStore NetClient NetLive NetLiveCase NetEnds2 NetTidy NetStays NetWell NetWell2 NetWellCase
  UfsFits UfsStored NetUfsCase NetStored NetText NetStoredCase NetTextCase.
From Verif Require ServerWitness.

(** The methods of the file server are run from the text ([runs_text]), beginning with what the function literal in NewUFS makes ([fresh_server]).  It answers every sequence of
    requests without a panic, and every answer fits into a message. *)
Theorem C79_answers : forall W St c (h : os W) w L view (ns : NineServer St) x reqs, IOunit c = 8192 -> decent c h -> runs_text h L view ns -> fresh_server h c w L (view x) ->
  Forall (fun y => ok_req y /\ modest (snd y)) reqs ->
  exists reps st, answers ns false x reqs = Some (reps, st) /\ Forall fits_rep reps.
Proof. intros W St c h w L view ns x reqs HI HD HT HM Hr. exact (text_does h c L view ns x w HT HM HI reqs Hr HD). Qed.
Print Assumptions C79_answers.
(** Every call returns the answer that the text gives to its own request in one order of all the requests, and this order respects the time. *)
Theorem C79_serial : forall W St c (h : os W) w L view (ns : NineServer St) x E remote srn crn opt C n0 l n,
  IOunit c = 8192 -> decent c h -> runs_text h L view ns -> fresh_server h c w L (view x) ->
  (forall j, e_write E j = None) -> connected ns E remote srn crn opt C true true x n0 -> jsteps ns E remote srn crn opt C n0 l n -> proper_calls modest l ->
  exists reqs cs reps st, writes l = map enc_req reqs /\ Forall (ok_in modest) reqs /\ NoDup cs /\ List.length cs = List.length reqs /\
    answers ns false x (firstn (List.length (reads l)) reqs) = Some (reps, st) /\ reads l = map enc_rep reps /\
    (forall la lb k c, l = la ++ lb -> nth_error cs k = Some c -> (k < List.length (writes la))%nat -> exists t m, nth_error reqs k = Some (t, m) /\ starts c la = [call_request m]) /\
    (forall l1 c r l2, l = l1 ++ LDone c r :: l2 -> exists k t m a, nth_error cs k = Some c /\ nth_error reqs k = Some (t, m) /\ nth_error reps k = Some (t, a) /\
       r = marshalR t a /\ (forall sp, call_result m r sp = returns m a) /\
       exists la y lb, l1 = la ++ LWrite y (marshalT t m) :: lb /\ List.length (writes la) = k /\ starts c la = [call_request m]) /\
    (forall l1 c r l2 k k' c', l = l1 ++ LDone c r :: l2 -> nth_error cs k = Some c -> nth_error cs k' = Some c' -> starts c' l1 = [] -> (k < k')%nat).
Proof. intros W St c h w L view ns x E remote srn crn opt C n0 l n HI HD HT HM HE HC. exact (net_serial ns E remote srn crn opt C HE x (text_fitting h c L view ns x w HT HM HI HD) n0 HC l n). Qed.
Print Assumptions C79_serial.
(** Without failures (as in C77): the client lives, the server goes on serving ... *)
Theorem C79_alive : forall W St c (h : os W) w L view (ns : NineServer St) x E remote srn crn opt C n0 l n u d,
  IOunit c = 8192 -> decent c h -> runs_text h L view ns -> fresh_server h c w L (view x) ->
  (forall j, e_write E j = None) -> connected ns E remote srn crn opt C true true x n0 -> wsteps ns E remote srn crn opt C cut n0 l n u d -> proper_calls modest l ->
  g_dead (n_client n) = false /\ ~ In LEof l /\ ~ In LFatal l /\ n_end n = false /\ n_server n <> None /\ w_open (GoWp.rest (n_mem n)) = true.
Proof.
  intros W St c h w L view ns x E remote srn crn opt C n0 l n u d HI HD HT HM HE HC.
  exact (well_alive ns E remote srn crn opt C HE x (text_fitting h c L view ns x w HT HM HI HD) (text_answering h c L view ns x w HT HM HI HD) n0 HC l n u d).
Qed.
Print Assumptions C79_alive.
(** ... from every such state one can go on to where every call has returned ... *)
Theorem C79_returns : forall W St c (h : os W) w L view (ns : NineServer St) x E remote srn crn opt C n0 l n u d,
  IOunit c = 8192 -> decent c h -> runs_text h L view ns -> fresh_server h c w L (view x) ->
  (forall j, e_write E j = None) -> connected ns E remote srn crn opt C true true x n0 -> wsteps ns E remote srn crn opt C cut n0 l n u d -> proper_calls modest l -> (forall t, ~ In (LTag t) l) ->
  exists l' n' u' d', wmoves ns E remote srn crn opt C cut n u d l' n' u' d' /\ forall c q, In (LStart c q) (l ++ l') -> exists r, In (LDone c r) (l ++ l').
Proof.
  intros W St c h w L view ns x E remote srn crn opt C n0 l n u d HI HD HT HM HE HC.
  exact (well_returns ns E remote srn crn opt C HE x (text_fitting h c L view ns x w HT HM HI HD) (text_answering h c L view ns x w HT HM HI HD) n0 HC l n u d).
Qed.
Print Assumptions C79_returns.
(** ... and when nothing more can happen by itself, every call has returned. *)
Theorem C79_stopped : forall W St c (h : os W) w L view (ns : NineServer St) x E remote srn crn opt C n0 l n u d l' n' u' d',
  IOunit c = 8192 -> decent c h -> runs_text h L view ns -> fresh_server h c w L (view x) ->
  (forall j, e_write E j = None) -> connected ns E remote srn crn opt C true true x n0 -> wsteps ns E remote srn crn opt C cut n0 l n u d -> proper_calls modest l -> (forall t, ~ In (LTag t) l) ->
  wmoves ns E remote srn crn opt C cut n u d l' n' u' d' -> (forall l2 n2 u2 d2, wstep ns E remote srn crn opt C cut n' u' d' l2 n2 u2 d2 -> exists a, In a l2 /\ ~ own a) ->
  forall c q, In (LStart c q) (l ++ l') -> exists r, In (LDone c r) (l ++ l').
Proof.
  intros W St c h w L view ns x E remote srn crn opt C n0 l n u d l' n' u' d' HI HD HT HM HE HC.
  exact (well_stopped ns E remote srn crn opt C HE x (text_fitting h c L view ns x w HT HM HI HD) (text_answering h c L view ns x w HT HM HI HD) n0 HC l n u d l' n' u' d').
Qed.
Print Assumptions C79_stopped.
(** What one call has written, a later call reads (as in C78). *)
Theorem C79_read_after_write : forall W St c (h : os W) content w L view (ns : NineServer St) x E remote srn crn opt C n0 l n cw cr fid o d k rw rr a b l1 l2 l3 l4 sp sp',
  IOunit c = 8192 -> decent c h -> keeps h content -> runs_text h L view ns -> fresh_server h c w L (view x) ->
  (forall j, e_write E j = None) -> connected ns E remote srn crn opt C true true x n0 -> jsteps ns E remote srn crn opt C n0 l n -> proper_calls modest l ->
  let mw := MTwrite (mkTwritePkt fid o d) in let mr := MTread (mkTreadPkt fid o k) in
  fitsT mw -> fitsT mr -> (Z.to_nat k <= List.length d)%nat ->
  l = l1 ++ LDone cw rw :: l2 -> In (LStart cw (call_request mw)) l -> call_result mw rw sp = CallRet (MRwrite a) None ->
  l = l3 ++ LDone cr rr :: l4 -> In (LStart cr (call_request mr)) l -> call_result mr rr sp' = CallRet (MRread (mkRreadPkt b)) None ->
  starts cr l1 = [] ->
  (forall c' q, In (LStart c' q) l3 -> c' <> cw -> c' <> cr -> (exists m, q = call_request m /\ fitsT m /\ looks fid m) \/ exists lx r ly, l = lx ++ LDone c' r :: ly /\ starts cw lx = []) ->
  b = firstn (Z.to_nat k) d \/
  exists reqs more reps x' u f, writes l = map enc_req (reqs ++ more) /\ Forall ok_req (reqs ++ more) /\ answers ns false x reqs = Some (reps, (true, x')) /\
    UfsRun.holds c L (view x') u /\ u fid = Some f /\ N.land (QID_Type (f_QID f)) QTDIR <> 0.
Proof. exact @text_stored. Qed.
Print Assumptions C79_read_after_write.
(** There is such a file server, and it can be in the state that NewUFS makes. *)
Theorem C79_exists : forall W c (h : os W) w, IOunit c = 8192 -> exists L St view (ns : NineServer St) x, runs_text h L view ns /\ fresh_server h c w L (view x).
Proof. exact @text_exists. Qed.
Print Assumptions C79_exists.
(** The calls of C78_case, with the text. *)
Example C79_case : exists (ns : NineServer (tstate srv_cfg t_lay)) x, runs_text (mended srv_cfg mem_os) t_lay (fun x => proj1_sig x) ns /\ fresh_server (mended srv_cfg mem_os) srv_cfg empty_world t_lay (proj1_sig x) /\
  decent srv_cfg (mended srv_cfg mem_os) /\ keeps (mended srv_cfg mem_os) mem_content /\
  exists n0 l n l1 l2 l3 l4, connected ns ServerWitness.quiet net_addr 0 0 (first_opt true true) 1 true true x n0 /\
    jsteps ns ServerWitness.quiet net_addr 0 0 (first_opt true true) 1 n0 l n /\ proper_calls modest l /\
    l = l1 ++ LDone 3 (marshalR 4 (MRwrite (mkRwritePkt 5))) :: l2 /\ In (LStart 3 (call_request m_write)) l /\
    l = l3 ++ LDone 4 (marshalR 6 (MRread (mkRreadPkt (str "hel")))) :: l4 /\ In (LStart 4 (call_request m_read3)) l /\ starts 4 l1 = [] /\
    (forall c' q, In (LStart c' q) l3 -> c' <> 3%nat -> c' <> 4%nat -> (exists m, q = call_request m /\ fitsT m /\ looks 5 m) \/ exists lx r ly, l = lx ++ LDone c' r :: ly /\ starts 3 lx = []).
Proof. exists t_srv, t_x0. split; [exact (text_server_runs _ _ _)|]. split; [exact t_made|]. split; [exact srv_decent|]. split; [exact (mem_keeps srv_cfg)|]. exact t_stored. Qed.
