(** Property C81: client, server, debug wrapper and file server together, all four from their texts: client.go, server.go, debug.go and filesystem.go. *)
From Verif Require Import Base GoBuf CodecPrim Types Codec Msgs CodecSpec StubPrim Server ServerSpec Rpc GoSyntax Ufs UfsSpec MemOS UfsRun UfsText Debugfs DebugLemmas DebugRun GoRun GoFmt GoProg GoWp
  ServerRun Client ClientSpec ClientRun ClientRunSim ClientHist ClientRunThm NetRun NetLemmas NetThm2 NetCase NetStore NetClient NetLive NetLiveCase NetEnds2 NetTidy NetStays NetWell NetWell2 NetWellCase
  UfsFits UfsStored NetUfsCase NetStored NetText NetStoredCase NetTextCase NetAlike NetChatty DebugRun DebugText NetFour.
From Verif Require ServerWitness.


(** The methods of the file server are run from the text of filesystem.go ([runs_text]), those of the wrapper from the text of debug.go ([runs_debug]), around a file server as the function
    literal in NewUFS makes it.  Every sequence of requests is answered without a panic, with answers that fit, and they are those that the file server gives without the wrapper. *)
Theorem C81_answers : forall W St Sd c (h : os W) w L view (ns : NineServer St) x log A dview (dns : NineServer Sd) d0 reqs,
  IOunit c = 8192 -> decent c h -> runs_text h L view ns -> fresh_server h c w L (view x) -> runs_debug ns A dview dns -> wraps A (dview d0) (x, log) ->
  Forall (fun y => ok_req y /\ modest (snd y)) reqs ->
  exists reps st x' log', answers dns false d0 reqs = Some (reps, st) /\ Forall fits_rep reps /\ answers ns false x reqs = Some (reps, (fst st, x')) /\ wraps A (dview (snd st)) (x', log').
Proof. intros W St Sd c h w L view ns x log A dview dns d0 reqs HI HD HT HM HW HA. exact (four_does c h w L view ns x log A dview dns d0 HI HD HT HM HW HA reqs). Qed.
Print Assumptions C81_answers.
(** Around any file server, the text of debug.go leaves the log that the wrapper of C48 leaves; two lines for every request. *)
Theorem C81_log : forall St Sd (ns : NineServer St) x log A dview (dns : NineServer Sd) d0 reqs reps st, runs_debug ns A dview dns -> wraps A (dview d0) (x, log) ->
  answers dns true d0 reqs = Some (reps, st) ->
  exists x' lines, wraps A (dview (snd st)) (x', log ++ lines) /\ List.length lines = (2 * List.length reqs)%nat /\ answers (debugfs St ns) true (x, log) reqs = Some (reps, (fst st, (x', log ++ lines))).
Proof.
  intros St Sd ns x log A dview dns d0 reqs reps st HW HA H. destruct (four_as ns x log A dview dns d0 HW HA true reqs reps st H) as (x' & log' & _ & E2 & E3).
  destruct (debug_lines ns reqs x log reps _ E3) as (lines & E & El). cbn [snd] in E. subst log'. exists x', lines. auto.
Qed.
Print Assumptions C81_log.
(** Every call returns the answer that the text of filesystem.go gives to its own request in one order of all the requests, and this order respects the time. *)
Theorem C81_serial : forall W St Sd c (h : os W) w L view (ns : NineServer St) x log A dview (dns : NineServer Sd) d0 E remote srn crn opt C n0 l n, IOunit c = 8192 -> decent c h -> runs_text h L view ns -> fresh_server h c w L (view x) -> runs_debug ns A dview dns -> wraps A (dview d0) (x, log) ->
  (forall j, e_write E j = None) -> connected dns E remote srn crn opt C true true d0 n0 -> jsteps dns E remote srn crn opt C n0 l n -> proper_calls modest l ->
  exists reqs cs reps st, writes l = map enc_req reqs /\ Forall (ok_in modest) reqs /\ NoDup cs /\ List.length cs = List.length reqs /\
    answers ns false x (firstn (List.length (reads l)) reqs) = Some (reps, st) /\ reads l = map enc_rep reps /\
    (forall la lb k c, l = la ++ lb -> nth_error cs k = Some c -> (k < List.length (writes la))%nat -> exists t m, nth_error reqs k = Some (t, m) /\ starts c la = [call_request m]) /\
    (forall l1 c r l2, l = l1 ++ LDone c r :: l2 -> exists k t m a, nth_error cs k = Some c /\ nth_error reqs k = Some (t, m) /\ nth_error reps k = Some (t, a) /\
       r = marshalR t a /\ (forall sp, call_result m r sp = returns m a) /\
       exists la y lb, l1 = la ++ LWrite y (marshalT t m) :: lb /\ List.length (writes la) = k /\ starts c la = [call_request m]) /\
    (forall l1 c r l2 k k' c', l = l1 ++ LDone c r :: l2 -> nth_error cs k = Some c -> nth_error cs k' = Some c' -> starts c' l1 = [] -> (k < k')%nat).
Proof. exact @four_serial. Qed.
Print Assumptions C81_serial.
(** Without failures: the client lives, the server goes on serving ... *)
Theorem C81_alive : forall W St Sd c (h : os W) w L view (ns : NineServer St) x log A dview (dns : NineServer Sd) d0 E remote srn crn opt C n0 l n u d,
  IOunit c = 8192 -> decent c h -> runs_text h L view ns -> fresh_server h c w L (view x) -> runs_debug ns A dview dns -> wraps A (dview d0) (x, log) ->
  (forall j, e_write E j = None) -> connected dns E remote srn crn opt C true true d0 n0 -> wsteps dns E remote srn crn opt C cut n0 l n u d -> proper_calls modest l ->
  g_dead (n_client n) = false /\ ~ In LEof l /\ ~ In LFatal l /\ n_end n = false /\ n_server n <> None /\ w_open (GoWp.rest (n_mem n)) = true.
Proof.
  intros W St Sd c h w L view ns x log A dview dns d0 E remote srn crn opt C n0 l n u d HI HD HT HM HW HA HE HC.
  exact (well_alive dns E remote srn crn opt C HE d0 (four_fitting c h w L view ns x log A dview dns d0 HI HD HT HM HW HA) (four_answering c h w L view ns x log A dview dns d0 HI HD HT HM HW HA) n0 HC l n u d).
Qed.
Print Assumptions C81_alive.
(** ... from every such state one can go on to where every call has returned ... *)
Theorem C81_returns : forall W St Sd c (h : os W) w L view (ns : NineServer St) x log A dview (dns : NineServer Sd) d0 E remote srn crn opt C n0 l n u d,
  IOunit c = 8192 -> decent c h -> runs_text h L view ns -> fresh_server h c w L (view x) -> runs_debug ns A dview dns -> wraps A (dview d0) (x, log) ->
  (forall j, e_write E j = None) -> connected dns E remote srn crn opt C true true d0 n0 -> wsteps dns E remote srn crn opt C cut n0 l n u d -> proper_calls modest l -> (forall t, ~ In (LTag t) l) ->
  exists l' n' u' d', wmoves dns E remote srn crn opt C cut n u d l' n' u' d' /\ forall c q, In (LStart c q) (l ++ l') -> exists r, In (LDone c r) (l ++ l').
Proof.
  intros W St Sd c h w L view ns x log A dview dns d0 E remote srn crn opt C n0 l n u d HI HD HT HM HW HA HE HC.
  exact (well_returns dns E remote srn crn opt C HE d0 (four_fitting c h w L view ns x log A dview dns d0 HI HD HT HM HW HA) (four_answering c h w L view ns x log A dview dns d0 HI HD HT HM HW HA) n0 HC l n u d).
Qed.
Print Assumptions C81_returns.
(** ... and when nothing more can happen by itself, every call has returned. *)
Theorem C81_stopped : forall W St Sd c (h : os W) w L view (ns : NineServer St) x log A dview (dns : NineServer Sd) d0 E remote srn crn opt C n0 l n u d l' n' u' d',
  IOunit c = 8192 -> decent c h -> runs_text h L view ns -> fresh_server h c w L (view x) -> runs_debug ns A dview dns -> wraps A (dview d0) (x, log) ->
  (forall j, e_write E j = None) -> connected dns E remote srn crn opt C true true d0 n0 -> wsteps dns E remote srn crn opt C cut n0 l n u d -> proper_calls modest l -> (forall t, ~ In (LTag t) l) ->
  wmoves dns E remote srn crn opt C cut n u d l' n' u' d' -> (forall l2 n2 u2 d2, wstep dns E remote srn crn opt C cut n' u' d' l2 n2 u2 d2 -> exists a, In a l2 /\ ~ own a) ->
  forall c q, In (LStart c q) (l ++ l') -> exists r, In (LDone c r) (l ++ l').
Proof.
  intros W St Sd c h w L view ns x log A dview dns d0 E remote srn crn opt C n0 l n u d l' n' u' d' HI HD HT HM HW HA HE HC.
  exact (well_stopped dns E remote srn crn opt C HE d0 (four_fitting c h w L view ns x log A dview dns d0 HI HD HT HM HW HA) (four_answering c h w L view ns x log A dview dns d0 HI HD HT HM HW HA) n0 HC l n u d l' n' u' d').
Qed.
Print Assumptions C81_stopped.
(** What one call has written, a later call reads (as in C78). *)
Theorem C81_read_after_write : forall W St Sd c (h : os W) content w L view (ns : NineServer St) x log A dview (dns : NineServer Sd) d0 E remote srn crn opt C n0 l n cw cr fid o d k rw rr a b l1 l2 l3 l4 sp sp', keeps h content -> IOunit c = 8192 -> decent c h -> runs_text h L view ns -> fresh_server h c w L (view x) -> runs_debug ns A dview dns -> wraps A (dview d0) (x, log) ->
  (forall j, e_write E j = None) -> connected dns E remote srn crn opt C true true d0 n0 -> jsteps dns E remote srn crn opt C n0 l n -> proper_calls modest l ->
  let mw := MTwrite (mkTwritePkt fid o d) in let mr := MTread (mkTreadPkt fid o k) in
  fitsT mw -> fitsT mr -> (Z.to_nat k <= List.length d)%nat ->
  l = l1 ++ LDone cw rw :: l2 -> In (LStart cw (call_request mw)) l -> call_result mw rw sp = CallRet (MRwrite a) None ->
  l = l3 ++ LDone cr rr :: l4 -> In (LStart cr (call_request mr)) l -> call_result mr rr sp' = CallRet (MRread (mkRreadPkt b)) None ->
  starts cr l1 = [] ->
  (forall c' q, In (LStart c' q) l3 -> c' <> cw -> c' <> cr -> (exists m, q = call_request m /\ fitsT m /\ looks fid m) \/ exists lx r ly, l = lx ++ LDone c' r :: ly /\ starts cw lx = []) ->
  b = firstn (Z.to_nat k) d \/
  exists reqs more reps x' u f, writes l = map enc_req (reqs ++ more) /\ Forall ok_req (reqs ++ more) /\ answers ns false x reqs = Some (reps, (true, x')) /\
    UfsRun.holds c L (view x') u /\ u fid = Some f /\ N.land (QID_Type (f_QID f)) QTDIR <> 0.
Proof. exact @four_stored. Qed.
Print Assumptions C81_read_after_write.
(** There is such a wrapper around every file server, in every state and with every log (for the file server: C79_exists). *)
Theorem C81_exists : forall St (ns : NineServer St) x log, exists A Sd dview (dns : NineServer Sd) d0, runs_debug ns A dview dns /\ wraps A (dview d0) (x, log).
Proof. exact @four_exists. Qed.
Print Assumptions C81_exists.
(** The calls of C79_case with all four texts: the same results, and twelve lines are logged for the six requests. *)
Example C81_case : runs_text (mended srv_cfg mem_os) t_lay (fun x => proj1_sig x) t_srv /\ fresh_server (mended srv_cfg mem_os) srv_cfg empty_world t_lay (proj1_sig t_x0) /\
  runs_debug t_srv 0 (fun x => proj1_sig x) f_srv /\ wraps 0 (proj1_sig f_x0) (t_x0, []) /\
  (exists n0 l n, connected f_srv ServerWitness.quiet net_addr 0 0 (first_opt true true) 1 true true f_x0 n0 /\
    jsteps f_srv ServerWitness.quiet net_addr 0 0 (first_opt true true) 1 n0 l n /\ seen l = s_seen /\
    List.length (f_log n) = 12%nat /\ skipn 10 (f_log n) = [str ">>> Tread fid 5, off 0, count 3"; str "<<< Rread 3"]) /\
  exists n0 l n l1 l2 l3 l4, connected f_srv ServerWitness.quiet net_addr 0 0 (first_opt true true) 1 true true f_x0 n0 /\
    jsteps f_srv ServerWitness.quiet net_addr 0 0 (first_opt true true) 1 n0 l n /\ proper_calls modest l /\
    l = l1 ++ LDone 3 (marshalR 4 (MRwrite (mkRwritePkt 5))) :: l2 /\ In (LStart 3 (call_request m_write)) l /\
    l = l3 ++ LDone 4 (marshalR 6 (MRread (mkRreadPkt (str "hel")))) :: l4 /\ In (LStart 4 (call_request m_read3)) l /\ starts 4 l1 = [] /\
    (forall c' q, In (LStart c' q) l3 -> c' <> 3%nat -> c' <> 4%nat -> (exists m, q = call_request m /\ fitsT m /\ looks 5 m) \/ exists lx r ly, l = lx ++ LDone c' r :: ly /\ starts 3 lx = []).
Proof. split; [exact (text_server_runs _ _ _)|]. split; [exact t_made|]. split; [exact (debug_server_runs t_srv 0)|]. split; [exact f_wraps|]. split; [exact f_runs_log|exact f_stored]. Qed.
