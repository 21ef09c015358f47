(** Property C80: client and server together with the debug wrapper (the flag -debug, filesystem/filesystem.go:45 and 457-459) between the server and the file server. *)
From Verif Require Import Base GoBuf CodecPrim Types Codec Msgs CodecSpec StubPrim Server ServerSpec Rpc GoSyntax Ufs UfsSpec MemOS UfsRun UfsText Debugfs DebugLemmas GoRun GoFmt GoProg GoWp
  ServerRun Client ClientSpec ClientRun ClientRunSim ClientHist ClientRunThm NetRun NetLemmas NetThm2 NetCase NetStore NetClient NetLive NetLiveCase NetEnds2 NetTidy NetStays NetWell NetWell2 NetWellCase
  UfsFits UfsStored NetUfsCase NetStored NetText NetStoredCase NetTextCase NetAlike NetChatty.
From Verif Require ServerWitness.

(** With the wrapper every sequence of requests gets the answers that the file server itself gives, and the file server comes to the same state. *)
Theorem C80_answers : forall St (ns : NineServer St) x log o reqs,
  match answers (debugfs St ns) o (x, log) reqs, answers ns o x reqs with
  | Some (reps, (o1, (x1, _))), Some (reps', (o2, x2)) => reps = reps' /\ o1 = o2 /\ x1 = x2
  | None, None => True
  | _, _ => False
  end.
Proof.
  intros St ns x log o reqs. pose proof (answers_alike forget_log _ _ (debug_alike ns) reqs o (x, log) x eq_refl) as X.
  destruct (answers (debugfs St ns) o (x, log) reqs) as [[? [? []]]|]; exact X.
Qed.
Print Assumptions C80_answers.
(** Two lines are logged for every request, in order after those already there. *)
Theorem C80_lines : forall St (ns : NineServer St) x log reqs reps st, answers (debugfs St ns) true (x, log) reqs = Some (reps, st) ->
  exists lines, snd (snd st) = log ++ lines /\ List.length lines = (2 * List.length reqs)%nat.
Proof. intros St ns x log reqs. exact (debug_lines ns reqs x log). Qed.
Print Assumptions C80_lines.
(** Every call returns the answer of the file server itself, without the wrapper, to its own request in one order of all the requests, and this order respects the time. *)
Theorem C80_serial : forall St (ns : NineServer St) K x log E remote srn crn opt C n0 l n, (forall j, e_write E j = None) -> fitting_from K ns x ->
  connected (debugfs St ns) E remote srn crn opt C true true (x, log) n0 -> jsteps (debugfs St ns) E remote srn crn opt C n0 l n -> proper_calls K l ->
  exists reqs cs reps st, writes l = map enc_req reqs /\ Forall (ok_in K) reqs /\ NoDup cs /\ List.length cs = List.length reqs /\
    answers ns false x (firstn (List.length (reads l)) reqs) = Some (reps, st) /\ reads l = map enc_rep reps /\
    (forall la lb k c, l = la ++ lb -> nth_error cs k = Some c -> (k < List.length (writes la))%nat -> exists t m, nth_error reqs k = Some (t, m) /\ starts c la = [call_request m]) /\
    (forall l1 c r l2, l = l1 ++ LDone c r :: l2 -> exists k t m a, nth_error cs k = Some c /\ nth_error reqs k = Some (t, m) /\ nth_error reps k = Some (t, a) /\
       r = marshalR t a /\ (forall sp, call_result m r sp = returns m a) /\
       exists la y lb, l1 = la ++ LWrite y (marshalT t m) :: lb /\ List.length (writes la) = k /\ starts c la = [call_request m]) /\
    (forall l1 c r l2 k k' c', l = l1 ++ LDone c r :: l2 -> nth_error cs k = Some c -> nth_error cs k' = Some c' -> starts c' l1 = [] -> (k < k')%nat).
Proof. exact @chatty_serial. Qed.
Print Assumptions C80_serial.
(** Without failures: the client lives, the server goes on serving ... *)
Theorem C80_alive : forall St (ns : NineServer St) K x log E remote srn crn opt C n0 l n u d, (forall j, e_write E j = None) -> fitting_from K ns x -> answering K ns x ->
  connected (debugfs St ns) E remote srn crn opt C true true (x, log) n0 -> wsteps (debugfs St ns) E remote srn crn opt C cut n0 l n u d -> proper_calls K l ->
  g_dead (n_client n) = false /\ ~ In LEof l /\ ~ In LFatal l /\ n_end n = false /\ n_server n <> None /\ w_open (GoWp.rest (n_mem n)) = true.
Proof.
  intros St ns K x log E remote srn crn opt C n0 l n u d HE HF HA HC.
  exact (well_alive (debugfs St ns) E remote srn crn opt C HE (x, log) (debug_fitting ns K x log HF) (debug_answering ns K x log HA) n0 HC l n u d).
Qed.
Print Assumptions C80_alive.
(** ... from every such state one can go on to where every call has returned ... *)
Theorem C80_returns : forall St (ns : NineServer St) K x log E remote srn crn opt C n0 l n u d, (forall j, e_write E j = None) -> fitting_from K ns x -> answering K ns x ->
  connected (debugfs St ns) E remote srn crn opt C true true (x, log) n0 -> wsteps (debugfs St ns) E remote srn crn opt C cut n0 l n u d -> proper_calls K l -> (forall t, ~ In (LTag t) l) ->
  exists l' n' u' d', wmoves (debugfs St ns) E remote srn crn opt C cut n u d l' n' u' d' /\ forall c q, In (LStart c q) (l ++ l') -> exists r, In (LDone c r) (l ++ l').
Proof.
  intros St ns K x log E remote srn crn opt C n0 l n u d HE HF HA HC.
  exact (well_returns (debugfs St ns) E remote srn crn opt C HE (x, log) (debug_fitting ns K x log HF) (debug_answering ns K x log HA) n0 HC l n u d).
Qed.
Print Assumptions C80_returns.
(** ... and when nothing more can happen by itself, every call has returned. *)
Theorem C80_stopped : forall St (ns : NineServer St) K x log E remote srn crn opt C n0 l n u d l' n' u' d', (forall j, e_write E j = None) -> fitting_from K ns x -> answering K ns x ->
  connected (debugfs St ns) E remote srn crn opt C true true (x, log) n0 -> wsteps (debugfs St ns) E remote srn crn opt C cut n0 l n u d -> proper_calls K l -> (forall t, ~ In (LTag t) l) ->
  wmoves (debugfs St ns) E remote srn crn opt C cut n u d l' n' u' d' -> (forall l2 n2 u2 d2, wstep (debugfs St ns) E remote srn crn opt C cut n' u' d' l2 n2 u2 d2 -> exists a, In a l2 /\ ~ own a) ->
  forall c q, In (LStart c q) (l ++ l') -> exists r, In (LDone c r) (l ++ l').
Proof.
  intros St ns K x log E remote srn crn opt C n0 l n u d l' n' u' d' HE HF HA HC.
  exact (well_stopped (debugfs St ns) E remote srn crn opt C HE (x, log) (debug_fitting ns K x log HF) (debug_answering ns K x log HA) n0 HC l n u d l' n' u' d').
Qed.
Print Assumptions C80_stopped.
(** The text of filesystem.go inside the wrapper: what one call has written, a later call reads (as in C78 and C79). *)
Theorem C80_read_after_write : forall W St c (h : os W) content w L view (ns : NineServer St) x log E remote srn crn opt C n0 l n cw cr fid o d k rw rr a b l1 l2 l3 l4 sp sp',
  IOunit c = 8192 -> decent c h -> keeps h content -> runs_text h L view ns -> fresh_server h c w L (view x) ->
  (forall j, e_write E j = None) -> connected (debugfs St ns) E remote srn crn opt C true true (x, log) n0 -> jsteps (debugfs St ns) E remote srn crn opt C n0 l n -> proper_calls modest l ->
  let mw := MTwrite (mkTwritePkt fid o d) in let mr := MTread (mkTreadPkt fid o k) in
  fitsT mw -> fitsT mr -> (Z.to_nat k <= List.length d)%nat ->
  l = l1 ++ LDone cw rw :: l2 -> In (LStart cw (call_request mw)) l -> call_result mw rw sp = CallRet (MRwrite a) None ->
  l = l3 ++ LDone cr rr :: l4 -> In (LStart cr (call_request mr)) l -> call_result mr rr sp' = CallRet (MRread (mkRreadPkt b)) None ->
  starts cr l1 = [] ->
  (forall c' q, In (LStart c' q) l3 -> c' <> cw -> c' <> cr -> (exists m, q = call_request m /\ fitsT m /\ looks fid m) \/ exists lx r ly, l = lx ++ LDone c' r :: ly /\ starts cw lx = []) ->
  b = firstn (Z.to_nat k) d \/
  exists reqs more reps x' u f, writes l = map enc_req (reqs ++ more) /\ Forall ok_req (reqs ++ more) /\ answers ns false x reqs = Some (reps, (true, x')) /\
    UfsRun.holds c L (view x') u /\ u fid = Some f /\ N.land (QID_Type (f_QID f)) QTDIR <> 0.
Proof. exact @chatty_stored. Qed.
Print Assumptions C80_read_after_write.
(** The calls of C79_case with the wrapper: the same results, and twelve lines are logged for the six requests; the last two are those of the read. *)
Example C80_case : (exists n0 l n, connected (debugfs _ t_srv) ServerWitness.quiet net_addr 0 0 (first_opt true true) 1 true true (t_x0, []) n0 /\
    jsteps (debugfs _ t_srv) ServerWitness.quiet net_addr 0 0 (first_opt true true) 1 n0 l n /\ seen l = s_seen /\
    List.length (d_log n) = 12%nat /\ skipn 10 (d_log n) = [str ">>> Tread fid 5, off 0, count 3"; str "<<< Rread 3"]) /\
  exists n0 l n l1 l2 l3 l4, connected (debugfs _ t_srv) ServerWitness.quiet net_addr 0 0 (first_opt true true) 1 true true (t_x0, []) n0 /\
    jsteps (debugfs _ t_srv) ServerWitness.quiet net_addr 0 0 (first_opt true true) 1 n0 l n /\ proper_calls modest l /\
    l = l1 ++ LDone 3 (marshalR 4 (MRwrite (mkRwritePkt 5))) :: l2 /\ In (LStart 3 (call_request m_write)) l /\
    l = l3 ++ LDone 4 (marshalR 6 (MRread (mkRreadPkt (str "hel")))) :: l4 /\ In (LStart 4 (call_request m_read3)) l /\ starts 4 l1 = [] /\
    (forall c' q, In (LStart c' q) l3 -> c' <> 3%nat -> c' <> 4%nat -> (exists m, q = call_request m /\ fitsT m /\ looks 5 m) \/ exists lx r ly, l = lx ++ LDone c' r :: ly /\ starts 3 lx = []).
Proof. split; [exact d_runs_log|exact d_stored]. Qed.
