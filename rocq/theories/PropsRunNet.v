(** Property C73: a client and a server that run from the texts of client.go and server.go, with a network between them that delivers bytes late, in
    pieces of any size, and may fail. *)
From Verif Require Import Base GoBuf CodecPrim Types Codec Msgs CodecSpec StubPrim Server ServerSpec Rpc GoSyntax Ufs GoRun GoFmt GoProg GoWp
  ServerRun Client ClientSpec ClientRun ClientRunSim ClientHist ClientRunThm NetRun NetLemmas NetThm2 NetCase NetStore.
From Verif Require ServerWitness.

(** Any number of calls at the same time, in any execution: there is one order of the requests that have been written (each the request of a different
    call), such that what the client has read are the answers of the file server to the first of them, made one after another from its first state;
    a call that returns has written its request before, its result is what the answer to its own request says; and a call that starts after
    another has returned comes later in that order. *)
Theorem C73_serial : forall St (ns : NineServer St) (K : tmsg -> Prop) E remote srn crn opt C x n0 l n,
  (forall j, e_write E j = None) -> fitting_from K ns x -> connected ns E remote srn crn opt C true true x n0 ->
  jsteps ns E remote srn crn opt C n0 l n -> proper_calls K l ->
  exists reqs cs reps st, writes l = map enc_req reqs /\ Forall (ok_in K) reqs /\ NoDup cs /\ List.length cs = List.length reqs /\
    answers ns false x (firstn (List.length (reads l)) reqs) = Some (reps, st) /\ reads l = map enc_rep reps /\
    (forall la lb k c, l = la ++ lb -> nth_error cs k = Some c -> (k < List.length (writes la))%nat -> exists t m, nth_error reqs k = Some (t, m) /\ starts c la = [call_request m]) /\
    (forall l1 c r l2, l = l1 ++ LDone c r :: l2 -> exists k t m a, nth_error cs k = Some c /\ nth_error reqs k = Some (t, m) /\ nth_error reps k = Some (t, a) /\
       r = marshalR t a /\ (forall sp, call_result m r sp = returns m a) /\
       exists la y lb, l1 = la ++ LWrite y (marshalT t m) :: lb /\ List.length (writes la) = k /\ starts c la = [call_request m]) /\
    (forall l1 c r l2 k k' c', l = l1 ++ LDone c r :: l2 -> nth_error cs k = Some c -> nth_error cs k' = Some c' -> starts c' l1 = [] -> (k < k')%nat).
Proof. intros St ns K E remote srn crn opt C x n0 l n HE HF HC. exact (net_serial ns E remote srn crn opt C HE x HF n0 HC l n). Qed.
Print Assumptions C73_serial.
(** Before the connection has ended the client does not die. *)
Theorem C73_alive : forall St (ns : NineServer St) (K : tmsg -> Prop) E remote srn crn opt C x n0 l n,
  (forall j, e_write E j = None) -> fitting_from K ns x -> connected ns E remote srn crn opt C true true x n0 ->
  jsteps ns E remote srn crn opt C n0 l n -> proper_calls K l -> ~ In LEof l -> ~ In LFatal l -> g_dead (n_client n) = false.
Proof. intros St ns K E remote srn crn opt C x n0 l n HE HF HC. exact (net_alive ns E remote srn crn opt C HE x HF n0 HC l n). Qed.
Print Assumptions C73_alive.
(** It is enough that every single answer of the file server fits into a message. *)
Theorem C73_fitting : forall (K : tmsg -> Prop) St (ns : NineServer St) x, fitting ns -> fitting_from K ns x.
Proof. exact @fitting_fits. Qed.
Print Assumptions C73_fitting.
(** A file server with one file: a version request, and when it has returned a write and a read at the same time, over a network that delivers in
    pieces.  The read returns what the write has written. *)
Example C73_case :
  (forall j, e_write ServerWitness.quiet j = None) /\ fitting_from (fun _ => True) onefile (str "old") /\
  exists n0 l n, connected onefile ServerWitness.quiet net_addr 0 0 (first_opt true true) 1 true true (str "old") n0 /\
    jsteps onefile ServerWitness.quiet net_addr 0 0 (first_opt true true) 1 n0 l n /\ proper_calls (fun _ => True) l /\
    seen l =
      [LStart 0 (call_request m_version); LWrite 0 (marshalT 1 m_version);
       LRead (marshalR 1 (MRversion (mkRversionPkt 8192 (str "9P2000")))); LDone 0 (marshalR 1 (MRversion (mkRversionPkt 8192 (str "9P2000"))));
       LStart 2 (call_request m_read); LStart 1 (call_request m_write); LWrite 0 (marshalT 2 m_write); LWrite 0 (marshalT 3 m_read);
       LRead (marshalR 2 (MRwrite (mkRwritePkt 5))); LDone 1 (marshalR 2 (MRwrite (mkRwritePkt 5)));
       LRead (marshalR 3 (MRread (mkRreadPkt (str "hello")))); LDone 2 (marshalR 3 (MRread (mkRreadPkt (str "hello"))))].
Proof. split; [reflexivity|]. split; [exact (fitting_fits _ _ _ onefile_fits)|]. exact three_calls. Qed.
