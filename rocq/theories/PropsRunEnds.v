(** Property C75: a client and a server that run from the texts of client.go and server.go come to a stop when no new call is made, and then the calls have returned. *)
From Verif Require Import Base GoBuf CodecPrim Types Codec Msgs CodecSpec StubPrim Server ServerSpec Rpc GoSyntax Ufs GoRun GoFmt GoProg GoWp
  ServerRun Client ClientSpec ClientRun ClientRunSim ClientHist ClientRunThm NetRun NetLemmas NetThm2 NetCase NetStore NetClient NetLive NetLiveCase NetEnds2 NetEndsCase.
From Verif Require ServerWitness.

(** No state that can be reached, with any number of calls at the same time, whatever the file server does and whether or not the network has failed, is the beginning
    of an infinite sequence of things that happen by themselves (steps of the goroutines on both sides, bytes that arrive). *)
Theorem C75_ends : forall St (ns : NineServer St) E remote srn crn opt C tr hn x n0 l n,
  connected ns E remote srn crn opt C tr hn x n0 -> jsteps ns E remote srn crn opt C n0 l n ->
  Acc (fun b a => exists l', moves ns E remote srn crn opt C a l' b) n.
Proof. exact @net_ends. Qed.
Print Assumptions C75_ends.
Theorem C75_finite : forall St (ns : NineServer St) E remote srn crn opt C tr hn x n0 l n,
  connected ns E remote srn crn opt C tr hn x n0 -> jsteps ns E remote srn crn opt C n0 l n ->
  ~ exists f : nat -> @net St, f 0%nat = n /\ forall i, exists l', moves ns E remote srn crn opt C (f i) l' (f (S i)).
Proof. exact @net_finite. Qed.
Print Assumptions C75_finite.
(** When nothing can happen by itself any more, every call that was made has returned; or the client has found the connection at its end, or could not write. *)
Theorem C75_stopped : forall St (ns : NineServer St) (K : tmsg -> Prop) E remote srn crn opt C x n0 l n l' n' c q,
  (forall j, e_write E j = None) -> fitting_from K ns x -> connected ns E remote srn crn opt C true true x n0 ->
  jsteps ns E remote srn crn opt C n0 l n -> proper_calls K l -> (forall t, ~ In (LTag t) l) ->
  msteps ns E remote srn crn opt C n l' n' -> (forall l2 n2, ~ moves ns E remote srn crn opt C n' l2 n2) ->
  In (LStart c q) l -> In LEof (l ++ l') \/ In LFatal (l ++ l') \/ exists r, In (LDone c r) (l ++ l').
Proof. intros St ns K E remote srn crn opt C x n0 l n l' n' c q HE HF HC. exact (net_stopped ns E remote srn crn opt C HE x HF n0 HC l n l' n' c q). Qed.
Print Assumptions C75_stopped.
(** It is possible to go on until all have returned, or the client is dead. *)
Theorem C75_returns : forall St (ns : NineServer St) (K : tmsg -> Prop) E remote srn crn opt C x n0 l n,
  (forall j, e_write E j = None) -> fitting_from K ns x -> connected ns E remote srn crn opt C true true x n0 ->
  jsteps ns E remote srn crn opt C n0 l n -> proper_calls K l -> (forall t, ~ In (LTag t) l) ->
  exists l' n', msteps ns E remote srn crn opt C n l' n' /\
    (g_dead (n_client n') = true \/ forall c q, In (LStart c q) (l ++ l') -> exists r, In (LDone c r) (l ++ l')).
Proof. intros St ns K E remote srn crn opt C x n0 l n HE HF HC. exact (net_returns ns E remote srn crn opt C HE x HF n0 HC l n). Qed.
Print Assumptions C75_returns.
(** The first bytes of a request have arrived, and nothing else.  What happens by itself from here makes the call return. *)
Example C75_case :
  (forall j, e_write ServerWitness.quiet j = None) /\ fitting_from (fun _ => True) onefile (str "old") /\
  exists n0 l n l' n', connected onefile ServerWitness.quiet net_addr 0 0 (first_opt true true) 1 true true (str "old") n0 /\
    jsteps onefile ServerWitness.quiet net_addr 0 0 (first_opt true true) 1 n0 l n /\ proper_calls (fun _ => True) l /\ (forall t, ~ In (LTag t) l) /\
    seen l = [LStart 0 (call_request m_version); LWrite 0 (marshalT 1 m_version)] /\
    msteps onefile ServerWitness.quiet net_addr 0 0 (first_opt true true) 1 n l' n' /\
    seen l' = [LRead (marshalR 1 (MRversion (mkRversionPkt 8192 (str "9P2000")))); LDone 0 (marshalR 1 (MRversion (mkRversionPkt 8192 (str "9P2000"))))] /\
    g_dead (n_client n') = false.
Proof. split; [reflexivity|]. split; [exact (fitting_fits _ _ _ onefile_fits)|]. exact half_goes_on. Qed.
