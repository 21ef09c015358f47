(** Property C74: a client and a server that run from the texts of client.go and server.go do not block each other. *)
From Verif Require Import Base GoBuf CodecPrim Types Codec Msgs CodecSpec StubPrim Server ServerSpec Rpc GoSyntax Ufs GoRun GoFmt GoProg GoWp
  ServerRun Client ClientSpec ClientRun ClientRunSim ClientHist ClientRunThm NetRun NetLemmas NetThm2 NetCase NetStore NetClient NetLive NetLiveCase.
From Verif Require ServerWitness.

(** In any execution, with any number of calls at the same time, over a network that may have failed: as long as the client has not died and one of its
    calls has not returned, something can happen by itself (no new call, no new failure).  Nobody has used GetTag (a tag that is never given back). *)
Theorem C74_live : forall St (ns : NineServer St) (K : tmsg -> Prop) E remote srn crn opt C x n0 l n c q,
  (forall j, e_write E j = None) -> fitting_from K ns x -> connected ns E remote srn crn opt C true true x n0 ->
  jsteps ns E remote srn crn opt C n0 l n -> proper_calls K l -> (forall t, ~ In (LTag t) l) -> g_dead (n_client n) = false ->
  In (LStart c q) l -> (exists r, In (LDone c r) l) \/ exists l' n', moves ns E remote srn crn opt C n l' n'.
Proof. intros St ns K E remote srn crn opt C x n0 l n c q HE HF HC. exact (net_live ns E remote srn crn opt C HE x HF n0 HC l n c q). Qed.
Print Assumptions C74_live.
(** What happens by itself is part of what can happen. *)
Theorem C74_moves : forall St (ns : NineServer St) E remote srn crn opt C n l' n', moves ns E remote srn crn opt C n l' n' -> jstep ns E remote srn crn opt C n l' n'.
Proof. exact @moves_jstep. Qed.
Print Assumptions C74_moves.
(** The first bytes of a request have arrived, and nothing else: the call has not returned. *)
Example C74_case :
  (forall j, e_write ServerWitness.quiet j = None) /\ fitting_from (fun _ => True) onefile (str "old") /\
  exists n0 l n, connected onefile ServerWitness.quiet net_addr 0 0 (first_opt true true) 1 true true (str "old") n0 /\
    jsteps onefile ServerWitness.quiet net_addr 0 0 (first_opt true true) 1 n0 l n /\ proper_calls (fun _ => True) l /\ (forall t, ~ In (LTag t) l) /\ g_dead (n_client n) = false /\
    seen l = [LStart 0 (call_request m_version); LWrite 0 (marshalT 1 m_version)] /\ n_up n = skipn 12 (marshalT 1 m_version) /\ n_down n = [].
Proof. split; [reflexivity|]. split; [exact (fitting_fits _ _ _ onefile_fits)|]. exact half_sent. Qed.
