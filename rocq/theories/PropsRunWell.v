(** Property C76: a client and a server that run from the texts of client.go and server.go, when nothing fails: neither stops, and every call returns. *)
From Verif Require Import Base GoBuf CodecPrim Types Codec Msgs CodecSpec StubPrim Server ServerSpec Rpc GoSyntax Ufs GoRun GoFmt GoProg GoWp
  ServerRun Client ClientSpec ClientRun ClientRunSim ClientHist ClientRunThm NetRun NetLemmas NetThm2 NetCase NetStore NetClient NetLive NetLiveCase NetEnds2 NetTidy NetStays NetWell NetWell2 NetWellCase.
From Verif Require ServerWitness.

(** No write of the client fails, the connection is not cut, the file server does not panic, and what has arrived on either side never ends inside the first seven bytes
    of a message ([cut]).  Then the client does not find the end of the connection, does not die, and the server goes on serving and leaves the connection open. *)
Theorem C76_alive : forall St (ns : NineServer St) (K : tmsg -> Prop) E remote srn crn opt C x n0 l n u d,
  (forall j, e_write E j = None) -> fitting_from K ns x -> (forall reqs, Forall (ok_in K) reqs -> answers ns false x reqs <> None) ->
  connected ns E remote srn crn opt C true true x n0 -> wsteps ns E remote srn crn opt C cut n0 l n u d -> proper_calls K l ->
  g_dead (n_client n) = false /\ ~ In LEof l /\ ~ In LFatal l /\ n_end n = false /\ n_server n <> None /\ w_open (GoWp.rest (n_mem n)) = true.
Proof. intros St ns K E remote srn crn opt C x n0 l n u d HE HF HA HC. exact (well_alive ns E remote srn crn opt C HE x HF HA n0 HC l n u d). Qed.
Print Assumptions C76_alive.
(** From every such state one can go on, without a failure and without new calls, to where every call that was made has returned ... *)
Theorem C76_returns : forall St (ns : NineServer St) (K : tmsg -> Prop) E remote srn crn opt C x n0 l n u d,
  (forall j, e_write E j = None) -> fitting_from K ns x -> (forall reqs, Forall (ok_in K) reqs -> answers ns false x reqs <> None) ->
  connected ns E remote srn crn opt C true true x n0 -> wsteps ns E remote srn crn opt C cut n0 l n u d -> proper_calls K l -> (forall t, ~ In (LTag t) l) ->
  exists l' n' u' d', wmoves ns E remote srn crn opt C cut n u d l' n' u' d' /\ forall c q, In (LStart c q) (l ++ l') -> exists r, In (LDone c r) (l ++ l').
Proof. intros St ns K E remote srn crn opt C x n0 l n u d HE HF HA HC. exact (well_returns ns E remote srn crn opt C HE x HF HA n0 HC l n u d). Qed.
Print Assumptions C76_returns.
(** ... whatever happens by itself, it does not go on forever ... *)
Theorem C76_finite : forall St (ns : NineServer St) E remote srn crn opt C x n0 l n u d,
  connected ns E remote srn crn opt C true true x n0 -> wsteps ns E remote srn crn opt C cut n0 l n u d ->
  ~ exists f : nat -> @net St * bytes * bytes, f 0%nat = (n, u, d) /\
      forall i, let '(n1, u1, d1) := f i in let '(n2, u2, d2) := f (S i) in exists l', wstep ns E remote srn crn opt C cut n1 u1 d1 l' n2 u2 d2 /\ forall a, In a l' -> own a.
Proof. intros St ns E remote srn crn opt C x n0 l n u d HC. exact (well_finite ns E remote srn crn opt C x n0 HC l n u d). Qed.
Print Assumptions C76_finite.
(** ... and when nothing more can happen by itself, every call has returned. *)
Theorem C76_stopped : forall St (ns : NineServer St) (K : tmsg -> Prop) E remote srn crn opt C x n0 l n u d l' n' u' d',
  (forall j, e_write E j = None) -> fitting_from K ns x -> (forall reqs, Forall (ok_in K) reqs -> answers ns false x reqs <> None) ->
  connected ns E remote srn crn opt C true true x n0 -> wsteps ns E remote srn crn opt C cut n0 l n u d -> proper_calls K l -> (forall t, ~ In (LTag t) l) ->
  wmoves ns E remote srn crn opt C cut n u d l' n' u' d' -> (forall l2 n2 u2 d2, wstep ns E remote srn crn opt C cut n' u' d' l2 n2 u2 d2 -> exists a, In a l2 /\ ~ own a) ->
  forall c q, In (LStart c q) (l ++ l') -> exists r, In (LDone c r) (l ++ l').
Proof. intros St ns K E remote srn crn opt C x n0 l n u d l' n' u' d' HE HF HA HC. exact (well_stopped ns E remote srn crn opt C HE x HF HA n0 HC l n u d l' n' u' d'). Qed.
Print Assumptions C76_stopped.
(** The condition on the pieces is needed: without a failure, but with a piece that ends inside a header, the client takes the connection to be at its end. *)
Theorem C76_pieces_refuted : ~ (forall St (ns : NineServer St) (K : tmsg -> Prop) E remote srn crn opt C x n0 l n u d,
  (forall j, e_write E j = None) -> fitting_from K ns x -> (forall reqs, Forall (ok_in K) reqs -> answers ns false x reqs <> None) ->
  connected ns E remote srn crn opt C true true x n0 -> wsteps ns E remote srn crn opt C (fun _ => True) n0 l n u d -> proper_calls K l -> ~ In LEof l).
Proof. intros H. destruct pieces_end as (n0 & l & n & H1 & H2 & H3 & H4). exact (H bytes onefile (fun _ => True) ServerWitness.quiet net_addr 0 0 (first_opt true true) 1 (str "old") n0 l n _ _ (fun _ => eq_refl) (fitting_fits _ _ _ onefile_fits) (onefile_answers _) H1 H2 H3 H4). Qed.
Print Assumptions C76_pieces_refuted.
(** A request that arrives in pieces of 12 and 7 bytes, and its answer in pieces of 7 and 12: first the state when the first piece has arrived, then the rest by itself. *)
Example C76_case :
  (forall j, e_write ServerWitness.quiet j = None) /\ fitting_from (fun _ => True) onefile (str "old") /\ (forall reqs, Forall (ok_in (fun _ => True)) reqs -> answers onefile false (str "old") reqs <> None) /\
  exists n0 l n l' n', connected onefile ServerWitness.quiet net_addr 0 0 (first_opt true true) 1 true true (str "old") n0 /\
    wsteps onefile ServerWitness.quiet net_addr 0 0 (first_opt true true) 1 cut n0 l n (firstn 12 (marshalT 1 m_version)) [] /\ proper_calls (fun _ => True) l /\ (forall t, ~ In (LTag t) l) /\
    seen l = [LStart 0 (call_request m_version); LWrite 0 (marshalT 1 m_version)] /\
    wmoves onefile ServerWitness.quiet net_addr 0 0 (first_opt true true) 1 cut n (firstn 12 (marshalT 1 m_version)) [] l' n'
      (marshalT 1 m_version) (marshalR 1 (MRversion (mkRversionPkt 8192 (str "9P2000")))) /\
    seen l' = [LRead (marshalR 1 (MRversion (mkRversionPkt 8192 (str "9P2000")))); LDone 0 (marshalR 1 (MRversion (mkRversionPkt 8192 (str "9P2000"))))].
Proof. split; [reflexivity|]. split; [exact (fitting_fits _ _ _ onefile_fits)|]. split; [exact (onefile_answers _)|]. exact well_goes_on. Qed.
