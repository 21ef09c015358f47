(** Properties C64-C66: the Go text of client.go, run statement by statement, its goroutines interleaved in any way. *)
From Verif Require Import Base GoBuf CodecPrim Types Codec Msgs CodecSpec StubPrim Server ServerSpec Rpc GoSyntax Ufs GoRun GoFmt GoProg GoWp ServerRun ServerWitness
  Client ClientSpec ClientLemmas7 ClientRun ClientRunSim ClientRunNew ClientRunExec ClientHist ClientRunThm ClientRunCases.
Local Opaque NumTags all_tags.

(** * C64 *)
(** NewClient: an option fails, and nothing is started; or the client is made, with its tags in their channel, and two goroutines are started. *)
Theorem C64_new_fails : forall RN er o (s : memory nworld),
  exists s', ends protocol_program (lib_new RN (inl er)) (start (str "NewClient") [] [VObj (str "ClientOpt") o]) s (Returned [VNil; VErr er]) s' /\
    w_gos (rest s') = w_gos (rest s) /\ w_net (rest s') = w_net (rest s) /\ (forall a, a <> free s -> cells s' a = cells s a) /\ (forall x, x <> w_next (rest s) -> w_chans (rest s') x = w_chans (rest s) x).
Proof. exact text_new_fails. Qed.
Print Assumptions C64_new_fails.
Theorem C64_new : forall RN wn rn tn msz tr hn o (s : memory nworld), let C := free s in
  exists s', ends protocol_program (lib_new RN (sets wn rn tn msz tr hn)) (start (str "NewClient") [] [VObj (str "ClientOpt") o]) s (Returned [VPtr (str "Client") C []; VNil]) s' /\
    new_memory C (w_next (rest s)) wn rn tn msz tr hn s s' /\
    w_gos (rest s') = w_gos (rest s) ++ [(FUser (str "Client.IO") [VPtr (str "Client") C []], []); (FUser (str "Client.readNetPackets") [VPtr (str "Client") C []], [])].
Proof. exact text_new. Qed.
Print Assumptions C64_new.
(** GetTag and GetFID, when nothing else runs in between; they are the steps [t_gettag] and [t_getfid] of an execution. *)
Theorem C64_gettag : forall RN opt C x tg fc fs tn fn tr msz fid L dd s c t b, cells s C = Some (v_client (VObj x tg) fc fs tn fn tr msz fid L dd) ->
  w_chans (rest s) tg = Some c -> ch_buf c = VU 16 t :: b ->
  ends protocol_program (lib_new RN opt) (start (str "Client.GetTag") [VPtr (str "Client") C []] []) s (Returned [VU 16 t]) (set_chan s tg (mkCh (ch_cap c) b (ch_closed c))).
Proof. exact GetTag_runs. Qed.
Print Assumptions C64_gettag.
Theorem C64_getfid : forall RN opt C tags fc fs tn fn tr msz fid L dd s, cells s C = Some (v_client tags fc fs tn fn tr msz fid L dd) ->
  ends protocol_program (lib_new RN opt) (start (str "Client.GetFID") [VPtr (str "Client") C []] []) s (Returned [VU 32 ((fid + 1) mod 18446744073709551616 mod 4294967296)])
    (with_cell s C (v_client tags fc fs tn fn tr msz ((fid + 1) mod 18446744073709551616) L dd)).
Proof. exact GetFID_runs. Qed.
Print Assumptions C64_getfid.
(** Every execution of the text is one of the model: the same calls, packets, replies, tags, fids and the same end. *)
Theorem C64_client : forall RN opt net tr hn C g0 l g, opened RN opt net tr hn C g0 -> tsteps RN opt C g0 l g ->
  exists ls k, csteps tr (init hn) ls k /\ seen ls = seen l /\ crashed k = g_dead g /\ (exists up, packets net = reads l ++ up) /\
    (g_dead g = false -> (forall c, state_as (callers k c) (g_users g c)) /\ forall m, In m (g_threads g) -> ~ lost RN opt m (g_mem g)).
Proof. exact text_client. Qed.
Print Assumptions C64_client.
(** From the text alone: two calls, the second one started before the first is answered; the answers come in the other order and in pieces. *)
Example C64_case : opened 0 (first_opt true true) two_nets true true 1 (first_state true true two_nets) /\
  exists l g, tsteps 0 (first_opt true true) 1 (first_state true true two_nets) l g /\
    seen l = [LStart 0 q0; LStart 1 q2; LWrite 0 (set_tag 1 q0); LWrite 0 (set_tag 2 q2); LRead b2; LRead b1; LDone 1 b2; LDone 0 b1; LFid 2; LTag 3] /\
    g_users g 0%nat = UDone q0 b1 /\ g_users g 1%nat = UDone q2 b2 /\ g_dead g = false.
Proof. exact (conj (first_opened true true two_nets) two_run). Qed.

(** * C65 *)
(** Whatever the server sends: a reply is a packet that was read before; the call was started before, once, and has no other reply. *)
Theorem C65_replies : forall RN opt net tr hn C g0 l1 c r l2 g, opened RN opt net tr hn C g0 -> tsteps RN opt C g0 (l1 ++ LDone c r :: l2) g ->
  In (LRead r) l1 /\ (exists q, starts c l1 = [q] /\ starts c (l1 ++ LDone c r :: l2) = [q]) /\ dones c (l1 ++ LDone c r :: l2) = [r] /\ tr = true /\ hn = true.
Proof. exact (fun RN opt net tr hn C g0 l1 c r l2 g O => text_reply RN opt net tr hn C g0 O l1 c r l2 g). Qed.
Print Assumptions C65_replies.
(** Packets are read in the order in which they come in, each once. *)
Theorem C65_reads : forall RN opt net tr hn C g0 l g, opened RN opt net tr hn C g0 -> tsteps RN opt C g0 l g -> exists up, packets net = reads l ++ up.
Proof. exact (fun RN opt net tr hn C g0 l g O => text_reads RN opt net tr hn C g0 O l g). Qed.
Print Assumptions C65_reads.
(** GetTag never returns a tag twice, GetFID counts. *)
Theorem C65_tags : forall RN opt net tr hn C g0 l g, opened RN opt net tr hn C g0 -> tsteps RN opt C g0 l g ->
  NoDup (got_tags l) /\ forall t, In t (got_tags l) -> 1 <= t <= 65534.
Proof. exact (fun RN opt net tr hn C g0 l g O => text_gettags RN opt net tr hn C g0 O l g). Qed.
Print Assumptions C65_tags.
Theorem C65_fids : forall RN opt net tr hn C g0 l g k, opened RN opt net tr hn C g0 -> tsteps RN opt C g0 l g -> (k < List.length (got_fids l))%nat ->
  nth_error (got_fids l) k = Some ((N.of_nat k + 2) mod 4294967296).
Proof. exact (fun RN opt net tr hn C g0 l g k O => text_getfids RN opt net tr hn C g0 O l g k). Qed.
Print Assumptions C65_fids.
(** At a server that answers requests once and with their tag, in any order: the client stays alive, and a call gets the answer to its request. *)
Theorem C65_honest : forall RN opt net C g0 srv l u f g, opened RN opt net true true C g0 -> tsteps RN opt C g0 l g -> answers_with_tag srv -> honest srv l u f ->
  g_dead g = false /\ forall c q r, g_users g c = UDone q r -> exists t, 1 <= t <= 65534 /\ srv (set_tag t q) r.
Proof. exact text_honest. Qed.
Print Assumptions C65_honest.
Example C65_case : answers_with_tag any_answer /\ exists l g u f, tsteps 0 (first_opt true true) 1 (first_state true true two_nets) l g /\ honest any_answer l u f /\
  g_users g 0%nat = UDone q0 b1 /\ g_users g 1%nat = UDone q2 b2.
Proof. exact two_honest. Qed.

(** * C66: the client does not live through ... *)
(** ... the end of the connection, *)
Theorem C66_lost_connection_refuted :
  ~ (forall RN opt net tr hn C g0 l g, opened RN opt net tr hn C g0 -> tsteps RN opt C g0 l g -> ~ In LFatal l -> (forall b, ~ In (LRead b) l) -> g_dead g = false).
Proof. exact text_lost. Qed.
Print Assumptions C66_lost_connection_refuted.
(** ... a reply to no request, *)
Theorem C66_hostile_crash_refuted :
  ~ (forall RN opt net C g0 l g, opened RN opt net true true C g0 -> tsteps RN opt C g0 l g -> ~ In LEof l -> ~ In LFatal l -> g_dead g = false).
Proof. exact text_hostile. Qed.
Print Assumptions C66_hostile_crash_refuted.
(** ... any reply at all if there is no trace function, *)
Theorem C66_untraced_refuted :
  ~ (forall RN opt net C g0 srv l u f g, opened RN opt net false true C g0 -> tsteps RN opt C g0 l g -> answers_with_tag srv -> honest srv l u f -> g_dead g = false).
Proof. exact text_untraced. Qed.
Print Assumptions C66_untraced_refuted.
(** ... a write that fails. *)
Theorem C66_write_refuted :
  ~ (forall RN opt net C g0 l g, opened RN opt net true true C g0 -> tsteps RN opt C g0 l g -> ~ In LEof l -> ~ In LCrash l -> g_dead g = false).
Proof. exact text_fatal. Qed.
Print Assumptions C66_write_refuted.
(** A reply sent twice: there is a call that is not answered, whatever happens. *)
Theorem C66_hostile_wedge_refuted :
  ~ (forall RN opt net C g0 l g c q n, opened RN opt net true true C g0 -> tsteps RN opt C g0 l g -> g_dead g = false -> g_users g c = UWait q n ->
       exists l' g' r, tsteps RN opt C g l' g' /\ In (LDone c r) l').
Proof. exact text_wedge. Qed.
Print Assumptions C66_hostile_wedge_refuted.
(** ... and the same in general: a reply that is handed to a channel where nobody waits ends all calls. *)
Theorem C66_wedged : forall RN opt net tr hn C g0 l g m x n r m', opened RN opt net tr hn C g0 -> tsteps RN opt C g0 l g -> g_dead g = false ->
  In m (g_threads g) -> step protocol_program m = Ask (RSend (VObj x n) (VBytes r)) m' -> (forall c q, g_users g c <> UWait q n) ->
  forall l' g', tsteps RN opt C g l' g' -> (forall c r, ~ In (LDone c r) l') /\ (g_dead g' = false -> forall c q n', g_users g c = UWait q n' -> exists n'', g_users g' c = UWait q n'').
Proof. exact text_wedged. Qed.
Print Assumptions C66_wedged.
(** What is left: without any of these, that is at a server that answers once and with the tag, it lives (C65), and here it lives on. *)
Theorem C66_lives_partial : forall RN opt net C g0 srv l u f g, opened RN opt net true true C g0 -> tsteps RN opt C g0 l g -> answers_with_tag srv -> honest srv l u f -> g_dead g = false.
Proof. exact (fun RN opt net C g0 srv l u f g O R A H => proj1 (text_honest RN opt net C g0 srv l u f g O R A H)). Qed.
Print Assumptions C66_lives_partial.
Example C66_case : exists l g, tsteps 0 (first_opt true true) 1 (first_state true true two_nets) l g /\
    seen l = two_seen /\ g_users g 0%nat = UDone q0 b1 /\ g_users g 1%nat = UDone q2 b2 /\ g_dead g = false.
Proof. exact two_run. Qed.
